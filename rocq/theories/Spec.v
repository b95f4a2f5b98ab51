(** Specification: an abstract dictionary and the histories of API calls.  Nothing here
    refers to the model of the code. *)
From Verif Require Import Base.

(** ** Histories *)

(** One call of the public API, words as rune sequences and names as byte strings. *)
Inductive op :=
| OAdd (w : list Z)                          (* AddRunes *)
| OFetch (w : list Z)                        (* FetchRunes *)
| OTagID (name parent : list N)              (* TagID *)
| OTag (w : list Z) (names : list (list N))  (* FetchRunes, then AddTagSet on the node *)
| OOptimize                                  (* Optimize *)
| OReload.                                   (* save to bytes, load into a fresh index *)

(** A Go rune is a 32-bit signed integer. *)
Definition int32 (r : Z) : Prop := (-2147483648 <= r < 2147483648)%Z.

(** The words added by a history. *)
Definition added (h : list op) : list (list Z) :=
  omap (fun o => match o with OAdd w => Some w | _ => None end) h.

(** The tag names registered by a history, in order, with repetitions. *)
Definition registered (h : list op) : list (list N) :=
  omap (fun o => match o with OTagID n _ => Some n | _ => None end) h.

(** [w] can be looked up after [h]. *)
Definition present (h : list op) (w : list Z) : Prop :=
  w <> [] /\ exists w', w' ∈ added h /\ w `prefix_of` w'.

(** The tag list [names] was successfully attached to [w] during [h]. *)
Definition attached (h : list op) (w : list Z) (names : list (list N)) : Prop :=
  exists h1 h2, h = h1 ++ OTag w names :: h2 /\ present h1 w /\
                forall n, n ∈ names -> n ∈ registered h1.

Definition is_reload (o : op) : bool := match o with OReload => true | _ => false end.
Definition reloaded (h : list op) : bool := existsb is_reload h.

(** ** The abstract dictionary *)
Record dict := mkDict {
  d_words : list (list Z);                 (* prefixes of added words, oldest first *)
  d_tags : list (list N * list N);         (* (name, parent), oldest first *)
  d_notes : gmap (list Z) (gset (list N)) (* sorted tag numbers attached to a word *) }.

Definition d_empty : dict := mkDict [] [] ∅.

(** Position of a word, counted from 1. *)
Fixpoint pos_from {A} `{EqDecision A} (i : N) (l : list A) (x : A) : option N :=
  match l with
  | [] => None
  | y :: l' => if decide (y = x) then Some i else pos_from (i + 1) l' x
  end.

(** Append the missing prefixes of [pre ++ rest] longer than [pre], shortest first. *)
Fixpoint add_prefixes (ws : list (list Z)) (pre rest : list Z) : list (list Z) :=
  match rest with
  | [] => ws
  | r :: rest' =>
    let p := pre ++ [r] in
    add_prefixes (if decide (p ∈ ws) then ws else ws ++ [p]) p rest'
  end.

Definition d_find (d : dict) (w : list Z) : res N :=
  match pos_from 1 (d_words d) w with Some i => Ok i | None => Err EIndex end.

Definition d_add (d : dict) (w : list Z) : dict :=
  mkDict (add_prefixes (d_words d) [] w) (d_tags d) (d_notes d).

Definition d_tag_pos (d : dict) (n : list N) : option N := pos_from 0 (d_tags d).*1 n.

Definition d_register (d : dict) (n p : list N) : dict :=
  match d_tag_pos d n with
  | Some _ => d
  | None => mkDict (d_words d)
              (d_tags d ++ [(n, if decide (p = []) then bytes_of "----" else p)]) (d_notes d)
  end.

Definition d_ids (d : dict) (names : list (list N)) : option (list N) :=
  mapM (d_tag_pos d) names.

Definition d_note (d : dict) (w : list Z) (ids : list N) : dict :=
  mkDict (d_words d) (d_tags d)
    (<[w := {[ merge_sort N.le ids ]} ∪ default ∅ (d_notes d !! w)]> (d_notes d)).

Definition d_step (d : dict) (o : op) : dict :=
  match o with
  | OAdd w => d_add d w
  | OTagID n p => d_register d n p
  | OTag w names =>
    match pos_from 1 (d_words d) w, d_ids d names with
    | Some _, Some ids => d_note d w ids
    | _, _ => d
    end
  | OFetch _ | OOptimize | OReload => d
  end.

(** A tag or parent name that the file format can hold. *)
Definition storable_name (n : list N) : Prop := n = [] \/ length n = 4%nat.
Global Instance storable_name_dec n : Decision (storable_name n) := _.
Definition storable (d : dict) : Prop :=
  Forall (fun np => storable_name np.1 /\ storable_name np.2) (d_tags d).
Global Instance storable_dec d : Decision (storable d).
Proof. apply _. Defined.

(** The result of an operation: a node number, a tag number, or 0 for success. *)
Definition d_out (d : dict) (o : op) : res N :=
  match o with
  | OAdd w => match w with [] => Err EIndex | _ => d_find (d_add d w) w end
  | OFetch w => match w with [] => Err EIndex | _ => d_find d w end
  | OTagID n p => Ok (default (lenN (d_tags d)) (d_tag_pos d n))
  | OTag w names =>
    match pos_from 1 (d_words d) w, d_ids d names with
    | Some _, Some _ => Ok 0%N
    | _, _ => Err EIndex
    end
  | OOptimize => Ok 0%N
  | OReload => if decide (storable d) then Ok 0%N else Err EIndex
  end.

Definition d_run (h : list op) : dict := fold_left d_step h d_empty.

(** ** Well-formed UTF-8: the Unicode Standard, table 3-7 *)
Inductive wf_utf8 : list N -> Prop :=
| wf_nil : wf_utf8 []
| wf_1 a s : (a <= 0x7F)%N -> wf_utf8 s -> wf_utf8 (a :: s)
| wf_2 a b s : (0xC2 <= a <= 0xDF)%N -> (0x80 <= b <= 0xBF)%N -> wf_utf8 s -> wf_utf8 (a :: b :: s)
| wf_3 a b c s :
    (a = 0xE0 /\ 0xA0 <= b <= 0xBF \/ 0xE1 <= a <= 0xEC /\ 0x80 <= b <= 0xBF \/
     a = 0xED /\ 0x80 <= b <= 0x9F \/ 0xEE <= a <= 0xEF /\ 0x80 <= b <= 0xBF)%N ->
    (0x80 <= c <= 0xBF)%N -> wf_utf8 s -> wf_utf8 (a :: b :: c :: s)
| wf_4 a b c e s :
    (a = 0xF0 /\ 0x90 <= b <= 0xBF \/ 0xF1 <= a <= 0xF3 /\ 0x80 <= b <= 0xBF \/
     a = 0xF4 /\ 0x80 <= b <= 0x8F)%N ->
    (0x80 <= c <= 0xBF)%N -> (0x80 <= e <= 0xBF)%N -> wf_utf8 s -> wf_utf8 (a :: b :: c :: e :: s).

(** Unicode scalar values. *)
Definition scalar (r : Z) : Prop := (0 <= r <= 0xD7FF \/ 0xE000 <= r <= 0x10FFFF)%Z.

(** ** Interning sets *)

(** The distinct (up to order) sets of [n] elements among [items]. *)
Definition distinct_sets (n : nat) (items : list (list N)) : gset (list N) :=
  list_to_set (map (merge_sort N.le) (filter (fun s => length s = n) items)).
(** Sets of at most [m] elements, and at most [k] distinct ones of each size. *)
Definition fits (m k : N) (items : list (list N)) : Prop :=
  Forall (fun s => (lenN s <= m)%N) items /\
  forall n, (N.of_nat (size (distinct_sets n items)) <= k)%N.

(** Index the [items] one after another: the final structure and the identifiers given. *)
Fixpoint idx_all {S} (f : S -> list N -> res (S * N)) (x : S) (items : list (list N))
  : res (S * list N) :=
  match items with
  | [] => Ok (x, [])
  | s :: items' =>
    '(x1, id) ← f x s;
    '(x2, ids) ← idx_all f x1 items';
    Ok (x2, id :: ids)
  end.

(** The structure [x] with the identifiers [ids] is what indexing [items] has to give:
    every identifier resolves to its sorted set, and identifiers are equal iff the sets are
    equal up to order. *)
Definition interns {S} (get : S -> N -> option (list N)) (x : S) (ids : list N)
    (items : list (list N)) : Prop :=
  length ids = length items /\
  (forall k id s, ids !! k = Some id -> items !! k = Some s -> get x id = Some (merge_sort N.le s)) /\
  (forall j k id id' s s', ids !! j = Some id -> ids !! k = Some id' ->
     items !! j = Some s -> items !! k = Some s' -> id = id' <-> s ≡ₚ s').
Definition nonempty (items : list (list N)) : Prop := Forall (fun s => s <> []) items.
(** Indexing [items] gives two different sets the same identifier. *)
Definition clash {S} (f : S -> list N -> res (S * N)) (x0 : S) (items : list (list N)) : Prop :=
  exists x ids j j' id s s', idx_all f x0 items = Ok (x, ids) /\
    ids !! j = Some id /\ ids !! j' = Some id /\ items !! j = Some s /\ items !! j' = Some s' /\ ~ s ≡ₚ s'.

(** ** Registering tags *)

(** The distinct names among the registrations (name, parent). *)
Definition names_of (regs : list (list N * list N)) : gset (list N) := list_to_set (map fst regs).
(** The parent recorded for a tag registered with parent [p]. *)
Definition or_dashes (p : list N) : list N := if decide (p = []) then bytes_of "----" else p.

(** The registration that counted: the first one of the name. *)
Definition first_registered (h : list op) (n p : list N) : Prop :=
  exists h1 h2, h = h1 ++ OTagID n p :: h2 /\ n ∉ registered h1.
(** All tags of a history fit the file format. *)
Definition all_storable (h : list op) : Prop :=
  forall n p, first_registered h n p -> storable_name n /\ storable_name p.
(** The name read back for a name written to a file. *)
Definition name_norm (n : list N) : list N :=
  if decide (n = []) then bytes_of "----"
  else if decide (n = bytes_of "    ") then bytes_of "----" else n.
