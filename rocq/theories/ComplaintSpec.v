(** What the parser may complain about at the start of an element, by its position, and in which
    words (C95).  The positions and attributes are those of DocSpec.v. *)
From Verif Require Import Base Index DocSpec Parser Messages Complaints.
From stdpp Require Import list.
Open Scope N_scope.

(** The attributes that only have to be there, by the position of the element. *)
Definition string_attrs : list (list string * string) :=
  [ (["dictionary"; "lemmata"; "lemma"; "l"], "t"); (["dictionary"; "lemmata"; "lemma"; "l"; "g"], "v");
    (["dictionary"; "lemmata"; "lemma"; "f"], "t"); (["dictionary"; "lemmata"; "lemma"; "f"; "g"], "v") ]%string.
(** An attribute that the dictionary element has to have as a number. *)
Definition number_ok (c : conv) (nx : list N * list N) : Prop :=
  (nx.1 = bytes_of "version" -> is_float c nx.2 = true) /\ (nx.1 = bytes_of "revision" -> is_int c nx.2 = true).
(** The integer attribute [n] is missing or no number. *)
Inductive bad_int (v : voice) (c : conv) (a : list (list N * list N)) (n : string) : list N -> Prop :=
| bi_missing : attr n a = None -> bad_int v c a n (bytes_of "missed attr `" ++ bytes_of n ++ bytes_of "`")
| bi_wrong x : attr n a = Some x -> is_int c x = false ->
    bad_int v c a n (bytes_of "attr `" ++ bytes_of n ++ bytes_of "` value: " ++ v_int v x).

(** [complains v c pos a t]: the start of an element at position [pos] with the attributes [a] is
    refused with the text [t]. *)
Inductive complains (v : voice) (c : conv) (pos : list (list N)) (a : list (list N * list N)) : list N -> Prop :=
| co_unknown : known pos = false ->
    complains v c pos a (bytes_of "opencorpora: unexpected start: `" ++ flat_map (fun n => dot :: n) pos ++ bytes_of "`")
| co_parent : pos = map bytes_of ["dictionary"; "grammemes"; "grammeme"]%string -> attr "parent" a = None ->
    complains v c pos a (bytes_of "opencorpora: required parent attr")
| co_string q n : (q, n) ∈ string_attrs -> pos = map bytes_of q -> attr n a = None ->
    complains v c pos a (bytes_of "opencorpora: " ++ v_attrs v a ++ bytes_of ": missed attr `" ++ bytes_of n ++ bytes_of "`")
| co_id t : pos = map bytes_of ["dictionary"; "lemmata"; "lemma"]%string -> bad_int v c a "id" t ->
    complains v c pos a (bytes_of "opencorpora: " ++ v_attrs v a ++ bytes_of ": " ++ t)
| co_rev t : pos = map bytes_of ["dictionary"; "lemmata"; "lemma"]%string -> has_int c "id" a = true -> bad_int v c a "rev" t ->
    complains v c pos a (bytes_of "opencorpora: " ++ v_attrs v a ++ bytes_of ": " ++ t)
| co_version a1 x a2 : pos = map bytes_of ["dictionary"]%string -> a = a1 ++ (bytes_of "version", x) :: a2 ->
    Forall (number_ok c) a1 -> is_float c x = false ->
    complains v c pos a (bytes_of "opencorpora: parse: dictionary.version: `" ++ x ++ bytes_of "`: " ++ v_float v x)
| co_revision a1 x a2 : pos = map bytes_of ["dictionary"]%string -> a = a1 ++ (bytes_of "revision", x) :: a2 ->
    Forall (number_ok c) a1 -> is_int c x = false ->
    complains v c pos a (bytes_of "opencorpora: parse: dictionary.revision: `" ++ x ++ bytes_of "`: " ++ v_int v x).

(** The outcome without the text. *)
Definition same_kind (o : said unit) (o' : outcome) : Prop :=
  match o with
  | Fine _ => o' = Done
  | Failed _ => exists e, o' = Fail e
  | Crashed => o' = NilDeref \/ o' = CutPath \/ o' = IndexPanic
  end.
