(** Histories run on the model of the code, and the capacity limits. *)
From Verif Require Import Base Storage Bin Utf8 Tags TagSets Variants Items Index Spec.
Open Scope N_scope.

(** Write the index and read the bytes into a fresh index
    (pkg/opencorpora/loader.go:196-246 does this through a file). *)
Definition reload (ix : index) : index * res N :=
  match index_write ix with
  | Ok (bs, None) =>
    match index_read index_new bs with
    | Ok (ix', _) => (ix', Ok 0)
    | Err e => (ix, Err e)
    | Panic => (ix, Panic)
    end
  | Ok (_, Some e) => (ix, Err e)
  | Err e => (ix, Err e)
  | Panic => (ix, Panic)
  end.

Definition step (ix : index) (o : op) : index * res N :=
  match o with
  | OAdd w => add_runes ix w
  | OFetch w => fetch_runes ix w
  | OTagID n p => let '(ix', id) := index_tag_id ix n p in (ix', Ok id)
  | OTag w names =>
    match fetch_runes ix w with
    | (ix1, Ok id) =>
      let '(ix2, r) := node_add_tag_set ix1 id names in (ix2, _ ← r; Ok 0)
    | (ix1, Err e) => (ix1, Err e)
    | (ix1, Panic) => (ix1, Panic)
    end
  | OOptimize =>
    match optimize ix with
    | Ok ix' => (ix', Ok 0)
    | Err e => (ix, Err e)
    | Panic => (ix, Panic)
    end
  | OReload => reload ix
  end.

(** Identifier widths: 256 tags, 65536 tag sets per size and 65536 sizes, 65536 collections
    per size and 65535 sizes, 2^32 node slots. *)
Definition within (tcap scap : N) (x : list (list (list N))) : bool :=
  (lenN x <=? tcap) && forallb (fun t => lenN t <=? scap) x.
Definition caps (ix : index) : bool :=
  (lenN (ix_tags ix) <=? 256)
  && within 65536 65536 (ix_sets ix)
  && within 65535 65536 (ix_cols ix)
  && (lenN (its_list (ix_items ix)) <? 4294967296).

(** Length prefixes of the file format: 255 tags, 255 tags per set, 65535 sets per size,
    255 sets per word. *)
Definition disk_caps (ix : index) : bool :=
  (lenN (ix_tags ix) <=? 255)
  && within 255 65535 (ix_sets ix)
  && within 255 65536 (ix_cols ix).

(** Names the file format gives back unchanged: the empty name and the name of four spaces
    come back as "----" (property C28). *)
Definition plain_name (n : list N) : bool :=
  negb (bool_decide (n = [])) && negb (bool_decide (n = bytes_of "    ")).
Definition plain_tags (ix : index) : bool :=
  forallb (fun t => plain_name (tag_parent t) && plain_name (tag_name t)) (ix_tags ix).

(** Operations covered by the refinement: runes are 32-bit, tag lists are not empty (an
    empty one is property C19), a reload stays within the file format, and after a reload
    words do not begin with U+0000 (property C24). *)
Definition op_ok (after_reload : bool) (ix : index) (o : op) : Prop :=
  match o with
  | OAdd w | OFetch w =>
    Forall int32 w /\ (after_reload = true -> head w <> Some 0%Z)
  | OTag w names =>
    names <> [] /\ Forall int32 w /\ (after_reload = true -> head w <> Some 0%Z)
  | OTagID n p => Forall (fun b => b < 256) n /\ Forall (fun b => b < 256) p
  | OReload => disk_caps ix = true /\ plain_tags ix = true
  | OOptimize => True
  end.

(** [runs h ix out]: the history [h] started on a new index ends in [ix], its last call
    returned [out], and the capacity limits were met all along. *)
Inductive runs : list op -> index -> Prop :=
| runs_nil : runs [] index_new
| runs_snoc h o ix ix' r :
    runs h ix -> op_ok (reloaded h) ix o -> step ix o = (ix', r) -> caps ix' = true ->
    runs (h ++ [o]) ix'.

(** ** Observations *)

(** The results of a sequence of calls, and the state after it. *)
Definition outs (ix : index) (os : list op) : index * list (res N) :=
  fold_left (fun s o => let '(ix', r) := step s.1 o in (ix', s.2 ++ [r])) os (ix, []).

(** Two indexes answer every query alike. *)
Record same_queries (a b : index) : Prop := {
  q_nodes : nodes_count a = nodes_count b;
  q_words : words_count a = words_count b;
  q_fetch : forall w, (fetch_runes a w).2 = (fetch_runes b w).2;
  q_get : forall id, index_get a id = index_get b id;
  q_word : forall id, node_word a id = node_word b id;
  q_tags : forall id, node_tag_sets a id = node_tag_sets b id;
  q_children : forall id, get_children_map a id = get_children_map b id;
  q_bytes : index_write a = index_write b }.

(** Two indexes cannot be told apart: whatever calls follow, their results are the same and
    every query is answered alike afterwards. *)
Definition indist (a b : index) : Prop :=
  forall os, (outs a os).2 = (outs b os).2 /\ same_queries (outs a os).1 (outs b os).1.

(** ** Checking that a concrete history runs *)
Definition int32b (r : Z) : bool := ((-2147483648 <=? r) && (r <? 2147483648))%Z.
Definition bytesb (n : list N) : bool := forallb (fun b => b <? 256) n.
Definition headb (after_reload : bool) (w : list Z) : bool :=
  negb after_reload || negb (bool_decide (head w = Some 0%Z)).
Definition op_okb (after_reload : bool) (ix : index) (o : op) : bool :=
  match o with
  | OAdd w | OFetch w => forallb int32b w && headb after_reload w
  | OTag w names => negb (bool_decide (names = [])) && forallb int32b w && headb after_reload w
  | OTagID n p => bytesb n && bytesb p
  | OReload => disk_caps ix && plain_tags ix
  | OOptimize => true
  end.
Fixpoint run_from (after_reload : bool) (ix : index) (h : list op) : option index :=
  match h with
  | [] => Some ix
  | o :: h' =>
    if op_okb after_reload ix o then
      let ix' := (step ix o).1 in
      if caps ix' then run_from (after_reload || is_reload o) ix' h' else None
    else None
  end.
Definition run (h : list op) : option index := run_from false index_new h.

(** ** Sequences of calls on the parts *)

(** Allocate nodes with the given parents and letters, one after another. *)
Fixpoint alloc_all (s : items) (l : list (N * Z)) : res (items * list item) :=
  match l with
  | [] => Ok (s, [])
  | (p, r) :: l' =>
    '(s1, it) ← items_new_child s p r;
    '(s2, its) ← alloc_all s1 l';
    Ok (s2, it :: its)
  end.
(** Register tags (name, parent) one after another: the list and the identifiers given. *)
Fixpoint reg_all (ts : list tag) (regs : list (list N * list N)) : list tag * list N :=
  match regs with
  | [] => (ts, [])
  | (n, p) :: regs' =>
    let '(ts1, id) := tags_index ts n p in
    let '(ts2, ids) := reg_all ts1 regs' in
    (ts2, id :: ids)
  end.
(** The collection [VariantsIndex.Get] returns. *)
Definition ok_opt {A} (r : res A) : option A := match r with Ok a => Some a | _ => None end.
Definition variants_got (x : list (list (list N))) (id : N) : option (list N) := ok_opt (variants_get x id).
(** A collection identifier stored in some node. *)
Definition used_by_a_word (ix : index) (v : N) : Prop :=
  v <> 0 /\ exists id it, get_item ix id = Ok (Some it) /\ it_variants it = v.
(** The tag read back for a tag written to a file. *)
Definition tag_norm (t : tag) : tag := mkTag (name_norm (tag_parent t)) (name_norm (tag_name t)).
(** Load a file into a fresh index and save it again. *)
Definition resave (bs : list N) : option (list N) :=
  match index_read index_new bs with
  | Ok (ix, _) => match index_write ix with Ok (bs', None) => Some bs' | _ => None end
  | _ => None
  end.
