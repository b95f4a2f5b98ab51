(** Who shares memory with the index: the arrays behind tag sets and collections.

    The other files keep tag sets and collections as values.  In the program they are slices:
    [sort.Sort] changes the array of the slice it is given, a table keeps the slice it was
    given, and [VariantsIndex.Get] hands out the slice the table keeps.  Here a slice is the
    address of an array, a memory is the list of arrays by address, and tables hold addresses.
    Every slice of the code modelled here covers its whole array ([make] with a length, no
    [append] to an element), so an address says all.  Arrays of the tables themselves (the
    slices of slices) are kept as values: one goroutine only, cf. ConcTags.v for several. *)
From Verif Require Import Base Storage Bin Utf8 Tags TagSets Variants Items Index Spec Hist.
Open Scope N_scope.

Definition deref (m : list (list N)) (a : nat) : list N := default [] (m !! a).
(** [make] and fill: a new array. *)
Definition h_alloc (m : list (list N)) (xs : list N) : list (list N) * nat := (m ++ [xs], length m).
(** [sort.Sort(x)]: the array is sorted in place. *)
Definition h_sort (m : list (list N)) (a : nat) : list (list N) := alter go_sort a m.

(** [hx_ix] gives the tags, the items, the children map and the word count; its tables are not
    used. *)
Record hix := mkHix { hx_mem : list (list N); hx_sets : list (list nat); hx_cols : list (list nat); hx_ix : index }.
Definition contents (m : list (list N)) (x : list (list nat)) : list (list (list N)) := map (map (deref m)) x.
(** The index as it reads at the moment. *)
Definition view (h : hix) : index :=
  mkIndex (ix_tags (hx_ix h)) (contents (hx_mem h) (hx_sets h)) (contents (hx_mem h) (hx_cols h))
          (ix_items (hx_ix h)) (ix_children (hx_ix h)) (ix_words (hx_ix h)).

(** ** Tables *)

(** internal/index/tagset_table.go:89-107 and internal/index/variant_table.go:65-83 [Index]
    (item not empty): sort in place, find, otherwise keep the slice itself. *)
Definition h_table_index (m : list (list N)) (t : list nat) (a : nat) : list (list N) * list nat * N :=
  let m1 := h_sort m a in
  match find_pos (map (deref m1) t) (deref m1 a) 0 with
  | Some i => (m1, t, wrap16 (N.of_nat i))
  | None => (m1, t ++ [a], wrap16 (lenN t))
  end.
(** internal/index/tagset_index.go:107-124 [Index]. *)
Definition h_tagset_index (m : list (list N)) (x : list (list nat)) (a : nat)
  : res (list (list N) * list (list nat) * N) :=
  if (lenN (deref m a) =? 0) then Ok (m, x, 0) else
  let col := lenN (deref m a) - 1 in
  let x1 := extend_to x col in
  t ← slice_get x1 col;
  let '(m1, t', i) := h_table_index m t a in
  Ok (m1, <[N.to_nat col := t']> x1, combine16 (wrap16 col) i).
(** internal/index/variant_idx.go:73-92 [Index]: sorts, and the table sorts again. *)
Definition h_variants_index (m : list (list N)) (x : list (list nat)) (a : nat)
  : res (list (list N) * list (list nat) * N) :=
  if (lenN (deref m a) =? 0) then Ok (m, x, 0) else
  let m1 := h_sort m a in
  let tbl := wrap16 (lenN (deref m1 a) - 1) in
  let x1 := extend_to x tbl in
  t ← slice_get x1 tbl;
  let '(m2, t', i) := h_table_index m1 t a in
  Ok (m2, <[N.to_nat tbl := t']> x1, combine16 (wrap16 (tbl + 1)) i).
(** internal/index/variant_idx.go:95-106 [Get]: a new empty slice, or the slice of the table. *)
Definition h_variants_get (m : list (list N)) (x : list (list nat)) (id : N) : res (list (list N) * nat) :=
  if (id =? 0) then Ok (h_alloc m []) else
  if (id32_upper id <? 1) then Ok (h_alloc m []) else
  t ← slice_get x (id32_upper id - 1);
  a ← slice_get t (id32_lower id);
  Ok (m, a).
(** internal/index/variant_def.go:114-125 [Add]: the slice itself, or a sorted new one. *)
Definition h_add (m : list (list N)) (a : nat) (id : N) : list (list N) * nat :=
  if collection_has (deref m a) id then (m, a)
  else let '(m1, b) := h_alloc m (deref m a ++ [id]) in (h_sort m1 b, b).

(** internal/index/node.go:52-70 [AddTagSet].  Go evaluates [Get], [Index] and [Add] in this
    order; [append(x)] is [x].  On [Panic] the state is not meaningful. *)
Definition h_add_tag_set (h : hix) (id : N) (names : list (list N)) : hix * res unit :=
  match names_to_ids (ix_tags (hx_ix h)) names with
  | Err e => (h, Err e)
  | Panic => (h, Panic)
  | Ok ids =>
    match get_item (hx_ix h) id with
    | Ok (Some it) =>
      let '(m0, ts) := h_alloc (hx_mem h) ids in
      match ('(m1, old) ← h_variants_get m0 (hx_cols h) (it_variants it);
             '(m2, sets, sid) ← h_tagset_index m1 (hx_sets h) ts;
             let '(m3, col) := h_add m2 old sid in
             '(m4, cols, vid) ← h_variants_index m3 (hx_cols h) col;
             Ok (m4, sets, cols, vid)) with
      | Ok (m, sets, cols, vid) =>
        let words := if (it_variants it =? 0) then ix_words (hx_ix h) + 1 else ix_words (hx_ix h) in
        (mkHix m sets cols (set_words (set_items (hx_ix h) (set_variants (ix_items (hx_ix h)) id vid)) words), Ok tt)
      | Err e => (h, Err e)
      | Panic => (h, Panic)
      end
    | _ => (h, Panic)
    end
  end.

(** ** Optimize: internal/index/idx.go:488-574 *)

(** :526-544: the new index keeps the slices of the old one. *)
Fixpoint h_opt_build (m : list (list N)) (cols : list (list nat)) (used : gmap N (list N)) (known : list N)
    (new : list (list nat)) (repl : list (N * N)) : res (list (list N) * list (list nat) * list (N * N)) :=
  match known with
  | [] => Ok (m, new, repl)
  | cid :: known' =>
    match used !! cid with
    | None => h_opt_build m cols used known' new repl
    | Some _ =>
      '(m1, a) ← h_variants_get m cols cid;
      '(m2, new1, nid) ← h_variants_index m1 new a;
      '(m3, b) ← h_variants_get m2 new1 nid;
      if equal_to (deref m3 a) (deref m3 b) then h_opt_build m3 cols used known' new1 (repl ++ [(cid, nid)])
      else Panic
    end
  end.
(** The numbers [KnownID] lists and the replacement in the items depend on the shape of the
    tables only: Variants.v and Index.v. *)
Definition h_optimize (h : hix) : res hix :=
  let used := used_map (its_list (ix_items (hx_ix h))) in
  let known := known_id (contents (hx_mem h) (hx_cols h)) in
  let unused := filter (fun id => used !! id = None) known in
  match unused with
  | [] => Ok h
  | _ =>
    '(m, new, repl) ← h_opt_build (hx_mem h) (hx_cols h) used known [] [];
    l ← opt_replace (contents m (hx_cols h)) (contents m new) used repl (its_list (ix_items (hx_ix h)));
    Ok (mkHix m (hx_sets h) new (set_items (hx_ix h) (mkItems l (its_next (ix_items (hx_ix h))))))
  end.

(** ** Histories *)

(** Reading a file makes an array for each set and each collection
    (internal/index/tagset_def.go:44, internal/index/variant_def.go:56). *)
Fixpoint place {A} (n : nat) (x : list (list A)) : list (list nat) :=
  match x with [] => [] | t :: x' => seq n (length t) :: place (n + length t) x' end.
Definition h_of (ix : index) : hix :=
  mkHix (concat (ix_sets ix) ++ concat (ix_cols ix)) (place 0 (ix_sets ix))
        (place (length (concat (ix_sets ix))) (ix_cols ix)) ix.
(** The calls that do not touch the tables, done on the rest. *)
Definition h_with (h : hix) (ix : index) : hix := mkHix (hx_mem h) (hx_sets h) (hx_cols h) ix.
Definition h_step (h : hix) (o : op) : hix * res N :=
  match o with
  | OAdd w => let '(ix', r) := add_runes (view h) w in (h_with h ix', r)
  | OFetch w => let '(ix', r) := fetch_runes (view h) w in (h_with h ix', r)
  | OTagID n p => let '(ix', id) := index_tag_id (view h) n p in (h_with h ix', Ok id)
  | OTag w names =>
    match fetch_runes (view h) w with
    | (ix1, Ok id) => let '(h2, r) := h_add_tag_set (h_with h ix1) id names in (h2, _ ← r; Ok 0)
    | (ix1, Err e) => (h_with h ix1, Err e)
    | (ix1, Panic) => (h_with h ix1, Panic)
    end
  | OOptimize =>
    match h_optimize h with
    | Ok h' => (h', Ok 0)
    | Err e => (h, Err e)
    | Panic => (h, Panic)
    end
  | OReload =>
    match reload (view h) with
    | (ix', Ok n) => (h_of ix', Ok n)
    | (_, Err e) => (h, Err e)
    | (_, Panic) => (h, Panic)
    end
  end.
Definition h_outs (h : hix) (os : list op) : hix * list (res N) :=
  fold_left (fun s o => let '(h', r) := h_step s.1 o in (h', s.2 ++ [r])) os (h, []).

(** Every address is that of an array. *)
Definition addrs_ok (m : list (list N)) (x : list (list nat)) : Prop :=
  Forall (Forall (fun a => (a < length m)%nat)) x.
Definition h_ok (h : hix) : Prop := addrs_ok (hx_mem h) (hx_sets h) /\ addrs_ok (hx_mem h) (hx_cols h).
(** All collections are sorted. *)
Definition sorted_cols (ix : index) : Prop := Forall (Forall (Sorted N.le)) (ix_cols ix).

(** ** The slices callers hold *)

(** What a caller may do with a slice it was given by [Index.Variants]
    (internal/index/idx.go:577-579): write into it. *)
Definition h_write (m : list (list N)) (a : nat) (i : nat) (v : N) : list (list N) := alter (<[i := v]>) a m.
