(** Goroutines that tag words at the same time: internal/index/node.go:52-70 [AddTagSet] with
    tagset_index.go:107-124, tagset_table.go:89-107, variant_idx.go:73-106 and
    variant_table.go:65-88, one access to shared memory per step (see Conc.v).  None of these
    takes a lock.  Simplifications: a slice header is read and written as a whole; [append] writes
    the element before the header is assigned; sorting a stored collection that is sorted already
    (variant_idx.go:78, variant_table.go:72) does not write (true of pdqsort, Go 1.19); the node
    storage and the list of tags are not changed meanwhile. *)
From Verif Require Import Base Storage Utf8 Tags TagSets Variants Items Index Conc.
From stdpp Require Import list gmap relations.
Open Scope N_scope.

(** ** A slice of slices in memory *)

(** A slice header: the array and the length; the capacity is the length of the array. *)
Record hdr := mkHdr { h_arr : nat; h_len : nat }.
(** A TagSetIndex or VariantsIndex: the arrays of tables ever allocated, the arrays of sets, and
    the slice of tables.  Array 0 of the sets stands for nil: it has no room. *)
Record tmem := mkTmem { t_outer : list (list hdr); t_inner : list (list (list N)); t_hdr : hdr }.
Definition nil_hdr : hdr := mkHdr 0 0.
Definition o_arr (m : tmem) (a : nat) : list hdr := default [] (t_outer m !! a).
Definition i_arr (m : tmem) (a : nat) : list (list N) := default [] (t_inner m !! a).
Definition o_put (m : tmem) (a k : nat) (h : hdr) : tmem :=
  mkTmem (<[a := <[k := h]> (o_arr m a)]> (t_outer m)) (t_inner m) (t_hdr m).
Definition i_put (m : tmem) (a k : nat) (x : list N) : tmem :=
  mkTmem (t_outer m) (<[a := <[k := x]> (i_arr m a)]> (t_inner m)) (t_hdr m).
Definition o_new (m : tmem) (l : list hdr) : tmem := mkTmem (t_outer m ++ [l]) (t_inner m) (t_hdr m).
Definition i_new (m : tmem) (l : list (list N)) : tmem := mkTmem (t_outer m) (t_inner m ++ [l]) (t_hdr m).
(** The tables as they are found by reading the memory. *)
Definition table_of (m : tmem) (h : hdr) : list (list N) := take (h_len h) (i_arr m (h_arr h)).
Definition tables_of (m : tmem) : list (list (list N)) :=
  map (table_of m) (take (h_len (t_hdr m)) (o_arr m (h_arr (t_hdr m)))).

(** ** Index of a set *)

(** Where a call of Index is: about to compare the number of tables; to read it again; in the loop
    that appends tables: to read the slice, to write the new table at the end of the array, to copy
    table [k] to the new array, to assign the slice; about to read the slice to get the address
    of the table (it stays the address in array [a]); to read the table; to compare element [k];
    to read the length (the identifier); to append: to read the table, to copy element [k] to the
    new array [b], to write the element, to assign the table. *)
Inductive ipc :=
  | IStart | IGrow | IExt (i : nat) | IExtPut (i : nat) (h : hdr) | IExtCopy (i : nat) (h : hdr) (a k : nat)
  | IExtSet (i : nat) (h : hdr) | IPick | ITable (a : nat) | IScan (a : nat) (h : hdr) (k : nat) | ILen (a : nat)
  | IApp (a n : nat) | IAppCopy (a n : nat) (h : hdr) (b k : nat) | IAppPut (a n : nat) (h : hdr)
  | IAppSet (a n : nat) (h : hdr) | IDone (n : nat) | IPanic.
Section tagging.
  (** The capacity of a new array, as in Conc.v. *)
  Context (grow : nat -> nat -> nat).
  Definition room (cap need : nat) : nat := Nat.max need (grow cap need).
  Definition i_step (col : nat) (x : list N) (m : tmem) (pc : ipc) : tmem * ipc :=
    match pc with
    | IStart => (m, if (col <? h_len (t_hdr m))%nat then IPick else IGrow)
    | IGrow => let i := h_len (t_hdr m) in (m, if (i <=? col)%nat then IExt i else IPick)
    | IExt i =>
      let h := t_hdr m in
      let cap := length (o_arr m (h_arr h)) in
      if (h_len h <? cap)%nat then (m, IExtPut i h)
      else (o_new m (replicate (room cap (S (h_len h))) nil_hdr), IExtCopy i h (length (t_outer m)) 0)
    | IExtCopy i h a k =>
      if (k <? h_len h)%nat then
        match o_arr m (h_arr h) !! k with
        | Some t => (o_put m a k t, IExtCopy i h a (S k))
        | None => (m, IPanic)
        end
      else (m, IExtPut i (mkHdr a (h_len h)))
    | IExtPut i h => (o_put m (h_arr h) (h_len h) nil_hdr, IExtSet i (mkHdr (h_arr h) (S (h_len h))))
    | IExtSet i h => (mkTmem (t_outer m) (t_inner m) h, if (S i <=? col)%nat then IExt (S i) else IPick)
    | IPick => let h := t_hdr m in (m, if (col <? h_len h)%nat then ITable (h_arr h) else IPanic)
    | ITable a => (m, match o_arr m a !! col with Some h => IScan a h 0 | None => IPanic end)
    | IScan a h k =>
      (m, if (k <? h_len h)%nat then
            match i_arr m (h_arr h) !! k with
            | Some y => if equal_to y x then IDone k else IScan a h (S k)
            | None => IPanic
            end
          else ILen a)
    | ILen a => (m, match o_arr m a !! col with Some h => IApp a (h_len h) | None => IPanic end)
    | IApp a n =>
      match o_arr m a !! col with
      | Some h =>
        let cap := length (i_arr m (h_arr h)) in
        if (h_len h <? cap)%nat then (m, IAppPut a n h)
        else (i_new m (replicate (room cap (S (h_len h))) []), IAppCopy a n h (length (t_inner m)) 0)
      | None => (m, IPanic)
      end
    | IAppCopy a n h b k =>
      if (k <? h_len h)%nat then
        match i_arr m (h_arr h) !! k with
        | Some y => (i_put m b k y, IAppCopy a n h b (S k))
        | None => (m, IPanic)
        end
      else (m, IAppPut a n (mkHdr b (h_len h)))
    | IAppPut a n h => (i_put m (h_arr h) (h_len h) x, IAppSet a n (mkHdr (h_arr h) (S (h_len h))))
    | IAppSet a n h => (o_put m a col h, IDone n)
    | IDone n => (m, IDone n)
    | IPanic => (m, IPanic)
    end.

  (** ** AddTagSet *)
  Record smem := mkSmem { s_sets : tmem; s_cols : tmem; s_items : items; s_words : N }.
  (** Where a goroutine is: between two calls; about to read [item.Variants]; to copy the slice of
      collection tables; to read table and collection; in [tagSets.Index]; about to read
      [item.Variants] again; to read and to write [wordsCount]; in [collectionIdx.Index]; about to
      write [item.Variants]; [c]: the collection. *)
  Inductive tpc :=
    | TNext | TVar | TGet (v : N) | TTable (v : N) (h : hdr) | TCol (v : N) (h : hdr)
    | TSets (c : list N) (pc : ipc) | TZero (c : list N) | TCount (c : list N) | TInc (c : list N) (w : N)
    | TCols (c : list N) (pc : ipc) | TStore (v : N) | TCrash.
  (** The calls still to make (node and names), including the present one, and the results. *)
  Record tagger := mkTagger { g_pc : tpc; g_todo : list (N * list (list N)); g_res : list (res unit) }.
  (** The identifiers: tagset_index.go:123, variant_idx.go:79 and :91. *)
  Definition set_col (ids : list N) : N := lenN ids - 1.
  Definition set_num (ids : list N) (n : nat) : N := combine16 (wrap16 (set_col ids)) (wrap16 (N.of_nat n)).
  Definition col_col (c : list N) : N := wrap16 (lenN c - 1).
  Definition col_num (c : list N) (n : nat) : N := combine16 (wrap16 (col_col c + 1)) (wrap16 (N.of_nat n)).
  Definition t_step (tags : list tag) (s : smem) (g : tagger) : option (smem * tagger) :=
    let at_ pc := mkTagger pc (g_todo g) (g_res g) in
    let finish r := mkTagger TNext (tail (g_todo g)) (g_res g ++ [r]) in
    match g_todo g with
    | [] => None
    | (id, names) :: todo =>
      match names_to_ids tags names with
      | Ok ids =>
        let after_get c := TSets c (if (lenN ids =? 0) then IDone 0 else IStart) in
        match g_pc g with
        | TNext => Some (s, match items_get (s_items s) id with Ok (Some _) => at_ TVar | _ => at_ TCrash end)
        | TVar =>
          match its_list (s_items s) !! N.to_nat id with
          | Some it => Some (s, at_ (let v := it_variants it in
              if (v =? 0) || (id32_upper v <? 1) then after_get [] else TGet v))
          | None => Some (s, at_ TCrash)
          end
        | TGet v => Some (s, at_ (TTable v (t_hdr (s_cols s))))
        | TTable v h =>
          let k := N.to_nat (id32_upper v - 1) in
          Some (s, at_ (if (k <? h_len h)%nat then
                          match o_arr (s_cols s) (h_arr h) !! k with Some t => TCol v t | None => TCrash end
                        else TCrash))
        | TCol v h =>
          let k := N.to_nat (id32_lower v) in
          Some (s, at_ (if (k <? h_len h)%nat then
                          match i_arr (s_cols s) (h_arr h) !! k with Some c => after_get c | None => TCrash end
                        else TCrash))
        | TSets c (IDone n) => Some (s, at_ (TZero (collection_add c (if (lenN ids =? 0) then 0 else set_num (go_sort ids) n))))
        | TSets c IPanic => Some (s, at_ TCrash)
        | TSets c pc =>
          let '(m, pc') := i_step (N.to_nat (set_col ids)) (go_sort ids) (s_sets s) pc in
          Some (mkSmem m (s_cols s) (s_items s) (s_words s), at_ (TSets c pc'))
        | TZero c =>
          match its_list (s_items s) !! N.to_nat id with
          | Some it => Some (s, at_ (if (it_variants it =? 0) then TCount c else TCols c IStart))
          | None => Some (s, at_ TCrash)
          end
        | TCount c => Some (s, at_ (TInc c (s_words s)))
        | TInc c w => Some (mkSmem (s_sets s) (s_cols s) (s_items s) (w + 1), at_ (TCols c IStart))
        | TCols c (IDone n) => Some (s, at_ (TStore (col_num c n)))
        | TCols c IPanic => Some (s, at_ TCrash)
        | TCols c pc =>
          let '(m, pc') := i_step (N.to_nat (col_col c)) (go_sort c) (s_cols s) pc in
          Some (mkSmem (s_sets s) m (s_items s) (s_words s), at_ (TCols c pc'))
        | TStore v => Some (mkSmem (s_sets s) (s_cols s) (set_variants (s_items s) id v) (s_words s), finish (Ok tt))
        | TCrash => None
        end
      | Err e => Some (s, finish (Err e))
      | Panic => Some (s, at_ TCrash)
      end
    end.
End tagging.
Definition t_start (calls : list (N * list (list N))) : tagger := mkTagger TNext calls [].
Definition t_done (g : tagger) : Prop := g_pc g = TNext /\ g_todo g = [].

(** ** The memory of an index *)

(** The index that is in the memory; [ix] gives the tags and the children map. *)
Definition mem_index (ix : index) (s : smem) : index :=
  mkIndex (ix_tags ix) (tables_of (s_sets s)) (tables_of (s_cols s)) (s_items s) (ix_children ix) (s_words s).
(** Memory as the program lays it out: slices lie in their arrays, and every array of sets is the
    array of one table, [own] (unless it has no room). *)
Definition tmem_ok (m : tmem) : Prop :=
  t_inner m !! 0%nat = Some [] /\
  (h_arr (t_hdr m) < length (t_outer m))%nat /\ (h_len (t_hdr m) <= length (o_arr m (h_arr (t_hdr m))))%nat /\
  exists own : nat -> nat, forall a c h, o_arr m a !! c = Some h ->
    (h_arr h < length (t_inner m))%nat /\ (h_len h <= length (i_arr m (h_arr h)))%nat /\
    (i_arr m (h_arr h) = [] \/ own (h_arr h) = c).
Definition smem_ok (s : smem) : Prop := tmem_ok (s_sets s) /\ tmem_ok (s_cols s).
(** One such memory: every table in an array with room for [spare] more. *)
Definition lay_out (spare : nat) (ts : list (list (list N))) : tmem :=
  mkTmem [imap (fun i t => mkHdr (S i) (length t)) ts ++ replicate spare nil_hdr]
         ([] :: map (fun t => t ++ replicate spare []) ts) (mkHdr 0 (length ts)).
Definition smem_of (spare : nat) (ix : index) : smem :=
  mkSmem (lay_out spare (ix_sets ix)) (lay_out spare (ix_cols ix)) (ix_items ix) (ix_words ix).

(** ** What the calls do one after the other (Index.v) *)
Fixpoint tag_all (ix : index) (calls : list (N * list (list N))) : index * list (res unit) :=
  match calls with
  | [] => (ix, [])
  | (id, names) :: calls' =>
    let '(ix1, r) := node_add_tag_set ix id names in
    let '(ix2, rs) := tag_all ix1 calls' in (ix2, r :: rs)
  end.
(** The calls need no set and no collection that is not there already, and do not panic. *)
Fixpoint known (ix : index) (calls : list (N * list (list N))) : Prop :=
  match calls with
  | [] => True
  | (id, names) :: calls' =>
    let '(ix1, r) := node_add_tag_set ix id names in
    r <> Panic /\ ix_sets ix1 = ix_sets ix /\ ix_cols ix1 = ix_cols ix /\ known ix1 calls'
  end.
