(** Node storage, tags, tag sets and collections: C10-C15, C39, C40.  The proofs are in
    ThmStore.v and ThmTables.v; [fits], [idx_all], [interns], [clash] and the other words of
    the statements are defined in Spec.v and at the end of Hist.v. *)
From Verif Require Import Base Storage Bin Utf8 Tags TagSets Variants Items Index Spec Hist ThmStore ThmTables.
From stdpp Require Import list.
Open Scope N_scope.

(** C10.  Allocations give the numbers 1, 2, 3, ..., each node is stored at its number and
    stays there. *)
Theorem C10_allocation : forall l, lenN l <= 4294967295 ->
  exists s its, alloc_all items_new l = Ok (s, its) /\ length its = length l /\
    (forall k pr, l !! k = Some pr ->
       its !! k = Some (mkItem pr.1 (N.of_nat k + 1) pr.2 0) /\
       its_list s !! S k = Some (mkItem pr.1 (N.of_nat k + 1) pr.2 0)).
Proof. exact l_C10_allocation. Qed.
Print Assumptions C10_allocation.
Theorem C10_one_more : forall h p r s its l, l ++ [(p, r)] = h -> lenN h <= 4294967295 ->
  alloc_all items_new l = Ok (s, its) ->
  exists s', items_new_child s p r = Ok (s', mkItem p (lenN h) r 0) /\
    (forall i x, (i <= length l)%nat -> its_list s !! i = Some x -> its_list s' !! i = Some x).
Proof. exact l_C10_one_more. Qed.
Print Assumptions C10_one_more.
Example C10_case : exists s its, alloc_all items_new [(0, 97%Z); (1, 98%Z); (0, 99%Z)] = Ok (s, its) /\
  map it_id its = [1; 2; 3] /\ its_list s !! 3%nat = Some (mkItem 0 3 99 0).
Proof. eexists _, _. split; [vm_compute; reflexivity|]. vm_compute. auto. Qed.

(** C11.  A name keeps the number of its first registration, numbers count distinct names
    from 0, and resolve to the first registration.  The 257th name gets number 0. *)
Theorem C11_registration : forall regs ts ids,
  N.of_nat (size (names_of regs)) <= 256 -> reg_all [] regs = (ts, ids) ->
  length ids = length regs /\
  (forall k n p id, regs !! k = Some (n, p) -> ids !! k = Some id ->
     tags_find ts n = Some id /\
     exists j p0, regs !! j = Some (n, p0) /\ (forall i q, (i < j)%nat -> regs !! i <> Some (n, q)) /\
       tags_get ts id = Some (mkTag (or_dashes p0) n) /\
       id = N.of_nat (size (names_of (take j regs)))) /\
  (forall n, tags_find ts n = None <-> n ∉ map fst regs).
Proof. exact l_C11_registration. Qed.
Print Assumptions C11_registration.
Theorem C11_overflow_refuted : forall ts n p, lenN ts = 256 -> tags_find ts n = None ->
  (tags_index ts n p).2 = 0 /\ tags_get (tags_index ts n p).1 0 = tags_get ts 0 /\ is_Some (tags_get ts 0).
Proof. exact l_C11_overflow_refuted. Qed.
Print Assumptions C11_overflow_refuted.
Example C11_case : reg_all [] [(bytes_of "NOUN", []); (bytes_of "sing", bytes_of "NMbr"); (bytes_of "NOUN", bytes_of "POST")] =
  ([mkTag (bytes_of "----") (bytes_of "NOUN"); mkTag (bytes_of "NMbr") (bytes_of "sing")], [0; 1; 0]).
Proof. vm_compute. reflexivity. Qed.
(** 257 distinct registrations: the last one gets the number of the first one. *)
Definition C11_names : list (list N * list N) :=
  flat_map (fun a => map (fun b => ([65; 65; 65 + N.of_nat a; 65 + N.of_nat b], [])) (seq 0 16)) (seq 0 16)
  ++ [(bytes_of "last", [])].
Theorem C11_257_names_refuted : exists regs ts ids, NoDup (map fst regs) /\ lenN regs = 257 /\
  reg_all [] regs = (ts, ids) /\ ids !! 256%nat = Some 0 /\ ids !! 0%nat = Some 0.
Proof.
  exists C11_names. eexists _, _. split; [|split; [vm_compute; reflexivity|split; [vm_compute; reflexivity|vm_compute; auto]]].
  apply (bool_decide_unpack _). vm_compute. exact I.
Qed.
Print Assumptions C11_257_names_refuted.

(** C12.  Tag sets are interned up to order, for up to 65536 sets of each size. *)
Theorem C12_tag_sets : forall items, nonempty items -> fits 65536 65536 items ->
  exists x ids, idx_all tagset_index_index [] items = Ok (x, ids) /\ interns tagset_get x ids items /\
    forall s id, s <> [] -> Sorted N.le s ->
      tagset_find x s = Some id <-> exists k s', items !! k = Some s' /\ s ≡ₚ s' /\ ids !! k = Some id.
Proof. exact l_C12_tag_sets. Qed.
Print Assumptions C12_tag_sets.
Theorem C12_overflow_refuted : forall items n, nonempty items -> Forall (fun s => lenN s <= 65536) items ->
  65536 < N.of_nat (size (distinct_sets n items)) -> clash tagset_index_index [] items.
Proof. exact l_C12_overflow_refuted. Qed.
Print Assumptions C12_overflow_refuted.
Theorem C12_overflow_reachable : exists items, Forall (Forall (fun x => x < 256)) items /\ clash tagset_index_index [] items.
Proof. exact l_C12_overflow_reachable. Qed.
Print Assumptions C12_overflow_reachable.
Example C12_case : exists x, idx_all tagset_index_index [] [[5; 2]; [7]; [2; 5]; [1; 2]] = Ok (x, [65536; 0; 65536; 65537]) /\
  tagset_get x 65536 = Some [2; 5] /\ tagset_find x [1; 2] = Some 65537 /\ tagset_find x [1; 3] = None.
Proof. eexists. split; [vm_compute; reflexivity|]. vm_compute. auto. Qed.

(** C13.  Collections are interned up to order and never get number 0, which stands for the
    empty collection. *)
Theorem C13_collections : forall items, nonempty items -> fits 65535 65536 items ->
  exists x ids, idx_all variants_index_index [] items = Ok (x, ids) /\ interns variants_got x ids items /\
    Forall (fun id => id <> 0) ids /\
    forall s id, s <> [] -> Sorted N.le s ->
      variants_find x s = Ok (Some id) <-> exists k s', items !! k = Some s' /\ s ≡ₚ s' /\ ids !! k = Some id.
Proof. exact l_C13_collections. Qed.
Print Assumptions C13_collections.
Theorem C13_empty : forall x, variants_index_index x [] = Ok (x, 0) /\ variants_get x 0 = Ok [] /\
  variants_find x [] = Ok (Some 0).
Proof. exact l_C13_empty. Qed.
Print Assumptions C13_empty.
Theorem C13_overflow_refuted : forall items n, nonempty items -> Forall (fun s => lenN s <= 65535) items ->
  65536 < N.of_nat (size (distinct_sets n items)) -> clash variants_index_index [] items.
Proof. exact l_C13_overflow_refuted. Qed.
Print Assumptions C13_overflow_refuted.
Theorem C13_overflow_reachable : exists items, clash variants_index_index [] items.
Proof. exact l_C13_overflow_reachable. Qed.
Print Assumptions C13_overflow_reachable.
Example C13_case : exists x, idx_all variants_index_index [] [[65536; 0]; [9]; [0; 65536]] = Ok (x, [131072; 65536; 131072]) /\
  variants_get x 131072 = Ok [0; 65536] /\ variants_get x 0 = Ok [].
Proof. eexists. split; [vm_compute; reflexivity|]. vm_compute. auto. Qed.

(** C14.  [KnownID] lists exactly the numbers that were given. *)
Theorem C14_known_id : forall items x ids, nonempty items -> fits 65535 65536 items ->
  idx_all variants_index_index [] items = Ok (x, ids) ->
  NoDup (known_id x) /\ (forall v, v ∈ known_id x <-> v ∈ ids) /\
  (forall v, v ∈ known_id x -> exists s, variants_get x v = Ok s /\ s <> [] /\ exists s', s' ∈ items /\ s ≡ₚ s').
Proof. exact l_C14_known_id. Qed.
Print Assumptions C14_known_id.
Example C14_case : exists x ids, idx_all variants_index_index [] [[1; 2]; [9]; [2; 1]; [8]] = Ok (x, ids) /\
  known_id x = [65536; 65537; 131072] /\ ids = [131072; 65536; 131072; 65537].
Proof. eexists _, _. split; [vm_compute; reflexivity|]. vm_compute. auto. Qed.

(** C15.  The listed identifiers never denote the sets they were generated for. *)
Theorem C15_table_ids_refuted : forall items x ids, nonempty items -> fits 65536 65536 items ->
  idx_all tagset_index_index [] items = Ok (x, ids) ->
  Forall2 (fun id s => tagset_get x id <> Some s) (tagset_table_ids x) (concat x) /\
  (Forall (fun s => length s = 1%nat) items -> items <> [] ->
     tagset_table_ids x <> [] /\ forall id, id ∈ tagset_table_ids x -> tagset_get x id = None).
Proof. exact l_C15_table_ids_refuted. Qed.
Print Assumptions C15_table_ids_refuted.
Example C15_case : exists x ids, idx_all tagset_index_index [] [[7]; [8]] = Ok (x, ids) /\ ids = [0; 1] /\
  tagset_table_ids x = [65536; 65537] /\ tagset_get x 65536 = None.
Proof. eexists _, _. split; [vm_compute; reflexivity|]. vm_compute. auto. Qed.

(** C39.  The public tables and collections intern sets up to order, within the width of
    their identifiers. *)
Theorem C39_collection16 : forall items, nonempty items -> fits 65536 65536 items ->
  exists x ids, idx_all collection16_index [] items = Ok (x, ids) /\ interns collection16_get x ids items.
Proof. exact l_C39_collection16. Qed.
Print Assumptions C39_collection16.
Theorem C39_collection8 : forall items, nonempty items -> fits 256 256 items ->
  exists x ids, idx_all collection8_index [] items = Ok (x, ids) /\ interns collection8_get x ids items.
Proof. exact l_C39_collection8. Qed.
Print Assumptions C39_collection8.
Theorem C39_collection16_overflow_refuted : forall items n, nonempty items -> Forall (fun s => lenN s <= 65536) items ->
  65536 < N.of_nat (size (distinct_sets n items)) -> clash collection16_index [] items.
Proof. exact l_C39_collection16_overflow_refuted. Qed.
Print Assumptions C39_collection16_overflow_refuted.
Theorem C39_collection8_overflow_refuted : forall items n, nonempty items -> Forall (fun s => lenN s <= 256) items ->
  256 < N.of_nat (size (distinct_sets n items)) -> clash collection8_index [] items.
Proof. exact l_C39_collection8_overflow_refuted. Qed.
Print Assumptions C39_collection8_overflow_refuted.
Theorem C39_table8 : forall items, nonempty items ->
  N.of_nat (size (list_to_set (map (merge_sort N.le) items) : gset (list N))) <= 256 ->
  exists t ids, idx_all table8_index [] items = Ok (t, ids) /\ interns table8_get t ids items /\
    forall s id, Sorted N.le s ->
      table8_find t s = Some id <-> exists j s', items !! j = Some s' /\ s ≡ₚ s' /\ ids !! j = Some id.
Proof. exact l_C39_table8. Qed.
Print Assumptions C39_table8.
Theorem C39_table16 : forall items, nonempty items ->
  N.of_nat (size (list_to_set (map (merge_sort N.le) items) : gset (list N))) <= 65536 ->
  exists t ids, idx_all table16_index [] items = Ok (t, ids) /\ interns table16_get t ids items /\
    forall s id, Sorted N.le s ->
      table16_find t s = Some id <-> exists j s', items !! j = Some s' /\ s ≡ₚ s' /\ ids !! j = Some id.
Proof. exact l_C39_table16. Qed.
Print Assumptions C39_table16.
Theorem C39_table8_overflow_refuted : forall items, nonempty items ->
  256 < N.of_nat (size (list_to_set (map (merge_sort N.le) items) : gset (list N))) -> clash table8_index [] items.
Proof. exact l_C39_table8_overflow_refuted. Qed.
Print Assumptions C39_table8_overflow_refuted.
Theorem C39_table16_overflow_refuted : forall items, nonempty items ->
  65536 < N.of_nat (size (list_to_set (map (merge_sort N.le) items) : gset (list N))) -> clash table16_index [] items.
Proof. exact l_C39_table16_overflow_refuted. Qed.
Print Assumptions C39_table16_overflow_refuted.
Theorem C39_overflow_reachable : exists small big,
  clash table8_index [] small /\ clash collection8_index [] small /\
  clash table16_index [] big /\ clash collection16_index [] big.
Proof. exact l_C39_overflow_reachable. Qed.
Print Assumptions C39_overflow_reachable.
Example C39_case :
  idx_all table8_index [] [[2; 1]; [3]; [1; 2]] = Ok ([[1; 2]; [3]], [0; 1; 0]) /\
  idx_all collection8_index [] [[2; 1]; [3]; [1; 2]] = Ok ([[[3]]; [[1; 2]]], [256; 0; 256]) /\
  idx_all collection16_index [] [[2; 1]; [3]; [1; 2]] = Ok ([[[3]]; [[1; 2]]], [65536; 0; 65536]).
Proof. vm_compute. auto. Qed.

(** C40.  [Find] panics exactly when the set is longer than every stored one. *)
Theorem C40_find_panics : forall c item, lenN c < lenN item ->
  collection8_find c item = Panic /\ collection16_find c item = Panic.
Proof. exact l_C40_find_panics. Qed.
Print Assumptions C40_find_panics.
Theorem C40_find_otherwise : forall items s id, nonempty items -> fits 65536 65536 items -> Sorted N.le s -> s <> [] ->
  forall x ids, idx_all collection16_index [] items = Ok (x, ids) -> lenN s <= lenN x ->
  (exists r, collection16_find x s = Ok r) /\
  (collection16_find x s = Ok (Some id) <-> exists k s', items !! k = Some s' /\ s ≡ₚ s' /\ ids !! k = Some id).
Proof. exact l_C40_find_otherwise. Qed.
Print Assumptions C40_find_otherwise.
Theorem C40_find8_otherwise : forall items s id, nonempty items -> fits 256 256 items -> Sorted N.le s -> s <> [] ->
  forall x ids, idx_all collection8_index [] items = Ok (x, ids) -> lenN s <= lenN x ->
  (exists r, collection8_find x s = Ok r) /\
  (collection8_find x s = Ok (Some id) <-> exists k s', items !! k = Some s' /\ s ≡ₚ s' /\ ids !! k = Some id).
Proof. exact l_C40_find8_otherwise. Qed.
Print Assumptions C40_find8_otherwise.
Theorem C40_find_panics_refuted : exists items x ids, idx_all collection16_index [] items = Ok (x, ids) /\
  collection16_find x [1; 2; 3] = Panic /\ collection16_find [] [1] = Panic /\ collection8_find [] [1] = Panic.
Proof. exists [[1]; [2; 3]]. eexists _, _. split; [vm_compute; reflexivity|]. vm_compute. auto. Qed.
Print Assumptions C40_find_panics_refuted.
Example C40_case : exists x ids, idx_all collection16_index [] [[1]; [2; 3]] = Ok (x, ids) /\
  collection16_find x [2; 3] = Ok (Some 65536) /\ collection16_find x [2; 4] = Ok None.
Proof. eexists _, _. split; [vm_compute; reflexivity|]. vm_compute. auto. Qed.
