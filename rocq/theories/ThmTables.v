(** Proofs of the properties of tag registration, tables and collections: C11, C39, C40. *)
From Coq Require Import ZifyBool ZifyNat ZifyN.
From Verif Require Import Base Storage Bin Tags TagSets Variants Items Index Spec Hist
  BaseFacts Intern SpecFacts TrieFacts NoteFacts OptFacts ThmStore.
From stdpp Require Import list.
Open Scope N_scope.

(** ** C11 *)

Lemma reg_all_snoc regs n p : forall ts,
  reg_all ts (regs ++ [(n, p)]) =
  ((tags_index (reg_all ts regs).1 n p).1, (reg_all ts regs).2 ++ [(tags_index (reg_all ts regs).1 n p).2]).
Proof.
  induction regs as [|[n0 p0] regs IH]; intros ts; cbn [reg_all app].
  - cbn [fst snd]. destruct (tags_index ts n p). reflexivity.
  - destruct (tags_index ts n0 p0) as [ts1 id]. rewrite IH.
    destruct (reg_all ts1 regs) as [ts2 ids]. reflexivity.
Qed.
Lemma tag_pos_from ts n i : tag_pos ts n i = N.to_nat <$> pos_from (N.of_nat i) (map tag_name ts) n.
Proof.
  revert i. induction ts as [|t ts IH]; intros i; cbn [tag_pos map pos_from]; [done|].
  unfold str_eqb. destruct (decide (tag_name t = n)) as [E|E].
  - rewrite bool_decide_eq_true_2 by done. cbn. f_equal. lia.
  - rewrite bool_decide_eq_false_2 by done. rewrite IH. do 2 f_equal. lia.
Qed.
Lemma tags_find_from ts n : lenN ts <= 256 -> tags_find ts n = pos_from 0 (map tag_name ts) n.
Proof.
  intros Hl. unfold tags_find. rewrite tag_pos_from. cbn.
  destruct (pos_from 0 (map tag_name ts) n) as [k|] eqn:E; cbn; [|done]. f_equal. rewrite N2Nat.id.
  apply wrap8_small. apply pos_from_Some in E as (j & -> & Hj). apply lookup_lt_Some in Hj.
  rewrite map_length in Hj. unfold lenN in Hl. lia.
Qed.
Lemma names_of_snoc regs x : names_of (regs ++ [x]) = names_of regs ∪ {[x.1]}.
Proof. unfold names_of. rewrite map_app, list_to_set_app_L. cbn. set_solver. Qed.

Lemma l_C11_registration : forall regs ts ids,
  N.of_nat (size (names_of regs)) <= 256 -> reg_all [] regs = (ts, ids) ->
  length ids = length regs /\
  (forall k n p id, regs !! k = Some (n, p) -> ids !! k = Some id ->
     tags_find ts n = Some id /\
     exists j p0, regs !! j = Some (n, p0) /\ (forall i q, (i < j)%nat -> regs !! i <> Some (n, q)) /\
       tags_get ts id = Some (mkTag (or_dashes p0) n) /\
       id = N.of_nat (size (names_of (take j regs)))) /\
  (forall n, tags_find ts n = None <-> n ∉ map fst regs).
Proof.
  assert (Hinv : forall regs, N.of_nat (size (names_of regs)) <= 256 ->
    let ts := (reg_all [] regs).1 in let ids := (reg_all [] regs).2 in
    NoDup (map tag_name ts) /\ length ts = size (names_of regs) /\
    (forall n, n ∈ map tag_name ts <-> n ∈ map fst regs) /\
    length ids = length regs /\
    (forall k n p, regs !! k = Some (n, p) -> ids !! k = tags_find ts n) /\
    (forall n id, tags_find ts n = Some id ->
       exists j p0, regs !! j = Some (n, p0) /\ (forall i q, (i < j)%nat -> regs !! i <> Some (n, q)) /\
         tags_get ts id = Some (mkTag (or_dashes p0) n) /\
         id = N.of_nat (size (names_of (take j regs))))).
  { induction regs as [|[n p] regs IH] using rev_ind; intros Hsz.
    { cbn. split; [constructor|]. repeat (split; [done|]). done. }
    assert (Hle : (size (names_of regs) <= size (names_of (regs ++ [(n, p)])))%nat).
    { apply subseteq_size. rewrite names_of_snoc. set_solver. }
    destruct (IH ltac:(lia)) as (Hnd & Hlen & Hel & Hli & Hids & Hfind). clear IH.
    rewrite reg_all_snoc. set (ts := (reg_all [] regs).1) in *. set (ids := (reg_all [] regs).2) in *.
    cbn [fst snd]. assert (Hl : lenN ts <= 256) by (unfold lenN; lia).
    assert (Hkeep : forall regs' j n' (p0 : list N), regs !! j = Some (n', p0) ->
       (forall i q, (i < j)%nat -> regs !! i <> Some (n', q)) ->
       (regs ++ regs') !! j = Some (n', p0) /\ (forall i q, (i < j)%nat -> (regs ++ regs') !! i <> Some (n', q)) /\
       take j (regs ++ regs') = take j regs).
    { intros regs' j n' p0 Hj Hfst. pose proof (lookup_lt_Some _ _ _ Hj). split; [by apply lookup_app_l_Some|].
      split; [|by rewrite take_app_le by lia]. intros i q Hi. rewrite lookup_app_l by lia. by apply Hfst. }
    unfold tags_index. destruct (tags_find ts n) as [id|] eqn:E; cbn [fst snd].
    - assert (Hin : n ∈ map fst regs).
      { destruct (Hfind _ _ E) as (j & p0 & Hj & _). apply elem_of_list_fmap. exists (n, p0).
        split; [done|]. by eapply elem_of_list_lookup_2. }
      split; [done|]. split.
      { rewrite names_of_snoc. replace (names_of regs ∪ {[(n, p).1]}) with (names_of regs); [done|].
        cbn. assert (n ∈ names_of regs) by (unfold names_of; by apply elem_of_list_to_set). set_solver. }
      split. { intros n'. rewrite Hel, map_app, elem_of_app. cbn. rewrite elem_of_list_singleton. naive_solver. }
      split; [by rewrite !app_length, Hli|]. split.
      + intros k n' p' Hk. apply lookup_app_Some in Hk as [Hk|[Hk1 Hk2]].
        * rewrite lookup_app_l by (rewrite Hli; by apply lookup_lt_Some in Hk). by eapply Hids.
        * apply list_lookup_singleton_Some in Hk2 as [Hk0 [= <- <-]].
          rewrite lookup_app_r by lia. rewrite Hli, Hk0. done.
      + intros n' id' H'. destruct (Hfind _ _ H') as (j & p0 & Hj & Hfst & Hg & ->).
        destruct (Hkeep [(n, p)] j n' p0 Hj Hfst) as (K1 & K2 & K3). exists j, p0. by rewrite K3.
    - assert (Hnin : n ∉ map fst regs).
      { rewrite <- Hel. rewrite tags_find_from in E by done. by apply pos_from_None in E. }
      assert (Hsz' : size (names_of (regs ++ [(n, p)])) = S (length ts)).
      { rewrite names_of_snoc, size_union. 2:{ cbn. intros x Hx ->%elem_of_singleton. apply Hnin.
          unfold names_of in Hx. by apply elem_of_list_to_set in Hx. }
        rewrite size_singleton, Hlen. lia. }
      rewrite Hsz' in *. assert (Hlt : (length ts < 256)%nat) by lia.
      set (t := new_tag _ n). assert (Ht : t = mkTag (or_dashes p) n).
      { unfold t, new_tag, or_dashes, str_eqb. destruct (decide (p = [])) as [->|Hp]; [done|].
        rewrite (bool_decide_eq_false_2 (p = [])) by done. by rewrite bool_decide_eq_false_2. }
      assert (Hmap : map tag_name (ts ++ [t]) = map tag_name ts ++ [n]) by (rewrite map_app, Ht; done).
      assert (Hl' : lenN (ts ++ [t]) <= 256) by (rewrite lenN_app; unfold lenN; cbn; lia).
      assert (Hnew : tags_find (ts ++ [t]) n = Some (lenN ts)).
      { rewrite tags_find_from by done. rewrite Hmap.
        rewrite (pos_from_lookup 0 _ n (length ts)); [unfold lenN; f_equal; lia| |].
        - apply NoDup_app. split; [done|]. split; [|apply NoDup_singleton].
          intros y Hy ->%elem_of_list_singleton. by rewrite Hel in Hy.
        - rewrite lookup_app_r by (by rewrite map_length). by rewrite map_length, Nat.sub_diag. }
      assert (Hold : forall n', n' <> n -> tags_find (ts ++ [t]) n' = tags_find ts n').
      { intros n' Hne. rewrite !tags_find_from by done. rewrite Hmap.
        destruct (pos_from 0 (map tag_name ts) n') as [i|] eqn:Ei; [by apply pos_from_app_old|].
        apply pos_from_None. apply pos_from_None in Ei. rewrite elem_of_app, elem_of_list_singleton. naive_solver. }
      split. { rewrite Hmap. apply NoDup_app. split; [done|]. split; [|apply NoDup_singleton].
        intros y Hy ->%elem_of_list_singleton. by rewrite Hel in Hy. }
      split; [rewrite app_length; cbn; lia|].
      split. { intros n'. rewrite Hmap, map_app, !elem_of_app, Hel. done. }
      split; [by rewrite !app_length, Hli|]. split.
      + intros k n' p' Hk. apply lookup_app_Some in Hk as [Hk|[Hk1 Hk2]].
        * rewrite lookup_app_l by (rewrite Hli; by apply lookup_lt_Some in Hk). rewrite Hold; [by eapply Hids|].
          intros ->. apply Hnin. apply elem_of_list_fmap. exists (n, p'). split; [done|]. by eapply elem_of_list_lookup_2.
        * apply list_lookup_singleton_Some in Hk2 as [Hk0 [= <- <-]].
          rewrite lookup_app_r by lia. rewrite Hli, Hk0, Hnew. cbn. f_equal. apply wrap8_small. unfold lenN. lia.
      + intros n' id' H'. destruct (decide (n' = n)) as [->|Hne].
        * rewrite Hnew in H'. injection H' as <-. exists (length regs), p.
          split; [by rewrite lookup_app_r, Nat.sub_diag by lia|]. split.
          { intros i q Hi Hq. rewrite lookup_app_l in Hq by lia. apply Hnin. apply elem_of_list_fmap.
            exists (n, q). split; [done|]. by eapply elem_of_list_lookup_2. }
          split; [|by rewrite take_app, <- Hlen].
          rewrite tags_get_lookup, to_nat_lenN, lookup_app_r, Nat.sub_diag by lia. by rewrite Ht.
        * rewrite Hold in H' by done. destruct (Hfind _ _ H') as (j & p0 & Hj & Hfst & Hg & ->).
          destruct (Hkeep [(n, p)] j n' p0 Hj Hfst) as (K1 & K2 & K3). exists j, p0. rewrite K3.
          split; [done|]. split; [done|]. split; [|done]. rewrite tags_get_lookup in *. by apply lookup_app_l_Some. }
  intros regs ts ids Hsz E. destruct (Hinv regs Hsz) as (Hnd & Hlen & Hel & Hli & Hids & Hfind).
  rewrite E in *. cbn [fst snd] in *. split; [done|]. split.
  - intros k n p id Hk Hid. rewrite (Hids _ _ _ Hk) in Hid. split; [done|]. by apply Hfind.
  - intros n. rewrite <- Hel, tags_find_from by (unfold lenN; lia). apply pos_from_None.
Qed.
Lemma l_C11_overflow_refuted : forall ts n p, lenN ts = 256 -> tags_find ts n = None ->
  (tags_index ts n p).2 = 0 /\ tags_get (tags_index ts n p).1 0 = tags_get ts 0 /\ is_Some (tags_get ts 0).
Proof.
  intros ts n p Hl Hn. unfold tags_index. rewrite Hn. cbn [fst snd]. rewrite Hl. split; [done|].
  rewrite !tags_get_lookup. destruct ts as [|t ts]; [done|]. done.
Qed.

(** ** C39, C40 *)
Lemma l_C39_collection16 : forall items, nonempty items -> fits 65536 65536 items ->
  exists x ids, idx_all collection16_index [] items = Ok (x, ids) /\ interns collection16_get x ids items.
Proof.
  intros items Hne Hf. exact (packed_interns collection16_index collection16_get pack16 65536 65536
    collection16_idx collection16_get_pack pack16_inj items Hne Hf).
Qed.
Lemma l_C39_collection8 : forall items, nonempty items -> fits 256 256 items ->
  exists x ids, idx_all collection8_index [] items = Ok (x, ids) /\ interns collection8_get x ids items.
Proof.
  intros items Hne Hf. exact (packed_interns collection8_index collection8_get pack8 256 256
    collection8_idx collection8_get_pack pack8_inj items Hne Hf).
Qed.
Lemma l_C39_collection16_overflow_refuted : forall items n, nonempty items -> Forall (fun s => lenN s <= 65536) items ->
  65536 < N.of_nat (size (distinct_sets n items)) -> clash collection16_index [] items.
Proof.
  intros items n Hne Hm Hs.
  eapply (packed_overflow collection16_index pack16 65536 65536 collection16_idx items n Hne Hm); [apply pack16_wrap|done|done].
Qed.
Lemma l_C39_collection8_overflow_refuted : forall items n, nonempty items -> Forall (fun s => lenN s <= 256) items ->
  256 < N.of_nat (size (distinct_sets n items)) -> clash collection8_index [] items.
Proof.
  intros items n Hne Hm Hs.
  eapply (packed_overflow collection8_index pack8 256 256 collection8_idx items n Hne Hm); [apply pack8_wrap|done|done].
Qed.

(** one table: sets of any size *)
Definition intern1 (t : list (list N)) (s : list N) : list (list N) * nat :=
  match find_pos t (go_sort s) 0 with Some i => (t, i) | None => (t ++ [go_sort s], length t) end.
Fixpoint intern1_all (t : list (list N)) (items : list (list N)) : list (list N) * list nat :=
  match items with
  | [] => (t, [])
  | s :: items' =>
    let '(t1, i) := intern1 t s in let '(t2, ps) := intern1_all t1 items' in (t2, i :: ps)
  end.
Lemma intern1_spec t s : NoDup t ->
  let r := intern1 t s in NoDup r.1 /\ r.1 !! r.2 = Some (go_sort s) /\
  (forall i x, t !! i = Some x -> r.1 !! i = Some x) /\ (forall x, x ∈ r.1 <-> x ∈ t \/ x = go_sort s).
Proof.
  intros Hnd. unfold intern1. destruct (find_pos t (go_sort s) 0) as [i|] eqn:E; cbn.
  - apply find_pos_Some in E as [E _]. split; [done|]. split; [done|]. split; [done|].
    intros x. split; [by left|]. intros [?| ->]; [done|]. by eapply elem_of_list_lookup_2.
  - apply find_pos_None in E. split; [apply NoDup_app; split; [done|]; split; [|apply NoDup_singleton]|].
    { intros x Hx ->%elem_of_list_singleton. done. }
    split; [by rewrite lookup_app_r, Nat.sub_diag|]. split; [intros; by apply lookup_app_l_Some|].
    intros x. by rewrite elem_of_app, elem_of_list_singleton.
Qed.
Lemma intern1_all_spec items : forall t, NoDup t ->
  let r := intern1_all t items in NoDup r.1 /\ length r.2 = length items /\
  (forall k s i, items !! k = Some s -> r.2 !! k = Some i -> r.1 !! i = Some (go_sort s)) /\
  (forall i x, t !! i = Some x -> r.1 !! i = Some x) /\
  (forall x, x ∈ r.1 <-> x ∈ t \/ exists s, s ∈ items /\ x = go_sort s).
Proof.
  induction items as [|s items IH]; intros t Hnd; cbn [intern1_all].
  { cbn. repeat (split; [done|]). intros x. split; [by left|]. intros [?|(s & Hs & _)]; [done|].
    by apply elem_of_nil in Hs. }
  destruct (intern1_spec t s Hnd) as (N1 & G1 & M1 & E1). destruct (intern1 t s) as [t1 i1]. cbn [fst snd] in *.
  destruct (IH t1 N1) as (N2 & L2 & G2 & M2 & E2). destruct (intern1_all t1 items) as [t2 ps]. cbn [fst snd] in *.
  split; [done|]. split; [cbn; by rewrite L2|]. split; [|split; [by auto|]].
  - intros [|k] s' i Hk Hi; [injection Hk as <-; injection Hi as <-; by apply M2|by eapply G2].
  - intros x. rewrite E2, E1. setoid_rewrite elem_of_cons. naive_solver.
Qed.
Section table.
  Context (wrap : N -> N) (k : N) (Hwrap : forall n, n < k -> wrap n = n).
  Context (f : list (list N) -> list N -> res (list (list N) * N)).
  Context (Hf : forall t s, s <> [] -> f t s = Ok (table_index wrap t s)).
  Lemma table_idx items : forall t, nonempty items ->
    idx_all f t items = Ok ((intern1_all t items).1, map (fun i => wrap (N.of_nat i)) (intern1_all t items).2).
  Proof using Hf.
    clear Hwrap. induction items as [|s items IH]; intros t Hne; [done|]. inversion Hne; subst.
    cbn [idx_all intern1_all]. rewrite Hf by done. unfold mbind, res_bind.
    assert (E : table_index wrap t s = ((intern1 t s).1, wrap (N.of_nat (intern1 t s).2))).
    { unfold table_index, table_find, intern1. by destruct (find_pos t (go_sort s) 0). }
    rewrite E. destruct (intern1 t s) as [t1 i1]. cbn [fst snd]. rewrite IH by done.
    by destruct (intern1_all t1 items).
  Qed.
  Lemma table_interns items : nonempty items ->
    N.of_nat (size (list_to_set (map (merge_sort N.le) items) : gset (list N))) <= k ->
    exists t ids, idx_all f [] items = Ok (t, ids) /\ interns table_get t ids items /\
      forall s id, Sorted N.le s ->
        table_find wrap t s = Some id <-> exists j s', items !! j = Some s' /\ s ≡ₚ s' /\ ids !! j = Some id.
  Proof using Hwrap Hf.
    intros Hne Hk. eexists _, _. split; [by apply table_idx|].
    destruct (intern1_all_spec items [] (NoDup_nil_2)) as (Hnd & Hlen & Hg & _ & Hel).
    set (r := intern1_all [] items) in *.
    assert (Hlt : forall i x, r.1 !! i = Some x -> N.of_nat i < k).
    { intros i x Hi. apply lookup_lt_Some in Hi.
      assert (length r.1 = size (list_to_set r.1 : gset (list N))) as E by by rewrite size_list_to_set.
      assert (E2 : list_to_set r.1 = (list_to_set (map (merge_sort N.le) items) : gset (list N))).
      { apply set_eq. intros y. rewrite !elem_of_list_to_set, Hel, elem_of_list_fmap. unfold go_sort.
        split; [intros [Hy|(s & ? & ?)]; [by apply elem_of_nil in Hy|eauto]|intros (s & ? & ?); eauto]. }
      rewrite E2 in E. lia. }
    split; [|intros s id Hsort].
    - split; [by rewrite map_length|]. split.
      + intros j id s Hid Hs. apply (list_lookup_fmap_inv (fun i => wrap (N.of_nat i))) in Hid as (i & -> & Hi).
        pose proof (Hg _ _ _ Hs Hi) as Hgi. rewrite table_get_lookup, Hwrap, Nat2N.id by by eapply Hlt. done.
      + intros j j' id id' s s' Hid Hid' Hs Hs'.
        apply (list_lookup_fmap_inv (fun i => wrap (N.of_nat i))) in Hid as (i & -> & Hi).
        apply (list_lookup_fmap_inv (fun i => wrap (N.of_nat i))) in Hid' as (i' & -> & Hi').
        pose proof (Hg _ _ _ Hs Hi) as H1. pose proof (Hg _ _ _ Hs' Hi') as H2.
        rewrite !Hwrap by by eapply Hlt. rewrite go_sort_perm_eq. split.
        * intros E. assert (i = i') as <- by lia. congruence.
        * intros E. rewrite E in H1. f_equal. by eapply NoDup_lookup.
    - unfold table_find. split.
      + destruct (find_pos r.1 s 0) as [i|] eqn:Ep; [|done]. intros [= <-].
        apply find_pos_Some in Ep as [Ep _]. pose proof (elem_of_list_lookup_2 _ _ _ Ep) as Hin.
        apply Hel in Hin as [Hin|(s' & Hin & ->)]; [by apply elem_of_nil in Hin|].
        apply elem_of_list_lookup in Hin as [j Hj]. exists j, s'. split; [done|]. split; [apply go_sort_perm|].
        destruct (lookup_lt_is_Some_2 r.2 j) as [i' Hi']; [rewrite Hlen; by apply lookup_lt_Some in Hj|].
        pose proof (Hg _ _ _ Hj Hi') as H1. rewrite (list_lookup_fmap (fun i => wrap (N.of_nat i))), Hi'. cbn.
        do 3 f_equal. by eapply NoDup_lookup.
      + intros (j & s' & Hj & Hp & Hid).
        apply (list_lookup_fmap_inv (fun i => wrap (N.of_nat i))) in Hid as (i & -> & Hi).
        pose proof (Hg _ _ _ Hj Hi) as H1. rewrite <- (go_sort_unique s' s Hsort Hp) in H1.
        by rewrite (proj2 (find_pos_NoDup r.1 s i Hnd) H1).
  Qed.
End table.
Lemma l_C39_table8 : forall items, nonempty items ->
  N.of_nat (size (list_to_set (map (merge_sort N.le) items) : gset (list N))) <= 256 ->
  exists t ids, idx_all table8_index [] items = Ok (t, ids) /\ interns table8_get t ids items /\
    forall s id, Sorted N.le s ->
      table8_find t s = Some id <-> exists j s', items !! j = Some s' /\ s ≡ₚ s' /\ ids !! j = Some id.
Proof.
  apply (table_interns wrap8 256 wrap8_small table8_index). intros t [|a s] Hs; [done|].
  unfold table8_index. by rewrite (proj1 (lenN_pos_case (a :: s) Hs)).
Qed.
Lemma l_C39_table16 : forall items, nonempty items ->
  N.of_nat (size (list_to_set (map (merge_sort N.le) items) : gset (list N))) <= 65536 ->
  exists t ids, idx_all table16_index [] items = Ok (t, ids) /\ interns table16_get t ids items /\
    forall s id, Sorted N.le s ->
      table16_find t s = Some id <-> exists j s', items !! j = Some s' /\ s ≡ₚ s' /\ ids !! j = Some id.
Proof.
  apply (table_interns wrap16 65536 wrap16_small table16_index). intros t [|a s] Hs; [done|].
  unfold table16_index. by rewrite (proj1 (lenN_pos_case (a :: s) Hs)).
Qed.
Lemma l_C40_find_panics : forall c item, lenN c < lenN item ->
  collection8_find c item = Panic /\ collection16_find c item = Panic.
Proof.
  intros c item H. assert (Hne : item <> []) by (intros ->; rewrite lenN_nil in H; lia).
  destruct (lenN_pos_case item Hne) as [E1 E2]. unfold collection8_find, collection16_find. rewrite E1.
  unfold slice_get. rewrite lookup_ge_None_2; [done|]. unfold lenN in *. lia.
Qed.
Lemma l_C40_find_otherwise : forall items s id, nonempty items -> fits 65536 65536 items -> Sorted N.le s -> s <> [] ->
  forall x ids, idx_all collection16_index [] items = Ok (x, ids) -> lenN s <= lenN x ->
  (exists r, collection16_find x s = Ok r) /\
  (collection16_find x s = Ok (Some id) <-> exists k s', items !! k = Some s' /\ s ≡ₚ s' /\ ids !! k = Some id).
Proof.
  intros items s id Hne Hf Hsort Hs x ids E Hle.
  rewrite (idx_all_intern collection16_index pack16 65536 collection16_idx) in E by (done || apply Hf).
  injection E as <- <-. rewrite <- (packed_find pack16 65536 65536 items s id Hne Hf Hs Hsort).
  unfold collection16_find. destruct (lenN_pos_case s Hs) as [E1 E2]. rewrite E1, E2.
  set (x := (intern_all [] items).1) in *. set (c := (length s - 1)%nat).
  assert (Hc' : length s = S c) by (unfold c; destruct s; [done|cbn; lia]).
  assert (Hok : tables_ok x) by apply (intern_all_spec items [] tables_ok_nil Hne).
  unfold slice_get. rewrite Nat2N.id. unfold lenN in Hle.
  destruct (lookup_lt_is_Some_2 x c) as [t Et]; [lia|]. pose proof (find_at2 x s Hok Hs) as Hfind. fold c in Hfind.
  rewrite Et in *. cbn in Hfind. unfold mbind, res_bind, table16_find, table_find.
  destruct (find_pos t s 0) as [i|] eqn:Ep.
  - split; [by eexists|]. split.
    + intros [= <-]. exists i. split; [by apply Hfind|done].
    + intros (i' & Ha & ->). apply Hfind in Ha. injection Ha as ->. done.
  - split; [by eexists|]. split; [done|]. intros (i' & Ha & ->). by apply Hfind in Ha.
Qed.
Lemma l_C40_find8_otherwise : forall items s id, nonempty items -> fits 256 256 items -> Sorted N.le s -> s <> [] ->
  forall x ids, idx_all collection8_index [] items = Ok (x, ids) -> lenN s <= lenN x ->
  (exists r, collection8_find x s = Ok r) /\
  (collection8_find x s = Ok (Some id) <-> exists k s', items !! k = Some s' /\ s ≡ₚ s' /\ ids !! k = Some id).
Proof.
  intros items s id Hne Hf Hsort Hs x ids E Hle.
  rewrite (idx_all_intern collection8_index pack8 256 collection8_idx) in E by (done || apply Hf).
  injection E as <- <-. rewrite <- (packed_find pack8 256 256 items s id Hne Hf Hs Hsort).
  unfold collection8_find. destruct (lenN_pos_case s Hs) as [E1 E2]. rewrite E1, E2.
  set (x := (intern_all [] items).1) in *. set (c := (length s - 1)%nat).
  assert (Hc' : length s = S c) by (unfold c; destruct s; [done|cbn; lia]).
  assert (Hok : tables_ok x) by apply (intern_all_spec items [] tables_ok_nil Hne).
  unfold slice_get. rewrite Nat2N.id. unfold lenN in Hle.
  destruct (lookup_lt_is_Some_2 x c) as [t Et]; [lia|]. pose proof (find_at2 x s Hok Hs) as Hfind. fold c in Hfind.
  rewrite Et in *. cbn in Hfind. unfold mbind, res_bind, table8_find, table_find.
  destruct (find_pos t s 0) as [i|] eqn:Ep.
  - split; [by eexists|]. split.
    + intros [= <-]. exists i. split; [by apply Hfind|done].
    + intros (i' & Ha & ->). apply Hfind in Ha. injection Ha as ->. done.
  - split; [by eexists|]. split; [done|]. intros (i' & Ha & ->). by apply Hfind in Ha.
Qed.

(** ** Concrete families of sets beyond the limits *)
Fixpoint choices (i : N) (k : nat) : list (list N) :=
  match k with
  | O => [[]]
  | S k => map (cons (2 * i)) (choices (i + 1) k) ++ map (cons (2 * i + 1)) (choices (i + 1) k)
  end.
Lemma choices_elem k : forall i s, s ∈ choices i k ->
  length s = k /\ Sorted N.le s /\ Forall (fun x => 2 * i <= x < 2 * (i + N.of_nat k)) s.
Proof.
  induction k as [|k IH]; intros i s; cbn [choices].
  { intros ->%elem_of_list_singleton. repeat constructor. }
  intros Hs. assert (Hs' : exists b s', s = (2 * i + b) :: s' /\ b <= 1 /\ s' ∈ choices (i + 1) k).
  { apply elem_of_app in Hs as [Hs|Hs]; apply elem_of_list_fmap in Hs as (s' & -> & Hs).
    - exists 0, s'. split; [f_equal; lia|]. split; [lia|done].
    - exists 1, s'. split; [done|]. split; [lia|done]. }
  destruct Hs' as (b & s' & -> & Hb & Hin). destruct (IH _ _ Hin) as (Hl & Hso & Hall).
  split; [cbn; lia|]. split.
  - constructor; [done|]. destruct s' as [|y s']; constructor. inversion Hall; subst. lia.
  - constructor; [lia|]. eapply Forall_impl; [exact Hall|]. cbv beta. intros y Hy. lia.
Qed.
Lemma choices_NoDup k : forall i, NoDup (choices i k).
Proof.
  induction k as [|k IH]; intros i; cbn [choices]; [apply NoDup_singleton|].
  assert (Hinj : forall x, Inj (=) (=) (cons x : list N -> list N)) by (intros x a b H; by injection H).
  apply NoDup_app. split; [apply NoDup_fmap_2; [apply Hinj|apply IH]|].
  split; [|apply NoDup_fmap_2; [apply Hinj|apply IH]].
  intros s H1 H2. apply elem_of_list_fmap in H1 as (a & -> & _). apply elem_of_list_fmap in H2 as (b & E & _).
  injection E as E _. lia.
Qed.
Lemma choices_length k : forall i, N.of_nat (length (choices i k)) = 2 ^ N.of_nat k.
Proof.
  induction k as [|k IH]; intros i; cbn [choices]; [done|].
  rewrite app_length, !map_length, Nat2N.inj_add, IH, Nat2N.inj_succ, N.pow_succ_r'. lia.
Qed.
Lemma choices_sorted i k : map (merge_sort N.le) (choices i k) = choices i k.
Proof.
  assert (H : forall l, Forall (Sorted N.le) l -> map (merge_sort N.le) l = l).
  { induction 1 as [|s l Hs _ IH]; [done|]. cbn. f_equal; [by apply go_sort_id|done]. }
  apply H. apply Forall_forall. intros s Hs. by apply choices_elem in Hs as (_ & ? & _).
Qed.
Lemma choices_distinct k : N.of_nat (size (distinct_sets k (choices 0 k))) = 2 ^ N.of_nat k.
Proof.
  unfold distinct_sets. assert (E : filter (fun s => length s = k) (choices 0 k) = choices 0 k).
  { assert (H : forall l : list (list N), Forall (fun s => length s = k) l -> filter (fun s => length s = k) l = l).
    { induction 1 as [|s l Hs _ IH]; [done|]. rewrite filter_cons_True by done. by rewrite IH. }
    apply H. apply Forall_forall. intros s Hs. by apply choices_elem in Hs as (? & _). }
  rewrite E, choices_sorted, size_list_to_set by apply choices_NoDup. apply choices_length.
Qed.
Lemma choices_nonempty k : nonempty (choices 0 (S k)).
Proof.
  apply Forall_forall. intros s Hs ->. by apply choices_elem in Hs as (? & _).
Qed.
Lemma choices_len k m : N.of_nat k <= m -> Forall (fun s => lenN s <= m) (choices 0 k).
Proof.
  intros Hk. apply Forall_forall. intros s Hs. apply choices_elem in Hs as (Hl & _). unfold lenN. lia.
Qed.

Section table_over.
  Context (wrap : N -> N) (k : N) (Hk0 : 0 < k) (Hwrap : wrap k = wrap 0).
  Context (f : list (list N) -> list N -> res (list (list N) * N)).
  Context (Hf : forall t s, s <> [] -> f t s = Ok (table_index wrap t s)).
  Lemma table_overflow items : nonempty items ->
    k < N.of_nat (size (list_to_set (map (merge_sort N.le) items) : gset (list N))) -> clash f [] items.
  Proof using Hwrap Hf Hk0.
    intros Hne Hk. pose proof (table_idx wrap f Hf items [] Hne) as E.
    destruct (intern1_all_spec items [] (NoDup_nil_2)) as (Hnd & Hlen & Hg & _ & Hel).
    set (r := intern1_all [] items) in *.
    assert (Hlr : length r.1 = size (list_to_set (map (merge_sort N.le) items) : gset (list N))).
    { transitivity (size (list_to_set r.1 : gset (list N))); [by rewrite size_list_to_set|].
      f_equal. apply set_eq. intros y.
      rewrite !elem_of_list_to_set, Hel, elem_of_list_fmap. unfold go_sort.
      split; [intros [Hy|(s & ? & ?)]; [by apply elem_of_nil in Hy|eauto]|intros (s & ? & ?); eauto]. }
    destruct (lookup_lt_is_Some_2 r.1 0) as [s0 H0]; [lia|].
    destruct (lookup_lt_is_Some_2 r.1 (N.to_nat k)) as [s1 H1]; [lia|].
    assert (Hdiff : s0 <> s1).
    { intros ->. pose proof (NoDup_lookup _ _ _ _ Hnd H0 H1). lia. }
    assert (Hfind : forall i x, r.1 !! i = Some x ->
      exists j s, items !! j = Some s /\ x = go_sort s /\ r.2 !! j = Some i).
    { intros i x Hi. pose proof (elem_of_list_lookup_2 _ _ _ Hi) as Hin.
      apply Hel in Hin as [Hin|(s & Hin & ->)]; [by apply elem_of_nil in Hin|].
      apply elem_of_list_lookup in Hin as [j Hj]. exists j, s. split; [done|]. split; [done|].
      destruct (lookup_lt_is_Some_2 r.2 j) as [i' Hi']; [rewrite Hlen; by apply lookup_lt_Some in Hj|].
      rewrite Hi'. f_equal. eapply NoDup_lookup; [exact Hnd|by eapply Hg|done]. }
    destruct (Hfind _ _ H0) as (j & s & Hj & -> & Hr). destruct (Hfind _ _ H1) as (j' & s' & Hj' & -> & Hr').
    assert (L : forall j i, r.2 !! j = Some i -> map (fun i => wrap (N.of_nat i)) r.2 !! j = Some (wrap (N.of_nat i))).
    { intros j0 i0 H. by rewrite (list_lookup_fmap (fun i => wrap (N.of_nat i))), H. }
    eexists _, _, j, j', (wrap 0), s, s'. split; [exact E|]. split; [exact (L _ _ Hr)|].
    split; [rewrite (L _ _ Hr'), N2Nat.id; by rewrite Hwrap|]. split; [done|]. split; [done|].
    by rewrite go_sort_perm_eq.
  Qed.
End table_over.
Lemma l_C39_table8_overflow_refuted : forall items, nonempty items ->
  256 < N.of_nat (size (list_to_set (map (merge_sort N.le) items) : gset (list N))) -> clash table8_index [] items.
Proof.
  apply (table_overflow wrap8 256); [done|done|]. intros t s Hs.
  unfold table8_index. by rewrite (proj1 (lenN_pos_case s Hs)).
Qed.
Lemma l_C39_table16_overflow_refuted : forall items, nonempty items ->
  65536 < N.of_nat (size (list_to_set (map (merge_sort N.le) items) : gset (list N))) -> clash table16_index [] items.
Proof.
  apply (table_overflow wrap16 65536); [done|done|]. intros t s Hs.
  unfold table16_index. by rewrite (proj1 (lenN_pos_case s Hs)).
Qed.
Lemma choices_size k : N.of_nat (size (list_to_set (map (merge_sort N.le) (choices 0 k)) : gset (list N))) = 2 ^ N.of_nat k.
Proof.
  rewrite choices_sorted, size_list_to_set by apply choices_NoDup. apply choices_length.
Qed.
Lemma choices_byte k : N.of_nat k <= 128 -> Forall (Forall (fun x => x < 256)) (choices 0 k).
Proof.
  intros Hk. apply Forall_forall. intros s Hs. apply choices_elem in Hs as (_ & _ & H).
  eapply Forall_impl; [exact H|]. cbv beta. intros y Hy. lia.
Qed.
Lemma l_C12_overflow_reachable : exists items, Forall (Forall (fun x => x < 256)) items /\ clash tagset_index_index [] items.
Proof.
  exists (choices 0 17). split; [by apply choices_byte|]. apply (l_C12_overflow_refuted _ 17).
  - apply choices_nonempty.
  - by apply choices_len.
  - by rewrite choices_distinct.
Qed.
Lemma l_C13_overflow_reachable : exists items, clash variants_index_index [] items.
Proof.
  exists (choices 0 17). apply (l_C13_overflow_refuted _ 17).
  - apply choices_nonempty.
  - by apply choices_len.
  - by rewrite choices_distinct.
Qed.
Lemma l_C39_overflow_reachable : exists small big,
  clash table8_index [] small /\ clash collection8_index [] small /\
  clash table16_index [] big /\ clash collection16_index [] big.
Proof.
  exists (choices 0 9), (choices 0 17).
  split; [apply l_C39_table8_overflow_refuted; [apply choices_nonempty|by rewrite choices_size]|].
  split; [apply (l_C39_collection8_overflow_refuted _ 9); [apply choices_nonempty|by apply choices_len|by rewrite choices_distinct]|].
  split; [apply l_C39_table16_overflow_refuted; [apply choices_nonempty|by rewrite choices_size]|].
  apply (l_C39_collection16_overflow_refuted _ 17); [apply choices_nonempty|by apply choices_len|by rewrite choices_distinct].
Qed.
