(** Proofs of the properties of the storage: C10-C15, C39, C40. *)
From Coq Require Import ZifyBool ZifyNat ZifyN.
From Verif Require Import Base Storage Bin Tags TagSets Variants Items Index Spec Hist
  BaseFacts Intern SpecFacts TrieFacts NoteFacts OptFacts.
From stdpp Require Import list.
Open Scope N_scope.

(** ** C10: node storage *)
Lemma alloc_all_from l : forall s, its_next s <= lenN (its_list s) ->
  its_next s + lenN l <= 4294967296 ->
  exists s' its, alloc_all s l = Ok (s', its) /\
    length its = length l /\
    (forall k pr, l !! k = Some pr -> its !! k = Some (mkItem pr.1 (its_next s + N.of_nat k) pr.2 0)) /\
    (forall k it, its !! k = Some it -> its_list s' !! (N.to_nat (its_next s) + k)%nat = Some it) /\
    (forall i x, (i < N.to_nat (its_next s))%nat -> its_list s !! i = Some x -> its_list s' !! i = Some x).
Proof.
  induction l as [|[p r] l IH]; intros s Hroom Hcap.
  { exists s, []. cbn. split; [done|]. split; [done|]. split; [by intros k pr H|]. split; [by intros k it H|done]. }
  rewrite lenN_cons in Hcap.
  destruct (new_child_spec s p r Hroom) as (l1 & E & Hl1 & Hl2 & k1 & ->).
  set (n := its_next s) in *. set (it := mkItem p n r 0) in *.
  cbn [alloc_all]. rewrite E. unfold mbind, res_bind at 1.
  set (s1 := mkItems _ _) in *.
  assert (Hold : forall i x, (i < N.to_nat n)%nat -> its_list s !! i = Some x -> its_list s1 !! i = Some x).
  { intros i x Hi Hx. cbn. rewrite list_lookup_insert_ne by lia. by apply lookup_app_l_Some. }
  assert (Hit : its_list s1 !! N.to_nat n = Some it).
  { cbn. apply list_lookup_insert. unfold lenN in Hl1. lia. }
  destruct l as [|pr l].
  - exists s1, [it]. split; [done|]. split; [done|]. split; [|split; [|done]].
    + intros [|k] pr Hk; [|done]. injection Hk as <-. cbn. unfold it. do 2 f_equal. lia.
    + intros [|k] x Hk; [|done]. injection Hk as <-. by rewrite Nat.add_0_r.
  - assert (Hn1 : its_next s1 = n + 1).
    { cbn. rewrite lenN_cons in Hcap. apply wrap32_small. lia. }
    destruct (IH s1) as (s' & its & E' & Hlen & Hval & Hst & Hkeep).
    + rewrite Hn1. cbn. rewrite lenN_insert. lia.
    + rewrite Hn1. lia.
    + rewrite E'. rewrite Hn1 in *. exists s', (it :: its). split; [done|].
      split; [cbn; by rewrite Hlen|]. split; [|split].
      * intros [|k] pr' Hk; [injection Hk as <-; cbn; unfold it; do 2 f_equal; lia|].
        change (its !! k = Some (mkItem pr'.1 (n + N.of_nat (S k)) pr'.2 0)).
        rewrite (Hval k pr' Hk). do 2 f_equal. lia.
      * intros [|k] x Hk.
        -- injection Hk as <-. rewrite Nat.add_0_r. apply Hkeep; [lia|done].
        -- cbn in Hk. apply Hst in Hk. rewrite <- Hk. f_equal. lia.
      * intros i x Hi Hx. apply Hkeep; [lia|]. by apply Hold.
Qed.
Lemma l_C10_allocation : forall l, lenN l <= 4294967295 ->
  exists s its, alloc_all items_new l = Ok (s, its) /\ length its = length l /\
    (forall k pr, l !! k = Some pr ->
       its !! k = Some (mkItem pr.1 (N.of_nat k + 1) pr.2 0) /\
       its_list s !! S k = Some (mkItem pr.1 (N.of_nat k + 1) pr.2 0)).
Proof.
  intros l Hl. destruct (alloc_all_from l items_new) as (s & its & E & Hlen & Hval & Hst & _);
    [done|cbn [its_next items_new]; lia|].
  exists s, its. split; [done|]. split; [done|]. intros k pr Hk. apply Hval in Hk.
  cbn [its_next items_new] in *. replace (1 + N.of_nat k) with (N.of_nat k + 1) in Hk by lia.
  split; [done|]. apply Hst in Hk. by rewrite <- Hk.
Qed.
Lemma l_C10_one_more : forall h p r s its l, l ++ [(p, r)] = h -> lenN h <= 4294967295 ->
  alloc_all items_new l = Ok (s, its) ->
  exists s', items_new_child s p r = Ok (s', mkItem p (lenN h) r 0) /\
    (forall i x, (i <= length l)%nat -> its_list s !! i = Some x -> its_list s' !! i = Some x).
Proof.
  intros h p r s its l <- Hh E.
  assert (Hgen : forall l s0 s its, its_next s0 <= lenN (its_list s0) -> its_next s0 + lenN l < 4294967296 ->
     alloc_all s0 l = Ok (s, its) -> its_next s = its_next s0 + lenN l /\ its_next s <= lenN (its_list s)).
  { clear. induction l as [|[p r] l IH]; intros s0 s its Hroom Hc; cbn [alloc_all].
    - intros [= <- <-]. rewrite lenN_nil. split; [lia|done].
    - destruct (new_child_spec s0 p r Hroom) as (l1 & -> & Hl1 & Hl2 & k1 & ->). unfold mbind, res_bind.
      destruct (alloc_all _ l) as [[s2 its2]|e|] eqn:E; [|done|done]. intros [= <- <-].
      rewrite lenN_cons in Hc |- *.
      assert (Hw : wrap32 (its_next s0 + 1) = its_next s0 + 1) by (apply wrap32_small; lia).
      apply IH in E; cbn [its_next its_list] in *; rewrite ?lenN_insert, ?Hw in *; lia. }
  rewrite lenN_app, lenN_cons, lenN_nil in Hh.
  destruct (Hgen l items_new s its) as [Hn Hroom]; [done|cbn [its_next items_new]; lia|done|].
  cbn [its_next items_new] in Hn.
  destruct (new_child_spec s p r Hroom) as (l1 & -> & Hl1 & Hl2 & k1 & ->).
  replace (lenN (l ++ [(p, r)])) with (its_next s) by (rewrite Hn, lenN_app, lenN_cons, lenN_nil; lia).
  eexists. split; [done|]. intros i x Hi Hx. cbn. rewrite list_lookup_insert_ne by (unfold lenN in *; lia).
  by apply lookup_app_l_Some.
Qed.

(** ** Interning, before the packing of positions into identifiers *)
Fixpoint intern_all (x : tables) (items : list (list N)) : tables * list (nat * nat) :=
  match items with
  | [] => (x, [])
  | s :: items' =>
    let '(x1, i) := intern2 x s in
    let '(x2, ps) := intern_all x1 items' in
    (x2, (length s - 1, i)%nat :: ps)
  end.
Lemma intern_all_spec items : forall x, tables_ok x -> Forall (fun s => s <> []) items ->
  let r := intern_all x items in
  tables_ok r.1 /\ length r.2 = length items /\
  (forall c i s, at2 x c i = Some s -> at2 r.1 c i = Some s) /\
  (forall k s p, items !! k = Some s -> r.2 !! k = Some p ->
     p.1 = (length s - 1)%nat /\ at2 r.1 p.1 p.2 = Some (go_sort s)) /\
  (forall c i s, at2 r.1 c i = Some s -> at2 x c i = Some s \/
     exists k s', items !! k = Some s' /\ s = go_sort s' /\ r.2 !! k = Some (c, i)) /\
  (forall n, length x <= n -> Forall (fun s => length s <= n) items -> length r.1 <= n)%nat.
Proof.
  induction items as [|s items IH]; intros x Hok Hne.
  { cbn. split; [done|]. split; [done|]. split; [done|]. split; [by intros k s p H|]. split; [by left|done]. }
  inversion Hne as [|? ? Hs Hne']; subst. cbn [intern_all].
  destruct (intern2 x s) as [x1 i1] eqn:E1.
  pose proof (intern2_ok x s Hok Hs) as Hok1. pose proof (intern2_get x s) as Hg1.
  pose proof (intern2_mono x s) as Hm1. pose proof (intern2_new x s) as Hn1.
  pose proof (intern2_length x s) as Hl1. rewrite E1 in *. cbn [fst snd] in *.
  destruct (IH x1 Hok1 Hne') as (Hok2 & Hlen & Hmono & Hget & Hnew & Hcols).
  destruct (intern_all x1 items) as [x2 ps] eqn:E2. cbn [fst snd] in *.
  split; [done|]. split; [cbn; by rewrite Hlen|]. split; [by auto|]. split; [|split].
  - intros [|k] s' p Hk Hp; [|by eapply Hget]. injection Hk as <-. injection Hp as <-. cbn.
    split; [done|]. by apply Hmono.
  - intros c i t Ht. apply Hnew in Ht as [Ht|(k & s' & Hk & -> & Hp)].
    + apply Hn1 in Ht as [Ht|(-> & -> & ->)]; [by left|]. right. by exists 0%nat, s.
    + right. by exists (S k), s'.
  - intros n Hx Hall. inversion Hall as [|? ? Hsn Hall']; subst. apply Hcols; [|done].
    rewrite Hl1. destruct s; [done|]. cbn in *. lia.
Qed.

(** the tables hold exactly the distinct sets *)
Lemma distinct_sets_elem n items s :
  s ∈ distinct_sets n items <-> exists s', s' ∈ items /\ length s' = n /\ s = go_sort s'.
Proof.
  unfold distinct_sets. rewrite elem_of_list_to_set, elem_of_list_fmap. unfold go_sort.
  setoid_rewrite elem_of_list_filter. naive_solver.
Qed.
Lemma table_distinct items c t : Forall (fun s => s <> []) items ->
  (intern_all [] items).1 !! c = Some t -> list_to_set t = distinct_sets (S c) items.
Proof.
  intros Hne Ht. destruct (intern_all_spec items [] tables_ok_nil Hne) as (Hok & _ & _ & Hget & Hnew & _).
  apply set_eq. intros s. rewrite elem_of_list_to_set, distinct_sets_elem. split.
  - intros Hs. apply elem_of_list_lookup in Hs as [i Hi].
    assert (Ha : at2 (intern_all [] items).1 c i = Some s) by (unfold at2; by rewrite Ht).
    pose proof (at2_ok _ _ _ _ Hok Ha) as [_ Hl].
    apply Hnew in Ha as [Ha|(k & s' & Hk & -> & _)]; [unfold at2 in Ha; by rewrite lookup_nil in Ha|].
    exists s'. rewrite go_sort_length in Hl. split; [by eapply elem_of_list_lookup_2|done].
  - intros (s' & Hin & Hl & ->). apply elem_of_list_lookup in Hin as [k Hk].
    destruct (lookup_lt_is_Some_2 (intern_all [] items).2 k) as [[c' i] Hp].
    { destruct (intern_all_spec items [] tables_ok_nil Hne) as (_ & -> & _). by apply lookup_lt_Some in Hk. }
    destruct (Hget _ _ _ Hk Hp) as [E Ha]. cbn in E, Ha. replace c' with c in Ha by lia.
    unfold at2 in Ha. rewrite Ht in Ha. by eapply elem_of_list_lookup_2.
Qed.
Lemma table_distinct_size items c t : Forall (fun s => s <> []) items ->
  (intern_all [] items).1 !! c = Some t -> length t = size (distinct_sets (S c) items).
Proof.
  intros Hne Ht. rewrite <- (table_distinct items c t Hne Ht).
  destruct (intern_all_spec items [] tables_ok_nil Hne) as (Hok & _). destruct (Hok _ _ Ht) as [Hnd _].
  by rewrite size_list_to_set.
Qed.
Lemma fits_cap m k items : Forall (fun s => s <> []) items -> fits m k items ->
  capN m k (intern_all [] items).1.
Proof.
  intros Hne [Hm Hk]. destruct (intern_all_spec items [] tables_ok_nil Hne) as (_ & _ & _ & _ & _ & Hcols).
  split.
  - specialize (Hcols (N.to_nat m)). unfold lenN. enough (length (intern_all [] items).1 <= N.to_nat m)%nat by lia.
    apply Hcols; [cbn; lia|]. eapply Forall_impl; [exact Hm|]. cbn. unfold lenN. lia.
  - apply Forall_lookup_2. intros c t Ht. unfold lenN.
    rewrite (table_distinct_size items c t Hne Ht). apply Hk.
Qed.

(** ** Packing: the four two-level structures *)
Section packed.
  Context (f : tables -> list N -> res (tables * N)) (get : tables -> N -> option (list N)).
  Context (pack : nat -> nat -> N) (m k : N).
  Context (Hf : forall x s, s <> [] -> lenN s <= m ->
    f x s = Ok ((intern2 x s).1, pack (length s - 1) (intern2 x s).2)).
  Context (Hget : forall x c i, N.of_nat c < m -> N.of_nat i < k -> get x (pack c i) = at2 x c i).
  Context (Hinj : forall c i c' i', N.of_nat c < m -> N.of_nat i < k -> N.of_nat c' < m -> N.of_nat i' < k ->
    pack c i = pack c' i' -> c = c' /\ i = i').

  Lemma idx_all_intern items : forall x, Forall (fun s => s <> []) items -> Forall (fun s => lenN s <= m) items ->
    idx_all f x items = Ok ((intern_all x items).1, map (fun p => pack p.1 p.2) (intern_all x items).2).
  Proof.
    induction items as [|s items IH]; intros x Hne Hm; [done|].
    inversion Hne; subst. inversion Hm; subst. cbn [idx_all intern_all].
    rewrite Hf by done. unfold mbind, res_bind. destruct (intern2 x s) as [x1 i1]. cbn [fst snd].
    rewrite IH by done. by destruct (intern_all x1 items) as [x2 ps].
  Qed.
  Lemma packed_lt items c i s : Forall (fun s => s <> []) items -> fits m k items ->
    at2 (intern_all [] items).1 c i = Some s -> N.of_nat c < m /\ N.of_nat i < k.
  Proof using Type. clear Hf Hget Hinj f get pack.
    intros Hne Hfits H. destruct (fits_cap m k items Hne Hfits) as [Hc Ht]. unfold at2 in H.
    destruct ((intern_all [] items).1 !! c) as [t|] eqn:E; [|done]. cbn in H.
    eapply Forall_lookup_1 in Ht; [|exact E]. cbn in Ht. apply lookup_lt_Some in E, H. unfold lenN in *. lia.
  Qed.
  Lemma packed_interns items : Forall (fun s => s <> []) items -> fits m k items ->
    exists x ids, idx_all f [] items = Ok (x, ids) /\ interns get x ids items.
  Proof.
    intros Hne Hfits. eexists _, _. split; [apply idx_all_intern; [done|apply Hfits]|].
    destruct (intern_all_spec items [] tables_ok_nil Hne) as (Hok & Hlen & _ & Hg & _ & _).
    set (r := intern_all [] items) in *. split; [by rewrite map_length|]. split.
    - intros j id s Hid Hs. apply (list_lookup_fmap_inv (fun p => pack p.1 p.2)) in Hid as (p & -> & Hp).
      destruct (Hg _ _ _ Hs Hp) as [_ Ha]. destruct (packed_lt items _ _ _ Hne Hfits Ha).
      by rewrite Hget.
    - intros j j' id id' s s' Hid Hid' Hs Hs'.
      apply (list_lookup_fmap_inv (fun p => pack p.1 p.2)) in Hid as (p & -> & Hp).
      apply (list_lookup_fmap_inv (fun p => pack p.1 p.2)) in Hid' as (p' & -> & Hp').
      destruct (Hg _ _ _ Hs Hp) as [Hc Ha], (Hg _ _ _ Hs' Hp') as [Hc' Ha'].
      destruct (packed_lt items _ _ _ Hne Hfits Ha), (packed_lt items _ _ _ Hne Hfits Ha').
      rewrite go_sort_perm_eq. split.
      + intros E. apply Hinj in E as [E1 E2]; [|done..]. rewrite E1, E2 in Ha. congruence.
      + intros E. rewrite E in Ha. destruct (at2_inj _ _ _ _ _ _ Hok Ha Ha') as [-> ->]. done.
  Qed.
  (** [find] on the table of the right size gives the identifier *)
  Lemma packed_find items s id : Forall (fun s => s <> []) items -> fits m k items -> s <> [] -> Sorted N.le s ->
    (exists i, at2 (intern_all [] items).1 (length s - 1) i = Some s /\ id = pack (length s - 1) i) <->
    exists j s', items !! j = Some s' /\ s ≡ₚ s' /\ map (fun p => pack p.1 p.2) (intern_all [] items).2 !! j = Some id.
  Proof.
    intros Hne Hfits Hs Hsort. destruct (intern_all_spec items [] tables_ok_nil Hne) as (Hok & Hlen & _ & Hg & Hnew & _).
    set (r := intern_all [] items) in *. split.
    - intros (i & Ha & ->). apply Hnew in Ha as [Ha|(j & s' & Hj & -> & Hp)]; [unfold at2 in Ha; by rewrite lookup_nil in Ha|].
      exists j, s'. split; [done|]. split; [apply go_sort_perm|].
      erewrite (list_lookup_fmap (fun p => pack p.1 p.2)), Hp. cbn. by rewrite go_sort_length.
    - intros (j & s' & Hj & Hp & Hid).
      apply (list_lookup_fmap_inv (fun p => pack p.1 p.2)) in Hid as (p & -> & Hpp).
      destruct (Hg _ _ _ Hj Hpp) as [Hc Ha]. exists p.2.
      assert (E : go_sort s' = s) by (symmetry; by apply go_sort_unique).
      assert (El : length s = length s') by by apply Permutation_length.
      rewrite E, Hc, <- El in Ha. rewrite Hc, <- El. done.
  Qed.
  (** one set too many in a size class: two different sets share an identifier *)
  Lemma packed_overflow items n : Forall (fun s => s <> []) items -> Forall (fun s => lenN s <= m) items ->
    (forall c, pack c (N.to_nat k) = pack c 0) -> 0 < k ->
    k < N.of_nat (size (distinct_sets n items)) ->
    exists x ids j j' id s s', idx_all f [] items = Ok (x, ids) /\
      ids !! j = Some id /\ ids !! j' = Some id /\ items !! j = Some s /\ items !! j' = Some s' /\ ~ s ≡ₚ s'.
  Proof using Hf. clear Hget Hinj get.
    intros Hne Hm Hw Hk0 Hk. eexists _, _.
    destruct (intern_all_spec items [] tables_ok_nil Hne) as (Hok & Hlen & _ & Hg & Hnew & _).
    assert (Hex : exists c t, n = S c /\ (intern_all [] items).1 !! c = Some t).
    { destruct (decide (distinct_sets n items = ∅)) as [E|E]; [rewrite E, size_empty in Hk; lia|].
      apply set_choose_L in E as [s Hs]. apply distinct_sets_elem in Hs as (s' & Hin & Hl & _).
      apply elem_of_list_lookup in Hin as [j Hj].
      destruct (lookup_lt_is_Some_2 (intern_all [] items).2 j) as [[c' i] Hp].
      { rewrite Hlen. by apply lookup_lt_Some in Hj. }
      destruct (Hg _ _ _ Hj Hp) as [E Ha]. cbn in E, Ha. unfold at2 in Ha.
      destruct ((intern_all [] items).1 !! c') as [t|] eqn:Et; [|done]. exists c', t. split; [|done].
      assert (s' <> []). { eapply (Forall_lookup_1 _ _ _ _ Hne Hj). } destruct s'; [done|]. cbn in *. lia. }
    destruct Hex as (c & t & -> & Ht). rewrite <- (table_distinct_size items c t Hne Ht) in Hk.
    destruct (lookup_lt_is_Some_2 t 0) as [s0 H0]; [lia|].
    destruct (lookup_lt_is_Some_2 t (N.to_nat k)) as [s1 H1]; [lia|].
    assert (A0 : at2 (intern_all [] items).1 c 0 = Some s0) by (unfold at2; by rewrite Ht).
    assert (A1 : at2 (intern_all [] items).1 c (N.to_nat k) = Some s1) by (unfold at2; by rewrite Ht).
    assert (Hdiff : s0 <> s1).
    { intros ->. destruct (at2_inj _ _ _ _ _ _ Hok A0 A1). lia. }
    apply Hnew in A0 as [A0|(j & s & Hj & -> & Hp)]; [unfold at2 in A0; by rewrite lookup_nil in A0|].
    apply Hnew in A1 as [A1|(j' & s' & Hj' & -> & Hp')]; [unfold at2 in A1; by rewrite lookup_nil in A1|].
    exists j, j', (pack c 0), s, s'. split; [by apply idx_all_intern|].
    rewrite !(list_lookup_fmap (fun p => pack p.1 p.2)), Hp, Hp'. cbn. rewrite Hw.
    split; [done|]. split; [done|]. split; [done|]. split; [done|]. by rewrite go_sort_perm_eq.
  Qed.
End packed.

(** ** The instances *)
Definition pack16 (c i : nat) : N := combine16 (wrap16 (N.of_nat c)) (wrap16 (N.of_nat i)).
Definition pack8 (c i : nat) : N := combine8 (wrap8 (N.of_nat c)) (wrap8 (N.of_nat i)).
Definition pack16v (c i : nat) : N := combine16 (wrap16 (N.of_nat (S c))) (wrap16 (N.of_nat i)).

Lemma pack16_inj c i c' i' : N.of_nat c < 65536 -> N.of_nat i < 65536 -> N.of_nat c' < 65536 -> N.of_nat i' < 65536 ->
  pack16 c i = pack16 c' i' -> c = c' /\ i = i'.
Proof.
  intros H1 H2 H3 H4. unfold pack16. rewrite !wrap16_small by done.
  intros E%combine16_inj; [lia|done..].
Qed.
Lemma pack8_inj c i c' i' : N.of_nat c < 256 -> N.of_nat i < 256 -> N.of_nat c' < 256 -> N.of_nat i' < 256 ->
  pack8 c i = pack8 c' i' -> c = c' /\ i = i'.
Proof.
  intros H1 H2 H3 H4. unfold pack8. rewrite !wrap8_small by done.
  intros E%combine8_inj; [lia|done..].
Qed.
Lemma pack16v_inj c i c' i' : N.of_nat c < 65535 -> N.of_nat i < 65536 -> N.of_nat c' < 65535 -> N.of_nat i' < 65536 ->
  pack16v c i = pack16v c' i' -> c = c' /\ i = i'.
Proof.
  intros H1 H2 H3 H4. unfold pack16v. rewrite !wrap16_small by lia.
  intros E%combine16_inj; [lia|lia..].
Qed.
Lemma tagset_get_pack x c i : N.of_nat c < 65536 -> N.of_nat i < 65536 -> tagset_get x (pack16 c i) = at2 x c i.
Proof.
  intros. unfold pack16. rewrite !wrap16_small, tagset_get_at2, upper_combine16, lower_combine16 by done.
  by rewrite !Nat2N.id.
Qed.
Lemma collection16_get_pack x c i : N.of_nat c < 65536 -> N.of_nat i < 65536 ->
  collection16_get x (pack16 c i) = at2 x c i.
Proof.
  intros. unfold pack16. rewrite !wrap16_small, collection16_get_at2, upper_combine16, lower_combine16 by done.
  by rewrite !Nat2N.id.
Qed.
Lemma collection8_get_pack x c i : N.of_nat c < 256 -> N.of_nat i < 256 ->
  collection8_get x (pack8 c i) = at2 x c i.
Proof.
  intros. unfold pack8. rewrite !wrap8_small, collection8_get_at2, upper_combine8, lower_combine8 by done.
  by rewrite !Nat2N.id.
Qed.
(** the result of a lookup that may panic *)
Lemma variants_get_pack x c i : N.of_nat c < 65535 -> N.of_nat i < 65536 ->
  variants_got x (pack16v c i) = at2 x c i.
Proof.
  intros. unfold variants_got, pack16v. rewrite !wrap16_small by lia.
  rewrite variants_get_at2, upper_combine16, lower_combine16 by lia.
  destruct (N.eqb_spec (N.of_nat (S c)) 0); [lia|]. rewrite !Nat2N.id.
  replace (S c - 1)%nat with c by lia. by destruct (at2 x c i).
Qed.
Lemma variants_index_pack x s : s <> [] -> lenN s <= 65535 ->
  variants_index_index x s = Ok ((intern2 x s).1, pack16v (length s - 1) (intern2 x s).2).
Proof.
  intros Hs Hl. rewrite variants_index_intern by (done || lia). unfold pack16v, lenN.
  do 3 f_equal. f_equal. destruct s; [done|]. cbn [length]. lia.
Qed.
Lemma pack16_wrap c : pack16 c (N.to_nat 65536) = pack16 c 0.
Proof. unfold pack16. rewrite N2Nat.id. done. Qed.
Lemma pack16v_wrap c : pack16v c (N.to_nat 65536) = pack16v c 0.
Proof. unfold pack16v. rewrite N2Nat.id. done. Qed.
Lemma pack8_wrap c : pack8 c (N.to_nat 256) = pack8 c 0.
Proof. unfold pack8. rewrite N2Nat.id. done. Qed.

Global Hint Unfold nonempty : core.

(** ** C12 *)
Lemma l_C12_tag_sets : forall items, nonempty items -> fits 65536 65536 items ->
  exists x ids, idx_all tagset_index_index [] items = Ok (x, ids) /\ interns tagset_get x ids items /\
    forall s id, s <> [] -> Sorted N.le s ->
      tagset_find x s = Some id <-> exists k s', items !! k = Some s' /\ s ≡ₚ s' /\ ids !! k = Some id.
Proof.
  intros items Hne Hf.
  assert (Hidx : forall x s, s <> [] -> lenN s <= 65536 ->
    tagset_index_index x s = Ok ((intern2 x s).1, pack16 (length s - 1) (intern2 x s).2)).
  { intros x s Hs _. by apply tagset_index_intern. }
  destruct (packed_interns tagset_index_index tagset_get pack16 65536 65536 Hidx tagset_get_pack pack16_inj items Hne Hf)
    as (x & ids & E & Hi).
  exists x, ids. split; [done|]. split; [done|]. intros s id Hs Hsort.
  rewrite (idx_all_intern tagset_index_index pack16 65536 Hidx) in E by (done || apply Hf).
  injection E as <- <-. rewrite <- (packed_find pack16 65536 65536 items s id Hne Hf Hs Hsort).
  unfold tagset_find. destruct (lenN_pos_case s Hs) as [E1 E2]. rewrite E1, E2.
  set (x := (intern_all [] items).1). set (c := (length s - 1)%nat).
  assert (Hok : tables_ok x) by apply (intern_all_spec items [] tables_ok_nil Hne).
  destruct (fits_cap _ _ items Hne Hf) as [Hc Ht]. fold x in Hc, Ht.
  destruct (decide (N.of_nat c < 65536)) as [Hlt|Hge].
  - rewrite (wrap16_small (N.of_nat c)) by done. unfold tagset_get_table. rewrite Nat2N.id.
    pose proof (find_at2 x s Hok Hs) as Hfind. fold c in Hfind.
    destruct (N.leb_spec (lenN x) (N.of_nat c)) as [Hle|Hgt].
    + split; [done|]. intros (i & Ha & _). unfold at2 in Ha. rewrite lookup_ge_None_2 in Ha by (unfold lenN in Hle; lia). done.
    + destruct (lookup_lt_is_Some_2 x c) as [t Et]; [unfold lenN in Hgt; lia|]. rewrite Et in *. cbn [default] in Hfind.
      unfold tagset_table_find, table_find. cbn in Hfind. destruct (find_pos t s 0) as [i|] eqn:Ep.
      * split.
        -- intros [= <-]. exists i. split; [by apply Hfind|]. unfold pack16. by rewrite (wrap16_small (N.of_nat c)).
        -- intros (i' & Ha & ->). apply Hfind in Ha. injection Ha as ->. unfold pack16.
           by rewrite (wrap16_small (N.of_nat c)).
      * split; [done|]. intros (i' & Ha & ->). apply Hfind in Ha. done.
  - assert (Hnone : forall i t, at2 x c i <> Some t).
    { intros i t Ha. unfold at2 in Ha. rewrite lookup_ge_None_2 in Ha by (unfold lenN in Hc; lia). done. }
    split; [|by intros (i & Ha & _); apply Hnone in Ha]. intros Hfind. exfalso.
    unfold tagset_get_table in Hfind. destruct (N.leb _ _); [done|].
    destruct (x !! N.to_nat (wrap16 (N.of_nat c))) as [t|] eqn:Et; [|done].
    unfold tagset_table_find, table_find in Hfind. destruct (find_pos t s 0) as [i|] eqn:Ep; [|done].
    apply find_pos_Some in Ep as [Ep _].
    assert (Ha : at2 x (N.to_nat (wrap16 (N.of_nat c))) i = Some s) by (unfold at2; by rewrite Et).
    apply at2_ok in Ha as [_ Ha]; [|done]. pose proof (wrap16_lt (N.of_nat c)).
    unfold c in *. lia.
Qed.
Lemma tagset_idx x s : s <> [] -> lenN s <= 65536 ->
  tagset_index_index x s = Ok ((intern2 x s).1, pack16 (length s - 1) (intern2 x s).2).
Proof. intros Hs _. by apply tagset_index_intern. Qed.
Lemma collection16_idx x s : s <> [] -> lenN s <= 65536 ->
  collection16_index x s = Ok ((intern2 x s).1, pack16 (length s - 1) (intern2 x s).2).
Proof. intros Hs _. by apply collection16_index_intern. Qed.
Lemma collection8_idx x s : s <> [] -> lenN s <= 256 ->
  collection8_index x s = Ok ((intern2 x s).1, pack8 (length s - 1) (intern2 x s).2).
Proof. intros Hs _. by apply collection8_index_intern. Qed.

Lemma l_C12_overflow_refuted : forall items n, nonempty items -> Forall (fun s => lenN s <= 65536) items ->
  65536 < N.of_nat (size (distinct_sets n items)) -> clash tagset_index_index [] items.
Proof.
  intros items n Hne Hm Hs.
  eapply (packed_overflow tagset_index_index pack16 65536 65536 tagset_idx items n Hne Hm); [apply pack16_wrap|done|done].
Qed.

(** ** C13 *)
Lemma l_C13_collections : forall items, nonempty items -> fits 65535 65536 items ->
  exists x ids, idx_all variants_index_index [] items = Ok (x, ids) /\ interns variants_got x ids items /\
    Forall (fun id => id <> 0) ids /\
    forall s id, s <> [] -> Sorted N.le s ->
      variants_find x s = Ok (Some id) <-> exists k s', items !! k = Some s' /\ s ≡ₚ s' /\ ids !! k = Some id.
Proof.
  intros items Hne Hf.
  destruct (packed_interns variants_index_index variants_got pack16v 65535 65536 variants_index_pack
      variants_get_pack pack16v_inj items Hne Hf) as (x & ids & E & Hi).
  exists x, ids. split; [done|]. split; [done|]. split.
  { destruct Hi as (Hl & Hget & _). apply Forall_lookup_2. intros k id Hk ->.
    destruct (lookup_lt_is_Some_2 items k) as [s Hs]; [rewrite <- Hl; by apply lookup_lt_Some in Hk|].
    pose proof (Hget _ _ _ Hk Hs) as Hg. cbn in Hg. injection Hg as Hg.
    assert (Hs0 : s <> []) by exact (Forall_lookup_1 _ _ _ _ Hne Hs).
    exact (Hs0 (proj1 (go_sort_nil s) (eq_sym Hg))). }
  intros s id Hs Hsort.
  rewrite (idx_all_intern variants_index_index pack16v 65535 variants_index_pack) in E by (done || apply Hf).
  injection E as <- <-. rewrite <- (packed_find pack16v 65535 65536 items s id Hne Hf Hs Hsort).
  unfold variants_find. destruct (lenN_pos_case s Hs) as [E1 E2]. rewrite E1, E2.
  clear Hi. set (x := (intern_all [] items).1). set (c := (length s - 1)%nat).
  assert (Hc' : length s = S c) by (unfold c; destruct s; [done|cbn; lia]).
  assert (Hok : tables_ok x) by apply (intern_all_spec items [] tables_ok_nil Hne).
  destruct (fits_cap _ _ items Hne Hf) as [Hc Ht]. fold x in Hc, Ht.
  destruct (N.ltb_spec (lenN x) (lenN s)) as [Hlt|Hge].
  - split; [done|]. intros (i & Ha & _). unfold at2 in Ha.
    rewrite lookup_ge_None_2 in Ha by (unfold lenN in Hlt; lia). done.
  - unfold lenN in Hge, Hc. rewrite (wrap16_small (N.of_nat c)) by lia. unfold slice_get. rewrite Nat2N.id.
    destruct (lookup_lt_is_Some_2 x c) as [t Et]; [lia|]. pose proof (find_at2 x s Hok Hs) as Hfind. fold c in Hfind.
    rewrite Et in *. cbn in Hfind. unfold mbind, res_bind, variants_table_find, table_find.
    destruct (find_pos t s 0) as [i|] eqn:Ep.
    + assert (Epk : combine16 (wrap16 (N.of_nat c + 1)) (wrap16 (N.of_nat i)) = pack16v c i).
      { unfold pack16v. do 2 f_equal. lia. }
      split.
      * intros [= <-]. exists i. split; [by apply Hfind|done].
      * intros (i' & Ha & ->). apply Hfind in Ha. injection Ha as ->. by rewrite Epk.
    + split; [done|]. intros (i' & Ha & ->). by apply Hfind in Ha.
Qed.
Lemma l_C13_empty : forall x, variants_index_index x [] = Ok (x, 0) /\ variants_get x 0 = Ok [] /\
  variants_find x [] = Ok (Some 0).
Proof. done. Qed.
Lemma l_C13_overflow_refuted : forall items n, nonempty items -> Forall (fun s => lenN s <= 65535) items ->
  65536 < N.of_nat (size (distinct_sets n items)) -> clash variants_index_index [] items.
Proof.
  intros items n Hne Hm Hs.
  eapply (packed_overflow variants_index_index pack16v 65535 65536 variants_index_pack items n Hne Hm);
    [apply pack16v_wrap|done|done].
Qed.

(** ** C14 *)
Lemma l_C14_known_id : forall items x ids, nonempty items -> fits 65535 65536 items ->
  idx_all variants_index_index [] items = Ok (x, ids) ->
  NoDup (known_id x) /\ (forall v, v ∈ known_id x <-> v ∈ ids) /\
  (forall v, v ∈ known_id x -> exists s, variants_get x v = Ok s /\ s <> [] /\ exists s', s' ∈ items /\ s ≡ₚ s').
Proof.
  intros items x ids Hne Hf E.
  rewrite (idx_all_intern variants_index_index pack16v 65535 variants_index_pack) in E by (done || apply Hf).
  injection E as <- <-. pose proof (fits_cap _ _ items Hne Hf) as Hcap.
  destruct (intern_all_spec items [] tables_ok_nil Hne) as (Hok & Hlen & _ & Hg & Hnew & _).
  set (r := intern_all [] items) in *. split; [by apply known_id_NoDup|]. split.
  - intros v. rewrite known_id_spec by done. split.
    + intros (col & Hv & Hu & Ha). apply Hnew in Ha as [Ha|(k & s' & Hk & -> & Hp)].
      { unfold at2 in Ha. by rewrite lookup_nil in Ha. }
      apply elem_of_list_fmap. eexists. split; [|by eapply elem_of_list_lookup_2].
      cbn [fst snd]. unfold pack16v.
      replace (N.of_nat (S (N.to_nat (id32_upper v) - 1))) with (id32_upper v) by lia.
      rewrite N2Nat.id, (wrap16_small (id32_upper v)), (wrap16_small (id32_lower v)) by apply wrap16_lt.
      symmetry. by apply combine16_upper_lower.
    + intros Hin. apply elem_of_list_lookup in Hin as [k Hk].
      apply (list_lookup_fmap_inv (fun p => pack16v p.1 p.2)) in Hk as (p & -> & Hp).
      destruct (lookup_lt_is_Some_2 items k) as [s Hs]; [rewrite <- Hlen; by apply lookup_lt_Some in Hp|].
      destruct (Hg _ _ _ Hs Hp) as [_ Ha]. destruct (packed_lt 65535 65536 items _ _ _ Hne Hf Ha) as [H1 H2].
      exists (go_sort s). unfold good_col, pack16v. rewrite !wrap16_small by lia.
      rewrite upper_combine16, lower_combine16 by lia. split; [apply combine16_lt; lia|]. split; [lia|].
      rewrite !Nat2N.id. by replace (S p.1 - 1)%nat with p.1 by lia.
  - intros v. rewrite known_id_spec by done. intros (col & Hgc). exists col. split; [by apply good_col_get|].
    split; [by eapply good_col_ne|]. destruct Hgc as (_ & _ & Ha). apply Hnew in Ha as [Ha|(k & s' & Hk & -> & Hp)].
    { unfold at2 in Ha. by rewrite lookup_nil in Ha. }
    exists s'. split; [by eapply elem_of_list_lookup_2|apply go_sort_perm].
Qed.

(** ** C15 *)
Lemma Forall2_concat_imap (P : N -> list N -> Prop) (f : nat -> nat -> N) (x : tables) :
  (forall c t i s, x !! c = Some t -> t !! i = Some s -> P (f c i) s) ->
  Forall2 P (concat (imap (fun c t => imap (fun i _ => f c i) t) x)) (concat x).
Proof.
  revert f. induction x as [|t x IH]; intros f H; [constructor|]. cbn. apply Forall2_app.
  - apply Forall2_same_length_lookup_2; [by rewrite imap_length|].
    intros i id s Hid Hs. rewrite list_lookup_imap, Hs in Hid. injection Hid as <-. by apply (H 0%nat t).
  - apply (IH (fun c => f (S c))). intros c t' i s Ht Hs. by apply (H (S c) t').
Qed.
Lemma l_C15_table_ids_refuted : forall items x ids, nonempty items -> fits 65536 65536 items ->
  idx_all tagset_index_index [] items = Ok (x, ids) ->
  Forall2 (fun id s => tagset_get x id <> Some s) (tagset_table_ids x) (concat x) /\
  (Forall (fun s => length s = 1%nat) items -> items <> [] ->
     tagset_table_ids x <> [] /\ forall id, id ∈ tagset_table_ids x -> tagset_get x id = None).
Proof.
  intros items x ids Hne Hf E.
  rewrite (idx_all_intern tagset_index_index pack16 65536 tagset_idx) in E by (done || apply Hf).
  injection E as <- <-. pose proof (fits_cap _ _ items Hne Hf) as [Hc Ht].
  destruct (intern_all_spec items [] tables_ok_nil Hne) as (Hok & Hlen & _ & Hg & Hnew & Hcols).
  set (r := intern_all [] items) in *.
  assert (Hpos : forall c t i s, r.1 !! c = Some t -> t !! i = Some s -> N.of_nat c < 65536 /\ N.of_nat i < 65536).
  { intros c t i s Hct Hi. eapply (packed_lt 65536 65536 items c i s Hne Hf). unfold at2. fold r. by rewrite Hct. }
  assert (Hup : forall c i, N.of_nat c < 65536 ->
     id32_upper (combine16 (wrap16 (wrap16 (N.of_nat c) + 1)) (wrap16 (N.of_nat i))) <> N.of_nat c).
  { intros c i Hlt. rewrite upper_combine16 by apply wrap16_lt. rewrite (wrap16_small (N.of_nat c)) by done.
    destruct (decide (N.of_nat c = 65535)) as [->|Hn]; [done|]. rewrite wrap16_small by lia. lia. }
  split.
  - apply (Forall2_concat_imap _ (fun c i => combine16 (wrap16 (wrap16 (N.of_nat c) + 1)) (wrap16 (N.of_nat i)))).
    intros c t i s Hct Hi Hget. destruct (Hpos _ _ _ _ Hct Hi) as [H1 H2]. rewrite tagset_get_at2 in Hget.
    apply at2_ok in Hget as [_ Hl]; [|done].
    assert (Ha : at2 r.1 c i = Some s) by (unfold at2; by rewrite Hct).
    apply at2_ok in Ha as [_ Hl']; [|done]. pose proof (Hup c i H1). lia.
  - intros H1 Hn. assert (Hlx : (length r.1 <= 1)%nat).
    { apply Hcols; [cbn; lia|]. eapply Forall_impl; [exact H1|]. cbn. lia. }
    assert (Hall : forall c t, r.1 !! c = Some t -> c = 0%nat).
    { intros c t Hct. apply lookup_lt_Some in Hct. lia. }
    split.
    + destruct items as [|s items]; [done|]. destruct (lookup_lt_is_Some_2 r.2 0) as [p Hp]; [rewrite Hlen; cbn; lia|].
      destruct (Hg 0%nat s p eq_refl Hp) as [_ Ha]. unfold at2 in Ha. destruct (r.1 !! p.1) as [t|] eqn:Et; [|done].
      intros Enil. assert (Hin : exists id, id ∈ tagset_table_ids r.1).
      { cbn in Ha. eexists. apply elem_of_concat_imap. exists p.1, t. split; [done|].
        apply elem_of_lookup_imap. eexists _, _. split; [done|exact Ha]. }
      rewrite Enil in Hin. destruct Hin as [id Hin]. by apply elem_of_nil in Hin.
    + intros id Hin. apply elem_of_concat_imap in Hin as (c & t & Hct & Hin).
      apply elem_of_lookup_imap in Hin as (i & s & -> & Hi). rewrite (Hall _ _ Hct) in *.
      rewrite tagset_get_at2. unfold at2. rewrite lookup_ge_None_2; [done|].
      pose proof (Hup 0%nat i). cbn in *. lia.
Qed.
