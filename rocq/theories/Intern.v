(** The interning structure shared by TagSetIndex, VariantsIndex, Collection8x8 and
    Collection16: tables of equal-sized sorted sets, one table per size. *)
From Coq Require Import ZifyBool ZifyNat ZifyN.
From Verif Require Import Base Storage BaseFacts TagSets Variants.
Open Scope nat_scope.

Notation tables := (list (list (list N))).

(** Element [i] of table [c]. *)
Definition at2 (x : tables) (c i : nat) : option (list N) := x !! c ≫= (.!! i).

Definition table_ok (c : nat) (t : list (list N)) : Prop :=
  NoDup t /\ Forall (fun s => sortedN s /\ length s = S c) t.
Definition tables_ok (x : tables) : Prop := forall c t, x !! c = Some t -> table_ok c t.

Definition tables_cap (tcap scap : nat) (x : tables) : Prop :=
  length x <= tcap /\ Forall (fun t => length t <= scap) x.

Definition intern2 (x : tables) (item : list N) : tables * nat :=
  let c := length item - 1 in
  let x1 := extend_to x (N.of_nat c) in
  let t := default [] (x1 !! c) in
  match find_pos t (go_sort item) 0 with
  | Some i => (x1, i)
  | None => (<[c := t ++ [go_sort item]]> x1, length t)
  end.

Lemma tables_ok_nil : tables_ok [].
Proof. intros c t H. by rewrite lookup_nil in H. Qed.

Lemma extend_to_lookup (x : tables) c :
  extend_to x (N.of_nat c) !! c = Some (default [] (x !! c)).
Proof.
  unfold extend_to. destruct (N.leb_spec (lenN x) (N.of_nat c)) as [H|H]; unfold lenN in H.
  - rewrite lookup_app_r by lia. rewrite (lookup_ge_None_2 x c) by lia. cbn.
    apply lookup_replicate. split; [done|]. unfold lenN. lia.
  - assert (is_Some (x !! c)) as [t Ht] by (apply lookup_lt_is_Some; lia). by rewrite Ht.
Qed.
Lemma extend_to_length (x : tables) c :
  length (extend_to x (N.of_nat c)) = max (length x) (S c).
Proof.
  unfold extend_to. destruct (N.leb_spec (lenN x) (N.of_nat c)) as [H|H]; unfold lenN in *.
  - rewrite app_length, replicate_length. lia.
  - lia.
Qed.
Lemma extend_to_Some (x : tables) c k t :
  extend_to x (N.of_nat c) !! k = Some t -> x !! k = Some t \/ (t = [] /\ x !! k = None).
Proof.
  unfold extend_to. destruct (N.leb_spec (lenN x) (N.of_nat c)) as [H|H]; [|by left].
  intros Hk. destruct (decide (k < length x)) as [Hlt|Hge].
  - rewrite lookup_app_l in Hk by done. by left.
  - rewrite lookup_app_r in Hk by lia. apply lookup_replicate in Hk as [-> _].
    right. split; [done|]. apply lookup_ge_None_2. lia.
Qed.
Lemma extend_to_mono (x : tables) c k t :
  x !! k = Some t -> extend_to x (N.of_nat c) !! k = Some t.
Proof.
  intros H. unfold extend_to. destruct (N.leb (lenN x) (N.of_nat c)); [|done].
  by apply lookup_app_l_Some.
Qed.
Lemma extend_to_at2 (x : tables) c k i : at2 (extend_to x (N.of_nat c)) k i = at2 x k i.
Proof.
  unfold at2. destruct (extend_to x (N.of_nat c) !! k) as [t|] eqn:E; cbn.
  - apply extend_to_Some in E as [->|[-> ->]]; done.
  - destruct (x !! k) as [t|] eqn:F; [|done]. apply (extend_to_mono _ c) in F. congruence.
Qed.
Lemma extend_to_ok x c : tables_ok x -> tables_ok (extend_to x (N.of_nat c)).
Proof.
  intros H k t Hk. apply extend_to_Some in Hk as [Hk|[-> _]]; [by apply H|].
  split; constructor.
Qed.

Lemma at2_ok x c i s : tables_ok x -> at2 x c i = Some s -> sortedN s /\ length s = S c.
Proof.
  intros Hok H. apply bind_Some in H as (t & Ht & Hi).
  destruct (Hok c t Ht) as [_ Hf]. eapply Forall_lookup_1 in Hf; eauto.
Qed.
Lemma at2_inj x c i c' i' s :
  tables_ok x -> at2 x c i = Some s -> at2 x c' i' = Some s -> c = c' /\ i = i'.
Proof.
  intros Hok H H'. pose proof (at2_ok _ _ _ _ Hok H) as [_ L].
  pose proof (at2_ok _ _ _ _ Hok H') as [_ L']. assert (c' = c) by lia. subst. split; [done|].
  unfold at2 in *. destruct (x !! c) as [t|] eqn:E; [|done]. cbn in *.
  destruct (Hok c t E) as [Hnd _]. eapply NoDup_lookup; eauto.
Qed.

Section intern2.
  Context (x : tables) (item : list N).
  Context (Hok : tables_ok x) (Hne : item <> []).
  Let c := length item - 1.
  Let x' := (intern2 x item).1.
  Let i := (intern2 x item).2.

  Lemma len_S : length item = S c.
  Proof. unfold c. destruct item; [done|]. cbn. lia. Qed.

  Local Lemma base_ok : table_ok c (default [] (x !! c)).
  Proof.
    destruct (x !! c) as [t|] eqn:E; [by apply Hok|]. split; constructor.
  Qed.

  Lemma intern2_ok : tables_ok x'.
  Proof.
    unfold x', intern2. fold c. rewrite extend_to_lookup. cbn.
    destruct (find_pos _ _ 0) as [k|] eqn:E; cbn; [by apply extend_to_ok|].
    apply find_pos_None in E. intros k t Hk.
    destruct (decide (k = c)) as [->|Hkc].
    - rewrite list_lookup_insert in Hk by (rewrite extend_to_length; lia).
      injection Hk as <-. destruct base_ok as [Hnd Hf]. split.
      + apply NoDup_app. split; [done|]. split.
        * intros s Hs [->|Hs']%elem_of_cons; [done|]. by apply elem_of_nil in Hs'.
        * apply NoDup_singleton.
      + apply Forall_app. split; [done|]. constructor; [|constructor].
        split; [apply go_sort_sorted|]. rewrite go_sort_length. apply len_S.
    - rewrite list_lookup_insert_ne in Hk by done. by eapply extend_to_ok.
  Qed.

  Lemma intern2_get : at2 x' c i = Some (go_sort item).
  Proof.
    unfold x', i, intern2, at2. fold c. rewrite extend_to_lookup. cbn.
    destruct (find_pos _ _ 0) as [k|] eqn:E; cbn.
    - apply find_pos_Some in E as [E _]. by rewrite extend_to_lookup.
    - rewrite list_lookup_insert by (rewrite extend_to_length; lia). cbn.
      rewrite lookup_app_r by lia. by rewrite Nat.sub_diag.
  Qed.

  Lemma intern2_mono k j s : at2 x k j = Some s -> at2 x' k j = Some s.
  Proof.
    intros H. rewrite <- (extend_to_at2 x c) in H.
    unfold x', intern2. fold c. rewrite extend_to_lookup. cbn.
    destruct (find_pos _ _ 0) as [m|] eqn:E; cbn; [done|].
    unfold at2 in *. destruct (decide (k = c)) as [->|Hkc].
    - rewrite list_lookup_insert by (rewrite extend_to_length; lia).
      rewrite extend_to_lookup in H. cbn in *. by apply lookup_app_l_Some.
    - by rewrite list_lookup_insert_ne.
  Qed.

  Lemma intern2_new k j s :
    at2 x' k j = Some s -> at2 x k j = Some s \/ (k = c /\ j = i /\ s = go_sort item).
  Proof.
    unfold x', i, intern2. fold c. rewrite extend_to_lookup. cbn.
    destruct (find_pos _ _ 0) as [m|] eqn:E; cbn.
    - rewrite extend_to_at2. by left.
    - intros H. unfold at2 in H. destruct (decide (k = c)) as [->|Hkc].
      + rewrite list_lookup_insert in H by (rewrite extend_to_length; lia). cbn in H.
        apply lookup_app_Some in H as [H|[H1 H2]].
        * left. unfold at2. destruct (x !! c); [done|]. cbn in H. done.
        * right. destruct (j - length (default [] (x !! c))) as [|m] eqn:F; cbn in H2.
          -- injection H2 as <-. split; [done|]. split; [lia|done].
          -- done.
      + rewrite list_lookup_insert_ne in H by done. fold (at2 (extend_to x (N.of_nat c)) k j) in H.
        rewrite extend_to_at2 in H. by left.
  Qed.

  (** a set already stored keeps the whole structure unchanged *)
  Lemma intern2_hit k j : at2 x k j = Some (go_sort item) -> x' = x /\ k = c /\ i = j.
  Proof.
    intros H. pose proof (at2_ok _ _ _ _ Hok H) as [_ L]. rewrite go_sort_length, len_S in L.
    injection L as <-.
    pose proof intern2_get as G. pose proof (intern2_mono _ _ _ H) as H'.
    destruct (at2_inj _ _ _ _ _ _ intern2_ok H' G) as [_ <-].
    split; [|done]. unfold x', intern2. fold c. rewrite extend_to_lookup. cbn.
    unfold at2 in H. destruct (x !! c) as [t|] eqn:E; [|done]. cbn in *.
    destruct (Hok _ _ E) as [Hnd _].
    assert (find_pos t (go_sort item) 0 = Some j) as -> by (by apply find_pos_NoDup). cbn.
    unfold extend_to. destruct (N.leb_spec (lenN x) (N.of_nat c)) as [Hl|Hl]; [|done].
    apply lookup_lt_Some in E. unfold lenN in Hl. lia.
  Qed.

  Lemma intern2_length : length x' = max (length x) (S c).
  Proof.
    unfold x', intern2. fold c. rewrite extend_to_lookup. cbn.
    destruct (find_pos _ _ 0); cbn; rewrite ?insert_length; apply extend_to_length.
  Qed.

  Lemma intern2_cap tcap scap :
    tables_cap tcap scap x' -> c < tcap /\ i < scap /\ tables_cap tcap scap x.
  Proof.
    intros [H1 H2]. rewrite intern2_length in H1. split; [lia|].
    split.
    - pose proof intern2_get as G. unfold at2 in G. destruct (x' !! c) as [t|] eqn:E; [|done].
      cbn in G. apply lookup_lt_Some in G. eapply Forall_lookup_1 in H2; [|exact E].
      cbn in H2. lia.
    - split; [lia|]. apply Forall_lookup. intros k t Ht.
      destruct (x' !! k) as [t'|] eqn:E.
      + eapply Forall_lookup_1 in H2; [|exact E]. cbn in H2.
        enough (length t <= length t') by lia.
        destruct (decide (length t <= length t')) as [|Hgt]; [done|]. exfalso.
        assert (is_Some (t !! length t')) as [s Hs] by (apply lookup_lt_is_Some; lia).
        assert (H : at2 x' k (length t') = Some s).
        { apply intern2_mono. unfold at2. by rewrite Ht. }
        unfold at2 in H. rewrite E in H. cbn in H. apply lookup_lt_Some in H. lia.
      + apply lookup_lt_Some in Ht. apply lookup_ge_None in E. rewrite intern2_length in E. lia.
  Qed.
End intern2.

(** A search agrees with the contents. *)
Lemma find_at2 x s : tables_ok x -> s <> [] ->
  forall i, find_pos (default [] (x !! (length s - 1))) s 0 = Some i <->
            at2 x (length s - 1) i = Some s.
Proof.
  intros Hok Hne i. unfold at2. destruct (x !! (length s - 1)) as [t|] eqn:E; cbn.
  - apply find_pos_NoDup. by destruct (Hok _ _ E).
  - by split; [|intros].
Qed.

(** ** The four concrete structures *)

Lemma table_index_intern wrap (x : tables) item t :
  item <> [] ->
  extend_to x (N.of_nat (length item - 1)) !! (length item - 1) = Some t ->
  (<[length item - 1 := (table_index wrap t item).1]>
     (extend_to x (N.of_nat (length item - 1))), (table_index wrap t item).2)
  = ((intern2 x item).1, wrap (N.of_nat (intern2 x item).2)).
Proof.
  intros Hne Ht. unfold table_index, table_find, intern2. rewrite Ht. cbn.
  destruct (find_pos t (go_sort item) 0) as [k|]; cbn; [|done].
  by rewrite list_insert_id.
Qed.

Lemma lenN_pos_case (item : list N) : item <> [] ->
  (lenN item =? 0)%N = false /\ (lenN item - 1)%N = N.of_nat (length item - 1).
Proof. intros H. unfold lenN. destruct item; [done|]. cbn [length]. split; lia. Qed.

Lemma tagset_index_intern x item : item <> [] ->
  tagset_index_index x item =
  Ok ((intern2 x item).1,
      combine16 (wrap16 (N.of_nat (length item - 1))) (wrap16 (N.of_nat (intern2 x item).2))).
Proof.
  intros Hne. destruct (lenN_pos_case item Hne) as [E1 E2].
  unfold tagset_index_index. rewrite E1, E2. unfold slice_get. rewrite Nat2N.id.
  destruct (extend_to x _ !! (length item - 1)) as [t|] eqn:E;
    [|by rewrite extend_to_lookup in E].
  cbn. unfold tagset_table_index. rewrite E1. cbn.
  pose proof (table_index_intern wrap16 x item t Hne E) as H.
  destruct (table_index wrap16 t item) as [t' k]. cbn in *. injection H as -> ->. done.
Qed.
Lemma collection16_index_intern x item : item <> [] ->
  collection16_index x item =
  Ok ((intern2 x item).1,
      combine16 (wrap16 (N.of_nat (length item - 1))) (wrap16 (N.of_nat (intern2 x item).2))).
Proof.
  intros Hne. destruct (lenN_pos_case item Hne) as [E1 E2].
  unfold collection16_index. rewrite E1, E2. unfold slice_get. rewrite Nat2N.id.
  destruct (extend_to x _ !! (length item - 1)) as [t|] eqn:E;
    [|by rewrite extend_to_lookup in E].
  cbn. unfold table16_index. rewrite E1. cbn.
  pose proof (table_index_intern wrap16 x item t Hne E) as H.
  destruct (table_index wrap16 t item) as [t' k]. cbn in *. injection H as -> ->. done.
Qed.
Lemma collection8_index_intern x item : item <> [] ->
  collection8_index x item =
  Ok ((intern2 x item).1,
      combine8 (wrap8 (N.of_nat (length item - 1))) (wrap8 (N.of_nat (intern2 x item).2))).
Proof.
  intros Hne. destruct (lenN_pos_case item Hne) as [E1 E2].
  unfold collection8_index. rewrite E1, E2. unfold slice_get. rewrite Nat2N.id.
  destruct (extend_to x _ !! (length item - 1)) as [t|] eqn:E;
    [|by rewrite extend_to_lookup in E].
  cbn. unfold table8_index. rewrite E1. cbn.
  pose proof (table_index_intern wrap8 x item t Hne E) as H.
  destruct (table_index wrap8 t item) as [t' k]. cbn in *. injection H as -> ->. done.
Qed.

Lemma intern2_sort x item : intern2 x (go_sort item) = intern2 x item.
Proof. unfold intern2. by rewrite go_sort_length, go_sort_idem. Qed.

Lemma variants_index_intern x item : item <> [] -> (lenN item <= 65536)%N ->
  variants_index_index x item =
  Ok ((intern2 x item).1, combine16 (wrap16 (lenN item)) (wrap16 (N.of_nat (intern2 x item).2))).
Proof.
  intros Hne Hlen.
  assert (Hne' : go_sort item <> []) by (by rewrite go_sort_nil).
  destruct (lenN_pos_case item Hne) as [E1 E2].
  destruct (lenN_pos_case _ Hne') as [E1' E2']. rewrite go_sort_lenN in E1', E2'.
  unfold variants_index_index. rewrite E1. cbv zeta. rewrite go_sort_lenN.
  rewrite (wrap16_small (lenN item - 1)) by lia.
  rewrite E2'. unfold slice_get. rewrite Nat2N.id.
  destruct (extend_to x _ !! (length (go_sort item) - 1)) as [t|] eqn:E;
    [|by rewrite extend_to_lookup in E].
  cbn. unfold variants_table_index. rewrite go_sort_lenN, E1.
  pose proof (table_index_intern wrap16 x (go_sort item) t Hne' E) as H.
  destruct (table_index wrap16 t (go_sort item)) as [t' k].
  rewrite intern2_sort in H. cbn in *. injection H as -> ->.
  replace (N.of_nat (length (go_sort item) - 1) + 1)%N with (lenN item); [done|].
  rewrite go_sort_length. unfold lenN. destruct item; [done|]. cbn [length]. lia.
Qed.

Lemma table_get_lookup t id : table_get t id = t !! N.to_nat id.
Proof.
  unfold table_get. destruct (N.leb_spec (lenN t) id) as [H|H]; [|done].
  symmetry. apply lookup_ge_None_2. unfold lenN in H. lia.
Qed.
Lemma tagset_get_at2 x id :
  tagset_get x id = at2 x (N.to_nat (id32_upper id)) (N.to_nat (id32_lower id)).
Proof.
  unfold tagset_get, tagset_get_table, at2.
  destruct (N.leb_spec (lenN x) (id32_upper id)) as [H|H].
  - rewrite lookup_ge_None_2 by (unfold lenN in H; lia). done.
  - destruct (x !! _) as [t|]; [|done]. cbn. apply table_get_lookup.
Qed.
Lemma collection16_get_at2 x id :
  collection16_get x id = at2 x (N.to_nat (id32_upper id)) (N.to_nat (id32_lower id)).
Proof.
  unfold collection16_get, at2.
  destruct (N.leb_spec (lenN x) (id32_upper id)) as [H|H].
  - rewrite lookup_ge_None_2 by (unfold lenN in H; lia). done.
  - destruct (x !! _) as [t|]; [|done]. cbn. apply table_get_lookup.
Qed.
Lemma collection8_get_at2 x id :
  collection8_get x id = at2 x (N.to_nat (id16_upper id)) (N.to_nat (id16_lower id)).
Proof.
  unfold collection8_get, at2.
  destruct (N.leb_spec (lenN x) (id16_upper id)) as [H|H].
  - rewrite lookup_ge_None_2 by (unfold lenN in H; lia). done.
  - destruct (x !! _) as [t|]; [|done]. cbn. apply table_get_lookup.
Qed.
(** ids with a zero upper half stand for the empty collection *)
Lemma variants_get_at2 x id :
  variants_get x id =
  if (id32_upper id =? 0)%N then Ok []
  else match at2 x (N.to_nat (id32_upper id) - 1) (N.to_nat (id32_lower id)) with
       | Some s => Ok s | None => Panic end.
Proof.
  unfold variants_get. destruct (N.eqb_spec id 0) as [->|Hid]; [done|].
  destruct (N.ltb_spec (id32_upper id) 1) as [H|H].
  - by rewrite (proj2 (N.eqb_eq _ _)) by lia.
  - rewrite (proj2 (N.eqb_neq _ _)) by lia. unfold slice_get, at2, variants_table_get, slice_get.
    replace (N.to_nat (id32_upper id - 1)) with (N.to_nat (id32_upper id) - 1) by lia.
    destruct (x !! _) as [t|]; cbn; [|done]. done.
Qed.
