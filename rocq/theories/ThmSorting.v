(** Proofs for C83. *)
From Verif Require Import Base BaseFacts Corpus Sorting.
From stdpp Require Import list.
Open Scope N_scope.

Section places.
  Context {A : Type}.
  Implicit Types l : list A.
  Lemma at_int_nat l n : at_int l (Z.of_nat n) = l !! n.
  Proof. unfold at_int. destruct (Z.ltb_spec (Z.of_nat n) 0); [lia|]. by rewrite Nat2Z.id. Qed.
  Lemma at_int_Some l i x : at_int l i = Some x <-> (0 <= i)%Z /\ l !! Z.to_nat i = Some x.
  Proof. unfold at_int. destruct (Z.ltb_spec i 0); (split; [intros E; try done|intros [? E]; try done]); lia || (split; [lia|done]). Qed.

  Lemma insert_perm l i x y : l !! i = Some x -> x :: <[i := y]> l ≡ₚ y :: l.
  Proof.
    revert i. induction l as [|z l IH]; intros [|i] H; cbn in *; simplify_eq; [apply Permutation_swap|].
    rewrite Permutation_swap. rewrite (IH i H). apply Permutation_swap.
  Qed.
  Lemma swap_perm l i j x y : l !! i = Some x -> l !! j = Some y -> <[j := x]> (<[i := y]> l) ≡ₚ l.
  Proof.
    intros Hi Hj. apply (Permutation_cons_inv (a := y)). rewrite insert_perm; [by apply insert_perm|].
    destruct (decide (i = j)) as [->|Hne].
    - rewrite list_lookup_insert by (by eapply lookup_lt_Some). done.
    - by rewrite list_lookup_insert_ne.
  Qed.
End places.

Section generic.
  Context {A : Type} (key : A -> N).
  Implicit Types l : list A.
  Definition le_key (x y : A) : Prop := key x <= key y.

  Lemma drive_perm c l l' : drive key c l = Ok l' -> l' ≡ₚ l.
  Proof.
    revert l. induction c as [|i j k IH|i j k IH]; intros l E; cbn in E; simplify_eq; [done| |].
    - destruct (m_less key l i j); simplify_eq. by eapply IH.
    - destruct (m_swap l i j) as [l1| |] eqn:Es; simplify_eq. rewrite (IH _ E). unfold m_swap in Es.
      destruct (at_int l i) as [x|] eqn:Hi, (at_int l j) as [y|] eqn:Hj; simplify_eq.
      apply at_int_Some in Hi as [_ Hi]. apply at_int_Some in Hj as [_ Hj]. by apply swap_perm.
  Qed.
  (** No element is Less than the one before it. *)
  Definition in_order l : Prop := forall i : nat, (S i < length l)%nat -> m_less key l (Z.of_nat (S i)) (Z.of_nat i) = Ok false.
  Lemma in_order_sorted l : in_order l <-> Sorted le_key l.
  Proof.
    induction l as [|x [|y l] IH].
    - split; [constructor|intros _ i Hi; cbn in Hi; lia].
    - split; [repeat constructor|intros _ i Hi; cbn in Hi; lia].
    - assert (Hm : forall z k i, m_less key (z :: k) (Z.of_nat (S (S i))) (Z.of_nat (S i)) = m_less key k (Z.of_nat (S i)) (Z.of_nat i)).
      { intros z k i. unfold m_less. by rewrite !at_int_nat. }
      split.
      + intros H. constructor.
        * apply IH. intros i Hi. rewrite <- (Hm x). apply H. cbn in *. lia.
        * constructor. specialize (H O ltac:(cbn; lia)). unfold m_less in H. rewrite !at_int_nat in H. cbn in H.
          unfold le_key. injection H as H. apply N.ltb_ge in H. done.
      + intros H. apply Sorted_inv in H as [Hs Hh]. intros [|i] Hi.
        * unfold m_less. rewrite !at_int_nat. cbn. f_equal. apply N.ltb_ge. by inversion Hh.
        * rewrite Hm. apply IH; [done|]. cbn in *. lia.
  Qed.

  Lemma at_app_l l x t : at_int (l ++ x :: t) (Z.of_nat (length l)) = Some x.
  Proof. rewrite at_int_nat. by apply list_lookup_middle. Qed.
  Lemma at_app_S l x y t : at_int (l ++ x :: y :: t) (Z.of_nat (S (length l))) = Some y.
  Proof. rewrite at_int_nat, cons_middle, app_assoc. apply list_lookup_middle. rewrite app_length. cbn. lia. Qed.
  Lemma le_key_trans : Transitive le_key.
  Proof. intros x y z. unfold le_key. lia. Qed.
  Lemma sorted_snoc l x : Sorted le_key l -> Forall (fun y => key y <= key x) l -> Sorted le_key (l ++ [x]).
  Proof.
    induction l as [|y l IH]; intros Hs Hf; cbn; [repeat constructor|].
    apply Sorted_inv in Hs as [Hs Hh]. apply Forall_cons in Hf as [Hy Hf]. constructor; [by apply IH|].
    destruct l as [|z l]; cbn; [by repeat constructor|]. constructor. by inversion Hh.
  Qed.
  Lemma sorted_snoc_inv l x : Sorted le_key (l ++ [x]) -> Sorted le_key l /\ Forall (fun y => key y <= key x) l.
  Proof.
    intros H. apply (@Sorted_StronglySorted _ _ le_key_trans) in H. apply StronglySorted_app_inv_l in H as H1.
    split; [by apply StronglySorted_Sorted|]. clear H1. induction l as [|y l IH]; [constructor|]. cbn in H.
    apply StronglySorted_inv in H as [H1 H2]. constructor; [|by apply IH]. rewrite Forall_forall in H2. apply H2. set_solver.
  Qed.
  Lemma insert_at_ok k p x t : Sorted le_key p ->
    exists p', Sorted le_key p' /\ p' ≡ₚ p ++ [x] /\ drive key (insert_at (length p) k) (p ++ x :: t) = drive key k (p' ++ t).
  Proof.
    revert x t. induction p as [|y q IH] using rev_ind; intros x t Hs; [by exists [x]; repeat constructor|].
    rewrite app_length. cbn [length]. rewrite Nat.add_1_r. cbn [insert_at drive]. rewrite <- !app_assoc. cbn [app].
    unfold m_less at 1. rewrite at_app_l, at_app_S.
    apply sorted_snoc_inv in Hs as [Hq Hle].
    destruct (N.ltb_spec (key x) (key y)) as [Hlt|Hge].
    - cbn [drive]. unfold m_swap. rewrite at_app_l, at_app_S. rewrite !Nat2Z.id.
      assert (E : <[length q:=x]> (<[S (length q):=y]> (q ++ y :: x :: t)) = q ++ x :: y :: t).
      { change (y :: x :: t) with ([y] ++ x :: t). rewrite app_assoc.
        replace (S (length q)) with (length (q ++ [y]) + 0)%nat by (rewrite app_length; cbn; lia). rewrite insert_app_r. cbn [insert list_insert].
        rewrite <- app_assoc. replace (length q) with (length q + 0)%nat at 1 by lia. rewrite insert_app_r. done. }
      rewrite E. destruct (IH x (y :: t) Hq) as (q' & Hs' & Hp' & ->).
      exists (q' ++ [y]). split; [|split; [|by rewrite <- app_assoc]].
      + apply sorted_snoc; [done|]. rewrite Hp'. apply Forall_app. split; [done|]. apply Forall_singleton. lia.
      + rewrite Hp'. rewrite <- !app_assoc. apply Permutation_app_head. apply Permutation_swap.
    - exists ((q ++ [y]) ++ [x]). split; [|split; [by rewrite <- app_assoc|by rewrite <- !app_assoc]].
      apply sorted_snoc; [by apply sorted_snoc|]. apply Forall_app. split; [|by apply Forall_singleton].
      eapply Forall_impl; [done|]. cbn. intros. lia.
  Qed.
  Lemma insert_all_ok t p : Sorted le_key p -> exists l', Sorted le_key l' /\ l' ≡ₚ p ++ t /\ drive key (insert_all (seq (length p) (length t))) (p ++ t) = Ok l'.
  Proof.
    revert p. induction t as [|x t IH]; intros p Hs; [exists p; by rewrite app_nil_r|]. cbn [length seq insert_all].
    destruct (insert_at_ok (insert_all (seq (S (length p)) (length t))) p x t Hs) as (p' & Hs' & Hp' & ->).
    assert (Hl : length p' = S (length p)) by (rewrite Hp', app_length; cbn; lia). rewrite <- Hl.
    destruct (IH p' Hs') as (l' & H1 & H2 & H3). exists l'. split; [done|]. split; [|done]. rewrite H2, Hp', <- app_assoc. done.
  Qed.
  Lemma gap_ok is k l : Forall (fun i => (6 <= i < length l)%nat) is -> exists l', l' ≡ₚ l /\ drive key (gap_pass is k) l = drive key k l'.
  Proof.
    revert l. induction is as [|i is IH]; intros l Hf; [by exists l|]. apply Forall_cons in Hf as [[H6 Hi] Hf]. cbn [gap_pass drive].
    destruct (lookup_lt_is_Some_2 l i Hi) as [x Hx]. destruct (lookup_lt_is_Some_2 l (i - 6)) as [y Hy]; [lia|].
    unfold m_less. replace (Z.of_nat i - 6)%Z with (Z.of_nat (i - 6)) by lia. rewrite !at_int_nat, Hx, Hy.
    destruct (key x <? key y).
    - cbn [drive]. unfold m_swap. rewrite !at_int_nat, Hx, Hy, !Nat2Z.id.
      assert (Hp := swap_perm l i (i - 6) x y Hx Hy). destruct (IH (<[(i - 6)%nat:=x]> (<[i:=y]> l))) as (l' & Hp' & E).
      { eapply Forall_impl; [done|]. cbn. intros ? ?. by rewrite !insert_length. }
      exists l'. split; [by rewrite Hp'|done].
    - destruct (IH l Hf) as (l' & Hp' & E). by exists l'.
  Qed.
  Lemma sort_small_ok l : exists l', sort_small key l = Ok l' /\ l' ≡ₚ l /\ Sorted le_key l'.
  Proof.
    unfold sort_small, small_sort, m_len.
    destruct (gap_ok (seq 6 (length l - 6)) (insert_all (seq 1 (length l - 1))) l) as (l1 & Hp & ->).
    { apply Forall_forall. intros i Hi. apply elem_of_seq in Hi. lia. }
    assert (Hl : length l1 = length l) by (by rewrite Hp). rewrite <- Hl. destruct l1 as [|x t]; [cbn; exists []; repeat split; [done|constructor]|].
    cbn [length]. rewrite Nat.sub_succ, Nat.sub_0_r.
    destruct (insert_all_ok t [x]) as (l' & H1 & H2 & H3); [repeat constructor|]. cbn in H3.
    exists l'. split; [done|]. split; [|done]. by rewrite H2.
  Qed.
End generic.

Lemma at_int_map {A B} (f : A -> B) l i : at_int (map f l) i = f <$> at_int l i.
Proof. unfold at_int. destruct (i <? 0)%Z; [done|]. apply list_lookup_fmap. Qed.
Lemma at_int_elem {A} (l : list A) i x : at_int l i = Some x -> x ∈ l.
Proof. unfold at_int. destruct (i <? 0)%Z; [done|]. apply elem_of_list_lookup_2. Qed.

(** Spec: which place an element comes from when the places [i] and [j] are exchanged. *)
Definition exchanged (i j k : Z) : Z := if (k =? i)%Z then j else if (k =? j)%Z then i else k.

Lemma l_C83_methods : forall (A : Type) (key : A -> N) l i j,
  let inside k := (0 <= k < Z.of_nat (length l))%Z in
  (inside i /\ inside j -> exists x y l', at_int l i = Some x /\ at_int l j = Some y /\
      (m_less key l i j = Ok true <-> key x < key y) /\ (m_less key l i j = Ok false <-> key y <= key x) /\
      m_swap l i j = Ok l' /\ length l' = length l /\ forall k, at_int l' k = at_int l (exchanged i j k)) /\
  (~ (inside i /\ inside j) -> m_less key l i j = Panic /\ m_swap l i j = Panic).
Proof.
  intros A key l i j inside.
  assert (Hin : forall k, inside k <-> is_Some (at_int l k)).
  { intros k. unfold inside, at_int. destruct (Z.ltb_spec k 0); [split; [lia|by intros [? ?]]|]. rewrite lookup_lt_is_Some. lia. }
  split.
  - intros [Hi Hj]. apply Hin in Hi as [x Hx]. apply Hin in Hj as [y Hy].
    unfold m_less, m_swap. rewrite Hx, Hy. exists x, y. eexists. do 2 (split; [done|]).
    split; [|split; [|split; [done|split; [by rewrite !insert_length|]]]].
    + destruct (N.ltb_spec (key x) (key y)); split; intros; try done; lia.
    + destruct (N.ltb_spec (key x) (key y)); split; intros; try done; lia.
    + intros k. unfold exchanged. apply at_int_Some in Hx as [Hi0 Hx]. apply at_int_Some in Hy as [Hj0 Hy].
      destruct (Z.ltb_spec k 0) as [Hk|Hk].
      { assert (Hneg : forall m : list A, at_int m k = None) by (intros m; unfold at_int; by destruct (Z.ltb_spec k 0); [|lia]).
        rewrite Hneg. destruct (Z.eqb_spec k i); [lia|]. destruct (Z.eqb_spec k j); [lia|]. by rewrite Hneg. }
      assert (Hat : forall (m : list A) n, (0 <= n)%Z -> at_int m n = m !! Z.to_nat n) by (intros m n Hn; unfold at_int; by destruct (Z.ltb_spec n 0); [lia|]).
      rewrite Hat by done.
      destruct (decide (k = j)) as [->|Hkj].
      * rewrite list_lookup_insert by (rewrite insert_length; by eapply lookup_lt_Some).
        destruct (Z.eqb_spec j i) as [->|_]; [rewrite Hat by done; congruence|]. rewrite Z.eqb_refl, Hat by done. done.
      * rewrite list_lookup_insert_ne by lia. destruct (Z.eqb_spec k i) as [->|Hki].
        -- rewrite list_lookup_insert by (by eapply lookup_lt_Some). by rewrite Hat.
        -- destruct (Z.eqb_spec k j); [done|]. rewrite list_lookup_insert_ne by lia. by rewrite Hat.
  - intros H. rewrite !Hin in H. unfold m_less, m_swap.
    destruct (at_int l i) as [x|]; [|done]. destruct (at_int l j) as [y|]; [|done]. destruct H. split; eauto.
Qed.
Lemma l_C83_any_algorithm : forall (c : caller) (l l' : list N),
  drive id c l = Ok l' -> (forall i : nat, (S i < length l')%nat -> m_less id l' (Z.of_nat (S i)) (Z.of_nat i) = Ok false) -> l' = go_sort l.
Proof. intros c l l' E H. apply (in_order_sorted id) in H. apply go_sort_unique; [done|]. by eapply drive_perm. Qed.
Lemma l_C83_children : forall (c : caller) (l l' : list child),
  drive ch_parent c l = Ok l' -> (forall i : nat, (S i < length l')%nat -> m_less ch_parent l' (Z.of_nat (S i)) (Z.of_nat i) = Ok false) -> sorts_to l l'.
Proof.
  intros c l l' E H. apply (in_order_sorted ch_parent) in H. split; [by eapply drive_perm|]. clear E.
  apply (@Sorted_StronglySorted _ _ (le_key_trans ch_parent)) in H. induction H as [|x k Hk IH Hx]; [constructor|].
  cbn. constructor; [done|]. apply Forall_map. exact Hx.
Qed.
Lemma l_C83_small : forall l : list N, sort_small id l = Ok (go_sort l).
Proof. intros l. destruct (sort_small_ok id l) as (l' & -> & Hp & Hs). f_equal. by apply go_sort_unique. Qed.
Lemma l_C83_small_children : forall l : list child, exists l', sort_small ch_parent l = Ok l' /\ sorts_to l l'.
Proof.
  intros l. destruct (sort_small_ok ch_parent l) as (l' & E & Hp & Hs). exists l'. split; [done|].
  eapply l_C83_children; [exact E|]. by apply (in_order_sorted ch_parent).
Qed.
Lemma l_C83_blind : forall (A B : Type) (key : A -> N) (key' : B -> N) (f : A -> B) (c : caller) (l : list A),
  (forall x y, x ∈ l -> y ∈ l -> key x < key y <-> key' (f x) < key' (f y)) ->
  drive key' c (map f l) = match drive key c l with Ok l' => Ok (map f l') | Err e => Err e | Panic => Panic end.
Proof.
  intros A B key key' f c. induction c as [|i j k IH|i j k IH]; intros l H; cbn; [done| |].
  - unfold m_less. rewrite !at_int_map. destruct (at_int l i) as [x|] eqn:Hi; [|done]. destruct (at_int l j) as [y|] eqn:Hj; [|done]. cbn.
    apply at_int_elem in Hi. apply at_int_elem in Hj. specialize (H x y Hi Hj) as Hxy.
    replace (key' (f x) <? key' (f y)) with (key x <? key y); [by apply IH|].
    destruct (N.ltb_spec (key x) (key y)), (N.ltb_spec (key' (f x)) (key' (f y))); try done; exfalso; (tauto || lia).
  - unfold m_swap. rewrite !at_int_map. destruct (at_int l i) as [x|] eqn:Hi; [|done]. destruct (at_int l j) as [y|] eqn:Hj; [|done]. cbn.
    assert (E : forall n z (m : list A), <[n := f z]> (map f m) = map f (<[n := z]> m)) by (intros; by rewrite list_fmap_insert).
    rewrite !E. apply IH. apply at_int_Some in Hi as [_ Hi]. apply at_int_Some in Hj as [_ Hj].
    intros a b Ha Hb. apply H; (rewrite <- (swap_perm l _ _ x y Hi Hj)); done.
Qed.
Lemma l_C83_has : forall c id, id_list_has c id = true <-> id ∈ c.
Proof.
  intros c id. induction c as [|x c IH]; cbn; [split; [done|by intros ?%elem_of_nil]|]. rewrite elem_of_cons.
  destruct (N.eqb_spec id x); [tauto|]. rewrite IH. tauto.
Qed.
