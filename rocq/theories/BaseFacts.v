(** Facts about the common vocabulary: sorting, equality of sequences, id packing. *)
From Coq Require Import ZifyBool ZifyNat ZifyN.
From Verif Require Import Base Storage.
Open Scope N_scope.

(** ** Lengths *)
Lemma lenN_nil {A} : lenN (@nil A) = 0.
Proof. reflexivity. Qed.
Lemma lenN_app {A} (l k : list A) : lenN (l ++ k) = lenN l + lenN k.
Proof. unfold lenN. rewrite app_length. lia. Qed.
Lemma lenN_cons {A} (x : A) (l : list A) : lenN (x :: l) = lenN l + 1.
Proof. unfold lenN. simpl. lia. Qed.
Lemma lenN_0 {A} (l : list A) : lenN l = 0 <-> l = [].
Proof. unfold lenN. destruct l; simpl; split; intros; try done; try lia. Qed.
Lemma lenN_insert {A} (l : list A) i x : lenN (<[i:=x]> l) = lenN l.
Proof. unfold lenN. by rewrite insert_length. Qed.
Lemma to_nat_lenN {A} (l : list A) : N.to_nat (lenN l) = length l.
Proof. unfold lenN. lia. Qed.
Lemma lenN_map {A B} (f : A -> B) (l : list A) : lenN (map f l) = lenN l.
Proof. unfold lenN. by rewrite map_length. Qed.
Lemma lenN_replicate {A} (x : A) n : lenN (replicate n x) = N.of_nat n.
Proof. unfold lenN. by rewrite replicate_length. Qed.

(** ** Wrap-around *)
Lemma wrap8_small n : n < 256 -> wrap8 n = n.
Proof. unfold wrap8. intros. apply N.mod_small. lia. Qed.
Lemma wrap16_small n : n < 65536 -> wrap16 n = n.
Proof. unfold wrap16. intros. apply N.mod_small. lia. Qed.
Lemma wrap32_small n : n < 4294967296 -> wrap32 n = n.
Proof. unfold wrap32. intros. apply N.mod_small. lia. Qed.
Lemma wrap8_lt n : wrap8 n < 256.
Proof. unfold wrap8. apply N.mod_lt. lia. Qed.
Lemma wrap16_lt n : wrap16 n < 65536.
Proof. unfold wrap16. apply N.mod_lt. lia. Qed.
Lemma wrap32_lt n : wrap32 n < 4294967296.
Proof. unfold wrap32. apply N.mod_lt. lia. Qed.

(** ** Id packing as arithmetic *)
Lemma lor_disjoint a b k : b < 2 ^ k -> N.lor (a * 2 ^ k) b = a * 2 ^ k + b.
Proof.
  intros Hb. rewrite <- N.shiftl_mul_pow2.
  assert (Hl : N.land (N.shiftl a k) b = 0).
  { apply N.bits_inj. intros i. rewrite N.land_spec, N.bits_0.
    destruct (N.lt_ge_cases i k) as [Hi|Hi].
    - by rewrite N.shiftl_spec_low.
    - assert (N.testbit b i = false) as ->; [|apply andb_false_r].
      destruct (N.eq_dec b 0) as [->|Hb0]; [apply N.bits_0|].
      apply N.bits_above_log2. apply N.log2_lt_pow2; [lia|].
      eapply N.lt_le_trans; [exact Hb|]. apply N.pow_le_mono_r; lia. }
  rewrite <- N.lxor_lor by done. symmetry. by apply N.add_nocarry_lxor.
Qed.

Lemma combine16_arith hi lo :
  hi < 65536 -> lo < 65536 -> combine16 hi lo = hi * 65536 + lo.
Proof.
  intros Hh Hl. unfold combine16. rewrite N.shiftl_mul_pow2.
  rewrite wrap32_small.
  - apply (lor_disjoint hi lo 16). exact Hl.
  - change (2 ^ 16) with 65536. lia.
Qed.
Lemma combine8_arith hi lo :
  hi < 256 -> lo < 256 -> combine8 hi lo = hi * 256 + lo.
Proof.
  intros Hh Hl. unfold combine8. rewrite N.shiftl_mul_pow2.
  rewrite wrap16_small.
  - apply (lor_disjoint hi lo 8). exact Hl.
  - change (2 ^ 8) with 256. lia.
Qed.
Lemma id32_upper_arith x : x < 4294967296 -> id32_upper x = x / 65536.
Proof.
  intros Hx. unfold id32_upper. change 0xffff with (N.ones 16).
  rewrite N.land_ones, N.shiftr_div_pow2. change (2 ^ 16) with 65536.
  assert (x / 65536 < 65536) by (apply N.div_lt_upper_bound; lia).
  rewrite N.mod_small by lia. apply wrap16_small. lia.
Qed.
Lemma id32_lower_arith x : id32_lower x = x mod 65536.
Proof.
  unfold id32_lower. rewrite N.land_comm. change 0xffff with (N.ones 16).
  rewrite N.land_ones. change (2 ^ 16) with 65536.
  apply wrap16_small. apply N.mod_lt. lia.
Qed.
Lemma id16_upper_arith x : x < 65536 -> id16_upper x = x / 256.
Proof.
  intros Hx. unfold id16_upper. change 0xff with (N.ones 8).
  rewrite N.land_ones, N.shiftr_div_pow2. change (2 ^ 8) with 256.
  assert (x / 256 < 256) by (apply N.div_lt_upper_bound; lia).
  rewrite N.mod_small by lia. apply wrap8_small. lia.
Qed.
Lemma id16_lower_arith x : id16_lower x = x mod 256.
Proof.
  unfold id16_lower. rewrite N.land_comm. change 0xff with (N.ones 8).
  rewrite N.land_ones. change (2 ^ 8) with 256.
  apply wrap8_small. apply N.mod_lt. lia.
Qed.

Lemma combine16_lt hi lo : hi < 65536 -> lo < 65536 -> combine16 hi lo < 4294967296.
Proof. intros. rewrite combine16_arith by done. lia. Qed.
Lemma combine8_lt hi lo : hi < 256 -> lo < 256 -> combine8 hi lo < 65536.
Proof. intros. rewrite combine8_arith by done. lia. Qed.

Lemma upper_combine16 hi lo :
  hi < 65536 -> lo < 65536 -> id32_upper (combine16 hi lo) = hi.
Proof.
  intros Hh Hl. rewrite id32_upper_arith by (by apply combine16_lt).
  rewrite combine16_arith by done. rewrite N.div_add_l by lia. rewrite N.div_small by done. lia.
Qed.
Lemma lower_combine16 hi lo :
  hi < 65536 -> lo < 65536 -> id32_lower (combine16 hi lo) = lo.
Proof.
  intros Hh Hl. rewrite id32_lower_arith, combine16_arith by done.
  rewrite N.add_comm, N.mod_add by lia. by apply N.mod_small.
Qed.
Lemma combine16_upper_lower x :
  x < 4294967296 -> combine16 (id32_upper x) (id32_lower x) = x.
Proof.
  intros Hx. rewrite combine16_arith, id32_upper_arith, id32_lower_arith by
    (try done; unfold id32_upper, id32_lower; apply wrap16_lt).
  pose proof (N.div_mod x 65536). lia.
Qed.
Lemma upper_combine8 hi lo :
  hi < 256 -> lo < 256 -> id16_upper (combine8 hi lo) = hi.
Proof.
  intros Hh Hl. rewrite id16_upper_arith by (by apply combine8_lt).
  rewrite combine8_arith by done. rewrite N.div_add_l by lia. rewrite N.div_small by done. lia.
Qed.
Lemma lower_combine8 hi lo :
  hi < 256 -> lo < 256 -> id16_lower (combine8 hi lo) = lo.
Proof.
  intros Hh Hl. rewrite id16_lower_arith, combine8_arith by done.
  rewrite N.add_comm, N.mod_add by lia. by apply N.mod_small.
Qed.
Lemma combine8_upper_lower x :
  x < 65536 -> combine8 (id16_upper x) (id16_lower x) = x.
Proof.
  intros Hx. rewrite combine8_arith, id16_upper_arith, id16_lower_arith by
    (try done; unfold id16_upper, id16_lower; apply wrap8_lt).
  pose proof (N.div_mod x 256). lia.
Qed.
Lemma combine16_inj h1 l1 h2 l2 :
  h1 < 65536 -> l1 < 65536 -> h2 < 65536 -> l2 < 65536 ->
  combine16 h1 l1 = combine16 h2 l2 -> h1 = h2 /\ l1 = l2.
Proof.
  intros A1 A2 A3 A4 H. split.
  - rewrite <- (upper_combine16 h1 l1), <- (upper_combine16 h2 l2) by done. by rewrite H.
  - rewrite <- (lower_combine16 h1 l1), <- (lower_combine16 h2 l2) by done. by rewrite H.
Qed.
Lemma combine8_inj h1 l1 h2 l2 :
  h1 < 256 -> l1 < 256 -> h2 < 256 -> l2 < 256 ->
  combine8 h1 l1 = combine8 h2 l2 -> h1 = h2 /\ l1 = l2.
Proof.
  intros A1 A2 A3 A4 H. split.
  - rewrite <- (upper_combine8 h1 l1), <- (upper_combine8 h2 l2) by done. by rewrite H.
  - rewrite <- (lower_combine8 h1 l1), <- (lower_combine8 h2 l2) by done. by rewrite H.
Qed.

(** ** EqualTo *)
Lemma equal_to_true a b : equal_to a b = true <-> a = b.
Proof.
  unfold equal_to. destruct (Nat.eqb_spec (length a) (length b)) as [E|E]; cbn.
  - revert b E. induction a as [|x a IH]; intros [|y b] E; try done.
    cbn in E. injection E as E. specialize (IH b E). cbn.
    destruct (N.eqb_spec x y) as [->|Hne].
    + rewrite IH. split; [by intros ->|by intros [= ->]].
    + split; [done|]. by intros [= ->].
  - split; [done|]. by intros ->.
Qed.
Lemma equal_to_false a b : equal_to a b = false <-> a <> b.
Proof.
  rewrite <- equal_to_true. by destruct (equal_to a b).
Qed.

(** ** Sorting *)
Notation sortedN := (Sorted N.le).
Lemma go_sort_sorted l : sortedN (go_sort l).
Proof. apply Sorted_merge_sort. apply _. Qed.
Lemma go_sort_perm l : go_sort l ≡ₚ l.
Proof. apply merge_sort_Permutation. Qed.
Lemma sorted_unique l k : sortedN l -> sortedN k -> l ≡ₚ k -> l = k.
Proof.
  intros Hl Hk Hp. apply (Sorted_unique N.le); done.
Qed.
Lemma go_sort_unique l k : sortedN k -> k ≡ₚ l -> k = go_sort l.
Proof.
  intros Hk Hp. apply sorted_unique; [done|apply go_sort_sorted|].
  by rewrite go_sort_perm.
Qed.
Lemma go_sort_perm_eq l k : l ≡ₚ k <-> go_sort l = go_sort k.
Proof.
  split.
  - intros Hp. apply go_sort_unique; [apply go_sort_sorted|]. by rewrite go_sort_perm.
  - intros E. by rewrite <- (go_sort_perm l), E, go_sort_perm.
Qed.
Lemma go_sort_id l : sortedN l -> go_sort l = l.
Proof. intros. symmetry. by apply go_sort_unique. Qed.
Lemma go_sort_idem l : go_sort (go_sort l) = go_sort l.
Proof. apply go_sort_id, go_sort_sorted. Qed.
Lemma go_sort_length l : length (go_sort l) = length l.
Proof. apply Permutation_length, go_sort_perm. Qed.
Lemma go_sort_lenN l : lenN (go_sort l) = lenN l.
Proof. unfold lenN. by rewrite go_sort_length. Qed.
Lemma go_sort_nil l : go_sort l = [] <-> l = [].
Proof.
  split; [|by intros ->]. intros E. pose proof (go_sort_length l) as H. rewrite E in H.
  by destruct l.
Qed.
Lemma go_sort_elem l x : x ∈ go_sort l <-> x ∈ l.
Proof. by rewrite go_sort_perm. Qed.
Lemma go_sort_Forall (P : N -> Prop) l : Forall P (go_sort l) <-> Forall P l.
Proof. by rewrite go_sort_perm. Qed.
Lemma go_sort_NoDup l : NoDup (go_sort l) <-> NoDup l.
Proof. by rewrite go_sort_perm. Qed.

(** ** Finding a position *)
Lemma find_pos_shift t item i :
  find_pos t item i = (fun k => (i + k)%nat) <$> find_pos t item 0.
Proof.
  revert i. induction t as [|x t IH]; intros i; [done|]. cbn.
  destruct (equal_to x item); cbn; [f_equal; lia|].
  rewrite (IH (S i)), (IH 1%nat). destruct (find_pos t item 0); cbn; [|done]. f_equal. lia.
Qed.
Lemma find_pos_Some t item k :
  find_pos t item 0 = Some k <-> t !! k = Some item /\ forall j, (j < k)%nat -> t !! j <> Some item.
Proof.
  revert k. induction t as [|x t IH]; intros k; cbn.
  - split; [done|]. intros [H _]. by rewrite lookup_nil in H.
  - destruct (equal_to x item) eqn:E.
    + apply equal_to_true in E as ->. split.
      * intros [= <-]. split; [done|]. intros j Hj. lia.
      * intros [H1 H2]. destruct k as [|k]; [done|]. exfalso. apply (H2 0%nat); [lia|done].
    + apply equal_to_false in E. rewrite find_pos_shift. destruct (find_pos t item 0) as [k'|] eqn:F; cbn.
      * destruct (IH k') as [IH1 _]. specialize (IH1 eq_refl) as [H1 H2].
        split.
        -- intros [= <-]. split; [done|]. intros [|j] Hj; cbn; [congruence|]. apply H2. lia.
        -- intros [G1 G2]. destruct k as [|k]; cbn in *; [congruence|].
           f_equal. f_equal. destruct (Nat.lt_trichotomy k k') as [Hlt|[->|Hlt]]; [|done|].
           ++ exfalso. by apply (H2 k).
           ++ exfalso. apply (G2 (S k')); [lia|done].
      * split; [done|]. intros [G1 G2]. destruct k as [|k]; cbn in *; [congruence|].
        exfalso. assert (Hn : None = Some k) by (apply (IH k); split; [done|];
          intros j Hj; apply (G2 (S j)); lia). done.
Qed.
Lemma find_pos_None t item : find_pos t item 0 = None <-> item ∉ t.
Proof.
  induction t as [|x t IH]; cbn.
  - split; [|done]. intros _ H. by apply elem_of_nil in H.
  - destruct (equal_to x item) eqn:E.
    + apply equal_to_true in E as ->. split; [done|]. intros H. exfalso. apply H. left.
    + apply equal_to_false in E. rewrite find_pos_shift.
      destruct (find_pos t item 0) as [k|] eqn:F; cbn.
      * split; [done|]. intros H. exfalso. destruct IH as [_ IH].
        assert (Some k = None) by (apply IH; intros G; apply H; by right). done.
      * split; [|done]. intros _. rewrite not_elem_of_cons. split; [congruence|]. by apply IH.
Qed.
Lemma find_pos_NoDup t item k :
  NoDup t -> find_pos t item 0 = Some k <-> t !! k = Some item.
Proof.
  intros Hnd. rewrite find_pos_Some. split; [by intros [? _]|].
  intros H. split; [done|]. intros j Hj Hj'. assert (j = k) by (eapply NoDup_lookup; eauto). lia.
Qed.

Lemma equal_to_sorted a b :
  Sorted N.le a -> Sorted N.le b -> equal_to a b = true <-> a ≡ₚ b.
Proof.
  intros Ha Hb. rewrite equal_to_true. split; [by intros ->|]. by apply sorted_unique.
Qed.
