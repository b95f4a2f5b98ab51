(** Proofs about printed numbers: C93. *)
From Coq Require Import ZifyBool ZifyNat ZifyN.
From Verif Require Import Base Strconv NumFacts Screen ScreenSpec ThmScreen ThmRest FormatSpec.
From stdpp Require Import list.
Open Scope N_scope.

Lemma num_ne b s n : numeral b s n -> s <> [].
Proof. destruct 1 as [|s ? ? ?]; [done|]. by destruct s. Qed.
Lemma num_fun b s n : numeral b s n -> forall m, numeral b s m -> n = m.
Proof.
  induction 1 as [d c Hb Hd|s n d c Hs IH Hn Hb Hd]; intros m Hm.
  - inversion Hm as [d' c' Hb' Hd' E|s' n' d' c' Hs' Hn' Hb' Hd' E]; subst; [by eapply digit16_fun|].
    apply num_ne in Hs'. by destruct s' as [|? [|? ?]].
  - inversion Hm as [d' c' Hb' Hd' E|s' n' d' c' Hs' Hn' Hb' Hd' E]; subst.
    + apply num_ne in Hs. by destruct s as [|? [|? ?]].
    + apply app_inj_tail in E as [E1 E2]. subst s' c'. rewrite (IH n' Hs'). by rewrite (digit16_fun d d' c Hd Hd').
Qed.
Lemma num_inj b s n : numeral b s n -> forall t, numeral b t n -> s = t.
Proof.
  induction 1 as [d c Hb Hd|s n d c Hs IH Hn Hb Hd]; intros t Ht.
  - inversion Ht as [d' c' Hb' Hd' E|s' n' d' c' Hs' Hn' Hb' Hd' E]; subst; [congruence|]. exfalso. nia.
  - inversion Ht as [d' c' Hb' Hd' E|s' n' d' c' Hs' Hn' Hb' Hd' E]; subst; [exfalso; nia|].
    assert (n = n' /\ d = d') as [<- <-] by (apply (N.div_mod_unique b); [done|done|lia]). f_equal; [by apply IH|congruence].
Qed.
Lemma num_zero b s : 0 < b -> numeral b s 0 -> s = [48].
Proof. intros Hb H. eapply num_inj; [exact H|]. by apply (num_one b 0 48). Qed.
(** A numeral does not begin with a minus sign, and with a zero only if it is zero. *)
Lemma num_head b c s n : 0 < b -> numeral b (c :: s) n -> c <> 45 /\ (c = 48 -> s = []).
Proof.
  intros Hb H. remember (c :: s) as u eqn:E. revert c s E. induction H as [d x Hd Hx|u n d x Hu IH Hn Hd Hx]; intros c s E.
  - injection E as -> <-. split; [|done]. intros ->. apply elem_of_list_lookup_2 in Hx.
    assert (F : Forall (fun c => c <> 45) (bytes_of "0123456789ABCDEF")) by (apply (bool_decide_unpack _); by vm_compute).
    rewrite Forall_forall in F. by apply (F _ Hx).
  - destruct u as [|y u]; [by apply num_ne in Hu|]. injection E as <- <-. destruct (IH y u eq_refl) as [I1 I2]. split; [done|].
    intros ->. rewrite (I2 eq_refl) in Hu. exfalso. apply Hn. eapply num_fun; [exact Hu|]. by apply (num_one b 0 48).
Qed.
Lemma itoa_num n : numeral 10 (itoa n) n.
Proof.
  unfold itoa. assert (Hf : n < 2 ^ N.of_nat (N.size_nat n)) by (rewrite size_nat_N; apply N.size_gt).
  revert Hf. generalize (N.size_nat n). intros f. revert n. induction f as [|f IH]; intros n Hn.
  - cbn in Hn. assert (n = 0) as -> by lia. by apply (num_one 10 0 48).
  - change (itoa_fuel (S (S f)) n) with (if n <? 10 then [48 + n] else itoa_fuel (S f) (n / 10) ++ [48 + n mod 10]).
    assert (D : forall d, d < 10 -> bytes_of "0123456789ABCDEF" !! N.to_nat d = Some (48 + d)).
    { intros d Hd. assert (H16 : d < 16) by lia. pose proof (digit16_of d H16) as X. unfold digit16, hex_digit in X. by destruct (N.ltb_spec d 10); [|lia]. }
    destruct (N.ltb_spec n 10) as [H|H]; [apply num_one; [done|by apply D]|].
    rewrite Nat2N.inj_succ, N.pow_succ_r' in Hn.
    assert (Hq : n / 10 < 2 ^ N.of_nat f) by (apply N.div_lt_upper_bound; [done|]; lia).
    assert (H0 : n / 10 <> 0) by (apply N.neq_0_lt_0, N.div_str_pos; lia).
    pose proof (num_snoc 10 _ _ _ _ (IH _ Hq) H0 (N.mod_lt n 10 ltac:(done)) (D _ (N.mod_lt n 10 ltac:(done)))) as X.
    replace (n / 10 * 10 + n mod 10) with n in X; [exact X|]. rewrite (N.mul_comm (n / 10)). by apply N.div_mod.
Qed.
Lemma hex_num n : numeral 16 (hex n) n.
Proof.
  pose proof (l_C86_hex n) as H. induction H as [d c Hd|s n d c Hs IH Hn Hd].
  - apply num_one; [by eapply digit16_lt|done].
  - apply num_snoc; [done|done|by eapply digit16_lt|done].
Qed.

Lemma l_C93_naturals : forall n s, (s = itoa n <-> numeral 10 s n) /\ (s = hex n <-> numeral 16 s n).
Proof.
  intros n s. split; (split; [intros ->|intros H; symmetry; eapply num_inj; [|exact H]]); apply itoa_num || apply hex_num.
Qed.
Lemma signed_iff b f : 0 < b -> (forall n s, s = f n <-> numeral b s n) -> forall z s,
  s = (if (z <? 0)%Z then 45 :: f (Z.to_N (- z)) else f (Z.to_N z)) <-> signed b s z.
Proof.
  intros Hb Hf z s. split.
  - intros ->. destruct (Z.ltb_spec z 0) as [H|H].
    + replace z with (- Z.of_N (Z.to_N (- z)))%Z at 2 by lia. apply (sgn_minus b (f (Z.to_N (- z)))); [by apply Hf|lia].
    + replace z with (Z.of_N (Z.to_N z)) at 2 by lia. apply sgn_none. by apply Hf.
  - intros H. destruct H as [s n H|s n H Hn].
    + destruct (Z.ltb_spec (Z.of_N n) 0); [lia|]. rewrite N2Z.id. by apply Hf.
    + destruct (Z.ltb_spec (- Z.of_N n) 0); [|lia]. rewrite Z.opp_involutive, N2Z.id. change (bytes_of "-" ++ s) with (45 :: s). f_equal. by apply Hf.
Qed.
Lemma l_C93_integers : forall z s, (s = fmt_d z <-> signed 10 s z) /\ (s = fmt_X z <-> signed 16 s z).
Proof. intros z s. split; (apply signed_iff; [done|]; intros n t; apply l_C93_naturals). Qed.
Lemma l_C93_padded : forall width n s, s = fmt_0d width n <-> padded 10 width s n.
Proof.
  intros w n s. unfold fmt_0d. split.
  - intros ->. destruct (decide (w <= length (itoa n))%nat) as [H|H].
    + replace (w - length (itoa n))%nat with 0%nat by lia. apply pad_long; [apply itoa_num|done].
    + apply pad_short; [apply itoa_num|lia].
  - intros [s' n' H Hl|k s' n' H Hl]; apply l_C93_naturals in H as ->.
    + by replace (w - length (itoa n'))%nat with 0%nat by lia.
    + f_equal. f_equal. lia.
Qed.
(** Nothing is lost: two numbers are printed alike only if they are the same, whatever the width. *)
Lemma l_C93_one_number : forall b s, 0 < b -> (forall y z, signed b s y -> signed b s z -> y = z) /\
  (forall w m n, padded b w s m -> padded b w s n -> m = n).
Proof.
  intros b s Hb. split.
  - intros y z Hy Hz. destruct Hy as [s n H|s n H Hn]; inversion Hz as [s' n' H' E|s' n' H' Hn' E]; subst.
    + f_equal. by eapply num_fun.
    + exfalso. by apply num_head in H as [H _].
    + exfalso. by apply num_head in H' as [H' _].
    + f_equal. f_equal. by eapply num_fun.
  - assert (S : forall k s n, numeral b s n -> forall k' s' n', numeral b s' n' -> replicate k 48 ++ s = replicate k' 48 ++ s' -> n = n').
    { assert (S1 : forall k s n, numeral b s n -> forall s' n', numeral b s' n' -> replicate k 48 ++ s = s' -> n = n').
      { intros [|k] u n H u' n' H' E; [subst; by eapply num_fun|]. subst u'. cbn [replicate app] in H'. pose proof (num_head _ _ _ _ Hb H') as [_ E2].
        specialize (E2 eq_refl). apply app_eq_nil in E2 as [_ ->]. by apply num_ne in H. }
      induction k as [|k IH]; intros u n H k' u' n' H' E.
      - symmetry. eapply S1; [exact H'|exact H|]. by symmetry.
      - destruct k' as [|k']; [eapply (S1 (S k)); done|]. injection E as E. by eapply IH. }
    intros w m n Hm Hn. destruct Hm as [s m H Hl|k s m H Hl]; inversion Hn as [s' n' H' Hl' E|k' s' n' H' Hl' E]; subst.
    + by eapply (S 0%nat _ _ H 0%nat).
    + eapply (S 0%nat _ _ H k'); [exact H'|]. done.
    + eapply (S k _ _ H 0%nat); [exact H'|]. done.
    + eapply (S k _ _ H k'); [exact H'|]. by symmetry.
Qed.
