(** Proofs about the numbers in attributes (C82). *)
From Coq Require Import ZifyBool ZifyNat ZifyN.
From Verif Require Import Base Strconv Numerals NumFacts DocSpec Parser Float Floats.
From stdpp Require Import list.
Open Scope N_scope.

(** ** Runs of digits and underscores *)
Definition raw (hex : bool) (u : list N) : Prop := Forall (fun c => c = 95 \/ is_digit hex c = true) u.
Definition dval (c : N) : N := default 0 (digit_of c).
Fixpoint rawval (b n : N) (u : list N) : N :=
  match u with [] => n | c :: u' => if c =? 95 then rawval b n u' else rawval b (n * b + dval c) u' end.
Definition stops (hex : bool) (s : list N) : Prop :=
  match s with [] => True | c :: _ => c <> 95 /\ is_digit hex c = false end.
Definition base (hex : bool) : N := if hex then 16 else 10.
Lemma base_base_ok hex : base_ok (base hex).
Proof. destruct hex; unfold base_ok, base; tauto. Qed.
Lemma base_16 hex : (base hex =? 16) = hex.
Proof. by destruct hex. Qed.
Lemma is_digit_val hex c : is_digit hex c = true <-> digit (base hex) c (dval c).
Proof.
  rewrite digit_spec by (apply base_le, base_base_ok). unfold is_digit, dval, digit_of. split.
  - intros H. destruct ((48 <=? c) && (c <=? 57)) eqn:E; cbn.
    + split; [done|]. destruct hex; cbn; lia.
    + cbn [orb] in H. destruct hex; [|done]. cbn [andb] in H.
      replace ((97 <=? lower c) && (lower c <=? 122)) with true by lia. cbn. split; [done|]. lia.
  - destruct ((48 <=? c) && (c <=? 57)) eqn:E; [done|]. cbn [orb].
    destruct ((97 <=? lower c) && (lower c <=? 122)) eqn:E2; cbn; intros [H1 H2]; [|done]. destruct hex; cbn in *; lia.
Qed.
Lemma digit_dval b c d : b <= 16 -> digit b c d -> dval c = d.
Proof. intros Hb H. apply digit_spec in H as [H _]; [|done]. unfold dval. by rewrite H. Qed.
Lemma digit_base hex c d : digit (base hex) c d -> is_digit hex c = true /\ d = dval c /\ c <> 95.
Proof.
  intros H. pose proof (base_le _ (base_base_ok hex)) as Hb. pose proof (digit_dval _ _ _ Hb H) as <-. split; [by apply is_digit_val|]. split; [done|].
  intros ->. by apply digit_not_under in H.
Qed.
Lemma raw_split hex s : exists u r, s = u ++ r /\ raw hex u /\ stops hex r.
Proof.
  induction s as [|c s (u & r & -> & Hu & Hr)]; [exists [], []; split; [done|]; split; [constructor|done]|].
  destruct (decide (c = 95 \/ is_digit hex c = true)) as [H|H].
  - exists (c :: u), r. split; [done|]. split; [by constructor|done].
  - exists [], (c :: u ++ r). split; [done|]. split; [constructor|]. cbn. destruct (is_digit hex c); split; tauto.
Qed.
Lemma places_cons c u : places (c :: u) = if c =? 95 then places u else places u + 1.
Proof.
  unfold places. rewrite filter_cons. destruct (N.eqb_spec c 95) as [->|H].
  - rewrite decide_False by tauto. done.
  - rewrite decide_True by done. cbn [length]. lia.
Qed.
Lemma rawval_lt hex u : raw hex u -> forall n, rawval (base hex) n u < (n + 1) * base hex ^ places u.
Proof.
  induction 1 as [|c u Hc _ IH]; intros n; cbn [rawval].
  - unfold places. cbn. lia.
  - rewrite places_cons. destruct (N.eqb_spec c 95) as [->|H]; [apply IH|].
    destruct Hc as [->|Hc]; [done|]. apply is_digit_val in Hc. apply digit_spec in Hc as [_ Hd]; [|apply base_le, base_base_ok].
    specialize (IH (n * base hex + dval c)). rewrite (N.add_1_r (places u)), N.pow_succ_r'. assert (0 < base hex ^ places u) by (apply N.neq_0_lt_0, N.pow_nonzero; by destruct hex). nia.
Qed.
(** Underscores in their places. *)
Lemma under_digit hex u r n : raw hex u -> stops hex r ->
  (under_loop hex SDigit (u ++ r) = true -> digits (base hex) n u (rawval (base hex) n u) /\ under_loop hex SDigit r = true) /\
  (under_loop hex SUnder (u ++ r) = true -> some_digits (base hex) n u (rawval (base hex) n u) /\ under_loop hex SDigit r = true).
Proof.
  intros Hu Hr. revert n. induction Hu as [|c u Hc Hu IH]; intros n; cbn [app rawval].
  - split; [intros H; split; [constructor|done]|]. destruct r as [|c r]; [done|]. destruct Hr as [H1 H2]. cbn [under_loop].
    fold (is_digit hex c). rewrite H2. apply N.eqb_neq in H1. by rewrite H1.
  - cbn [under_loop]. fold (is_digit hex c). destruct (N.eqb_spec c 95) as [->|Hn].
    + assert (is_digit hex 95 = false) as -> by (by destruct hex). split; [|done]. intros H. destruct (proj2 (IH n) H) as [(c & d & u' & -> & Hd & Hds) H']. split; [|done].
      by eapply digits_under.
    + destruct Hc as [->|Hc]; [done|]. rewrite Hc. pose proof (proj1 (is_digit_val hex c) Hc) as Hd.
      split; intros H; destruct (proj1 (IH (n * base hex + dval c)) H) as [H1 H2].
      * split; [|done]. by econstructor.
      * split; [|done]. by eexists _, _, _.
Qed.
Lemma under_begin hex w u r n : raw hex u -> stops hex r -> w = SBegin \/ w = SOther ->
  under_loop hex w (u ++ r) = true ->
  (u = [] /\ under_loop hex w r = true) \/ (some_digits (base hex) n u (rawval (base hex) n u) /\ under_loop hex SDigit r = true).
Proof.
  intros Hu Hr Hw H. destruct Hu as [|c u Hc Hu]; [by left|]. right. cbn [app under_loop rawval] in *. fold (is_digit hex c) in H.
  destruct (N.eqb_spec c 95) as [->|Hn].
  - assert (is_digit hex 95 = false) as E by (by destruct hex). rewrite E in H. by destruct Hw as [->| ->].
  - destruct Hc as [->|Hc]; [done|]. rewrite Hc in H. destruct (proj1 (under_digit hex u r (n * base hex + dval c) Hu Hr) H) as [H1 H2].
    split; [|done]. eexists _, _, _. split; [done|]. split; [by apply is_digit_val|done].
Qed.
Lemma digits_raw hex n u m : digits (base hex) n u m -> raw hex u /\ rawval (base hex) n u = m /\
  forall r, under_loop hex SDigit (u ++ r) = under_loop hex SDigit r.
Proof.
  induction 1 as [n|n c d u m Hd H (IH1 & IH2 & IH3)|n c d u m Hd H (IH1 & IH2 & IH3)].
  - split; [constructor|done].
  - apply digit_base in Hd as (H1 & -> & H2). split; [constructor; [by right|done]|]. cbn [rawval app under_loop]. apply N.eqb_neq in H2. rewrite H2.
    split; [done|]. intros r. fold (is_digit hex c). rewrite H1. apply IH3.
  - apply digit_base in Hd as (H1 & -> & H2). split; [constructor; [by left|]; constructor; [by right|done]|]. cbn [rawval app under_loop].
    rewrite (proj2 (N.eqb_neq _ _) H2). split; [done|]. intros r. fold (is_digit hex c). rewrite H1. assert (is_digit hex 95 = false) as E by (by destruct hex).
    unfold is_digit in E. rewrite E. cbn. apply IH3.
Qed.
Lemma some_digits_raw hex n u m : some_digits (base hex) n u m -> raw hex u /\ rawval (base hex) n u = m /\ places u <> 0 /\
  forall w r, under_loop hex w (u ++ r) = under_loop hex SDigit r.
Proof.
  intros (c & d & s & -> & Hd & H). apply digit_base in Hd as (H1 & -> & H2). apply digits_raw in H as (Hr & Hv & Hu).
  split; [constructor; [by right|done]|]. cbn [rawval app under_loop]. rewrite places_cons, (proj2 (N.eqb_neq _ _) H2). split; [done|]. split; [lia|].
  intros w r. fold (is_digit hex c). rewrite H1. apply Hu.
Qed.
Lemma under_none hex s w : 95 ∉ s -> w <> SUnder -> under_loop hex w s = true.
Proof.
  revert w. induction s as [|c s IH]; intros w H Hw; cbn [under_loop]; [by destruct w|]. apply not_elem_of_cons in H as [H1 H2].
  destruct (_ || _); [by apply IH|]. destruct (N.eqb_spec c 95); [congruence|]. destruct w; try done; by apply IH.
Qed.
Lemma digits_places hex n u m : digits (base hex) n u m -> u <> [] -> places u <> 0.
Proof.
  intros H Hu. inversion H as [|? c ? ? ? Hd|? c ? ? ? Hd]; subst; [done|..]; apply digit_base in Hd as (_ & _ & Hc); rewrite !places_cons, (proj2 (N.eqb_neq _ _) Hc); cbn; lia.
Qed.

(** ** The loop over the mantissa *)
Definition ok_rf (st : rf) : Prop := (rf_nd st = 0%Z -> rf_m st = 0) /\ (0 <= rf_nd st)%Z.
Lemma mant_raw hex u r : raw hex u -> forall st, ok_rf st -> exists st',
  mant_loop hex st (u ++ r) = mant_loop hex st' r /\ ok_rf st' /\
  rf_under st' = rf_under st || bool_decide (95 ∈ u) /\ rf_dot st' = rf_dot st /\
  rf_digits st' = rf_digits st || negb (places u =? 0) /\
  (rf_nd st' - rf_dp st' = rf_nd st - rf_dp st + Z.of_N (places u))%Z /\ rf_m st' = rawval (base hex) (rf_m st) u.
Proof.
  induction 1 as [|c u Hc Hu IH]; intros st Hst.
  - exists st. cbn. split; [done|]. split; [done|]. rewrite bool_decide_false by apply not_elem_of_nil. rewrite orb_false_r. change (places []) with 0. cbn. rewrite orb_false_r. repeat split; try done. lia.
  - cbn [app mant_loop rawval]. rewrite places_cons. destruct (N.eqb_spec c 95) as [->|Hn].
    + destruct (IH (mkRf true (rf_dot st) (rf_digits st) (rf_nd st) (rf_dp st) (rf_m st))) as (st' & E & H1 & H2 & H3 & H4 & H5 & H6); [done|].
      exists st'. split; [done|]. split; [done|]. cbn in *. rewrite H2, (bool_decide_true (95 ∈ 95 :: u)) by left. rewrite orb_true_r. done.
    + destruct Hc as [->|Hc]; [done|].
      assert (Eb : bool_decide (95 ∈ c :: u) = bool_decide (95 ∈ u)).
      { apply bool_decide_ext. rewrite elem_of_cons. split; [intros [?|?]; [congruence|done]|by right]. }
      assert (H46 : (c =? 46) = false).
      { apply N.eqb_neq. intros ->. by destruct hex. }
      rewrite H46, Eb. unfold is_digit in Hc. destruct ((48 <=? c) && (c <=? 57)) eqn:E1.
      * assert (Ev : dval c = c - 48) by (unfold dval, digit_of; by rewrite E1). rewrite Ev.
        destruct ((c =? 48) && (rf_nd st =? 0)%Z) eqn:E2.
        -- destruct (IH (mkRf (rf_under st) (rf_dot st) true (rf_nd st) (rf_dp st - 1) (rf_m st))) as (st' & E & H1 & H2 & H3 & H4 & H5 & H6); [done|].
           exists st'. split; [done|]. split; [done|]. cbn in H2, H3, H4, H5, H6. rewrite H2, H3, H4, H6. repeat split; try done; try lia. f_equal. destruct Hst as [Hz _]. rewrite Hz by lia. lia.
        -- destruct (IH (mkRf (rf_under st) (rf_dot st) true (rf_nd st + 1) (rf_dp st) (rf_m st * (if hex then 16 else 10) + (c - 48)))) as (st' & E & H1 & H2 & H3 & H4 & H5 & H6).
           { destruct Hst as [_ Hp]. split; cbn; lia. }
           exists st'. split; [done|]. split; [done|]. cbn in H2, H3, H4, H5, H6. rewrite H2, H3, H4, H6. repeat split; try done; lia.
      * cbn [orb] in Hc. destruct hex; [|done]. cbn [andb] in Hc |- *. rewrite Hc.
        assert (Ev : dval c = lower c - 97 + 10).
        { unfold dval, digit_of. rewrite E1. replace ((97 <=? lower c) && (lower c <=? 122)) with true by lia. done. }
        rewrite Ev.
        destruct (IH (mkRf (rf_under st) (rf_dot st) true (rf_nd st + 1) (rf_dp st) (rf_m st * 16 + (lower c - 97 + 10)))) as (st' & E & H1 & H2 & H3 & H4 & H5 & H6).
        { destruct Hst as [_ Hp]. split; cbn; lia. }
        exists st'. split; [done|]. split; [done|]. cbn in H2, H3, H4, H5, H6. rewrite H2, H3, H4, H6. repeat split; try done; lia.
Qed.
Lemma mant_stop hex st r : stops hex r -> (rf_dot st = true \/ head r <> Some 46) -> mant_loop hex st r = (st, r).
Proof.
  intros Hr Hd. destruct r as [|c r]; [done|]. destruct Hr as [H1 H2]. cbn [mant_loop]. rewrite (proj2 (N.eqb_neq _ _) H1).
  destruct (N.eqb_spec c 46) as [->|H46]; [destruct Hd as [->|]; done|]. unfold is_digit in H2.
  apply orb_false_iff in H2 as [-> H2]. by rewrite H2.
Qed.
Definition st0 : rf := mkRf false false false 0 0 0.
(** What the loop makes of digits with a point, and without. *)
Lemma mant_whole hex u r : raw hex u -> stops hex r -> head r <> Some 46 -> exists st,
  mant_loop hex st0 (u ++ r) = (st, r) /\ rf_under st = bool_decide (95 ∈ u) /\ rf_dot st = false /\
  rf_digits st = negb (places u =? 0) /\ rf_m st = rawval (base hex) 0 u.
Proof.
  intros Hu Hr H46. destruct (mant_raw hex u r Hu st0) as (st & E & H1 & H2 & H3 & H4 & H5 & H6); [by split|].
  exists st. rewrite E, mant_stop by (first [done|by right]). done.
Qed.
Lemma mant_point hex u v r : raw hex u -> raw hex v -> stops hex r -> exists st,
  mant_loop hex st0 (u ++ 46 :: v ++ r) = (st, r) /\ rf_under st = bool_decide (95 ∈ u ++ v) /\ rf_dot st = true /\
  rf_digits st = negb ((places u =? 0) && (places v =? 0)) /\ rf_m st = rawval (base hex) (rawval (base hex) 0 u) v /\
  (rf_nd st - rf_dp st = Z.of_N (places v))%Z.
Proof.
  intros Hu Hv Hr. destruct (mant_raw hex u (46 :: v ++ r) Hu st0) as (st & E & H1 & H2 & H3 & H4 & H5 & H6); [by split|].
  rewrite E. cbn [mant_loop]. change (46 =? 95) with false. change (46 =? 46) with true. cbn iota. rewrite H3. cbn [st0 rf_dot] in H3 |- *.
  destruct (mant_raw hex v r Hv (mkRf (rf_under st) true (rf_digits st) (rf_nd st) (rf_nd st) (rf_m st))) as (st' & E' & H1' & H2' & H3' & H4' & H5' & H6'); [done|].
  exists st'. rewrite E', mant_stop by (first [done|by left; rewrite H3']). split; [done|]. cbn in *. rewrite H2', H2, H4', H4, H6', H6. split.
  { rewrite <- bool_decide_or. apply bool_decide_ext. by rewrite elem_of_app. }
  split; [done|]. split; [by destruct (places u =? 0), (places v =? 0)|]. split; [done|]. lia.
Qed.

(** ** Mantissas *)
Definition whole (hex : bool) : list N -> N -> Prop := if hex then fun s m => s <> [] /\ digits 16 0 s m else some_digits 10 0.
Definition w0 (hex : bool) : saw := if hex then SDigit else SBegin.
Lemma stop_any hex w r : stops hex r -> w <> SUnder -> under_loop hex w r = under_loop hex SOther r.
Proof.
  intros Hr Hw. destruct r as [|c r]; [by destruct w|]. destruct Hr as [H1 H2]. cbn [under_loop]. fold (is_digit hex c). rewrite H2, (proj2 (N.eqb_neq _ _) H1).
  by destruct w.
Qed.
Lemma under_dot hex w s : w <> SUnder -> under_loop hex w (46 :: s) = under_loop hex SOther s.
Proof. intros Hw. cbn [under_loop]. fold (is_digit hex 46). assert (is_digit hex 46 = false) as -> by (by destruct hex). by destruct w. Qed.
Lemma whole_raw hex s m : whole hex s m -> raw hex s /\ rawval (base hex) 0 s = m /\ places s <> 0 /\
  forall r, under_loop hex (w0 hex) (s ++ r) = under_loop hex SDigit r.
Proof.
  destruct hex; cbn [whole w0].
  - intros [Hs H]. pose proof (digits_places true _ _ _ H Hs). apply (digits_raw true) in H as (H1 & H2 & H3). done.
  - intros H. apply (some_digits_raw false) in H as (H1 & H2 & H3 & H4). by repeat split.
Qed.
Lemma whole_inv hex s r : raw hex s -> stops hex r -> under_loop hex (w0 hex) (s ++ r) = true ->
  (s = [] \/ whole hex s (rawval (base hex) 0 s)) /\ under_loop hex SOther r = true.
Proof.
  intros Hs Hr H. destruct hex; cbn [whole w0] in *.
  - destruct (proj1 (under_digit true s r 0 Hs Hr) H) as [H1 H2]. rewrite <- (stop_any true SDigit) by done. split; [|done].
    destruct s; [by left|right]. split; [done|exact H1].
  - destruct (under_begin false SBegin s r 0 Hs Hr (or_introl eq_refl) H) as [[-> H1]|[H1 H2]].
    + split; [by left|]. by rewrite <- (stop_any false SBegin).
    + split; [by right|]. by rewrite <- (stop_any false SDigit).
Qed.
Lemma stops_dot hex s : stops hex (46 :: s).
Proof. split; [done|by destruct hex]. Qed.
Lemma raw_nil hex : raw hex [].
Proof. constructor. Qed.
Lemma mantissa_run hex s m k r : mantissa (base hex) (whole hex) s m k -> stops hex r -> head r <> Some 46 -> exists st,
  mant_loop hex st0 (s ++ r) = (st, r) /\ rf_under st = bool_decide (95 ∈ s) /\ rf_digits st = true /\
  ((if rf_dot st then rf_dp st else rf_nd st) - rf_nd st = - Z.of_N k)%Z /\ rf_m st = m /\
  under_loop hex (w0 hex) (s ++ r) = under_loop hex SOther r /\ k <= lenN s /\ m < base hex ^ lenN s.
Proof.
  intros H Hr H46.
  assert (Hpl : forall u, places u <= lenN u) by (intros u; unfold places, lenN; pose proof (filter_length (fun c => c <> 95) u); lia).
  assert (Hpow : forall a b, a <= b -> base hex ^ a <= base hex ^ b) by (intros a b Hab; apply N.pow_le_mono_r; [by destruct hex|done]).
  assert (Hw0 : w0 hex <> SUnder) by (by destruct hex).
  assert (Hap : forall (u : list N) c v, lenN (u ++ c :: v) = lenN u + 1 + lenN v) by (intros u c v; unfold lenN; rewrite app_length; cbn [length]; lia).
  destruct H as [s m Hs|s m Hs|s m t k Hs Ht|t k Ht].
  - apply whole_raw in Hs as (H1 & H2 & H3 & H4). destruct (mant_whole hex s r H1 Hr H46) as (st & E & E1 & E2 & E3 & E4).
    exists st. rewrite E2, E3, E4, H4, (stop_any hex SDigit) by done. split; [done|]. split; [done|]. split; [by apply negb_true_iff, N.eqb_neq|].
    split; [lia|]. split; [done|]. split; [done|]. split; [lia|]. pose proof (rawval_lt hex s H1 0). rewrite H2 in *. specialize (Hpow _ _ (Hpl s)). lia.
  - apply whole_raw in Hs as (H1 & H2 & H3 & H4). destruct (mant_point hex s [] r H1 (raw_nil _) Hr) as (st & E & E1 & E2 & E3 & E4 & E5).
    exists st. rewrite <- app_assoc. cbn [app] in *. rewrite E2, E3, E4, H4, under_dot by done. rewrite app_nil_r in E1. rewrite (proj2 (N.eqb_neq _ _) H3).
    split; [done|]. split; [rewrite E1; apply bool_decide_ext; rewrite elem_of_app, elem_of_list_singleton; split; [by left|intros [?|?]; done]|].
    split; [done|]. split; [change (places []) with 0 in E5; lia|]. split; [done|]. split; [done|]. split; [lia|]. pose proof (rawval_lt hex s H1 0).
    rewrite H2 in *. rewrite Hap. specialize (Hpow (places s) (lenN s + 1 + lenN (@nil N))). specialize (Hpl s). lia.
  - apply whole_raw in Hs as (H1 & H2 & H3 & H4). apply some_digits_raw in Ht as (H1' & H2' & H3' & H4').
    destruct (mant_point hex s t r H1 H1' Hr) as (st & E & E1 & E2 & E3 & E4 & E5).
    exists st. rewrite <- app_assoc. cbn [app]. rewrite E2, E3, E4, H4, under_dot, H4', (stop_any hex SDigit) by done. rewrite (proj2 (N.eqb_neq _ _) H3).
    split; [done|]. split; [rewrite E1; apply bool_decide_ext; rewrite !elem_of_app, elem_of_cons; split; [tauto|intros [?|[?|?]]; [tauto|done|tauto]]|].
    split; [done|]. split; [lia|]. split; [by rewrite H2|]. split; [done|]. rewrite Hap. split; [specialize (Hpl t); lia|].
    pose proof (rawval_lt hex s H1 0) as B1. pose proof (rawval_lt hex t H1' m) as B2. rewrite H2 in B1. rewrite H2' in B2.
    assert (B3 : (m + 1) * base hex ^ places t <= base hex ^ places s * base hex ^ places t) by (apply N.mul_le_mono_r; lia).
    rewrite <- N.pow_add_r in B3. pose proof (Hpl s). pose proof (Hpl t). specialize (Hpow (places s + places t) (lenN s + 1 + lenN t)). lia.
  - apply some_digits_raw in Ht as (H1' & H2' & H3' & H4').
    destruct (mant_point hex [] t r (raw_nil _) H1' Hr) as (st & E & E1 & E2 & E3 & E4 & E5).
    exists st. cbn [app rawval] in *. rewrite E2, E3, E4, under_dot, H4', (stop_any hex SDigit) by done. rewrite (proj2 (N.eqb_neq _ _) H3').
    split; [done|]. split; [rewrite E1; apply bool_decide_ext; rewrite elem_of_cons; split; [tauto|intros [?|?]; [done|tauto]]|].
    split; [by rewrite andb_false_r|]. split; [lia|]. split; [done|]. split; [done|]. pose proof (Hap [] 46 t) as Ha. cbn [app] in Ha. rewrite Ha. specialize (Hpl t). split; [lia|].
    pose proof (rawval_lt hex t H1' 0) as B. rewrite H2' in B. specialize (Hpow (places t) (lenN (@nil N) + 1 + lenN t)). lia.
Qed.
Lemma places_0 hex u : raw hex u -> places u = 0 -> Forall (fun c => c = 95) u.
Proof.
  induction 1 as [|c u Hc _ IH]; [constructor|]. rewrite places_cons. destruct (N.eqb_spec c 95); [|lia]. intros H. constructor; [done|by apply IH].
Qed.
Definition mchar (hex : bool) (c : N) : Prop := c = 46 \/ c = 95 \/ is_digit hex c = true.
Lemma raw_mchar hex u : raw hex u -> Forall (mchar hex) u.
Proof. intros H. eapply Forall_impl; [exact H|]. cbn beta. unfold mchar. tauto. Qed.
Lemma mantissa_chars hex s m k : mantissa (base hex) (whole hex) s m k -> s <> [] /\ Forall (mchar hex) s.
Proof.
  assert (H46 : mchar hex 46) by (by left).
  intros [u n H|u n H|u n v j H Hv|v j Hv]; try (apply whole_raw in H as (H1 & _ & H2 & _)); try (apply some_digits_raw in Hv as (Hv & _ & _ & _)).
  - split; [intros ->; done|by apply raw_mchar].
  - split; [by destruct u|]. apply Forall_app. split; [by apply raw_mchar|by repeat constructor].
  - split; [by destruct u|]. apply Forall_app. split; [by apply raw_mchar|]. constructor; [done|by apply raw_mchar].
  - split; [done|]. constructor; [done|by apply raw_mchar].
Qed.
Lemma mantissa_inv hex s2 st r : mant_loop hex st0 s2 = (st, r) -> rf_digits st = true -> exists s,
  s2 = s ++ r /\ stops hex r /\ rf_under st = bool_decide (95 ∈ s) /\ (s <> [] /\ Forall (mchar hex) s) /\
  (under_loop hex (w0 hex) s2 = true -> under_loop hex SOther r = true /\ exists k,
     mantissa (base hex) (whole hex) s (rf_m st) k /\
     ((if rf_dot st then rf_dp st else rf_nd st) - rf_nd st = - Z.of_N k)%Z).
Proof.
  intros H Hd. destruct (raw_split hex s2) as (u & r1 & -> & Hu & Hr1). assert (Hw0 : w0 hex <> SUnder) by (by destruct hex).
  destruct (decide (head r1 = Some 46)) as [H46|H46].
  - destruct r1 as [|c r1]; [done|]. injection H46 as ->. destruct (raw_split hex r1) as (v & r2 & -> & Hv & Hr2).
    destruct (mant_point hex u v r2 Hu Hv Hr2) as (st' & E & E1 & E2 & E3 & E4 & E5). rewrite E in H. injection H as <- <-.
    exists (u ++ 46 :: v). split; [by rewrite <- app_assoc|]. split; [done|]. split.
    { rewrite E1. apply bool_decide_ext. rewrite !elem_of_app, elem_of_cons. split; [tauto|intros [?|[?|?]]; [tauto|done|tauto]]. }
    split. { split; [by destruct u|]. apply Forall_app. split; [by apply raw_mchar|]. constructor; [by left|by apply raw_mchar]. }
    intros HU. destruct (whole_inv hex u (46 :: v ++ r2) Hu (stops_dot _ _) HU) as [Hwh Hrest]. rewrite under_dot in Hrest by done.
    rewrite E2, E4. destruct (under_begin hex SOther v r2 (rawval (base hex) 0 u) Hv Hr2 (or_intror eq_refl) Hrest) as [[-> Ht]|[Hs Ht]].
    + split; [done|]. exists 0. change (places []) with 0 in E5. split; [|lia]. cbn [rawval]. destruct Hwh as [->|Hwh].
      * exfalso. rewrite E3 in Hd. done.
      * by constructor.
    + split; [by rewrite <- (stop_any hex SDigit)|]. exists (places v). split; [|lia]. destruct Hwh as [->|Hwh]; [by constructor|by econstructor].
  - destruct (mant_whole hex u r1 Hu Hr1 H46) as (st' & E & E1 & E2 & E3 & E4). rewrite E in H. injection H as <- <-.
    exists u. split; [done|]. split; [done|]. split; [done|].
    split. { split; [intros ->; by rewrite E3 in Hd|by apply raw_mchar]. } intros HU. destruct (whole_inv hex u r1 Hu Hr1 HU) as [Hwh Hrest].
    split; [done|]. exists 0. rewrite E2, E4. split; [|lia]. destruct Hwh as [->|Hwh]; [by rewrite E3 in Hd|by constructor].
Qed.

(** ** Exponents *)
Fixpoint satval (e : N) (u : list N) : N :=
  match u with [] => e | c :: u' => if c =? 95 then satval e u' else satval (if e <? 10000 then e * 10 + dval c else e) u' end.
Lemma is_digit_dec c : is_digit false c = (48 <=? c) && (c <=? 57).
Proof. unfold is_digit. cbn. by rewrite orb_false_r. Qed.
Lemma exp_raw u r : raw false u -> stops false r -> forall under e,
  exp_loop under e (u ++ r) = (under || bool_decide (95 ∈ u), satval e u, r).
Proof.
  intros Hu Hr. induction Hu as [|c u Hc Hu IH]; intros under e; cbn [app satval].
  - rewrite bool_decide_false by apply not_elem_of_nil. rewrite orb_false_r. destruct r as [|c r]; [done|]. destruct Hr as [H1 H2]. cbn [exp_loop].
    rewrite is_digit_dec in H2. by rewrite (proj2 (N.eqb_neq _ _) H1), H2.
  - cbn [exp_loop]. destruct (N.eqb_spec c 95) as [->|Hn].
    + rewrite IH. rewrite (bool_decide_true (95 ∈ 95 :: u)) by left. by rewrite orb_true_r.
    + destruct Hc as [->|Hc]; [done|]. rewrite is_digit_dec in Hc. rewrite Hc, IH.
      assert (Eb : bool_decide (95 ∈ c :: u) = bool_decide (95 ∈ u)).
      { apply bool_decide_ext. rewrite elem_of_cons. split; [intros [?|?]; [congruence|done]|by right]. }
      rewrite Eb. unfold dval, digit_of. by rewrite Hc.
Qed.
Lemma rawval_ge b u : 1 <= b -> forall n, n <= rawval b n u.
Proof.
  intros Hb. induction u as [|c u IH]; intros n; cbn [rawval]; [lia|]. destruct (c =? 95); [apply IH|]. specialize (IH (n * b + dval c)). nia.
Qed.
Lemma satval_spec u : forall e, satval e u = rawval 10 e u \/ 10000 <= satval e u <= rawval 10 e u.
Proof.
  induction u as [|c u IH]; intros e; cbn [satval rawval]; [by left|]. destruct (c =? 95); [apply IH|].
  destruct (N.ltb_spec e 10000); [apply IH|]. right. clear IH.
  assert (G : forall u e, 10000 <= e -> satval e u = e).
  { clear. intros u. induction u as [|c u IH]; intros e He; cbn [satval]; [done|]. destruct (c =? 95); [by apply IH|].
    destruct (N.ltb_spec e 10000); [lia|]. by apply IH. }
  rewrite G by done. pose proof (rawval_ge 10 u ltac:(lia) (e * 10 + dval c)). lia.
Qed.
Definition esat (s : list N) : Z :=
  match s with
  | c :: u => if c =? 43 then Z.of_N (satval 0 u) else if c =? 45 then (- Z.of_N (satval 0 u))%Z else Z.of_N (satval 0 s)
  | [] => 0%Z
  end.
Definition near (e e' : Z) : Prop := (e' = e \/ 10000 <= e' <= e \/ e <= e' <= -10000)%Z.
Definition elet (hex : bool) : N := if hex then 112 else 101.
Lemma some_head b n u m : b <= 10 -> some_digits b n u m -> exists d u', u = (48 + d) :: u' /\ d < 10.
Proof.
  intros Hb (c & d & u' & -> & H & _). inversion H; subst; try lia. by eexists _, _.
Qed.
Lemma exponent_near s e : exponent s e -> near e (esat s).
Proof.
  intros [u m H|u m H|u m H]; pose proof H as H'; apply (some_digits_raw false) in H as (_ & Hv & _ & _); change (base false) with 10 in Hv;
    destruct (satval_spec u 0) as [E|E]; rewrite Hv in E; unfold near, esat; change (43 =? 43) with true; change (45 =? 43) with false; change (45 =? 45) with true; cbn iota.
  1,2: apply some_head in H' as (d & u' & -> & Hd); [|lia]; replace (48 + d =? 43) with false by lia; replace (48 + d =? 45) with false by lia.
  all: lia.
Qed.
Lemma under_same u : raw false u -> forall w, under_loop true w u = under_loop false w u.
Proof.
  induction 1 as [|c u Hc _ IH]; intros w; [done|]. cbn [under_loop]. destruct Hc as [->|Hc].
  - cbn. destruct w; auto.
  - rewrite is_digit_dec in Hc. rewrite Hc. cbn. apply IH.
Qed.
Lemma under_sign hex c s : c = 43 \/ c = 45 -> under_loop hex SOther (c :: s) = under_loop hex SOther s.
Proof. by intros [->| ->]; destruct hex. Qed.
Lemma exp_run hex x s e under : exponent s e -> lower x = elet hex ->
  read_exp hex under (x :: s) = Some (under || bool_decide (95 ∈ s), esat s, []) /\ under_loop hex SOther s = true.
Proof.
  intros H Hx. unfold read_exp. change (if hex then 112 else 101) with (elet hex). rewrite Hx, N.eqb_refl.
  assert (G : forall u m, some_digits 10 0 u m -> raw false u /\ under_loop hex SOther u = true).
  { intros u m Hu. apply (some_digits_raw false) in Hu as (H1 & H2 & H3 & H4). split; [done|]. specialize (H4 SOther []). rewrite app_nil_r in H4.
    destruct hex; [rewrite under_same by done|]; exact H4. }
  destruct H as [u m Hu|u m Hu|u m Hu]; destruct (G _ _ Hu) as [Hr Hl]; destruct (some_head 10 0 _ _ ltac:(lia) Hu) as (d & u' & -> & Hd).
  - replace (48 + d =? 43) with false by lia. replace (48 + d =? 45) with false by lia. replace ((48 <=? 48 + d) && (48 + d <=? 57)) with true by lia.
    pose proof (exp_raw _ [] Hr I under 0) as E. rewrite app_nil_r in E. rewrite E. split; [|done]. unfold esat. replace (48 + d =? 43) with false by lia. by replace (48 + d =? 45) with false by lia.
  - change (43 =? 43) with true. cbn iota. replace ((48 <=? 48 + d) && (48 + d <=? 57)) with true by lia.
    pose proof (exp_raw _ [] Hr I under 0) as E. rewrite app_nil_r in E. rewrite E. rewrite under_sign by (by left). split; [|done]. cbn [esat]. change (43 =? 43) with true. cbn iota.
    do 2 f_equal. f_equal. f_equal. apply bool_decide_ext. rewrite (elem_of_cons _ 95 43). split; [by right|intros [?|?]; done].
  - change (45 =? 43) with false. change (45 =? 45) with true. cbn iota. replace ((48 <=? 48 + d) && (48 + d <=? 57)) with true by lia.
    pose proof (exp_raw _ [] Hr I under 0) as E. rewrite app_nil_r in E. rewrite E. rewrite under_sign by (by right). split; [|done]. cbn [esat]. change (45 =? 43) with false. change (45 =? 45) with true. cbn iota.
    do 2 f_equal. f_equal. f_equal. apply bool_decide_ext. rewrite (elem_of_cons _ 95 45). split; [by right|intros [?|?]; done].
Qed.
Lemma exp_inv hex x s under under' e : lower x = elet hex -> read_exp hex under (x :: s) = Some (under', e, []) ->
  under' = under || bool_decide (95 ∈ s) /\ e = esat s /\ (under_loop hex SOther s = true -> exists E, exponent s E).
Proof.
  intros Hx. unfold read_exp. change (if hex then 112 else 101) with (elet hex). rewrite Hx, N.eqb_refl.
  assert (G : forall u un e r, exp_loop under 0 u = (un, e, r) -> r = [] -> (exists c u', u = c :: u' /\ (48 <=? c) && (c <=? 57) = true) ->
    un = under || bool_decide (95 ∈ u) /\ e = satval 0 u /\ (under_loop hex SOther u = true -> some_digits 10 0 u (rawval 10 0 u))).
  { intros u un e0 r Hl -> Hhd. destruct (raw_split false u) as (v & q & -> & Hv & Hq). rewrite exp_raw in Hl by done. injection Hl as <- <- ->.
    rewrite app_nil_r in *. split; [done|]. split; [done|]. intros HU. assert (HU' : under_loop false SOther v = true) by (destruct hex; [by rewrite <- under_same|done]).
    rewrite <- (app_nil_r v) in HU'. destruct (under_begin false SOther v [] 0 Hv I (or_intror eq_refl) HU') as [[-> _]|[H _]]; [|exact H].
    destruct Hhd as (? & ? & ? & _). done. }
  destruct s as [|d s]; [done|]. destruct (N.eqb_spec d 43) as [->|H43]; [|destruct (N.eqb_spec d 45) as [->|H45]].
  - destruct s as [|d s]; [done|]. destruct (_ && _) eqn:Ed; [|done]. destruct (exp_loop under 0 (d :: s)) as [[un e0] r] eqn:El. intros [= <- <- ->].
    destruct (G _ _ _ _ El eq_refl ltac:(by eexists _, _)) as (-> & -> & HU). cbn [esat]. change (43 =? 43) with true. cbn iota. split.
    { f_equal. apply bool_decide_ext. rewrite (elem_of_cons _ 95 43). split; [by right|intros [?|?]; done]. }
    split; [done|]. rewrite under_sign by (by left). intros H. eexists. by constructor; apply HU.
  - destruct s as [|d s]; [done|]. destruct (_ && _) eqn:Ed; [|done]. destruct (exp_loop under 0 (d :: s)) as [[un e0] r] eqn:El. intros [= <- <- ->].
    destruct (G _ _ _ _ El eq_refl ltac:(by eexists _, _)) as (-> & -> & HU). cbn [esat]. change (45 =? 43) with false. change (45 =? 45) with true. cbn iota. split.
    { f_equal. apply bool_decide_ext. rewrite (elem_of_cons _ 95 45). split; [by right|intros [?|?]; done]. }
    split; [done|]. rewrite under_sign by (by right). intros H. eexists. by apply exp_minus, HU.
  - destruct (_ && _) eqn:Ed; [|done]. destruct (exp_loop under 0 (d :: s)) as [[un e0] r] eqn:El. intros [= <- <- ->].
    destruct (G _ _ _ _ El eq_refl ltac:(by eexists _, _)) as (-> & -> & HU). cbn [esat]. rewrite (proj2 (N.eqb_neq _ _) H43), (proj2 (N.eqb_neq _ _) H45).
    split; [done|]. split; [done|]. intros H. eexists. by constructor; apply HU.
Qed.

(** ** The whole number *)
Inductive parts : list N -> bool -> N -> N -> Z -> Z -> Prop :=
| p_plain s m k : mantissa 10 (whole false) s m k -> parts s false m k 0 0
| p_exp s m k x t e : mantissa 10 (whole false) s m k -> lower x = 101 -> exponent t e -> parts (s ++ x :: t) false m k e (esat t)
| p_hex h s m k x t e : lower h = 120 -> mantissa 16 (whole true) s m k -> lower x = 112 -> exponent t e ->
    parts (48 :: h :: s ++ x :: t) true m k e (esat t).
Definition shift (hex : bool) (k : N) : Z := if hex then (4 * Z.of_N k)%Z else Z.of_N k.
Lemma numeral_parts t b m e : numeral t b m e <->
  exists hex k E E', parts t hex m k E E' /\ b = (if hex then 2 else 10) /\ e = (E - shift hex k)%Z.
Proof.
  split.
  - intros [s m' k H|s m' k x u e' H Hx He|h s m' k x u e' Hh H Hx He].
    + exists false, k, 0%Z, 0%Z. split; [by constructor|]. done.
    + exists false, k, e', (esat u). split; [|done]. constructor; [done| |done]. apply lower_eq; [lia|]. lia.
    + exists true, k, e', (esat u). split; [|done]. constructor; [|done| |done]; apply lower_eq; lia.
  - intros (hex & k & E & E' & H & -> & ->). destruct H as [s m k H|s m k x u e H Hx He|h s m k x u e Hh H Hx He]; cbn [shift].
    + replace (0 - Z.of_N k)%Z with (- Z.of_N k)%Z by lia. by constructor.
    + apply (num_exp s m k x u e); [done| |done]. apply lower_eq in Hx; lia.
    + apply (num_hex h s m k x u e); [|done| |done]; [apply lower_eq in Hh|apply lower_eq in Hx]; lia.
Qed.
Definition read_body (s s1 : list N) : option (bool * N * Z * list N) :=
  let '(hex, s2) := match s1 with
                    | z :: x :: d :: s' => if (z =? 48) && (lower x =? 120) then (true, d :: s') else (false, s1)
                    | _ => (false, s1)
                    end in
  let '(st, s3) := mant_loop hex st0 s2 in
  if rf_digits st then
    let dp := if rf_dot st then rf_dp st else rf_nd st in
    let '(dp, nd) := if hex then (dp * 4, rf_nd st * 4)%Z else (dp, rf_nd st) in
    match read_exp hex (rf_under st) s3 with
    | Some (under, e, rest) =>
      if under && negb (under_ok (take (length s - length rest) s)) then None
      else Some (hex, rf_m st, (dp + e - nd)%Z, rest)
    | None => None
    end
  else None.
Definition hex_part (s1 : list N) : bool * list N :=
  match s1 with
  | z :: x :: d :: s' => if (z =? 48) && (lower x =? 120) then (true, d :: s') else (false, s1)
  | _ => (false, s1)
  end.
Lemma hex_part_false t q : hex_part t = (false, q) -> t = q.
Proof. unfold hex_part. destruct t as [|z [|? [|? ?]]]; try (by intros [= <-]). destruct (_ && _); [done|]. by intros [= <-]. Qed.
Definition under_un (s : list N) : bool :=
  match s with
  | z :: c :: s' =>
    if (z =? 48) && ((lower c =? 98) || (lower c =? 111) || (lower c =? 120)) then under_loop (lower c =? 120) SDigit s'
    else under_loop false SBegin s
  | _ => under_loop false SBegin s
  end.
Lemma not_prefix s r : s <> [] -> Forall (mchar false) s -> (r = [] \/ exists c r', r = c :: r' /\ lower c = 101) ->
  hex_part (s ++ r) = (false, s ++ r) /\ under_un (s ++ r) = under_loop false SBegin (s ++ r).
Proof.
  intros Hs Hf Hr.
  assert (G : forall z c t', s ++ r = z :: c :: t' -> lower c <> 98 /\ lower c <> 111 /\ lower c <> 120).
  { intros z c t' E. destruct s as [|z' s]; [done|]. injection E as -> E. destruct s as [|c' s].
    - cbn in E. destruct Hr as [->|(c0 & r' & -> & Hc)]; [done|]. injection E as -> ->. lia.
    - injection E as -> E. inversion Hf as [|? ? _ Hf']; subst. inversion Hf' as [|? ? Hc _]; subst. destruct Hc as [->|[->|Hc]]; [done..|].
      rewrite is_digit_dec in Hc. assert (L : c < 58) by lia. pose proof (below (fun c => negb (lower c =? 98) && negb (lower c =? 111) && negb (lower c =? 120)) 58 eq_refl c L) as B. cbn beta in B. lia. }
  destruct (s ++ r) as [|z [|c t']]; [done..|]. specialize (G z c t' eq_refl). unfold hex_part, under_un.
  replace (lower c =? 98) with false by lia. replace (lower c =? 111) with false by lia. replace (lower c =? 120) with false by lia.
  rewrite !andb_false_r. split; [by destruct t'|done].
Qed.
Lemma letter_stops hex x : lower x = elet hex -> x <> 95 /\ x <> 46 /\ is_digit hex x = false.
Proof.
  intros H. apply lower_eq in H; [|by destruct hex]. destruct hex; destruct H as [->| ->]; done.
Qed.
Lemma under_letter hex x s : lower x = elet hex -> under_loop hex SOther (x :: s) = under_loop hex SOther s.
Proof.
  intros H. apply letter_stops in H as (H1 & _ & H2). cbn [under_loop]. fold (is_digit hex x). by rewrite H2, (proj2 (N.eqb_neq _ _) H1).
Qed.
Lemma body_spec s t hex m e : under_ok s = under_un t ->
  read_body s t = Some (hex, m, e, []) <-> exists k E E', parts t hex m k E E' /\ e = (E' - shift hex k)%Z.
Proof.
  intros HU. unfold read_body. change (match t with z :: x :: d :: s' => _ | _ => _ end) with (hex_part t). split.
  - destruct (hex_part t) as [hx s2] eqn:Eh. destruct (mant_loop hx st0 s2) as [st s3] eqn:Em. destruct (rf_digits st) eqn:Ed; [|done].
    destruct (mantissa_inv hx s2 st s3 Em Ed) as (p & -> & Hst & Hun & [Hp Hpc] & HM).
    assert (Ht : under_un t = under_loop hx (w0 hx) (p ++ s3) \/ (hx = false /\ t = p ++ s3)).
    { unfold hex_part in Eh. destruct t as [|z [|x [|d t']]]; try (injection Eh as <- <-; by right).
      destruct ((z =? 48) && (lower x =? 120)) eqn:Ez; [|injection Eh as <- <-; by right]. injection Eh as <- <-. left.
      apply andb_true_iff in Ez as [Ez1 Ez2]. unfold under_un. rewrite Ez1, Ez2, !orb_true_r. cbn [andb w0]. done. }
    destruct (read_exp hx (rf_under st) s3) as [[[un e'] rest]|] eqn:Ee; [|by destruct hx].
    assert (Hform : (hx = false /\ s3 = [] /\ un = rf_under st /\ e' = 0%Z /\ rest = []) \/
      (exists x s4, s3 = x :: s4 /\ lower x = elet hx) \/ (hx = false /\ rest = s3 /\ s3 <> [])).
    { destruct s3 as [|x s4]; [cbn in Ee; destruct hx; [done|]; injection Ee as <- <- <-; by left|]. right.
      destruct (N.eqb_spec (lower x) (elet hx)) as [El|El]; [left; by eexists _, _|]. right. unfold read_exp in Ee.
      change (if hx then 112 else 101) with (elet hx) in Ee. rewrite (proj2 (N.eqb_neq _ _) El) in Ee. destruct hx; [done|]. by injection Ee as <- <- <-. }
    intros H. assert (Hfin : un && negb (under_ok (take (length s - length rest) s)) = false /\ hx = hex /\ rf_m st = m /\ rest = [] /\
      (((if rf_dot st then rf_dp st else rf_nd st) - rf_nd st) * (if hx then 4 else 1) + e')%Z = e).
    { destruct hx; (destruct (un && _); [done|]); injection H as <- <- <- ->; repeat split; try done; lia. }
    clear H. destruct Hfin as (Hc & -> & <- & -> & <-). cbn [length] in Hc. rewrite Nat.sub_0_r, firstn_all in Hc.
    destruct Hform as [(-> & -> & -> & -> & _)|[(x & s4 & -> & Hx)|(_ & <- & Hne)]]; [| |done].
    + rewrite app_nil_r in *. assert (Ht2 : t = p) by (by apply hex_part_false).
      subst t. destruct (not_prefix p [] Hp Hpc (or_introl eq_refl)) as [_ Hu2]. rewrite app_nil_r in Hu2.
      assert (HUl : under_loop false SBegin p = true).
      { rewrite HU, Hu2 in Hc. rewrite Hun in Hc. case_bool_decide as H95; [by apply negb_false_iff in Hc|]. by apply under_none. }
      destruct (HM HUl) as (_ & k & Hman & Hk). exists k, 0%Z, 0%Z. split; [by constructor|]. cbn [shift]. lia.
    + destruct (exp_inv hex x s4 (rf_under st) un e' Hx Ee) as (-> & -> & HE).
      assert (HUl : under_loop hex (w0 hex) (p ++ x :: s4) = true).
      { assert (Hu2 : under_ok s = under_loop hex (w0 hex) (p ++ x :: s4)).
        { rewrite HU. destruct Ht as [Ht|[-> ->]]; [done|]. cbn [w0]. by apply not_prefix; [..|right; eexists _, _]. }
        rewrite Hu2, Hun in Hc. destruct (under_loop hex (w0 hex) (p ++ x :: s4)) eqn:EU; [done|]. rewrite andb_true_r in Hc.
        apply orb_false_iff in Hc as [Hc1 Hc2]. apply bool_decide_eq_false in Hc1. apply bool_decide_eq_false in Hc2. rewrite <- EU. apply under_none; [|by destruct hex].
        rewrite elem_of_app, elem_of_cons. apply letter_stops in Hx as (Hx & _). intros [?|[?|?]]; congruence. }
      destruct (HM HUl) as (Hrest & k & Hman & Hk). rewrite under_letter in Hrest by done. destruct (HE Hrest) as [E HE'].
      exists k, E, (esat s4). destruct hex; cbn [shift].
      * split; [|lia]. unfold hex_part in Eh. destruct t as [|z [|h [|d t']]]; try done. destruct ((z =? 48) && (lower h =? 120)) eqn:Ez; [|done].
        injection Eh as ->. apply andb_true_iff in Ez as [Ez1 Ez2]. apply N.eqb_eq in Ez1, Ez2. subst z. by constructor.
      * split; [|lia]. assert (t = p ++ x :: s4) as ->; [by apply hex_part_false|by constructor].
  - intros (k & E & E' & H & ->). destruct H as [p m k H|p m k x u e H Hx He|h p m k x u e Hh H Hx He].
    + destruct (mantissa_chars false _ _ _ H) as [Hp Hpc]. destruct (not_prefix p [] Hp Hpc (or_introl eq_refl)) as [Hh Hu2]. rewrite app_nil_r in Hh, Hu2. rewrite Hh.
      destruct (mantissa_run false p m k [] H I) as (st & E1 & E2 & E3 & E4 & E5 & E6 & _); [done|]. rewrite app_nil_r in E1, E6. rewrite E1, E3. cbn [read_exp length].
      rewrite Nat.sub_0_r, firstn_all, HU, Hu2. cbn [w0] in E6. rewrite E6. cbn [under_loop negb]. rewrite andb_false_r, E5. cbn [shift]. do 3 f_equal. lia.
    + destruct (mantissa_chars false _ _ _ H) as [Hp Hpc]. destruct (not_prefix p (x :: u) Hp Hpc ltac:(right; by eexists _, _)) as [Hh Hu2]. rewrite Hh.
      assert (Hst : stops false (x :: u)) by (by apply (letter_stops false) in Hx as (? & ? & ?)). assert (H46 : head (x :: u) <> Some 46) by (apply (letter_stops false) in Hx as (? & ? & ?); cbn; congruence).
      destruct (mantissa_run false p m k (x :: u) H Hst H46) as (st & E1 & E2 & E3 & E4 & E5 & E6 & _). rewrite E1, E3. destruct (exp_run false x u e (rf_under st) He Hx) as [Er Eu].
      rewrite Er. cbn [length]. rewrite Nat.sub_0_r, firstn_all, HU, Hu2. cbn [w0] in E6. rewrite E6, (under_letter false) by done. rewrite Eu. cbn [negb]. rewrite andb_false_r, E5. cbn [shift]. do 3 f_equal. lia.
    + assert (Hh2 : hex_part (48 :: h :: p ++ x :: u) = (true, p ++ x :: u)).
      { unfold hex_part. destruct (p ++ x :: u) eqn:Ep; [by destruct p|]. rewrite Hh. done. }
      rewrite Hh2. assert (Hu2 : under_un (48 :: h :: p ++ x :: u) = under_loop true SDigit (p ++ x :: u)).
      { unfold under_un. rewrite Hh. done. }
      assert (Hst : stops true (x :: u)) by (by apply (letter_stops true) in Hx as (? & ? & ?)). assert (H46 : head (x :: u) <> Some 46) by (apply (letter_stops true) in Hx as (? & ? & ?); cbn; congruence).
      destruct (mantissa_run true p m k (x :: u) H Hst H46) as (st & E1 & E2 & E3 & E4 & E5 & E6 & _). rewrite E1, E3. destruct (exp_run true x u e (rf_under st) He Hx) as [Er Eu].
      rewrite Er. cbn [length]. rewrite Nat.sub_0_r, firstn_all, HU, Hu2. cbn [w0] in E6. rewrite E6, (under_letter true) by done. rewrite Eu. cbn [negb]. rewrite andb_false_r, E5. cbn [shift]. do 3 f_equal. lia.
Qed.
Definition strip (s : list N) : list N := match s with c :: s' => if (c =? 43) || (c =? 45) then s' else s | [] => s end.
Lemma strip_signs s : signs s (strip s).
Proof.
  destruct s as [|c s]; [constructor|]. cbn [strip]. destruct (N.eqb_spec c 43) as [->|H1]; [apply signs_plus|].
  destruct (N.eqb_spec c 45) as [->|H2]; [apply signs_minus|constructor].
Qed.
Lemma parts_head t hex m k e e' : parts t hex m k e e' -> exists c t', t = c :: t' /\ mchar false c.
Proof.
  assert (G : forall s m k, mantissa 10 (whole false) s m k -> exists c s', s = c :: s' /\ mchar false c).
  { intros s m' k' H. destruct (mantissa_chars false _ _ _ H) as [Hs Hf]. destruct s as [|c s]; [done|]. inversion Hf as [|? ? Hc _]; subst.
    by exists c, s. }
  intros [s m' k' H|s m' k' x u e0 H _ _|h s m' k' x u e0 _ _ _ _].
  - exact (G _ _ _ H).
  - destruct (G _ _ _ H) as (c & s' & -> & Hc). by exists c, (s' ++ x :: u).
  - exists 48, (h :: s ++ x :: u). split; [done|]. by right; right.
Qed.
Lemma mchar_small c : mchar false c -> c <> 43 /\ c <> 45 /\ to_lower c <> 105 /\ to_lower c <> 110 /\ c <> 105 /\ c <> 73 /\ c <> 110 /\ c <> 78.
Proof.
  unfold to_lower. intros [->|[->|H]]; [done|done|]. rewrite is_digit_dec in H. replace ((65 <=? c) && (c <=? 90)) with false by lia. lia.
Qed.
Lemma strip_parts s t hex m k e e' : signs s t -> parts t hex m k e e' -> strip s = t.
Proof.
  intros Hs Hp. apply parts_head in Hp as (c & t' & -> & Hc). apply mchar_small in Hc as (H1 & H2 & _). inversion Hs; subst; cbn [strip]; try done.
  rewrite (proj2 (N.eqb_neq _ _) H1), (proj2 (N.eqb_neq _ _) H2). done.
Qed.
Lemma read_spec s hex m e : read_float s = Some (hex, m, e, []) <->
  exists t k E E', signs s t /\ parts t hex m k E E' /\ e = (E' - shift hex k)%Z.
Proof.
  change (read_float s) with (read_body s (strip s)).
  assert (HU : under_ok s = under_un (strip s)).
  { unfold under_ok, under_un, strip. destruct s as [|c s]; [done|]. by rewrite orb_comm. }
  rewrite (body_spec s (strip s) hex m e HU). split.
  - intros (k & E & E' & H & ->). exists (strip s), k, E, E'. split; [apply strip_signs|done].
  - intros (t & k & E & E' & Hs & H & ->). rewrite (strip_parts _ _ _ _ _ _ _ Hs H). by exists k, E, E'.
Qed.
Lemma parts_bounds t hex m k e e' : parts t hex m k e e' -> near e e' /\ k <= lenN t /\ m < base hex ^ lenN t.
Proof.
  assert (Hap : forall (u v : list N), lenN u <= lenN (u ++ v)) by (intros u v; unfold lenN; rewrite app_length; lia).
  assert (Hpow : forall hx a b, a <= b -> base hx ^ a <= base hx ^ b) by (intros hx a b Hab; apply N.pow_le_mono_r; [by destruct hx|done]).
  intros [s m' k' H|s m' k' x u e0 H Hx He|h s m' k' x u e0 Hh H Hx He].
  - destruct (mantissa_run false s m' k' [] H I) as (st & _ & _ & _ & _ & _ & _ & H1 & H2); [done|]. split; [by left|]. done.
  - assert (Hst : stops false (x :: u)) by (by apply (letter_stops false) in Hx as (? & ? & ?)). assert (H46 : head (x :: u) <> Some 46) by (apply (letter_stops false) in Hx as (? & ? & ?); cbn; congruence).
    destruct (mantissa_run false s m' k' (x :: u) H Hst H46) as (st & _ & _ & _ & _ & _ & _ & H1 & H2). split; [by apply exponent_near|].
    specialize (Hap s (x :: u)). split; [lia|]. eapply N.lt_le_trans; [exact H2|]. by apply Hpow.
  - assert (Hst : stops true (x :: u)) by (by apply (letter_stops true) in Hx as (? & ? & ?)). assert (H46 : head (x :: u) <> Some 46) by (apply (letter_stops true) in Hx as (? & ? & ?); cbn; congruence).
    destruct (mantissa_run true s m' k' (x :: u) H Hst H46) as (st & _ & _ & _ & _ & _ & _ & H1 & H2). split; [by apply exponent_near|].
    assert (Hl : lenN s <= lenN (48 :: h :: s ++ x :: u)) by (specialize (Hap s (x :: u)); unfold lenN in *; cbn [length]; lia).
    split; [lia|]. eapply N.lt_le_trans; [exact H2|]. by apply Hpow.
Qed.

(** ** The range *)
Local Notation limit := (2 ^ 128 - 2 ^ 103).
Lemma limit_eq : float32_limit = limit.
Proof. vm_compute. reflexivity. Qed.
Lemma limit_bounds : 2 ^ 127 < limit < 2 ^ 128.
Proof. vm_compute. done. Qed.
Lemma below_limit_spec b m e : below_limit b m e = true <-> value_below b m e limit.
Proof.
  unfold below_limit, value_below. rewrite limit_eq. destruct (Z.leb_spec 0 e).
  - rewrite decide_True by done. apply N.ltb_lt.
  - rewrite decide_False by lia. apply N.ltb_lt.
Qed.
Lemma vb_zero b e : 1 <= b -> value_below b 0 e limit.
Proof.
  intros Hb. unfold value_below. pose proof limit_bounds as [L _]. assert (0 < limit) by (eapply N.le_lt_trans; [|exact L]; apply N.le_0_l).
  destruct (decide _); [by rewrite N.mul_0_l|]. apply N.mul_pos_pos; [done|]. apply N.neq_0_lt_0, N.pow_nonzero. lia.
Qed.
Lemma vb_big b m j e : 2 <= b -> b ^ j <= m -> (128 <= Z.of_N j + e)%Z -> ~ value_below b m e limit.
Proof.
  intros Hb Hm Hj. pose proof limit_bounds as [_ L]. unfold value_below.
  assert (P : 2 ^ 128 <= b ^ 128) by (apply N.pow_le_mono_l; lia). set (A := limit) in *. clearbody A. set (B := 2 ^ 128) in *. clearbody B.
  destruct (decide _) as [H|H]; intros Hv.
  - assert (Q : b ^ 128 <= m * b ^ Z.to_N e); [|lia]. transitivity (b ^ j * b ^ Z.to_N e); [|by apply N.mul_le_mono_r].
    rewrite <- N.pow_add_r. apply N.pow_le_mono_r; lia.
  - assert (Q : A * b ^ Z.to_N (- e) <= m); [|lia]. transitivity (b ^ 128 * b ^ Z.to_N (- e)); [apply N.mul_le_mono_r; lia|].
    rewrite <- N.pow_add_r. transitivity (b ^ j); [apply N.pow_le_mono_r; lia|done].
Qed.
Lemma vb_small b m j e : 2 <= b -> m < b ^ j -> (Z.of_N j + e <= 0)%Z -> value_below b m e limit.
Proof.
  intros Hb Hm Hj. pose proof limit_bounds as [L _]. assert (L1 : 1 <= limit) by (etransitivity; [|apply N.lt_le_incl; exact L]; vm_compute; done).
  unfold value_below. set (A := limit) in *. clearbody A. destruct (decide _) as [H|H].
  - replace j with 0 in * by lia. replace e with 0%Z by lia. change (Z.to_N 0) with 0. rewrite N.pow_0_r in *. lia.
  - eapply N.lt_le_trans; [exact Hm|]. transitivity (1 * b ^ Z.to_N (- e)); [|by apply N.mul_le_mono_r]. rewrite N.mul_1_l. apply N.pow_le_mono_r; lia.
Qed.
Lemma vb_small2 m j e : m < 2 ^ j -> (Z.of_N j + e <= 127)%Z -> value_below 2 m e limit.
Proof.
  intros Hm Hj. pose proof limit_bounds as [L _]. unfold value_below. set (A := limit) in *. clearbody A. destruct (decide _) as [H|H].
  - eapply N.lt_trans; [|exact L]. apply N.lt_le_trans with (2 ^ j * 2 ^ Z.to_N e).
    + apply N.mul_lt_mono_pos_r; [apply N.neq_0_lt_0, N.pow_nonzero; lia|done].
    + rewrite <- N.pow_add_r. apply N.pow_le_mono_r; lia.
  - eapply N.lt_le_trans; [exact Hm|]. transitivity (2 ^ 127 * 2 ^ Z.to_N (- e)); [|by apply N.mul_le_mono_r, N.lt_le_incl].
    rewrite <- N.pow_add_r. apply N.pow_le_mono_r; lia.
Qed.
Lemma size_bounds m : m <> 0 -> 1 <= N.size m /\ 2 ^ (N.size m - 1) <= m < 2 ^ N.size m.
Proof.
  intros Hm. rewrite N.size_log2 by done. split; [lia|]. replace (N.succ (N.log2 m) - 1) with (N.log2 m) by lia.
  rewrite <- N.add_1_r. pose proof (N.log2_spec m ltac:(lia)) as [H1 H2]. rewrite <- N.add_1_r in H2. done.
Qed.
Lemma in_range_spec hex m e : in_range hex m e = true <-> value_below (if hex then 2 else 10) m e limit.
Proof.
  unfold in_range. destruct (N.eqb_spec m 0) as [->|Hm].
  { split; [intros _; apply vb_zero; by destruct hex|done]. }
  destruct (size_bounds m Hm) as (B0 & B1 & B2). set (z := N.size m) in *. clearbody z. destruct hex.
  - destruct (Z.ltb_spec 128 (Z.of_N z + e)) as [H|H].
    + split; [done|]. intros Hv. exfalso. revert Hv. apply (vb_big 2 m (z - 1)); [lia|done|lia].
    + destruct (Z.ltb_spec (Z.of_N z + e) 128) as [H'|H']; [|apply below_limit_spec].
      split; [|done]. intros _. apply (vb_small2 m z); [done|lia].
  - destruct (Z.ltb_spec 310 (e + Z.of_N z / 4)) as [H|H].
    + split; [done|]. intros Hv. exfalso. revert Hv. set (q := (z - 1) / 4). apply (vb_big 10 m q); [lia| |].
      * transitivity (16 ^ q); [apply N.pow_le_mono_l; lia|]. change 16 with (2 ^ 4). rewrite <- N.pow_mul_r. etransitivity; [|exact B1]. apply N.pow_le_mono_r; [lia|]. unfold q. lia.
      * assert (Z.of_N z / 4 <= Z.of_N q + 1)%Z; [|lia]. unfold q. lia.
    + destruct (Z.ltb_spec (e + Z.of_N z / 3 + 1) (-330)) as [H'|H']; [|apply below_limit_spec].
      split; [|done]. intros _. apply (vb_small 10 m (z / 3 + 1)); [lia| |lia].
      eapply N.lt_le_trans; [exact B2|]. transitivity (8 ^ (z / 3 + 1)); [|apply N.pow_le_mono_l; lia]. change 8 with (2 ^ 3).
      rewrite <- N.pow_mul_r. apply N.pow_le_mono_r; [lia|]. lia.
Qed.
(** A very large exponent is read as a smaller one, which makes no difference for short texts. *)
Lemma range_near t hex m k e e' : parts t hex m k e e' -> lenN t <= 2000 ->
  value_below (if hex then 2 else 10) m (e' - shift hex k) limit <-> value_below (if hex then 2 else 10) m (e - shift hex k) limit.
Proof.
  intros Hp Hl. apply parts_bounds in Hp as (Hn & Hk & Hm). destruct (decide (m = 0)) as [->|H0].
  { split; intros _; apply vb_zero; by destruct hex. }
  assert (Hm' : m < (if hex then 2 else 10) ^ 8000).
  { eapply N.lt_le_trans; [exact Hm|]. destruct hex; cbn [base].
    - change 16 with (2 ^ 4). rewrite <- N.pow_mul_r. apply N.pow_le_mono_r; lia.
    - apply N.pow_le_mono_r; lia. }
  assert (Hs : (0 <= shift hex k <= 8000)%Z) by (destruct hex; cbn [shift]; lia).
  destruct Hn as [->|[Hn|Hn]]; [done|..].
  - assert (G : forall E, (10000 <= E)%Z -> ~ value_below (if hex then 2 else 10) m (E - shift hex k) limit); [|split; intros Hv; exfalso; (eapply G; [|exact Hv]); lia].
    intros E HE. apply (vb_big _ m 0); [by destruct hex|rewrite N.pow_0_r; lia|lia].
  - assert (G : forall E, (E <= -10000)%Z -> value_below (if hex then 2 else 10) m (E - shift hex k) limit); [|split; intros _; apply G; lia].
    intros E HE. apply (vb_small _ m 8000); [by destruct hex|done|lia].
Qed.

(** ** Words *)
Definition small (p : list N) : Prop := Forall (fun d => 97 <= d <= 122) p.
Lemma same_letter_lower c d : 97 <= d <= 122 -> same_letter c d <-> to_lower c = d.
Proof.
  intros Hd. unfold same_letter, to_lower. destruct ((65 <=? c) && (c <=? 90)) eqn:E; lia.
Qed.
Lemma cp_le s p : (common_prefix s p <= length s)%nat /\ (common_prefix s p <= length p)%nat.
Proof.
  revert p. induction s as [|c s IH]; intros [|d p]; cbn; try lia. destruct (_ =? _); [|lia]. specialize (IH p). lia.
Qed.
Lemma cp_all s p : small p -> common_prefix s p = length s -> Forall2 same_letter s (take (length s) p).
Proof.
  revert p. induction s as [|c s IH]; intros [|d p] Hp; cbn; try done. destruct (N.eqb_spec (to_lower c) d) as [E|E]; [|done]. intros [= H].
  inversion Hp; subst. constructor; [by apply same_letter_lower|]. by apply IH.
Qed.
Lemma cp_of s p q : small p -> Forall2 same_letter s p -> common_prefix s (p ++ q) = length s.
Proof.
  intros Hp H. revert Hp. induction H as [|c d s p Hc H IH]; intros Hp; [done|]. inversion Hp; subst. cbn. assert (to_lower c = d) as -> by (by apply same_letter_lower).
  rewrite N.eqb_refl. by rewrite IH.
Qed.
Lemma small_inf : small w_infinity.
Proof. unfold small. repeat (constructor; [done|]). constructor. Qed.
Lemma inf_len_spec s : inf_len s = Some (length s) <-> spelled s "inf" \/ spelled s "infinity".
Proof.
  unfold inf_len. pose proof (cp_le s w_infinity) as [L1 L2]. change (length w_infinity) with 8%nat in L2. split.
  - set (n := common_prefix s w_infinity) in *. cbv zeta. destruct ((3 <? n)%nat && (n <? 8)%nat) eqn:E.
    + cbn. intros [= H]. lia.
    + destruct ((n =? 3)%nat || (n =? 8)%nat) eqn:E2; [|done]. intros [= H]. pose proof (cp_all s w_infinity small_inf H) as F.
      assert (length s = 3%nat \/ length s = 8%nat) as [H3|H8] by lia; rewrite ?H3, ?H8 in F; [by left|by right].
  - intros [H|H].
    + pose proof (Forall2_length _ _ _ H) as HL. change (length (bytes_of "inf")) with 3%nat in HL.
      assert (E : common_prefix s w_infinity = length s) by (apply (cp_of s (bytes_of "inf") (bytes_of "inity")); [repeat (constructor; [done|]); constructor|done]).
      rewrite E, HL. done.
    + pose proof (Forall2_length _ _ _ H) as HL. change (length (bytes_of "infinity")) with 8%nat in HL.
      assert (E : common_prefix s w_infinity = length s) by (rewrite <- (app_nil_r w_infinity); apply cp_of; [apply small_inf|done]).
      rewrite E, HL. done.
Qed.
Lemma spelled_head s c w : spelled s (String c w) -> 97 <= N_of_ascii c <= 122 -> exists x s', s = x :: s' /\ to_lower x = N_of_ascii c.
Proof.
  intros H Hc. unfold spelled in H. inversion H as [|x d s' p Hx]; subst. exists x, s'. split; [done|]. by apply same_letter_lower.
Qed.
Lemma lower_is_letter x l : to_lower x = l -> 97 <= l <= 122 -> x = l \/ x = l - 32.
Proof. unfold to_lower. destruct ((65 <=? x) && (x <=? 90)) eqn:E; lia. Qed.
Lemma special_spec s : special s = Some (length s) <->
  spelled s "nan" \/ exists t, signs s t /\ (spelled t "inf" \/ spelled t "infinity").
Proof.
  assert (Hnan : forall s, (common_prefix s w_nan =? 3)%nat = true /\ length s = 3%nat <-> spelled s "nan").
  { intros u. assert (Sm : small w_nan) by (repeat (constructor; [done|]); constructor). split.
    - intros [H1 H2]. apply Nat.eqb_eq in H1. unfold spelled. pose proof (cp_all u w_nan Sm ltac:(lia)) as F. by rewrite H2 in F.
    - intros H. pose proof (Forall2_length _ _ _ H) as HL. change (length (bytes_of "nan")) with 3%nat in HL. split; [|done]. apply Nat.eqb_eq.
      rewrite <- HL, <- (app_nil_r w_nan). by apply cp_of. }
  assert (Hi : forall u, spelled u "inf" \/ spelled u "infinity" -> exists x u', u = x :: u' /\ (x = 105 \/ x = 73)).
  { intros u [H|H]; apply spelled_head in H as (x & u' & -> & Hx); try done; exists x, u'; (split; [done|]); by apply lower_is_letter in Hx. }
  split.
  - destruct s as [|c s]; [done|]. unfold special. destruct ((c =? 43) || (c =? 45)) eqn:E1.
    + intros H. right. exists s. split; [assert (c = 43 \/ c = 45) as [->| ->] by lia; constructor|]. apply inf_len_spec.
      destruct (inf_len s) as [n|]; [|done]. cbn in H. injection H as ->. done.
    + destruct ((c =? 105) || (c =? 73)) eqn:E2.
      * intros H. right. exists (c :: s). split; [constructor|]. by apply inf_len_spec.
      * destruct ((c =? 110) || (c =? 78)) eqn:E3; [|done]. destruct (common_prefix (c :: s) w_nan =? 3)%nat eqn:E4; [|done].
        intros [= H]. left. apply Hnan. split; [done|]. cbn. lia.
  - intros [H|(t & Hs & H)].
    + pose proof H as H'. apply spelled_head in H' as (x & s' & -> & Hx); [|done]. apply lower_is_letter in Hx; [|done]. change (N_of_ascii _) with 110 in Hx.
      apply Hnan in H as [H1 H2]. unfold special. rewrite H1, H2. by destruct Hx as [->| ->].
    + pose proof H as H'. apply Hi in H' as (x & t' & -> & Hx). apply inf_len_spec in H. inversion Hs; subst; unfold special.
      * destruct Hx as [->| ->]; exact H.
      * change ((43 =? 43) || (43 =? 45)) with true. cbn iota. by rewrite H.
      * change ((45 =? 43) || (45 =? 45)) with true. cbn iota. by rewrite H.
Qed.
Lemma special_parts s t hex m k e e' : signs s t -> parts t hex m k e e' -> special s = None.
Proof.
  intros Hs Hp. apply parts_head in Hp as (c & t' & -> & Hc). apply mchar_small in Hc as (H1 & H2 & H3 & H4 & H5 & H6 & H7 & H8).
  assert (Hi : inf_len (c :: t') = None) by (unfold inf_len; cbn [common_prefix w_infinity bytes_of list_ascii_of_string map]; change (N_of_ascii "i") with 105; rewrite (proj2 (N.eqb_neq _ _) H3); done).
  inversion Hs; subst; unfold special.
  - rewrite (proj2 (N.eqb_neq _ _) H1), (proj2 (N.eqb_neq _ _) H2), (proj2 (N.eqb_neq _ _) H5), (proj2 (N.eqb_neq _ _) H6), (proj2 (N.eqb_neq _ _) H7), (proj2 (N.eqb_neq _ _) H8). done.
  - change ((43 =? 43) || (43 =? 45)) with true. cbn iota. by rewrite Hi.
  - change ((45 =? 43) || (45 =? 45)) with true. cbn iota. by rewrite Hi.
Qed.

(** ** The theorems *)
Lemma signs_len s t : signs s t -> lenN t <= lenN s.
Proof. intros []; unfold lenN; cbn [length]; lia. Qed.
Lemma l_C82_float : forall s, lenN s <= 2000 -> is_float go_conv s = true <-> float_text s.
Proof.
  intros s Hl. cbn [go_conv is_float]. unfold parse_float32_ok, float_text. split.
  - destruct (special s) as [n|] eqn:Es.
    + intros H. apply Nat.eqb_eq in H as ->. apply special_spec in Es as [H|(t & Ht & H)]; [by left|]. right. exists t. split; [done|]. tauto.
    + destruct (read_float s) as [[[[hex m] e] [|? ?]]|] eqn:Er; [|done..]. intros H. right. apply read_spec in Er as (t & k & E & E' & Ht & Hp & ->).
      exists t. split; [done|]. right. right. exists (if hex then 2 else 10), m, (E - shift hex k)%Z. split; [apply numeral_parts; by exists hex, k, E, E'|].
      assert (Hlt : lenN t <= 2000) by (apply signs_len in Ht; lia). apply (proj1 (range_near t hex m k E E' Hp Hlt)). by apply in_range_spec.
  - intros [H|(t & Ht & [H|[H|(b & m & e & Hn & Hv)]])].
    1-3: assert (Es : special s = Some (length s)) by (apply special_spec; first [by left|right; exists t; tauto]); rewrite Es; apply Nat.eqb_refl.
    apply numeral_parts in Hn as (hex & k & E & E' & Hp & -> & ->). rewrite (special_parts _ _ _ _ _ _ _ Ht Hp).
    rewrite (proj2 (read_spec s hex m (E' - shift hex k))) by (by exists t, k, E, E'). apply in_range_spec.
    assert (Hlt : lenN t <= 2000) by (apply signs_len in Ht; lia). by apply (proj2 (range_near t hex m k E E' Hp Hlt)).
Qed.
Lemma l_C82_int : forall s, is_int go_conv s = true <-> int_text s.
Proof.
  intros s. cbn [go_conv is_int]. unfold int_text. destruct (atoi s) as [z|] eqn:E.
  - split; [intros _; exists z; by apply atoi_spec|done].
  - split; [done|]. intros [z H]. apply atoi_spec in H. congruence.
Qed.
Lemma l_C82_dictionary : forall attrs p, Forall (fun '(_, v) => lenN v <= 2000) attrs ->
  on_start go_conv HDictionary attrs p = (p, Done) <->
  forall n v, (n, v) ∈ attrs -> (n = bytes_of "version" -> float_text v) /\ (n = bytes_of "revision" -> int_text v).
Proof.
  intros attrs p Hl. cbn [on_start]. assert (Hne : bytes_of "version" <> bytes_of "revision") by done.
  transitivity (process_elem go_conv attrs = true); [destruct (process_elem _ _); split; congruence|].
  induction Hl as [|[n v] attrs Hv Hl IH]; cbn [process_elem]; [split; [intros _ n v H; by apply elem_of_nil in H|done]|].
  split.
  - intros H n' v' Hin. apply elem_of_cons in Hin as [[= -> ->]|Hin].
    + case_bool_decide as E1; [destruct (is_float go_conv v) eqn:E; [|done]; split; [intros _; by apply l_C82_float|congruence]|]. split; [done|].
      intros E2. rewrite bool_decide_true in H by done. destruct (is_int go_conv v) eqn:E; [|done]. by apply l_C82_int.
    + apply IH; [|done]. repeat case_bool_decide; try done; [destruct (is_float _ _)|destruct (is_int _ _)]; done.
  - intros H. destruct (H n v ltac:(left)) as [H1 H2]. assert (IH' : process_elem go_conv attrs = true) by (apply IH; intros n' v' Hin; apply H; by right).
    repeat case_bool_decide; [rewrite (proj2 (l_C82_float v Hv)) by auto|rewrite (proj2 (l_C82_int v)) by auto|]; done.
Qed.
Lemma l_C82_lemma : forall attrs p, (exists p', on_start go_conv HLemma attrs p = (p', Done)) <->
  exists v w, attr "id" attrs = Some v /\ int_text v /\ attr "rev" attrs = Some w /\ int_text w.
Proof.
  intros attrs p. cbn [on_start]. assert (G : forall n, get_attr (bytes_of n) attrs = attr n attrs).
  { intros n. induction attrs as [|[m v] attrs IH]; cbn; [done|]. case_bool_decide; [by rewrite decide_True|by rewrite decide_False]. }
  assert (I : forall n, get_int_attr go_conv (bytes_of n) attrs = true <-> exists v, attr n attrs = Some v /\ int_text v).
  { intros n. unfold get_int_attr. rewrite G. destruct (attr n attrs) as [v|]; [|split; [done|by intros (? & ? & _)]]. rewrite l_C82_int.
    split; [by exists v|]. by intros (? & [= ->] & ?). }
  split.
  - intros [p' H]. destruct (get_int_attr _ (bytes_of "id") _) eqn:E1; [|done]. destruct (get_int_attr _ (bytes_of "rev") _) eqn:E2; [|done].
    apply I in E1 as (v & ? & ?). apply I in E2 as (w & ? & ?). by exists v, w.
  - intros (v & w & H1 & H2 & H3 & H4). rewrite (proj2 (I "id"%string)) by (by exists v). rewrite (proj2 (I "rev"%string)) by (by exists w). by eexists.
Qed.
