(** Proofs about the report of the parsing speed: C77. *)
From Coq Require Import ZifyBool ZifyNat ZifyN.
From Verif Require Import Base Index DocSpec Parser Report.
From stdpp Require Import list.
Open Scope Z_scope.

Section clock.
  Context (clock : nat -> Z) (secs : Z -> Z) (c : conv) (Hm : monotone clock) (Hs : whole_seconds secs).
  (** The time the next report waits for: ten seconds after [prev]. *)
  Definition last_done (start : Z) (rs : list report) : Z := match last rs with Some r => r_done r | None => start end.
  Record inv (t : timed) : Prop := {
    i_start : t_started t = clock 0;
    i_after : t_after t = last_done (clock 1) (t_reports t) + each;
    i_last : last_done (clock 1) (t_reports t) <= clock (t_k t);
    i_first : clock 0 <= last_done (clock 1) (t_reports t);
    i_paced : paced secs (clock 0) (clock 1) (t_reports t) }.
  Lemma paced_snoc start prev rs r : paced secs start prev rs ->
    last_done prev rs + 10 * 10 ^ 9 < r_check r -> r_check r <= r_since r -> r_since r <= r_done r ->
    r_avg r = Z.of_N (r_lemmas r) / secs (r_since r - start) -> 10 <= secs (r_since r - start) -> paced secs start prev (rs ++ [r]).
  Proof.
    induction 1 as [prev|prev r0 rs H1 H2 H3 H4 H5 H6 IH]; intros A1 A2 A3 A4 A5.
    - constructor; try done. constructor.
    - cbn [app]. constructor; try done. apply IH; try done. unfold last_done in *. rewrite last_cons in A1. by destruct (last rs).
  Qed.
  Lemma inv_new ix max : inv (timed_new clock ix max).
  Proof using Hm. split; cbn; try done; [apply Hm; lia..|constructor]. Qed.
  Lemma inv_report n t : inv t -> exists t', report_speed clock secs n t = Some t' /\ inv t' /\ t_p t' = t_p t.
  Proof using Hm Hs.
    intros [I1 I2 I3 I4 I5]. unfold report_speed. destruct (Z.ltb_spec (t_after t) (clock (t_k t))) as [Hl|Hl].
    2: { eexists. split; [done|]. split; [|done]. split; cbn; try done. etransitivity; [exact I3|]. apply Hm. lia. }
    assert (Hk1 : clock (t_k t) <= clock (t_k t + 1)%nat) by (apply Hm; lia).
    assert (Hk2 : clock (t_k t + 1)%nat <= clock (t_k t + 2)%nat) by (apply Hm; lia).
    assert (H10 : 10 <= secs (clock (t_k t + 1)%nat - t_started t)).
    { unfold each in *. pose proof (Hs (clock (t_k t + 1)%nat - t_started t) ltac:(lia)) as Hse.
      assert (10 <= (clock (t_k t + 1)%nat - t_started t) / 10 ^ 9); [|lia]. apply Z.div_le_lower_bound; lia. }
    destruct (Z.eqb_spec (secs (clock (t_k t + 1)%nat - t_started t)) 0); [lia|].
    eexists. split; [done|]. split; [|done]. split; cbn [t_started t_after t_reports t_k].
    - done.
    - unfold last_done. by rewrite last_snoc.
    - unfold last_done. rewrite last_snoc. cbn. apply Hm. lia.
    - unfold last_done. rewrite last_snoc. cbn. apply Hm. lia.
    - rewrite <- I1 in *. apply paced_snoc; cbn [r_check r_since r_done r_avg r_lemmas]; [done|unfold each in *; lia|lia|lia| |lia].
      apply Z.quot_div_nonneg; lia.
  Qed.
  Lemma inv_parse es : forall t, inv t -> exists t', timed_parse clock secs c t es = Some (t', (parse c (t_p t) es).2) /\
    inv t' /\ t_p t' = (parse c (t_p t) es).1.
  Proof using Hm Hs.
    induction es as [|e es IH]; intros t Ht; cbn [timed_parse parse]; [by exists t|]. unfold timed_process.
    assert (exists t1, match ends_lemma (t_p t) e with Some n => report_speed clock secs n t | None => Some t end = Some t1 /\ inv t1) as (t1 & E1 & I1).
    { destruct (ends_lemma (t_p t) e); [|by exists t]. destruct (inv_report n t Ht) as (t1 & ? & ? & _). by exists t1. }
    rewrite E1. cbn [mbind option_bind]. destruct (process c (t_p t) e) as [p o].
    assert (I2 : inv (set_p t1 p)) by (destruct I1; by split).
    destruct o; try (eexists; split; [done|]; done). destruct (IH _ I2) as (t' & A & B & C). exists t'. cbn [mbind option_bind]. by rewrite A.
  Qed.
End clock.
Lemma l_C77_never_stops : forall clock secs c ix max es, monotone clock -> whole_seconds secs ->
  exists t, timed_parse clock secs c (timed_new clock ix max) es = Some (t, (parse c (parser_new ix max) es).2) /\
    t_p t = (parse c (parser_new ix max) es).1.
Proof.
  intros clock secs c ix max es Hm Hs. destruct (inv_parse clock secs c Hm Hs es _ (inv_new clock secs Hm ix max)) as (t & A & _ & C).
  exists t. done.
Qed.
Lemma l_C77_reports : forall clock secs c ix max es t o, monotone clock -> whole_seconds secs ->
  timed_parse clock secs c (timed_new clock ix max) es = Some (t, o) -> paced secs (clock 0%nat) (clock 1%nat) (t_reports t).
Proof.
  intros clock secs c ix max es t o Hm Hs E. destruct (inv_parse clock secs c Hm Hs es _ (inv_new clock secs Hm ix max)) as (t' & A & B & _).
  rewrite A in E. injection E as <- _. apply B.
Qed.
(** ** How many *)
Lemma paced_count secs start prev rs : paced secs start prev rs ->
  forall x, last rs = Some x -> prev + Z.of_nat (length rs) * (10 * 10 ^ 9) < r_done x.
Proof.
  induction 1 as [prev|prev r rs H1 H2 H3 H4 H5 H6 IH]; intros x Hx; [done|]. rewrite last_cons in Hx. destruct (last rs) as [y|] eqn:E.
  - injection Hx as <-. specialize (IH y eq_refl). cbn [length]. lia.
  - injection Hx as <-. destruct rs; [|by rewrite last_cons in E; destruct (last rs)]. cbn [length]. lia.
Qed.
Lemma l_C77_how_many : forall clock secs c ix max es t o x, monotone clock -> whole_seconds secs ->
  timed_parse clock secs c (timed_new clock ix max) es = Some (t, o) -> last (t_reports t) = Some x ->
  Z.of_nat (length (t_reports t)) * (10 * 10 ^ 9) < r_done x - clock 1%nat.
Proof.
  intros clock secs c ix max es t o x Hm Hs E Hx. pose proof (paced_count _ _ _ _ (l_C77_reports _ _ _ _ _ _ _ _ Hm Hs E) _ Hx). lia.
Qed.

(** ** Which lemmas *)
Lemma process_count c p e p' : process c p e = (p', Done) ->
  match ends_lemma p e with Some n => n = (p_count p + 1)%N /\ p_count p' = n | None => p_count p' = p_count p end.
Proof.
  destruct e as [n a|n|s|]; cbn [process ends_lemma].
  - unfold process_start. destruct (handler_at _) as [h|]; [|done]. destruct h; cbn [on_start];
      repeat (match goal with |- context [match ?x with _ => _ end] => destruct x end); intros [=]; by subst.
  - unfold process_end. destruct (handler_at _) as [h|]; [|done].
    assert (Hc : h <> HLemma -> forall p1 o, on_end h p = (p1, o) -> p_count p1 = p_count p).
    { intros Hh p1 o. destruct h; cbn [on_end]; try destruct (p_gram p); try (destruct (p_lemma p)); try done; intros [=]; by subst. }
    destruct (on_end h p) as [p1 o] eqn:E. match goal with |- context [if ?b then _ else _] => destruct b end; [done|].
    destruct h; intros [=]; subst; try (by apply (Hc ltac:(done) _ _ eq_refl)). rewrite E. clear Hc. revert E. cbn [on_end].
    destruct (p_lemma p) as [l|]; [|done]. destruct (lemma_loop _ _ _) as [ix o]. destruct o; try done.
    destruct (_ && _); intros [=]; by subst.
  - unfold process_chars. destruct (handler_at _) as [h|]; [|done]. destruct h; cbn [on_chars]; try (intros [=]; by subst).
    destruct (p_gram p); intros [=]; by subst.
  - intros [=]. by subst.
Qed.
Record inv2 (clock : nat -> Z) (t : timed) : Prop := {
  j_k : t_k t = reading (p_count (t_p t) + 1) (length (t_reports t));
  j_after : t_after t = last_done (clock 1%nat) (t_reports t) + each;
  j_at : forall i r, t_reports t !! i = Some r -> (1 <= r_lemmas r <= p_count (t_p t))%N /\
    length (before (r_lemmas r) (t_reports t)) = i /\
    r_check r = clock (reading (r_lemmas r) i) /\ r_since r = clock (reading (r_lemmas r) i + 1)%nat /\ r_done r = clock (reading (r_lemmas r) i + 2)%nat;
  j_silent : forall m, (1 <= m <= p_count (t_p t))%N -> (exists r, r ∈ t_reports t /\ r_lemmas r = m) \/ silent clock (t_reports t) m }.
Lemma before_all n rs : Forall (fun r => (r_lemmas r < n)%N) rs -> before n rs = rs.
Proof. induction 1 as [|r rs H Hs IH]; [done|]. unfold before in *. rewrite filter_cons_True by done. by rewrite IH. Qed.
Lemma before_snoc m rs r : (m <= r_lemmas r)%N -> before m (rs ++ [r]) = before m rs.
Proof. intros H. unfold before. rewrite filter_app, filter_cons_False by lia. by rewrite filter_nil, app_nil_r. Qed.
Lemma inv2_report clock secs t t' p' : inv2 clock t -> p_count p' = (p_count (t_p t) + 1)%N ->
  report_speed clock secs (p_count (t_p t) + 1) t = Some t' -> inv2 clock (set_p t' p').
Proof.
  intros [J1 J2 J3 J4] Hp. unfold report_speed.
  assert (Hall : Forall (fun r => (r_lemmas r < p_count (t_p t) + 1)%N) (t_reports t)).
  { apply Forall_lookup. intros i r Hi. destruct (J3 i r Hi) as [? _]. lia. }
  destruct (Z.ltb_spec (t_after t) (clock (t_k t))) as [Hl|Hl].
  - destruct (_ =? 0); [done|]. intros [= <-]. unfold set_p. split; cbn [t_k t_p t_after t_reports t_started].
    + rewrite Hp, J1, app_length. unfold reading. cbn [length]. lia.
    + unfold last_done. by rewrite last_snoc.
    + intros i r. rewrite lookup_app_Some. intros [Hi | [Hi Hr]].
      * destruct (J3 i r Hi) as (A & B & C). rewrite Hp. split; [lia|]. split; [|done]. rewrite before_snoc; [done|]. cbn. lia.
      * apply list_lookup_singleton_Some in Hr as [Hz <-]. cbn [r_lemmas r_check r_since r_done]. rewrite Hp. split; [lia|].
        rewrite before_snoc by (cbn; lia). rewrite before_all by done. assert (i = length (t_reports t)) as -> by lia.
        rewrite J1. done.
    + intros m Hm. destruct (decide (m = p_count (t_p t) + 1)%N) as [->|Hne].
      * left. eexists. split; [apply elem_of_app; right; apply elem_of_list_singleton; done|done].
      * destruct (J4 m ltac:(lia)) as [(r & Hr & Hrm) | Hs].
        -- left. exists r. split; [apply elem_of_app; by left|done].
        -- right. unfold silent in *. by rewrite before_snoc by (cbn; lia).
  - intros [= <-]. unfold set_p. split; cbn [t_k t_p t_after t_reports t_started].
    + rewrite Hp, J1. unfold reading. lia.
    + done.
    + intros i r Hi. destruct (J3 i r Hi) as (A & B). rewrite Hp. split; [lia|done].
    + intros m Hm. destruct (decide (m = p_count (t_p t) + 1)%N) as [->|Hne]; [|apply J4; lia].
      right. unfold silent. rewrite before_all by done. rewrite <- J1. unfold last_done, each in J2. lia.
Qed.
Lemma inv2_parse clock secs c es : forall t t', inv2 clock t -> timed_parse clock secs c t es = Some (t', Done) -> inv2 clock t'.
Proof.
  induction es as [|e es IH]; intros t t' Ht; cbn [timed_parse]; [by intros [= <-]|]. unfold timed_process.
  destruct (process c (t_p t) e) as [p o] eqn:E.
  destruct (match ends_lemma (t_p t) e with Some n => report_speed clock secs n t | None => Some t end) as [t1|] eqn:E1; [|done].
  cbn [mbind option_bind]. destruct o; try done. apply IH. apply process_count in E. destruct (ends_lemma (t_p t) e) as [n|].
  - destruct E as [-> E]. by eapply inv2_report.
  - injection E1 as <-. destruct Ht as [J1 J2 J3 J4]. unfold set_p. split; cbn [t_k t_p t_after t_reports t_started]; rewrite ?E; done.
Qed.
Lemma inv2_new clock ix max : inv2 clock (timed_new clock ix max).
Proof. split; cbn; try done; intros; lia. Qed.
Lemma l_C77_which : forall clock secs c ix max es t i r,
  timed_parse clock secs c (timed_new clock ix max) es = Some (t, Done) -> t_reports t !! i = Some r ->
  (1 <= r_lemmas r <= p_count (t_p t))%N /\ length (before (r_lemmas r) (t_reports t)) = i /\
  r_check r = clock (reading (r_lemmas r) i) /\ r_since r = clock (reading (r_lemmas r) i + 1)%nat /\ r_done r = clock (reading (r_lemmas r) i + 2)%nat.
Proof. intros clock secs c ix max es t i r E Hi. exact (j_at _ _ (inv2_parse clock secs c es _ _ (inv2_new clock ix max) E) i r Hi). Qed.
Lemma l_C77_silent : forall clock secs c ix max es t m,
  timed_parse clock secs c (timed_new clock ix max) es = Some (t, Done) -> (1 <= m <= p_count (t_p t))%N ->
  (exists r, r ∈ t_reports t /\ r_lemmas r = m) \/ silent clock (t_reports t) m.
Proof. intros clock secs c ix max es t m E Hi. exact (j_silent _ _ (inv2_parse clock secs c es _ _ (inv2_new clock ix max) E) m Hi). Qed.
