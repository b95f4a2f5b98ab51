(** Proofs of property C09. *)
From Coq Require Import ZifyBool ZifyNat ZifyN.
From Verif Require Import Base Utf8 Spec Utf8Facts.
From stdpp Require Import list.
Open Scope Z_scope.

Lemma l_C09_runes_round_trip : forall rs, Forall scalar rs ->
  wf_utf8 (string_of_runes rs) /\ runes_of_string (string_of_runes rs) = rs.
Proof. intros rs H. split; [apply wf_string_of_runes|by apply decode_encode_all]. Qed.
Lemma l_C09_string_round_trip : forall s, string_of_runes (runes_of_string s) = s <-> wf_utf8 s.
Proof. exact round_iff. Qed.
Lemma l_C09_distinct : forall s t, wf_utf8 s -> wf_utf8 t -> runes_of_string s = runes_of_string t -> s = t.
Proof.
  intros s t Hs Ht E. rewrite <- (proj2 (round_iff s) Hs), <- (proj2 (round_iff t) Ht). by rewrite E.
Qed.
Lemma l_C09_ill_formed : forall s, ~ wf_utf8 s -> 0xFFFD%Z ∈ runes_of_string s.
Proof.
  enough (H : forall n s, (length s <= n)%nat -> rune_error ∈ runes_of_string s \/ wf_utf8 s).
  { intros s Hs. by destruct (H _ s (le_n _)). }
  induction n as [|n IH]; intros s Hn.
  { destruct s; [right; constructor|cbn in Hn; lia]. }
  destruct s as [|a s]; [right; constructor|]. cbn [length] in Hn. cbn [runes_of_string].
  assert (Hstep : forall r s' (P : Prop), (wf_utf8 s' -> P) -> (length s' <= n)%nat ->
    rune_error ∈ r :: runes_of_string s' \/ P).
  { intros r s' P HP Hl. destruct (IH s' Hl) as [H|H]; [left; by right|right; by apply HP]. }
  assert (Hrest : forall P : Prop, rune_error ∈ rune_error :: runes_of_string s \/ P) by (intros P; left; left).
  destruct (a <? 128)%N eqn:E1; [apply Hstep; [|lia]; intros H; constructor; [lia|done]|].
  destruct (in_range 194 223 a) eqn:E2.
  { destruct s as [|b s]; [apply Hrest|]. destruct (is_cont b) eqn:Eb; [|apply Hrest].
    cbn [length] in Hn. apply Hstep; [|lia]. intros H. unfold in_range, is_cont in *. apply wf_2; [lia..|done]. }
  destruct (in_range 224 239 a) eqn:E3.
  { destruct s as [|b [|c s]]; [apply Hrest..|].
    destruct (in_range (second_lo a) (second_hi a) b && is_cont c) eqn:Eb; [|apply Hrest].
    cbn [length] in Hn. apply Hstep; [|lia]. intros H.
    apply andb_true_iff in Eb as [Eb Ec]. unfold in_range, is_cont, second_lo, second_hi in *.
    destruct (N.eqb_spec a 224), (N.eqb_spec a 240), (N.eqb_spec a 237), (N.eqb_spec a 244);
      try lia; (apply wf_3; [lia|lia|done]). }
  destruct (in_range 240 244 a) eqn:E4; [|apply Hrest].
  destruct s as [|b [|c [|e s]]]; [apply Hrest..|].
  destruct (in_range (second_lo a) (second_hi a) b && is_cont c && is_cont e) eqn:Eb; [|apply Hrest].
  cbn [length] in Hn. apply Hstep; [|lia]. intros H.
  apply andb_true_iff in Eb as [Eb Ee]. apply andb_true_iff in Eb as [Eb Ec].
  unfold in_range, is_cont, second_lo, second_hi in *.
  destruct (N.eqb_spec a 224), (N.eqb_spec a 240), (N.eqb_spec a 237), (N.eqb_spec a 244);
      try lia; (apply wf_4; [lia|lia|lia|done]).
Qed.
