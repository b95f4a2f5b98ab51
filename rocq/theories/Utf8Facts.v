(** The UTF-8 encoder and decoder. *)
From Coq Require Import ZifyBool ZifyNat ZifyN.
From Verif Require Import Base Utf8 Spec.
From stdpp Require Import list.
Open Scope Z_scope.
Ltac Zify.zify_post_hook ::= Z.div_mod_to_equations.

Lemma valid_rune_scalar r : valid_rune r = true <-> scalar r.
Proof. unfold valid_rune, scalar. lia. Qed.

Ltac b2p := repeat match goal with
  | H : (_ <? _) = true |- _ => apply Z.ltb_lt in H
  | H : (_ <? _) = false |- _ => apply Z.ltb_ge in H end.
Ltac dec_if b := replace b with true by (unfold in_range, is_cont, second_lo, second_hi; lia).
Ltac dec_no b := replace b with false by (unfold in_range, is_cont, second_lo, second_hi; lia).

Lemma decode_encode r s : scalar r ->
  runes_of_string (encode_scalar r ++ s) = r :: runes_of_string s.
Proof.
  intros Hr. unfold scalar in Hr. unfold encode_scalar.
  destruct (r <? 128) eqn:E1; b2p.
  { cbn [map app runes_of_string]. dec_if (Z.to_N r <? 128)%N. f_equal. lia. }
  destruct (r <? 2048) eqn:E2; b2p.
  { cbn [map app runes_of_string].
    dec_no (Z.to_N (192 + r / 64) <? 128)%N. dec_if (in_range 194 223 (Z.to_N (192 + r / 64))).
    dec_if (is_cont (Z.to_N (128 + r mod 64))). f_equal. lia. }
  destruct (r <? 65536) eqn:E3; b2p.
  { cbn [map app runes_of_string]. set (b0 := Z.to_N (224 + r / 4096)).
    assert (H0 : Z.of_N b0 = 224 + r / 4096) by lia.
    dec_no (b0 <? 128)%N. dec_no (in_range 194 223 b0). dec_if (in_range 224 239 b0).
    set (b1 := Z.to_N (128 + r / 64 mod 64)). assert (H1 : Z.of_N b1 = 128 + r / 64 mod 64) by lia.
    set (b2 := Z.to_N (128 + r mod 64)). assert (H2 : Z.of_N b2 = 128 + r mod 64) by lia.
    assert (Hr3 : r = r / 4096 * 4096 + (r / 64 mod 64) * 64 + r mod 64) by lia.
    dec_if (is_cont b2).
    assert (Hin : in_range (second_lo b0) (second_hi b0) b1 = true).
    { unfold in_range, second_lo, second_hi.
      destruct (N.eqb_spec b0 224), (N.eqb_spec b0 240), (N.eqb_spec b0 237), (N.eqb_spec b0 244); lia. }
    rewrite Hin. cbn [andb]. f_equal. lia. }
  cbn [map app runes_of_string]. set (b0 := Z.to_N (240 + r / 262144)).
  assert (H0 : Z.of_N b0 = 240 + r / 262144) by lia.
  dec_no (b0 <? 128)%N. dec_no (in_range 194 223 b0). dec_no (in_range 224 239 b0).
  dec_if (in_range 240 244 b0).
  set (b1 := Z.to_N (128 + r / 4096 mod 64)). assert (H1 : Z.of_N b1 = 128 + r / 4096 mod 64) by lia.
  set (b2 := Z.to_N (128 + r / 64 mod 64)). assert (H2 : Z.of_N b2 = 128 + r / 64 mod 64) by lia.
  set (b3 := Z.to_N (128 + r mod 64)). assert (H3 : Z.of_N b3 = 128 + r mod 64) by lia.
  assert (Hr4 : r = r / 262144 * 262144 + (r / 4096 mod 64) * 4096 + (r / 64 mod 64) * 64 + r mod 64) by lia.
  dec_if (is_cont b2). dec_if (is_cont b3).
  assert (Hin : in_range (second_lo b0) (second_hi b0) b1 = true).
  { unfold in_range, second_lo, second_hi.
    destruct (N.eqb_spec b0 224), (N.eqb_spec b0 240), (N.eqb_spec b0 237), (N.eqb_spec b0 244); lia. }
  rewrite Hin. cbn [andb]. f_equal. lia.
Qed.

Lemma decode_encode_all rs : Forall scalar rs -> runes_of_string (string_of_runes rs) = rs.
Proof.
  unfold string_of_runes. induction 1 as [|r rs Hr _ IH]; [done|]. cbn [map concat].
  unfold string_of_rune at 1. rewrite (proj2 (valid_rune_scalar r) Hr), decode_encode by done.
  by rewrite IH.
Qed.

(** one well-formed sequence at the front *)
Ltac enc r := unfold string_of_rune; 
  replace (valid_rune r) with true by (unfold valid_rune; lia).

Lemma encode_decode s : wf_utf8 s -> string_of_runes (runes_of_string s) = s /\ Forall scalar (runes_of_string s).
Proof.
  assert (step : forall r bs s, encode_scalar r = bs -> scalar r ->
    string_of_runes (runes_of_string s) = s /\ Forall scalar (runes_of_string s) ->
    string_of_runes (r :: runes_of_string s) = bs ++ s /\ Forall scalar (r :: runes_of_string s)).
  { intros r bs s' Hb Hr [E F]. split; [|by constructor]. unfold string_of_runes in *. cbn [map concat].
    rewrite E. unfold string_of_rune. by rewrite (proj2 (valid_rune_scalar r) Hr), Hb. }
  induction 1 as [|a s Ha _ IH|a b s Ha Hb _ IH|a b c s Hab Hc _ IH|a b c e s Hab Hc He _ IH].
  - by split; [|constructor].
  - cbn [runes_of_string]. dec_if (a <? 128)%N. apply (step _ [a]); [|unfold scalar; lia|done].
    unfold encode_scalar. dec_if (Z.of_N a <? 128). cbn. f_equal. lia.
  - cbn [runes_of_string]. dec_no (a <? 128)%N. dec_if (in_range 194 223 a). dec_if (is_cont b).
    apply (step _ [a; b]); [|unfold scalar; lia|done]. set (r := _ * 64 + _).
    assert (Hr : r = (Z.of_N a - 192) * 64 + (Z.of_N b - 128)) by done. clearbody r.
    unfold encode_scalar. dec_no (r <? 128). dec_if (r <? 2048). cbn [map]. f_equal; [lia|]. f_equal. lia.
  - cbn [runes_of_string]. dec_no (a <? 128)%N. dec_no (in_range 194 223 a). dec_if (in_range 224 239 a).
    dec_if (is_cont c).
    assert (Hin : in_range (second_lo a) (second_hi a) b = true).
    { unfold in_range, second_lo, second_hi.
      destruct (N.eqb_spec a 224), (N.eqb_spec a 240), (N.eqb_spec a 237), (N.eqb_spec a 244); lia. }
    rewrite Hin. cbn [andb]. set (r := _ * 4096 + _ + _).
    assert (Hr : r = (Z.of_N a - 224) * 4096 + (Z.of_N b - 128) * 64 + (Z.of_N c - 128)) by done. clearbody r.
    apply (step _ [a; b; c]); [|unfold scalar; lia|done].
    unfold encode_scalar. dec_no (r <? 128). dec_no (r <? 2048). dec_if (r <? 65536). cbn [map].
    assert (H1 : r / 4096 = Z.of_N a - 224) by lia. assert (H2 : r / 64 mod 64 = Z.of_N b - 128) by lia.
    assert (H3 : r mod 64 = Z.of_N c - 128) by lia. rewrite H1, H2, H3. repeat f_equal; lia.
  - cbn [runes_of_string]. dec_no (a <? 128)%N. dec_no (in_range 194 223 a). dec_no (in_range 224 239 a).
    dec_if (in_range 240 244 a). dec_if (is_cont c). dec_if (is_cont e).
    assert (Hin : in_range (second_lo a) (second_hi a) b = true).
    { unfold in_range, second_lo, second_hi.
      destruct (N.eqb_spec a 224), (N.eqb_spec a 240), (N.eqb_spec a 237), (N.eqb_spec a 244); lia. }
    rewrite Hin. cbn [andb]. set (r := _ * 262144 + _ + _ + _).
    assert (Hr : r = (Z.of_N a - 240) * 262144 + (Z.of_N b - 128) * 4096 + (Z.of_N c - 128) * 64 + (Z.of_N e - 128)) by done.
    clearbody r.
    apply (step _ [a; b; c; e]); [|unfold scalar; lia|done].
    unfold encode_scalar. dec_no (r <? 128). dec_no (r <? 2048). dec_no (r <? 65536). cbn [map].
    assert (H1 : r / 262144 = Z.of_N a - 240) by lia.
    assert (H2 : r / 4096 mod 64 = Z.of_N b - 128) by lia.
    assert (H3 : r / 64 mod 64 = Z.of_N c - 128) by lia.
    assert (H4 : r mod 64 = Z.of_N e - 128) by lia. rewrite H1, H2, H3, H4. repeat f_equal; lia.
Qed.

Lemma wf_encode r s : wf_utf8 s -> wf_utf8 (string_of_rune r ++ s).
Proof.
  intros Hs. unfold string_of_rune.
  assert (Hr : scalar (if valid_rune r then r else rune_error)).
  { destruct (valid_rune r) eqn:E; [by apply valid_rune_scalar|]. unfold scalar, rune_error. lia. }
  revert Hr. generalize (if valid_rune r then r else rune_error) as q. clear r. intros r Hr.
  unfold scalar in Hr. unfold encode_scalar.
  destruct (r <? 128) eqn:E1; b2p; [cbn [map app]; constructor; [lia|done]|].
  destruct (r <? 2048) eqn:E2; b2p; [cbn [map app]; constructor; [lia|lia|done]|].
  destruct (r <? 65536) eqn:E3; b2p.
  - cbn [map app].
    assert (Hr3 : r = r / 4096 * 4096 + (r / 64 mod 64) * 64 + r mod 64) by lia.
    constructor; [|lia|done].
    assert (0 <= r / 64 mod 64 < 64) by lia. assert (0 <= r mod 64 < 64) by lia.
    assert (0 <= r / 4096 < 16) by lia.
    generalize dependent (r / 4096). generalize dependent (r / 64 mod 64). generalize dependent (r mod 64).
    intros. lia.
  - cbn [map app].
    assert (Hr4 : r = r / 262144 * 262144 + (r / 4096 mod 64) * 4096 + (r / 64 mod 64) * 64 + r mod 64) by lia.
    assert (0 <= r / 4096 mod 64 < 64) by lia.
    assert (0 <= r / 64 mod 64 < 64) by lia. assert (0 <= r mod 64 < 64) by lia.
    assert (0 <= r / 262144 <= 4) by lia.
    generalize dependent (r / 4096 mod 64). generalize dependent (r / 64 mod 64). generalize dependent (r mod 64).
    generalize dependent (r / 262144). intros.
    constructor; [|lia|lia|done]. lia.
Qed.
Lemma wf_string_of_runes rs : wf_utf8 (string_of_runes rs).
Proof.
  unfold string_of_runes. induction rs as [|r rs IH]; [constructor|]. cbn [map concat]. by apply wf_encode.
Qed.

(** the decoder only produces scalar values *)
Lemma decode_scalar s : Forall scalar (runes_of_string s).
Proof.
  assert (Hfe : scalar rune_error) by (unfold scalar, rune_error; lia).
  enough (H : forall n s, (length s <= n)%nat -> Forall scalar (runes_of_string s)) by by eapply H.
  clear s. induction n as [|n IH]; intros s Hn.
  { destruct s; [constructor|cbn in Hn; lia]. }
  destruct s as [|a s]; [constructor|]. cbn [length] in Hn. cbn [runes_of_string].
  destruct (a <? 128)%N eqn:E1; [constructor; [unfold scalar; lia|apply IH; lia]|].
  assert (Hrest : Forall scalar (rune_error :: runes_of_string s)) by (constructor; [done|apply IH; lia]).
  destruct (in_range 194 223 a) eqn:E2.
  { destruct s as [|b s]; [done|]. destruct (is_cont b) eqn:Eb; [|done].
    cbn [length] in Hn. constructor; [|apply IH; lia]. unfold in_range, is_cont, scalar in *. lia. }
  destruct (in_range 224 239 a) eqn:E3.
  { destruct s as [|b [|c s]]; [done..|].
    destruct (in_range (second_lo a) (second_hi a) b && is_cont c) eqn:Eb; [|done].
    cbn [length] in Hn. constructor; [|apply IH; lia].
    apply andb_true_iff in Eb as [Eb Ec]. unfold in_range, is_cont, scalar, second_lo, second_hi in *.
    destruct (N.eqb_spec a 224), (N.eqb_spec a 240), (N.eqb_spec a 237), (N.eqb_spec a 244); lia. }
  destruct (in_range 240 244 a) eqn:E4; [|done].
  destruct s as [|b [|c [|e s]]]; [done..|].
  destruct (in_range (second_lo a) (second_hi a) b && is_cont c && is_cont e) eqn:Eb; [|done].
  cbn [length] in Hn. constructor; [|apply IH; lia].
  apply andb_true_iff in Eb as [Eb Ee]. apply andb_true_iff in Eb as [Eb Ec].
  unfold in_range, is_cont, scalar, second_lo, second_hi in *.
  destruct (N.eqb_spec a 224), (N.eqb_spec a 240), (N.eqb_spec a 237), (N.eqb_spec a 244); lia.
Qed.
Lemma decode_int32 s : Forall int32 (runes_of_string s).
Proof. eapply Forall_impl; [apply decode_scalar|]. unfold scalar, int32. lia. Qed.

Lemma decode_nil s : runes_of_string s = [] <-> s = [].
Proof.
  split; [|by intros ->]. destruct s as [|a s]; [done|]. cbn [runes_of_string].
  destruct (a <? 128)%N; [done|]. destruct (in_range 194 223 a).
  { destruct s as [|b s]; [done|]. by destruct (is_cont b). }
  destruct (in_range 224 239 a).
  { destruct s as [|b [|c s]]; [done..|]. by destruct (_ && _). }
  destruct (in_range 240 244 a); [|done].
  destruct s as [|b [|c [|e s]]]; [done..|]. by destruct (_ && _).
Qed.
Lemma round_iff s : string_of_runes (runes_of_string s) = s <-> wf_utf8 s.
Proof.
  split; [intros <-; apply wf_string_of_runes|]. intros H. by apply encode_decode.
Qed.
