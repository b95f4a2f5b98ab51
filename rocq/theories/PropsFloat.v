(** The numbers in the attributes of a dictionary: C82.  The proofs are in ThmFloat.v; Floats.v
    and Numerals.v are the specification. *)
From Verif Require Import Base Strconv Numerals NumFacts DocSpec Parser Index Float Floats ThmFloat.
From stdpp Require Import list.
Open Scope N_scope.

(** C82.  With the conversions of Go in the place of the parameter of the parser model: a
    revision, and the number and revision of a lemma, are accepted exactly if they are decimal
    digits with an optional sign within 64 bits.  A version of up to 2000 characters is accepted
    exactly if it is written like a Go number, decimal or hexadecimal, with digits that may be
    separated by underscores, an optional point and an exponent, and does not round to more than
    the largest 32-bit float, or if it is one of the words for infinity or "nan". *)
Theorem C82_float : forall s, lenN s <= 2000 -> is_float go_conv s = true <-> float_text s.
Proof. exact l_C82_float. Qed.
Print Assumptions C82_float.
Theorem C82_int : forall s, is_int go_conv s = true <-> int_text s.
Proof. exact l_C82_int. Qed.
Print Assumptions C82_int.
Theorem C82_dictionary : forall attrs p, Forall (fun '(_, v) => lenN v <= 2000) attrs ->
  on_start go_conv HDictionary attrs p = (p, Done) <->
  forall n v, (n, v) ∈ attrs -> (n = bytes_of "version" -> float_text v) /\ (n = bytes_of "revision" -> int_text v).
Proof. exact l_C82_dictionary. Qed.
Print Assumptions C82_dictionary.
Theorem C82_lemma : forall attrs p, (exists p', on_start go_conv HLemma attrs p = (p', Done)) <->
  exists v w, attr "id" attrs = Some v /\ int_text v /\ attr "rev" attrs = Some w /\ int_text w.
Proof. exact l_C82_lemma. Qed.
Print Assumptions C82_lemma.
Definition accepts (s : string) : bool := parse_float32_ok (bytes_of s).
Example C82_case :
  forallb accepts ["0.92"; "1"; "1."; ".5"; "+1e-3"; "1_000.000_1"; "0x1p-2"; "0X_1F.8p+1_0"; "-inf"; "Infinity"; "NaN"; "0e99999999";
                   "1e-400"; "340282356779733661637539395458142568447"; "0x1.fffffefp127"]%string = true /\
  existsb accepts [""; "."; "1,5"; " 1"; "1 "; "1e"; "1e_5"; "_1"; "1_"; "1__0"; "1_.5"; "0x1"; "0x.p1"; "1p3"; "+nan"; "infinit"; "1e39";
                   "340282356779733661637539395458142568448"; "0x1.ffffffp127"]%string = false /\
  forallb (fun s => is_int go_conv (bytes_of s)) ["0"; "417150"; "+5"; "-7"; "007"; "-9223372036854775808"]%string = true /\
  existsb (fun s => is_int go_conv (bytes_of s)) [""; "+"; "1_0"; "0x10"; "1.0"; "9223372036854775808"]%string = false.
Proof. vm_compute. repeat split; reflexivity. Qed.
Example C82_dictionary_case : forall p,
  on_start go_conv HDictionary [(bytes_of "version", bytes_of "0.92"); (bytes_of "revision", bytes_of "417150")] p = (p, Done) /\
  on_start go_conv HDictionary [(bytes_of "version", bytes_of "0.92b")] p = (p, Fail EOpencorpora) /\
  float_text (bytes_of "0.92") /\ ~ float_text (bytes_of "0.92b").
Proof.
  intros p. split; [vm_compute; reflexivity|]. split; [vm_compute; reflexivity|].
  split; [|intros H]; [|apply C82_float in H; [|done]; vm_compute in H; done]. apply C82_float; [done|]. vm_compute. reflexivity.
Qed.
(** The bound is needed: digits of the exponent after the fifth are dropped, so this text for
    10^39 is taken for a very small number and accepted. *)
Definition long_text : list N := bytes_of "0." ++ (replicate (N.to_nat 100000) 48 ++ [49]) ++ bytes_of "e100040".
Theorem C82_long_refuted : exists s b m e, numeral s b m e /\ ~ value_below b m e (2 ^ 128 - 2 ^ 103) /\ is_float go_conv s = true.
Proof.
  assert (Hz : forall k, digits 10 0 (replicate k 48 ++ [49]) 1).
  { induction k as [|k IH]; cbn [replicate app]; (eapply digits_cons; [by apply (digit_dec 10 1) || by apply (digit_dec 10 0)|]); [constructor|exact IH]. }
  assert (Hp : forall k, places (replicate k 48 ++ [49]) = N.of_nat k + 1).
  { induction k as [|k IH]; cbn [replicate app]; [done|]. rewrite places_cons. change (48 =? 95) with false. cbn iota. rewrite IH. lia. }
  exists long_text, 10, 1, (Z.of_N 100040 - Z.of_N (places (replicate (N.to_nat 100000) 48%N ++ [49%N])))%Z.
  split; [|split].
  - unfold long_text. change (bytes_of "e100040") with (101 :: bytes_of "100040"). rewrite app_assoc. apply num_exp; [|by left|].
    + change (bytes_of "0." ++ ?t) with ([48] ++ 46 :: t). apply (man_both 10 _ [48] 0).
      * exists 48, 0, []. split; [done|]. split; [by apply (digit_dec 10 0)|constructor].
      * destruct (N.to_nat 100000) as [|k] eqn:E; [apply (f_equal N.of_nat) in E; rewrite N2Nat.id in E; done|]. clear E.
        exists 48, 0, (replicate k 48 ++ [49]). split; [done|]. split; [by apply (digit_dec 10 0)|]. apply Hz.
    + apply exp_bare. exists 49, 1, (bytes_of "00040"). split; [done|]. split; [by apply (digit_dec 10 1)|].
      assert (D : forall d n s m, d < 10 -> digits 10 (n * 10 + d) s m -> digits 10 n ((48 + d) :: s) m) by (intros d n s m Hd H; econstructor; [by apply (digit_dec 10 d)|done]).
      change (bytes_of "00040") with [48 + 0; 48 + 0; 48 + 0; 48 + 4; 48 + 0]. do 5 (apply D; [done|]). vm_compute (_ + _). constructor.
  - rewrite Hp, N2Nat.id. vm_compute. done.
  - vm_compute. reflexivity.
Qed.
Print Assumptions C82_long_refuted.
