(** Proofs for C84. *)
From Verif Require Import Base BaseFacts Utf8 Spec Utf8Facts DocSpec Xml XmlSpec.
From stdpp Require Import list.
Open Scope N_scope.

(** ** Lists *)
Lemma free_tail p b w : free_of p (b :: w) -> free_of p w.
Proof. intros H a c E. by apply (H (b :: a) c); rewrite E. Qed.
Lemma free_app_r p a w : free_of p (a ++ w) -> free_of p w.
Proof. intros H. induction a as [|b a IH]; [done|]. apply IH. by apply free_tail in H. Qed.
Lemma free_app_l p a w : free_of p (a ++ w) -> free_of p a.
Proof. intros H c d E. apply (H c (d ++ w)). by rewrite E, <- !app_assoc. Qed.
Lemma free_nil b p : free_of (b :: p) [].
Proof. intros [|? ?] ? E; done. Qed.
Lemma free_cons b p c w : b <> c -> free_of (b :: p) w -> free_of (b :: p) (c :: w).
Proof. intros Hn H [|d a] e E; cbn in E; simplify_eq. by apply (H a e). Qed.

Section decoder.
  Context (fr mr : Z -> bool).
  Notation name := (name fr mr). Notation nsname := (nsname fr mr).
  Notation attributes := (attributes fr mr). Notation raw_token := (raw_token fr mr). Notation tokens := (tokens fr mr).
  Notation markup := (markup fr mr).

  (** ** Spaces *)
  Lemma is_space_white b : is_space b = true <-> b = 32 \/ b = 9 \/ b = 10 \/ b = 13.
  Proof. unfold is_space. rewrite !orb_true_iff, !N.eqb_eq. tauto. Qed.
  Lemma space_app s w : white s -> space (s ++ w) = space w.
  Proof. induction 1 as [|b s Hb _ IH]; [done|]. cbn. by rewrite (proj2 (is_space_white b) Hb). Qed.
  Lemma space_stop b w : is_space b = false -> space (b :: w) = b :: w.
  Proof. cbn. by intros ->. Qed.
  Lemma space_suffix w : exists s, white s /\ w = s ++ space w.
  Proof.
    induction w as [|b w (s & Hs & E)]; [by exists []; split; [constructor|]|]. cbn. destruct (is_space b) eqn:Eb.
    - exists (b :: s). split; [constructor; [by apply is_space_white|done]|]. cbn. by rewrite <- E.
    - by exists []; split; [constructor|].
  Qed.
  Lemma space_length w : (length (space w) <= length w)%nat.
  Proof. induction w as [|b w IH]; cbn; [done|]. destruct (is_space b); cbn; lia. Qed.
  Lemma space_mono w q : space w <> [] -> space (w ++ q) = space w ++ q.
  Proof. induction w as [|b w IH]; cbn; [done|]. destruct (is_space b); [done|]. done. Qed.

  (** ** Names *)
  Lemma letter_bool b : is_letter b = true <-> letter b.
  Proof. unfold is_letter, letter, in_chars. rewrite orb_true_iff, !andb_true_iff, !N.leb_le. tauto. Qed.
  Lemma digit_bool b : is_digit b = true <-> digit b.
  Proof. unfold is_digit, digit, in_chars. rewrite andb_true_iff, !N.leb_le. tauto. Qed.
  Definition name_char (c : N) : Prop := letter c \/ digit c \/ c = 95 \/ c = 45 \/ c = 46 \/ c = 58.
  Lemma name_byte_char c : name_byte c = true <-> name_char c.
  Proof. unfold name_byte, name_char. rewrite !orb_true_iff, !N.eqb_eq, letter_bool, digit_bool. tauto. Qed.
  Lemma name_char_small c : name_char c -> c < 128 /\ is_space c = false /\ c <> 47 /\ c <> 62 /\ c <> 33 /\ c <> 63 /\ c <> 60 /\ c <> 61 /\ c <> 34 /\ c <> 39.
  Proof.
    intros H. assert (33 <> c /\ c < 128 /\ 32 < c /\ c <> 47 /\ c <> 62 /\ c <> 63 /\ c <> 60 /\ c <> 61 /\ c <> 34 /\ c <> 39)
      by (unfold name_char, letter, digit in H; lia).
    repeat split; try lia. apply not_true_iff_false. rewrite is_space_white. lia.
  Qed.
  Definition stops (w : list N) : Prop := exists b w', w = b :: w' /\ b < 128 /\ name_byte b = false.
  Lemma name_run_app n w : Forall name_char n -> stops w -> name_run (n ++ w) = Some (n, w).
  Proof.
    intros Hn (b & w' & -> & Hb & Hs). induction Hn as [|c n Hc _ IH]; cbn.
    - destruct (N.ltb_spec b 128); [|lia]. by rewrite Hs.
    - rewrite IH. apply name_byte_char in Hc. rewrite Hc. by rewrite andb_false_r.
  Qed.
  Lemma ascii_runes n : Forall (fun c => c < 128) n -> runes_of_string n = map Z.of_N n /\ string_of_runes (map Z.of_N n) = n.
  Proof.
    induction 1 as [|c n Hc _ [IH1 IH2]]; [done|]. split.
    - cbn. destruct (N.ltb_spec c 128); [|lia]. by rewrite IH1.
    - unfold string_of_runes in *. cbn [map concat]. rewrite IH2. unfold string_of_rune.
      assert (E : valid_rune (Z.of_N c) = true) by (unfold valid_rune; rewrite !andb_true_iff, negb_true_iff, andb_false_iff, !Z.leb_le, !Z.leb_gt; lia). rewrite E.
      unfold encode_scalar. destruct (Z.ltb_spec (Z.of_N c) 128); [|lia]. cbn [map app]. by rewrite N2Z.id.
  Qed.
  Lemma is_name_ok b n : letter b \/ b = 95 -> Forall name_char n -> is_name fr mr (b :: n) = true.
  Proof.
    intros Hb Hn.
    assert (Ha : Forall (fun c => c < 128) (b :: n)).
    { constructor; [unfold letter in Hb; lia|]. eapply Forall_impl; [done|]. intros c Hc. apply name_char_small in Hc. tauto. }
    destruct (ascii_runes _ Ha) as [E1 E2]. unfold is_name. rewrite E1. cbn [map]. change (Z.of_N b :: map Z.of_N n) with (map Z.of_N (b :: n)).
    rewrite E2, bool_decide_true by done. cbn [map andb]. apply Forall_cons in Ha as [Hb' Hn']. apply andb_true_iff. split.
    - unfold first_char. destruct (Z.ltb_spec (Z.of_N b) 128); [|lia]. rewrite N2Z.id, !orb_true_iff, letter_bool, !N.eqb_eq. tauto.
    - clear -Hn Hn'. induction Hn as [|c n Hc Hn IH]; [done|]. apply Forall_cons in Hn' as [Hc' Hn']. cbn. rewrite IH by done. rewrite andb_true_r.
      unfold more_char. destruct (Z.ltb_spec (Z.of_N c) 128); [|lia]. rewrite N2Z.id. by apply name_byte_char.
  Qed.
  Lemma plain_chars n : plain_name n -> Forall name_char n /\ 58 ∉ n /\ n <> [].
  Proof.
    intros (b & n' & -> & Hb & Hn). split; [|split; [|done]].
    - constructor; [unfold name_char; tauto|]. eapply Forall_impl; [done|]. unfold name_char. cbn. tauto.
    - intros Hin. apply elem_of_cons in Hin as [<-|Hin]; [unfold letter in Hb; lia|]. rewrite Forall_forall in Hn. specialize (Hn 58 Hin). unfold letter, digit in Hn. lia.
  Qed.
  Lemma name_plain n w : plain_name n -> stops w -> name (n ++ w) = Some (n, w).
  Proof.
    intros Hn Hs. unfold Xml.name. rewrite name_run_app by (done || by apply plain_chars). destruct Hn as (b & n' & -> & Hb & Hn).
    rewrite is_name_ok; [done|done|]. eapply Forall_impl; [done|]. unfold name_char. cbn. tauto.
  Qed.
  Lemma cut_colon_none n : 58 ∉ n -> cut_colon n = None.
  Proof.
    induction n as [|b n IH]; intros H; [done|]. apply not_elem_of_cons in H as [Hb Hn]. cbn. destruct (N.eqb_spec b 58); [done|]. by rewrite IH.
  Qed.
  Lemma cut_colon_app p n : 58 ∉ p -> cut_colon (p ++ 58 :: n) = Some (p, n).
  Proof.
    induction p as [|b p IH]; intros H; [done|]. apply not_elem_of_cons in H as [Hb Hn]. cbn. destruct (N.eqb_spec b 58); [done|]. by rewrite IH.
  Qed.
  Lemma qname_ok n w : qname n w -> exists p, forall rest, stops rest -> nsname (w ++ rest) = Some (p, n, rest).
  Proof.
    intros [Hn|p Hp Hn].
    - exists []. intros rest Hs. unfold Xml.nsname. rewrite name_plain by done. rewrite cut_colon_none by (by apply plain_chars). done.
    - exists p. intros rest Hs. unfold Xml.nsname, Xml.name.
      rewrite name_run_app; [| |done].
      + destruct (plain_chars p Hp) as (Hp1 & Hp2 & Hp3). destruct (plain_chars n Hn) as (Hn1 & Hn2 & Hn3).
        assert (E : is_name fr mr (p ++ 58 :: n) = true).
        { destruct Hp as (b & p' & -> & Hb & Hp). cbn [app]. apply is_name_ok; [done|]. apply Forall_app. split; [by inversion Hp1|].
          constructor; [unfold name_char; tauto|done]. }
        rewrite E, cut_colon_app by done. rewrite bool_decide_false by done. rewrite !bool_decide_false by done. done.
      + apply Forall_app. split; [by apply plain_chars|]. constructor; [unfold name_char; tauto|by apply plain_chars].
  Qed.
  Lemma qname_head n w : qname n w -> exists b w', w = b :: w' /\ (letter b \/ b = 95).
  Proof.
    intros [(b & n' & -> & Hb & _)|p (b & p' & -> & Hb & _) _]; exists b; eexists; (split; [reflexivity|done]).
  Qed.
  Lemma stops_white s w : white s -> (exists b w', w = b :: w' /\ b < 128 /\ name_byte b = false) -> stops (s ++ w).
  Proof.
    intros [|b s' Hb _] Hw; [done|]. exists b, (s' ++ w). split; [done|].
    assert (name_byte b <> true); [|split; [lia|by apply not_true_iff_false]]. rewrite name_byte_char. unfold name_char, letter, digit. lia.
  Qed.

  (** ** Characters *)
  Lemma legal_text_ok v : text_ok v = true <-> legal v.
  Proof.
    assert (Hc : forall r, char_ok r = true <-> legal_char r).
    { intros r. unfold char_ok, legal_char. rewrite !orb_true_iff, !andb_true_iff, !Z.leb_le, !Z.eqb_eq. tauto. }
    assert (Hs : forall r, legal_char r -> scalar r).
    { intros r Hr. apply valid_rune_scalar. unfold valid_rune, legal_char in *.
      rewrite !andb_true_iff, negb_true_iff, andb_false_iff, !Z.leb_le, !Z.leb_gt. lia. }
    unfold text_ok. rewrite andb_true_iff, bool_decide_eq_true, forallb_forall. split.
    - intros [E H]. exists (runes_of_string v). split; [done|]. apply List.Forall_forall. intros r Hr. apply Hc. by apply H.
    - intros (rs & -> & Hrs). rewrite decode_encode_all by (by eapply Forall_impl). split; [done|].
      intros r Hr. apply Hc. rewrite List.Forall_forall in Hrs. by apply Hrs.
  Qed.
  Lemma digit_of_dec d : digit d -> digit_of 10 d = Some (hex_value d).
  Proof.
    intros Hd. unfold digit_of. rewrite (proj2 (digit_bool d) Hd). unfold hex_value, digit in *. destruct (N.leb_spec d 57); [done|lia].
  Qed.
  Lemma digit_of_hex d : hex d -> digit_of 16 d = Some (hex_value d).
  Proof.
    intros Hd. unfold digit_of, hex_value, is_digit, in_chars, hex, digit in *. cbn [N.eqb Pos.eqb].
    destruct (N.leb_spec 48 d), (N.leb_spec d 57), (N.leb_spec 97 d), (N.leb_spec d 102), (N.leb_spec 65 d), (N.leb_spec d 70); cbn; try done; lia.
  Qed.
  Lemma number_ok base (P : N -> Prop) ds acc : (forall d, P d -> digit_of base d = Some (hex_value d)) -> Forall P ds ->
    number base acc ds = Some (foldl (fun a d => a * base + hex_value d) acc ds).
  Proof. intros HP H. revert acc. induction H as [|d ds Hd _ IH]; intros acc; cbn; [done|]. by rewrite (HP d Hd). Qed.
  Lemma reference_ok n x : refers n x -> reference n = Some x.
  Proof.
    intros [| | | | |ds m Hne Hd -> Hm|ds m Hne Hd -> Hm]; try reflexivity.
    - destruct ds as [|d ds]; [done|]. unfold reference. rewrite N.eqb_refl.
      assert (d <> 120) by (inversion Hd; subst; unfold digit in *; lia). destruct (N.eqb_spec d 120); [done|].
      unfold char_number. rewrite (number_ok 10 digit); [|apply digit_of_dec|done]. destruct (N.leb_spec (foldl (λ a d0 : N, a * 10 + hex_value d0) 0 (d :: ds)) 1114111); [done|lia].
    - destruct ds as [|d ds]; [done|]. unfold reference. rewrite !N.eqb_refl.
      unfold char_number. rewrite (number_ok 16 hex); [|apply digit_of_hex|done]. destruct (N.leb_spec (foldl (λ a d0 : N, a * 16 + hex_value d0) 0 (d :: ds)) 1114111); [done|lia].
  Qed.
  Lemma refers_bytes n x : refers n x -> Forall (fun b => b <> 59 /\ b <> 60 /\ b <> 93 /\ b <> 62 /\ b <> 13) n.
  Proof.
    intros [| | | | |ds m _ Hd _ _|ds m _ Hd _ _]; try (vm_compute; repeat constructor; done).
    - constructor; [done|]. eapply Forall_impl; [done|]. unfold digit. cbn. lia.
    - constructor; [done|]. constructor; [done|]. eapply Forall_impl; [done|]. unfold hex, digit. cbn. lia.
  Qed.

  (** ** Text *)
  Lemma text_ref quote cd b0 b1 acc out n w : 59 ∉ n ->
    text quote cd b0 b1 (Some acc) out (n ++ 59 :: w) = match reference (acc ++ n) with Some v => text quote cd 0 0 None (out ++ v) w | None => None end.
  Proof.
    revert acc. induction n as [|b n IH]; intros acc H; cbn [app text].
    - by rewrite N.eqb_refl, app_nil_r.
    - apply not_elem_of_cons in H as [Hb Hn]. destruct (N.eqb_spec b 59); [done|]. rewrite IH by done. by rewrite <- app_assoc.
  Qed.
  Lemma text_plain quote cd b0 b1 out b w : ~ (b0 = 93 /\ b1 = 93 /\ b = 62) -> (cd = false -> b <> 60 /\ b <> 38) -> quote <> Some b -> b <> 13 -> ~ (b1 = 13 /\ b = 10) ->
    text quote cd b0 b1 None out (b :: w) = text quote cd b1 b None (out ++ [b]) w.
  Proof.
    intros H1 H2 H3 H4 H5. cbn [text].
    destruct ((b0 =? 93) && (b1 =? 93) && (b =? 62)) eqn:E1; [rewrite !andb_true_iff, !N.eqb_eq in E1; tauto|].
    destruct ((b =? 60) && negb cd) eqn:E2; [rewrite andb_true_iff, N.eqb_eq, negb_true_iff in E2; tauto|].
    rewrite bool_decide_false by done.
    destruct ((b =? 38) && negb cd) eqn:E3; [rewrite andb_true_iff, N.eqb_eq, negb_true_iff in E3; tauto|].
    destruct (N.eqb_spec b 13); [done|].
    destruct ((b1 =? 13) && (b =? 10)) eqn:E5; [rewrite andb_true_iff, !N.eqb_eq in E5; tauto|]. done.
  Qed.
  Lemma text_cr quote cd b0 b1 out w : quote <> Some 13 -> text quote cd b0 b1 None out (13 :: w) = text quote cd b1 13 None (out ++ [10]) w.
  Proof. intros Hq. cbn [text]. rewrite !andb_false_r. cbn. by rewrite bool_decide_false. Qed.
  Lemma text_crlf quote cd b0 out w : quote <> Some 10 -> text quote cd b0 13 None out (10 :: w) = text quote cd 13 10 None out w.
  Proof. intros Hq. cbn [text]. rewrite !andb_false_r. cbn. by rewrite bool_decide_false. Qed.
  Lemma free3 b0 b1 b w : free_of [93; 93; 62] (b0 :: b1 :: b :: w) -> ~ (b0 = 93 /\ b1 = 93 /\ b = 62).
  Proof. intros H (-> & -> & ->). by apply (H [] w). Qed.
  Lemma free_zero w : free_of [93; 93; 62] w -> free_of [93; 93; 62] (0 :: 0 :: w).
  Proof. intros H. do 2 (apply free_cons; [done|]). done. Qed.
  Lemma text_chars quote v w tail out b0 b1 : chars quote v w -> quote = None \/ quote = Some 34 \/ quote = Some 39 ->
    free_of [93; 93; 62] (b0 :: b1 :: w) -> (b1 = 13 -> head w <> Some 10) ->
    exists c0 c1, text quote false b0 b1 None out (w ++ tail) = text quote false c0 c1 None (out ++ v) tail.
  Proof.
    intros H Hq. revert b0 b1 out. induction H as [|b v w H1 H2 H3 H4 H IH|n x v w Hr H IH|v w Hh H IH|v w H IH]; intros b0 b1 out Hf Hc; cbn [app].
    - exists b0, b1. by rewrite app_nil_r.
    - rewrite text_plain; [| |done|done|done|].
      + destruct (IH b1 b (out ++ [b])) as (c0 & c1 & ->); [by apply free_tail in Hf|done|]. exists c0, c1. by rewrite <- app_assoc.
      + by eapply free3.
      + intros [-> ->]. by apply Hc.
    - assert (Hn := refers_bytes _ _ Hr). rewrite <- app_assoc. cbn [app].
      assert (Ht : text quote false b0 b1 None out (38 :: n ++ 59 :: w ++ tail) = text quote false b0 b1 (Some []) out (n ++ 59 :: w ++ tail)).
      { cbn [text]. rewrite !andb_false_r. cbn. rewrite bool_decide_false; [done|]. destruct Hq as [-> |[-> | ->]]; done. }
      rewrite Ht, text_ref. 2:{ intros Hin. rewrite Forall_forall in Hn. specialize (Hn 59 Hin). cbn in Hn. tauto. }
      cbn [app]. rewrite (reference_ok _ _ Hr).
      destruct (IH 0 0 (out ++ x)) as (c0 & c1 & ->); [|done|].
      + apply free_zero. do 2 apply free_tail in Hf. apply (free_app_r _ (38 :: n ++ [59])). cbn. by rewrite <- app_assoc.
      + exists c0, c1. by rewrite <- app_assoc.
    - rewrite text_cr by (destruct Hq as [-> |[-> | ->]]; done).
      destruct (IH b1 13 (out ++ [10])) as (c0 & c1 & ->); [by apply free_tail in Hf|done|]. exists c0, c1. by rewrite <- app_assoc.
    - rewrite text_cr by (destruct Hq as [-> |[-> | ->]]; done). rewrite text_crlf by (destruct Hq as [-> |[-> | ->]]; done).
      destruct (IH 13 10 (out ++ [10])) as (c0 & c1 & ->); [by do 2 apply free_tail in Hf|done|]. exists c0, c1. by rewrite <- app_assoc.
  Qed.
  Lemma text_cdata v w tail out b0 b1 : cdata v w ->
    free_of [93; 93; 62] (b0 :: b1 :: w) -> (b1 = 13 -> head w <> Some 10) ->
    exists c0 c1, text None true b0 b1 None out (w ++ tail) = text None true c0 c1 None (out ++ v) tail.
  Proof.
    intros H. revert b0 b1 out. induction H as [|b v w H1 H IH|v w Hh H IH|v w H IH]; intros b0 b1 out Hf Hc; cbn [app].
    - exists b0, b1. by rewrite app_nil_r.
    - rewrite text_plain; [| |done|done|done|].
      + destruct (IH b1 b (out ++ [b])) as (c0 & c1 & ->); [by apply free_tail in Hf|done|]. exists c0, c1. by rewrite <- app_assoc.
      + by eapply free3.
      + intros [-> ->]. by apply Hc.
    - rewrite text_cr by done. destruct (IH b1 13 (out ++ [10])) as (c0 & c1 & ->); [by apply free_tail in Hf|done|]. exists c0, c1. by rewrite <- app_assoc.
    - rewrite text_cr, text_crlf by done. destruct (IH 13 10 (out ++ [10])) as (c0 & c1 & ->); [by do 2 apply free_tail in Hf|done|]. exists c0, c1. by rewrite <- app_assoc.
  Qed.
  Lemma checked_quoted q v w tail : is_quote q -> chars (Some q) v w -> legal v -> free_of [93; 93; 62] w ->
    checked_text (Some q) false (w ++ q :: tail) = Some (v, tail).
  Proof.
    intros Hq Hc Hl Hf. unfold checked_text.
    destruct (text_chars (Some q) v w (q :: tail) [] 0 0) as (c0 & c1 & ->); [done|destruct Hq as [-> | ->]; tauto|by apply free_zero|done|].
    cbn [text app]. destruct Hq as [-> | ->]; rewrite !andb_false_r; cbn [N.eqb Pos.eqb andb]; rewrite bool_decide_true by done; by rewrite (proj2 (legal_text_ok v) Hl).
  Qed.
  Lemma checked_plain v w tail : chars None v w -> legal v -> free_of [93; 93; 62] w -> tail = [] \/ head tail = Some 60 ->
    checked_text None false (w ++ tail) = Some (v, tail).
  Proof.
    intros Hc Hl Hf Ht. unfold checked_text. destruct (text_chars None v w tail [] 0 0) as (c0 & c1 & ->); [done|tauto|by apply free_zero|done|].
    assert (E : text None false c0 c1 None ([] ++ v) tail = Some (v, tail)).
    { destruct tail as [|b tail]; [done|]. destruct Ht as [?|Ht]; [done|]. cbn in Ht. simplify_eq. cbn [text app]. by rewrite !andb_false_r. }
    rewrite E. by rewrite (proj2 (legal_text_ok v) Hl).
  Qed.
  Lemma checked_cdata v w tail : cdata v w -> legal v -> free_of [93; 93; 62] w -> checked_text None true (w ++ 93 :: 93 :: 62 :: tail) = Some (v, tail).
  Proof.
    intros Hc Hl Hf. unfold checked_text. destruct (text_cdata v w (93 :: 93 :: 62 :: tail) [] 0 0) as (c0 & c1 & ->); [done|by apply free_zero|done|].
    rewrite !text_plain by (try done; lia || (intros; lia) || naive_solver).
    cbn [text app]. rewrite !N.eqb_refl. cbn [andb]. rewrite <- app_assoc. cbn [app]. rewrite app_length. cbn [length].
    replace (length v + 2 - 2)%nat with (length v) by lia. rewrite take_app. by rewrite (proj2 (legal_text_ok v) Hl).
  Qed.

  (** ** Attributes *)
  Lemma attributes_ok l a : attributes_written l a -> forall fuel s tail e, (length a < fuel)%nat -> white s ->
    (e = true -> exists w, tail = 47 :: 62 :: w) -> (e = false -> exists w, tail = 62 :: w) ->
    attributes fuel (a ++ s ++ tail) = Some (l, e, drop (if e then 2 else 1)%nat tail).
  Proof.
    induction 1 as [|n v l s1 n' s2 s3 q v' w Hne Hs1 Hn Hs2 Hs3 Hq Hv Hl Hf Ha IH]; intros fuel s tail e Hfu Hs He1 He2.
    - destruct fuel as [|fuel]; [cbn in Hfu; lia|]. cbn [app Xml.attributes]. rewrite space_app by done. destruct e.
      + destruct (He1 eq_refl) as (w & ->). reflexivity.
      + destruct (He2 eq_refl) as (w & ->). reflexivity.
    - destruct fuel as [|fuel]; [cbn in Hfu; lia|]. rewrite <- !app_assoc. cbn [Xml.attributes]. rewrite space_app by done.
      destruct (qname_head _ _ Hn) as (b & n1 & En & Hb). destruct (qname_ok _ _ Hn) as (p & Hp). rewrite En. cbn [app].
      assert (Hnc : name_char b) by (unfold name_char; tauto). apply name_char_small in Hnc as (B1 & B2 & B3 & B4 & B5 & _).
      rewrite space_stop by done. destruct (N.eqb_spec b 47); [done|]. destruct (N.eqb_spec b 62); [done|].
      match goal with |- context [nsname ?u] => assert (E : u = n' ++ s2 ++ 61 :: s3 ++ q :: v' ++ q :: w ++ s ++ tail) end.
      { rewrite En. cbn. repeat (f_equal; cbn; rewrite <- ?app_assoc). }
      rewrite E, Hp by (apply stops_white; [done|]; eexists _, _; split; [reflexivity|done]).
      unfold value. rewrite space_app by done. rewrite space_stop by done. cbn [drop_byte]. rewrite N.eqb_refl.
      rewrite space_app by done. rewrite space_stop by (by destruct Hq as [-> | ->]).
      replace ((q =? 34) || (q =? 39)) with true by (by destruct Hq as [-> | ->]).
      erewrite checked_quoted by done. rewrite (IH fuel s tail e); [done| |done|done|done].
      rewrite !app_length in Hfu. cbn in Hfu. rewrite !app_length in Hfu. cbn in Hfu. rewrite !app_length in Hfu. cbn in Hfu. lia.
  Qed.

  (** ** Other markup *)
  Lemma comment_ok t tail b0 b1 : free_of [45; 45] (b0 :: b1 :: t ++ [45]) -> comment b0 b1 (t ++ 45 :: 45 :: 62 :: tail) = Some tail.
  Proof.
    revert b0 b1. induction t as [|b t IH]; intros b0 b1 Hf.
    - cbn in *. assert (H1 : ~ (b0 = 45 /\ b1 = 45)) by (intros [-> ->]; by apply (Hf [] [45])).
      assert (H2 : b1 <> 45) by (intros ->; by apply (Hf [b0] [])).
      destruct ((b0 =? 45) && (b1 =? 45)) eqn:E; [rewrite andb_true_iff, !N.eqb_eq in E; tauto|].
      destruct (N.eqb_spec b1 45); [done|]. done.
    - cbn in *. assert (H1 : ~ (b0 = 45 /\ b1 = 45)) by (intros [-> ->]; by apply (Hf [] (b :: t ++ [45]))).
      destruct ((b0 =? 45) && (b1 =? 45)) eqn:E; [rewrite andb_true_iff, !N.eqb_eq in E; tauto|]. apply IH. by apply free_tail in Hf.
  Qed.
  Lemma instruction_ok t tail b0 out : free_of [63; 62] (b0 :: t) -> instruction b0 out (t ++ 63 :: 62 :: tail) = Some (out ++ t, tail).
  Proof.
    revert b0 out. induction t as [|b t IH]; intros b0 out Hf.
    - cbn [app instruction]. rewrite andb_false_r. cbn. rewrite app_length. cbn. replace (length out + 1 - 1)%nat with (length out) by lia.
      by rewrite take_app, app_nil_r.
    - cbn [app instruction]. destruct ((b0 =? 63) && (b =? 62)) eqn:E.
      { rewrite andb_true_iff, !N.eqb_eq in E. destruct E as [-> ->]. destruct (Hf [] t). done. }
      rewrite IH by (by apply free_tail in Hf). by rewrite <- app_assoc.
  Qed.
  Lemma directive_quoted q t w d : is_quote q -> q ∉ t -> directive q d None None (t ++ q :: w) = directive 0 d None None w.
  Proof.
    intros Hq. induction t as [|b t IH]; intros Hn; cbn [app directive].
    - destruct Hq as [-> | ->]; cbn; done.
    - apply not_elem_of_cons in Hn as [Hb Hn]. destruct Hq as [-> | ->].
      all: cbn [N.eqb andb negb]; destruct (b =? _) eqn:E; [apply N.eqb_eq in E; by subst|]; by apply IH.
  Qed.
  Lemma directive_comment t w d b0 b1 : free_of [45; 45; 62] (b0 :: b1 :: t ++ [45; 45]) ->
    directive 0 d None (Some (b0, b1)) (t ++ 45 :: 45 :: 62 :: w) = directive 0 d None None w.
  Proof.
    revert b0 b1. induction t as [|b t IH]; intros b0 b1 Hf.
    - cbn [app directive]. rewrite !andb_false_r. cbn [N.eqb Pos.eqb andb]. done.
    - cbn [app directive]. destruct ((b0 =? 45) && (b1 =? 45) && (b =? 62)) eqn:E.
      { rewrite !andb_true_iff, !N.eqb_eq in E. destruct E as [[-> ->] ->]. destruct (Hf [] (t ++ [45; 45])). done. }
      apply IH. by apply free_tail in Hf.
  Qed.
  Lemma directive_plain b w d : b <> 34 -> b <> 39 -> b <> 60 -> b <> 62 -> directive 0 d None None (b :: w) = directive 0 d None None w.
  Proof.
    intros H1 H2 H3 H4. cbn [directive]. destruct (N.eqb_spec b 62); [done|]. rewrite andb_false_r. cbn.
    destruct (N.eqb_spec b 39); [done|]. destruct (N.eqb_spec b 34); [done|]. cbn. destruct (N.eqb_spec b 60); done.
  Qed.
  (** A bracket that does not begin a comment. *)
  Lemma directive_lt t d k : (k <= 2)%nat -> t <> [] -> bytes_of "!--" !! k <> head t -> directive 0 d (Some k) None t = directive 0 (d + 1) None None t.
  Proof.
    intros Hk Ht Hh. destruct t as [|b t]; [done|]. cbn in Hh. cbn [directive]. rewrite bool_decide_false by done.
    destruct (N.eqb_spec (d + 1) 0); [lia|]. by rewrite !andb_false_r.
  Qed.
  Lemma directive_open t w d : ~ bytes_of "!--" `prefix_of` t ++ [62] -> directive 0 d None None (60 :: t ++ 62 :: w) = directive 0 (d + 1) None None (t ++ 62 :: w).
  Proof.
    intros Hp. change (directive 0 d None None (60 :: t ++ 62 :: w)) with (if (0 =? 0) && (60 =? 62) && (d =? 0) then Some (t ++ 62 :: w) else directive 0 d (Some 0%nat) None (t ++ 62 :: w)).
    cbn [N.eqb Pos.eqb andb].
    destruct (decide (head (t ++ 62 :: w) = Some 33)) as [E0|E0]; [|apply directive_lt; [lia|by destruct t|]; intros Eh; symmetry in Eh; done].
    destruct t as [|c0 t]; [done|]. cbn in E0. simplify_eq. cbn [app].
    rewrite (directive_plain 33) by done. change (directive 0 d (Some 0%nat) None (33 :: t ++ 62 :: w)) with (directive 0 d (Some 1%nat) None (t ++ 62 :: w)).
    destruct (decide (head (t ++ 62 :: w) = Some 45)) as [E1|E1]; [|apply directive_lt; [lia|by destruct t|]; intros Eh; symmetry in Eh; done].
    destruct t as [|c0 t]; [done|]. cbn in E1. simplify_eq. cbn [app].
    rewrite (directive_plain 45) by done. change (directive 0 d (Some 1%nat) None (45 :: t ++ 62 :: w)) with (directive 0 d (Some 2%nat) None (t ++ 62 :: w)).
    destruct (decide (head (t ++ 62 :: w) = Some 45)) as [E2|E2]; [|apply directive_lt; [lia|by destruct t|]; intros Eh; symmetry in Eh; done].
    destruct t as [|c0 t]; [done|]. cbn in E2. simplify_eq. destruct Hp. exists (t ++ [62]). done.
  Qed.
  Lemma directive_ok t : directive_body t -> forall d w, directive 0 d None None (t ++ 62 :: w) = directive 0 d None None (62 :: w).
  Proof.
    induction 1 as [|b t H1 H2 H3 H4 H IH|q t u Hq Ht H IH|t u Hp H IH H' IH'|t u Hf H IH]; intros d w.
    - done.
    - cbn [app]. by rewrite directive_plain.
    - cbn [app]. rewrite <- app_assoc. cbn [app]. transitivity (directive q d None None (t ++ q :: u ++ 62 :: w)).
      + destruct Hq as [-> | ->]; cbn; rewrite ?andb_false_r; done.
      + by rewrite directive_quoted.
    - cbn [app]. rewrite <- app_assoc. cbn [app]. rewrite directive_open by done. rewrite IH.
      transitivity (directive 0 d None None (u ++ 62 :: w)); [|done].
      assert (E : directive 0 (d + 1) None None (62 :: u ++ 62 :: w) = directive 0 (d + 1 - 1) None None (u ++ 62 :: w)).
      { cbn [directive]. destruct (N.eqb_spec (d + 1) 0); [lia|]. rewrite !andb_false_r. done. }
      rewrite E. f_equal. lia.
    - change (bytes_of "<!--") with [60; 33; 45; 45]. change (bytes_of "-->") with [45; 45; 62]. rewrite <- !app_assoc. cbn [app].
      transitivity (directive 0 d None (Some (0, 0)) (t ++ 45 :: 45 :: 62 :: u ++ 62 :: w)); [done|].
      rewrite directive_comment; [done|]. do 2 (apply free_cons; [done|]). done.
  Qed.

  (** ** What is left is shorter, and more text behind does not matter *)
  Lemma name_run_split w n rest : name_run w = Some (n, rest) -> w = n ++ rest /\ rest <> [].
  Proof.
    revert n. induction w as [|b w IH]; intros n E; cbn in E; [done|]. destruct ((b <? 128) && negb (name_byte b)); [by simplify_eq|].
    destruct (name_run w) as [[m r]|]; simplify_eq. destruct (IH m eq_refl) as [-> ?]. done.
  Qed.
  Lemma name_run_mono w n rest q : name_run w = Some (n, rest) -> name_run (w ++ q) = Some (n, rest ++ q).
  Proof.
    revert n. induction w as [|b w IH]; intros n E; cbn in E; [done|]. cbn [app name_run]. destruct ((b <? 128) && negb (name_byte b)); [by simplify_eq|].
    destruct (name_run w) as [[m r]|]; simplify_eq. by rewrite (IH m eq_refl).
  Qed.
  Lemma name_mono w n rest q : name w = Some (n, rest) -> name (w ++ q) = Some (n, rest ++ q).
  Proof.
    unfold Xml.name. destruct (name_run w) as [[m r]|] eqn:E; [|done]. rewrite (name_run_mono _ _ _ q E). destruct (is_name fr mr m); [|done]. by intros [= -> ->].
  Qed.
  Lemma name_length w n rest : name w = Some (n, rest) -> (length rest < length w)%nat.
  Proof.
    unfold Xml.name. destruct (name_run w) as [[m r]|] eqn:E; [|done]. destruct (is_name fr mr m) eqn:En; [|done]. intros [= -> ->].
    apply name_run_split in E as [-> _]. destruct n; [done|]. rewrite app_length. cbn. lia.
  Qed.
  Lemma nsname_mono w p n rest q : nsname w = Some (p, n, rest) -> nsname (w ++ q) = Some (p, n, rest ++ q).
  Proof.
    unfold Xml.nsname. destruct (name w) as [[m r]|] eqn:E; [|done]. rewrite (name_mono _ _ _ q E). repeat case_match; by intros [= <- <- <-].
  Qed.
  Lemma nsname_length w p n rest : nsname w = Some (p, n, rest) -> (length rest < length w)%nat.
  Proof.
    unfold Xml.nsname. destruct (name w) as [[m r]|] eqn:E; [|done]. apply name_length in E. repeat case_match; by intros [= <- <- <-].
  Qed.
  Lemma text_length quote cd b0 b1 ref out w v rest : text quote cd b0 b1 ref out w = Some (v, rest) -> (length rest <= length w)%nat.
  Proof.
    revert b0 b1 ref out. induction w as [|b w IH]; intros b0 b1 ref out E; cbn [text] in E.
    - case_match; by simplify_eq.
    - cbn [length]. repeat case_match; simplify_eq; cbn [length]; try lia; apply IH in E; lia.
  Qed.
  Lemma text_mono quote cd b0 b1 ref out w v rest q : text quote cd b0 b1 ref out w = Some (v, rest) -> rest <> [] \/ cd = true ->
    text quote cd b0 b1 ref out (w ++ q) = Some (v, rest ++ q).
  Proof.
    intros E Hc. revert b0 b1 ref out E. induction w as [|b w IH]; intros b0 b1 ref out E; cbn [text] in E.
    - case_match eqn:Ec; simplify_eq. destruct Hc as [? | ->]; done.
    - cbn [app text]. repeat case_match; simplify_eq; try done; by apply IH.
  Qed.
  Lemma checked_mono quote cd w v rest q : checked_text quote cd w = Some (v, rest) -> rest <> [] \/ cd = true -> checked_text quote cd (w ++ q) = Some (v, rest ++ q).
  Proof.
    unfold checked_text. intros E Hc. destruct (text quote cd 0 0 None [] w) as [[x r]|] eqn:Et; [|done]. destruct (text_ok x) eqn:Ex; simplify_eq.
    rewrite (text_mono _ _ _ _ _ _ _ _ _ q Et Hc). by rewrite Ex.
  Qed.
  Lemma checked_length quote cd w v rest : checked_text quote cd w = Some (v, rest) -> (length rest <= length w)%nat.
  Proof.
    unfold checked_text. destruct (text quote cd 0 0 None [] w) as [[x r]|] eqn:Et; [|done]. destruct (text_ok x); [|done]. intros [= -> ->]. by eapply text_length.
  Qed.
  Lemma drop_byte_mono b w w' q : drop_byte b w = Some w' -> drop_byte b (w ++ q) = Some (w' ++ q) /\ w = b :: w'.
  Proof. destruct w as [|c w]; cbn; [done|]. destruct (N.eqb_spec c b); [|done]. intros [= ->]. by subst. Qed.
  Lemma space_nonempty w b w' q : space w = b :: w' -> space (w ++ q) = b :: w' ++ q.
  Proof. intros E. rewrite space_mono; [by rewrite E|by rewrite E]. Qed.
  Lemma drop_space_mono b w w' q : drop_byte b (space w) = Some w' -> drop_byte b (space (w ++ q)) = Some (w' ++ q) /\ (length w' < length w)%nat.
  Proof.
    intros E. apply (drop_byte_mono _ _ _ q) in E as [E1 E2]. split; [by rewrite (space_nonempty _ _ _ q E2), <- E1, E2|].
    assert (H := space_length w). rewrite E2 in H. cbn in H. lia.
  Qed.
  Lemma value_mono w v rest q : value w = Some (v, rest) -> rest <> [] -> value (w ++ q) = Some (v, rest ++ q).
  Proof.
    unfold value. destruct (drop_byte 61 (space w)) as [w1|] eqn:E1; [|done]. apply (drop_space_mono _ _ _ q) in E1 as [-> _].
    destruct (space w1) as [|b w2] eqn:E2; [done|]. rewrite (space_nonempty _ _ _ q E2). destruct ((b =? 34) || (b =? 39)); [|done].
    intros E Hr. apply checked_mono; [done|by left].
  Qed.
  Lemma value_length w v rest : value w = Some (v, rest) -> (length rest < length w)%nat.
  Proof.
    unfold value. destruct (drop_byte 61 (space w)) as [w1|] eqn:E1; [|done]. apply (drop_space_mono _ _ _ []) in E1 as [_ H1].
    destruct (space w1) as [|b w2] eqn:E2; [done|]. destruct ((b =? 34) || (b =? 39)); [|done]. intros E. apply checked_length in E.
    assert (H := space_length w1). rewrite E2 in H. cbn in H. lia.
  Qed.
  Lemma attributes_mono fuel fuel' w l e rest q : attributes fuel w = Some (l, e, rest) -> (fuel <= fuel')%nat ->
    attributes fuel' (w ++ q) = Some (l, e, rest ++ q) /\ (length rest < length w)%nat.
  Proof.
    revert fuel' w l. induction fuel as [|fuel IH]; intros fuel' w l E Hf; [done|]. destruct fuel' as [|fuel']; [lia|]. cbn [Xml.attributes] in *.
    assert (Hsl := space_length w). destruct (space w) as [|b w1] eqn:Es; [done|]. rewrite (space_nonempty _ _ _ q Es). cbn in Hsl.
    destruct (b =? 47).
    { destruct (drop_byte 62 w1) as [w2|] eqn:E1; [|done]. apply (drop_byte_mono _ _ _ q) in E1 as [-> ->]. simplify_eq. cbn in Hsl. split; [done|]. lia. }
    destruct (b =? 62); [simplify_eq; split; [done|]; lia|].
    destruct (nsname (b :: w1)) as [[[p n] w2]|] eqn:En; [|done]. change (b :: w1 ++ q) with ((b :: w1) ++ q). rewrite (nsname_mono _ _ _ _ q En).
    apply nsname_length in En. cbn in En. destruct (value w2) as [[v w3]|] eqn:Ev; [|done].
    destruct (attributes fuel w3) as [[[l' e'] r]|] eqn:Ea; [|done]. simplify_eq.
    destruct (IH fuel' w3 l' Ea ltac:(lia)) as [Ha Hl]. rewrite (value_mono _ _ _ q Ev); [|by intros ->; cbn in Hl; lia]. rewrite Ha. split; [done|].
    apply value_length in Ev. lia.
  Qed.
  Lemma comment_mono b0 b1 w rest q : comment b0 b1 w = Some rest -> comment b0 b1 (w ++ q) = Some (rest ++ q) /\ (length rest < length w)%nat.
  Proof.
    revert b0 b1. induction w as [|b w IH]; intros b0 b1 E; cbn [comment] in E; [done|]. cbn [app comment length].
    repeat case_match; simplify_eq; [split; [done|lia]|]. apply IH in E as [? ?]. split; [done|lia].
  Qed.
  Lemma instruction_mono b0 out w c rest q : instruction b0 out w = Some (c, rest) -> instruction b0 out (w ++ q) = Some (c, rest ++ q) /\ (length rest < length w)%nat.
  Proof.
    revert b0 out. induction w as [|b w IH]; intros b0 out E; cbn [instruction] in E; [done|]. cbn [app instruction length].
    repeat case_match; simplify_eq; [split; [done|lia]|]. apply IH in E as [? ?]. split; [done|lia].
  Qed.
  Lemma directive_mono quote d lt com w rest q : directive quote d lt com w = Some rest -> directive quote d lt com (w ++ q) = Some (rest ++ q) /\ (length rest < length w)%nat.
  Proof.
    revert quote d lt com. induction w as [|b w IH]; intros quote d lt com E; cbn [directive] in E; [done|]. cbn [app directive length].
    repeat case_match; simplify_eq; try (split; [done|lia]); apply IH in E as [? ?]; (split; [done|lia]).
  Qed.
  Lemma instruction_nonempty b0 out w r : instruction b0 out w = Some r -> w <> [].
  Proof. by destruct w. Qed.
  Lemma markup_mono w t rest q : markup w = Some (t, rest) -> markup (w ++ q) = Some (t, rest ++ q) /\ (length rest < length w)%nat.
  Proof.
    unfold Xml.markup. destruct w as [|b w]; [done|]. cbn [app]. destruct (b =? 47).
    { unfold end_tag. destruct (nsname w) as [[[p n] w1]|] eqn:E; [|done]. rewrite (nsname_mono _ _ _ _ q E). apply nsname_length in E.
      destruct (drop_byte 62 (space w1)) as [w2|] eqn:E1; [|done]. apply (drop_space_mono _ _ _ q) in E1 as [-> ?]. intros [= <- <-]. split; [done|]. cbn. lia. }
    destruct (b =? 63).
    { unfold proc. destruct (name w) as [[n w1]|] eqn:E; [|done]. rewrite (name_mono _ _ _ q E). apply name_length in E.
      destruct (instruction 0 [] (space w1)) as [[c w2]|] eqn:E1; [|done]. assert (Hne := instruction_nonempty _ _ _ _ E1).
      rewrite space_mono by done. apply (instruction_mono _ _ _ _ _ q) in E1 as [-> Hl]. case_match; [done|]. intros [= <- <-]. split; [done|].
      assert (H1 := space_length w1). cbn. lia. }
    destruct (b =? 33).
    { unfold bang. destruct w as [|c w]; [done|]. cbn [app]. destruct (c =? 45).
      { destruct (drop_byte 45 w) as [w1|] eqn:E1; [|done]. apply (drop_byte_mono _ _ _ q) in E1 as [-> ->]. unfold note.
        destruct (comment 0 0 w1) as [w2|] eqn:E2; [|done]. apply (comment_mono _ _ _ _ q) in E2 as [-> ?]. intros [= <- <-]. split; [done|]. cbn. lia. }
      destruct (c =? 91).
      { case_bool_decide as Hp; [|done]. destruct Hp as [k ->]. rewrite <- app_assoc. rewrite bool_decide_true by (by eexists).
        change (drop 6 (bytes_of "CDATA[" ++ k)) with k. change (drop 6 (bytes_of "CDATA[" ++ k ++ q)) with (k ++ q).
        destruct (checked_text None true k) as [[v w2]|] eqn:E2; [|done]. rewrite (checked_mono _ _ _ _ _ q E2) by (by right).
        apply checked_length in E2. intros [= <- <-]. split; [done|]. cbn. lia. }
      unfold note. destruct (directive 0 0 None None w) as [w1|] eqn:E1; [|done]. apply (directive_mono _ _ _ _ _ _ q) in E1 as [-> ?]. intros [= <- <-]. split; [done|]. cbn. lia. }
    unfold start_tag. destruct (nsname (b :: w)) as [[[p n] w1]|] eqn:E; [|done]. change (b :: w ++ q) with ((b :: w) ++ q). rewrite (nsname_mono _ _ _ _ q E). apply nsname_length in E.
    destruct (attributes (S (length w1)) w1) as [[[l e] w2]|] eqn:E1; [|done].
    apply (attributes_mono _ (S (length (w1 ++ q))) _ _ _ _ q) in E1 as [-> ?]; [|rewrite app_length; lia]. intros [= <- <-]. split; [done|]. cbn in *. lia.
  Qed.
  Lemma raw_length w t rest : raw_token w = RToken t rest -> (length rest < length w)%nat.
  Proof.
    unfold Xml.raw_token. destruct w as [|b w]; [done|]. destruct (N.eqb_spec b 60) as [->|Hb].
    - destruct (markup w) as [[t' r]|] eqn:E; [|done]. apply (markup_mono _ _ _ []) in E as [_ ?]. intros [= <- <-]. cbn. lia.
    - unfold checked_text. destruct (text None false 0 0 None [] (b :: w)) as [[v r]|] eqn:E; [|done]. destruct (text_ok v); [|done]. intros [= <- <-].
      cbn [text] in E. destruct (N.eqb_spec b 60); [done|]. cbn [andb N.eqb] in E. rewrite bool_decide_false in E by done.
      cbn [length]. repeat case_match; simplify_eq; apply text_length in E; lia.
  Qed.
  Lemma raw_markup_mono w t rest q : raw_token (60 :: w) = RToken t rest -> raw_token (60 :: w ++ q) = RToken t (rest ++ q).
  Proof. cbn. destruct (markup w) as [[t' r]|] eqn:E; [|done]. apply (markup_mono _ _ _ q) in E as [-> _]. by intros [= <- <-]. Qed.

  (** ** All tokens *)
  Definition T (open : list (list N * list N)) (w : list N) : list ev * bool := tokens (S (length w)) open w.
  Lemma tokens_fuel f open w : (length w < f)%nat -> tokens f open w = T open w.
  Proof.
    unfold T. revert open w. assert (H : forall f f' open w, (length w < f)%nat -> (length w < f')%nat -> tokens f open w = tokens f' open w).
    { clear f. induction f as [|f IH]; intros f' open w H1 H2; [lia|]. destruct f' as [|f']; [lia|]. cbn [Xml.tokens].
      destruct (raw_token w) as [t rest| |] eqn:E; [|done|done]. apply raw_length in E.
      destruct t as [p n l []|p n|v|]; try (rewrite (IH f') by lia; done).
      repeat case_match; try done; rewrite (IH f') in * by lia; congruence. }
    intros open w Hf. apply H; lia.
  Qed.
  Definition plus (es : list ev) (r : list ev * bool) : list ev * bool := (es ++ r.1, r.2).
  Lemma plus_plus a b r : plus a (plus b r) = plus (a ++ b) r.
  Proof. unfold plus. cbn. by rewrite app_assoc. Qed.
  Lemma T_step open w : T open w =
    match raw_token w with
    | REnd => ([], bool_decide (open = []))
    | RError => ([], false)
    | RToken (TStart p n l true) rest => plus [EStart n l; EEnd n] (T open rest)
    | RToken (TStart p n l false) rest => plus [EStart n l] (T ((p, n) :: open) rest)
    | RToken (TEnd p n) rest =>
      match open with
      | (p', n') :: open' => if bool_decide (n' = n) && bool_decide (p' = p) then plus [EEnd n] (T open' rest) else ([], false)
      | [] => ([], false)
      end
    | RToken (TText v) rest => plus [EText v] (T open rest)
    | RToken TNote rest => plus [ENote] (T open rest)
    end.
  Proof.
    unfold T at 1. cbn [Xml.tokens]. destruct (raw_token w) as [t rest| |] eqn:E; [|done|done]. apply raw_length in E.
    destruct t as [p n l []|p n|v|].
    all: repeat (rewrite tokens_fuel by lia). 1,2,4,5: by destruct (T _ rest).
    destruct open as [|[p' n'] open']; [done|]. case_match; [|done]. rewrite tokens_fuel by lia. by destruct (T _ rest).
  Qed.

  (** ** The tokens of what is written *)
  Definition single (w : list N) (t : token) : Prop := (exists w', w = 60 :: w') /\ forall tail, raw_token (w ++ tail) = RToken t tail.
  Lemma raw_markup w t tail : markup w = Some (t, tail) -> raw_token (60 :: w) = RToken t tail.
  Proof. cbn. by intros ->. Qed.
  Lemma stops_byte b w : b < 128 -> name_byte b = false -> stops (b :: w).
  Proof. intros. by exists b, w. Qed.
  Lemma stops_attributes l a s w : attributes_written l a -> white s -> stops w -> stops (a ++ s ++ w).
  Proof.
    intros [|n v l' s1 n' s2 s3 q v' w' Hne Hs1 _ _ _ _ _ _ _ _] Hs Hw; [cbn [app]; by apply stops_white|].
    destruct s1 as [|b s1]; [done|]. rewrite <- !app_assoc. cbn [app]. inversion Hs1; subst. exists b. eexists. split; [reflexivity|].
    assert (name_byte b <> true); [|split; [lia|by apply not_true_iff_false]]. rewrite name_byte_char. unfold name_char, letter, digit. lia.
  Qed.
  Lemma single_start n n' l a s (e : bool) : qname n n' -> attributes_written l a -> white s ->
    exists p, single (60 :: n' ++ a ++ s ++ if e then [47; 62] else [62]) (TStart p n l e) /\
      forall s', white s' -> single (60 :: 47 :: n' ++ s' ++ [62]) (TEnd p n).
  Proof.
    intros Hn Ha Hs. destruct (qname_ok _ _ Hn) as (p & Hp). destruct (qname_head _ _ Hn) as (b & n1 & En & Hb). exists p. split.
    - split; [by eexists|]. intros tail. cbn [app]. apply raw_markup. rewrite <- !app_assoc.
      assert (Hst : stops (a ++ s ++ (if e then [47; 62] else [62]) ++ tail)).
      { apply stops_attributes with l; [done|done|]. destruct e; by apply stops_byte. }
      specialize (Hp _ Hst). unfold Xml.markup. rewrite En. cbn [app]. rewrite En in Hp. cbn [app] in Hp.
      assert (Hnc : name_char b) by (unfold name_char; tauto). apply name_char_small in Hnc as (_ & _ & B3 & _ & B5 & B6 & _).
      destruct (N.eqb_spec b 47); [done|]. destruct (N.eqb_spec b 63); [done|]. destruct (N.eqb_spec b 33); [done|].
      unfold start_tag. rewrite Hp. rewrite (attributes_ok _ _ Ha _ s _ e); [by destruct e|rewrite !app_length; lia|done| |].
      + intros ->. by exists tail.
      + intros ->. by exists tail.
    - intros s' Hs'. split; [by eexists|]. intros tail. cbn [app]. apply raw_markup. rewrite <- !app_assoc. cbn [app].
      unfold Xml.markup. cbn [N.eqb Pos.eqb]. unfold end_tag. rewrite Hp by (apply stops_white; [done|]; eexists _, _; split; [reflexivity|done]).
      rewrite space_app by done. reflexivity.
  Qed.
  Lemma single_cdata v w : cdata v w -> legal v -> free_of [93; 93; 62] w -> single (bytes_of "<![CDATA[" ++ w ++ bytes_of "]]>") (TText v).
  Proof.
    intros H1 H2 H3. split; [by eexists|]. intros tail. rewrite <- !app_assoc.
    change (bytes_of "<![CDATA[" ++ w ++ bytes_of "]]>" ++ tail) with (60 :: 33 :: 91 :: bytes_of "CDATA[" ++ w ++ 93 :: 93 :: 62 :: tail).
    apply raw_markup. unfold Xml.markup, bang. cbn [N.eqb Pos.eqb]. rewrite bool_decide_true by (by eexists).
    match goal with |- context [drop 6 ?u] => change (drop 6 u) with (w ++ 93 :: 93 :: 62 :: tail) end. by rewrite (checked_cdata v).
  Qed.
  Lemma single_comment t : free_of (bytes_of "--") (t ++ bytes_of "-") -> single (bytes_of "<!--" ++ t ++ bytes_of "-->") TNote.
  Proof.
    intros H. split; [by eexists|]. intros tail. rewrite <- !app_assoc.
    change (bytes_of "<!--" ++ t ++ bytes_of "-->" ++ tail) with (60 :: 33 :: 45 :: 45 :: t ++ 45 :: 45 :: 62 :: tail).
    apply raw_markup. unfold Xml.markup, bang. cbn [N.eqb Pos.eqb drop_byte].
    assert (E : comment 0 0 (t ++ 45 :: 45 :: 62 :: tail) = Some tail) by (apply comment_ok; do 2 (apply free_cons; [done|]); done).
    by rewrite E.
  Qed.
  Lemma instruction_trim t tail : free_of [63; 62] t -> exists t', instruction 0 [] (space (t ++ 63 :: 62 :: tail)) = Some (t', tail) /\ (match t with b :: _ => is_space b = false | [] => True end -> t' = t).
  Proof.
    intros Hf. induction t as [|b t IH].
    - exists []. split; [|done]. cbn [app]. rewrite space_stop by done. reflexivity.
    - cbn [app space]. destruct (is_space b) eqn:E.
      + destruct IH as (t' & H1 & _); [by apply free_tail in Hf|]. exists t'. split; [done|]. intros H. done.
      + exists (b :: t). split; [|done]. change (b :: t ++ 63 :: 62 :: tail) with ((b :: t) ++ 63 :: 62 :: tail). rewrite instruction_ok; [done|]. by apply free_cons.
  Qed.
  Lemma stops_instruction s t tail : white s -> t = [] \/ s <> [] -> stops (s ++ t ++ 63 :: 62 :: tail).
  Proof.
    intros Hs [-> |Hne].
    - apply stops_white; [done|]. eexists _, _. split; [reflexivity|done].
    - destruct s as [|b s]; [done|]. inversion Hs; subst. exists b. eexists. split; [reflexivity|].
      assert (name_byte b <> true); [|split; [lia|by apply not_true_iff_false]]. rewrite name_byte_char. unfold name_char, letter, digit. lia.
  Qed.
  Lemma single_instruction n s t : plain_name n -> n <> bytes_of "xml" -> white s -> (t = [] \/ s <> []) -> free_of (bytes_of "?>") t ->
    single (bytes_of "<?" ++ n ++ s ++ t ++ bytes_of "?>") TNote.
  Proof.
    intros Hn Hx Hs Hst Hf. split; [by eexists|]. intros tail. rewrite <- !app_assoc.
    change (bytes_of "<?" ++ n ++ s ++ t ++ bytes_of "?>" ++ tail) with (60 :: 63 :: n ++ s ++ t ++ 63 :: 62 :: tail).
    apply raw_markup. unfold Xml.markup. cbn [N.eqb Pos.eqb]. unfold proc. rewrite name_plain by (done || by apply stops_instruction).
    rewrite space_app by done. destruct (instruction_trim t tail Hf) as (t' & -> & _). by rewrite bool_decide_false.
  Qed.
  Lemma single_directive b t : letter b -> directive_body t -> single (bytes_of "<!" ++ b :: t ++ [62]) TNote.
  Proof.
    intros Hb Ht. split; [by eexists|]. intros tail. rewrite <- !app_assoc.
    change (bytes_of "<!" ++ (b :: t ++ [62]) ++ tail) with (60 :: 33 :: b :: (t ++ [62]) ++ tail). rewrite <- app_assoc. cbn [app].
    apply raw_markup. unfold Xml.markup. cbn [N.eqb Pos.eqb]. unfold bang. unfold letter in Hb. destruct (N.eqb_spec b 45); [lia|]. destruct (N.eqb_spec b 91); [lia|]. rewrite directive_ok by done. done.
  Qed.

  Lemma after_skip p c w : ~ p `prefix_of` c :: w -> after_first p (c :: w) = after_first p w.
  Proof. intros H. cbn. by rewrite bool_decide_false. Qed.
  Lemma after_white p s w : white s -> after_first (101 :: p) (s ++ w) = after_first (101 :: p) w.
  Proof.
    induction 1 as [|b s Hb _ IH]; [done|]. cbn [app]. rewrite after_skip; [done|]. intros [k E]. cbn in E. simplify_eq. lia.
  Qed.
  Lemma before_ok q v w : q ∉ v -> before q (v ++ q :: w) = Some v.
  Proof.
    induction v as [|b v IH]; intros H; cbn; [by rewrite N.eqb_refl|]. apply not_elem_of_cons in H as [? ?]. destruct (N.eqb_spec b q); [by subst|]. by rewrite IH.
  Qed.
  Ltac skip := rewrite after_skip by (intros [? Hskip]; discriminate Hskip).
  Lemma declaration_good t : declaration_written t -> declaration_ok t = true /\ free_of [63; 62] t /\ head t = Some 118.
  Proof.
    intros [q s1 w1 s2 w2 s3 Hq Hs1 Hs2 Hs3 H1 H2].
    assert (Hw : forall s, white s -> Forall (fun b => b <> 63) s) by (intros s Hs; eapply Forall_impl; [done|]; cbn; lia).
    split; [|split; [|done]].
    - set (rest := s1 ++ w1 ++ s2 ++ w2 ++ s3).
      assert (Ev : proc_inst "version" (bytes_of "version=" ++ (q :: bytes_of "1.0" ++ [q]) ++ rest) = bytes_of "1.0").
      { unfold proc_inst. change (bytes_of "version" ++ [61]) with (bytes_of "version=").
        assert (E : forall p w, after_first p (p ++ w) = Some w) by (intros p w; destruct (p ++ w) eqn:E; cbn; rewrite bool_decide_true by (rewrite <- E; by eexists); rewrite <- E; by rewrite drop_app).
        rewrite E. cbn [app]. destruct Hq as [-> | ->]; reflexivity. }
      assert (E2 : after_first (bytes_of "encoding=") (s2 ++ w2 ++ s3) = None).
      { change (bytes_of "encoding=") with (101 :: bytes_of "ncoding="). rewrite after_white by done. destruct H2 as [-> |(_ & q' & a & Hq' & Ha & ->)].
        - cbn [app]. rewrite <- (app_nil_r s3). by rewrite after_white.
        - assert (Hf : forall w, ((bytes_of "standalone=" ++ q' :: a ++ [q']) ++ w) = bytes_of "standalone=" ++ q' :: a ++ q' :: w) by (intros w; rewrite <- app_assoc; cbn [app]; by rewrite <- app_assoc).
          rewrite Hf. change (101 :: bytes_of "ncoding=") with (bytes_of "encoding=").
          assert (Hn : after_first (bytes_of "encoding=") s3 = None).
          { change (bytes_of "encoding=") with (101 :: bytes_of "ncoding="). rewrite <- (app_nil_r s3). by rewrite after_white. }
          rewrite <- Hn. apply elem_of_cons in Ha as [-> |Ha]; [|apply elem_of_list_singleton in Ha as ->]; destruct Hq' as [-> | ->];
            (change (bytes_of "standalone=") with [115; 116; 97; 110; 100; 97; 108; 111; 110; 101; 61]; change (bytes_of "yes") with [121; 101; 115]; change (bytes_of "no") with [110; 111];
             cbn [app]; repeat skip; done). }
      assert (E1 : exists e, proc_inst "encoding" (bytes_of "version=" ++ (q :: bytes_of "1.0" ++ [q]) ++ rest) = e /\ (e = [] \/ map lower e = bytes_of "utf-8")).
      { unfold proc_inst. change (bytes_of "encoding" ++ [61]) with (bytes_of "encoding=").
        assert (Es : after_first (bytes_of "encoding=") (bytes_of "version=" ++ (q :: bytes_of "1.0" ++ [q]) ++ rest) = after_first (bytes_of "encoding=") rest).
        { change (bytes_of "version=" ++ (q :: bytes_of "1.0" ++ [q]) ++ rest) with (118 :: 101 :: 114 :: 115 :: 105 :: 111 :: 110 :: 61 :: q :: 49 :: 46 :: 48 :: q :: rest).
          destruct Hq as [-> | ->]; do 13 skip; done. }
        rewrite Es. unfold rest. change (bytes_of "encoding=") with (101 :: bytes_of "ncoding=") at 1. rewrite after_white by done. change (101 :: bytes_of "ncoding=") with (bytes_of "encoding=").
        destruct H1 as [-> |(_ & q' & e & Hq' & He & ->)].
        - cbn [app]. rewrite E2. exists []. by split; [|left].
        - assert (E : forall p w, after_first p (p ++ w) = Some w) by (intros p w; destruct (p ++ w) eqn:E; cbn; rewrite bool_decide_true by (rewrite <- E; by eexists); rewrite <- E; by rewrite drop_app).
          rewrite <- app_assoc, E. cbn [app]. rewrite <- app_assoc. cbn [app].
          replace ((q' =? 39) || (q' =? 34)) with true by (by destruct Hq' as [-> | ->]).
          destruct He as (u & c & f & Hu & Ht & Hf & ->). rewrite before_ok.
          2:{ rewrite !not_elem_of_cons. destruct Hq' as [-> | ->]; repeat split; try lia; by apply not_elem_of_nil. }
          eexists. split; [reflexivity|]. right. cbn [default]. destruct Hu as [-> | ->], Ht as [-> | ->], Hf as [-> | ->]; reflexivity. }
      destruct E1 as (e & Ee & He). unfold declaration_ok. rewrite Ev, Ee. rewrite (bool_decide_true (bytes_of "1.0" = bytes_of "1.0")) by done. rewrite orb_true_r. cbn [andb].
      destruct He as [-> |He]; [done|]. rewrite (bool_decide_true (map lower e = _)) by done. by rewrite orb_true_r.
    - assert (Hall : Forall (fun b => b <> 63) (bytes_of "version=" ++ (q :: bytes_of "1.0" ++ [q]) ++ s1 ++ w1 ++ s2 ++ w2 ++ s3)).
      { assert (Hq' : forall q, is_quote q -> q <> 63) by (unfold is_quote; lia). 
        rewrite !Forall_app, !Forall_cons, !Forall_app, !Forall_cons.
        assert (B : forall x, existsb (N.eqb 63) (bytes_of x) = false -> Forall (fun b => b <> 63) (bytes_of x)).
        { intros x Hx. apply Forall_forall. intros b Hb ->. apply not_true_iff_false in Hx. apply Hx. apply existsb_exists. exists 63. split; [by apply elem_of_list_In|done]. }
        assert (C1 : Forall (fun b => b <> 63) w1).
        { destruct H1 as [-> |(_ & q' & e & Hq1 & (u & c & f & Hu & Ht & Hf & ->) & ->)]; [constructor|]. apply Forall_app. split; [by apply B|].
          repeat constructor; eauto; lia. }
        assert (C2 : Forall (fun b => b <> 63) w2).
        { destruct H2 as [-> |(_ & q' & a & Hq1 & Ha & ->)]; [constructor|]. rewrite Forall_app, Forall_cons, Forall_app, Forall_singleton.
          apply elem_of_cons in Ha as [-> |Ha]; [|apply elem_of_list_singleton in Ha as ->]; repeat split; eauto. }
        repeat split; eauto; by apply Hw. }
      intros a b E. rewrite E in Hall. apply Forall_app in Hall as [_ Hall]. by inversion Hall.
  Qed.
  Lemma single_declaration s t : s <> [] -> white s -> declaration_written t -> single (bytes_of "<?xml" ++ s ++ t ++ bytes_of "?>") TNote.
  Proof.
    intros Hne Hs Ht. destruct (declaration_good t Ht) as (Hd & Hf & Hh). split; [by eexists|]. intros tail. rewrite <- !app_assoc.
    change (bytes_of "<?xml" ++ s ++ t ++ bytes_of "?>" ++ tail) with (60 :: 63 :: bytes_of "xml" ++ s ++ t ++ 63 :: 62 :: tail).
    apply raw_markup. unfold Xml.markup. cbn [N.eqb Pos.eqb]. unfold proc.
    rewrite name_plain; [| |apply stops_instruction; [done|by right]].
    2:{ exists 120, (bytes_of "ml"). split; [done|]. unfold letter. split; [lia|]. change (bytes_of "ml") with [109; 108]. repeat constructor; lia. }
    rewrite space_app by done. destruct (instruction_trim t tail Hf) as (t' & -> & Ht'). rewrite Ht'; [by rewrite Hd, andb_false_r|].
    destruct t as [|b t]; [done|]. cbn in Hh. by simplify_eq.
  Qed.

  (** ** Every written document is read *)
  Lemma T_single w t open tail : single w t ->
    T open (w ++ tail) =
    match t with
    | TStart p n l true => plus [EStart n l; EEnd n] (T open tail)
    | TStart p n l false => plus [EStart n l] (T ((p, n) :: open) tail)
    | TEnd p n =>
      match open with
      | (p', n') :: open' => if bool_decide (n' = n) && bool_decide (p' = p) then plus [EEnd n] (T open' tail) else ([], false)
      | [] => ([], false)
      end
    | TText v => plus [EText v] (T open tail)
    | TNote => plus [ENote] (T open tail)
    end.
  Proof. intros [_ H]. rewrite T_step. by rewrite H. Qed.
  Lemma single_head w t : single w t -> head w = Some 60.
  Proof. by intros [[w' ->] _]. Qed.

  Lemma chars_head v w : chars None v w -> head w <> Some 60.
  Proof. intros [| | | |]; cbn; congruence. Qed.
  Lemma T_text v w open tail : w <> [] -> chars None v w -> legal v -> free_of [93; 93; 62] w -> tail = [] \/ head tail = Some 60 ->
    T open (w ++ tail) = plus [EText v] (T open tail).
  Proof.
    intros Hne Hc Hl Hf Ht. rewrite T_step. pose proof (checked_plain v w tail Hc Hl Hf Ht) as E.
    pose proof (chars_head _ _ Hc) as Hh. destruct w as [|b w]; [done|]. cbn [app Xml.raw_token head] in *. destruct (N.eqb_spec b 60) as [-> |]; [done|]. by rewrite E.
  Qed.

  Scheme written_ind2 := Induction for written Sort Prop with written_all_ind2 := Induction for written_all Sort Prop.
  Combined Scheme written_mutind from written_ind2, written_all_ind2.

  Definition ends (w tail : list N) : Prop := head w = Some 60 \/ tail = [] \/ head tail = Some 60.
  Lemma T_written :
    (forall n w, written n w -> forall open tail, ends w tail -> T open (w ++ tail) = plus (events n) (T open tail)) /\
    (forall ns w, written_all ns w -> forall open tail, (tail = [] \/ head tail = Some 60) -> T open (w ++ tail) = plus (flat_map events ns) (T open tail)).
  Proof.
    apply written_mutind.
    - intros v w Hne Hc Hl Hf open tail [H|H]; [|by apply T_text]. by destruct (chars_head _ _ Hc).
    - intros v w Hc Hl Hf open tail _. exact (T_single _ _ open tail (single_cdata v w Hc Hl Hf)).
    - intros t Hf open tail _. exact (T_single _ _ open tail (single_comment t Hf)).
    - intros n s t H1 H2 H3 H4 H5 open tail _. exact (T_single _ _ open tail (single_instruction n s t H1 H2 H3 H4 H5)).
    - intros s t H1 H2 H3 open tail _. exact (T_single _ _ open tail (single_declaration s t H1 H2 H3)).
    - intros b t H1 H2 open tail _. exact (T_single _ _ open tail (single_directive b t H1 H2)).
    - intros n l kids n' a s w s' Hn Ha Hs _ IH Hs' open tail _.
      destruct (single_start n n' l a s false Hn Ha Hs) as (p & H1 & H2). specialize (H2 s' Hs').
      rewrite <- app_assoc, (T_single _ _ open _ H1), <- app_assoc, IH by (right; reflexivity).
      rewrite (T_single _ _ _ tail H2), !bool_decide_true by done. cbn [andb]. rewrite !plus_plus. f_equal.
    - intros n l n' a s Hn Ha Hs open tail _. destruct (single_start n n' l a s true Hn Ha Hs) as (p & H1 & _).
      exact (T_single _ _ open tail H1).
    - intros open tail _. cbn [app flat_map]. unfold plus. by destruct (T open tail).
    - intros n ns w ws _ IH1 _ IH2 He open tail Ht. rewrite <- app_assoc, IH1; [rewrite IH2 by done; by rewrite plus_plus|].
      destruct He as [? |[-> |Hw]]; [by left|by right|]. right. right. destruct ws; [done|]. by cbn in *.
  Qed.
  Lemma T_nil open : T open [] = ([], bool_decide (open = [])).
  Proof. by rewrite T_step. Qed.

  (** ** Whatever is read is a document *)
  Fixpoint closes (open : list (list N * list N)) (es : list ev) : Prop :=
    match open with
    | [] => exists doc, es = flat_map events doc
    | (_, n) :: open' => exists doc es', es = flat_map events doc ++ EEnd n :: es' /\ closes open' es'
    end.
  Lemma closes_node n open es : closes open es -> closes open (events n ++ es).
  Proof.
    destruct open as [|[p m] open]; cbn.
    - intros (doc & ->). by exists (n :: doc).
    - intros (doc & es' & -> & H). exists (n :: doc), es'. cbn. by rewrite <- app_assoc.
  Qed.
  Lemma T_closes w : forall open, (T open w).2 = true -> closes open (T open w).1.
  Proof.
    remember (length w) as k eqn:Ek. revert w Ek. induction (lt_wf k) as [k _ IH]. intros w -> open. rewrite T_step.
    destruct (raw_token w) as [t rest| |] eqn:E; [|done|].
    2:{ cbn. intros H%bool_decide_eq_true. subst. by exists []. }
    apply raw_length in E. specialize (IH _ E rest eq_refl). destruct t as [p n l []|p n|v|].
    - intros H. apply (closes_node (Elem n l [])). by apply IH.
    - intros H. apply IH in H. destruct H as (doc & es' & Hes & H). cbn [plus fst]. rewrite Hes.
      apply (closes_node (Elem n l doc)) in H. cbn [events] in H. cbn [app] in *. by rewrite <- app_assoc in H.
    - destruct open as [|[p' n'] open]; [done|]. destruct (bool_decide_reflect (n' = n)) as [-> |]; [|done]. destruct (bool_decide (p' = p)); [|done].
      cbn [andb]. intros H. exists [], (T open rest).1. split; [done|]. by apply IH.
    - intros H. apply (closes_node (Text v)). by apply IH.
    - intros H. apply (closes_node Note). by apply IH.
  Qed.

  (** ** Text that ends too early *)
  Lemma single_cut w t p q : single w t -> w = p ++ q -> p <> [] -> q <> [] -> raw_token p = RError.
  Proof.
    intros [[w' ->] H] E Hp Hq. destruct p as [|b p]; [done|]. cbn in E. injection E as <- ->.
    destruct (raw_token (60 :: p)) as [t' rest| |] eqn:Er; [|done|by cbn in Er; repeat case_match]. 
    apply (raw_markup_mono _ _ _ q) in Er. specialize (H []). rewrite app_nil_r in H. rewrite H in Er. injection Er as <- E.
    destruct rest, q; done.
  Qed.
  Lemma T_cut_single w t p q open : single w t -> w = p ++ q -> p <> [] -> q <> [] -> (T open p).2 = false.
  Proof. intros H1 H2 H3 H4. rewrite T_step. by rewrite (single_cut w t p q). Qed.
  Lemma T_cut_open w t n open p q : single w t -> (forall tail, T open (w ++ tail) = plus (events n) (T open tail)) -> open <> [] -> w = p ++ q -> (T open p).2 = false.
  Proof.
    intros H1 H2 Ho E. destruct p as [|b p]; [rewrite T_nil; by apply bool_decide_eq_false|]. destruct q as [|c q].
    - rewrite app_nil_r in E. specialize (H2 []). rewrite app_nil_r in H2. rewrite <- E, H2, T_nil. by apply bool_decide_eq_false.
    - by eapply T_cut_single.
  Qed.
  Lemma text_no_markup b0 b1 ref out w v rest : 60 ∉ w -> text None false b0 b1 ref out w = Some (v, rest) -> rest = [].
  Proof.
    revert b0 b1 ref out. induction w as [|b w IH]; intros b0 b1 ref out Hn; cbn [text].
    - destruct (_ || _); [done|]. by intros [= _ <-].
    - apply not_elem_of_cons in Hn as [Hb Hn]. assert (E : b =? 60 = false) by (apply N.eqb_neq; congruence). rewrite E. cbn [andb].
      rewrite bool_decide_false by done. repeat case_match; try done; eauto.
  Qed.
  Lemma chars_no_markup quote v w : chars quote v w -> 60 ∉ w.
  Proof.
    assert (Hr : forall n x, refers n x -> 60 ∉ n).
    { intros n x Hr. cut (Forall (fun b => b <> 60) n); [intros H E; by apply (proj1 (Forall_forall _ _) H 60 E)|].
      destruct Hr as [| | | | |ds n _ Hd _ _|ds n _ Hd _ _]; try (repeat constructor; done).
      - constructor; [done|]. eapply Forall_impl; [done|]. unfold digit. cbn. lia.
      - do 2 (constructor; [done|]). eapply Forall_impl; [done|]. unfold hex, digit. cbn. lia. }
    induction 1; rewrite ?not_elem_of_cons, ?not_elem_of_app, ?not_elem_of_cons; repeat split; eauto; try lia; by apply not_elem_of_nil.
  Qed.
  Lemma T_cut_text v w p q open : chars None v w -> w = p ++ q -> open <> [] -> (T open p).2 = false.
  Proof.
    intros Hc -> Ho. apply chars_no_markup in Hc. apply not_elem_of_app in Hc as [Hp _]. destruct p as [|b p]; [rewrite T_nil; by apply bool_decide_eq_false|].
    rewrite T_step. cbn [Xml.raw_token]. pose proof Hp as Hp'. apply not_elem_of_cons in Hp' as [Hb _]. rewrite (proj2 (N.eqb_neq b 60)) by congruence.
    unfold checked_text. destruct (text None false 0 0 None [] (b :: p)) as [[u rest]|] eqn:E; [|done]. apply text_no_markup in E as ->; [|done].
    destruct (text_ok u); [|done]. cbn [plus snd]. rewrite T_nil. by apply bool_decide_eq_false.
  Qed.
  Lemma T_cut :
    (forall n w, written n w -> forall open p q, w = p ++ q -> (open <> [] -> (T open p).2 = false) /\ (is_text n = false -> p <> [] -> q <> [] -> (T open p).2 = false)) /\
    (forall ns w, written_all ns w -> forall open p q, open <> [] -> w = p ++ q -> (T open p).2 = false).
  Proof.
    apply written_mutind.
    - intros v w Hne Hc Hl Hf open p q E. split; [|done]. by eapply T_cut_text.
    - intros v w Hc Hl Hf open p q E. pose proof (single_cdata v w Hc Hl Hf) as S. split; [|done].
      intros Ho. eapply (T_cut_open _ _ (Text v)); eauto. intros tail. exact (T_single _ _ open tail S).
    - intros t Hf open p q E. pose proof (single_comment t Hf) as S. split; [|intros _ H1 H2; by eapply T_cut_single].
      intros Ho. eapply (T_cut_open _ _ Note); eauto. intros tail. exact (T_single _ _ open tail S).
    - intros n s t H1 H2 H3 H4 H5 open p q E. pose proof (single_instruction n s t H1 H2 H3 H4 H5) as S. split; [|intros _ ? ?; by eapply T_cut_single].
      intros Ho. eapply (T_cut_open _ _ Note); eauto. intros tail. exact (T_single _ _ open tail S).
    - intros s t H1 H2 H3 open p q E. pose proof (single_declaration s t H1 H2 H3) as S. split; [|intros _ ? ?; by eapply T_cut_single].
      intros Ho. eapply (T_cut_open _ _ Note); eauto. intros tail. exact (T_single _ _ open tail S).
    - intros b t H1 H2 open p q E. pose proof (single_directive b t H1 H2) as S. split; [|intros _ ? ?; by eapply T_cut_single].
      intros Ho. eapply (T_cut_open _ _ Note); eauto. intros tail. exact (T_single _ _ open tail S).
    - intros n l kids n' a s w s' Hn Ha Hs Hw IH Hs' open p q E.
      destruct (single_start n n' l a s false Hn Ha Hs) as (px & S1 & S2). specialize (S2 s' Hs').
      assert (Main : p <> [] -> q <> [] -> (T open p).2 = false).
      { intros Hp Hq. apply app_eq_inv in E as [(k & E1 & E2)|(k & E1 & E2)].
        - destruct k as [|c k].
          + rewrite app_nil_r in E1. pose proof (T_single _ _ open [] S1) as E. rewrite app_nil_r in E. rewrite <- E1, E. cbn [plus snd]. by rewrite T_nil.
          + by apply (T_cut_single _ _ p (c :: k) open S1).
        - subst p. rewrite (T_single _ _ open k S1). cbn [plus snd]. apply app_eq_inv in E2 as [(k' & E1 & E2)|(k' & E1 & E2)].
          + by apply (IH _ k k').
          + subst k. destruct k' as [|c k'].
            * rewrite app_nil_r. apply (IH _ w []); [done|by rewrite app_nil_r].
            * rewrite (proj2 T_written kids w Hw) by (right; cbn in E2; by injection E2 as <- _). cbn [plus snd]. by apply (T_cut_single _ _ (c :: k') q _ S2). }
      split; [|by intros _]. intros Ho. destruct p as [|b p]; [rewrite T_nil; by apply bool_decide_eq_false|]. destruct q as [|c q]; [|by apply Main].
      rewrite app_nil_r in E. pose proof (proj1 T_written _ _ (w_element n l kids n' a s w s' Hn Ha Hs Hw Hs') open [] (or_introl eq_refl)) as E'.
      rewrite app_nil_r in E'. rewrite <- E, E'. cbn [plus snd]. rewrite T_nil. by apply bool_decide_eq_false.
    - intros n l n' a s Hn Ha Hs open p q E. destruct (single_start n n' l a s true Hn Ha Hs) as (px & S & _). split; [|intros _ ? ?; by eapply T_cut_single].
      intros Ho. eapply (T_cut_open _ _ (Elem n l [])); eauto. intros tail. exact (T_single _ _ open tail S).
    - intros open p q Ho E. destruct p; [|done]. rewrite T_nil. by apply bool_decide_eq_false.
    - intros n ns w ws Hn IH1 Hns IH2 He open p q Ho E. apply app_eq_inv in E as [(k & E1 & E2)|(k & E1 & E2)].
      + by apply (proj1 (IH1 open p k E1)).
      + subst p. destruct k as [|c k].
        * rewrite app_nil_r. apply (proj1 (IH1 open w [] (eq_sym (app_nil_r w)))). done.
        * rewrite (proj1 T_written n w Hn); [cbn [plus snd]; by apply (IH2 _ (c :: k) q)|]. destruct He as [? |[-> |Hw]]; [by left|done|].
          right. right. rewrite E2 in Hw. done.
  Qed.
End decoder.

(** ** One way to write every document *)
Lemma node_nested (P : node -> Prop) : (forall n l kids, Forall P kids -> P (Elem n l kids)) -> (forall v, P (Text v)) -> P Note -> forall n, P n.
Proof.
  intros H1 H2 H3. fix IH 1. intros [n l kids|v|]; [|apply H2|apply H3]. apply H1. induction kids as [|k kids IHk]; constructor; [apply IH|exact IHk].
Qed.
Lemma escape_chars quote v : quote = None \/ quote = Some 34 -> chars quote v (escape v).
Proof.
  intros Hq. induction v as [|b v IH]; [constructor|]. change (escape (b :: v)) with (escape_byte b ++ escape v). unfold escape_byte.
  destruct (N.eqb_spec b 60) as [-> |H1]; [exact (c_ref quote _ _ v _ r_lt IH)|].
  destruct (N.eqb_spec b 62) as [-> |H2]; [exact (c_ref quote _ _ v _ r_gt IH)|].
  destruct (N.eqb_spec b 38) as [-> |H3]; [exact (c_ref quote _ _ v _ r_amp IH)|].
  destruct (N.eqb_spec b 34) as [-> |H4].
  { assert (R : refers (35 :: [51; 52]) (string_of_rune (Z.of_N 34))) by (apply r_dec; [done|repeat constructor; unfold digit; lia|done|lia]). exact (c_ref quote _ _ v _ R IH). }
  destruct (N.eqb_spec b 13) as [-> |H5].
  { assert (R : refers (35 :: 120 :: [68]) (string_of_rune (Z.of_N 13))) by (apply r_hex; [done|repeat constructor; unfold hex; lia|done|lia]). exact (c_ref quote _ _ v _ R IH). }
  constructor; try done. destruct Hq as [-> | ->]; congruence.
Qed.
Lemma escape_free v : free_of [93; 93; 62] (escape v).
Proof.
  assert (H : 62 ∉ escape v).
  { induction v as [|b v IH]; [by apply not_elem_of_nil|]. change (escape (b :: v)) with (escape_byte b ++ escape v). apply not_elem_of_app. split; [|done].
    unfold escape_byte. repeat case_match; try (by apply not_elem_of_cons; split; [apply N.eqb_neq in H0; congruence|apply not_elem_of_nil]); intros Hin; vm_compute in Hin;
      repeat (apply elem_of_cons in Hin as [Hin|Hin]; [try discriminate|]); try (by apply elem_of_nil in Hin). }
  intros a b E. apply H. rewrite E. apply elem_of_app. right. cbn. set_solver.
Qed.
Lemma print_attributes l : Forall (fun a => plain_name a.1 /\ legal a.2) l -> attributes_written l (concat (map print_attribute l)).
Proof.
  induction 1 as [|[n v] l [H1 H2] _ IH]; [constructor|]. cbn [map concat]. cbn [fst snd] in *.
  change (print_attribute (n, v)) with (32 :: n ++ [61; 34] ++ escape v ++ [34]).
  replace ((32 :: n ++ [61; 34] ++ escape v ++ [34]) ++ concat (map print_attribute l))
    with ([32] ++ n ++ [] ++ 61 :: [] ++ 34 :: escape v ++ 34 :: concat (map print_attribute l)) by (cbn [app]; rewrite <- !app_assoc; cbn [app]; by rewrite <- app_assoc).
  apply a_cons; try done.
  - repeat constructor; by left.
  - by constructor.
  - constructor.
  - constructor.
  - by left.
  - apply escape_chars. by right.
  - apply escape_free.
Qed.
Lemma print_head n : is_text n = false -> head (print n) = Some 60.
Proof. by destruct n. Qed.
Lemma print_all ns : Forall (fun n => printable n -> written n (print n)) ns -> Forall printable ns -> no_neighbours ns -> written_all ns (concat (map print ns)).
Proof.
  induction 1 as [|n ns Hn _ IH]; intros Hp Hb; [constructor|]. inversion Hp; subst. cbn [map concat]. constructor; [by apply Hn|apply IH; [done|by destruct Hb]|].
  destruct (is_text n) eqn:Et; [|left; by apply print_head]. right. destruct ns as [|m ns]; [by left|]. right. destruct Hb as [Hb _].
  destruct (is_text m) eqn:Em; [destruct Hb; by split|]. apply print_head in Em. cbn. by destruct (print m).
Qed.
Lemma print_written n : printable n -> written n (print n).
Proof.
  induction n as [n l kids IH|v|] using node_nested.
  - intros (Hn & Hl & Hb & Hk). assert (Hk' : Forall printable kids) by (clear -Hk; induction kids as [|k kids IH]; constructor; [apply Hk|apply IH, Hk]).
    pose proof (w_element n l kids n _ [] _ [] (q_plain n Hn) (print_attributes l Hl) (Forall_nil_2 _) (print_all kids IH Hk' Hb) (Forall_nil_2 _)) as W.
    cbn [app] in W. cbn [print]. rewrite <- !app_assoc in W. cbn [app] in W. exact W.
  - intros [Hne Hl]. constructor; [|apply escape_chars; by left|done|apply escape_free].
    cbn [print]. destruct v as [|b v]; [done|]. intros E. apply (f_equal length) in E. revert E. change (escape (b :: v)) with (escape_byte b ++ escape v).
    rewrite app_length. unfold escape_byte. repeat case_match; cbn; lia.
  - intros _. apply (w_comment []). intros [|? [|? a]] b E; done.
Qed.

(** ** C84 *)
Lemma l_C84_every_writing_is_read : forall first more doc w, written_all doc w -> tokenize first more w = (flat_map events doc, true).
Proof.
  intros fr mr doc w H. pose proof (proj2 (T_written fr mr) doc w H [] [] (or_introl eq_refl)) as E. rewrite app_nil_r in E.
  change (tokenize fr mr w) with (T fr mr [] w). rewrite E, T_nil. unfold plus. cbn. by rewrite app_nil_r.
Qed.
Lemma l_C84_every_document_can_be_written : forall doc, Forall printable doc -> no_neighbours doc -> written_all doc (concat (map print doc)).
Proof. intros doc H1 H2. apply print_all; [|done..]. apply Forall_forall. intros n _. apply print_written. Qed.
Lemma l_C84_what_is_read_is_a_document : forall first more w es, tokenize first more w = (es, true) -> exists doc, es = flat_map events doc.
Proof. intros fr mr w es E. pose proof (T_closes fr mr w []) as H. change (T fr mr [] w) with (tokenize fr mr w) in H. rewrite E in H. by apply H. Qed.
Lemma l_C84_a_part_is_refused : forall first more pre wpre n l kids p q,
  written_all pre wpre -> written (Elem n l kids) (p ++ q) -> p <> [] -> q <> [] -> (tokenize first more (wpre ++ p)).2 = false.
Proof.
  intros fr mr pre wpre n l kids p q Hpre Hw Hp Hq. change (tokenize fr mr (wpre ++ p)) with (T fr mr [] (wpre ++ p)).
  assert (Hh : head p = Some 60) by (destruct p as [|b p]; [done|]; inversion Hw; subst; cbn in *; congruence).
  rewrite (proj2 (T_written fr mr) pre wpre Hpre [] p) by (by right). cbn [plus snd].
  by apply (proj1 (T_cut fr mr) _ _ Hw [] p q eq_refl).
Qed.
