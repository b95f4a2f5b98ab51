(** Proofs for C89. *)
From Verif Require Import Base BaseFacts Utf8 Spec Utf8Facts DocSpec Xml XmlSpec ThmXml XmlLang.
From stdpp Require Import list.
Open Scope N_scope.

(** ** Lists *)
Lemma free3_cons b0 b1 b w : ~ (b0 = 93 /\ b1 = 93 /\ b = 62) -> free_of [93; 93; 62] (b1 :: b :: w) -> free_of [93; 93; 62] (b0 :: b1 :: b :: w).
Proof.
  intros Hn H [|c a] e E; cbn in E; [by simplify_eq; apply Hn|]. injection E as -> E. by apply (H a e).
Qed.
Lemma free_short p w : (length w < length p)%nat -> free_of p w.
Proof. intros H a b E. rewrite E, !app_length in H. lia. Qed.

Lemma legal_iff v : text_ok v = true <-> legal v.
Proof. exact (legal_text_ok (fun _ => false) (fun _ => false) v). Qed.

(** ** References *)
Lemma digit_of_10 b d : digit_of 10 b = Some d -> digit b /\ d = hex_value b.
Proof.
  unfold digit_of. destruct (is_digit b) eqn:E; cbn; [|done]. intros [= <-]. apply digit_bool in E. split; [done|]. unfold hex_value, digit in *.
  destruct (N.leb_spec b 57); lia.
Qed.
Lemma digit_of_16 b d : digit_of 16 b = Some d -> hex b /\ d = hex_value b.
Proof.
  unfold digit_of, in_chars. destruct (is_digit b) eqn:E; cbn.
  - intros [= <-]. apply digit_bool in E. split; [by left|]. unfold hex_value, digit in *. destruct (N.leb_spec b 57); lia.
  - destruct (N.leb_spec 97 b), (N.leb_spec b 102); cbn; [| |destruct (N.leb_spec 65 b), (N.leb_spec b 70); cbn; try done|destruct (N.leb_spec 65 b), (N.leb_spec b 70); cbn; try done].
    + intros [= <-]. unfold hex, hex_value. destruct (N.leb_spec b 57), (N.leb_spec b 70); lia.
    + destruct (N.leb_spec 65 b), (N.leb_spec b 70); cbn; try done; lia.
    + intros [= <-]. unfold hex, hex_value. destruct (N.leb_spec b 57), (N.leb_spec b 70); lia.
    + lia.
Qed.
Lemma number_inv base (P : N -> Prop) ds acc k : (forall b d, digit_of base b = Some d -> P b /\ d = hex_value b) -> number base acc ds = Some k ->
  Forall P ds /\ k = foldl (fun a d => a * base + hex_value d) acc ds.
Proof.
  intros Hd. revert acc. induction ds as [|b ds IH]; intros acc E; cbn in E; [by simplify_eq|].
  destruct (digit_of base b) as [d|] eqn:Eb; [|done]. apply Hd in Eb as [Hb ->]. apply IH in E as [? ->]. split; [by constructor|done].
Qed.
Lemma reference_inv n x : reference n = Some x -> refers n x.
Proof.
  unfold reference. destruct n as [|b ds]; [done|]. destruct (N.eqb_spec b 35) as [-> |_].
  - destruct ds as [|c hs]; [done|]. destruct (N.eqb_spec c 120) as [-> |_].
    + unfold char_number. destruct hs as [|h hs]; [done|]. destruct (number 16 0 (h :: hs)) as [k|] eqn:E; [|done]. apply (number_inv 16 hex _ _ _ digit_of_16) in E as [H1 H2].
      destruct (N.leb_spec k 0x10FFFF); [|done]. intros [= <-]. by apply r_hex.
    + unfold char_number. destruct (number 10 0 (c :: hs)) as [k|] eqn:E; [|done]. apply (number_inv 10 digit _ _ _ digit_of_10) in E as [H1 H2].
      destruct (N.leb_spec k 0x10FFFF); [|done]. intros [= <-]. by apply r_dec.
  - unfold entities. cbn [entity].
    repeat match goal with |- context [bool_decide (?a = ?c)] => destruct (bool_decide_reflect (a = c)) as [<-|_]; [intros [= <-]; constructor|] end. done.
Qed.

(** ** Text *)
Lemma text_ref_inv quote cd b0 b1 n out w r : text quote cd b0 b1 (Some n) out w = Some r ->
  exists m w' y, w = m ++ 59 :: w' /\ reference (n ++ m) = Some y /\ text quote cd 0 0 None (out ++ y) w' = Some r.
Proof.
  revert n. induction w as [|b w IH]; intros n E; cbn in E.
  - by destruct cd.
  - destruct (N.eqb_spec b 59) as [-> |].
    + destruct (reference n) as [y|] eqn:En; [|done]. exists [], w, y. by rewrite app_nil_r.
    + apply IH in E as (m & w' & y & -> & H1 & H2). exists (b :: m), w', y. by rewrite <- app_assoc in H1.
Qed.
Definition after_cr (P : list N -> list N -> Prop) (b1 : N) (u x : list N) : Prop :=
  if b1 =? 13 then (exists x', x = 10 :: x' /\ P u x') \/ (head x <> Some 10 /\ P u x) else P u x.
Lemma after_cr_other (P : list N -> list N -> Prop) b1 u x : head x <> Some 10 -> P u x -> after_cr P b1 u x.
Proof. unfold after_cr. destruct (b1 =? 13); [by right|done]. Qed.
Lemma after_cr_13 quote u x : after_cr (chars quote) 13 u x -> chars quote (10 :: u) (13 :: x).
Proof. intros [(x' & -> & H)|[Hh H]]; [by apply c_crlf|by apply c_cr]. Qed.
Definition stops_at (quote : option N) (tl rest : list N) : Prop :=
  match quote with None => tl = rest /\ (rest = [] \/ head rest = Some 60) | Some q => tl = q :: rest \/ (tl = [] /\ rest = []) end.
Lemma text_inv quote w : quote = None \/ quote = Some 34 \/ quote = Some 39 -> forall b0 b1 out v rest, text quote false b0 b1 None out w = Some (v, rest) ->
  exists u x tl, w = x ++ tl /\ stops_at quote tl rest /\ v = out ++ u /\ after_cr (chars quote) b1 u x /\ free_of [93; 93; 62] (b0 :: b1 :: x).
Proof.
  intros Hq. remember (length w) as k eqn:Ek. revert w Ek. induction (lt_wf k) as [k _ IH]. intros w -> b0 b1 out v rest E.
  destruct w as [|b w].
  { cbn in E. simplify_eq. exists [], [], []. split; [done|]. split; [destruct quote; cbn; tauto|]. rewrite app_nil_r. split; [done|].
    split; [apply after_cr_other; [done|constructor]|apply free_short; cbn; lia]. }
  cbn in E. rewrite andb_true_r in E.
  destruct ((b0 =? 93) && (b1 =? 93) && (b =? 62)) eqn:E3; [done|].
  assert (H3 : ~ (b0 = 93 /\ b1 = 93 /\ b = 62)).
  { intros (-> & -> & ->). done. }
  destruct (N.eqb_spec b 60) as [-> |H60].
  { destruct quote; [done|]. injection E as -> <-. exists [], [], (60 :: w). split; [done|]. split; [split; [done|by right]|]. rewrite app_nil_r. split; [done|].
    split; [apply after_cr_other; [done|constructor]|apply free_short; cbn; lia]. }
  destruct (bool_decide_reflect (quote = Some b)) as [-> |Hqb].
  { injection E as -> ->. exists [], [], (b :: rest). split; [done|]. split; [by left|]. rewrite app_nil_r. split; [done|].
    split; [apply after_cr_other; [done|constructor]|apply free_short; cbn; lia]. }
  rewrite andb_true_r in E. destruct (N.eqb_spec b 38) as [-> |H38].
  { apply text_ref_inv in E as (n & w' & y & -> & Hr & E). cbn [app] in Hr. apply reference_inv in Hr.
    apply (IH (length w')) in E as (u & x & tl & -> & Hs & -> & Hc & Hf); [|cbn; rewrite app_length; cbn; lia|reflexivity].
    exists (y ++ u), (38 :: n ++ 59 :: x), tl. split; [cbn; by rewrite <- app_assoc|]. split; [done|]. rewrite app_assoc. split; [done|].
    split; [apply after_cr_other; [done|by apply c_ref]|].
    apply free3_cons; [lia|]. intros [|c1 [|c2 a]] e Ea; cbn in Ea; [by simplify_eq|by simplify_eq|]. injection Ea as _ _ Ea.
    assert (Hn := refers_bytes _ _ Hr). clear -Hf Hn Ea.
    assert (G : forall n a e, Forall (fun b => b <> 59 /\ b <> 60 /\ b <> 93 /\ b <> 62 /\ b <> 13) n -> n ++ 59 :: x = a ++ [93; 93; 62] ++ e -> False).
    { clear -Hf. intros n. induction n as [|c n IHn]; intros a e Hn Ea.
      - destruct a as [|c a]; cbn in Ea; [done|]. injection Ea as _ Ea. apply (Hf (0 :: 0 :: a) e). cbn. by rewrite Ea.
      - apply Forall_cons in Hn as [Hc Hn]. destruct a as [|c' a]; cbn in Ea; [simplify_eq; lia|]. injection Ea as _ Ea. by apply (IHn a e). }
    by apply (G n a e). }
  destruct (N.eqb_spec b 13) as [-> |H13].
  { apply (IH (length w)) in E as (u & x & tl & -> & Hs & -> & Hc & Hf); [|cbn; lia|reflexivity].
    exists (10 :: u), (13 :: x), tl. split; [done|]. split; [done|]. rewrite <- app_assoc. split; [done|].
    split; [apply after_cr_other; [done|by apply after_cr_13]|by apply free3_cons]. }
  destruct (N.eqb_spec b1 13) as [-> |H1].
  - cbn [andb] in E. destruct (N.eqb_spec b 10) as [-> |H10].
    + apply (IH (length w)) in E as (u & x & tl & -> & Hs & -> & Hc & Hf); [|cbn; lia|reflexivity].
      exists u, (10 :: x), tl. split; [done|]. split; [done|]. split; [done|]. split; [left; by exists x|by apply free3_cons].
    + apply (IH (length w)) in E as (u & x & tl & -> & Hs & -> & Hc & Hf); [|cbn; lia|reflexivity].
      exists (b :: u), (b :: x), tl. split; [done|]. split; [done|]. rewrite <- app_assoc. split; [done|].
      split; [|by apply free3_cons]. apply after_cr_other; [cbn; congruence|]. unfold after_cr in Hc. destruct (N.eqb_spec b 13); [done|]. by apply c_byte.
  - cbn [andb] in E. apply (IH (length w)) in E as (u & x & tl & -> & Hs & -> & Hc & Hf); [|cbn; lia|reflexivity].
    exists (b :: u), (b :: x), tl. split; [done|]. split; [done|]. rewrite <- app_assoc. split; [done|].
    split; [|by apply free3_cons]. unfold after_cr in *. destruct (N.eqb_spec b1 13); [done|]. destruct (N.eqb_spec b 13); [done|]. by apply c_byte.
Qed.
Lemma checked_inv quote w v rest : quote = None \/ quote = Some 34 \/ quote = Some 39 -> checked_text quote false w = Some (v, rest) ->
  exists x tl, w = x ++ tl /\ stops_at quote tl rest /\ chars quote v x /\ legal v /\ free_of [93; 93; 62] x.
Proof.
  intros Hq. unfold checked_text. destruct (text quote false 0 0 None [] w) as [[y r]|] eqn:E; [|done]. destruct (text_ok y) eqn:Ey; [|done]. intros [= -> ->].
  apply text_inv in E as (u & x & tl & -> & Hs & -> & Hc & Hf); [|done]. exists x, tl. split; [done|]. split; [done|]. split; [done|].
  split; [by apply legal_iff|]. by apply free_tail, free_tail in Hf.
Qed.
(** CDATA. *)
Lemma cdata_text_inv w : forall b0 b1 out v rest, text None true b0 b1 None out w = Some (v, rest) ->
  exists u y z, w = y ++ 62 :: rest /\ b0 :: b1 :: y = z ++ [93; 93] /\ after_cr cdata b1 u y /\ v = take (length (out ++ u) - 2) (out ++ u) /\ free_of [93; 93; 62] (b0 :: b1 :: y).
Proof.
  induction w as [|b w IH]; intros b0 b1 out v rest E; cbn in E; [done|]. rewrite !andb_false_r in E.
  destruct ((b0 =? 93) && (b1 =? 93) && (b =? 62)) eqn:E3.
  { apply andb_true_iff in E3 as [E3 ->%N.eqb_eq]. apply andb_true_iff in E3 as [->%N.eqb_eq ->%N.eqb_eq]. injection E as <- ->.
    exists [], [], []. rewrite app_nil_r. split; [done|]. split; [done|]. split; [apply after_cr_other; [done|constructor]|]. split; [done|]. apply free_short; cbn; lia. }
  assert (H3 : ~ (b0 = 93 /\ b1 = 93 /\ b = 62)) by (by intros (-> & -> & ->)).
  rewrite bool_decide_false in E by done. destruct (N.eqb_spec b 13) as [-> |H13].
  { apply IH in E as (u & y & z & -> & Hz & Hc & -> & Hf). exists (10 :: u), (13 :: y), (b0 :: z). split; [done|]. split; [cbn; by rewrite <- Hz|].
    split; [apply after_cr_other; [done|]; destruct Hc as [(x' & -> & H)|[Hh H]]; [by apply d_crlf|by apply d_cr]|]. rewrite <- app_assoc. split; [done|by apply free3_cons]. }
  destruct (N.eqb_spec b1 13) as [-> |H1].
  - cbn [andb] in E. destruct (N.eqb_spec b 10) as [-> |H10].
    + apply IH in E as (u & y & z & -> & Hz & Hc & -> & Hf). exists u, (10 :: y), (b0 :: z). split; [done|]. split; [cbn; by rewrite <- Hz|].
      split; [left; by exists y|]. split; [done|by apply free3_cons].
    + apply IH in E as (u & y & z & -> & Hz & Hc & -> & Hf). exists (b :: u), (b :: y), (b0 :: z). split; [done|]. split; [cbn; by rewrite <- Hz|].
      split; [apply after_cr_other; [cbn; congruence|]; unfold after_cr in Hc; destruct (N.eqb_spec b 13); [done|]; by apply d_byte|]. rewrite <- app_assoc. split; [done|by apply free3_cons].
  - cbn [andb] in E. apply IH in E as (u & y & z & -> & Hz & Hc & -> & Hf). exists (b :: u), (b :: y), (b0 :: z). split; [done|]. split; [cbn; by rewrite <- Hz|].
    split; [unfold after_cr in *; destruct (N.eqb_spec b1 13); [done|]; destruct (N.eqb_spec b 13); [done|]; by apply d_byte|]. rewrite <- app_assoc. split; [done|by apply free3_cons].
Qed.
Lemma cdata_snoc u x b : b <> 13 -> b <> 10 -> cdata u (x ++ [b]) -> exists u', u = u' ++ [b] /\ cdata u' x.
Proof.
  intros H13 H10 H. remember (x ++ [b]) as y eqn:Ey. revert x Ey. induction H as [|c v w Hc Hw IH|v w Hh Hw IH|v w Hw IH]; intros x Ey.
  - by destruct x.
  - destruct x as [|c' x]; cbn in Ey; injection Ey as -> Ey.
    + subst. inversion Hw; subst. by exists []; split; [|constructor].
    + destruct (IH x Ey) as (u' & -> & Hu). exists (c' :: u'). split; [done|by apply d_byte].
  - destruct x as [|c' x]; cbn in Ey; injection Ey as E1 Ey; [done|]. subst c'.
    destruct (IH x Ey) as (u' & -> & Hu). exists (10 :: u'). split; [done|]. apply d_cr; [|done]. subst w. destruct x as [|d x]; [done|]. done.
  - destruct x as [|c' x]; cbn in Ey; injection Ey as E1 Ey; [done|]. subst c'. destruct x as [|d x]; cbn in Ey; injection Ey as E2 Ey; [done|]. subst d.
    destruct (IH x Ey) as (u' & -> & Hu). exists (10 :: u'). split; [done|by apply d_crlf].
Qed.
Lemma checked_cdata_inv w v rest : checked_text None true w = Some (v, rest) ->
  exists x, w = x ++ 93 :: 93 :: 62 :: rest /\ cdata v x /\ legal v /\ free_of [93; 93; 62] x.
Proof.
  unfold checked_text. destruct (text None true 0 0 None [] w) as [[y r]|] eqn:E; [|done]. destruct (text_ok y) eqn:Ey; [|done]. intros [= -> ->].
  apply cdata_text_inv in E as (u & y & z & -> & Hz & Hc & Hv & Hf). destruct z as [|z0 [|z1 x]]; cbn in Hz; [done| |].
  { injection Hz as _ Hz. destruct y; done. }
  injection Hz as _ _ ->. cbn in Hc. cbn [app] in Hv. change [93; 93] with ([93] ++ [93]) in Hc. rewrite app_assoc in Hc.
  apply cdata_snoc in Hc as (u1 & -> & Hc); [|done..]. apply cdata_snoc in Hc as (u2 & -> & Hc); [|done..].
  assert (v = u2) as ->. { subst v. rewrite !app_length. cbn. rewrite <- app_assoc. rewrite take_app_alt; [done|lia]. }
  exists x. rewrite <- app_assoc. split; [done|]. split; [done|]. split; [by apply legal_iff|]. apply free_tail, free_tail in Hf. by apply free_app_l in Hf.
Qed.

(** ** Comments, instructions and directives *)
Lemma comment_inv w : forall b0 b1 rest, comment b0 b1 w = Some rest ->
  exists y z, w = y ++ 62 :: rest /\ b0 :: b1 :: y = z ++ [45; 45] /\ free_of [45; 45] (z ++ [45]).
Proof.
  induction w as [|b w IH]; intros b0 b1 rest E; cbn in E; [done|]. destruct ((b0 =? 45) && (b1 =? 45)) eqn:E2.
  - apply andb_true_iff in E2 as [->%N.eqb_eq ->%N.eqb_eq]. destruct (N.eqb_spec b 62) as [-> |]; [|done]. injection E as ->.
    exists [], []. split; [done|]. split; [done|]. apply free_short; cbn; lia.
  - apply IH in E as (y & z & -> & Hz & Hf). exists (b :: y), (b0 :: z). split; [done|]. split; [cbn; by rewrite <- Hz|].
    intros [|c a] e Ea; cbn in Ea; [|injection Ea as _ Ea; by apply (Hf a e)]. injection Ea as -> Ea.
    assert (b1 = 45) as ->; [|done]. destruct z as [|z0 z]; cbn in Hz, Ea; congruence.
Qed.
Lemma comment_top w rest : comment 0 0 w = Some rest -> exists t, w = t ++ 45 :: 45 :: 62 :: rest /\ free_of [45; 45] (t ++ [45]).
Proof.
  intros E. apply comment_inv in E as (y & z & -> & Hz & Hf). destruct z as [|z0 [|z1 t]]; cbn in Hz; [done| |].
  { injection Hz as _ Hz. by destruct y. }
  injection Hz as _ _ ->. exists t. rewrite <- app_assoc. split; [done|]. cbn in Hf. by apply free_tail, free_tail in Hf.
Qed.
Lemma instruction_inv w : forall b0 out c rest, instruction b0 out w = Some (c, rest) ->
  exists y z, w = y ++ 62 :: rest /\ b0 :: y = z ++ [63] /\ c = take (length (out ++ y) - 1) (out ++ y) /\ free_of [63; 62] (b0 :: y).
Proof.
  induction w as [|b w IH]; intros b0 out c rest E; cbn in E; [done|]. destruct ((b0 =? 63) && (b =? 62)) eqn:E2.
  - apply andb_true_iff in E2 as [->%N.eqb_eq ->%N.eqb_eq]. injection E as <- ->. exists [], []. rewrite app_nil_r. split; [done|]. split; [done|]. split; [done|]. apply free_short; cbn; lia.
  - apply IH in E as (y & z & -> & Hz & -> & Hf). exists (b :: y), (b0 :: z). split; [done|]. split; [cbn; by rewrite <- Hz|]. rewrite <- app_assoc. split; [done|].
    intros [|d a] e Ea; cbn in Ea; [simplify_eq; done|]. injection Ea as _ Ea. by apply (Hf a e).
Qed.
Lemma instruction_top w c rest : instruction 0 [] w = Some (c, rest) -> w = c ++ 63 :: 62 :: rest /\ free_of [63; 62] c.
Proof.
  intros E. apply instruction_inv in E as (y & z & -> & Hz & -> & Hf). destruct z as [|z0 t]; cbn in Hz; [done|]. injection Hz as _ ->. cbn [app].
  apply free_tail in Hf. rewrite app_length. cbn. rewrite Nat.add_sub, take_app. rewrite <- app_assoc. split; [done|]. by apply free_app_l in Hf.
Qed.
Fixpoint closing (d : nat) (w rest : list N) : Prop :=
  exists t w1, directive_body t /\ w = t ++ 62 :: w1 /\ match d with O => w1 = rest | S k => closing k w1 rest end.
Lemma closing_app d w rest u : (forall t, directive_body t -> directive_body (u ++ t)) -> closing d w rest -> closing d (u ++ w) rest.
Proof. intros Hu. destruct d; intros (t & w1 & Ht & -> & H); exists (u ++ t), w1; (split; [by apply Hu|]); (split; [by rewrite <- app_assoc|done]). Qed.
Definition in_comment (b0 b1 : N) (d : nat) (w rest : list N) : Prop :=
  exists y z w1, w = y ++ 62 :: w1 /\ b0 :: b1 :: y = z ++ [45; 45] /\ free_of [45; 45; 62] (b0 :: b1 :: y) /\ closing d w1 rest.
Lemma free3_cons' b0 b1 b w : ~ (b0 = 45 /\ b1 = 45 /\ b = 62) -> free_of [45; 45; 62] (b1 :: b :: w) -> free_of [45; 45; 62] (b0 :: b1 :: b :: w).
Proof.
  intros Hn H [|c a] e E; cbn in E; [by simplify_eq; apply Hn|]. injection E as -> E. by apply (H a e).
Qed.
Lemma directive_inv w : 
  (forall d rest, directive 0 d None None w = Some rest -> closing (N.to_nat d) w rest) /\
  (forall q d rest, is_quote q -> directive q d None None w = Some rest -> exists t w1, q ∉ t /\ w = t ++ q :: w1 /\ closing (N.to_nat d) w1 rest) /\
  (forall b0 b1 d rest, directive 0 d None (Some (b0, b1)) w = Some rest -> in_comment b0 b1 (N.to_nat d) w rest) /\
  (forall k d rest, (k <= 2)%nat -> directive 0 d (Some k) None w = Some rest ->
     (exists w', w = drop k (bytes_of "!--") ++ w' /\ in_comment 0 0 (N.to_nat d) w' rest) \/
     (~ drop k (bytes_of "!--") `prefix_of` w /\ closing (S (N.to_nat d)) w rest)).
Proof.
  induction w as [|b w (IA & IB & IC & ID)]; [done|].
  assert (A : forall d rest, directive 0 d None None (b :: w) = Some rest -> closing (N.to_nat d) (b :: w) rest).
  { intros d rest E. cbn [directive] in E. cbn [N.eqb negb andb] in E. destruct (N.eqb_spec b 62) as [-> |H62].
    - destruct (N.eqb_spec d 0) as [-> |Hd]; cbn [andb] in E.
      + injection E as ->. exists [], rest. split; [constructor|done].
      + cbn [N.eqb Pos.eqb orb] in E. apply IA in E. replace (N.to_nat d) with (S (N.to_nat (d - 1))) by lia. exists [], w. split; [constructor|done].
    - cbn [andb] in E. destruct (N.eqb_spec b 39) as [-> |H39].
      { apply IB in E as (t & w1 & Ht & -> & H); [|by right]. change (39 :: t ++ 39 :: w1) with ((39 :: t) ++ [39] ++ w1). rewrite app_assoc. apply closing_app; [|done].
        intros u Hu. rewrite <- app_assoc. cbn [app]. apply b_quoted; [by right|done|done]. }
      destruct (N.eqb_spec b 34) as [-> |H34].
      { apply IB in E as (t & w1 & Ht & -> & H); [|by left]. change (34 :: t ++ 34 :: w1) with ((34 :: t) ++ [34] ++ w1). rewrite app_assoc. apply closing_app; [|done].
        intros u Hu. rewrite <- app_assoc. cbn [app]. apply b_quoted; [by left|done|done]. }
      cbn [orb] in E. destruct (N.eqb_spec b 60) as [-> |H60].
      + apply ID in E as [(w' & -> & y & z & w1 & -> & Hz & Hf & H)|[Hn (t & w1 & Ht & -> & H)]]; [| |lia].
        * destruct z as [|z0 [|z1 t]]; cbn in Hz; [done|injection Hz as _ Hz; by destruct y|]. injection Hz as _ _ ->.
          change (bytes_of "!--") with [33; 45; 45]. cbn [drop app].
          match goal with |- closing _ ?w _ => replace w with ((bytes_of "<!--" ++ t ++ bytes_of "-->") ++ w1) end.
          2:{ rewrite <- !app_assoc. reflexivity. }
          apply closing_app; [|done]. intros u Hu. rewrite <- !app_assoc. apply b_comment; [|done]. by apply free_tail, free_tail in Hf.
        * change (60 :: t ++ 62 :: w1) with ((60 :: t) ++ [62] ++ w1). rewrite app_assoc. apply closing_app; [|done].
          intros u Hu. rewrite <- app_assoc. cbn [app]. apply b_nested; [|done|done]. intros [e He]. apply Hn. exists (e ++ w1). transitivity ((t ++ [62]) ++ w1); [by rewrite <- app_assoc|].
          rewrite He. by rewrite <- app_assoc.
      + apply IA in E. apply (closing_app _ _ _ [b]); [|done]. intros t Ht. by apply b_byte. }
  split; [done|]. split; [|split].
  - intros q d rest Hq E. cbn [directive] in E. destruct (N.eqb_spec q 0) as [-> |Hq0]; [by destruct Hq|]. cbn [negb andb] in E.
    destruct (N.eqb_spec b q) as [-> |Hb]; [by apply IA in E; exists [], w; split; [apply not_elem_of_nil|]|].
    apply IB in E as (t & w1 & Ht & -> & H); [|done]. exists (b :: t), w1. split; [|done]. apply not_elem_of_cons. split; [congruence|done].
  - intros b0 b1 d rest E. cbn [directive] in E. destruct ((b0 =? 45) && (b1 =? 45) && (b =? 62)) eqn:E3.
    + apply andb_true_iff in E3 as [E3 ->%N.eqb_eq]. apply andb_true_iff in E3 as [->%N.eqb_eq ->%N.eqb_eq]. apply IA in E.
      exists [], [], w. split; [done|]. split; [done|]. split; [apply free_short; cbn; lia|done].
    + apply IC in E as (y & z & w1 & -> & Hz & Hf & H). exists (b :: y), (b0 :: z), w1. split; [done|]. split; [cbn; by rewrite <- Hz|]. split; [|done].
      apply free3_cons'; [|done]. by intros (-> & -> & ->).
  - intros k d rest Hk E. destruct (decide (bytes_of "!--" !! k = Some b)) as [Hm|Hm].
    + cbn [directive] in E. rewrite bool_decide_true in E by done.
      assert (Hd : drop k (bytes_of "!--") = b :: drop (S k) (bytes_of "!--")) by (by apply drop_S).
      destruct (Nat.eqb_spec k 2) as [-> |Hk2].
      * left. exists w. split; [|by apply IC]. by rewrite Hd.
      * apply ID in E as [(w' & -> & H)|[Hn H]]; [| |lia].
        -- left. exists w'. by rewrite Hd.
        -- right. rewrite Hd. split.
           ++ intros [e He]. cbn in He. injection He as He. apply Hn. by exists e.
           ++ apply (closing_app _ _ _ [b]); [|done]. intros t Ht.
              assert (b = 33 \/ b = 45) by (clear -Hm Hk; change (bytes_of "!--") with [33; 45; 45] in Hm; destruct k as [|[|[|k]]]; [| | |lia]; injection Hm as <-; tauto).
              apply b_byte; [lia..|done].
    + right. split.
      * intros [e He]. apply Hm. rewrite <- (Nat.add_0_r k), <- lookup_drop. destruct (drop k (bytes_of "!--")) as [|c cs] eqn:Ec.
        -- assert (Hl : length (drop k (bytes_of "!--")) = 0%nat) by (by rewrite Ec). rewrite drop_length in Hl. change (length (bytes_of "!--")) with 3%nat in Hl. lia.
        -- cbn in He. by simplify_eq.
      * rewrite directive_lt in E by (done || by cbn). apply A in E. by replace (N.to_nat (d + 1)) with (S (N.to_nat d)) in E by lia.
Qed.

(** ** Names *)
Lemma white_space b : white [b] <-> is_space b = true.
Proof. unfold white. rewrite Forall_singleton. rewrite (is_space_white b). tauto. Qed.
Lemma over_stops w : name_over w <-> stops w.
Proof.
  unfold name_over, stops. split; intros (b & w' & -> & H1 & H2); exists b, w'; (split; [done|]); (split; [done|]).
  - apply not_true_iff_false. rewrite name_byte_char. unfold name_char. tauto.
  - apply not_true_iff_false in H2. rewrite name_byte_char in H2. unfold name_char in H2. tauto.
Qed.
Lemma encode_high r : scalar r -> (128 <= r)%Z -> Forall (fun b => 128 <= b) (string_of_rune r).
Proof.
  intros Hs Hr. unfold string_of_rune. rewrite (proj2 (valid_rune_scalar r) Hs). unfold encode_scalar. destruct (Z.ltb_spec r 128); [lia|].
  assert (H64 : (0 <= r / 64)%Z) by (apply Z.div_pos; lia). assert (H4096 : (0 <= r / 4096)%Z) by (apply Z.div_pos; lia).
  assert (Hbig : (0 <= r / 262144)%Z) by (apply Z.div_pos; lia).
  assert (M : forall x, (0 <= x mod 64)%Z) by (intros x; apply Z.mod_pos_bound; lia).
  pose proof (M r). pose proof (M (r / 64)%Z). pose proof (M (r / 4096)%Z).
  destruct (r <? 0x800)%Z, (r <? 0x10000)%Z; repeat (apply Forall_cons; split; [lia|]); constructor.
Qed.
Lemma encode_low b : b < 128 -> string_of_rune (Z.of_N b) = [b].
Proof.
  intros Hb. destruct (ascii_runes (fun _ => false) (fun _ => false) [b]) as [_ E]; [by constructor|]. unfold string_of_runes in E. cbn [map concat] in E. by rewrite app_nil_r in E.
Qed.

Section decoder.
  Context (fr mr : Z -> bool).
  Notation name := (Xml.name fr mr). Notation nsname := (Xml.nsname fr mr).
  Notation attributes := (Xml.attributes fr mr). Notation raw_token := (Xml.raw_token fr mr). Notation tokens := (Xml.tokens fr mr).
  Notation markup := (Xml.markup fr mr). Notation T := (ThmXml.T fr mr).
  Notation any_name := (any_name fr mr). Notation attributes_read := (attributes_read fr mr).
  Notation accepts := (accepts fr mr). Notation accepts_all := (accepts_all fr mr).

  Definition nameish (b : N) : Prop := 128 <= b \/ name_byte b = true.
  Lemma any_name_bytes n : any_name n -> Forall nameish n /\ n <> [].
  Proof.
    intros (r & rs & -> & Hs & Hr & Hrs). assert (Hr' : inside_name fr mr r).
    { destruct Hr as [(b & -> & H)|[H1 H2]]; [left; exists b; tauto|right; tauto]. }
    assert (Hall : Forall (inside_name fr mr) (r :: rs)) by (by constructor). split.
    - clear Hr Hrs Hr'. induction Hs as [|x xs Hx Hs IH]; [constructor|]. apply Forall_cons in Hall as [Hx' Hall]. unfold string_of_runes. cbn [map concat].
      apply Forall_app. split; [|by apply IH]. destruct Hx' as [(b & -> & Hb)|[H1 _]].
      + rewrite encode_low by (unfold letter, digit in Hb; lia). constructor; [|done]. right. apply name_byte_char. unfold name_char. tauto.
      + eapply Forall_impl; [by apply encode_high|]. by left.
    - intros E. apply Forall_cons in Hs as [Hx _]. unfold string_of_runes in E. cbn [map concat] in E. apply app_eq_nil in E as [E _].
      destruct Hr' as [(b & -> & Hb)|[H1 _]].
      + rewrite encode_low in E by (unfold letter, digit in Hb; lia). done.
      + unfold string_of_rune in E. rewrite (proj2 (valid_rune_scalar r) Hx) in E. unfold encode_scalar in E. repeat case_match; done.
  Qed.
  Lemma is_name_iff n : is_name fr mr n = true <-> any_name n.
  Proof.
    assert (F : forall r, scalar r -> first_char fr r = true <-> begins_name fr r).
    { intros r Hr. unfold first_char, begins_name. destruct (Z.ltb_spec r 128).
      - rewrite !orb_true_iff, letter_bool, !N.eqb_eq. split.
        + intros Hb. left. exists (Z.to_N r). unfold scalar in Hr. split; [lia|tauto].
        + intros [(b & -> & Hb)|[? _]]; [|lia]. rewrite N2Z.id. tauto.
      - split; [by right|]. intros [(b & -> & Hb)|[_ ?]]; [|done]. unfold letter in Hb. lia. }
    assert (G : forall r, scalar r -> more_char fr mr r = true <-> inside_name fr mr r).
    { intros r Hr. unfold more_char, inside_name. destruct (Z.ltb_spec r 128).
      - rewrite name_byte_char. unfold name_char. split.
        + intros Hb. left. exists (Z.to_N r). unfold scalar in Hr. split; [lia|tauto].
        + intros [(b & -> & Hb)|[? _]]; [|lia]. rewrite N2Z.id. tauto.
      - rewrite orb_true_iff. split; [by right|]. intros [(b & -> & Hb)|[_ ?]]; [|done]. unfold letter, digit in Hb. lia. }
    unfold is_name. split.
    - pose proof (decode_scalar n) as Hd. destruct (runes_of_string n) as [|r rs] eqn:E; [done|]. apply Forall_cons in Hd as [Hd1 Hd2].
      rewrite !andb_true_iff, bool_decide_eq_true, forallb_forall. intros [[E1 E2] E3]. exists r, rs. split; [done|]. split; [by constructor|]. split; [by apply F|].
      apply Forall_forall. intros x Hx. apply G; [by eapply Forall_forall in Hd2|]. apply E3. by apply elem_of_list_In.
    - intros (r & rs & -> & Hs & Hr & Hrs). rewrite decode_encode_all by done. apply Forall_cons in Hs as [Hs1 Hs2].
      rewrite bool_decide_true by done. cbn [andb]. apply andb_true_iff. split; [by apply F|]. apply forallb_forall. intros x Hx%elem_of_list_In.
      apply G; [by eapply Forall_forall in Hs2|by eapply Forall_forall in Hrs].
  Qed.
  Lemma name_run_iff w n rest : name_run w = Some (n, rest) <-> w = n ++ rest /\ Forall nameish n /\ stops rest.
  Proof.
    split.
    - revert n. induction w as [|b w IH]; intros n E; cbn in E; [done|]. destruct ((b <? 128) && negb (name_byte b)) eqn:Eb.
      + injection E as <- <-. apply andb_true_iff in Eb as [E1%N.ltb_lt E2%negb_true_iff]. split; [done|]. split; [constructor|]. by exists b, w.
      + destruct (name_run w) as [[m r]|]; [|done]. injection E as <- <-. destruct (IH m eq_refl) as (-> & H1 & H2). split; [done|]. split; [|done].
        constructor; [|done]. unfold nameish. apply andb_false_iff in Eb as [E1%N.ltb_ge|E2%negb_false_iff]; tauto.
    - intros (-> & Hn & (b & w' & -> & Hb & Hs)). induction Hn as [|c n Hc _ IH]; cbn.
      + destruct (N.ltb_spec b 128); [|lia]. by rewrite Hs.
      + rewrite IH. destruct Hc as [Hc| ->]; [|by rewrite andb_false_r]. destruct (N.ltb_spec c 128); [lia|done].
  Qed.
  Lemma name_iff w n rest : name w = Some (n, rest) <-> w = n ++ rest /\ any_name n /\ name_over rest.
  Proof.
    unfold Xml.name. rewrite over_stops. split.
    - destruct (name_run w) as [[m r]|] eqn:E; [|done]. apply name_run_iff in E as (-> & _ & Hs). destruct (is_name fr mr m) eqn:En; [|done]. intros [= -> ->].
      split; [done|]. split; [by apply is_name_iff|done].
    - intros (-> & Hn & Hs). rewrite (proj2 (name_run_iff _ n rest)); [|by split; [|split; [apply any_name_bytes|]]]. by rewrite (proj2 (is_name_iff n)).
  Qed.
  Lemma cut_colon_inv n p l : cut_colon n = Some (p, l) -> n = p ++ 58 :: l /\ 58 ∉ p.
  Proof.
    revert p. induction n as [|b n IH]; intros p E; cbn in E; [done|]. destruct (N.eqb_spec b 58) as [-> |Hb].
    - injection E as <- <-. split; [done|apply not_elem_of_nil].
    - destruct (cut_colon n) as [[p' l']|]; [|done]. injection E as <- <-. destruct (IH p' eq_refl) as [-> H]. split; [done|]. by apply not_elem_of_cons.
  Qed.
  Lemma cut_colon_none_inv n : cut_colon n = None -> 58 ∉ n.
  Proof.
    induction n as [|b n IH]; intros E; cbn in E; [apply not_elem_of_nil|]. destruct (N.eqb_spec b 58); [done|]. destruct (cut_colon n) as [[? ?]|]; [done|].
    apply not_elem_of_cons. split; [done|by apply IH].
  Qed.
  Lemma nsname_iff w p n rest : nsname w = Some (p, n, rest) <-> exists m, w = m ++ rest /\ any_name m /\ name_over rest /\ parted p n m.
  Proof.
    unfold Xml.nsname. split.
    - destruct (name w) as [[m r]|] eqn:E; [|done]. apply name_iff in E as (-> & Hm & Hr). intros H. exists m.
      destruct (cut_colon m) as [[a b]|] eqn:Ec.
      + apply cut_colon_inv in Ec as [-> Ha]. destruct (bool_decide_reflect (58 ∈ b)) as [|Hb]; [done|].
        destruct (bool_decide_reflect (a = [])) as [-> |Ha']; cbn [orb] in H.
        { injection H as <- <- <-. repeat split; try done. by apply (p_border [] b); [left| |]. }
        destruct (bool_decide_reflect (b = [])) as [-> |Hb']; injection H as <- <- <-; (split; [done|]); (split; [done|]); (split; [done|]).
        * by apply p_border; [right| |].
        * by apply p_both.
      + apply cut_colon_none_inv in Ec. injection H as <- <- <-. split; [done|]. split; [done|]. split; [done|]. by apply p_whole.
    - intros (m & -> & Hm & Hr & Hp). rewrite (proj2 (name_iff (m ++ rest) m rest)) by done. destruct Hp as [n Hn|p n Hp1 Hn1 Hp Hn|p n Hb Hp Hn].
      + by rewrite cut_colon_none.
      + rewrite cut_colon_app by done. by rewrite !bool_decide_false.
      + rewrite cut_colon_app by done. rewrite (bool_decide_false (58 ∈ n)) by done. destruct Hb as [-> | ->]; [by rewrite bool_decide_true|].
        rewrite (bool_decide_true (([] : list N) = [])) by done. by rewrite orb_true_r.
  Qed.
  Lemma parted_one p n m m' : parted p n m -> parted p n m' -> m = m'.
  Proof.
    intros [n' H1|p' n' H1 H2 H3 H4|p' n' H1 H2 H3] H; inversion H; subst; try done.
  Qed.
  Lemma nameish_other b : nameish b -> is_space b = false /\ b <> 47 /\ b <> 62 /\ b <> 63 /\ b <> 33.
  Proof.
    intros [H|H].
    - repeat split; try lia. apply not_true_iff_false. rewrite is_space_white. lia.
    - apply name_byte_char, name_char_small in H. tauto.
  Qed.
  Lemma any_name_head n : any_name n -> exists b n', n = b :: n' /\ nameish b.
  Proof. intros [H Hne]%any_name_bytes. destruct n as [|b n']; [done|]. apply Forall_cons in H as [H _]. by exists b, n'. Qed.
  Lemma name_over_white s w : white s -> name_over w -> name_over (s ++ w).
  Proof. intros Hs Hw. apply over_stops. apply stops_white; [done|]. by apply over_stops. Qed.

  Lemma white_over c w : white [c] -> name_over (c :: w).
  Proof.
    unfold white. rewrite Forall_singleton. intros Hc. exists c, w. split; [done|]. split; [lia|]. unfold letter, digit. lia.
  Qed.

  (** ** Attributes *)
  Lemma value_inv w v rest : value w = Some (v, rest) -> rest <> [] ->
    exists s2 s3 q v', white s2 /\ white s3 /\ is_quote q /\ chars (Some q) v v' /\ legal v /\ free_of [93; 93; 62] v' /\ w = s2 ++ 61 :: s3 ++ q :: v' ++ q :: rest.
  Proof.
    unfold value. intros E Hr. destruct (space_suffix w) as (s2 & Hs2 & Ew). destruct (drop_byte 61 (space w)) as [w1|] eqn:E1; [|done].
    apply (drop_byte_mono _ _ _ []) in E1 as [_ E1]. destruct (space_suffix w1) as (s3 & Hs3 & Ew1). destruct (space w1) as [|q w2] eqn:E2; [done|].
    destruct ((q =? 34) || (q =? 39)) eqn:Eq; [|done]. assert (Hq : is_quote q) by (apply orb_true_iff in Eq as [?%N.eqb_eq|?%N.eqb_eq]; [by left|by right]).
    apply checked_inv in E as (x & tl & -> & Hs & Hc & Hl & Hf); [|destruct Hq as [-> | ->]; tauto]. destruct Hs as [-> |[_ ?]]; [|done].
    exists s2, s3, q, x. rewrite Ew, E1, Ew1. tauto.
  Qed.
  Lemma attributes_inv fuel : forall w l e rest, attributes fuel w = Some (l, e, rest) ->
    exists a s, attributes_read l a /\ white s /\ w = a ++ s ++ (if e : bool then [47; 62] else [62]) ++ rest.
  Proof.
    induction fuel as [|fuel IH]; intros w l e rest E; cbn in E; [done|]. destruct (space_suffix w) as (s & Hs & Ew). destruct (space w) as [|b w1] eqn:Es; [done|].
    destruct (N.eqb_spec b 47) as [-> |H47].
    { destruct (drop_byte 62 w1) as [w2|] eqn:E2; [|done]. apply (drop_byte_mono _ _ _ []) in E2 as [_ ->]. injection E as <- <- <-.
      exists [], s. split; [constructor|]. by rewrite Ew. }
    destruct (N.eqb_spec b 62) as [-> |H62].
    { injection E as <- <- <-. exists [], s. split; [constructor|]. by rewrite Ew. }
    destruct (nsname (b :: w1)) as [[[p n] w2]|] eqn:En; [|done]. apply nsname_iff in En as (m & Em & Hm & Ho & Hp).
    destruct (value w2) as [[v w3]|] eqn:Ev; [|done]. destruct (attributes fuel w3) as [[[l' e'] rest']|] eqn:Ea; [|done]. injection E as <- <- <-.
    apply value_inv in Ev as (s2 & s3 & q & v' & H2 & H3 & Hq & Hc & Hl & Hf & ->).
    2:{ intros ->. destruct fuel; done. }
    apply IH in Ea as (a & s' & Ha & Hs' & ->). exists (s ++ m ++ s2 ++ 61 :: s3 ++ q :: v' ++ q :: a), s'.
    split; [by eapply ar_cons|]. split; [done|]. rewrite Ew, Em. repeat (rewrite <- app_assoc; cbn [app]). done.
  Qed.
  Lemma attributes_full l a : attributes_read l a -> forall fuel s tail e, (length a < fuel)%nat -> white s ->
    attributes fuel (a ++ s ++ (if e : bool then [47; 62] else [62]) ++ tail) = Some (l, e, tail).
  Proof.
    induction 1 as [|p n v l s1 m s2 s3 q v' w Hs1 Hm Hp Hs2 Hs3 Hq Hc Hl Hf Hw IH]; intros fuel s tail e Hfuel Hs; (destruct fuel as [|fuel]; [cbn in Hfuel; lia|]).
    - cbn [app Xml.attributes]. rewrite space_app by done. by destruct e.
    - cbn [Xml.attributes]. repeat (rewrite <- app_assoc; cbn [app]). rewrite space_app by done. destruct (any_name_head m Hm) as (b & m' & -> & Hb).
      destruct (nameish_other b Hb) as (B1 & B2 & B3 & _). cbn [app]. rewrite space_stop by done. destruct (N.eqb_spec b 47); [done|]. destruct (N.eqb_spec b 62); [done|].
      match goal with |- context [nsname ?x] => rewrite (proj2 (nsname_iff x p n (s2 ++ 61 :: s3 ++ q :: v' ++ q :: w ++ s ++ (if e then [47; 62] else [62]) ++ tail))) end.
      2:{ exists (b :: m'). split; [done|]. split; [done|]. split; [|done]. apply name_over_white; [done|]. apply over_stops. by apply stops_byte. }
      unfold value. rewrite space_app by done. rewrite space_stop by done. cbn [drop_byte N.eqb Pos.eqb]. rewrite space_app by done.
      assert (Hqs : is_space q = false) by (by destruct Hq as [-> | ->]). rewrite space_stop by done.
      replace ((q =? 34) || (q =? 39)) with true by (by destruct Hq as [-> | ->]). rewrite (checked_quoted fr mr q v v') by done.
      rewrite IH; [done| |done]. revert Hfuel. repeat (rewrite app_length; cbn [length]). lia.
  Qed.
  Lemma attributes_border l a w : attributes_read l a -> name_over (a ++ w) -> a = [] \/ starts_white a.
  Proof.
    intros [|p n v l' s1 m s2 s3 q v' w' Hs1 Hm Hp Hs2 Hs3 Hq Hc Hl Hf Hw] Ho; [by left|]. right. destruct Hs1 as [|b s1 Hb Hs1]; [|by exists b; eexists; split; [reflexivity|constructor; [done|constructor]]].
    exfalso. destruct (any_name_head m Hm) as (b & m' & -> & Hb). apply over_stops in Ho as (c & x & E & H1 & H2). cbn in E. injection E as <- _.
    destruct Hb as [Hb|Hb]; [lia|congruence].
  Qed.

  (** ** The declaration *)
  Lemma first_at_after key c a b : key <> [] -> first_at key c a b -> after_first key c = Some b.
  Proof.
    intros Hk. revert a. induction c as [|x c IH]; intros a [E Hmin].
    - destruct a; [|done]. destruct key; done.
    - cbn [after_first]. destruct (bool_decide_reflect (key `prefix_of` x :: c)) as [[b' E']|Hn].
      + specialize (Hmin [] b' E'). destruct a; [|cbn in Hmin; lia]. cbn in E. rewrite E. by rewrite drop_app.
      + destruct a as [|y a]; [by destruct Hn; exists b|]. cbn in E. injection E as <- ->. apply (IH a). split; [done|].
        intros a' b' Ea. specialize (Hmin (x :: a') b'). cbn in Hmin. rewrite Ea in Hmin. specialize (Hmin eq_refl). lia.
  Qed.
  Lemma after_first_at key c b : key <> [] -> after_first key c = Some b -> exists a, first_at key c a b.
  Proof.
    intros Hk. induction c as [|x c IH]; cbn [after_first].
    - destruct (bool_decide_reflect (key `prefix_of` [])) as [[k E]|]; [|done]. by destruct key.
    - destruct (bool_decide_reflect (key `prefix_of` x :: c)) as [[b' E']|Hn].
      + intros [= <-]. exists []. split; [|cbn; lia]. cbn. rewrite E' at 1. f_equal. rewrite E'. by rewrite drop_app.
      + intros E. apply IH in E as (a & -> & Hmin). exists (x :: a). split; [done|]. intros [|y a'] b' Ea; [by destruct Hn; exists b'|].
        cbn in Ea. injection Ea as _ Ea. apply Hmin in Ea. cbn. lia.
  Qed.
  Lemma after_none key c : after_first key c = None <-> free_of key c.
  Proof.
    induction c as [|x c IH]; cbn [after_first].
    - destruct (bool_decide_reflect (key `prefix_of` [])) as [[k E]|Hn]; split; try done.
      + intros H. by destruct (H [] k).
      + intros _ a b E. apply Hn. exists b. destruct a; [|done]. done.
    - destruct (bool_decide_reflect (key `prefix_of` x :: c)) as [[k E]|Hn]; split; try done.
      + intros H. by destruct (H [] k).
      + intros H%IH [|y a] b E; [apply Hn; by exists b|]. cbn in E. injection E as _ E. by apply (H a b).
      + intros H. apply IH. by apply free_tail in H.
  Qed.
  Lemma before_inv q s v : before q s = Some v -> exists s', s = v ++ q :: s' /\ q ∉ v.
  Proof.
    revert v. induction s as [|b s IH]; intros v E; cbn in E; [done|]. destruct (N.eqb_spec b q) as [-> |Hb].
    - injection E as <-. exists s. split; [done|apply not_elem_of_nil].
    - destruct (before q s) as [v'|]; [|done]. injection E as <-. destruct (IH v' eq_refl) as (s' & -> & H). exists s'. split; [done|]. apply not_elem_of_cons. split; [congruence|done].
  Qed.
  Lemma pseudo_iff param c v : pseudo (bytes_of param ++ [61]) c v <-> proc_inst param c = v.
  Proof.
    assert (Hk : bytes_of param ++ [61] <> []) by (by destruct (bytes_of param)). set (key := bytes_of param ++ [61]) in *.
    assert (V : forall b v, quoted b v -> match b with q :: v => if (q =? 39) || (q =? 34) then default [] (before q v) else [] | [] => [] end = v).
    { intros b u (q & b' & Hq & Hu & ->). replace ((q =? 39) || (q =? 34)) with true by (by destruct Hq as [-> | ->]). by rewrite before_ok. }
    unfold proc_inst. fold key. split.
    - intros [Hf|a b u Ha Hu|a b Ha Hu].
      + by rewrite (proj2 (after_none key c) Hf).
      + rewrite (first_at_after _ _ _ _ Hk Ha). rewrite <- (V b u Hu). by destruct b.
      + rewrite (first_at_after _ _ _ _ Hk Ha). destruct b as [|q b]; [done|]. destruct ((q =? 39) || (q =? 34)) eqn:Eq; [|done].
        destruct (before q b) as [u|] eqn:Eb; [|done]. exfalso. apply before_inv in Eb as (s' & -> & Hn). apply (Hu u). exists q, s'. split; [|done].
        apply orb_true_iff in Eq as [->%N.eqb_eq| ->%N.eqb_eq]; [by right|by left].
    - destruct (after_first key c) as [b|] eqn:Ea.
      + apply (after_first_at _ _ _ Hk) in Ea as (a & Ha). intros E.
        assert (D : (exists u, quoted b u) \/ forall u, ~ quoted b u).
        { destruct b as [|q b]; [right; by intros u (q & b' & _ & _ & ?)|]. destruct (decide (is_quote q)) as [Hq|Hq]; [|right; intros u (q' & b' & Hq' & _ & [= <- _]); done].
          destruct (before q b) as [u|] eqn:Eb.
          - left. apply before_inv in Eb as (s' & -> & Hn). exists u, q, s'. done.
          - right. intros u (q' & b' & Hq' & Hn & [= <- ->]). by rewrite before_ok in Eb. }
        destruct D as [[u Hu]|Hu].
        * assert (v = u) as ->; [|by apply s_value with a b]. rewrite <- E, <- (V b u Hu). by destruct b.
        * assert (v = []) as ->; [|by apply s_broken with a b]. rewrite <- E. destruct b as [|q b]; [done|]. destruct ((q =? 39) || (q =? 34)) eqn:Eq; [|done].
          destruct (before q b) as [u|] eqn:Eb; [|done]. exfalso. apply before_inv in Eb as (s' & -> & Hn). apply (Hu u). exists q, s'. split; [|done].
          apply orb_true_iff in Eq as [->%N.eqb_eq| ->%N.eqb_eq]; [by right|by left].
      + intros <-. apply s_absent. by apply after_none.
  Qed.
  Lemma lower_iff b c : 97 <= c <= 122 -> lower b = c <-> b = c \/ b = c - 32.
  Proof. intros Hc. unfold lower, in_chars. destruct (N.leb_spec 65 b), (N.leb_spec b 90); cbn; lia. Qed.
  Lemma lower_other b c : c < 65 -> lower b = c <-> b = c.
  Proof. intros Hc. unfold lower, in_chars. destruct (N.leb_spec 65 b), (N.leb_spec b 90); cbn; lia. Qed.
  Lemma utf8_iff e : map lower e = bytes_of "utf-8" <-> is_utf8 e.
  Proof.
    change (bytes_of "utf-8") with [117; 116; 102; 45; 56]. split.
    - intros E. destruct e as [|u [|t [|f [|d [|x [|? e]]]]]]; try discriminate E. cbn [map] in E.
      injection E as E1 E2 E3 E4 E5. rewrite lower_iff in E1, E2, E3 by lia. rewrite lower_other in E4, E5 by lia.
      exists u, t, f. subst d x. repeat split; lia.
    - intros (u & t & f & Hu & Ht & Hf & ->). destruct Hu as [-> | ->], Ht as [-> | ->], Hf as [-> | ->]; reflexivity.
  Qed.
  Lemma declared_iff c : declaration_ok c = true <-> declared c.
  Proof.
    unfold declaration_ok, declared. rewrite andb_true_iff, !orb_true_iff, !bool_decide_eq_true, utf8_iff.
    change (bytes_of "version=") with (bytes_of "version" ++ [61]). change (bytes_of "encoding=") with (bytes_of "encoding" ++ [61]).
    split.
    - intros [H1 H2]. split; eexists; (split; [by apply pseudo_iff|done]).
    - intros [(v & Hv & H1) (e & He & H2)]. apply pseudo_iff in Hv, He. subst. done.
  Qed.

  (** ** Tokens *)
  Definition token_text (t : token) (x rest : list N) : Prop :=
    match t with
    | TStart p n l e => exists m a s, any_name m /\ parted p n m /\ attributes_read l a /\ (a = [] \/ starts_white a) /\ white s /\
        x = 60 :: m ++ a ++ s ++ if e then [47; 62] else [62]
    | TEnd p n => exists m s, any_name m /\ parted p n m /\ white s /\ x = 60 :: 47 :: m ++ s ++ [62]
    | TText v => accepts (Text v) x /\ (head x = Some 60 \/ rest = [] \/ head rest = Some 60)
    | TNote => accepts Note x /\ head x = Some 60
    end.
  Lemma markup_inv w t rest : markup w = Some (t, rest) -> exists x, 60 :: w = x ++ rest /\ token_text t x rest /\ head x = Some 60.
  Proof.
    unfold Xml.markup. destruct w as [|b w]; [done|]. destruct (N.eqb_spec b 47) as [-> |H47].
    { unfold end_tag. destruct (nsname w) as [[[p n] w1]|] eqn:E; [|done]. apply nsname_iff in E as (m & -> & Hm & Ho & Hp).
      destruct (space_suffix w1) as (s & Hs & Ew). destruct (drop_byte 62 (space w1)) as [w2|] eqn:Ed; [|done]. apply (drop_byte_mono _ _ _ []) in Ed as [_ Ed].
      intros [= <- <-]. exists (60 :: 47 :: m ++ s ++ [62]). split; [|split; [by exists m, s|done]]. rewrite Ew, Ed. cbn [app]. by rewrite <- !app_assoc. }
    destruct (N.eqb_spec b 63) as [-> |H63].
    { unfold proc. destruct (name w) as [[n w1]|] eqn:E; [|done]. apply name_iff in E as (-> & Hn & Ho). destruct (space_suffix w1) as (s & Hs & Ew).
      destruct (instruction 0 [] (space w1)) as [[c w2]|] eqn:Ei; [|done]. apply instruction_top in Ei as [Ec Hf].
      destruct (bool_decide (n = bytes_of "xml") && negb (declaration_ok c)) eqn:Ex; [done|]. intros [= <- <-].
      exists (bytes_of "<?" ++ n ++ s ++ c ++ bytes_of "?>"). split; [rewrite Ew, Ec; change (bytes_of "<?") with [60; 63]; change (bytes_of "?>") with [63; 62]; by rewrite <- !app_assoc|].
      split; [|done]. split; [|done]. apply ac_instruction; [done|done| |  |done|].
      - intros (b & c' & -> & Hb). apply white_space in Hb. cbn [app] in Ec. clear -Ec Hb. induction w1 as [|d w1 IH]; [done|]. cbn in Ec. destruct (is_space d) eqn:Ed; [by apply IH|]. congruence.
      - rewrite Ew, Ec in Ho. destruct Ho as (b & x & Eb & H1 & H2). exists b. change (bytes_of "?>") with [63; 62].
        destruct s as [|y s]; [destruct c as [|y c]|]; cbn in Eb |- *; injection Eb as -> _; eexists; (split; [reflexivity|done]).
      - intros ->. rewrite bool_decide_true in Ex by done. cbn in Ex. apply negb_false_iff in Ex. by apply declared_iff. }
    destruct (N.eqb_spec b 33) as [-> |H33].
    { unfold bang. destruct w as [|c w]; [done|]. destruct (N.eqb_spec c 45) as [-> |H45].
      { destruct (drop_byte 45 w) as [w2|] eqn:Ed; [|done]. apply (drop_byte_mono _ _ _ []) in Ed as [_ ->]. unfold note. destruct (comment 0 0 w2) as [r|] eqn:Ec; [|done].
        intros [= <- <-]. apply comment_top in Ec as (u & -> & Hf). exists (bytes_of "<!--" ++ u ++ bytes_of "-->"). split; [by rewrite <- !app_assoc|].
        split; [|done]. split; [|done]. by apply ac_comment. }
      destruct (N.eqb_spec c 91) as [-> |H91].
      { destruct (bool_decide_reflect (bytes_of "CDATA[" `prefix_of` w)) as [[k ->]|]; [|done]. change (drop 6 (bytes_of "CDATA[" ++ k)) with k.
        destruct (checked_text None true k) as [[v r]|] eqn:Ec; [|done]. intros [= <- <-]. apply checked_cdata_inv in Ec as (x & -> & H1 & H2 & H3).
        exists (bytes_of "<![CDATA[" ++ x ++ bytes_of "]]>"). split; [by rewrite <- !app_assoc|]. split; [|done]. split; [by apply ac_cdata|by left]. }
      unfold note. destruct (directive 0 0 None None w) as [r|] eqn:Ed; [|done]. intros [= <- <-]. apply (directive_inv w) in Ed as (u & w1 & Hu & -> & ->).
      exists (bytes_of "<!" ++ c :: u ++ [62]). split; [cbn; by rewrite <- app_assoc|]. split; [|done]. split; [by apply ac_directive|done]. }
    unfold start_tag. destruct (nsname (b :: w)) as [[[p n] w1]|] eqn:E; [|done]. apply nsname_iff in E as (m & Em & Hm & Ho & Hp).
    destruct (attributes (S (length w1)) w1) as [[[l e] w2]|] eqn:Ea; [|done]. intros [= <- <-]. apply attributes_inv in Ea as (a & s & Ha & Hs & ->).
    exists (60 :: m ++ a ++ s ++ if e then [47; 62] else [62]). rewrite Em. split; [cbn [app]; by rewrite <- !app_assoc|]. split; [|done].
    exists m, a, s. split; [done|]. split; [done|]. split; [done|]. split; [by eapply attributes_border|done].
  Qed.
  Lemma raw_inv w t rest : raw_token w = RToken t rest -> exists x, w = x ++ rest /\ token_text t x rest.
  Proof.
    unfold Xml.raw_token. destruct w as [|b w]; [done|]. destruct (N.eqb_spec b 60) as [-> |Hb].
    - destruct (markup w) as [[t' r]|] eqn:E; [|done]. intros [= -> ->]. apply markup_inv in E as (x & ? & ? & _). by exists x.
    - destruct (checked_text None false (b :: w)) as [[v r]|] eqn:E; [|done]. intros [= <- ->]. apply checked_inv in E as (x & tl & Ew & [-> Hr] & Hc & Hl & Hf); [|by left].
      exists x. split; [done|]. split; [|by right]. apply ac_text; try done. intros ->. cbn in Ew. subst. destruct Hr as [?|?]; cbn in *; congruence.
  Qed.
  (** What is read while elements are open. *)
  Fixpoint reading (open : list (list N * list N)) (es : list ev) (w : list N) : Prop :=
    match open with
    | [] => exists doc, es = flat_map events doc /\ accepts_all doc w
    | (p, n) :: open' => exists kids wk m s es' rest, es = flat_map events kids ++ EEnd n :: es' /\ w = wk ++ (60 :: 47 :: m ++ s ++ [62]) ++ rest /\
        accepts_all kids wk /\ any_name m /\ parted p n m /\ white s /\ reading open' es' rest
    end.
  Lemma reading_node nd x open es w : accepts nd x -> (head x = Some 60 \/ w = [] \/ head w = Some 60) -> reading open es w -> reading open (events nd ++ es) (x ++ w).
  Proof.
    intros Hx Hh. destruct open as [|[p n] open]; cbn.
    - intros (doc & -> & Hd). exists (nd :: doc). split; [done|]. by constructor.
    - intros (kids & wk & m & s & es' & rest & -> & -> & Hk & Hm & Hp & Hs & Hr). exists (nd :: kids), (x ++ wk), m, s, es', rest.
      split; [cbn; by rewrite <- app_assoc|]. split; [by rewrite <- (app_assoc x)|]. split; [|done]. constructor; [done|done|].
      destruct Hh as [Hh|[Hh|Hh]]; [by left|by destruct wk|]. destruct wk; [right; by left|]. right. by right.
  Qed.
  Lemma T_reading w : forall open es, T open w = (es, true) -> reading open es w.
  Proof.
    remember (length w) as k eqn:Ek. revert w Ek. induction (lt_wf k) as [k _ IH]. intros w -> open es. rewrite T_step.
    destruct (raw_token w) as [t rest| |] eqn:E; [|done|].
    2:{ intros [= <- H%bool_decide_eq_true]. subst. exists []. split; [done|]. destruct w as [|b w]; [constructor|]. unfold Xml.raw_token in E. by repeat case_match. }
    pose proof (raw_length fr mr _ _ _ E) as Hl. specialize (IH _ Hl rest eq_refl). apply raw_inv in E as (x & -> & Ht). destruct t as [p n l [] |p n|v|]; cbn [token_text] in Ht.
    - destruct Ht as (m & a & s & Hm & Hp & Ha & Hw & Hs & ->). unfold plus. intros [= <- E2]. destruct (T open rest) as [es' ok] eqn:Er. cbn in E2. subst ok. specialize (IH _ _ Er).
      apply (reading_node (Elem n l [])); [by eapply ac_empty|by left|done].
    - destruct Ht as (m & a & s & Hm & Hp & Ha & Hw & Hs & ->). unfold plus. intros [= <- E2]. destruct (T ((p, n) :: open) rest) as [es' ok] eqn:Er. cbn in E2. subst ok. specialize (IH _ _ Er).
      destruct IH as (kids & wk & m' & s' & es2 & rest' & Ees & -> & Hk & Hm' & Hp' & Hs' & Hr). cbn [fst]. rewrite Ees. rewrite (parted_one _ _ _ _ Hp' Hp).
      assert (Hn : accepts (Elem n l kids) ((60 :: m ++ a ++ s ++ [62]) ++ wk ++ (60 :: 47 :: m ++ s' ++ [62]))) by (by eapply ac_element).
      apply (reading_node _ _ open es2 rest') in Hn; [|by left|done]. cbn [events] in Hn. repeat progress (rewrite <- ?app_assoc in Hn; cbn [app] in Hn). repeat progress (rewrite <- ?app_assoc; cbn [app]). done.
    - destruct Ht as (m & s & Hm & Hp & Hs & ->). destruct open as [|[p' n'] open]; [done|]. destruct (bool_decide_reflect (n' = n)) as [-> |]; [|done]. destruct (bool_decide_reflect (p' = p)) as [-> |]; [|done].
      cbn [andb]. unfold plus. intros [= <- E2]. destruct (T open rest) as [es' ok] eqn:Er. cbn in E2. subst ok. specialize (IH _ _ Er).
      exists [], [], m, s, es', rest. split; [done|]. split; [done|]. split; [constructor|]. done.
    - destruct Ht as [Hx Hh]. unfold plus. intros [= <- E2]. destruct (T open rest) as [es' ok] eqn:Er. cbn in E2. subst ok. specialize (IH _ _ Er).
      by apply (reading_node (Text v)).
    - destruct Ht as [Hx Hh]. unfold plus. intros [= <- E2]. destruct (T open rest) as [es' ok] eqn:Er. cbn in E2. subst ok. specialize (IH _ _ Er).
      apply (reading_node Note); [done|by left|done].
  Qed.

  (** ** Every text of the language is accepted *)
  Lemma single_element p n m l a s (e : bool) : any_name m -> parted p n m -> attributes_read l a -> (a = [] \/ starts_white a) -> white s ->
    single fr mr (60 :: m ++ a ++ s ++ if e then [47; 62] else [62]) (TStart p n l e).
  Proof.
    intros Hm Hp Ha Hw Hs. split; [by eexists|]. intros tail. cbn [app]. apply raw_markup. rewrite <- !app_assoc.
    destruct (any_name_head m Hm) as (b & m' & -> & Hb). destruct (nameish_other b Hb) as (_ & B1 & _ & B3 & B4). cbn [app Xml.markup].
    destruct (N.eqb_spec b 47); [done|]. destruct (N.eqb_spec b 63); [done|]. destruct (N.eqb_spec b 33); [done|]. unfold start_tag.
    rewrite (proj2 (nsname_iff _ p n (a ++ s ++ (if e then [47; 62] else [62]) ++ tail))).
    - rewrite (attributes_full l a Ha); [done| |done]. rewrite app_length. lia.
    - exists (b :: m'). split; [done|]. split; [done|]. split; [|done]. destruct Hw as [-> |(c & a' & -> & Hc)].
      + cbn [app]. apply name_over_white; [done|]. apply over_stops. destruct e; by apply stops_byte.
      + by apply white_over.
  Qed.
  Lemma single_end p n m s : any_name m -> parted p n m -> white s -> single fr mr (60 :: 47 :: m ++ s ++ [62]) (TEnd p n).
  Proof.
    intros Hm Hp Hs. split; [by eexists|]. intros tail. cbn [app]. apply raw_markup. rewrite <- !app_assoc. cbn [app Xml.markup N.eqb Pos.eqb]. unfold end_tag.
    rewrite (proj2 (nsname_iff _ p n (s ++ 62 :: tail))).
    - rewrite space_app by done. reflexivity.
    - exists m. split; [done|]. split; [done|]. split; [|done]. apply name_over_white; [done|]. apply over_stops. by apply stops_byte.
  Qed.
  Lemma name_over_app w tail : w <> [] -> name_over w -> name_over (w ++ tail).
  Proof. intros _ (b & w' & -> & H). exists b. by eexists. Qed.
  Lemma single_proc n s c : any_name n -> white s -> ~ starts_white c -> name_over (s ++ c ++ bytes_of "?>") -> free_of (bytes_of "?>") c ->
    (n = bytes_of "xml" -> declared c) -> single fr mr (bytes_of "<?" ++ n ++ s ++ c ++ bytes_of "?>") TNote.
  Proof.
    intros Hn Hs Hc Ho Hf Hx. split; [by eexists|]. intros tail. rewrite <- !app_assoc.
    change (bytes_of "<?" ++ n ++ s ++ c ++ bytes_of "?>" ++ tail) with (60 :: 63 :: n ++ s ++ c ++ bytes_of "?>" ++ tail).
    apply raw_markup. unfold Xml.markup. cbn [N.eqb Pos.eqb]. unfold proc.
    rewrite (proj2 (name_iff _ n (s ++ c ++ bytes_of "?>" ++ tail))).
    2:{ split; [done|]. split; [done|]. destruct Ho as (b & w & E & H). exists b, (w ++ tail). split; [|done]. change (b :: w ++ tail) with ((b :: w) ++ tail). rewrite <- E. by rewrite <- !app_assoc. }
    rewrite space_app by done. change (bytes_of "?>" ++ tail) with (63 :: 62 :: tail). destruct (instruction_trim fr mr c tail Hf) as (c' & -> & Hc').
    rewrite Hc'; [|destruct c as [|b c]; [done|]; apply not_true_iff_false; intros Hb; apply Hc; exists b, c; split; [done|by apply white_space]].
    destruct (bool_decide_reflect (n = bytes_of "xml")) as [En|]; [|done]. by rewrite (proj2 (declared_iff c) (Hx En)).
  Qed.
  Lemma single_bang b t : b <> 45 -> b <> 91 -> directive_body t -> single fr mr (bytes_of "<!" ++ b :: t ++ [62]) TNote.
  Proof.
    intros H45 H91 Ht. split; [by eexists|]. intros tail. rewrite <- !app_assoc.
    change (bytes_of "<!" ++ (b :: t ++ [62]) ++ tail) with (60 :: 33 :: b :: (t ++ [62]) ++ tail). rewrite <- app_assoc. cbn [app].
    apply raw_markup. unfold Xml.markup. cbn [N.eqb Pos.eqb]. unfold bang. destruct (N.eqb_spec b 45); [done|]. destruct (N.eqb_spec b 91); [done|]. rewrite (directive_ok fr mr) by done. done.
  Qed.
  Scheme accepts_ind2 := Induction for XmlLang.accepts Sort Prop with accepts_all_ind2 := Induction for XmlLang.accepts_all Sort Prop.
  Combined Scheme accepts_mutind from accepts_ind2, accepts_all_ind2.
  Lemma T_accepts :
    (forall n w, accepts n w -> forall open tail, ends w tail -> T open (w ++ tail) = ThmXml.plus (events n) (T open tail)) /\
    (forall ns w, accepts_all ns w -> forall open tail, (tail = [] \/ head tail = Some 60) -> T open (w ++ tail) = ThmXml.plus (flat_map events ns) (T open tail)).
  Proof.
    apply accepts_mutind.
    - intros v w Hne Hc Hl Hf open tail [H|H]; [|by apply T_text]. by destruct (chars_head _ _ Hc).
    - intros v w Hc Hl Hf open tail _. exact (T_single _ _ _ _ open tail (single_cdata _ _ v w Hc Hl Hf)).
    - intros t Hf open tail _. exact (T_single _ _ _ _ open tail (single_comment _ _ t Hf)).
    - intros n s c H1 H2 H3 H4 H5 H6 open tail _. exact (T_single _ _ _ _ open tail (single_proc n s c H1 H2 H3 H4 H5 H6)).
    - intros b t H1 H2 H3 open tail _. exact (T_single _ _ _ _ open tail (single_bang b t H1 H2 H3)).
    - intros p n l kids m a s w s' Hm Hp Ha Hw Hs _ IH Hs' open tail _.
      rewrite <- app_assoc, (T_single _ _ _ _ open _ (single_element p n m l a s false Hm Hp Ha Hw Hs)), <- app_assoc, IH by (right; reflexivity).
      rewrite (T_single _ _ _ _ _ tail (single_end p n m s' Hm Hp Hs')), !bool_decide_true by done. cbn [andb]. rewrite !ThmXml.plus_plus. f_equal.
    - intros p n l m a s Hm Hp Ha Hw Hs open tail _. exact (T_single _ _ _ _ open tail (single_element p n m l a s true Hm Hp Ha Hw Hs)).
    - intros open tail _. cbn [app flat_map]. unfold ThmXml.plus. by destruct (T open tail).
    - intros n ns w ws _ IH1 _ IH2 He open tail Ht. rewrite <- app_assoc, IH1; [rewrite IH2 by done; by rewrite ThmXml.plus_plus|].
      destruct He as [? |[-> |Hw]]; [by left|by right|]. right. right. destruct ws; [done|]. by cbn in *.
  Qed.
  Lemma accepted_iff w es : T [] w = (es, true) <-> exists doc, es = flat_map events doc /\ accepts_all doc w.
  Proof.
    split; [apply (T_reading w [])|]. intros (doc & -> & H). pose proof (proj2 T_accepts doc w H [] [] (or_introl eq_refl)) as E.
    rewrite app_nil_r, ThmXml.T_nil in E. rewrite E. unfold ThmXml.plus. cbn. by rewrite app_nil_r.
  Qed.
End decoder.

Lemma l_C89_accepts_exactly : forall first more w es,
  tokenize first more w = (es, true) <-> exists doc, es = flat_map events doc /\ accepts_all first more doc w.
Proof. intros fr mr w es. exact (accepted_iff fr mr w es). Qed.

(** ** One reading only *)
Lemma events_head_end n es : flat_map events (n :: es) <> [] /\ forall m r, events n <> EEnd m :: r.
Proof. split; [by destruct n|]. intros m r. by destruct n. Qed.
Lemma events_inj : forall doc doc' r r',
  (r = [] \/ exists n t, r = EEnd n :: t) -> (r' = [] \/ exists n t, r' = EEnd n :: t) ->
  flat_map events doc ++ r = flat_map events doc' ++ r' -> doc = doc' /\ r = r'.
Proof.
  assert (Hstop : forall n doc r r', (r = [] \/ exists m t, r = EEnd m :: t) -> flat_map events (n :: doc) ++ r' <> r).
  { intros n doc r r' [-> |(m & t & ->)]; by destruct n. }
  assert (H : forall n, forall n' t t', events n ++ t = events n' ++ t' -> n = n' /\ t = t').
  { apply (node_nested (fun n => forall n' t t', events n ++ t = events n' ++ t' -> n = n' /\ t = t')).
    - intros n l kids IH [n' l' kids'|v|] t t' E; cbn in E; [|discriminate..]. injection E as -> -> E. rewrite <- !app_assoc in E. cbn [app] in E.
      assert (Hk : forall ks ks' u u' a b, Forall (fun n => forall n' t t', events n ++ t = events n' ++ t' -> n = n' /\ t = t') ks ->
        flat_map events ks ++ EEnd a :: u = flat_map events ks' ++ EEnd b :: u' -> ks = ks' /\ a = b /\ u = u').
      { intros ks. induction ks as [|k ks IHk]; intros [|k' ks'] u u' a b Hf E'; cbn in E'.
        - by injection E' as -> ->.
        - by destruct k'.
        - by destruct k.
        - rewrite <- !app_assoc in E'. inversion_clear Hf as [|? ? Hk Hks]. apply Hk in E' as [-> E']. by apply IHk in E' as (-> & -> & ->). }
      by apply Hk in E as (-> & _ & ->).
    - intros v [n' l' kids'|v'|] t t' E; cbn in E; [discriminate| |discriminate]. by injection E as -> ->.
    - intros [n' l' kids'|v'|] t t' E; cbn in E; [discriminate..|]. by injection E as ->. }
  intros doc. induction doc as [|n doc IH]; intros [|n' doc'] r r' Hr Hr' E.
  - done.
  - by destruct (Hstop n' doc' r r' Hr).
  - by destruct (Hstop n doc r' r Hr').
  - cbn [flat_map] in E. rewrite <- !app_assoc in E. apply H in E as [-> E]. apply IH in E as [-> ->]; done.
Qed.
Lemma l_C89_one_reading : forall first more doc doc' w, accepts_all first more doc w -> accepts_all first more doc' w -> doc = doc'.
Proof.
  intros fr mr doc doc' w H1 H2. assert (E1 := proj2 (l_C89_accepts_exactly fr mr w _) (ex_intro _ doc (conj eq_refl H1))).
  rewrite (proj2 (l_C89_accepts_exactly fr mr w _) (ex_intro _ doc' (conj eq_refl H2))) in E1. injection E1 as E.
  destruct (events_inj doc' doc [] [] (or_introl eq_refl) (or_introl eq_refl)) as [-> _]; [by rewrite E|done].
Qed.
Lemma l_C89_wider_than_XML : forall first more doc w, written_all doc w -> accepts_all first more doc w.
Proof.
  intros fr mr doc w H. destruct (proj1 (l_C89_accepts_exactly fr mr w _) (l_C84_every_writing_is_read fr mr doc w H)) as (doc' & E & Hd).
  destruct (events_inj doc doc' [] [] (or_introl eq_refl) (or_introl eq_refl)) as [-> _]; [by rewrite E|done].
Qed.
