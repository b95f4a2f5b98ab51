(** Readers: extension, absence of panics, exact consumption; round trips of the primitives. *)
From Coq Require Import ZifyBool ZifyNat ZifyN.
From Verif Require Import Base Storage Bin BaseFacts.
From stdpp Require Import list.
Open Scope N_scope.
Ltac Zify.zify_post_hook ::= Z.div_mod_to_equations.

(** A byte string: every element is below 256. *)
Definition bytes (l : list N) : Prop := Forall (fun b => b < 256) l.

(** [r] reads a prefix of its input: success does not depend on what follows. *)
Definition stable {A} (r : reader A) : Prop :=
  forall bs a rest, r bs = Ok (a, rest) ->
  exists used, bs = used ++ rest /\ forall more, r (used ++ more) = Ok (a, more).
(** [r] never panics. *)
Definition calm {A} (r : reader A) : Prop := forall bs, r bs <> Panic.
(** [r] consumes at least one byte. *)
Definition eats {A} (r : reader A) : Prop :=
  forall bs a rest, r bs = Ok (a, rest) -> (length rest < length bs)%nat.
(** [r] reads back what [w] wrote and leaves the rest. *)
Definition round {A} (P : A -> Prop) (r : reader A) (w : A -> list N) : Prop :=
  forall a rest, P a -> r (w a ++ rest) = Ok (a, rest).

(** ** Combinators *)
Lemma stable_ret {A} (a : A) : stable (mret a).
Proof. intros bs x rest [= <- <-]. by exists []. Qed.
Lemma stable_bind {A B} (r : reader A) (f : A -> reader B) :
  stable r -> (forall a, stable (f a)) -> stable (r ≫= f).
Proof.
  intros Hr Hf bs b rest H. unfold mbind, reader_bind in H.
  destruct (r bs) as [[a r1]|e|] eqn:E; try done.
  destruct (Hr _ _ _ E) as (u & -> & Hu). destruct (Hf a _ _ _ H) as (v & -> & Hv).
  exists (u ++ v). split; [by rewrite app_assoc|]. intros more.
  unfold mbind, reader_bind. by rewrite <- app_assoc, Hu, Hv.
Qed.
Lemma stable_wrap {A} e (r : reader A) : stable r -> stable (rwrap e r).
Proof.
  intros Hr bs a rest H. unfold rwrap, wrap_err in H.
  destruct (r bs) as [x|e'|] eqn:E; try done. injection H as ->.
  destruct (Hr _ _ _ E) as (u & -> & Hu). exists u. split; [done|]. intros more.
  unfold rwrap. by rewrite Hu.
Qed.
Lemma stable_fail {A} e : stable (@rfail A e).
Proof. intros bs a rest H. done. Qed.
Lemma stable_lift {A} (m : res A) : stable (rlift m).
Proof. intros bs a rest H. unfold rlift in *. destruct m; try done. injection H as <- <-. by exists []. Qed.
Lemma stable_u8 : stable get_u8.
Proof. intros [|b bs] a rest H; [done|]. injection H as <- <-. by exists [b]. Qed.
Lemma stable_stringz : stable get_stringz.
Proof.
  intros bs. induction bs as [|b bs IH]; intros a rest H; [done|]. cbn in H.
  destruct (N.eqb_spec b 0) as [->|Hb].
  - injection H as <- <-. by exists [0].
  - destruct (get_stringz bs) as [[s r1]|e|] eqn:E; try done. injection H as <- <-.
    destruct (IH s r1 eq_refl) as (u & -> & Hu). exists (b :: u). split; [done|]. intros more.
    cbn. destruct (N.eqb_spec b 0); [done|]. by rewrite Hu.
Qed.

Lemma calm_ret {A} (a : A) : calm (mret a).
Proof. done. Qed.
Lemma calm_bind {A B} (r : reader A) (f : A -> reader B) :
  calm r -> (forall a, calm (f a)) -> calm (r ≫= f).
Proof.
  intros Hr Hf bs. unfold mbind, reader_bind. specialize (Hr bs).
  destruct (r bs) as [[a r1]|e|]; try done. apply Hf.
Qed.
Lemma calm_wrap {A} e (r : reader A) : calm r -> calm (rwrap e r).
Proof. intros Hr bs. specialize (Hr bs). unfold rwrap. by destruct (r bs). Qed.
Lemma calm_fail {A} e : calm (@rfail A e).
Proof. done. Qed.
Lemma calm_lift {A} (m : res A) : m <> Panic -> calm (rlift m).
Proof. intros H bs. unfold rlift. by destruct m. Qed.
Lemma calm_u8 : calm get_u8.
Proof. by intros []. Qed.
Lemma calm_stringz : calm get_stringz.
Proof.
  intros bs. induction bs as [|b bs IH]; [done|]. cbn. destruct (b =? 0); [done|].
  destruct (get_stringz bs) as [[]|e|]; done.
Qed.

Lemma eats_u8 : eats get_u8.
Proof. intros [|b bs] a rest H; [done|]. injection H as <- <-. cbn. lia. Qed.
Lemma eats_bind {A B} (r : reader A) (f : A -> reader B) :
  eats r -> (forall a, stable (f a)) -> eats (r ≫= f).
Proof.
  intros Hr Hf bs b rest H. unfold mbind, reader_bind in H.
  destruct (r bs) as [[a r1]|e|] eqn:E; try done.
  apply Hr in E. destruct (Hf a _ _ _ H) as (u & -> & _). rewrite app_length in E. lia.
Qed.
Lemma eats_wrap {A} e (r : reader A) : eats r -> eats (rwrap e r).
Proof.
  intros Hr bs a rest H. unfold rwrap, wrap_err in H.
  destruct (r bs) as [x|e'|] eqn:E; try done. injection H as ->. by apply Hr in E.
Qed.

(** ** Loops *)
Lemma read_fuel_stable {A} (r : reader A) fuel : stable r -> forall n bs xs rest,
  read_fuel fuel r n bs = Ok (xs, rest) ->
  lenN xs = n /\ exists used, bs = used ++ rest /\
    forall fuel' more, (length xs <= fuel')%nat -> read_fuel fuel' r n (used ++ more) = Ok (xs, more).
Proof.
  intros Hr. induction fuel as [|fuel IH]; intros n bs xs rest H; cbn [read_fuel] in H.
  - destruct (N.eqb_spec n 0) as [->|]; [|done]. injection H as <- <-. split; [done|].
    exists []. split; [done|]. intros [|f] more _; done.
  - destruct (N.eqb_spec n 0) as [->|Hn].
    { injection H as <- <-. split; [done|]. exists []. split; [done|]. intros [|f] more _; done. }
    destruct (r bs) as [[x r1]|e|] eqn:E; try done.
    destruct (read_fuel fuel r (n - 1) r1) as [[ys r2]|e|] eqn:E2; try done.
    injection H as <- <-. destruct (Hr _ _ _ E) as (u & -> & Hu).
    destruct (IH _ _ _ _ E2) as (Hl & v & -> & Hv). split; [rewrite lenN_cons; lia|].
    exists (u ++ v). split; [by rewrite app_assoc|]. intros f more Hf. cbn [length] in Hf.
    destruct f as [|f]; [lia|]. cbn [read_fuel]. destruct (N.eqb_spec n 0); [done|].
    rewrite <- app_assoc, Hu, Hv by lia. done.
Qed.
Lemma read_fuel_eats {A} (r : reader A) fuel : stable r -> eats r -> forall n bs xs rest,
  read_fuel fuel r n bs = Ok (xs, rest) -> (length xs + length rest <= length bs)%nat.
Proof.
  intros Hr He. induction fuel as [|fuel IH]; intros n bs xs rest H; cbn [read_fuel] in H.
  - destruct (n =? 0); [|done]. by injection H as <- <-.
  - destruct (n =? 0); [by injection H as <- <-|].
    destruct (r bs) as [[x r1]|e|] eqn:E; try done.
    destruct (read_fuel fuel r (n - 1) r1) as [[ys r2]|e|] eqn:E2; try done.
    injection H as <- <-. apply IH in E2. apply He in E. cbn. lia.
Qed.
Lemma stable_many {A} (r : reader A) n : stable r -> eats r -> stable (read_many r n).
Proof.
  intros Hr He bs xs rest H. unfold read_many in H.
  destruct (read_fuel_stable r _ Hr _ _ _ _ H) as (Hl & u & -> & Hu).
  exists u. split; [done|]. intros more. unfold read_many. apply Hu.
  pose proof (read_fuel_eats r _ Hr He _ _ _ _ H) as Hle. rewrite app_length in *. lia.
Qed.
Lemma calm_many {A} (r : reader A) n : calm r -> calm (read_many r n).
Proof.
  intros Hr bs. unfold read_many. generalize (S (length bs)) as fuel. intros fuel.
  revert n bs. induction fuel as [|fuel IH]; intros n bs; cbn [read_fuel].
  - by destruct (n =? 0).
  - destruct (n =? 0); [done|]. specialize (Hr bs). destruct (r bs) as [[x r1]|e|]; try done.
    specialize (IH (n - 1) r1). by destruct (read_fuel fuel r (n - 1) r1) as [[]|e|].
Qed.

(** the loops of the code have no fuel: the fuel of the model never changes a result *)
Lemma read_fuel_enough {A} (r : reader A) : eats r -> forall fuel n bs,
  (length bs < fuel)%nat -> read_fuel fuel r n bs = read_many r n bs.
Proof.
  intros He. unfold read_many.
  enough (H : forall f1 f2 n bs, (length bs < f1)%nat -> (length bs < f2)%nat ->
    read_fuel f1 r n bs = read_fuel f2 r n bs) by (intros; apply H; lia).
  induction f1 as [|f1 IH]; intros f2 n bs H1 H2; [lia|]. destruct f2 as [|f2]; [lia|].
  cbn [read_fuel]. destruct (n =? 0); [done|]. destruct (r bs) as [[x r1]|e|] eqn:E; try done.
  apply He in E. rewrite (IH f2) by lia. done.
Qed.

(** ** Round trips *)
Lemma round_many {A} (P : A -> Prop) (r : reader A) (w : A -> list N) :
  round P r w -> (forall a, w a <> []) -> forall l rest, Forall P l ->
  read_many r (lenN l) (concat (map w l) ++ rest) = Ok (l, rest).
Proof.
  intros Hr Hw l rest HP. unfold read_many.
  assert (Hlen : (length l <= length (concat (map w l) ++ rest))%nat).
  { rewrite app_length. clear HP. induction l as [|x l IH]; cbn; [lia|]. rewrite app_length.
    specialize (Hw x). destruct (w x); [done|]. cbn. lia. }
  revert Hlen. generalize (length (concat (map w l) ++ rest)) as m. intros m Hm.
  assert (Hf : (length l < S m)%nat) by lia. revert Hf. generalize (S m) as fuel. clear m Hm.
  induction HP as [|x l Hx HP IH]; intros fuel Hf.
  - destruct fuel; done.
  - destruct fuel as [|fuel]; [cbn in Hf; lia|]. cbn [read_fuel map concat].
    destruct (N.eqb_spec (lenN (x :: l)) 0) as [E|E]; [rewrite lenN_cons in E; lia|].
    rewrite <- app_assoc, Hr by done. rewrite lenN_cons.
    replace (lenN l + 1 - 1) with (lenN l) by lia. rewrite IH by (cbn in Hf; lia). done.
Qed.

Lemma round_u8 n rest : n < 256 -> get_u8 (put_u8 n ++ rest) = Ok (n, rest).
Proof. intros H. cbn. by rewrite wrap8_small. Qed.
Lemma round_u16 n rest : n < 65536 -> get_u16 (put_u16 n ++ rest) = Ok (n, rest).
Proof.
  intros H. transitivity (Ok (wrap8 (n / 256) * 256 + wrap8 n, rest)); [done|].
  do 2 f_equal. unfold wrap8. lia.
Qed.
Lemma round_u32 n rest : n < 4294967296 -> get_u32 (put_u32 n ++ rest) = Ok (n, rest).
Proof.
  intros H. transitivity (Ok (wrap8 (n / 16777216) * 16777216 + wrap8 (n / 65536) * 65536
                              + wrap8 (n / 256) * 256 + wrap8 n, rest)); [done|].
  do 2 f_equal. unfold wrap8.
  replace (n / 16777216) with (n / 256 / 256 / 256) by (rewrite !N.div_div by lia; done).
  replace (n / 65536) with (n / 256 / 256) by (rewrite N.div_div by lia; done).
  assert (E0 : n = 256 * (n / 256) + n mod 256) by (apply N.div_mod; lia).
  set (a := n / 256) in *. assert (E1 : a = 256 * (a / 256) + a mod 256) by (apply N.div_mod; lia).
  set (b := a / 256) in *. assert (E2 : b = 256 * (b / 256) + b mod 256) by (apply N.div_mod; lia).
  set (c := b / 256) in *. assert (c < 256) by lia. rewrite (N.mod_small c) by done. lia.
Qed.
Lemma rune_round r : (-2147483648 <= r < 2147483648)%Z ->
  rune_of_u32 (rune_to_u32 r) = r /\ rune_to_u32 r < 4294967296.
Proof.
  intros H. unfold rune_of_u32, rune_to_u32.
  destruct (N.ltb_spec (Z.to_N (r mod 4294967296)) 2147483648); lia.
Qed.
Lemma round_stringz s rest : Forall (fun b => b <> 0) s ->
  get_stringz (put_stringz s ++ rest) = Ok (s, rest).
Proof.
  intros H. unfold put_stringz. induction H as [|b s Hb _ IH]; cbn; [done|].
  destruct (N.eqb_spec b 0); [done|]. cbn in IH. by rewrite IH.
Qed.

Lemma stable_u16 : stable get_u16.
Proof. apply stable_bind; [apply stable_u8|]. intros a. apply stable_bind; [apply stable_u8|]. intros b. apply stable_ret. Qed.
Lemma stable_u32 : stable get_u32.
Proof. repeat (apply stable_bind; [apply stable_u8|]; intros ?). apply stable_ret. Qed.
Lemma calm_u16 : calm get_u16.
Proof. repeat (apply calm_bind; [apply calm_u8|]; intros ?). apply calm_ret. Qed.
Lemma calm_u32 : calm get_u32.
Proof. repeat (apply calm_bind; [apply calm_u8|]; intros ?). apply calm_ret. Qed.
Lemma eats_u16 : eats get_u16.
Proof. apply eats_bind; [apply eats_u8|]. intros a. apply stable_bind; [apply stable_u8|]. intros b. apply stable_ret. Qed.
Lemma eats_u32 : eats get_u32.
Proof. apply eats_bind; [apply eats_u8|]. intros a. repeat (apply stable_bind; [apply stable_u8|]; intros ?). apply stable_ret. Qed.

Lemma put_u8_bytes n : bytes (put_u8 n).
Proof. constructor; [apply wrap8_lt|constructor]. Qed.
Lemma put_u16_bytes n : bytes (put_u16 n).
Proof. repeat (constructor; [apply wrap8_lt|]). constructor. Qed.
Lemma put_u32_bytes n : bytes (put_u32 n).
Proof. repeat (constructor; [apply wrap8_lt|]). constructor. Qed.

(** ** Truncation: a stable, calm reader rejects every proper prefix of what it accepts. *)
Lemma truncated {A} (r : reader A) bs a :
  stable r -> calm r -> r bs = Ok (a, []) ->
  forall p, p `prefix_of` bs -> p <> bs -> is_err (r p) = true.
Proof.
  intros Hs Hc Hr p [more ->] Hne. specialize (Hc p).
  destruct (r p) as [[x rest]|e|] eqn:E; try done. exfalso.
  destruct (Hs _ _ _ E) as (u & -> & Hu). rewrite <- app_assoc, Hu in Hr.
  injection Hr as _ Hz. apply app_eq_nil in Hz as [-> ->]. apply Hne. by rewrite !app_nil_r.
Qed.

(** ** Writers *)
Lemma wall_ok {A} (f : A -> wres) (g : A -> list N) l :
  Forall (fun a => f a = wok (g a)) l -> wall f l = wok (concat (map g l)).
Proof. induction 1 as [|x l Hx _ IH]; [done|]. cbn. unfold wall in IH. rewrite Hx, IH. done. Qed.
Lemma wall_fail {A} (f : A -> wres) l :
  Exists (fun a => exists e, (f a).2 = Some e) l -> exists e, (wall f l).2 = Some e.
Proof.
  induction 1 as [x l [e Hx]|x l _ [e IH]]; cbn.
  - destruct (f x) as [b [e'|]]; [|done]. cbn. by exists e'.
  - destruct (f x) as [b [e'|]]; cbn; [by exists e'|]. exists e. done.
Qed.
