(** The conversions of strconv accept and return what Go's grammar of integers says. *)
From Coq Require Import ZifyBool ZifyNat ZifyN.
From Verif Require Import Base Strconv Numerals.
From stdpp Require Import list.
Open Scope N_scope.

(** ** Characters *)
Lemma below (P : N -> bool) n : forallb P (map N.of_nat (seq 0 n)) = true -> forall c, c < N.of_nat n -> P c = true.
Proof.
  intros H c Hc. rewrite forallb_forall in H. apply H. apply in_map_iff. exists (N.to_nat c). split; [lia|].
  apply in_seq. lia.
Qed.
Lemma lower_big c : 128 <= c -> 128 <= lower c.
Proof.
  intros H. unfold lower. assert (7 <= N.log2 (N.lor c 32)).
  { rewrite N.log2_lor. apply N.log2_le_mono in H. change (N.log2 128) with 7 in H. lia. }
  assert (N.lor c 32 <> 0). { intros E. rewrite E in H0. cbn in H0. lia. }
  pose proof (N.log2_spec (N.lor c 32) ltac:(lia)) as [Hs _].
  assert (2 ^ 7 <= 2 ^ N.log2 (N.lor c 32)) by (apply N.pow_le_mono_r; lia). change (2 ^ 7) with 128 in *. lia.
Qed.
Lemma lower_is c l : lower c = l -> 97 <= l <= 122 -> c = l \/ c = l - 32.
Proof.
  intros E Hl. destruct (N.lt_ge_cases c 128) as [Hc|Hc]; [|apply lower_big in Hc; lia].
  assert (H : (let x := lower c in implb ((97 <=? x) && (x <=? 122)) ((c =? x) || (c =? x - 32))) = true).
  { revert c E Hc. intros c _ Hc. apply (below (fun c => let x := lower c in implb ((97 <=? x) && (x <=? 122)) ((c =? x) || (c =? x - 32))) 128); [|done].
    vm_compute. done. }
  cbn in H. rewrite E in H. lia.
Qed.
Lemma lower_low d : d < 26 -> lower (97 + d) = 97 + d.
Proof.
  intros H. pose proof (below (fun d => lower (97 + d) =? 97 + d) 26) as B. cbn in B.
  specialize (B eq_refl d H). lia.
Qed.
Lemma lower_up d : d < 26 -> lower (65 + d) = 97 + d.
Proof.
  intros H. pose proof (below (fun d => lower (65 + d) =? 97 + d) 26) as B. cbn in B.
  specialize (B eq_refl d H). lia.
Qed.

Lemma digit_spec b c d : b <= 16 -> digit b c d <-> digit_of c = Some d /\ d < b.
Proof.
  intros Hb. unfold digit_of. split.
  - intros [d' H1 H2|d' H1 H2|d' H1 H2].
    + destruct ((48 <=? 48 + d') && (48 + d' <=? 57)) eqn:E; [|lia]. split; [f_equal; lia|done].
    + destruct ((48 <=? 97 + d') && (97 + d' <=? 57)) eqn:E; [lia|]. rewrite lower_low by lia.
      destruct ((97 <=? 97 + d') && (97 + d' <=? 122)) eqn:E'; [|lia]. split; [f_equal; lia|done].
    + destruct ((48 <=? 65 + d') && (65 + d' <=? 57)) eqn:E; [lia|]. rewrite lower_up by lia.
      destruct ((97 <=? 97 + d') && (97 + d' <=? 122)) eqn:E'; [|lia]. split; [f_equal; lia|done].
  - intros [H Hd]. destruct ((48 <=? c) && (c <=? 57)) eqn:E.
    { injection H as <-. replace c with (48 + (c - 48)) at 1 by lia. constructor; lia. }
    destruct ((97 <=? lower c) && (lower c <=? 122)) eqn:E'; [|done]. injection H as <-.
    replace (lower c - 97 + 10) with (10 + (lower c - 97)) by lia.
    destruct (lower_is c (lower c) eq_refl ltac:(lia)) as [Ec|Ec].
    + rewrite Ec at 1. replace (lower c) with (97 + (lower c - 97)) at 1 by lia. constructor; lia.
    + replace c with (65 + (lower c - 97)) at 1 by lia. constructor; lia.
Qed.

Definition is_digit (hex : bool) (c : N) : bool :=
  ((48 <=? c) && (c <=? 57)) || (hex && (97 <=? lower c) && (lower c <=? 102)).
Definition base_ok (b : N) : Prop := b = 2 \/ b = 8 \/ b = 10 \/ b = 16.
Lemma base_le b : base_ok b -> b <= 16.
Proof. intros [-> | [-> | [-> | ->]]]; lia. Qed.
Lemma digit_is b c d : base_ok b -> digit_of c = Some d -> d < b -> is_digit (b =? 16) c = true /\ c <> 95.
Proof.
  intros Hb H Hd. unfold digit_of in H. unfold is_digit.
  destruct ((48 <=? c) && (c <=? 57)) eqn:E; [split; [done|lia]|].
  destruct ((97 <=? lower c) && (lower c <=? 122)) eqn:E'; [|done]. injection H as <-.
  destruct Hb as [-> | [-> | [-> | ->]]]; try lia. split; [lia|]. intros ->. vm_compute in E'. done.
Qed.

Lemma digits_mono b n s m : 2 <= b -> digits b n s m -> n <= m.
Proof. intros Hb. induction 1 as [|n c d s m H1 H2 IH|n c d s m H1 H2 IH]; nia. Qed.

(** ** The loop *)
Lemma loop_spec b max : base_ok b -> forall s n m, n <= max ->
  (digits_loop true b max n s = Some m /\ under_loop (b =? 16) SDigit s = true <-> digits b n s m /\ m <= max) /\
  (digits_loop true b max n s = Some m /\ under_loop (b =? 16) SUnder s = true <->
   exists c d s', s = c :: s' /\ digit b c d /\ digits b (n * b + d) s' m /\ m <= max).
Proof.
  intros Hb. pose proof (base_le b Hb) as Hle.
  assert (H2 : 2 <= b) by (destruct Hb as [-> | [-> | [-> | ->]]]; lia).
  induction s as [|c s IH]; intros n m Hn.
  { cbn. split; split.
    - intros [[= <-] _]. split; [constructor|done].
    - intros [H Hm]. by inversion H.
    - intros [_ ?]. done.
    - intros (c & d & s' & ? & _). done. }
  cbn [digits_loop under_loop]. fold (is_digit (b =? 16) c). cbn [andb].
  assert (Hnext : forall d, digit_of c = Some d -> d < b -> n * b + d <= max ->
    (digits_loop true b max (n * b + d) s = Some m /\ under_loop (b =? 16) SDigit s = true) <-> digits b (n * b + d) s m /\ m <= max).
  { intros d Hd1 Hd2 Hd3. apply (IH (n * b + d) m Hd3). }
  destruct (N.eqb_spec c 95) as [->|Hc].
  - change (is_digit (b =? 16) 95) with ((false || ((b =? 16) && (97 <=? 127) && (127 <=? 102)))).
    assert (false || (b =? 16) && (97 <=? 127) && (127 <=? 102) = false) as -> by lia.
    split; [|split].
    + rewrite (proj2 (IH n m Hn)). split.
      * intros (c & d & s' & -> & Hd & Hds & Hm). split; [|done]. by eapply digits_under.
      * intros [H Hm]. inversion H as [|? ? ? ? ? Hd|? c d s' ? Hd Hds]; subst.
        -- apply digit_spec in Hd as [Hd _]; [|done]. vm_compute in Hd. done.
        -- by exists c, d, s'.
    + intros [_ ?]. done.
    + intros (c & d & s' & [= <- <-] & Hd & _). apply digit_spec in Hd as [Hd _]; [|done]. vm_compute in Hd. done.
  - assert (Hmain : (match digit_of c with
        | Some d => if b <=? d then None else if max <? n * b + d then None else digits_loop true b max (n * b + d) s
        | None => None end = Some m /\ under_loop (b =? 16) SDigit s = true) <->
        exists d, digit b c d /\ digits b (n * b + d) s m /\ m <= max).
    { split.
      - intros [Hl Hu]. destruct (digit_of c) as [d|] eqn:Ed; [|done].
        destruct (N.leb_spec b d); [done|]. destruct (N.ltb_spec max (n * b + d)); [done|].
        exists d. split; [by apply digit_spec|]. by apply Hnext.
      - intros (d & Hd & Hds & Hm). apply digit_spec in Hd as [Ed Hdb]; [|done]. rewrite Ed.
        pose proof (digits_mono _ _ _ _ H2 Hds). destruct (N.leb_spec b d); [lia|].
        destruct (N.ltb_spec max (n * b + d)); [lia|]. apply Hnext; [done|done|lia|done]. }
    assert (Hdig : forall x : option N, x = Some m -> (match digit_of c with
        | Some d => if b <=? d then None else if max <? n * b + d then None else digits_loop true b max (n * b + d) s
        | None => None end = x) -> is_digit (b =? 16) c = true).
    { intros x -> Hx. destruct (digit_of c) as [d|] eqn:Ed; [|done]. destruct (N.leb_spec b d); [done|].
      by apply (digit_is b c d Hb Ed). }
    split; split.
    + intros [Hl Hu]. rewrite (Hdig _ eq_refl Hl) in Hu. destruct (proj1 Hmain (conj Hl Hu)) as (d & Hd & Hds & Hm).
      split; [|done]. by eapply digits_cons.
    + intros [H Hm]. inversion H as [|? ? d ? ? Hd Hds|]; subst; [|done].
      destruct (proj2 Hmain) as [Hl Hu]; [by exists d|]. split; [done|]. by rewrite (Hdig _ eq_refl Hl).
    + intros [Hl Hu]. rewrite (Hdig _ eq_refl Hl) in Hu. destruct (proj1 Hmain (conj Hl Hu)) as (d & Hd & Hds & Hm).
      by exists c, d, s.
    + intros (c' & d & s' & [= <- <-] & Hd & Hds & Hm). destruct (proj2 Hmain) as [Hl Hu]; [by exists d|].
      split; [done|]. by rewrite (Hdig _ eq_refl Hl).
Qed.

Lemma loop_digits b max : base_ok b -> forall s n m, digits_loop true b max n s = Some m -> 95 ∉ s ->
  forall w, w <> SUnder -> under_loop (b =? 16) w s = true.
Proof.
  intros Hb. induction s as [|c s IH]; intros n m H Hs w Hw; [by destruct w|].
  rewrite not_elem_of_cons in Hs. destruct Hs as [Hc Hs]. cbn [digits_loop under_loop] in *. fold (is_digit (b =? 16) c).
  destruct (N.eqb_spec c 95) as [->|_]; [done|]. cbn [andb] in H.
  destruct (digit_of c) as [d|] eqn:Ed; [|done]. destruct (N.leb_spec b d); [done|]. destruct (max <? n * b + d); [done|].
  destruct (digit_is b c d Hb Ed) as [-> _]; [done|]. by eapply IH.
Qed.
Lemma checked_spec b max s n m : base_ok b -> n <= max ->
  digits_loop true b max n s = Some m /\ (95 ∈ s -> under_loop (b =? 16) SDigit s = true) <-> digits b n s m /\ m <= max.
Proof.
  intros Hb Hn. destruct (loop_spec b max Hb s n m Hn) as [H _]. rewrite <- H. split; intros [H1 H2]; (split; [done|]); [|done].
  destruct (decide (95 ∈ s)) as [Hs|Hs]; [by apply H2|]. by apply (loop_digits b max Hb s n m H1 Hs).
Qed.

(** ** Base 0 *)
Definition result (max : N) (s : list N) (b : N) (ds : list N) : option N :=
  match digits_loop true b max 0 ds with
  | None => None
  | Some n => if bool_decide (95 ∈ ds) && negb (under_ok s) then None else Some n
  end.
Lemma result_spec max s b ds m : base_ok b ->
  (forall k, digits_loop true b max 0 ds = Some k -> 95 ∈ ds -> under_ok s = under_loop (b =? 16) SDigit ds) ->
  result max s b ds = Some m <-> digits b 0 ds m /\ m <= max.
Proof.
  intros Hb Hu. unfold result. rewrite <- checked_spec by (done || lia).
  destruct (digits_loop true b max 0 ds) as [k|] eqn:E; [|by split; [|intros [? _]]].
  specialize (Hu k eq_refl). destruct (bool_decide_reflect (95 ∈ ds)) as [Hin|Hin]; cbn [andb].
  - rewrite (Hu Hin). destruct (under_loop (b =? 16) SDigit ds); cbn [negb]; [by split; [|intros [? _]]|].
    split; [done|]. intros [_ H]. by specialize (H Hin).
  - split; [by intros [= ->]|]. by intros [[= ->] _].
Qed.
Lemma digit_not_under b d : b <= 16 -> ~ digit b 95 d.
Proof. intros Hb H. apply digit_spec in H as [H _]; [|done]. vm_compute in H. done. Qed.

Lemma lower_eq c l : 97 <= l <= 122 -> lower c = l <-> c = l \/ c = l - 32.
Proof.
  intros Hl. split; [intros E; by apply (lower_is c l)|]. intros [-> | ->].
  - pose proof (lower_low (l - 97) ltac:(lia)) as E. by replace (97 + (l - 97)) with l in E by lia.
  - pose proof (lower_up (l - 97) ltac:(lia)) as E. replace (65 + (l - 97)) with (l - 32) in E by lia.
    by replace (97 + (l - 97)) with l in E by lia.
Qed.
Lemma digit_letter b c d l : b <= 16 -> 97 <= l <= 122 -> lower c = l -> b <= l - 87 -> ~ digit b c d.
Proof.
  intros Hb Hl E Hbl H. apply digit_spec in H as [H Hd]; [|done]. unfold digit_of in H. rewrite E in H.
  destruct ((48 <=? c) && (c <=? 57)) eqn:E1.
  { apply (lower_is c l) in E; [|done]. lia. }
  destruct ((97 <=? l) && (l <=? 122)) eqn:E2; [|lia]. injection H as <-. lia.
Qed.
Lemma digits_first b n c s m : c <> 95 -> digits b n (c :: s) m -> exists d, digit b c d /\ digits b (n * b + d) s m.
Proof. intros Hc H. inversion H as [|? ? d ? ? Hd Hds|]; subst; [by exists d|done]. Qed.

Lemma parse_uint0_spec max s m : parse_uint0 max s = Some m <-> int_lit s m /\ m <= max.
Proof.
  destruct s as [|z s]; [split; [done|intros [H _]; inversion H]|].
  unfold parse_uint0. destruct (base_of (z :: s)) as [b ds] eqn:Eb. fold (result max (z :: s) b ds).
  destruct (N.eqb_spec z 48) as [->|Hz].
  2:{ (* decimal *)
    assert (b = 10 /\ ds = z :: s) as [-> ->].
    { unfold base_of in Eb. assert (z =? 48 = false) as E by lia. rewrite E in Eb.
      destruct s as [|c [|x s]]; by injection Eb as <- <-. }
    clear Eb. unfold result.
    destruct (N.eqb_spec z 95) as [->|Hu].
    { (* a leading underscore *)
      split.
      - rewrite bool_decide_true by (by left). intros H. exfalso. destruct (digits_loop true 10 max 0 (95 :: s)); [|done].
        replace (under_ok (95 :: s)) with false in H; [done|]. unfold under_ok. cbn [N.eqb orb]. destruct s; [done|]. done.
      - intros [H _]. inversion H; subst; [|done..]. exfalso. by eapply (digit_not_under 10). }
    assert (Hres : result max (z :: s) 10 (z :: s) = Some m <-> digits 10 0 (z :: s) m /\ m <= max).
    { apply result_spec; [right; right; by left|]. intros k Hk _.
      cbn [digits_loop] in Hk. assert (z =? 95 = false) as E by lia. rewrite E in Hk. cbn [andb] in Hk.
      destruct (digit_of z) as [d|] eqn:Ed; [|done]. destruct (N.leb_spec 10 d); [done|].
      destruct (digit_is 10 z d) as [Hd _]; [right; right; by left|done|done|]. change (10 =? 16) with false in *.
      assert (Hs : (z =? 45) || (z =? 43) = false) by (unfold is_digit in Hd; lia).
      unfold under_ok. rewrite Hs. assert (Ez : z =? 48 = false) by lia.
      destruct s as [|c s]; [cbn [under_loop]; fold (is_digit false z); by rewrite Hd|]. rewrite Ez. cbn [andb].
      cbn [under_loop]. fold (is_digit false z). by rewrite Hd. }
    unfold result in Hres. rewrite Hres. split; intros [H Hm]; (split; [|done]).
    - destruct (digits_first _ _ _ _ _ Hu H) as (d & Hd & Hds). rewrite N.mul_0_l, N.add_0_l in Hds.
      eapply lit_dec; [exact Hd| |exact Hds]. intros ->. apply digit_spec in Hd as [Hd _]; [|lia]. unfold digit_of in Hd.
      destruct ((48 <=? z) && (z <=? 57)) eqn:E1; [injection Hd; lia|]. destruct ((97 <=? _) && _) eqn:E2; [injection Hd; lia|done].
    - inversion H; subst; try done. eapply digits_cons; [done|]. by rewrite N.mul_0_l, N.add_0_l. }
  assert (Hnil : result max [48] 8 [] = Some m <-> int_lit [48] m /\ m <= max).
  { unfold result. cbn. split.
    - intros [= <-]. split; [constructor|lia].
    - intros [H Hm]. inversion H as [|c d s' m' Hd Hd0 Hds| | | |]; subst; try done.
      exfalso. apply digit_spec in Hd as [Hd _]; [|lia]. by injection Hd as <-. }
  assert (Hdec : forall m, int_lit (48 :: s) m -> s <> [] -> digits 8 0 s m \/
    (exists x s', s = x :: s' /\ s' <> [] /\ (lower x = 98 /\ digits 2 0 s' m \/ lower x = 111 /\ digits 8 0 s' m \/ lower x = 120 /\ digits 16 0 s' m))).
  { intros m' H Hne. inversion H as [|c d s' m0 Hd Hd0 Hds|x s' m0 Hx Hs Hds|s' m0 Hs Hds|x s' m0 Hx Hs Hds|x s' m0 Hx Hs Hds]; subst.
    - done.
    - exfalso. apply digit_spec in Hd as [Hd _]; [|lia]. by injection Hd as <-.
    - right. exists x, s'. repeat split; try done. left. split; [by destruct Hx as [-> | ->]|done].
    - by left.
    - right. exists x, s'. repeat split; try done. right; left. split; [by destruct Hx as [-> | ->]|done].
    - right. exists x, s'. repeat split; try done. right; right. split; [by destruct Hx as [-> | ->]|done]. }
  (* plain octal *)
  assert (Hoct : s <> [] -> (match s with c :: _ :: _ => ~ (lower c = 98 \/ lower c = 111 \/ lower c = 120) | _ => True end) ->
    result max (48 :: s) 8 s = Some m <-> int_lit (48 :: s) m /\ m <= max).
  { intros Hne Hc. rewrite result_spec; [|right; by left|].
    - split; intros [H Hm]; (split; [|done]); [by apply lit_oct|].
      destruct (Hdec m H Hne) as [Hd|(x & s' & -> & Hs' & Hx)]; [done|]. exfalso. destruct s' as [|y s']; [done|]. apply Hc.
      destruct Hx as [[? _]|[[? _]|[? _]]]; tauto.
    - intros k Hk _. unfold under_ok. change ((48 =? 45) || (48 =? 43)) with false. cbn iota.
      destruct s as [|c s]; [done|]. change (48 =? 48) with true. cbn [andb].
      destruct ((lower c =? 98) || (lower c =? 111) || (lower c =? 120)) eqn:El; [|done].
      exfalso. cbn [digits_loop] in Hk. assert (c =? 95 = false) as E95.
      { apply N.eqb_neq. intros ->. vm_compute in El. done. }
      rewrite E95 in Hk. cbn [andb] in Hk. destruct (digit_of c) as [d|] eqn:Ed; [|done].
      destruct (N.leb_spec 8 d); [done|].
      assert (Hdig : digit 8 c d) by (apply digit_spec; [lia|done]).
      assert (Hl : lower c = 98 \/ lower c = 111 \/ lower c = 120) by lia.
      destruct Hl as [El'|[El'|El']]; (eapply (digit_letter 8 c d); [| |exact El'| |exact Hdig]; lia). }
  destruct s as [|c [|x s]].
  - cbn in Eb. injection Eb as <- <-. exact Hnil.
  - cbn in Eb. injection Eb as <- <-. by apply Hoct.
  - unfold base_of in Eb. cbn [N.eqb] in Eb. change (48 =? 48) with true in Eb. cbn iota in Eb.
    assert (Hpre : forall l B, (B = 2 /\ l = 98 \/ B = 8 /\ l = 111 \/ B = 16 /\ l = 120) -> lower c = l ->
      result max (48 :: c :: x :: s) B (x :: s) = Some m <-> int_lit (48 :: c :: x :: s) m /\ m <= max).
    { intros l B HB El. assert (HbB : base_ok B) by (unfold base_ok; lia).
      rewrite result_spec; [|done|].
      - assert (Hcl : c = l \/ c = l - 32) by (apply (lower_is c l); lia).
        split; intros [H Hm]; (split; [|done]).
        + destruct HB as [[-> ->]|[[-> ->]|[-> ->]]]; cbn in Hcl; [by apply lit_bin|by apply lit_octo|by apply lit_hex].
        + destruct (Hdec m H ltac:(done)) as [Hd|(x' & s' & [= <- <-] & Hs' & Hx)].
          * exfalso. assert (c <> 95) by (intros ->; vm_compute in El; lia).
            destruct (digits_first 8 0 c _ m ltac:(done) Hd) as (d & Hd' & _).
            eapply (digit_letter 8 c d l ltac:(lia) ltac:(lia) El); [lia|exact Hd'].
          * rewrite El in Hx. destruct HB as [[-> ->]|[[-> ->]|[-> ->]]]; destruct Hx as [[? ?]|[[? ?]|[? ?]]]; done.
      - intros k _ _. unfold under_ok. change ((48 =? 45) || (48 =? 43)) with false. cbn iota. rewrite El.
        destruct HB as [[-> ->]|[[-> ->]|[-> ->]]]; done. }
    destruct (N.eqb_spec (lower c) 98) as [E1|E1]; [injection Eb as <- <-; apply (Hpre 98 2); [by left|done]|].
    destruct (N.eqb_spec (lower c) 111) as [E2|E2]; [injection Eb as <- <-; apply (Hpre 111 8); [by right; left|done]|].
    destruct (N.eqb_spec (lower c) 120) as [E3|E3]; [injection Eb as <- <-; apply (Hpre 120 16); [by right; right|done]|].
    injection Eb as <- <-. apply Hoct; [done|tauto].
Qed.

(** ** Base 10 *)
Lemma loop_app b max s : forall n t,
  digits_loop false b max n (s ++ t) = match digits_loop false b max n s with Some k => digits_loop false b max k t | None => None end.
Proof.
  induction s as [|c s IH]; intros n t; [done|]. cbn [app digits_loop]. cbn [andb].
  destruct (digit_of c) as [d|]; [|done]. destruct (b <=? d); [done|]. destruct (max <? n * b + d); [done|]. apply IH.
Qed.
Lemma loop_one max k c m : digits_loop false 10 max k [c] = Some m <-> exists d, d < 10 /\ c = 48 + d /\ m = k * 10 + d /\ m <= max.
Proof.
  cbn [digits_loop andb]. split.
  - destruct (digit_of c) as [d|] eqn:E; [|done]. destruct (N.leb_spec 10 d); [done|].
    destruct (N.ltb_spec max (k * 10 + d)); [done|]. intros [= <-]. exists d. split; [done|]. split; [|done].
    unfold digit_of in E. destruct ((48 <=? c) && (c <=? 57)) eqn:E1; [injection E; lia|].
    destruct ((97 <=? _) && _) eqn:E2; [injection E; lia|done].
  - intros (d & Hd & -> & -> & Hm). unfold digit_of.
    destruct ((48 <=? 48 + d) && (48 + d <=? 57)) eqn:E1; [|lia]. replace (48 + d - 48) with d by lia.
    destruct (N.leb_spec 10 d); [lia|]. destruct (N.ltb_spec max (k * 10 + d)); [lia|]. done.
Qed.
Lemma decimal_nil n : ~ decimal [] n.
Proof. intros H. inversion H as [|s ? ? ? ? E]. by destruct s. Qed.
Lemma parse_uint10_spec max s m : parse_uint10 max s = Some m <-> decimal s m /\ m <= max.
Proof.
  assert (Hnil : forall c, digits_loop false 10 max 0 [c] = Some m <-> decimal [c] m /\ m <= max).
  { intros c. rewrite loop_one. split.
    - intros (d & Hd & -> & -> & Hm). split; [|lia]. rewrite N.mul_0_l, N.add_0_l. by constructor.
    - intros [H Hm]. inversion H as [d Hd|s0 n d Hs Hd E]; subst; [exists m; lia|].
      destruct s0 as [|? [|? ?]]; [by apply decimal_nil in Hs|done|done]. }
  revert m Hnil. induction s as [|c s IH] using rev_ind; intros m Hnil.
  { split; [done|]. intros [H _]. by apply decimal_nil in H. }
  destruct (decide (s = [])) as [->|Hne]; [apply Hnil|].
  assert (E : parse_uint10 max (s ++ [c]) = match parse_uint10 max s with Some k => digits_loop false 10 max k [c] | None => None end).
  { unfold parse_uint10. destruct s as [|x s]; [done|]. cbn [app]. exact (loop_app 10 max (x :: s) 0 [c]). }
  assert (IH' : forall k, parse_uint10 max s = Some k <-> decimal s k /\ k <= max).
  { intros k. apply IH. intros c'. rewrite loop_one. split.
    - intros (d & Hd & -> & -> & Hm). split; [|lia]. rewrite N.mul_0_l, N.add_0_l. by constructor.
    - intros [H Hm]. inversion H as [d Hd|s0 n d Hs Hd E']; subst; [exists k; lia|].
      destruct s0 as [|? [|? ?]]; [by apply decimal_nil in Hs|done|done]. }
  rewrite E. split.
  - destruct (parse_uint10 max s) as [k|] eqn:Ek; [|done]. rewrite loop_one. intros (d & Hd & -> & -> & Hm).
    split; [|done]. constructor; [|done]. by apply (IH' k).
  - intros [H Hm]. inversion H as [d Hd Es|s0 n d Hs Hd Es]; subst.
    + destruct s as [|? [|? ?]]; done.
    + apply app_inj_tail in Es as [-> <-]. rewrite (proj2 (IH' n)) by (split; [done|lia]). apply loop_one. exists d. lia.
Qed.

(** ** Signs *)
Lemma signed_spec (parse : list N -> option N) (U : list N -> N -> Prop) :
  (forall s n, parse s = Some n <-> U s n /\ n <= max_u64) ->
  (forall s n, U s n -> exists c s', s = c :: s' /\ 48 <= c) ->
  forall s z, signed parse s = Some z <-> with_sign U s z.
Proof.
  intros Hp Hu s z. unfold max_u64 in Hp. assert (E63 : 2 ^ 63 = 9223372036854775808) by reflexivity. split.
  - intros H. unfold signed in H. destruct s as [|c s].
    { destruct (parse []) as [n|] eqn:E; [|done]. destruct (Hu [] n) as (? & ? & ? & _); [by apply Hp|done]. }
    destruct (N.eqb_spec c 45) as [->|H45].
    { destruct (parse s) as [n|] eqn:E; [|done]. destruct (N.leb_spec n 9223372036854775808); [|done]. injection H as <-.
      apply sign_minus; [by apply Hp|lia]. }
    destruct (N.eqb_spec c 43) as [->|H43].
    { destruct (parse s) as [n|] eqn:E; [|done]. destruct (N.ltb_spec n 9223372036854775808); [|done]. injection H as <-.
      apply sign_plus; [by apply Hp|lia]. }
    destruct (parse (c :: s)) as [n|] eqn:E; [|done]. destruct (N.ltb_spec n 9223372036854775808); [|done]. injection H as <-.
    apply sign_none; [by apply Hp|lia].
  - intros [s' n H Hn|s' n H Hn|s' n H Hn]; rewrite E63 in Hn; unfold signed; pose proof (proj2 (Hp s' n) ltac:(split; [done|lia])) as Ep.
    + destruct (Hu s' n H) as (c & s0 & -> & Hc). destruct (N.eqb_spec c 45); [lia|]. destruct (N.eqb_spec c 43); [lia|]. rewrite Ep.
      by destruct (N.ltb_spec n 9223372036854775808); [|lia].
    + change (43 =? 45) with false. change (43 =? 43) with true. cbn iota. rewrite Ep.
      by destruct (N.ltb_spec n 9223372036854775808); [|lia].
    + change (45 =? 45) with true. cbn iota. rewrite Ep.
      by destruct (N.leb_spec n 9223372036854775808); [|lia].
Qed.
Lemma decimal_head s n : decimal s n -> exists c s', s = c :: s' /\ 48 <= c.
Proof.
  induction 1 as [d Hd|s n d Hs (c & s' & -> & Hc) Hd]; [eexists _, _; split; [done|lia]|].
  eexists _, _. split; [done|done].
Qed.
Lemma int_lit_head s n : int_lit s n -> exists c s', s = c :: s' /\ 48 <= c.
Proof.
  intros []; eexists _, _; (split; [done|]); try lia. match goal with H : digit _ _ _ |- _ => inversion H; lia end.
Qed.
Lemma atoi_spec s z : atoi s = Some z <-> with_sign decimal s z.
Proof. apply signed_spec; [intros; apply parse_uint10_spec|apply decimal_head]. Qed.
Lemma parse_int0_spec s z : parse_int0 s = Some z <-> with_sign int_lit s z.
Proof. apply signed_spec; [intros; apply parse_uint0_spec|apply int_lit_head]. Qed.
Lemma parse_u32_spec s n : parse_u32 s = Some n <-> int_lit s n /\ n < 2 ^ 32.
Proof. unfold parse_u32. rewrite parse_uint0_spec. assert (2 ^ 32 = 4294967296) as -> by reflexivity. split; intros [? ?]; (split; [done|lia]). Qed.

(** ** Printing *)
Lemma itoa_fuel_spec fuel : forall n, n < 2 ^ N.of_nat fuel -> decimal (itoa_fuel (S fuel) n) n.
Proof.
  induction fuel as [|fuel IH]; intros n Hf.
  { cbn in Hf. cbn [itoa_fuel]. destruct (N.ltb_spec n 10); [by constructor|lia]. }
  change (itoa_fuel (S (S fuel)) n) with (if n <? 10 then [48 + n] else itoa_fuel (S fuel) (n / 10) ++ [48 + n mod 10]).
  destruct (N.ltb_spec n 10); [by constructor|].
  enough (decimal (itoa_fuel (S fuel) (n / 10) ++ [48 + n mod 10]) (n / 10 * 10 + n mod 10)) as Hd.
  { by rewrite (N.mul_comm (n / 10)), <- N.div_mod in Hd by lia. }
  constructor; [|by apply N.mod_lt]. apply IH. rewrite Nat2N.inj_succ, N.pow_succ_r' in Hf. apply N.div_lt_upper_bound; lia.
Qed.
Lemma size_nat_N n : N.of_nat (N.size_nat n) = N.size n.
Proof. destruct n as [|p]; [done|]. cbn. induction p; cbn; lia. Qed.
Lemma itoa_decimal n : decimal (itoa n) n.
Proof. apply itoa_fuel_spec. rewrite size_nat_N. apply N.size_gt. Qed.
Lemma atoi_itoa n : n < 2 ^ 63 -> atoi (itoa n) = Some (Z.of_N n).
Proof. intros H. apply atoi_spec. constructor; [apply itoa_decimal|done]. Qed.
