(** Proofs about dates (C73). *)
From Coq Require Import ZifyBool ZifyNat ZifyN.
From Verif Require Import Base Storage Loader DateSpec Dates.
From stdpp Require Import list.
Open Scope N_scope.

(** ** The calendar *)
Lemma leap_Z y : leap y = is_leap (Z.of_N y).
Proof.
  unfold leap, is_leap.
  assert (E : forall k, (Z.of_N (y mod k) = Z.of_N y mod Z.of_N k)%Z) by (intros k; apply N2Z.inj_mod).
  pose proof (E 4) as E4. pose proof (E 100) as E1. pose proof (E 400) as E2. cbn [Z.of_N] in E4, E1, E2.
  rewrite <- E4, <- E1, <- E2. lia.
Qed.
Lemma years_closed n : Z.of_N (years n) =
  (365 * Z.of_nat n + (Z.of_nat n + 3) / 4 - (Z.of_nat n + 99) / 100 + (Z.of_nat n + 399) / 400)%Z.
Proof.
  induction n as [|n IH]; [done|]. cbn [years]. rewrite N2Z.inj_add, IH. unfold year_length. rewrite leap_Z. unfold is_leap.
  rewrite nat_N_Z, Nat2Z.inj_succ. clear IH. set (z := Z.of_nat n). assert (0 <= z)%Z by lia. clearbody z.
  destruct ((z mod 4 =? 0) && (negb (z mod 100 =? 0) || (z mod 400 =? 0)))%Z eqn:E; Z.div_mod_to_equations; lia.
Qed.
Lemma go_days y : (days_since_epoch (Z.of_N y) = Z.of_N (years (N.to_nat y)) - 366 + 730692556 * 146097)%Z.
Proof.
  rewrite years_closed. rewrite N_nat_Z. unfold days_since_epoch. cbv zeta. set (z := Z.of_N y). assert (0 <= z)%Z by lia. clearbody z. Z.div_mod_to_equations; lia.
Qed.
Lemma month_cases m : 1 <= m <= 12 -> m = 1 \/ m = 2 \/ m = 3 \/ m = 4 \/ m = 5 \/ m = 6 \/ m = 7 \/ m = 8 \/ m = 9 \/ m = 10 \/ m = 11 \/ m = 12.
Proof. lia. Qed.
Ltac months H := destruct (month_cases _ H) as [-> | [-> | [-> | [-> | [-> | [-> | [-> | [-> | [-> | [-> | [-> | ->]]]]]]]]]]].
Lemma go_days_in m y : 1 <= m <= 12 -> days_in m (Z.of_N y) = Z.of_N (month_length y m).
Proof.
  intros H. unfold days_in, month_length, month_lengths. rewrite <- leap_Z. months H; try done. by destruct (leap y).
Qed.
(** Days of the year before the month. *)
Definition before_month (y m : N) : N := sum_days (take (N.to_nat (m - 1)) (month_lengths y)).
Lemma go_before_month m y : 1 <= m <= 12 ->
  (nth (N.to_nat (m - 1)) days_before 0 + (if is_leap (Z.of_N y) && (3 <=? m)%N then 1 else 0) = Z.of_N (before_month y m))%Z.
Proof.
  intros H. unfold before_month, month_lengths. rewrite <- leap_Z. by months H; destruct (leap y).
Qed.
Lemma unix_seconds c : valid c ->
  unix_date (Z.of_N (cv_year c)) (cv_month c) (cv_day c) (cv_hour c) (cv_min c) (cv_sec c) = seconds c.
Proof.
  intros (Hy & Hm & Hd & Hh & Hn & Hs). unfold unix_date. cbv zeta. pose proof (go_before_month (cv_month c) (cv_year c) Hm) as E.
  assert (K : day_number epoch = 719528) by by vm_compute. unfold seconds. rewrite K. unfold day_number. fold (before_month (cv_year c) (cv_month c)).
  rewrite go_days. change (292277022400 * 146097 / 400)%Z with (730692556 * 146097)%Z. change (1969 * 365 + 1969 / 4 - 1969 / 100 + 1969 / 400)%Z with 719162%Z.
  destruct (is_leap (Z.of_N (cv_year c)) && (3 <=? cv_month c)); lia.
Qed.

(** ** Seconds follow one another *)
Lemma month_step y m : 1 <= m < 12 -> before_month y (m + 1) = before_month y m + month_length y m.
Proof.
  intros H. assert (H' : 1 <= m <= 12) by lia. unfold before_month, month_length, month_lengths. months H'; try lia; by destruct (leap y).
Qed.
Lemma year_end y : before_month y 12 + month_length y 12 = year_length y.
Proof. unfold before_month, month_length, month_lengths, year_length. by destruct (leap y). Qed.
Lemma day_number_eq c : day_number c = years (N.to_nat (cv_year c)) + before_month (cv_year c) (cv_month c) + (cv_day c - 1).
Proof. done. Qed.
Lemma years_S y : years (N.to_nat (y + 1)) = years (N.to_nat y) + year_length y.
Proof. replace (N.to_nat (y + 1)) with (S (N.to_nat y)) by lia. cbn [years]. by rewrite N2Nat.id. Qed.
Lemma tomorrow_number c : valid c -> day_number (tomorrow c) = day_number c + 1.
Proof.
  destruct c as [y m d h n s]. intros (Hy & Hm & Hd & Hh & Hn & Hs). cbn [cv_year cv_month cv_day cv_hour cv_min cv_sec] in *. unfold tomorrow. rewrite !day_number_eq.
  destruct (N.ltb_spec d (month_length y m)) as [E|E]; cbn [cv_year cv_month cv_day]; [lia|].
  destruct (N.ltb_spec m 12) as [E'|E']; cbn [cv_year cv_month cv_day].
  - rewrite month_step by lia. lia.
  - assert (m = 12) by lia. subst m. rewrite years_S. pose proof (year_end y). change (before_month (y + 1) 1) with 0. lia.
Qed.
Lemma month_length_pos y m : 1 <= m <= 12 -> 1 <= month_length y m.
Proof. intros H. unfold month_length, month_lengths. months H; destruct (leap y); done. Qed.
Lemma l_C73_next_second : forall c, valid c -> c <> mkCivil 9999 12 31 23 59 59 ->
  valid (next_second c) /\ seconds (next_second c) = (seconds c + 1)%Z.
Proof.
  intros c Hv Hne. pose proof (tomorrow_number c Hv) as Ht. destruct c as [y m d h n s]. pose proof Hv as (Hy & Hm & Hd & Hh & Hn & Hs). cbn [cv_year cv_month cv_day cv_hour cv_min cv_sec] in *.
  unfold next_second.
  destruct (N.ltb_spec s 59) as [E1|E1]; [split; [unfold valid; cbn [cv_year cv_month cv_day cv_hour cv_min cv_sec]; lia|unfold seconds; rewrite !day_number_eq; cbn [cv_year cv_month cv_day cv_hour cv_min cv_sec]; lia]|].
  destruct (N.ltb_spec n 59) as [E2|E2]; [split; [unfold valid; cbn [cv_year cv_month cv_day cv_hour cv_min cv_sec]; lia|unfold seconds; rewrite !day_number_eq; cbn [cv_year cv_month cv_day cv_hour cv_min cv_sec]; lia]|].
  destruct (N.ltb_spec h 23) as [E3|E3]; [split; [unfold valid; cbn [cv_year cv_month cv_day cv_hour cv_min cv_sec]; lia|unfold seconds; rewrite !day_number_eq; cbn [cv_year cv_month cv_day cv_hour cv_min cv_sec]; lia]|].
  split.
  - unfold tomorrow. destruct (N.ltb_spec d (month_length y m)) as [E|E]; [unfold valid; cbn [cv_year cv_month cv_day cv_hour cv_min cv_sec]; lia|].
    destruct (N.ltb_spec m 12) as [E'|E']; unfold valid; cbn [cv_year cv_month cv_day cv_hour cv_min cv_sec].
    + pose proof (month_length_pos y (m + 1)). lia.
    + assert (m = 12) by lia. subst m. assert (D : d = 31) by (change (month_length y 12) with 31 in *; lia). subst d.
      assert (y <> 9999) by (intros ->; apply Hne; f_equal; lia). change (month_length (y + 1) 1) with 31. lia.
  - assert (HS : forall c', cv_hour (tomorrow c') = 0 /\ cv_min (tomorrow c') = 0 /\ cv_sec (tomorrow c') = 0).
    { intros [y' m' d' h' n' s']. unfold tomorrow. destruct (_ <? _); [done|]. by destruct (_ <? _). }
    destruct (HS (mkCivil y m d h n s)) as (Z1 & Z2 & Z3). unfold seconds. rewrite Ht, Z1, Z2, Z3. cbn [cv_year cv_month cv_day cv_hour cv_min cv_sec]. lia.
Qed.
Lemma l_C73_epoch : seconds epoch = 0%Z.
Proof. by vm_compute. Qed.

(** ** Order *)
Lemma years_mono a b : a <= b -> years (N.to_nat a) <= years (N.to_nat b).
Proof.
  intros H. pose proof (years_closed (N.to_nat a)) as Ha. pose proof (years_closed (N.to_nat b)) as Hb.
  rewrite !N_nat_Z in *. Z.div_mod_to_equations; lia.
Qed.
Lemma before_month_mono y a b : 1 <= a -> a < b -> b <= 12 -> before_month y a + month_length y a <= before_month y b.
Proof.
  intros Ha Hab Hb. assert (Ha' : 1 <= a <= 12) by lia. assert (Hb' : 1 <= b <= 12) by lia.
  unfold before_month, month_length, month_lengths.
  months Ha'; months Hb'; try lia; destruct (leap y); vm_compute; discriminate.
Qed.
Lemma day_in_year c : valid c -> before_month (cv_year c) (cv_month c) + (cv_day c - 1) < year_length (cv_year c).
Proof.
  intros (Hy & Hm & Hd & _). rewrite <- year_end. destruct (N.eq_dec (cv_month c) 12) as [E|E]; [rewrite E in *; lia|].
  pose proof (before_month_mono (cv_year c) (cv_month c) 12). pose proof (month_length_pos (cv_year c) 12). lia.
Qed.
Lemma clock_lt c : valid c -> (3600 * Z.of_N (cv_hour c) + 60 * Z.of_N (cv_min c) + Z.of_N (cv_sec c) < 86400)%Z.
Proof. intros (_ & _ & _ & Hh & Hn & Hs). lia. Qed.
Lemma before_seconds a b : valid a -> valid b -> before a b -> (seconds a < seconds b)%Z.
Proof.
  intros Ha Hb (i & Hi & H). pose proof (clock_lt a Ha) as Ca. unfold seconds. rewrite !day_number_eq.
  pose proof (day_in_year a Ha) as Da. pose proof Ha as (Hy & Hm & Hd & Hh & Hn & Hs). pose proof Hb as (Hy' & Hm' & Hd' & Hh' & Hn' & Hs').
  destruct a as [ya ma da ha na sa], b as [yb mb db hb nb sb]. cbn [cv_year cv_month cv_day cv_hour cv_min cv_sec] in *.
  destruct i as [|[|[|[|[|[|i]]]]]]; cbn in Hi, H.
  - pose proof (years_mono (ya + 1) yb). rewrite years_S in *. lia.
  - injection Hi as ->. pose proof (before_month_mono yb ma mb). lia.
  - injection Hi as -> ->. lia.
  - injection Hi as -> -> ->. lia.
  - injection Hi as -> -> -> ->. lia.
  - injection Hi as -> -> -> -> ->. lia.
  - done.
Qed.
Lemma before_total a b : a = b \/ before a b \/ before b a.
Proof.
  destruct a as [ya ma da ha na sa], b as [yb mb db hb nb sb]. unfold before. cbn.
  destruct (N.lt_trichotomy ya yb) as [H | [<- | H]]; [right; left; by exists 0%nat | | right; right; by exists 0%nat].
  destruct (N.lt_trichotomy ma mb) as [H | [<- | H]]; [right; left; by exists 1%nat | | right; right; by exists 1%nat].
  destruct (N.lt_trichotomy da db) as [H | [<- | H]]; [right; left; by exists 2%nat | | right; right; by exists 2%nat].
  destruct (N.lt_trichotomy ha hb) as [H | [<- | H]]; [right; left; by exists 3%nat | | right; right; by exists 3%nat].
  destruct (N.lt_trichotomy na nb) as [H | [<- | H]]; [right; left; by exists 4%nat | | right; right; by exists 4%nat].
  destruct (N.lt_trichotomy sa sb) as [H | [<- | H]]; [right; left; by exists 5%nat | by left | right; right; by exists 5%nat].
Qed.
Lemma l_C73_order : forall a b, valid a -> valid b ->
  ((seconds a < seconds b)%Z <-> before a b) /\ (seconds a = seconds b -> a = b).
Proof.
  intros a b Ha Hb. destruct (before_total a b) as [-> | [H | H]].
  - split; [|done]. split; [lia|]. intros H. pose proof (before_seconds b b Ha Hb H). lia.
  - pose proof (before_seconds a b Ha Hb H). split; [done|lia].
  - pose proof (before_seconds b a Hb Ha H). split; [|lia]. split; [lia|]. intros H'. pose proof (before_seconds a b Ha Hb H'). lia.
Qed.

(** ** Fields *)
Definition starts (P : N -> Prop) (r : list N) : Prop := match r with [] => True | c :: _ => P c end.
Lemma digit_spec c : is_digit c = true <-> 48 <= c <= 57.
Proof. unfold is_digit. lia. Qed.
Lemma digit_false c : is_digit c = false <-> ~ 48 <= c <= 57.
Proof. unfold is_digit. lia. Qed.
Lemma getnum_two n r fixed : n < 100 -> getnum (two n ++ r) fixed = Some (n, r).
Proof.
  intros H. unfold two. cbn [app getnum]. assert (E : n / 10 < 10) by (apply N.div_lt_upper_bound; lia). pose proof (N.mod_lt n 10) as E'.
  rewrite (proj2 (digit_spec (48 + n / 10))) by lia. rewrite (proj2 (digit_spec (48 + n mod 10))) by lia. cbn [negb]. do 2 f_equal.
  rewrite (N.div_mod n 10) at 3 by done. lia.
Qed.
Lemma two_digits a b : is_digit a = true -> is_digit b = true -> two ((a - 48) * 10 + (b - 48)) = [a; b] /\ (a - 48) * 10 + (b - 48) < 100.
Proof.
  rewrite !digit_spec. intros Ha Hb. unfold two. rewrite N.div_add_l by done. rewrite (N.div_small (b - 48) 10) by lia.
  rewrite (N.add_comm (_ * _)), N.mod_add by done. rewrite N.mod_small by lia. split; [|lia]. f_equal; [lia|]. f_equal. lia.
Qed.
Lemma getnum_inv s n r : getnum s true = Some (n, r) -> n < 100 /\ s = two n ++ r.
Proof.
  destruct s as [|a [|b s]]; cbn [getnum]; [done|by destruct (is_digit a)|].
  destruct (is_digit a) eqn:Ea; [|done]. destruct (is_digit b) eqn:Eb; [|done]. cbn [negb]. intros [= <- <-].
  destruct (two_digits a b Ea Eb) as [-> H]. done.
Qed.
Lemma getnum_inv1 s n r : getnum s false = Some (n, r) -> (n < 100 /\ s = two n ++ r) \/ (n < 10 /\ s = [48 + n] ++ r).
Proof.
  destruct s as [|a s]; cbn [getnum]; [done|]. destruct (is_digit a) eqn:Ea; [|done]. cbn [negb]. pose proof (proj1 (digit_spec a) Ea) as Ha.
  destruct s as [|b s].
  - intros [= <- <-]. right. split; [lia|]. cbn. f_equal. lia.
  - destruct (is_digit b) eqn:Eb; intros [= <- <-].
    + left. destruct (two_digits a b Ea Eb) as [-> H]. done.
    + right. split; [lia|]. cbn. f_equal. lia.
Qed.
Lemma getnum_one n r : n < 10 -> starts (fun c => ~ 48 <= c <= 57) r -> getnum ([48 + n] ++ r) false = Some (n, r).
Proof.
  intros H Hr. cbn [app getnum]. rewrite (proj2 (digit_spec (48 + n))) by lia. cbn [negb]. replace (48 + n - 48) with n by lia.
  destruct r as [|b r]; [done|]. cbn in Hr. by rewrite (proj2 (digit_false b)).
Qed.
Lemma getyear_four n r : n < 10000 -> getyear (four n ++ r) = Some (n, r).
Proof.
  intros H. unfold four, two. cbn [app getyear].
  assert (E1 : n / 100 < 100) by (apply N.div_lt_upper_bound; lia). pose proof (N.mod_lt n 100 ltac:(done)) as E2.
  assert (E3 : n / 100 / 10 < 10) by (apply N.div_lt_upper_bound; lia). assert (E4 : n mod 100 / 10 < 10) by (apply N.div_lt_upper_bound; lia).
  pose proof (N.mod_lt (n / 100) 10 ltac:(done)) as E5. pose proof (N.mod_lt (n mod 100) 10 ltac:(done)) as E6.
  pose proof (N.div_mod n 100 ltac:(done)) as D1. pose proof (N.div_mod (n / 100) 10 ltac:(done)) as D2. pose proof (N.div_mod (n mod 100) 10 ltac:(done)) as D3.
  rewrite !(proj2 (digit_spec _)) by lia. cbn [andb]. do 2 f_equal. lia.
Qed.
Lemma getyear_inv s n r : getyear s = Some (n, r) -> n < 10000 /\ s = four n ++ r.
Proof.
  destruct s as [|a [|b [|c [|d s]]]]; try done. cbn [getyear].
  destruct (is_digit a) eqn:Ea; [|done]. destruct (is_digit b) eqn:Eb; [|done]. destruct (is_digit c) eqn:Ec; [|done]. destruct (is_digit d) eqn:Ed; [|done].
  cbn [andb]. intros [= <- <-]. destruct (two_digits a b Ea Eb) as [H1 H2]. destruct (two_digits c d Ec Ed) as [H3 H4].
  set (x := (a - 48) * 10 + (b - 48)) in *. set (y := (c - 48) * 10 + (d - 48)) in *.
  replace ((a - 48) * 1000 + (b - 48) * 100 + (c - 48) * 10 + (d - 48)) with (x * 100 + y) by lia. split; [lia|].
  unfold four. rewrite N.div_add_l, (N.div_small y), N.add_0_r by lia. rewrite (N.add_comm (_ * _)), N.mod_add, (N.mod_small y) by lia. by rewrite H1, H3.
Qed.
Lemma cutspace_inv s : exists g, s = g ++ cutspace s /\ Forall (fun c => c = 32) g.
Proof.
  induction s as [|c s (g & Hg & Hf)]; [by exists []|]. cbn. destruct (N.eqb_spec c 32) as [->|E]; [|by exists []].
  exists (32 :: g). cbn. rewrite <- Hg. by repeat constructor.
Qed.
Lemma cutspace_app g r : Forall (fun c => c = 32) g -> starts (fun c => c <> 32) r -> cutspace (g ++ r) = r.
Proof.
  intros Hg Hr. induction Hg as [|c g -> _ IH]; cbn; [|done]. destruct r as [|c r]; [done|]. cbn in *. by destruct (N.eqb_spec c 32).
Qed.
Lemma skip_inv s r : skip_space s = Some r -> r <> [] -> exists g, gap g /\ s = g ++ r.
Proof.
  destruct s as [|c s]; cbn; [by intros [= <-]|]. destruct (N.eqb_spec c 32) as [->|E]; [|done]. intros [= <-] _.
  destruct (cutspace_inv s) as (g & Hg & Hf). exists (32 :: g). split; [split; [done|by constructor]|]. cbn. by rewrite <- Hg.
Qed.
Lemma skip_app g r : gap g -> starts (fun c => c <> 32) r -> skip_space (g ++ r) = Some r.
Proof.
  intros [Hne Hg] Hr. destruct g as [|c g]; [done|]. apply Forall_cons in Hg as [-> Hg]. cbn [app skip_space N.eqb].
  change (32 :: g ++ r) with ((32 :: g) ++ r). rewrite cutspace_app; [done|by constructor|done].
Qed.
Lemma byte_inv b s r : skip_byte b s = Some r -> s = b :: r.
Proof. destruct s as [|c s]; [done|]. cbn. destruct (N.eqb_spec c b) as [->|E]; [|done]. by intros [= <-]. Qed.
Lemma byte_cons b r : skip_byte b (b :: r) = Some r.
Proof. cbn. by rewrite N.eqb_refl. Qed.

(** Names without regard to case: all pairs of bytes are tried. *)
Definition fold_eq (x y : N) : bool := (x =? y) || ((N.lor x 32 =? N.lor y 32) && (97 <=? N.lor x 32) && (N.lor x 32 <=? 122)).
Definition all_bytes : list N := map N.of_nat (seq 0 256).
Lemma fold_table : forallb (fun x => forallb (fun y => Bool.eqb (fold_eq x y) (lower x =? lower y)) all_bytes) all_bytes = true.
Proof. by vm_compute. Qed.
Lemma in_all x : x < 256 -> In x all_bytes.
Proof. intros H. apply in_map_iff. exists (N.to_nat x). split; [lia|]. apply in_seq. lia. Qed.
Lemma fold_spec x y : x < 256 -> y < 256 -> fold_eq x y = (lower x =? lower y).
Proof.
  intros Hx Hy. pose proof fold_table as H. rewrite forallb_forall in H. specialize (H x (in_all x Hx)). rewrite forallb_forall in H.
  specialize (H y (in_all y Hy)). by apply Bool.eqb_prop.
Qed.
Notation bytes l := (Forall (fun b : N => b < 256) l).
Lemma match_spec a : forall b, length a = length b -> bytes a -> bytes b -> match_fold a b = true <-> map lower a = map lower b.
Proof.
  induction a as [|x a IH]; intros [|y b] Hl Ha Hb; try done. apply Forall_cons in Ha as [Hx Ha]. apply Forall_cons in Hb as [Hy Hb].
  cbn [match_fold map]. fold (fold_eq x y). rewrite fold_spec by done. injection Hl as Hl. rewrite andb_true_iff, IH by done.
  rewrite N.eqb_eq. split; [intros [-> ->]; done|]. intros H. injection H as H1 H2. done.
Qed.
Lemma tab_inv tab : Forall (fun v => bytes v) tab -> forall val i0 i r, bytes val -> tab_lookup tab val i0 = Some (i, r) ->
  exists w n, val = w ++ r /\ i0 <= i /\ tab !! N.to_nat (i - i0) = Some n /\ map lower w = map lower n /\ length w = length n.
Proof.
  induction 1 as [|v tab Hv _ IH]; intros val i0 i r Hb H; [done|]. cbn [tab_lookup] in H.
  destruct ((length v <=? length val)%nat && match_fold (take (length v) val) v) eqn:E.
  - injection H as <- <-. apply andb_true_iff in E as [E1 E2]. exists (take (length v) val), v.
    assert (L : length (take (length v) val) = length v) by (rewrite take_length; lia).
    rewrite match_spec in E2; [|done|by apply Forall_take|done]. rewrite take_drop, N.sub_diag. split_and!; [done|lia|done|done|done].
  - destruct (IH val (i0 + 1) i r Hb H) as (w & n & -> & Hi & Hn & Hw & Hl). exists w, n. split_and!; [done|lia| |done|done].
    replace (N.to_nat (i - i0)) with (S (N.to_nat (i - (i0 + 1)))) by lia. done.
Qed.
Lemma tab_app tab : Forall (fun v => bytes v /\ length v = 3%nat) tab -> NoDup (map (map lower) tab) -> forall w r i0 k n, bytes (w ++ r) ->
  tab !! k = Some n -> map lower w = map lower n -> tab_lookup tab (w ++ r) i0 = Some (i0 + N.of_nat k, r).
Proof.
  induction 1 as [|v tab [Hv Hv3] Ht IH]; intros Hnd w r i0 k n Hb Hk Hw; [done|]. apply NoDup_cons in Hnd as [Hni Hnd].
  assert (Hl : length w = length n) by (rewrite <- (map_length lower w), Hw; apply map_length).
  assert (Hn3 : length n = 3%nat).
  { destruct k as [|k]; cbn in Hk; [by injection Hk as <-|]. rewrite Forall_lookup in Ht. by apply (Ht k). }
  cbn [tab_lookup]. rewrite Hv3. rewrite (proj2 (Nat.leb_le _ _)) by (rewrite app_length; lia). cbn [andb].
  replace (take 3 (w ++ r)) with w by (rewrite take_app_alt; [done|lia]). apply Forall_app in Hb as [Hbw Hbr].
  destruct k as [|k]; cbn in Hk.
  - injection Hk as ->. rewrite (proj2 (match_spec w n Hl Hbw Hv) Hw). rewrite drop_app_alt by lia. do 2 f_equal. lia.
  - destruct (match_fold w v) eqn:E.
    + rewrite match_spec in E; [|lia|done|done]. destruct Hni. rewrite <- E, Hw. apply elem_of_list_In, in_map, elem_of_list_In.
      by apply elem_of_list_lookup_2 in Hk.
    + rewrite (IH Hnd w r (i0 + 1) k n); [do 2 f_equal; lia|by apply Forall_app|done|done].
Qed.
Lemma tab_days : Forall (fun v => bytes v /\ length v = 3%nat) short_days.
Proof. repeat constructor. Qed.
Lemma tab_months : Forall (fun v => bytes v /\ length v = 3%nat) short_months.
Proof. repeat constructor. Qed.
Lemma nodup_days : NoDup (map (map lower) short_days).
Proof. by apply (bool_decide_unpack (NoDup _)); vm_compute. Qed.
Lemma nodup_months : NoDup (map (map lower) short_months).
Proof. by apply (bool_decide_unpack (NoDup _)); vm_compute. Qed.

(** ** Fractions *)
Lemma num_digits s : forall acc, digits_num acc s = fold_left (fun a d => a * 10 + (d - 48)) s acc.
Proof. induction s as [|c s IH]; intros acc; [done|apply IH]. Qed.
Lemma num_zeros k : forall acc, fold_left (fun a d => a * 10 + (d - 48)) (replicate k 48) acc = acc * 10 ^ N.of_nat k.
Proof.
  induction k as [|k IH]; intros acc; [cbn; lia|]. cbn [replicate fold_left]. rewrite IH. rewrite Nat2N.inj_succ, N.pow_succ_r'. lia.
Qed.
Lemma nanos_eq ds : digits_num 0 (take 9 ds) * 10 ^ (9 - lenN (take 9 ds)) = nanos ds.
Proof.
  unfold nanos. rewrite num_digits. rewrite firstn_app. rewrite take_replicate. unfold num. rewrite fold_left_app, num_zeros. do 2 f_equal. unfold lenN. rewrite take_length. lia.
Qed.
Lemma span_inv s : forall ds r, span_digits s = (ds, r) -> s = ds ++ r /\ digits ds /\ starts (fun c => ~ 48 <= c <= 57) r.
Proof.
  induction s as [|c s IH]; intros ds r H; cbn in H; [injection H as <- <-; by repeat constructor|].
  destruct (is_digit c) eqn:E.
  - destruct (span_digits s) as [d r'] eqn:Es. injection H as <- <-. destruct (IH d r' eq_refl) as (-> & Hd & Hr). split; [done|]. split; [|done].
    constructor; [by apply digit_spec|done].
  - injection H as <- <-. split; [done|]. split; [constructor|]. by apply digit_false.
Qed.
Lemma span_app ds r : digits ds -> starts (fun c => ~ 48 <= c <= 57) r -> span_digits (ds ++ r) = (ds, r).
Proof.
  intros Hd Hr. induction Hd as [|c ds Hc _ IH]; cbn.
  - destruct r as [|c r]; [done|]. cbn in *. by rewrite (proj2 (digit_false c)).
  - rewrite (proj2 (digit_spec c)) by done. by rewrite IH.
Qed.
Definition fraction_of (f fr : list N) : Prop :=
  f = [] /\ fr = [] \/ exists p, (p = 44 \/ p = 46) /\ f = p :: fr /\ fr <> [] /\ digits fr.
Lemma frac_inv s n r : getfrac s = (n, r) -> exists f fr, s = f ++ r /\ fraction_of f fr /\ n = nanos fr.
Proof.
  assert (Z : nanos [] = 0) by by vm_compute.
  destruct s as [|p [|d s]]; cbn [getfrac]; [intros [= <- <-]; exists [], []; by repeat constructor..|].
  destruct (((p =? 46) || (p =? 44)) && is_digit d) eqn:E; [|intros [= <- <-]; exists [], []; by repeat constructor].
  apply andb_true_iff in E as [E1 E2]. change (tail (p :: d :: s)) with (d :: s). destruct (span_digits (d :: s)) as [ds r'] eqn:Es. intros [= <- <-].
  destruct (span_inv _ _ _ Es) as (Hs & Hd & Hr). exists (p :: ds), ds. split; [cbn; by rewrite <- Hs|]. split; [|by rewrite nanos_eq].
  right. exists p. split; [lia|]. split; [done|]. split; [|done]. intros ->. cbn in Hs. subst r'. cbn in Hr. apply digit_spec in E2. done.
Qed.
Lemma frac_app f fr r : fraction_of f fr -> starts (fun c => c = 32) r -> getfrac (f ++ r) = (nanos fr, r).
Proof.
  intros [[-> ->] | (p & Hp & -> & Hne & Hd)] Hr.
  - cbn [app]. destruct r as [|c r]; [done|]. cbn in Hr. subst c. cbn [getfrac]. destruct r; done.
  - destruct fr as [|d fr]; [done|]. cbn [app getfrac]. rewrite (proj2 (digit_spec d)) by by apply Forall_cons in Hd as [? _].
    rewrite andb_true_r. replace ((p =? 46) || (p =? 44)) with true by lia. change (tail (p :: d :: fr ++ r)) with ((d :: fr) ++ r).
    rewrite span_app; [by rewrite nanos_eq|done|]. destruct r as [|c r]; [done|]. cbn in *. subst c. lia.
Qed.

(** ** Zones *)
Lemma signed_inv s : signed_offset s <> 0%nat -> (length s <= signed_offset s)%nat -> signed_hours s.
Proof.
  destruct s as [|c s]; [done|]. cbn [signed_offset]. destruct ((c =? 45) || (c =? 43)) eqn:E; [|done]. cbn [negb].
  destruct (span_digits s) as [ds r] eqn:Es. destruct (span_inv _ _ _ Es) as (-> & Hd & _). destruct ds as [|d ds]; [done|].
  destruct (N.ltb_spec 23 (digits_num 0 (d :: ds))) as [H|H]; [done|]. intros _ Hl. cbn [length] in Hl. rewrite app_length in Hl.
  destruct r as [|x r]; [|cbn in Hl; lia]. rewrite app_nil_r. exists c, (d :: ds). rewrite num_digits in H. split_and!; [done|lia|done|done|exact H].
Qed.
Lemma signed_app s : signed_hours s -> signed_offset s = length s.
Proof.
  intros (c & ds & -> & Hc & Hne & Hd & Hn). cbn [signed_offset]. replace ((c =? 45) || (c =? 43)) with true by lia. cbn [negb].
  rewrite <- (app_nil_r ds). rewrite span_app by done. rewrite app_nil_r. destruct ds as [|d ds]; [done|].
  destruct (N.ltb_spec 23 (digits_num 0 (d :: ds))) as [H|H]; [|done]. rewrite num_digits in H. unfold num in Hn. lia.
Qed.
Definition zone_of (z : list N) : option (list N) := if bool_decide (z = bytes_of "UTC") then None else Some z.
Lemma upper_inv max s : exists u r, s = u ++ r /\ length u = count_upper max s /\ capitals u.
Proof.
  revert s. induction max as [|m IH]; intros s; [exists [], s; by repeat constructor|]. destruct s as [|c s]; [exists [], []; by repeat constructor|].
  cbn [count_upper]. destruct ((65 <=? c) && (c <=? 90)) eqn:E; [|exists [], (c :: s); by repeat constructor].
  destruct (IH s) as (u & r & -> & Hl & Hu). exists (c :: u), r. cbn [length app]. split; [done|]. split; [by rewrite Hl|]. constructor; [lia|done].
Qed.
Lemma upper_app u : forall max, capitals u -> (length u <= max)%nat -> count_upper max u = length u.
Proof.
  induction u as [|c u IH]; intros [|m] Hu Hl; try done; [cbn in Hl; lia|]. apply Forall_cons in Hu as [Hc Hu]. cbn in *.
  replace ((65 <=? c) && (c <=? 90)) with true by lia. rewrite IH; [done|done|lia].
Qed.
Lemma take_all (n : nat) (s : list N) : drop n s = [] -> take n s = s.
Proof. intros H. rewrite <- (take_drop n s) at 2. by rewrite H, app_nil_r. Qed.
Lemma zone_inv s z : getzone s = Some (z, []) -> zone_name s /\ z = zone_of s.
Proof.
  unfold getzone, zone_of. case_bool_decide as EU.
  - intros [= <- H]. rewrite (take_all _ _ H) in EU. rewrite EU. split; [|done]. right; right; right; right; left. split; [repeat constructor; done|done].
  - intros H. destruct (parse_zone s) as [n|] eqn:E; [|done]. cbn in H. injection H as <- H.
    pose proof (take_all _ _ H) as Ht. rewrite Ht.
    assert (Hl : (length s <= n)%nat) by (rewrite <- Ht, take_length; lia).
    rewrite bool_decide_false; [|intros ->; by apply EU]. split; [|done].
    unfold parse_zone in E. destruct (Nat.ltb_spec (length s) 3) as [L3|L3]; [done|].
    case_bool_decide as E4.
    { injection E as <-. rewrite Ht in E4. destruct E4 as [-> | ->]; [by left|by right; left]. }
    case_bool_decide as EG.
    { injection E as <-. assert (Hs : s = bytes_of "GMT" ++ drop 3 s) by (rewrite <- EG; by rewrite take_drop).
      destruct (Nat.eq_dec (signed_offset (drop 3 s)) 0%nat) as [E0|E0].
      - assert (Hd : drop 3 s = []) by (apply nil_length_inv; rewrite drop_length; lia). rewrite Hd in Hs. rewrite Hs.
        right; right; right; right; left. split; [repeat constructor; done|done].
      - right; right; left. exists (drop 3 s). split; [done|]. apply signed_inv; [done|]. rewrite drop_length. lia. }
    destruct ((nth 0 s 0 =? 43) || (nth 0 s 0 =? 45)) eqn:Es.
    { destruct (signed_offset s) as [|k] eqn:Ek; [done|]. injection E as <-. right; right; right; left. split; [|lia]. apply signed_inv; lia. }
    destruct (upper_inv 6 s) as (u & r & Hs & Hu & Hc).
    assert (Hall : count_upper 6 s = n -> capitals s).
    { intros En. rewrite En in Hu. assert (r = []) as ->; [|rewrite app_nil_r in Hs; by rewrite Hs]. apply nil_length_inv. rewrite Hs, app_length in Hl. lia. }
    destruct (count_upper 6 s) as [|[|[|[|[|[|k]]]]]] eqn:Ec; try done.
    + injection E as <-. right; right; right; right; left. split; [by apply Hall|lia].
    + destruct ((nth 3 s 0 =? 84) || bool_decide (take 4 s = bytes_of "WITA")) eqn:E5; [|done]. injection E as <-.
      assert (L4 : length s = 4%nat) by (rewrite Hs, app_length in *; lia).
      right; right; right; right; right. split; [by apply Hall|]. split; [|split].
      * intros [k ->]. by apply EG.
      * intros [k ->]. by apply EU.
      * apply orb_true_iff in E5 as [E5|E5].
        -- left. split; [done|]. destruct s as [|a [|b [|c [|d s]]]]; try done. cbn in *. f_equal. lia.
        -- right; left. apply bool_decide_eq_true in E5. by rewrite Ht in E5.
    + destruct (nth 4 s 0 =? 84) eqn:E5; [|done]. injection E as <-.
      assert (L5 : length s = 5%nat) by (rewrite Hs, app_length in *; lia).
      right; right; right; right; right. split; [by apply Hall|]. split; [|split].
      * intros [k ->]. by apply EG.
      * intros [k ->]. by apply EU.
      * right; right. split; [done|]. destruct s as [|a [|b [|c [|d [|e s]]]]]; try done. cbn in *. f_equal. lia.
Qed.
Lemma zone_ok s : zone_name s -> getzone s = Some (zone_of s, []).
Proof.
  intros H. unfold getzone, zone_of.
  assert (Hn : forall n, n = length s -> s <> bytes_of "UTC" -> parse_zone s = Some n ->
    (n0 ← parse_zone s; Some (Some (take n0 s), drop n0 s)) = Some ((if bool_decide (s = bytes_of "UTC") then None else Some s) : option (list N), [])).
  { intros n -> Hs ->. rewrite bool_decide_false by done. cbn. by rewrite firstn_all, drop_all. }
  destruct H as [-> | [-> | [(h & -> & Hh) | [[Hh Hl] | [[Hc Hl] | (Hc & HG & HU & H)]]]]].
  - by vm_compute.
  - by vm_compute.
  - rewrite bool_decide_false by done. apply (Hn (3 + length h)%nat); [done|intros [= ->]; destruct Hh as (? & ? & ? & _); done|].
    unfold parse_zone. cbn [app length]. rewrite (proj2 (Nat.ltb_ge _ _)) by (cbn; lia).
    rewrite bool_decide_false by (cbn; intros [?|?]; done). rewrite bool_decide_true by done.
    change (drop 3 (bytes_of "GMT" ++ h)) with h. by rewrite signed_app.
  - pose proof (signed_app _ Hh) as Hs. destruct Hh as (c & ds & -> & Hc & _).
    rewrite bool_decide_false by (cbn; intros [= E _]; lia). apply (Hn (length (c :: ds))); [done|intros [= E _]; lia|].
    unfold parse_zone. rewrite (proj2 (Nat.ltb_ge _ _)) by done. rewrite bool_decide_false by (cbn; intros [[= E _]|[= E _]]; lia).
    rewrite bool_decide_false by (cbn; intros [= E _]; lia). rewrite Hs. cbn [nth]. by replace ((c =? 43) || (c =? 45)) with true by lia.
  - destruct s as [|a [|b [|c [|]]]]; try done. unfold capitals in Hc. rewrite !Forall_cons in Hc. destruct Hc as (Ha & Hb & Hc & _).
    cbn [take firstn drop]. case_bool_decide as E; [done|]. cut (parse_zone [a; b; c] = Some 3%nat); [by intros ->|].
    unfold parse_zone. cbn [length Nat.ltb Nat.leb]. cbn [take firstn]. rewrite bool_decide_false by (intros [?|?]; done).
    case_bool_decide as EG; [by rewrite EG|]. cbn [nth]. replace ((a =? 43) || (a =? 45)) with false by lia.
    rewrite (upper_app [a; b; c] 6); [done| |cbn; lia]. unfold capitals. rewrite !Forall_cons. split_and!; try done; lia.
  - assert (EU : take 3 s <> bytes_of "UTC") by (intros E; apply HU; exists (drop 3 s); rewrite <- E; by rewrite take_drop).
    assert (EG : take 3 s <> bytes_of "GMT") by (intros E; apply HG; exists (drop 3 s); rewrite <- E; by rewrite take_drop).
    rewrite bool_decide_false by done.
    assert (L : length s = 4%nat \/ length s = 5%nat) by (destruct H as [[H _] | [-> | [H _]]]; [by left|by left|by right]).
    assert (Hu : count_upper 6 s = length s) by (apply upper_app; [done|lia]).
    apply (Hn (length s)); [done|intros ->; by apply EU|].
    unfold parse_zone. rewrite (proj2 (Nat.ltb_ge _ _)) by lia.
    rewrite bool_decide_false; [|intros HC; assert (Hi : 104 ∈ s \/ 101 ∈ s)].
    2: { destruct HC as [HC|HC]; rewrite <- (take_drop 4 s), HC; [left|right]; apply elem_of_app; left; by repeat constructor. }
    2: { unfold capitals in Hc. rewrite Forall_forall in Hc. destruct Hi as [Hi|Hi]; apply Hc in Hi; lia. }
    rewrite (bool_decide_false _ EG).
    assert (H0 : 65 <= nth 0 s 0 <= 90) by (destruct s as [|a s]; [cbn in L; lia|]; by apply Forall_cons in Hc as [? _]).
    replace ((nth 0 s 0 =? 43) || (nth 0 s 0 =? 45)) with false by lia. rewrite Hu.
    destruct H as [[-> H] | [-> | [-> H]]].
    + by rewrite (nth_lookup_Some _ _ _ _ H).
    + done.
    + by rewrite (nth_lookup_Some _ _ _ _ H).
Qed.

(** ** Whole dates *)
(** Seconds to take off for a zone: none for UTC. *)
Definition offset (zone : list N -> Z -> Z) (z : list N) (t : Z) : Z := if bool_decide (z = bytes_of "UTC") then 0%Z else zone z t.
Lemma zone_start z : zone_name z -> starts (fun c => c <> 32) z.
Proof.
  intros [-> | [-> | [(h & -> & _) | [[(c & ds & -> & Hc & _) _] | [[Hc _] | [Hc _]]]]]]; try done; [cbn; lia| |];
    (destruct z as [|c z]; [done|]; apply Forall_cons in Hc as [Hc _]; cbn; lia).
Qed.
Lemma named_start tab i w r : named tab i w -> Forall (fun v => exists c v', v = c :: v' /\ 65 <= c) tab -> starts (fun c => c <> 32) (w ++ r).
Proof.
  intros (n & Hn & Hw) Ht. rewrite Forall_lookup in Ht. destruct (Ht _ _ Hn) as (c & v' & -> & Hc). destruct w as [|x w]; [done|]. cbn in *.
  injection Hw as Hx _. intros ->. change (lower 32) with 32 in Hx. unfold lower in Hx. destruct ((65 <=? c) && (c <=? 90)); lia.
Qed.
Lemma months_start : Forall (fun v => exists c v', v = c :: v' /\ 65 <= c) months.
Proof. repeat (constructor; [by eexists _, _|]). constructor. Qed.
Lemma two_start n r : starts (fun c => c <> 32) (two n ++ r).
Proof. cbn. lia. Qed.
Lemma gap_start g r : gap g -> starts (fun c => c = 32) (g ++ r).
Proof. intros [Hne Hg]. destruct g; [done|]. by apply Forall_cons in Hg as [? _]. Qed.
Lemma parse_written zone s c fr z : bytes s -> written s c fr z ->
  parse_rfc1123 zone s = Some ((seconds c - offset zone z (seconds c)) * 1000000000 + Z.of_N (nanos fr))%Z.
Proof.
  intros Hb (wd & w & m & h & f & g1 & g2 & g3 & g4 & g5 & -> & Hw & Hm & Hh & Hf & Hg & Hz & Hv).
  rewrite !Forall_cons in Hg. destruct Hg as (Hg1 & Hg2 & Hg3 & Hg4 & Hg5 & _).
  pose proof (unix_seconds c Hv) as Hsec. pose proof Hv as (Hy & Hmo & Hd & Hho & Hmi & Hse).
  destruct Hw as (n & Hn & Hwn). pose proof (named_start months _ m (g3 ++ four (cv_year c) ++ g4 ++ h ++ [58] ++ two (cv_min c) ++ [58] ++ two (cv_sec c) ++ f ++ g5 ++ z) Hm months_start) as Sm.
  destruct Hm as (n' & Hn' & Hmn).
  unfold parse_rfc1123. rewrite (tab_app short_days tab_days nodup_days w _ 0 (N.to_nat wd) n Hb Hn Hwn).
  cbn [mbind option_bind]. cbn [app]. rewrite byte_cons. cbn [mbind option_bind]. rewrite skip_app by (exact Hg1 || apply two_start). cbn [mbind option_bind].
  assert (D : cv_day c < 100).
  { pose proof (go_days_in (cv_month c) (cv_year c) Hmo) as E. assert (month_length (cv_year c) (cv_month c) <= 31); [|lia].
    clear -Hmo. unfold month_length, month_lengths. months Hmo; destruct (leap _); done. }
  rewrite getnum_two by done. cbn [mbind option_bind]. rewrite skip_app by done. cbn [mbind option_bind].
  apply Forall_app in Hb as [_ Hb]. apply Forall_app in Hb as [_ Hb]. apply Forall_app in Hb as [_ Hb]. apply Forall_app in Hb as [_ Hb]. apply Forall_app in Hb as [_ Hb].
  cbn [app] in Hb. change months with short_months in Hn'. rewrite (tab_app short_months tab_months nodup_months m _ 1 _ n' Hb Hn' Hmn). cbn [mbind option_bind].
  rewrite skip_app by (exact Hg3 || apply two_start). cbn [mbind option_bind].
  rewrite getyear_four by done. cbn [mbind option_bind].
  assert (Sh : forall r, starts (fun c => c <> 32) (h ++ r)) by (intros r; destruct Hh as [-> | [-> Hh]]; cbn; lia).
  rewrite skip_app by (exact Hg4 || apply Sh). cbn [mbind option_bind].
  assert (Eh : forall r, getnum (h ++ 58 :: r) false = Some (cv_hour c, 58 :: r)).
  { intros r. destruct Hh as [-> | [-> Hh]]; [apply getnum_two; lia|apply getnum_one; [done|cbn; lia]]. }
  rewrite Eh. cbn [mbind option_bind]. rewrite (proj2 (N.leb_gt 24 _)) by done. rewrite byte_cons. cbn [mbind option_bind].
  rewrite getnum_two by lia. cbn [mbind option_bind]. rewrite (proj2 (N.leb_gt 60 _)) by done. rewrite byte_cons. cbn [mbind option_bind].
  rewrite getnum_two by lia. cbn [mbind option_bind]. rewrite (proj2 (N.leb_gt 60 _)) by done.
  rewrite (frac_app f fr) by (exact Hf || by apply gap_start). rewrite skip_app by (exact Hg5 || by apply zone_start). cbn [mbind option_bind].
  rewrite (zone_ok z Hz). cbn [mbind option_bind].
  replace (1 + N.of_nat (N.to_nat (cv_month c - 1))) with (cv_month c) by lia. rewrite go_days_in by done.
  rewrite (proj2 (N.ltb_ge _ _)) by lia. rewrite (proj2 (Z.ltb_ge _ _)) by lia. cbn [orb]. rewrite Hsec. unfold zone_of, offset.
  by case_bool_decide.
Qed.
Lemma written_parse zone s t : bytes s -> parse_rfc1123 zone s = Some t -> exists c fr z, written s c fr z.
Proof.
  intros Hb. unfold parse_rfc1123. cbn [mbind option_bind].
  destruct (tab_lookup short_days s 0) as [[wd s1]|] eqn:E1; [|done]. cbn [mbind option_bind].
  destruct (tab_inv short_days) with (val := s) (i0 := 0) (i := wd) (r := s1) as (w & n & Hs & _ & Hn & Hwn & _); [by repeat constructor|done|done|].
  rewrite N.sub_0_r in Hn.
  destruct (skip_byte 44 s1) as [s2|] eqn:E2; [|done]. cbn [mbind option_bind]. apply byte_inv in E2. subst s1.
  destruct (skip_space s2) as [s3|] eqn:E3; [|done]. cbn [mbind option_bind].
  destruct (getnum s3 true) as [[day s4]|] eqn:E4; [|done]. cbn [mbind option_bind]. apply getnum_inv in E4 as [Hd ->].
  apply skip_inv in E3 as (g1 & Hg1 & ->); [|done].
  destruct (skip_space s4) as [s5|] eqn:E5; [|done]. cbn [mbind option_bind].
  subst s. apply Forall_app in Hb as [_ Hb]. apply Forall_cons in Hb as [_ Hb]. apply Forall_app in Hb as [_ Hb]. apply Forall_app in Hb as [_ Hb].
  destruct (tab_lookup short_months s5 1) as [[mo s6]|] eqn:E6; [|done]. cbn [mbind option_bind].
  apply skip_inv in E5 as (g2 & Hg2 & ->); [|by intros ->]. apply Forall_app in Hb as [_ Hb].
  destruct (tab_inv short_months) with (val := s5) (i0 := 1) (i := mo) (r := s6) as (m & n' & -> & Hmo & Hn' & Hmn & _); [by repeat constructor|done|done|].
  destruct (skip_space s6) as [s7|] eqn:E7; [|done]. cbn [mbind option_bind].
  destruct (getyear s7) as [[year s8]|] eqn:E8; [|done]. cbn [mbind option_bind]. apply getyear_inv in E8 as [Hy ->].
  apply skip_inv in E7 as (g3 & Hg3 & ->); [|done].
  destruct (skip_space s8) as [s9|] eqn:E9; [|done]. cbn [mbind option_bind].
  destruct (getnum s9 false) as [[hour s10]|] eqn:E10; [|done]. cbn [mbind option_bind].
  destruct (N.leb_spec 24 hour) as [?|Hho]; [done|].
  destruct (skip_byte 58 s10) as [s11|] eqn:E11; [|done]. cbn [mbind option_bind]. apply byte_inv in E11. subst s10.
  destruct (getnum s11 true) as [[min s12]|] eqn:E12; [|done]. cbn [mbind option_bind]. apply getnum_inv in E12 as [_ ->].
  destruct (N.leb_spec 60 min) as [?|Hmi]; [done|].
  destruct (skip_byte 58 s12) as [s13|] eqn:E13; [|done]. cbn [mbind option_bind]. apply byte_inv in E13. subst s12.
  destruct (getnum s13 true) as [[sec s14]|] eqn:E14; [|done]. cbn [mbind option_bind]. apply getnum_inv in E14 as [_ ->].
  destruct (N.leb_spec 60 sec) as [?|Hse]; [done|].
  destruct (getfrac s14) as [ns s15] eqn:E15. apply frac_inv in E15 as (f & fr & -> & Hf & _).
  destruct (skip_space s15) as [s16|] eqn:E16; [|done]. cbn [mbind option_bind].
  destruct (getzone s16) as [[z s17]|] eqn:E17; [|done]. cbn [mbind option_bind]. destruct s17 as [|]; [|done].
  apply zone_inv in E17 as [Hz _]. 
  apply skip_inv in E16 as (g5 & Hg5 & ->); [|intros ->; by destruct Hz as [H|[H|[(h & H & _)|[[_ H]|[[_ H]|(_ & _ & _ & [[H _]|[H|[H _]]])]]]]]; (discriminate H || (cbn in H; lia))].
  destruct ((day <? 1) || (days_in mo (Z.of_N year) <? Z.of_N day)%Z) eqn:Ed; [done|]. intros _.
  assert (Hm12 : 1 <= mo <= 12) by (apply lookup_lt_Some in Hn'; cbn in Hn'; lia). rewrite go_days_in in Ed by done.
  set (c := mkCivil year mo day hour min sec). exists c, fr, s16.
  assert (Hh : exists h, s9 = h ++ [58] ++ two min ++ [58] ++ two sec ++ f ++ g5 ++ s16 /\ (h = two hour \/ h = [48 + hour] /\ hour < 10)).
  { apply getnum_inv1 in E10 as [[_ ->]|[H ->]]; eexists; (split; [reflexivity|]); [by left|by right]. }
  destruct Hh as (h & Hs9 & Hh). apply skip_inv in E9 as (g4 & Hg4 & ->); [|rewrite Hs9; destruct Hh as [-> | [-> _]]; done].
  exists wd, w, m, h, f, g1, g2, g3, g4, g5. subst c. cbn [cv_year cv_month cv_day cv_hour cv_min cv_sec]. split.
  - rewrite Hs9. done.
  - split_and!; [by exists n|by exists n'|done|done|repeat (apply Forall_cons; split; [done|]); constructor|done|]. unfold valid. cbn [cv_year cv_month cv_day cv_hour cv_min cv_sec]. lia.
Qed.
Lemma l_C73_exact : forall zone s t, Forall (fun b => b < 256) s ->
  parse_rfc1123 zone s = Some t <->
  exists c fr z, written s c fr z /\
    t = ((seconds c - if bool_decide (z = bytes_of "UTC") then 0 else zone z (seconds c)) * 1000000000 + Z.of_N (nanos fr))%Z.
Proof.
  intros zone s t Hb. split.
  - intros H. destruct (written_parse zone s t Hb H) as (c & fr & z & Hw). exists c, fr, z. split; [done|].
    rewrite (parse_written zone s c fr z Hb Hw) in H. by injection H as <-.
  - intros (c & fr & z & Hw & ->). exact (parse_written zone s c fr z Hb Hw).
Qed.
Lemma imf_written c : valid c -> written (imf c) c [] (bytes_of "GMT").
Proof.
  intros Hv. pose proof Hv as (Hy & Hm & Hd & Hh & Hn & Hs).
  exists (weekday c), (name weekdays (weekday c)), (name months (cv_month c - 1)), (two (cv_hour c)), [], [32], [32], [32], [32], [32].
  assert (Hw : weekday c < 7) by (apply N.mod_lt; done).
  split; [unfold imf, clock; rewrite <- !app_assoc; done|]. split.
  { exists (name weekdays (weekday c)). split; [|done]. unfold name.
    rewrite nth_lookup. destruct (weekdays !! N.to_nat (weekday c)) eqn:E; [done|]. apply lookup_ge_None in E. cbn in E. lia. }
  split.
  { exists (name months (cv_month c - 1)). split; [|done]. unfold name.
    rewrite nth_lookup. destruct (months !! N.to_nat (cv_month c - 1)) eqn:E; [done|]. apply lookup_ge_None in E. cbn in E. lia. }
  split_and!; [by left|by left|by repeat constructor| |done]. right; right; right; right; left. split; [by repeat constructor|done].
Qed.
Lemma two_bytes n : n < 100 -> bytes (two n).
Proof. intros H. assert (n / 10 < 10) by (apply N.div_lt_upper_bound; lia). pose proof (N.mod_lt n 10 ltac:(done)). repeat constructor; lia. Qed.
Lemma name_bytes_ok tab i : Forall (fun v => bytes v) tab -> bytes (name tab i).
Proof. intros H. unfold name. destruct (nth_in_or_default (N.to_nat i) tab []) as [Hi| ->]; [|constructor]. rewrite Forall_forall in H. apply H. by apply elem_of_list_In. Qed.
Lemma month_length_31 y m : 1 <= m <= 12 -> month_length y m <= 31.
Proof. intros Hm. unfold month_length, month_lengths. months Hm; destruct (leap _); done. Qed.
Lemma imf_bytes c : valid c -> bytes (imf c).
Proof.
  intros (Hy & Hm & Hd & Hh & Hn & Hs). pose proof (month_length_31 (cv_year c) _ Hm).
  unfold imf, clock, four. assert (cv_year c / 100 < 100) by (apply N.div_lt_upper_bound; lia). pose proof (N.mod_lt (cv_year c) 100 ltac:(done)).
  repeat (apply Forall_app; split); try (apply two_bytes; lia); try (apply name_bytes_ok; by repeat constructor); by repeat constructor.
Qed.
Lemma l_C73_fixdate : forall zone c, valid c -> (forall t, zone (bytes_of "GMT") t = 0%Z) ->
  parse_rfc1123 zone (imf c) = Some (seconds c * 1000000000)%Z.
Proof.
  intros zone c Hv Hz. rewrite (parse_written zone _ c [] (bytes_of "GMT") (imf_bytes c Hv) (imf_written c Hv)).
  unfold offset. rewrite bool_decide_false by done. rewrite Hz. change (nanos []) with 0. f_equal. lia.
Qed.
Lemma l_C73_check : forall zone c more mtime, valid c -> (forall t, zone (bytes_of "GMT") t = 0%Z) ->
  is_update_required (SFile mtime) (HResp 200 (last_modified zone (Some (imf c :: more)))) = Ok (mtime <? seconds c * 1000000000)%Z.
Proof. intros zone c more mt Hv Hz. unfold last_modified. by rewrite l_C73_fixdate. Qed.
Lemma l_C73_old_formats : forall zone c, valid c ->
  parse_rfc1123 zone (rfc850 c) = None /\ parse_rfc1123 zone (asctime c) = None.
Proof.
  intros zone c Hv. assert (Hw : weekday c < 7) by (apply N.mod_lt; done). unfold rfc850, asctime, parse_rfc1123.
  assert (C : weekday c = 0 \/ weekday c = 1 \/ weekday c = 2 \/ weekday c = 3 \/ weekday c = 4 \/ weekday c = 5 \/ weekday c = 6) by lia.
  by destruct C as [-> | [-> | [-> | [-> | [-> | [-> | ->]]]]]].
Qed.
Lemma l_C73_old_formats_download : forall zone c v more mtime, valid c -> v = rfc850 c \/ v = asctime c ->
  is_update_required (SFile mtime) (HResp 200 (last_modified zone (Some (v :: more)))) = Ok true.
Proof.
  intros zone c v more mt Hv H. destruct (l_C73_old_formats zone c Hv) as [H1 H2]. unfold last_modified. by destruct H as [-> | ->]; rewrite ?H1, ?H2.
Qed.
