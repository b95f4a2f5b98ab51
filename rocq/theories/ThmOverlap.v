(** Proofs about processes that use a file at the same time: C78, C79. *)
From Coq Require Import ZifyBool ZifyNat ZifyN.
From Verif Require Import Base Storage Tags TagSets Variants Items Index Bin Spec Hist ThmDisk Overlap.
From stdpp Require Import list relations.

Lemma put_lookup f k b i : put f k b !! i =
  if decide (i = k) then Some b else if decide (i < k) then (if decide (i < length f) then f !! i else Some 0%N) else f !! i.
Proof.
  unfold put. destruct (decide (i = k)) as [->|Hne].
  - rewrite (lookup_app_r (take k f)) by (rewrite take_length; lia). rewrite lookup_app_r by (rewrite replicate_length, take_length; lia).
    rewrite replicate_length, take_length. replace (k - k `min` length f - (k - length f)) with 0 by lia. done.
  - destruct (decide (i < k)) as [Hl|Hl].
    + destruct (decide (i < length f)).
      * rewrite lookup_app_l by (rewrite take_length; lia). by apply lookup_take.
      * rewrite lookup_app_r by (rewrite take_length; lia). rewrite lookup_app_l by (rewrite replicate_length, take_length; lia).
        apply lookup_replicate_2. rewrite take_length. lia.
    + rewrite (lookup_app_r (take k f)) by (rewrite take_length; lia). rewrite lookup_app_r by (rewrite replicate_length, take_length; lia).
      rewrite replicate_length, take_length. replace (i - k `min` length f - (k - length f)) with (S (i - S k)) by lia. cbn [lookup list_lookup].
      change (drop (S k) f !! (i - S k) = f !! i). rewrite lookup_drop. f_equal. lia.
Qed.
Lemma put_end f k b : length f = k -> put f k b = f ++ [b].
Proof.
  intros <-. unfold put. rewrite firstn_all, Nat.sub_diag, drop_ge by lia. done.
Qed.
Lemma put_length f k b : length (put f k b) = max (length f) (S k).
Proof. unfold put. rewrite !app_length, take_length, replicate_length. cbn [length]. rewrite drop_length. lia. Qed.
Lemma take_S_r' (l : list N) k b : l !! k = Some b -> take (S k) l = take k l ++ [b].
Proof. apply take_S_r. Qed.

(** ** One writer and a reader: C78 *)
Definition one (old bs : list N) (s : shared) : Prop :=
  exists p, s_writers s = [mkWriter bs p] /\
  match p with
  | None => s_file s = old /\ (forall l, s_seen s = Some l -> l `prefix_of` old)
  | Some k => k <= length bs /\ s_file s = take k bs /\
      (forall l, s_seen s = Some l -> exists i j, i <= length old /\ l = take i old ++ take j (drop i bs))
  end.
Lemma take_take_snoc (old bs : list N) i j k b : (take k bs) !! length (take i old ++ take j (drop i bs)) = Some b -> i <= length old ->
  exists j', (take i old ++ take j (drop i bs)) ++ [b] = take i old ++ take j' (drop i bs).
Proof.
  intros H Hi. rewrite app_length, !take_length, drop_length in H. assert (Hk := lookup_lt_Some _ _ _ H). rewrite take_length in Hk.
  rewrite lookup_take in H by lia. set (m := j `min` (length bs - i)) in *.
  exists (S m). rewrite <- app_assoc. f_equal. rewrite (take_S_r _ m b).
  - f_equal. subst m. destruct (decide (j <= length bs - i)); [f_equal; lia|]. rewrite (take_ge _ j) by (rewrite drop_length; lia).
    rewrite take_ge by (rewrite drop_length; lia). done.
  - rewrite lookup_drop. rewrite <- H. f_equal. lia.
Qed.
Lemma one_turn old bs s s' : one old bs s -> turn s s' -> one old bs s'.
Proof.
  intros (p & Hw & Hp) T. destruct T as [f ws i bs' seen Hi|f ws i bs' k b seen Hi Hb|f ws|f ws l b Hl]; cbn [s_writers s_file s_seen] in *; subst ws.
  - destruct i; [|done]. cbn in Hi. injection Hi as -> ->. destruct Hp as [Hf Hs]. exists (Some 0). split; [done|]. split; [lia|]. split; [done|].
    intros l El. destruct (Hs l El) as [r ->]. exists (length l), 0. rewrite app_length. split; [lia|]. rewrite take_0, app_nil_r. by rewrite take_app.
  - destruct i; [|done]. cbn in Hi. injection Hi as -> ->. destruct Hp as (Hk & Hf & Hs). exists (Some (S k)). cbn. split; [done|].
    assert (Hk' := lookup_lt_Some _ _ _ Hb). split; [lia|]. split; [|done]. subst f. rewrite put_end by (rewrite take_length; lia). by rewrite (take_S_r _ _ b).
  - exists p. split; [done|]. destruct p as [k|].
    + destruct Hp as (Hk & Hf & Hs). split; [done|]. split; [done|]. intros l [= <-]. exists 0, 0. split; [lia|done].
    + destruct Hp as [Hf Hs]. split; [done|]. intros l [= <-]. apply prefix_nil.
  - exists p. split; [done|]. destruct p as [k|].
    + destruct Hp as (Hk & Hf & Hs). split; [done|]. split; [done|]. intros l' [= <-]. destruct (Hs l eq_refl) as (i & j & Hi & ->).
      subst f. destruct (take_take_snoc _ _ _ _ _ _ Hl Hi) as [j' E]. by exists i, j'.
    + destruct Hp as [Hf Hs]. split; [done|]. intros l' [= <-]. subst f. destruct (Hs l eq_refl) as [r Hr]. subst old.
      rewrite lookup_app_r, Nat.sub_diag in Hl by lia. destruct r as [|b' r]; [done|]. cbn in Hl. injection Hl as ->. exists r. by rewrite <- app_assoc.
Qed.
Lemma one_turns old bs s s' : one old bs s -> turns s s' -> one old bs s'.
Proof. intros H T. induction T as [|x y z T1 T2 IH]; [done|]. apply IH. by eapply one_turn. Qed.
Lemma one_waiting old bs : one old bs (waiting old [bs]).
Proof. exists None. split; [done|]. split; [done|]. intros l [=]. Qed.

(** What the reader has seen, soundness and completeness. *)
Lemma writes old_ws bs f ks : forall k, old_ws = [mkWriter bs (Some k)] -> f = take k bs -> k <= ks -> ks <= length bs ->
  forall seen, turns (mkShared f old_ws seen) (mkShared (take ks bs) [mkWriter bs (Some ks)] seen).
Proof.
  intros k -> -> Hk Hks seen. remember (ks - k) as n eqn:En. revert k Hk En. induction n as [|n IH]; intros k Hk En.
  - assert (k = ks) as -> by lia. apply rtc_refl.
  - destruct (lookup_lt_is_Some_2 bs k) as [b Hb]; [lia|]. eapply rtc_l; [apply (t_write _ _ 0 bs k b); done|].
    cbn [list_insert insert]. rewrite put_end by (rewrite take_length; lia). rewrite <- (take_S_r _ _ b) by done. apply IH; lia.
Qed.
Lemma reads f ws l r : (l ++ r) `prefix_of` f -> turns (mkShared f ws (Some l)) (mkShared f ws (Some (l ++ r))).
Proof.
  revert l. induction r as [|b r IH]; intros l Hp; [rewrite app_nil_r; apply rtc_refl|].
  eapply rtc_l; [apply (t_read _ _ l b)|].
  - destruct Hp as [q ->]. rewrite <- app_assoc. rewrite lookup_app_r, Nat.sub_diag by lia. done.
  - replace (l ++ b :: r) with ((l ++ [b]) ++ r) in * by (by rewrite <- app_assoc). by apply IH.
Qed.
Lemma reads_from f ws l r : length l <= length f -> r `prefix_of` drop (length l) f ->
  turns (mkShared f ws (Some l)) (mkShared f ws (Some (l ++ r))).
Proof.
  revert l. induction r as [|b r IH]; intros l Hl Hp; [rewrite app_nil_r; apply rtc_refl|]. destruct Hp as [q Hq].
  assert (Hb : f !! length l = Some b). { rewrite <- (Nat.add_0_r (length l)), <- lookup_drop, Hq. done. }
  eapply rtc_l; [by apply (t_read _ _ l b)|]. replace (l ++ b :: r) with ((l ++ [b]) ++ r) by (by rewrite <- app_assoc).
  assert (Hlt := lookup_lt_Some _ _ _ Hb). apply IH; rewrite app_length; cbn [length]; [lia|]. exists q.
  rewrite <- drop_drop, Hq. done.
Qed.
Lemma l_C78_seen : forall old bs l,
  (exists s, turns (waiting old [bs]) s /\ s_seen s = Some l) <->
  exists i j, i <= length old /\ l = take i old ++ take j (drop i bs).
Proof.
  intros old bs l. split.
  - intros (s & T & Hs). destruct (one_turns _ _ _ _ (one_waiting old bs) T) as (p & Hw & Hp). destruct p as [k|].
    + destruct Hp as (_ & _ & H). by apply H.
    + destruct Hp as [_ H]. destruct (H l Hs) as [r ->]. exists (length l), 0. rewrite app_length. split; [lia|].
      by rewrite take_0, app_nil_r, take_app.
  - intros (i & j & Hi & ->). destruct (decide (i <= length bs)) as [Hib|Hib].
    + exists (mkShared bs [mkWriter bs (Some (length bs))] (Some (take i old ++ take j (drop i bs)))). split; [|done].
      eapply rtc_l; [apply t_open|]. etrans; [apply (reads_from old _ [] (take i old)); [cbn; lia|]|].
      { cbn. exists (drop i old). by rewrite take_drop. }
      cbn [app]. eapply rtc_l; [apply (t_create _ _ 0 bs); done|]. cbn [insert list_insert].
      etrans; [apply (writes _ bs _ (length bs) 0); [done|done|lia|lia]|]. rewrite firstn_all.
      apply reads_from; rewrite take_length, Nat.min_l by lia; [lia|]. exists (drop j (drop i bs)). by rewrite take_drop.
    + exists (mkShared old [mkWriter bs None] (Some (take i old ++ take j (drop i bs)))). split; [|done].
      rewrite (drop_ge bs) by lia. rewrite take_nil, app_nil_r. eapply rtc_l; [apply t_open|].
      apply (reads_from old _ [] (take i old)); [cbn; lia|]. cbn. exists (drop i old). by rewrite take_drop.
Qed.
(** Opened after the file was created. *)
Definition late (bs : list N) (s : shared) : Prop := exists k, s_writers s = [mkWriter bs (Some k)] /\ k <= length bs /\ s_file s = take k bs /\
  (forall l, s_seen s = Some l -> l `prefix_of` bs).
Lemma late_turn bs s s' : late bs s -> turn s s' -> late bs s'.
Proof.
  intros (k & Hw & Hk & Hf & Hs) T. destruct T as [f ws i bs' seen Hi|f ws i bs' k' b seen Hi Hb|f ws|f ws l b Hl]; cbn [s_writers s_file s_seen] in *; subst ws.
  - by destruct i.
  - destruct i; [|done]. cbn in Hi. injection Hi as <- <-. exists (S k). cbn. split; [done|]. assert (Hk' := lookup_lt_Some _ _ _ Hb).
    split; [lia|]. split; [|done]. subst f. rewrite put_end by (rewrite take_length; lia). by rewrite (take_S_r _ _ b).
  - exists k. split; [done|]. split; [done|]. split; [done|]. intros l [= <-]. apply prefix_nil.
  - exists k. split; [done|]. split; [done|]. split; [done|]. intros l' [= <-]. destruct (Hs l eq_refl) as [r ->]. subst f.
    assert (Hlt := lookup_lt_Some _ _ _ Hl). rewrite take_length in Hlt.
    rewrite lookup_take in Hl by lia. rewrite lookup_app_r, Nat.sub_diag in Hl by lia. destruct r as [|b' r]; [done|]. cbn in Hl. injection Hl as ->.
    exists r. by rewrite <- app_assoc.
Qed.
Lemma late_turns bs s s' : late bs s -> turns s s' -> late bs s'.
Proof. intros H T. induction T as [|x y z T1 T2 IH]; [done|]. apply IH. by eapply late_turn. Qed.
Lemma l_C78_opened_late : forall old bs s1 s2 l,
  turns (waiting old [bs]) s1 -> (exists k, s_writers s1 = [mkWriter bs (Some k)]) -> s_seen s1 = None ->
  turns s1 s2 -> s_seen s2 = Some l -> l `prefix_of` bs.
Proof.
  intros old bs s1 s2 l T1 [k Hk] Hn T2 Hl. destruct (one_turns _ _ _ _ (one_waiting old bs) T1) as (p & Hw & Hp).
  rewrite Hk in Hw. injection Hw as <-. destruct Hp as (A & B & _).
  assert (L : late bs s1). { exists k. split; [done|]. split; [done|]. split; [done|]. rewrite Hn. done. }
  destruct (late_turns _ _ _ L T2) as (k' & _ & _ & _ & H). by apply H.
Qed.
Lemma l_C78_same_bytes : forall bs s l, turns (waiting bs [bs]) s -> s_seen s = Some l -> l `prefix_of` bs.
Proof.
  intros bs s l T Hl. destruct (proj1 (l_C78_seen bs bs l)) as (i & j & Hi & ->); [by exists s|].
  exists (drop j (drop i bs)). rewrite <- app_assoc, take_drop. by rewrite take_drop.
Qed.
Lemma l_C78_load : forall h ix old bs s1 s2 l, runs h ix -> disk_caps ix = true -> index_write ix = Ok (bs, None) ->
  turns (waiting old [bs]) s1 -> (exists k, s_writers s1 = [mkWriter bs (Some k)]) -> s_seen s1 = None ->
  turns s1 s2 -> s_seen s2 = Some l -> l = bs \/ exists e, index_read index_new l = Err e.
Proof.
  intros h ix old bs s1 s2 l R D W T1 Hk Hn T2 Hl. destruct (decide (l = bs)); [by left|right].
  eapply l_C25_truncated_file_rejected; try done. by eapply l_C78_opened_late.
Qed.

(** ** Several writers: C79 *)
Lemma insert_in (ws : list writer) i w w' : w' ∈ <[i := w]> ws -> w' = w \/ w' ∈ ws.
Proof. rewrite !elem_of_list_lookup. intros [j Hj]. apply list_lookup_insert_Some in Hj as [(_ & <- & _) | [_ Hj]]; [by left|right; by exists j]. Qed.
Record many (bss : list (list N)) (s : shared) : Prop := {
  m_ws : map w_bytes (s_writers s) = bss;
  m_pos : forall w k, w ∈ s_writers s -> w_pos w = Some k -> k <= length (w_bytes w) }.
(** Once someone has created the file: the last one to do so is [j]. *)
Record mixed (bss : list (list N)) (j : nat) (s : shared) : Prop := {
  x_bytes : forall i b, s_file s !! i = Some b -> offered bss i b \/ (b = 0%N /\ exists i' b', i < i' /\ offered bss i' b');
  x_last : exists w k, s_writers s !! j = Some w /\ w_pos w = Some k /\ forall i, i < k -> exists b, s_file s !! i = Some b /\ offered bss i b }.
Lemma many_turn bss s s' : many bss s -> turn s s' -> many bss s'.
Proof.
  intros [M1 M2] T. destruct T as [f ws i bs seen Hi|f ws i bs k b seen Hi Hb|f ws|f ws l b Hl]; cbn [s_writers s_file s_seen] in *; split; cbn [s_writers]; try done.
  - rewrite list_fmap_insert. rewrite list_insert_id; [done|]. rewrite list_lookup_fmap, Hi. done.
  - intros w k Hw Hk. apply insert_in in Hw as [-> | Hw]; [cbn in *; injection Hk as <-; lia|by eapply M2].
  - rewrite list_fmap_insert. rewrite list_insert_id; [done|]. rewrite list_lookup_fmap, Hi. done.
  - intros w k' Hw Hk. apply insert_in in Hw as [-> | Hw]; [|by eapply M2]. cbn in *. injection Hk as <-. by apply lookup_lt_Some in Hb.
Qed.
Lemma many_offer bss s i w k b : many bss s -> s_writers s !! i = Some w -> w_bytes w !! k = Some b -> offered bss k b.
Proof. intros [<- _] Hi Hb. exists (w_bytes w). split; [|done]. apply elem_of_list_fmap. exists w. split; [done|]. by eapply elem_of_list_lookup_2. Qed.
Lemma mixed_turn bss j s s' : many bss s -> mixed bss j s -> turn s s' -> exists j', mixed bss j' s'.
Proof.
  intros M X T. destruct T as [f ws i bs seen Hi|f ws i bs k b seen Hi Hb|f ws|f ws l b Hl].
  - exists i. split; cbn [s_file s_writers]; [done|]. exists (mkWriter bs (Some 0)), 0.
    split; [apply list_lookup_insert; by eapply lookup_lt_Some|]. split; [done|]. intros; lia.
  - exists j. destruct X as [X1 (w & kw & Hj & Hw & X2)]. cbn [s_file s_writers] in *.
    assert (Ho : offered bss k b) by (apply (many_offer bss _ i (mkWriter bs (Some k)) k b M); done).
    split; cbn [s_file s_writers].
    + intros p c. rewrite put_lookup. destruct (decide (p = k)) as [->|]; [intros [= <-]; by left|]. destruct (decide (p < k)); [|by apply X1].
      destruct (decide (p < length f)); [by apply X1|]. intros [= <-]. right. split; [done|]. by exists k, b.
    + assert (Hkeep : forall p, p < kw -> exists c, put f k b !! p = Some c /\ offered bss p c).
      { intros p Hp. destruct (X2 p Hp) as (c & Hc & Hoc). rewrite put_lookup. destruct (decide (p = k)) as [->|]; [by exists b|].
        exists c. split; [|done]. assert (p < length f) by (by eapply lookup_lt_Some). by repeat case_decide. }
      destruct (decide (i = j)) as [->|Hne].
      * rewrite Hi in Hj. injection Hj as <-. cbn in Hw. injection Hw as <-. exists (mkWriter bs (Some (S k))), (S k).
        split; [apply list_lookup_insert; by eapply lookup_lt_Some|]. split; [done|]. intros p Hp. destruct (decide (p = k)) as [->|]; [|apply Hkeep; lia].
        exists b. rewrite put_lookup. by case_decide.
      * exists w, kw. rewrite list_lookup_insert_ne by done. done.
  - exists j. by destruct X.
  - exists j. by destruct X.
Qed.
Lemma many_waiting old bss : many bss (waiting old bss).
Proof.
  split; cbn.
  - rewrite map_map. cbn. apply map_id.
  - intros w k Hw. apply elem_of_list_fmap in Hw as (bs & -> & _). done.
Qed.
(** Nobody has created the file, or someone was the last to. *)
Definition calm (old : list N) (s : shared) : Prop := s_file s = old /\ forall w, w ∈ s_writers s -> w_pos w = None.
Lemma many_turns old bss s : turns (waiting old bss) s -> many bss s /\ (calm old s \/ exists j, mixed bss j s).
Proof.
  intros T. assert (H : forall x, many bss x -> (calm old x \/ exists j, mixed bss j x) -> turns x s -> many bss s /\ (calm old s \/ exists j, mixed bss j s)).
  { clear T. intros x M H T. induction T as [|x y z T1 T2 IH]; [done|]. apply IH; [by eapply many_turn|]. destruct H as [[Hf Hc] | [j X]].
    - destruct T1 as [f ws i bs seen Hi|f ws i bs k b seen Hi Hb|f ws|f ws l b Hl]; cbn [s_file s_writers] in *; [|exfalso|by left..].
      + right. exists i. split; cbn [s_file s_writers]; [done|]. exists (mkWriter bs (Some 0)), 0.
        split; [apply list_lookup_insert; by eapply lookup_lt_Some|]. split; [done|]. intros; lia.
      + specialize (Hc (mkWriter bs (Some k)) ltac:(by eapply elem_of_list_lookup_2)). done.
    - right. by eapply mixed_turn. }
  apply (H (waiting old bss)); [apply many_waiting| |done]. left. split; [done|]. cbn. intros w Hw. apply elem_of_list_fmap in Hw as (bs & -> & _). done.
Qed.
Lemma l_C79_mixture : forall old bss s, turns (waiting old bss) s -> bss <> [] -> Forall finished (s_writers s) ->
  (exists bs, bs ∈ bss /\ forall i, i < length bs -> exists b, s_file s !! i = Some b /\ offered bss i b) /\
  (forall i b, s_file s !! i = Some b -> offered bss i b \/ (b = 0%N /\ exists i' b', i < i' /\ offered bss i' b')).
Proof.
  intros old bss s T Hb F. destruct (many_turns _ _ _ T) as [M [[_ Hc] | [j X]]].
  - exfalso. destruct M as [<- _]. destruct (s_writers s) as [|w ws]; [done|]. inversion F as [|? ? Fw]; subst. unfold finished in Fw.
    rewrite (Hc w) in Fw by (apply elem_of_list_here). done.
  - destruct X as [X1 (w & k & Hj & Hw & X2)]. split; [|done]. exists (w_bytes w). split.
    + destruct M as [<- _]. apply elem_of_list_fmap. exists w. split; [done|]. by eapply elem_of_list_lookup_2.
    + rewrite Forall_forall in F. specialize (F w ltac:(by eapply elem_of_list_lookup_2)). unfold finished in F. rewrite Hw in F. injection F as ->. done.
Qed.
Lemma l_C79_same_bytes : forall old bs n s, turns (waiting old (replicate (S n) bs)) s -> Forall finished (s_writers s) -> s_file s = bs.
Proof.
  intros old bs n s T F. destruct (l_C79_mixture _ _ _ T ltac:(done) F) as [(bs' & Hin & H1) H2].
  apply elem_of_replicate_inv in Hin as ->.
  assert (Ho : forall i b, offered (replicate (S n) bs) i b -> bs !! i = Some b). { intros i b (x & Hx & E). by apply elem_of_replicate_inv in Hx as ->. }
  apply list_eq. intros i. destruct (decide (i < length bs)) as [Hi|Hi].
  - destruct (H1 i Hi) as (b & -> & Hb). by rewrite (Ho _ _ Hb).
  - rewrite (lookup_ge_None_2 bs) by lia. destruct (s_file s !! i) as [b|] eqn:E; [|done]. exfalso.
    destruct (H2 i b E) as [Hb | (_ & i' & b' & Hlt & Hb)]; apply Ho, lookup_lt_Some in Hb; lia.
Qed.
(** One after the other: while a writer works no other does. *)
Definition alone (i : nat) (s : shared) (bs : list N) : Prop :=
  exists p, s_writers s !! i = Some (mkWriter bs p) /\ match p with None => True | Some k => s_file s = take k bs /\ k <= length bs end.
Lemma alone_turn i s s' bs : alone i s bs -> turn_of i s s' -> alone i s' bs.
Proof.
  intros (p & Hi & Hp) [T Hj]. destruct T as [f ws i' bs' seen Hi'|f ws i' bs' k b seen Hi' Hb|f ws|f ws l b Hl]; cbn [s_writers s_file] in *.
  - destruct (decide (i' = i)) as [->|Hne].
    + rewrite Hi in Hi'. injection Hi' as <- ->. exists (Some 0). split; [apply list_lookup_insert; by eapply lookup_lt_Some|]. split; [done|lia].
    + specialize (Hj i' ltac:(done)). rewrite list_lookup_insert in Hj by (by eapply lookup_lt_Some). by rewrite Hi' in Hj.
  - destruct (decide (i' = i)) as [->|Hne].
    + rewrite Hi in Hi'. injection Hi' as <- ->. destruct Hp as [-> Hk]. assert (Hk' := lookup_lt_Some _ _ _ Hb).
      exists (Some (S k)). split; [apply list_lookup_insert; by eapply lookup_lt_Some|]. split; [|lia]. cbn [s_file].
      rewrite put_end by (rewrite take_length; lia). by rewrite (take_S_r _ _ b).
    + specialize (Hj i' ltac:(done)). rewrite list_lookup_insert in Hj by (by eapply lookup_lt_Some). rewrite Hi' in Hj. injection Hj as Hj. lia.
  - by exists p.
  - by exists p.
Qed.
Lemma l_C79_alone : forall s1 s2 i bs, s_writers s1 !! i = Some (mkWriter bs None) ->
  rtc (turn_of i) s1 s2 -> s_writers s2 !! i = Some (mkWriter bs (Some (length bs))) -> s_file s2 = bs.
Proof.
  intros s1 s2 i bs Hi T Hf. assert (A : alone i s1 bs) by (by exists None). assert (A2 : alone i s2 bs).
  { clear Hi Hf. induction T as [|x y z T1 T2 IH]; [done|]. apply IH. by eapply alone_turn. }
  destruct A2 as (p & Hp & H). rewrite Hf in Hp. injection Hp as <-. destruct H as [-> _]. by rewrite firstn_all.
Qed.

(** ** Schedules, for the examples *)
Definition go (s : shared) (t : option nat) : option shared :=
  match t with
  | None => match s_seen s with
            | None => Some (mkShared (s_file s) (s_writers s) (Some []))
            | Some l => b ← s_file s !! length l; Some (mkShared (s_file s) (s_writers s) (Some (l ++ [b])))
            end
  | Some i => w ← s_writers s !! i;
      match w_pos w with
      | None => Some (mkShared [] (<[i := mkWriter (w_bytes w) (Some O)]> (s_writers s)) (s_seen s))
      | Some k => b ← w_bytes w !! k; Some (mkShared (put (s_file s) k b) (<[i := mkWriter (w_bytes w) (Some (S k))]> (s_writers s)) (s_seen s))
      end
  end.
Definition go_all (s : shared) (ts : list (option nat)) : option shared := foldl (fun o t => s ← o; go s t) (Some s) ts.
Lemma go_turn s t s' : go s t = Some s' -> turn s s'.
Proof.
  destruct s as [f ws seen]. destruct t as [i|]; cbn.
  - destruct (ws !! i) as [[bs p]|] eqn:Hi; [|done]. cbn. destruct p as [k|]; [|intros [= <-]; by apply t_create].
    destruct (bs !! k) as [b|] eqn:Hb; [|done]. cbn. intros [= <-]. by eapply t_write.
  - destruct seen as [l|]; [|intros [= <-]; apply t_open]. destruct (f !! length l) eqn:E; [|done]. cbn. intros [= <-]. by apply t_read.
Qed.
Lemma go_turns s ts s' : go_all s ts = Some s' -> turns s s'.
Proof.
  revert s s'. induction ts as [|t ts IH] using rev_ind; intros s s'; unfold go_all; cbn; [intros [= <-]; apply rtc_refl|].
  rewrite foldl_app. cbn. destruct (foldl _ _ ts) as [x|] eqn:E; [|done]. cbn. intros H. eapply rtc_r; [apply IH; exact E|by eapply go_turn].
Qed.
