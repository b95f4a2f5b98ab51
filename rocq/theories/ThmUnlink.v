(** Proofs for C90. *)
From Verif Require Import Base Overlap ThmOverlap Unlink.
From stdpp Require Import list.

Lemma place_same i bs p ps x : ps !! i = Some x -> place_to i bs p ps !! i = Some (mkProcess bs p).
Proof. intros H. apply list_lookup_insert. by eapply lookup_lt_Some. Qed.
Lemma place_other i j bs p ps : i <> j -> place_to i bs p ps !! j = ps !! j.
Proof. intros H. by apply list_lookup_insert_ne. Qed.

(** ** The files that are open exist *)
Definition sound (s : disk) : Prop :=
  (forall n, d_name s = Some n -> n < length (d_files s)) /\
  (forall i bs n k, at_place s i bs (Open n k) -> n < length (d_files s)).
Lemma sound_does i d s s' : does i d s s' -> sound s -> sound s'.
Proof.
  intros H. assert (P : forall bs p ps j bs' n k, place_to i bs p ps !! j = Some (mkProcess bs' (Open n k)) -> p = Open n k \/ ps !! j = Some (mkProcess bs' (Open n k))).
  { intros bs p ps j bs' n k E. unfold place_to in E. apply list_lookup_insert_Some in E as [(-> & E & _)|[_ E]]; [by injection E as -> ->; left|by right]. }
  destruct H; intros [S1 S2]; unfold sound, at_place in *; cbn [d_files d_name d_procs] in *; rewrite ?insert_length, ?app_length; cbn [length];
    (split; [intros q Hq|intros j bs' q k' Hj; apply P in Hj as [Hj|Hj]]); try (specialize (S2 _ _ _ _ Hj)); try (injection Hj as <- <-); try (injection Hq as <-); try done; try lia; eauto using lookup_lt_Some.
Qed.
Lemma sound_start old bss : sound (before_all old bss).
Proof.
  split; unfold at_place; cbn.
  - intros n H. destruct old; [|done]. injection H as <-. cbn. lia.
  - intros i bs n k H. apply list_lookup_fmap_inv in H as (x & H & _). done.
Qed.
Lemma sound_deeds s s' : deeds s s' -> sound s -> sound s'.
Proof. induction 1 as [|s s1 s' (i & d & H) _ IH]; [done|]. intros Hs. apply IH. by eapply sound_does. Qed.

(** ** The process that is left alone with its file *)
Definition owns (j : nat) (bs : list N) (s : disk) : Prop :=
  (exists n k, at_place s j bs (Open n k) /\ k <= length bs /\ d_name s = Some n /\ d_files s !! n = Some (take k bs) /\
     forall i bs' k', i <> j -> ~ at_place s i bs' (Open n k')) \/
  (exists n, at_place s j bs (Ended true) /\ d_name s = Some n /\ d_files s !! n = Some bs /\ forall i bs' k', i <> j -> ~ at_place s i bs' (Open n k')) \/
  at_place s j bs Broken \/ at_place s j bs (Ended false).
Lemma put_end bs k b : bs !! k = Some b -> put (take k bs) k b = take (S k) bs.
Proof.
  intros H. pose proof (lookup_lt_Some _ _ _ H). unfold put. rewrite take_take, take_length, Nat.min_id. replace (k - k `min` length bs) with 0 by lia.
  rewrite drop_ge by (rewrite take_length; lia). cbn. by rewrite (take_S_r _ _ _ H).
Qed.
Lemma owns_does j bs i d s s' : does i d s s' -> (i <> j -> d <> DCreate /\ d <> DRemove) -> owns j bs s -> owns j bs s'.
Proof.
  intros H Hq. destruct (decide (i = j)) as [-> |Hij].
  - clear Hq. unfold owns, at_place. intros [(n & k & A & B & C & D & E)|[(n & A & C & D & E)|[A|A]]]; destruct H; cbn [d_files d_name d_procs] in *; try congruence.
    + left. simplify_eq. eexists _, _. split; [by eapply place_same|]. split; [apply lookup_lt_Some in H0; lia|]. split; [done|]. split.
      * rewrite list_lookup_insert by (by eapply lookup_lt_Some). f_equal. by apply put_end.
      * intros i bs' k' Hi. rewrite place_other by done. by apply E.
    + right. left. simplify_eq. eexists. split; [by eapply place_same|]. split; [done|]. rewrite firstn_all in D. split; [done|].
      intros i bs' k' Hi. rewrite place_other by done. by apply E.
    + right. right. left. simplify_eq. by eapply place_same.
    + right. right. right. simplify_eq. by eapply place_same.
    + right. right. right. simplify_eq. by eapply place_same.
  - destruct (Hq Hij) as [Q1 Q2].
    assert (G : (forall bs' p, at_place s j bs' p -> at_place s' j bs' p) /\ (d_name s' = d_name s) /\
      (forall n f, (forall i bs' k', i <> j -> ~ at_place s i bs' (Open n k')) -> d_files s !! n = Some f -> d_files s' !! n = Some f) /\
      (forall n, (forall i bs' k', i <> j -> ~ at_place s i bs' (Open n k')) -> (forall i bs' k', i <> j -> ~ at_place s' i bs' (Open n k')))).
    { unfold at_place. destruct H; try done; cbn [d_files d_name d_procs] in *; (split; [intros; by rewrite place_other|]); (split; [done|]); split.
      - intros q g Hno Hf. destruct (decide (q = n)) as [-> |]; [by destruct (Hno i bs0 k Hij)|]. by rewrite list_lookup_insert_ne.
      - intros q Hno i' bs' k' Hi' E. unfold place_to in E. apply list_lookup_insert_Some in E as [(<- & E & _)|[_ E]]; [|by eapply Hno]. injection E as -> -> _. by eapply (Hno i).
      - done.
      - intros q Hno i' bs' k' Hi' E. unfold place_to in E. apply list_lookup_insert_Some in E as [(<- & E & _)|[_ E]]; [done|by eapply Hno].
      - done.
      - intros q Hno i' bs' k' Hi' E. unfold place_to in E. apply list_lookup_insert_Some in E as [(<- & E & _)|[_ E]]; [done|by eapply Hno].
      - done.
      - intros q Hno i' bs' k' Hi' E. unfold place_to in E. apply list_lookup_insert_Some in E as [(<- & E & _)|[_ E]]; [done|by eapply Hno]. }
    destruct G as (G1 & G2 & G3 & G4). intros [(n & k & A & B & C & D & E)|[(n & A & C & D & E)|[A|A]]].
    + left. exists n, k. rewrite G2. eauto 10.
    + right. left. exists n. rewrite G2. eauto 10.
    + right. right. left. by apply G1.
    + right. right. right. by apply G1.
Qed.
Lemma owns_left j bs s s' : rtc (left_to j) s s' -> owns j bs s -> owns j bs s'.
Proof. induction 1 as [|s s1 s' (i & d & H & Hq) _ IH]; [done|]. intros Ho. apply IH. by eapply owns_does. Qed.

(** ** Without errors it is the file of Overlap.v *)
Definition writer_at (p : process) : writer :=
  mkWriter (r_bytes p) (match r_place p with Ready => None | Open _ k => Some k | _ => Some (length (r_bytes p)) end).
Definition matches (s : disk) (t : shared) : Prop :=
  s_writers t = map writer_at (d_procs s) /\ s_seen t = None /\
  Forall (fun p => match r_place p with Open n _ => n = 0 /\ d_name s = Some 0 | Ended true => d_name s = Some 0 | Ready => True | _ => False end) (d_procs s) /\
  ((d_name s = Some 0 /\ d_files s = [s_file t]) \/ (d_name s = None /\ d_files s = [] /\ s_file t = [])).
Lemma matches_start old bss : matches (before_all old bss) (waiting (default [] old) bss).
Proof.
  unfold matches, waiting, before_all. cbn. split; [rewrite map_map; by apply map_ext|]. split; [done|]. split; [by apply Forall_fmap, Forall_true|].
  destruct old; [by left|by right].
Qed.
Lemma map_insert i p ps : map writer_at (<[i := p]> ps) = <[i := writer_at p]> (map writer_at ps).
Proof. apply list_fmap_insert. Qed.
Lemma matches_does i d s s' t : does i d s s' -> d <> DFail -> matches s t -> exists t', turns t t' /\ matches s' t'.
Proof.
  intros H Hd (M1 & M2 & M3 & M4). destruct t as [f ws seen]. cbn in M1, M2, M4. subst ws seen.
  assert (L : forall p, d_procs s !! i = Some p -> map writer_at (d_procs s) !! i = Some (writer_at p)) by (intros p Hp; by rewrite list_lookup_fmap, Hp).
  assert (F : forall p, d_procs s !! i = Some p -> match r_place p with Open n _ => n = 0 /\ d_name s = Some 0 | Ended true => d_name s = Some 0 | Ready => True | _ => False end).
  { intros p Hp. rewrite Forall_lookup in M3. by apply (M3 i). }
  destruct H as [fs n ps bs f' E E'|fs ps bs E|fs m ps bs n k b f' E Eb E'|fs m ps bs n k E Ek|fs m ps bs n k E|fs m ps bs E|fs m ps bs E]; cbn [d_procs d_files d_name] in *.
  - destruct M4 as [[[= ->] ->]|(? & _)]; [|done]. exists (mkShared [] (<[i := mkWriter bs (Some O)]> (map writer_at ps)) None). split.
    + apply rtc_once. constructor. by rewrite (L _ E).
    + split; [cbn; unfold place_to; by rewrite map_insert|]. split; [done|]. split; [|by left]. cbn. by apply Forall_insert.
  - destruct M4 as [[? _]|(_ & -> & ->)]; [done|]. exists (mkShared [] (<[i := mkWriter bs (Some O)]> (map writer_at ps)) None). split.
    + apply rtc_once. constructor. by rewrite (L _ E).
    + split; [cbn; unfold place_to; by rewrite map_insert|]. split; [done|]. split; [|by left]. cbn. apply Forall_insert; [|done].
      eapply Forall_impl; [exact M3|]. intros [bs' [|? ?| |[]]]; cbn; try done; by intros [? ?].
  - destruct (F _ E) as [-> Hm]. destruct M4 as [[-> ->]|(? & _)]; [|congruence]. injection E' as ->.
    exists (mkShared (put f' k b) (<[i := mkWriter bs (Some (S k))]> (map writer_at ps)) None). split.
    + apply rtc_once. apply t_write; [by rewrite (L _ E)|done].
    + split; [cbn; unfold place_to; by rewrite map_insert|]. split; [done|]. split; [|by left]. cbn. by apply Forall_insert.
  - destruct (F _ E) as [-> Hm]. destruct M4 as [[-> ->]|(? & _)]; [|congruence]. eexists. split; [apply rtc_refl|].
    split; [|split; [done|]; split; [cbn; by apply Forall_insert|by left]]. cbn. unfold place_to. rewrite map_insert. symmetry. apply list_insert_id. rewrite (L _ E). subst k. done.
  - done.
  - by apply F in E.
  - by apply F in E.
Qed.
Lemma matches_deeds s s' : rtc good_deed s s' -> forall t, matches s t -> exists t', turns t t' /\ matches s' t'.
Proof.
  induction 1 as [|s s1 s' (i & d & Hd & H) _ IH]; intros t M; [exists t; split; [apply rtc_refl|done]|].
  destruct (matches_does _ _ _ _ _ H Hd M) as (t1 & T1 & M1). destruct (IH _ M1) as (t' & T' & M'). exists t'. split; [by eapply rtc_transitive|done].
Qed.

(** ** The theorems *)
Lemma l_C90_left_alone : forall old bss s0 s1 s2 j bs,
  deeds (before_all old bss) s0 -> (forall n i bs' k, d_name s0 = Some n -> ~ at_place s0 i bs' (Open n k)) ->
  does j DCreate s0 s1 -> rtc (left_to j) s1 s2 -> at_place s2 j bs (Ended true) -> found s2 = Some bs.
Proof.
  intros old bss s0 s1 s2 j bs R Hn H T E. pose proof (sound_deeds _ _ R (sound_start old bss)) as [S1 S2].
  assert (O : exists bs0, owns j bs0 s1).
  { inversion H; subst; exists bs0; left; unfold at_place in *; cbn [d_files d_name d_procs] in *.
    - exists n, 0. split; [by eapply place_same|]. split; [lia|]. split; [done|]. split; [rewrite take_0; apply list_lookup_insert; by eapply lookup_lt_Some|].
      intros i bs' k' Hi. rewrite place_other by done. by eapply Hn.
    - exists (length fs), 0. split; [by eapply place_same|]. split; [lia|]. split; [done|]. split; [rewrite take_0; by apply list_lookup_middle|].
      intros i bs' k' Hi E'. rewrite place_other in E' by done. apply S2 in E'. lia. }
  destruct O as [bs0 O]. apply (owns_left _ _ _ _ T) in O. unfold found. destruct O as [(n & k & A & _)|[(n & A & C & D & _)|[A|A]]]; unfold at_place in *; rewrite E in A; try done.
  injection A as ->. by rewrite C.
Qed.
Lemma l_C90_without_errors : forall old bss s, rtc good_deed (before_all old bss) s ->
  exists t, turns (waiting (default [] old) bss) t /\
    (found s = Some (s_file t) \/ (found s = None /\ old = None /\ forall i bs p, at_place s i bs p -> p = Ready)) /\
    forall i bs, at_place s i bs (Ended true) -> s_writers t !! i = Some (mkWriter bs (Some (length bs))).
Proof.
  intros old bss s H. destruct (matches_deeds _ _ H _ (matches_start old bss)) as (t & T & M1 & M2 & M3 & M4). exists t. split; [done|]. split.
  - unfold found. destruct M4 as [[-> ->]|(En & -> & _)]; [by left|]. right. rewrite En. split; [done|]. split.
    + destruct old as [f|]; [|done]. exfalso.
      assert (K : forall a b, rtc good_deed a b -> (exists ta, matches a ta) -> d_name a <> None -> d_name b <> None).
      { induction 1 as [|a b c (i & d & Hd & Hdo) _ IH]; [done|]. intros [ta Ma] Ha. destruct (matches_does _ _ _ _ _ Hdo Hd Ma) as (tb & _ & Mb). apply IH; [by exists tb|].
        destruct Hdo; try done. destruct Ma as (_ & _ & F & _). cbn in F. rewrite Forall_lookup in F. by apply F in H0. }
      apply (K _ _ H); [by exists (waiting f bss); apply (matches_start (Some f))|done|done].
    + intros i bs p Hp. rewrite Forall_lookup in M3. specialize (M3 i _ Hp). cbn in M3. rewrite En in M3. destruct p as [|? ?| |[]]; try done; by destruct M3.
  - intros i bs Hi. rewrite M1, list_lookup_fmap. unfold at_place in Hi. by rewrite Hi.
Qed.
Lemma l_C90_all_succeed : forall old bs n s, rtc good_deed (before_all old (replicate (S n) bs)) s ->
  (forall i bs' p, at_place s i bs' p -> p = Ended true) -> found s = Some bs.
Proof.
  intros old bs n s H Hall. destruct (l_C90_without_errors _ _ _ H) as (t & T & Hf & Hw).
  assert (L : length (d_procs s) = S n).
  { clear -H. assert (K : forall a b, rtc good_deed a b -> length (d_procs b) = length (d_procs a)).
    { induction 1 as [|a b c (i & d & Hd & Hdo) _ IH]; [done|]. rewrite IH. by destruct Hdo; cbn; unfold place_to; rewrite insert_length. }
    rewrite (K _ _ H). cbn. by rewrite map_length, replicate_length. }
  assert (P0 : exists p, d_procs s !! 0 = Some p) by (apply lookup_lt_is_Some; lia).
  destruct Hf as [-> |(_ & _ & Hr)].
  - f_equal. apply (l_C79_same_bytes _ _ _ _ T). apply Forall_lookup. intros i w Hi. 
    assert (Hlt : i < length (d_procs s)).
    { rewrite L. apply lookup_lt_Some in Hi. assert (K : forall a b, turns a b -> length (s_writers b) = length (s_writers a)).
      { induction 1 as [|a b c Ht _ IH]; [done|]. rewrite IH. by destruct Ht; cbn; rewrite ?insert_length. }
      rewrite (K _ _ T) in Hi. cbn in Hi. rewrite map_length, replicate_length in Hi. lia. }
    apply lookup_lt_is_Some in Hlt as [[bs' p] Hp]. pose proof (Hall _ _ _ Hp) as ->. rewrite (Hw _ _ Hp) in Hi. by injection Hi as <-.
  - destruct P0 as [[bs' p] Hp]. pose proof (Hall _ _ _ Hp). by rewrite (Hr _ _ _ Hp) in *.
Qed.
Lemma l_C90_missing : forall f bss s, deeds (before_all (Some f) bss) s -> found s = None -> exists i bs, at_place s i bs (Ended false).
Proof.
  intros f bss s H Hf. pose proof (sound_deeds _ _ H (sound_start _ _)) as [S1 _].
  assert (Hn : d_name s = None). { unfold found in Hf. destruct (d_name s) as [n|]; [|done]. specialize (S1 n eq_refl). apply lookup_ge_None in Hf. lia. }
  clear S1 Hf. assert (K : forall a b, deeds a b -> (d_name a = None -> exists i bs, at_place a i bs (Ended false)) -> d_name b = None -> exists i bs, at_place b i bs (Ended false)).
  { induction 1 as [|a b c (i & d & Hdo) _ IH]; [auto|]. intros Ha. apply IH. clear IH.
    assert (Keep : forall j bs bs' p ps, ps !! i = Some (mkProcess bs' p) -> p <> Ended false -> forall q, ps !! j = Some (mkProcess bs (Ended false)) -> place_to i bs' q ps !! j = Some (mkProcess bs (Ended false))).
    { intros j bs bs' p ps Hi Hp q Hj. destruct (decide (i = j)) as [-> |]; [congruence|]. by rewrite place_other. }
    unfold at_place in *. destruct Hdo; cbn [d_name d_procs] in *; intros Hnone; try done; try (destruct (Ha Hnone) as (j & bs1 & Hj); exists j, bs1; by eapply Keep).
    exists i, bs. by eapply place_same. }
  by apply (K _ _ H).
Qed.
Lemma write_all i bs : forall fs m ps n k f, ps !! i = Some (mkProcess bs (Open n k)) -> fs !! n = Some f -> k <= length bs ->
  exists fs', length fs' = length fs /\ deeds (mkDisk fs m ps) (mkDisk fs' m (place_to i bs (Open n (length bs)) ps)).
Proof.
  intros fs m ps n k f Hp Hf Hk. remember (length bs - k) as x eqn:Ex. revert fs ps k f Hp Hf Hk Ex. induction x as [|x IH]; intros fs ps k f Hp Hf Hk Ex.
  - replace k with (length bs) in Hp by lia. exists fs. split; [done|]. unfold place_to. rewrite list_insert_id by done. apply rtc_refl.
  - destruct (lookup_lt_is_Some_2 bs k) as [b Hb]; [lia|].
    destruct (IH (<[n := put f k b]> fs) (place_to i bs (Open n (S k)) ps) (S k) (put f k b)) as (fs' & El & H); [by eapply place_same|apply list_lookup_insert; by eapply lookup_lt_Some|lia|lia|].
    exists fs'. split; [by rewrite El, insert_length|]. unfold place_to in H at 2. unfold place_to at 2 in H. rewrite list_insert_insert in H. eapply rtc_l; [|exact H]. exists i, DWrite. by eapply do_write.
Qed.
Lemma l_C90_success_is_kept_refuted : forall old a b, exists s,
  deeds (before_all old [a; b]) s /\ at_place s 0 a (Ended false) /\ at_place s 1 b (Ended true) /\ found s = None.
Proof.
  intros old a b.
  assert (S1 : exists fs f, fs !! 0 = Some f /\ deeds (before_all old [a; b]) (mkDisk fs (Some 0) [mkProcess a (Open 0 0); mkProcess b Ready])).
  { destruct old as [f|].
    - exists [[]], []. split; [done|]. apply rtc_once. exists 0, DCreate. by apply (do_truncate 0 [f] 0 [mkProcess a Ready; mkProcess b Ready] a f).
    - exists [[]], []. split; [done|]. apply rtc_once. exists 0, DCreate. by apply (do_create 0 [] [mkProcess a Ready; mkProcess b Ready] a). }
  destruct S1 as (fs & f & Hf & R1).
  assert (R2 : deeds (mkDisk fs (Some 0) [mkProcess a (Open 0 0); mkProcess b Ready]) (mkDisk (<[0 := []]> fs) (Some 0) [mkProcess a (Open 0 0); mkProcess b (Open 0 0)])).
  { apply rtc_once. exists 1, DCreate. by apply (do_truncate 1 fs 0 [mkProcess a (Open 0 0); mkProcess b Ready] b f). }
  destruct (write_all 1 b (<[0 := []]> fs) (Some 0) [mkProcess a (Open 0 0); mkProcess b (Open 0 0)] 0 0 []) as (fs' & El & R3); [done|apply list_lookup_insert; by eapply lookup_lt_Some|lia|].
  cbn [place_to insert list_insert] in R3.
  assert (R4 : deeds (mkDisk fs' (Some 0) [mkProcess a (Open 0 0); mkProcess b (Open 0 (length b))]) (mkDisk fs' None [mkProcess a (Ended false); mkProcess b (Ended true)])).
  { eapply rtc_l; [exists 1, DFinish; by eapply do_finish|]. eapply rtc_l; [exists 0, DFail; by eapply do_fail|]. apply rtc_once. exists 0, DRemove. by apply (do_remove 0 fs' (Some 0) [mkProcess a Broken; mkProcess b (Ended true)] a). }
  eexists. split; [eapply rtc_transitive; [exact R1|]; eapply rtc_transitive; [exact R2|]; eapply rtc_transitive; [exact R3|]; exact R4|]. done.
Qed.

(** ** Deeds that can be computed *)
Definition play1 (i : nat) (d : deed) (s : disk) : option disk :=
  match d_procs s !! i, d with
  | Some (mkProcess bs Ready), DCreate =>
    match d_name s with
    | Some n => match d_files s !! n with Some _ => Some (mkDisk (<[n := []]> (d_files s)) (Some n) (place_to i bs (Open n 0) (d_procs s))) | None => None end
    | None => Some (mkDisk (d_files s ++ [[]]) (Some (length (d_files s))) (place_to i bs (Open (length (d_files s)) 0) (d_procs s)))
    end
  | Some (mkProcess bs (Open n k)), DWrite =>
    match bs !! k, d_files s !! n with
    | Some b, Some f => Some (mkDisk (<[n := put f k b]> (d_files s)) (d_name s) (place_to i bs (Open n (S k)) (d_procs s)))
    | _, _ => None
    end
  | Some (mkProcess bs (Open n k)), DFinish =>
    if decide (k = length bs) then Some (mkDisk (d_files s) (d_name s) (place_to i bs (Ended true) (d_procs s))) else None
  | Some (mkProcess bs (Open n k)), DFail => Some (mkDisk (d_files s) (d_name s) (place_to i bs Broken (d_procs s)))
  | Some (mkProcess bs Broken), DRemove => Some (mkDisk (d_files s) None (place_to i bs (Ended false) (d_procs s)))
  | Some (mkProcess bs Broken), DStay => Some (mkDisk (d_files s) (d_name s) (place_to i bs (Ended false) (d_procs s)))
  | _, _ => None
  end.
Lemma play1_does i d s s' : play1 i d s = Some s' <-> does i d s s'.
Proof.
  split.
  - unfold play1. destruct s as [fs m ps]. cbn. destruct (ps !! i) as [[bs [|n k| |ok]]|] eqn:E; [..|done]; (destruct d; try done).
    + destruct m as [n|]; [|intros [= <-]; by constructor]. destruct (fs !! n) as [f|] eqn:Ef; [|done]. intros [= <-]. by eapply do_truncate.
    + destruct (bs !! k) as [b|] eqn:Eb; [|done]. destruct (fs !! n) as [f|] eqn:Ef; [|done]. intros [= <-]. by eapply do_write.
    + destruct (decide (k = length bs)); [|done]. intros [= <-]. by eapply do_finish.
    + intros [= <-]. by eapply do_fail.
    + intros [= <-]. by eapply do_remove.
    + intros [= <-]. by eapply do_stay.
  - destruct 1; unfold play1; cbn [d_procs d_files d_name]; rewrite ?H; rewrite ?H0; try done; [by rewrite H1|by rewrite decide_True].
Qed.
Definition play (l : list (nat * deed)) (s : disk) : option disk := fold_left (fun o '(i, d) => match o with Some s => play1 i d s | None => None end) l (Some s).
Lemma play_step i d l s s' : play ((i, d) :: l) s = Some s' -> exists s1, does i d s s1 /\ play l s1 = Some s'.
Proof.
  unfold play. cbn [fold_left]. destruct (play1 i d s) as [s1|] eqn:E; [intros H; exists s1; split; [by apply play1_does|done]|].
  assert (N : fold_left (fun o '(i, d) => match o with Some s => play1 i d s | None => None end) l None = None) by (induction l as [|[]]; done). by rewrite N.
Qed.
Lemma play_deeds l : forall s s', play l s = Some s' -> deeds s s'.
Proof.
  induction l as [|[i d] l IH]; intros s s' H; [injection H as <-; apply rtc_refl|]. apply play_step in H as (s1 & Hd & H). eapply rtc_l; [by exists i, d|by apply IH].
Qed.
Lemma play_good l : Forall (fun x => x.2 <> DFail) l -> forall s s', play l s = Some s' -> rtc good_deed s s'.
Proof.
  induction 1 as [|[i d] l Hx Hl IH]; intros s s' H; [injection H as <-; apply rtc_refl|]. apply play_step in H as (s1 & Hd & H). eapply rtc_l; [by exists i, d|by apply IH].
Qed.
Lemma play_left j l : Forall (fun x => x.1 <> j -> x.2 <> DCreate /\ x.2 <> DRemove) l -> forall s s', play l s = Some s' -> rtc (left_to j) s s'.
Proof.
  induction 1 as [|[i d] l Hx Hl IH]; intros s s' H; [injection H as <-; apply rtc_refl|]. apply play_step in H as (s1 & Hd & H). eapply rtc_l; [by exists i, d|by apply IH].
Qed.
