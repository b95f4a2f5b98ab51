(** Proofs for C91. *)
From Verif Require Import Base Index DocSpec Parser Loader LoaderSpec ThmLoader Together TogetherSpec.
From stdpp Require Import list.

(** ** One updater alone *)
Fixpoint alone (n : nat) (s : fs) (u : updater) : fs * updater :=
  match n with O => (s, u) | S n' => let '(s', u') := advance s u in alone n' s' u' end.
Lemma iter_end n s u r : q_at u = AtEnd r -> alone n s u = (s, u).
Proof. intros H. induction n as [|n IH]; [done|]. cbn [alone]. unfold advance. by rewrite H. Qed.
Lemma alone_S n s u : alone (S n) s u = (let '(s', u') := advance s u in alone n s' u').
Proof. done. Qed.
Lemma alone_compile n s e force : alone (S n) s (mkUpdater e force AtCompile) =
  (after s (u_upds (do_compile e s)), mkUpdater e force (AtEnd (u_res (do_compile e s)))).
Proof. rewrite alone_S. unfold do_compile. cbn. destruct (parse_update e s) as [us r]. cbn. by eapply iter_end. Qed.
Lemma alone_unpack n s e force : alone (S (S n)) s (mkUpdater e force AtUnpack) =
  (after s (u_upds (do_unpack e s)), mkUpdater e force (AtEnd (u_res (do_unpack e s)))).
Proof.
  rewrite alone_S. unfold do_unpack. cbn [advance q_at q_env q_force]. destruct (unpack_update e s) as [us [t|x|]]; [|by eapply iter_end..].
  rewrite alone_compile. cbn [u_upds u_res]. by rewrite after_app.
Qed.
Lemma alone_download n s e force : alone (S (S (S n))) s (mkUpdater e force AtDownload) =
  (after s (u_upds (do_download e s)), mkUpdater e force (AtEnd (u_res (do_download e s)))).
Proof.
  rewrite alone_S. unfold do_download. cbn [advance q_at q_env q_force]. destruct (download_update e s) as [us [[]|x|]]; [|by eapply iter_end..].
  rewrite alone_unpack. cbn [u_upds u_res]. by rewrite after_app.
Qed.
Lemma together_one n s u : together (replicate n 0) (s, [u]) = ((alone n s u).1, [(alone n s u).2]).
Proof.
  revert s u. induction n as [|n IH]; intros s u; [done|]. rewrite alone_S. cbn [replicate together fold_left]. unfold step_of at 2. cbn [snd fst lookup list_lookup].
  destruct (advance s u) as [s' u']. cbn [insert list_insert]. apply IH.
Qed.
Lemma l_C91_alone_is_Update : forall e force s,
  together [0; 0; 0; 0] (s, [mkUpdater e force AtCheck]) =
  (after s (u_upds (update e s force)), [mkUpdater e force (AtEnd (u_res (update e s force)))]).
Proof.
  intros e force s. change [0; 0; 0; 0] with (replicate 4 0). rewrite together_one, alone_S. cbn [advance q_at q_env q_force]. unfold decide_next, update.
  destruct (is_update_required _ _) as [[]|x|].
  - by rewrite alone_download.
  - destruct force; [by rewrite alone_compile|by erewrite iter_end].
  - destruct (force && file_exists s FXml (e_stat_xml e)); [by rewrite alone_compile|]. destruct (force && file_exists s FBz (e_stat_bz e)); [by rewrite alone_unpack|by erewrite iter_end].
  - by erewrite iter_end.
Qed.

(** ** The same server *)
Section world.
  Context (body out bs : list N).
  Definition world (u : updater) : Prop := same_world body out bs (mkUpdater (q_env u) (q_force u) AtCheck).
  Definition bz (s : fs) : Prop := content (fs_bz s) = Some body /\ fs_ddir s = true.
  Definition xml (s : fs) : Prop := content (fs_xml s) = Some out.
  Definition dat (s : fs) : Prop := content (fs_dat s) = Some bs.
  Definition ok_at (s : fs) (u : updater) : Prop :=
    match q_at u with AtCheck | AtDownload => True | AtUnpack => bz s | AtCompile => bz s /\ xml s | AtEnd r => r = Ok tt /\ bz s end.
  Definition none_or_bz (s : fs) : Prop := fs_bz s = None \/ bz s.
  Lemma check_ok s fl h : none_or_bz s -> fl = false -> (exists m, h = HResp 200 m) ->
    is_update_required (stat_of s FBz fl) h = Ok true \/ (is_update_required (stat_of s FBz fl) h = Ok false /\ bz s).
  Proof.
    intros [H|H] -> [m ->]; unfold stat_of; cbn [fget].
    - left. by rewrite H.
    - pose proof H as [Hc _]. destruct (fs_bz s) as [f|]; [|done]. cbn. destruct m as [| |t]; [by right|by left|]. destruct (f_mtime f <? t)%Z; [by left|by right].
  Qed.
  Lemma advance_ok s u s' u' : world u -> ok_at s u -> none_or_bz s -> advance s u = (s', u') ->
    world u' /\ ok_at s' u' /\ none_or_bz s' /\ (bz s -> bz s') /\ (xml s -> xml s') /\ (dat s -> dat s') /\
    match q_at u with
    | AtCheck => s' = s
    | AtDownload => (s' = s /\ bz s) \/ q_at u' = AtUnpack
    | AtUnpack => q_at u' = AtCompile /\ xml s'
    | AtCompile => xml s' /\ dat s'
    | AtEnd _ => s' = s /\ u' = u
    end.
  Proof.
    intros Hw Ho Hn E. pose proof Hw as [W Hd Hg H1 H2 Hz (es & p & ix & Ht & Hp & Hop & Hwr) Hf _]. cbn in *. unfold advance, ok_at in *.
    assert (Hdir : forall s, dir_ok (q_env u) (after1 s UMkdir) = true) by (intros x; unfold dir_ok; by rewrite Hd).
    destruct (q_at u) eqn:Ea.
    - injection E as <- <-. split; [done|]. split; [|done]. cbn. unfold decide_next. rewrite Hf. cbn [andb].
      destruct (check_ok s _ _ Hn (w_stat1 _ W) H1) as [-> |[-> ?]]; done.
    - unfold download_update in E. destruct (check_ok s _ _ Hn (w_stat2 _ W) H2) as [Ec|[Ec Hb]]; rewrite Ec in E.
      + rewrite (w_mkdir1 _ W), Hg, (w_create_bz _ W), Hdir, (w_room_bz _ W) in E. cbn [negb andb copy] in E. rewrite after_cons, after_create in E. injection E as <- <-.
        assert (B : bz (fset (after1 s UMkdir) FBz (Some (mkFile body (e_now (q_env u)))))) by done.
        split; [done|]. split; [done|]. split; [by right|]. split; [done|]. split; [done|]. split; [done|]. by right.
      + injection E as <- <-. split; [done|]. split; [done|]. split; [by right|]. repeat (split; [done|]). by left.
    - destruct Ho as [Hb Hdd]. pose proof (conj Hb Hdd : bz s) as HB. unfold content in Hb. destruct (fs_bz s) as [f|] eqn:Ef; [|done]. cbn in Hb. injection Hb as Hb.
      unfold unpack_update in E. rewrite (w_mkdir2 _ W), (w_open_bz _ W), (w_create_xml _ W), Hdir, Ef, (w_room_xml _ W) in E. cbn [negb andb] in E. rewrite Hb, Hz in E. cbn [copy andb] in E.
      rewrite after_cons, after_create in E. injection E as <- <-.
      assert (B : bz (fset (after1 s UMkdir) FXml (Some (mkFile out (e_now (q_env u)))))) by (split; [exact (proj1 HB)|done]).
      split; [done|]. split; [done|]. split; [by right|]. done.
    - destruct Ho as [[Hb Hdd] Hx]. pose proof (conj Hb Hdd : bz s) as HB. pose proof Hx as Hx'. unfold xml, content in Hx. destruct (fs_xml s) as [f|] eqn:Ef; [|done]. cbn in Hx. injection Hx as Hx.
      unfold parse_update, parse_file in E. rewrite (w_open_xml _ W), Ef, Hx, Ht, Hp in E. unfold save_index, dir_ok in E. rewrite (w_create_dat _ W), Hd, Hdd, Hop, Hwr, (w_flush _ W), (w_room_dat _ W) in E.
      cbn [negb andb copy] in E. rewrite after_create in E. injection E as <- <-.
      split; [done|]. split; [done|]. split; [by right|]. done.
    - injection E as <- <-. rewrite Ea. split; [done|]. split; [done|]. done.
  Qed.

  Definition held (s : fs) (us : list updater) : Prop :=
    (exists u, u ∈ us /\ q_at u = AtUnpack) \/ (xml s /\ exists u, u ∈ us /\ q_at u = AtCompile) \/ (xml s /\ dat s).
  Definition inv (x : fs * list updater) : Prop :=
    Forall world x.2 /\ Forall (ok_at x.1) x.2 /\ none_or_bz x.1 /\ (bz x.1 -> held x.1 x.2).
  Lemma ok_mono s s' u : (bz s -> bz s') -> (xml s -> xml s') -> ok_at s u -> ok_at s' u.
  Proof. unfold ok_at. destruct (q_at u); naive_solver. Qed.
  Lemma inv_step x i : inv x -> inv (step_of x i).
  Proof.
    destruct x as [s us]. unfold step_of. cbn [fst snd]. destruct (us !! i) as [u|] eqn:Ei; [|done]. intros (I1 & I2 & I3 & I4). cbn [fst snd] in *.
    destruct (advance s u) as [s' u'] eqn:E. rewrite Forall_forall in I1, I2. pose proof (elem_of_list_lookup_2 _ _ _ Ei) as Hin.
    destruct (advance_ok s u s' u' (I1 _ Hin) (I2 _ Hin) I3 E) as (A1 & A2 & A3 & M1 & M2 & M3 & Ap).
    pose proof (lookup_lt_Some _ _ _ Ei) as Hlt.
    split; [|split; [|split]]; cbn [fst snd].
    - apply Forall_insert; [by apply Forall_forall|done].
    - apply Forall_insert; [|done]. apply Forall_forall. intros v Hv. by apply (ok_mono s); [..|apply I2].
    - done.
    - intros Hb. assert (New : u' ∈ <[i := u']> us) by (eapply elem_of_list_lookup_2; by apply list_lookup_insert).
      assert (Keep : forall v, v ∈ us -> v <> u -> v ∈ <[i := u']> us).
      { intros v Hv Hne. apply elem_of_list_lookup in Hv as [j Hj]. apply (elem_of_list_lookup_2 _ j). rewrite list_lookup_insert_ne; [done|]. intros <-. congruence. }
      assert (Old : bz s -> q_at u <> AtUnpack -> q_at u <> AtCompile -> held s' (<[i := u']> us)).
      { intros Hbs N1 N2. destruct (I4 Hbs) as [(v & Hv & Ev)|[(Hx & v & Hv & Ev)|[Hx Hd]]].
        - left. exists v. split; [apply Keep; congruence|done].
        - right. left. split; [by apply M2|]. exists v. split; [apply Keep; congruence|done].
        - right. right. split; [by apply M2|by apply M3]. }
      destruct (q_at u) eqn:Ea.
      + subst s'. by apply Old.
      + destruct Ap as [[-> HB]|Eu]; [by apply Old|]. left. by exists u'.
      + right. left. destruct Ap as [Eu Hx]. split; [done|]. by exists u'.
      + right. right. done.
      + destruct Ap as [-> ->]. by apply Old.
  Qed.
  Lemma inv_together order : forall x, inv x -> inv (together order x).
  Proof. induction order as [|i order IH]; intros x Hx; [done|]. apply (IH (step_of x i)). by apply inv_step. Qed.
  Lemma inv_start s us : fs_bz s = None -> Forall (same_world body out bs) us -> inv (s, us).
  Proof.
    intros Hb Hus. split; [|split; [|split]]; cbn [fst snd].
    - eapply Forall_impl; [exact Hus|]. intros u [? ? ? ? ? ? ? ? ?]. by constructor.
    - eapply Forall_impl; [exact Hus|]. intros u [? ? ? ? ? ? ? ? Ha]. unfold ok_at. by rewrite Ha.
    - by left.
    - intros [H _]. by rewrite Hb in H.
  Qed.
End world.
Lemma l_C91_no_updater_fails : forall body out bs s us order u r, fs_bz s = None -> Forall (same_world body out bs) us ->
  u ∈ (together order (s, us)).2 -> q_at u = AtEnd r -> r = Ok tt.
Proof.
  intros body out bs s us order u r Hb Hus Hu Hr. destruct (inv_together body out bs order _ (inv_start _ _ _ _ _ Hb Hus)) as (_ & I2 & _).
  rewrite Forall_forall in I2. specialize (I2 _ Hu). unfold ok_at in I2. rewrite Hr in I2. by destruct I2.
Qed.
Lemma together_length order : forall x, length (together order x).2 = length x.2.
Proof.
  induction order as [|i order IH]; intros x; [done|]. cbn [together fold_left]. unfold together in IH. rewrite IH. unfold step_of. destruct (x.2 !! i); [|done]. destruct (advance _ _). cbn. by rewrite insert_length.
Qed.
Lemma l_C91_when_all_have_ended : forall body out bs s us order, fs_bz s = None -> Forall (same_world body out bs) us -> us <> [] ->
  Forall ended (together order (s, us)).2 ->
  let s' := (together order (s, us)).1 in
  content (fs_bz s') = Some body /\ content (fs_xml s') = Some out /\ content (fs_dat s') = Some bs.
Proof.
  intros body out bs s us order Hb Hus Hne He s'. destruct (inv_together body out bs order _ (inv_start _ _ _ _ _ Hb Hus)) as (_ & I2 & I3 & I4). fold s' in I2, I3, I4.
  pose proof (together_length order (s, us)) as Hl. cbn [snd] in Hl. destruct ((together order (s, us)).2) as [|u us'] eqn:Eus; [by destruct us|].
  rewrite Forall_forall in He, I2. assert (HB : bz body s').
  { destruct (He u) as [r Hr]; [by left|]. specialize (I2 u ltac:(by left)). unfold ok_at in I2. rewrite Hr in I2. by destruct I2. }
  split; [by destruct HB|]. destruct (I4 HB) as [(v & Hv & Ev)|[(_ & v & Hv & Ev)|Hd]]; [..|exact Hd]; destruct (He v Hv) as [r Hr]; congruence.
Qed.

(** ** Four steps each are enough *)
Definition rank (u : updater) : nat := match q_at u with AtCheck => 4 | AtDownload => 3 | AtUnpack => 2 | AtCompile => 1 | AtEnd _ => 0 end.
Lemma advance_rank s u : rank (advance s u).2 <= rank u - 1.
Proof.
  unfold advance, rank. destruct (q_at u) eqn:E; cbn.
  - assert (D : decide_next (q_env u) (q_force u) s <> AtCheck) by (unfold decide_next; repeat case_match; done). destruct (decide_next _ _ _); [done|lia..].
  - destruct (download_update _ _) as [us [[]| |]]; cbn; lia.
  - destruct (unpack_update _ _) as [us []]; cbn; lia.
  - destruct (parse_update _ _) as [us r]; cbn; lia.
  - rewrite E. lia.
Qed.
Lemma together_rank order : forall x i u, x.2 !! i = Some u -> exists u', (together order x).2 !! i = Some u' /\ rank u' <= rank u - times i order.
Proof.
  induction order as [|j order IH]; intros x i u H; [exists u; split; [done|]; cbn; lia|].
  cbn [together fold_left]. destruct x as [s us]. cbn [snd] in H.
  assert (K : exists u1, (step_of (s, us) j).2 !! i = Some u1 /\ rank u1 <= rank u - (if decide (j = i) then 1 else 0)).
  { unfold step_of. cbn [fst snd]. destruct (decide (j = i)) as [-> |Hji].
    - rewrite H. pose proof (advance_rank s u) as R. destruct (advance s u) as [s' u']. cbn in *. exists u'. split; [apply list_lookup_insert; by eapply lookup_lt_Some|done].
    - exists u. split; [|lia]. destruct (us !! j); [|done]. destruct (advance s _). cbn. by rewrite list_lookup_insert_ne. }
  destruct K as (u1 & K1 & K2). destruct (IH _ _ _ K1) as (u2 & E2 & R2). exists u2. split; [exact E2|]. unfold times. rewrite filter_cons. fold (times i order) in *.
  destruct (decide (j = i)); cbn [length]; unfold times in *; lia.
Qed.
Lemma l_C91_four_steps_each : forall s us order, (forall i, i < length us -> 4 <= times i order) -> Forall ended (together order (s, us)).2.
Proof.
  intros s us order H. apply Forall_lookup. intros i u' Hi. pose proof (lookup_lt_Some _ _ _ Hi) as Hlt. rewrite together_length in Hlt. cbn [snd] in Hlt.
  destruct (lookup_lt_is_Some_2 us i Hlt) as [u Hu]. destruct (together_rank order (s, us) i u Hu) as (u2 & E2 & R2). rewrite Hi in E2. injection E2 as <-.
  specialize (H i Hlt). assert (rank u <= 4) by (unfold rank; destruct (q_at u); lia). assert (R : rank u' = 0) by lia. unfold rank in R. unfold ended. destruct (q_at u'); try lia. by eexists.
Qed.

(** ** What a success means *)
Lemma l_C91_success_means_index_refuted : forall body out bs e e' s m,
  same_world body out bs (mkUpdater e false AtCheck) -> same_world body out bs (mkUpdater e' false AtCheck) -> fs_bz s = None ->
  e_head1 e' = HResp 200 m -> ~ newer (SFile (e_now e)) m ->
  let x := together [0; 0; 1] (s, [mkUpdater e false AtCheck; mkUpdater e' false AtCheck]) in
  x.2 = [mkUpdater e false AtUnpack; mkUpdater e' false (AtEnd (Ok tt))] /\ fs_dat x.1 = fs_dat s /\ fs_xml x.1 = fs_xml s.
Proof.
  intros body out bs e e' s m H H' Hb Hh Hn x.
  assert (E : x = (fset (after1 s UMkdir) FBz (Some (mkFile body (e_now e))), [mkUpdater e false AtUnpack; mkUpdater e' false (AtEnd (Ok tt))])); [|by rewrite E].
  unfold x. clear x. destruct H as [W Hd Hg H1 H2 Hz _ _ _]. destruct H' as [W' _ _ _ _ _ _ _ _]. cbn [q_env q_force] in *.
  cbn [together fold_left]. unfold step_of at 3. cbn [fst snd lookup list_lookup advance q_at q_env q_force].
  assert (D0 : decide_next e false s = AtDownload). { unfold decide_next. rewrite (w_stat1 _ W). unfold stat_of. cbn [fget]. by rewrite Hb. }
  rewrite D0. cbn [insert list_insert]. unfold step_of at 2. cbn [fst snd lookup list_lookup advance q_at q_env q_force]. unfold download_update.
  rewrite (w_stat2 _ W). unfold stat_of at 1. cbn [fget]. rewrite Hb. cbn [is_update_required]. 
  assert (Hdir : dir_ok e (after1 s UMkdir) = true) by (unfold dir_ok; by rewrite Hd).
  rewrite (w_mkdir1 _ W), Hg, (w_create_bz _ W), Hdir, (w_room_bz _ W). cbn [negb andb copy]. rewrite after_cons, after_create. cbn [insert list_insert].
  unfold step_of. cbn [fst snd lookup list_lookup advance q_at q_env q_force]. unfold decide_next. rewrite up_to_date_check; [done|].
  split; [apply (w_stat1 _ W')|]. eexists _, m. split; [reflexivity|]. done.
Qed.
Lemma l_C91_force_works_refuted : forall body out bs e e' s m,
  same_world body out bs (mkUpdater e false AtCheck) -> same_world body out bs (mkUpdater e' false AtCheck) -> fs_bz s = None -> fs_xml s = None ->
  e_head1 e' = HResp 200 m -> ~ newer (SFile (e_now e)) m ->
  let x := together [0; 0; 1; 1] (s, [mkUpdater e false AtCheck; mkUpdater e' true AtCheck]) in
  x.2 = [mkUpdater e false AtUnpack; mkUpdater e' true (AtEnd (Err EOpencorpora))] /\ fs_dat x.1 = fs_dat s.
Proof.
  intros body out bs e e' s m H H' Hb Hxml Hh Hn x.
  assert (E : x = (fset (after1 s UMkdir) FBz (Some (mkFile body (e_now e))), [mkUpdater e false AtUnpack; mkUpdater e' true (AtEnd (Err EOpencorpora))])); [|by rewrite E].
  unfold x. clear x. destruct H as [W Hd Hg H1 H2 Hz _ _ _]. destruct H' as [W' _ _ _ _ _ _ _ _]. cbn [q_env q_force] in *.
  cbn [together fold_left]. unfold step_of at 4. cbn [fst snd lookup list_lookup advance q_at q_env q_force].
  assert (D0 : decide_next e false s = AtDownload). { unfold decide_next. rewrite (w_stat1 _ W). unfold stat_of. cbn [fget]. by rewrite Hb. }
  rewrite D0. cbn [insert list_insert]. unfold step_of at 3. cbn [fst snd lookup list_lookup advance q_at q_env q_force]. unfold download_update.
  rewrite (w_stat2 _ W). unfold stat_of at 1. cbn [fget]. rewrite Hb. cbn [is_update_required].
  assert (Hdir : dir_ok e (after1 s UMkdir) = true) by (unfold dir_ok; by rewrite Hd).
  rewrite (w_mkdir1 _ W), Hg, (w_create_bz _ W), Hdir, (w_room_bz _ W). cbn [negb andb copy]. rewrite after_cons, after_create. cbn [insert list_insert].
  unfold step_of at 2. cbn [fst snd lookup list_lookup advance q_at q_env q_force]. unfold decide_next. rewrite up_to_date_check.
  - cbn [insert list_insert]. unfold step_of. cbn [fst snd lookup list_lookup advance q_at q_env q_force]. unfold parse_update, parse_file. cbn [fs_xml fset after1]. rewrite Hxml.
    destruct (e_open_xml e'); done.
  - split; [apply (w_stat1 _ W')|]. eexists _, m. split; [reflexivity|]. done.
Qed.
