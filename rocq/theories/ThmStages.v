(** Proofs about the stages of Update: C76. *)
From Verif Require Import Base Bin Index DocSpec Parser Loader LoaderSpec StageSpec ThmLoader.
From stdpp Require Import list.

Lemma kept_all room bs : has_room room bs -> kept room bs = bs.
Proof. destruct room as [k|]; [|done]. cbn. intros. by rewrite firstn_all2. Qed.
Lemma copy_spec f t bs room : (copy f t bs room).1 = map (UByte f t) (kept room bs) /\ ((copy f t bs room).2 = true <-> has_room room bs).
Proof.
  unfold copy, kept, has_room. destruct room as [k|]; [|done]. destruct (Nat.leb_spec (length bs) k).
  - cbn. by rewrite firstn_all2.
  - cbn. split; [done|]. split; [done|lia].
Qed.
Lemma has_dir_spec e s : has_dir e s <-> dir_ok e s = true.
Proof. unfold has_dir, dir_ok. by destruct (e_custom e). Qed.
Lemma can_create b e s : negb (b && dir_ok e s) = true <-> b = false \/ ~ has_dir e s.
Proof. rewrite has_dir_spec. destruct b, (dir_ok e s); cbn; naive_solver. Qed.

Lemma download_ok e s : downloads e s (after s (download_update e s).1) (download_update e s).2.
Proof.
  unfold download_update. destruct (is_update_required _ _) as [[]|x|] eqn:Ec; [|by apply down_not_needed|by apply down_check_fails|by apply down_check_panics].
  destruct (e_mkdir1 e) eqn:Em; [|by apply down_no_directory]. cbn [negb].
  destruct (e_get e) as [[[st body] ends]|] eqn:Eg; [|by apply down_no_answer].
  destruct (negb (e_create_bz e && dir_ok e (after1 s UMkdir))) eqn:Ecr.
  { apply can_create in Ecr. by eapply down_no_file. }
  apply negb_false_iff, andb_true_iff in Ecr as [Ecr Ed]. apply has_dir_spec in Ed.
  destruct (copy_spec FBz (e_now e) body (e_room_bz e)) as [E1 E2]. destruct (copy _ _ _ _) as [us ok]. cbn [fst snd] in *. subst us.
  rewrite after_cons, after_create. destruct ok; [destruct ends|]; cbn [andb].
  - assert (has_room (e_room_bz e) body) by by apply E2. rewrite kept_all by done. by eapply down_done.
  - eapply down_breaks; [done..|by left].
  - eapply down_breaks; [done..|]. right. by intros ?%E2.
Qed.
Ltac det := repeat match goal with H : _ \/ _ |- _ => destruct H end;
  try (split; congruence);
  repeat match goal with H1 : ?x = Some ?a, H2 : ?x = Some ?b |- _ => rewrite H1 in H2; injection H2 as ?; subst
    | H1 : ?x = Ok ?a, H2 : ?x = Ok ?b |- _ => rewrite H1 in H2; injection H2 as ?; subst
    | H1 : ?x = (_, _), H2 : ?x = (_, _) |- _ => rewrite H1 in H2; injection H2 as ?; subst end;
  try done; try (split; congruence).
Lemma download_det e s s1 r1 s2 r2 : downloads e s s1 r1 -> downloads e s s2 r2 -> s1 = s2 /\ r1 = r2.
Proof. intros [] []; det. Qed.
Lemma l_C76_download : forall e s s' r, downloads e s s' r <-> outcome s (download_update e s) = (s', r).
Proof.
  intros e s s' r. split; [|intros [= <- <-]; apply download_ok]. intros H. destruct (download_det _ _ _ _ _ _ H (download_ok e s)) as [-> ->]. done.
Qed.
Lemma unpack_ok e s : unpacks e s (after s (unpack_update e s).1) (unpack_update e s).2.
Proof.
  unfold unpack_update. destruct (e_mkdir2 e) eqn:Em; [|by apply unp_no_directory]. cbn [negb].
  destruct (e_open_bz e) eqn:Eo; [|apply unp_no_archive; [done|by left]].
  destruct (fs_bz s) as [x|] eqn:Ex; [|apply unp_no_archive; [done|by right]].
  destruct (negb (e_create_xml e && dir_ok e (after1 s UMkdir))) eqn:Ecr.
  { apply can_create in Ecr. by eapply unp_no_file. }
  apply negb_false_iff, andb_true_iff in Ecr as [Ecr Ed]. apply has_dir_spec in Ed.
  destruct (e_unbz e (f_bytes x)) as [out ends] eqn:Eu.
  destruct (copy_spec FXml (e_now e) out (e_room_xml e)) as [E1 E2]. destruct (copy _ _ _ _) as [us ok]. cbn [fst snd] in *. subst us.
  rewrite after_cons, after_create. destruct ok; [destruct ends|]; cbn [andb].
  - assert (has_room (e_room_xml e) out) by by apply E2. rewrite kept_all by done. by eapply unp_done.
  - eapply unp_breaks; [done..|by left].
  - eapply unp_breaks; [done..|]. right. by intros ?%E2.
Qed.
Lemma unpack_det e s s1 r1 s2 r2 : unpacks e s s1 r1 -> unpacks e s s2 r2 -> s1 = s2 /\ r1 = r2.
Proof. intros [] []; det. Qed.
Lemma l_C76_unpack : forall e s s' r, unpacks e s s' r <-> outcome s (unpack_update e s) = (s', r).
Proof.
  intros e s s' r. split; [|intros [= <- <-]; apply unpack_ok]. intros H. destruct (unpack_det _ _ _ _ _ _ H (unpack_ok e s)) as [-> ->]. done.
Qed.
Lemma compile_ok e s : compiles e s (after s (parse_update e s).1) (parse_update e s).2.
Proof.
  unfold parse_update. destruct (parse_file e s) as [ix|] eqn:Ep; [|by apply com_no_index]. unfold save_index.
  destruct (negb (e_create_dat e && dir_ok e s)) eqn:Ecr.
  { apply can_create in Ecr. by eapply com_no_file. }
  apply negb_false_iff, andb_true_iff in Ecr as [Ecr Ed]. apply has_dir_spec in Ed.
  destruct (optimize ix) as [ix1|x|] eqn:Eo; [|eapply com_panics; try done; congruence..].
  destruct (index_write ix1) as [[bs w]|x|] eqn:Ew; [|eapply com_panics; try done; congruence..].
  change (match e_flush e with Some k => take k bs | None => bs end) with (kept (e_flush e) bs).
  destruct (copy_spec FDat (e_now e) (kept (e_flush e) bs) (e_room_dat e)) as [E1 E2]. destruct (copy _ _ _ _) as [us ok]. cbn [fst snd] in *. subst us.
  destruct (ok && match w with None => true | Some _ => false end) eqn:Ek.
  - apply andb_true_iff in Ek as [-> Ek]. destruct w; [done|]. assert (has_room (e_room_dat e) (kept (e_flush e) bs)) by by apply E2.
    cbn [fst snd]. rewrite after_create, kept_all by done. by eapply com_done.
  - cbn [fst snd]. rewrite app_comm_cons, after_app, after_create.
    assert (Hb : w <> None \/ ~ has_room (e_room_dat e) (kept (e_flush e) bs)).
    { destruct ok; [left; by destruct w|right; by intros ?%E2]. }
    pose proof (com_breaks e s ix ix1 bs w Ep Ecr Ed Eo Ew Hb) as H. by destruct (e_remove e), s.
Qed.
Lemma compile_det e s s1 r1 s2 r2 : compiles e s s1 r1 -> compiles e s s2 r2 -> s1 = s2 /\ r1 = r2.
Proof. intros [] []; det; exfalso; naive_solver. Qed.
Lemma l_C76_compile : forall e s s' r, compiles e s s' r <-> outcome s (parse_update e s) = (s', r).
Proof.
  intros e s s' r. split; [|intros [= <- <-]; apply compile_ok]. intros H. destruct (compile_det _ _ _ _ _ _ H (compile_ok e s)) as [-> ->]. done.
Qed.
Lemma unpack_on_ok e s : unpack_on e s (after s (u_upds (do_unpack e s))) (u_res (do_unpack e s)).
Proof.
  unfold do_unpack. pose proof (unpack_ok e s) as Hu. destruct (unpack_update e s) as [us [[]|x|]] eqn:Eu; cbn [u_upds u_res fst snd] in *.
  - rewrite after_app. pose proof (compile_ok e (after s us)) as Hc. unfold do_compile. destruct (parse_update e (after s us)) as [us2 r]. by eapply on_unpacked.
  - by eapply on_not_unpacked.
  - inversion Hu.
Qed.
Lemma unpack_on_det e s s1 r1 s2 r2 : unpack_on e s s1 r1 -> unpack_on e s s2 r2 -> s1 = s2 /\ r1 = r2.
Proof.
  intros [a b c H1 H2|a b H1] [a' b' c' H1' H2'|a' b' H1']; destruct (unpack_det _ _ _ _ _ _ H1 H1') as [-> E]; try done.
  by eapply compile_det.
Qed.
Lemma update_ok e s force : updates e s force (after s (u_upds (update e s force))) (u_res (update e s force)).
Proof.
  unfold update. destruct (is_update_required _ _) as [[]|x|] eqn:Ec.
  - unfold do_download. pose proof (download_ok e s) as Hd. destruct (download_update e s) as [us [[]|x|]]; cbn [u_upds u_res fst snd] in *.
    + rewrite after_app. eapply upd_download; [done|done|]. apply unpack_on_ok.
    + by eapply upd_meanwhile.
    + by eapply upd_not_downloaded.
    + by eapply upd_download_panics.
  - destruct force; [|by apply upd_nothing]. apply upd_recompile; [done..|]. pose proof (compile_ok e s). unfold do_compile. by destruct (parse_update e s).
  - destruct force; cbn [andb]; [|eapply upd_check_fails; [done|by left]]. unfold file_exists, stat_of.
    destruct (e_stat_xml e) eqn:Sx; [|cbn [fget]; destruct (fs_xml s) as [fx|] eqn:Fx].
    2: { eapply upd_offline_xml; [done..|]. pose proof (compile_ok e s). unfold do_compile. by destruct (parse_update e s). }
    all: destruct (e_stat_bz e) eqn:Sb; [|cbn [fget]; destruct (fs_bz s) as [fb|] eqn:Fb];
      [eapply upd_check_fails; [done|right; split; auto]|eapply upd_offline_bz; [done|done|auto|done|done|apply unpack_on_ok]|eapply upd_check_fails; [done|right; split; auto]].
  - by apply upd_check_panics.
Qed.
Lemma update_det e s force s1 r1 s2 r2 : updates e s force s1 r1 -> updates e s force s2 r2 -> s1 = s2 /\ r1 = r2.
Proof.
  intros [] []; try (split; congruence); try congruence;
  try (match goal with H1 : compiles _ _ _ _, H2 : compiles _ _ _ _ |- _ => by apply (compile_det _ _ _ _ _ _ H1 H2) end);
  try (match goal with H1 : unpack_on _ _ _ _, H2 : unpack_on _ _ _ _ |- _ => lazymatch goal with _ : downloads _ _ _ _ |- _ => fail | _ => by apply (unpack_on_det _ _ _ _ _ _ H1 H2) end end);
  try (match goal with H1 : downloads _ _ _ _, H2 : downloads _ _ _ _ |- _ => destruct (download_det _ _ _ _ _ _ H1 H2) as [-> E]; try done; try (by injection E as ->) end);
  try (match goal with H1 : unpack_on _ _ _ _, H2 : unpack_on _ _ _ _ |- _ => by apply (unpack_on_det _ _ _ _ _ _ H1 H2) end); det.
  all: repeat match goal with H : _ /\ _ |- _ => destruct H end; det; congruence.
Qed.
Lemma l_C76_update : forall e s force s' r, updates e s force s' r <->
  after s (u_upds (update e s force)) = s' /\ u_res (update e s force) = r.
Proof.
  intros e s force s' r. split; [|intros [<- <-]; apply update_ok]. intros H. by destruct (update_det _ _ _ _ _ _ _ H (update_ok e s force)) as [-> ->].
Qed.
Lemma compiles_compiled e s s' : compiles e s s' (Ok tt) -> compiled e s' /\ fs_bz s' = fs_bz s /\ fs_xml s' = fs_xml s.
Proof.
  intros H. inversion H; subst. split; [|done]. eexists ix, ix1, bs. split; [|done]. done.
Qed.
Lemma unpack_on_compiled e s s' : unpack_on e s s' (Ok tt) -> compiled e s' /\ fs_bz s' = fs_bz s /\
  exists x out, fs_bz s = Some x /\ e_unbz e (f_bytes x) = (out, true) /\ fs_xml s' = Some (mkFile out (e_now e)).
Proof.
  intros H. inversion H as [s1 s2 r H1 H2|]; subst. apply compiles_compiled in H2 as (Hc & E1 & E2). inversion H1; subst.
  split; [done|]. rewrite E1, E2. split; [done|]. by eexists _, _.
Qed.
Lemma l_C76_success : forall e s force, let s' := after s (u_upds (update e s force)) in
  let check := is_update_required (stat_of s FBz (e_stat1 e)) (e_head1 e) in
  let check2 := is_update_required (stat_of s FBz (e_stat2 e)) (e_head2 e) in
  u_res (update e s force) = Ok tt ->
  (s' = s /\ (check = Ok false /\ force = false \/ check = Ok true /\ check2 = Ok false)) \/
  compiled e s' /\
  ((check = Ok true /\ check2 = Ok true /\ exists status body out, e_get e = Some (status, body, true) /\ e_unbz e body = (out, true) /\
      fs_bz s' = Some (mkFile body (e_now e)) /\ fs_xml s' = Some (mkFile out (e_now e))) \/
   (force = true /\ check <> Ok true /\ fs_bz s' = fs_bz s /\
      (fs_xml s' = fs_xml s \/ exists x out, fs_bz s = Some x /\ e_unbz e (f_bytes x) = (out, true) /\ fs_xml s' = Some (mkFile out (e_now e))))).
Proof.
  intros e s force s' check check2 Hr. pose proof (update_ok e s force) as H. fold s' in H. rewrite Hr in H. clear Hr. clearbody s'.
  inversion H; subst; try (fold check in H0); try fold check.
  - left. auto.
  - apply compiles_compiled in H2 as (Hc & E1 & E2). right. split; [done|]. right. split; [done|]. split; [congruence|]. auto.
  - apply compiles_compiled in H4 as (Hc & E1 & E2). right. split; [done|]. right. split; [done|]. split; [congruence|]. auto.
  - apply unpack_on_compiled in H5 as (Hc & E1 & E2). right. split; [done|]. right. split; [done|]. split; [congruence|]. auto.
  - apply unpack_on_compiled in H2 as (Hc & E1 & x & out & E2 & E3 & E4). right. split; [done|]. left. split; [done|].
    inversion H1; subst. cbn in E2. injection E2 as <-. split; [done|]. eexists _, _, _. split; [done|]. split; [done|]. by rewrite E1.
  - inversion H1; subst. left. auto.
Qed.
Lemma l_C76_untouched : forall e s force,
  let u := update e s force in let s' := after s (u_upds u) in
  (StDownload ∉ u_stages u -> fs_bz s' = fs_bz s) /\ (StUnpack ∉ u_stages u -> fs_xml s' = fs_xml s) /\
  (StCompile ∉ u_stages u -> fs_dat s' = fs_dat s).
Proof.
  intros e s force.
  assert (C : forall s0, fs_bz (after s0 (parse_update e s0).1) = fs_bz s0 /\ fs_xml (after s0 (parse_update e s0).1) = fs_xml s0).
  { intros s0. by destruct (compile_ok e s0). }
  assert (U : forall s0, fs_bz (after s0 (unpack_update e s0).1) = fs_bz s0 /\ fs_dat (after s0 (unpack_update e s0).1) = fs_dat s0).
  { intros s0. by destruct (unpack_ok e s0). }
  assert (D : forall s0, fs_xml (after s0 (download_update e s0).1) = fs_xml s0 /\ fs_dat (after s0 (download_update e s0).1) = fs_dat s0).
  { intros s0. by destruct (download_ok e s0). }
  assert (K : forall s0, let u := do_compile e s0 in let s' := after s0 (u_upds u) in fs_bz s' = fs_bz s0 /\ fs_xml s' = fs_xml s0 /\ u_stages u = [StCompile]).
  { intros s0. unfold do_compile. specialize (C s0). destruct (parse_update e s0) as [us r], C as [C1 C2]. cbn [fst u_upds u_stages] in *. done. }
  assert (L : forall s0, let u := do_unpack e s0 in let s' := after s0 (u_upds u) in fs_bz s' = fs_bz s0 /\ StUnpack ∈ u_stages u /\
    (StCompile ∉ u_stages u -> fs_dat s' = fs_dat s0)).
  { intros s0. unfold do_unpack. specialize (U s0). destruct (unpack_update e s0) as [us [[]|x|]]; cbn [fst u_upds u_stages] in *.
    - rewrite after_app. destruct (K (after s0 us)) as (K1 & K2 & K3). rewrite K1, K3. split; [apply U|]. split; [by left|]. intros Hn. exfalso. apply Hn. right. by left.
    - split; [apply U|]. split; [by left|]. intros _. apply U.
    - split; [apply U|]. split; [by left|]. intros _. apply U. }
  unfold update. destruct (is_update_required _ _) as [[]|x|].
  - unfold do_download. specialize (D s). destruct (download_update e s) as [us [[]|x|]]; cbn [fst u_upds u_stages] in *.
    + rewrite after_app. destruct (L (after s us)) as (L1 & L2 & L3). cbn zeta in *. split; [|split]; intros Hn.
      * exfalso. apply Hn. by left.
      * exfalso. apply Hn. by right.
      * rewrite L3; [apply D|]. intros ?. apply Hn. by right.
    + split; [|by split; intros _; apply D]. intros Hn. exfalso. apply Hn. by left.
    + split; [|by split; intros _; apply D]. intros Hn. exfalso. apply Hn. by left.
    + split; [|by split; intros _; apply D]. intros Hn. exfalso. apply Hn. by left.
  - destruct force; [|done]. destruct (K s) as (K1 & K2 & K3). cbn zeta in *. split; [done|]. split; [done|]. rewrite K3. intros Hn. exfalso. apply Hn. by left.
  - destruct (force && file_exists s FXml (e_stat_xml e)).
    { destruct (K s) as (K1 & K2 & K3). cbn zeta in *. split; [done|]. split; [done|]. rewrite K3. intros Hn. exfalso. apply Hn. by left. }
    destruct (force && file_exists s FBz (e_stat_bz e)); [|done]. destruct (L s) as (L1 & L2 & L3). cbn zeta in *. split; [done|]. split; [done|done].
  - done.
Qed.
