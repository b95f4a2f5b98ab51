(** Proofs of the properties of the loader (C48-C53, C55, C56). *)
From Coq Require Import ZifyBool ZifyNat ZifyN.
From Verif Require Import Base Storage Bin Utf8 Tags TagSets Variants Items Index DocSpec Parser Calls Spec Hist
  BaseFacts SpecFacts TrieFacts OptFacts BinFacts CodecFacts ReloadFacts HistFacts DictFacts QueryFacts Loader LoaderSpec ThmTrie ThmTags ThmDisk ThmParser ThmDoc.
From stdpp Require Import list.

Lemma after_app s us vs : after s (us ++ vs) = after (after s us) vs.
Proof. unfold after. apply fold_left_app. Qed.
Lemma after_cons s u us : after s (u :: us) = after (after1 s u) us.
Proof. done. Qed.

(** ** C53 *)
Lemma l_C53_required : forall st h, is_update_required st h = Ok true <->
  st = SAbsent \/ st <> SAbsent /\ exists m, h = HResp 200 m /\ newer st m.
Proof.
  intros st h. unfold is_update_required, newer. destruct st as [| |mt].
  - split; [by left|done].
  - destruct h as [|status m].
    + split; [done|]. intros [?|(_ & m & ? & _)]; done.
    + destruct (N.eqb_spec status 200) as [->|Hne].
      * destruct m as [| |t]; (split; [try done|]); try (intros [?|(_ & m & [= <-] & ?)]; done).
        intros _. right. split; [done|]. by eexists.
      * split; [done|]. intros [?|(_ & m' & [= ? _] & _)]; done.
  - destruct h as [|status m].
    + split; [done|]. intros [?|(_ & m & ? & _)]; done.
    + destruct (N.eqb_spec status 200) as [->|Hne].
      * destruct m as [| |t]; (split; [try done|]); try (intros [?|(_ & m & [= <-] & ?)]; done).
        -- intros _. right. split; [done|]. by eexists.
        -- intros [= ?]. right. split; [done|]. exists (LTime t). split; [done|]. lia.
        -- intros [?|(_ & m & [= <-] & ?)]; [done|]. f_equal. lia.
      * split; [done|]. intros [?|(_ & m' & [= ? _] & _)]; done.
Qed.
Lemma l_C53_check_fails : forall st h, (exists x, is_update_required st h = Err x) <->
  st <> SAbsent /\ (h = HFail \/ exists status m, h = HResp status m /\ status <> 200%N).
Proof.
  intros st h. unfold is_update_required. destruct st as [| |mt].
  - split; [by intros [? ?]|by intros [? _]].
  - destruct h as [|status m].
    + split; [|by eexists]. intros _. split; [done|]. by left.
    + destruct (N.eqb_spec status 200) as [->|Hne].
      * split; [by destruct m; intros [? ?]|]. intros [_ [?|(? & ? & [= <- <-] & ?)]]; done.
      * split; [|by eexists]. intros _. split; [done|]. right. by exists status, m.
  - destruct h as [|status m].
    + split; [|by eexists]. intros _. split; [done|]. by left.
    + destruct (N.eqb_spec status 200) as [->|Hne].
      * split; [by destruct m; intros [? ?]|]. intros [_ [?|(? & ? & [= <- <-] & ?)]]; done.
      * split; [|by eexists]. intros _. split; [done|]. right. by exists status, m.
Qed.
Lemma l_C53_panics_iff : forall st h, is_update_required st h = Panic <->
  st = SFail /\ exists t, h = HResp 200 (LTime t).
Proof.
  intros st h. unfold is_update_required. destruct st as [| |mt].
  - split; [done|]. by intros [? _].
  - destruct h as [|status m]; [split; [done|by intros (_ & ? & ?)]|].
    destruct (N.eqb_spec status 200) as [->|Hne].
    + destruct m as [| |t]; (split; [try done|]); try (by intros (_ & ? & ?)); try done.
      intros _. split; [done|]. by eexists.
    + split; [done|]. intros (_ & ? & [= ? _]). done.
  - split; [|by intros [? _]]. destruct h as [|status m]; [done|]. destruct (_ =? _)%N; [|done]. by destruct m.
Qed.

Lemma parse_update_calm e s : (parse_update e s).2 <> Panic.
Proof. unfold parse_update. destruct (parse_file e s) as [ix|]; [|done]. destruct (save_index e s ix) as [us r]. by destruct r. Qed.
Lemma do_compile_calm e s : u_res (do_compile e s) <> Panic.
Proof. unfold do_compile. pose proof (parse_update_calm e s). by destruct (parse_update e s). Qed.
Lemma do_unpack_calm e s : u_res (do_unpack e s) <> Panic.
Proof.
  unfold do_unpack, unpack_update. destruct (negb (e_mkdir2 e)); [done|].
  destruct (if e_open_bz e then fs_bz s else None) as [src|]; [|done]. destruct (negb _); [done|].
  destruct (e_unbz e (f_bytes src)) as [out ends]. destruct (copy _ _ _ _) as [us ok].
  destruct (ok && ends); [|done]. apply do_compile_calm.
Qed.
Lemma l_C53_only_there : forall e s force,
  let bad st h := st = SFail /\ exists t, h = HResp 200 (LTime t) in
  u_res (update e s force) = Panic <->
  bad (stat_of s FBz (e_stat1 e)) (e_head1 e) \/
  is_update_required (stat_of s FBz (e_stat1 e)) (e_head1 e) = Ok true /\ bad (stat_of s FBz (e_stat2 e)) (e_head2 e).
Proof.
  intros e s force bad. unfold bad. rewrite <-!l_C53_panics_iff. unfold update.
  destruct (is_update_required (stat_of s FBz (e_stat1 e)) (e_head1 e)) as [[]|x|].
  - unfold do_download, download_update.
    destruct (is_update_required (stat_of s FBz (e_stat2 e)) (e_head2 e)) as [[]|y|]; cbn;
      try (split; [done|intros [?|[_ ?]]; done]); try (split; [intros _; right; done|done]).
    split; [|intros [?|[_ ?]]; done]. destruct (negb (e_mkdir1 e)); [done|]. destruct (e_get e) as [[[st body] ends]|]; [|done].
    destruct (negb _); [done|]. destruct (copy _ _ _ _) as [us ok]. destruct (ok && ends); [|done].
    cbn. intros H. by apply do_unpack_calm in H.
  - split; [|intros [?|[? _]]; done]. destruct force; [|done]. intros H. by apply do_compile_calm in H.
  - split; [|intros [?|[? _]]; done]. destruct (force && file_exists s FXml _); [intros H; by apply do_compile_calm in H|].
    destruct (force && _); [intros H; by apply do_unpack_calm in H|done].
  - split; [by left|done].
Qed.

(** ** C48 *)
Lemma l_C48_table : forall e s force,
  let check := is_update_required (stat_of s FBz (e_stat1 e)) (e_head1 e) in
  check <> Panic ->
  update e s force =
  match plan check force (file_exists s FXml (e_stat_xml e)) (file_exists s FBz (e_stat_bz e)) with
  | Some p => run_stages e s p
  | None => mkU [] [] (_ ← check; Ok tt)
  end.
Proof.
  intros e s force check. unfold update. fold check.
  assert (Hc : forall s, do_compile e s = run_stages e s [StCompile]).
  { intros s0. unfold do_compile. cbn [run_stages stage_run]. destruct (parse_update e s0) as [us [[]|x|]]; cbn; try done.
    by rewrite app_nil_r. }
  assert (Hu : forall s, do_unpack e s = run_stages e s [StUnpack; StCompile]).
  { intros s0. unfold do_unpack. cbn [run_stages stage_run]. destruct (unpack_update e s0) as [us [[]|x|]]; cbn; try done.
    rewrite Hc. done. }
  destruct check as [[|]|x|]; intros Hp; cbn [plan]; [| | |done].
  - unfold do_download. cbn [run_stages stage_run]. destruct (download_update e s) as [us [[|]|x|]]; try done.
    by rewrite Hu.
  - destruct force; [apply Hc|done].
  - destruct force, (file_exists s FXml _), (file_exists s FBz _); cbn [andb]; try apply Hc; try apply Hu; done.
Qed.
(** When each stage is entered. *)
Lemma l_C48_download : forall e s force,
  let check := is_update_required (stat_of s FBz (e_stat1 e)) (e_head1 e) in
  StDownload ∈ u_stages (update e s force) <-> check = Ok true.
Proof.
  intros e s force check.
  assert (Hc : forall s, StDownload ∉ u_stages (do_compile e s)).
  { intros s0. unfold do_compile. destruct (parse_update e s0). cbn. set_solver. }
  assert (Hu : forall s, StDownload ∉ u_stages (do_unpack e s)).
  { intros s0. unfold do_unpack. destruct (unpack_update e s0) as [us [[]|x|]]; cbn; [|set_solver..].
    rewrite elem_of_cons. intros [?|?]; [done|]. by apply (Hc (after s0 us)). }
  unfold update. fold check. destruct check as [[|]|x|].
  - split; [done|]. intros _. unfold do_download. destruct (download_update e s) as [us [[|]|x|]]; cbn; left.
  - split; [|done]. destruct force; [intros H; by apply Hc in H|]. cbn. set_solver.
  - split; [|done]. destruct force, (file_exists s FXml _), (file_exists s FBz _); cbn [andb];
      intros H; first [by apply Hc in H|by apply Hu in H|cbn in H; set_solver].
  - split; [|done]. cbn. set_solver.
Qed.
Lemma l_C48_unpack : forall e s force,
  let check := is_update_required (stat_of s FBz (e_stat1 e)) (e_head1 e) in
  StUnpack ∈ u_stages (update e s force) <->
  (check = Ok true /\ (download_update e s).2 = Ok true) \/
  (force = true /\ (exists x, check = Err x) /\ file_exists s FXml (e_stat_xml e) = false /\
   file_exists s FBz (e_stat_bz e) = true).
Proof.
  intros e s force check.
  assert (Hc : forall s, StUnpack ∉ u_stages (do_compile e s)).
  { intros s0. unfold do_compile. destruct (parse_update e s0). cbn. set_solver. }
  assert (Hu : forall s, StUnpack ∈ u_stages (do_unpack e s)).
  { intros s0. unfold do_unpack. destruct (unpack_update e s0) as [us [[]|x|]]; cbn; left. }
  unfold update. fold check. destruct check as [[|]|x|].
  - unfold do_download. destruct (download_update e s) as [us [[|]|x|]]; cbn.
    + split; [by left|]. intros _. right. apply Hu.
    + split; [set_solver|]. naive_solver.
    + split; [set_solver|]. naive_solver.
    + split; [set_solver|]. naive_solver.
  - split; [|naive_solver]. destruct force; [intros H; by apply Hc in H|]. cbn. set_solver.
  - destruct force, (file_exists s FXml _), (file_exists s FBz _); cbn [andb].
    all: split; [intros H|intros H; try apply Hu; exfalso; naive_solver].
    all: first [by apply Hc in H|by right; eauto|cbn in H; set_solver].
  - split; [|naive_solver]. cbn. set_solver.
Qed.
(** the state in which the unpacking starts. *)
Lemma l_C48_compile : forall e s force,
  let check := is_update_required (stat_of s FBz (e_stat1 e)) (e_head1 e) in
  let s1 := match check with Ok true => after s (download_update e s).1 | _ => s end in
  StCompile ∈ u_stages (update e s force) <->
  (StUnpack ∈ u_stages (update e s force) /\ (unpack_update e s1).2 = Ok tt) \/
  (force = true /\ (check = Ok false \/ (exists x, check = Err x) /\ file_exists s FXml (e_stat_xml e) = true)).
Proof.
  intros e s force check s1. rewrite l_C48_unpack. fold check.
  assert (Hc : forall s, StCompile ∈ u_stages (do_compile e s)).
  { intros s0. unfold do_compile. destruct (parse_update e s0). cbn. left. }
  assert (Hu : forall s, StCompile ∈ u_stages (do_unpack e s) <-> (unpack_update e s).2 = Ok tt).
  { intros s0. unfold do_unpack. destruct (unpack_update e s0) as [us [[]|x|]]; cbn.
    - split; [done|]. intros _. right. apply Hc.
    - split; [set_solver|done].
    - split; [set_solver|done]. }
  unfold update. fold check. subst s1. cbv zeta. destruct check as [[|]|x|].
  - unfold do_download. destruct (download_update e s) as [us [[|]|x|]]; cbn.
    + rewrite elem_of_cons, Hu. naive_solver.
    + split; [set_solver|]. naive_solver.
    + split; [set_solver|]. naive_solver.
    + split; [set_solver|]. naive_solver.
  - destruct force; [|cbn; split; [set_solver|naive_solver]].
    split; [intros _|intros _; apply Hc]. right. split; [done|]. by left.
  - destruct force, (file_exists s FXml _), (file_exists s FBz _); cbn [andb].
    1,2: (split; [intros _; right; split; [done|]; right; split; [by eexists|done]|intros _; apply Hc]).
    1: (rewrite Hu; split; [intros H; left; split; [right; eauto|done]|]; naive_solver).
    all: split; [cbn; set_solver|naive_solver].
  - split; [cbn; set_solver|naive_solver].
Qed.
Lemma l_C48_nothing_to_do : forall e s, up_to_date e s -> update e s false = mkU [] [] (Ok tt).
Proof.
  intros e s (H1 & x & m & Hb & Hh & Hn). unfold update. rewrite H1, Hh. unfold stat_of. cbn [fget]. rewrite Hb.
  cbn. destruct m as [| |t]; cbn in Hn; [done|done|].
  replace (f_mtime x <? t)%Z with false by lia. done.
Qed.

(** ** Files *)
Lemma fget_fset s f v : fget (fset s f v) f = v.
Proof. by destruct f. Qed.
Lemma fset_fset s f v w : fset (fset s f v) f w = fset s f w.
Proof. by destruct f. Qed.
Lemma after_bytes f t bs : forall s b, fget s f = Some (mkFile b t) ->
  after s (map (UByte f t) bs) = fset s f (Some (mkFile (b ++ bs) t)).
Proof.
  induction bs as [|x bs IH]; intros s b Hs.
  { cbn. rewrite app_nil_r, <- Hs. by destruct s, f. }
  cbn [map]. rewrite after_cons. cbn [after1]. rewrite Hs. cbn [f_bytes].
  rewrite (IH _ (b ++ [x])) by apply fget_fset. by rewrite fset_fset, <- app_assoc.
Qed.
Lemma after_create f t bs s : after s (UCreate f t :: map (UByte f t) bs) = fset s f (Some (mkFile bs t)).
Proof.
  rewrite after_cons. cbn [after1]. rewrite (after_bytes f t bs _ []) by apply fget_fset. by rewrite fset_fset.
Qed.
Lemma copy_shape f t bs room : exists k, (copy f t bs room).1 = map (UByte f t) (take k bs) /\
  ((copy f t bs room).2 = true -> take k bs = bs).
Proof.
  unfold copy. destruct room as [r|].
  - destruct (_ <=? _)%nat eqn:E; [exists (length bs)|exists r]; cbn; rewrite ?firstn_all; done.
  - exists (length bs). cbn. by rewrite firstn_all.
Qed.

(** ** C49 *)
Definition not_dat (u : upd) : Prop :=
  match u with UMkdir => True | UCreate f _ | UByte f _ _ | URemove f => f <> FDat end.
Lemma not_dat_kept us : Forall not_dat us -> forall s, fs_dat (after s us) = fs_dat s.
Proof.
  induction 1 as [|u us Hu Hus IH]; intros s; [done|]. rewrite after_cons, IH.
  destruct u as [|f t|f t b|f]; cbn in *; [done|by destruct f| |by destruct f].
  destruct (fget s f); [|done]. by destruct f.
Qed.
Lemma bytes_not_dat f t bs : f <> FDat -> Forall not_dat (map (UByte f t) bs).
Proof. intros H. induction bs; by constructor. Qed.
Lemma download_not_dat e s : Forall not_dat (download_update e s).1.
Proof.
  unfold download_update. destruct (is_update_required _ _) as [[|]|x|]; [|constructor..].
  destruct (negb _); [constructor|]. destruct (e_get e) as [[[st body] ends]|]; [|by repeat constructor].
  destruct (negb _); [by repeat constructor|].
  destruct (copy_shape FBz (e_now e) body (e_room_bz e)) as (k & E & _).
  destruct (copy _ _ _ _) as [us ok]. cbn in *. subst us. constructor; [done|]. constructor; [done|].
  by apply bytes_not_dat.
Qed.
Lemma unpack_not_dat e s : Forall not_dat (unpack_update e s).1.
Proof.
  unfold unpack_update. destruct (negb _); [constructor|].
  destruct (if e_open_bz e then _ else _) as [src|]; [|by repeat constructor].
  destruct (negb _); [by repeat constructor|]. destruct (e_unbz e _) as [out ends].
  destruct (copy_shape FXml (e_now e) out (e_room_xml e)) as (k & E & _).
  destruct (copy _ _ _ _) as [us ok]. cbn in *. subst us. constructor; [done|]. constructor; [done|].
  by apply bytes_not_dat.
Qed.
Lemma l_C49_failed_parse : forall e s, parse_file e s = None -> parse_update e s = ([], Err EOpencorpora).
Proof. intros e s H. unfold parse_update. by rewrite H. Qed.
Lemma l_C49_what_fails : forall e s, parse_file e s = None <->
  e_open_xml e = false \/ fs_xml s = None \/
  exists x, fs_xml s = Some x /\
    let es := (e_tokens e (f_bytes x)).1 in let ends := (e_tokens e (f_bytes x)).2 in
    let o := (parse (e_conv e) (parser_new index_new 0) es).2 in
    (o = Done /\ ends = false) \/ o <> Done.
Proof.
  intros e s. unfold parse_file. destruct (e_open_xml e); [|split; [by left|done]].
  destruct (fs_xml s) as [x|]; [|split; [by right; left|done]].
  pose proof (l_C45_never_without_limit (e_conv e) index_new 0 (e_tokens e (f_bytes x)).1 (Z.le_refl _)) as Hn.
  destruct (e_tokens e (f_bytes x)) as [es ends] eqn:Et. cbn [fst snd] in *.
  destruct (parse _ _ es) as [p o] eqn:E. cbn [snd] in *. split.
  - intros H. right. right. exists x. split; [done|]. rewrite Et. cbn [fst snd]. rewrite E. cbn [snd].
    destruct o as [|x'| | |]; [left; by destruct ends|by right..].
  - intros [?|[?|(x' & [= <-] & H)]]; [done..|]. rewrite Et in H. cbn [fst snd] in H. rewrite E in H. cbn [snd] in H.
    destruct H as [[-> ->]|Ho]; [done|]. destruct o as [|[]| | |]; done.
Qed.
Lemma l_C49_only_saving_changes_it : forall e s force,
  let us := u_upds (update e s force) in
  (forall s', crash s us s' -> fs_dat s' = fs_dat s) \/
  exists pre ix, us = pre ++ (save_index e (after s pre) ix).1 /\
    (forall s', crash s pre s' -> fs_dat s' = fs_dat s) /\ parse_file e (after s pre) = Some ix.
Proof.
  intros e s force us.
  assert (Hk : forall l, Forall not_dat l -> forall s', crash s l s' -> fs_dat s' = fs_dat s).
  { intros l Hl s' (k & ->). apply not_dat_kept. by apply Forall_take. }
  enough (H : Forall not_dat us \/ exists pre ix, us = pre ++ (save_index e (after s pre) ix).1 /\
     Forall not_dat pre /\ parse_file e (after s pre) = Some ix).
  { destruct H as [H|(pre & ix & H1 & H2 & H3)]; [left; by apply Hk|]. right. exists pre, ix.
    split; [done|]. split; [by apply Hk|done]. }
  clear Hk. subst us.
  assert (Hc : forall pre, Forall not_dat pre ->
     Forall not_dat (pre ++ u_upds (do_compile e (after s pre))) \/
     exists pre0 ix, pre ++ u_upds (do_compile e (after s pre)) = pre0 ++ (save_index e (after s pre0) ix).1 /\
       Forall not_dat pre0 /\ parse_file e (after s pre0) = Some ix).
  { intros pre Hp. unfold do_compile, parse_update. destruct (parse_file e (after s pre)) as [ix|] eqn:E.
    - right. exists pre, ix. split; [|done]. destruct (save_index e (after s pre) ix) as [us [|?|]]; done.
    - left. cbn. by rewrite app_nil_r. }
  assert (Hu : forall pre, Forall not_dat pre ->
     Forall not_dat (pre ++ u_upds (do_unpack e (after s pre))) \/
     exists pre0 ix, pre ++ u_upds (do_unpack e (after s pre)) = pre0 ++ (save_index e (after s pre0) ix).1 /\
       Forall not_dat pre0 /\ parse_file e (after s pre0) = Some ix).
  { intros pre Hp. unfold do_unpack. pose proof (unpack_not_dat e (after s pre)) as Hd.
    destruct (unpack_update e (after s pre)) as [us [u|x|]]; cbn [u_upds fst] in *.
    - rewrite <- after_app, app_assoc. apply Hc. by apply Forall_app.
    - left. by apply Forall_app.
    - left. by apply Forall_app. }
  unfold update. destruct (is_update_required _ _) as [[|]|x|].
  - unfold do_download. pose proof (download_not_dat e s) as Hd.
    destruct (download_update e s) as [us [[|]|x|]]; cbn [u_upds fst] in *; [by apply Hu|by left..].
  - destruct force; [apply (Hc [] (Forall_nil_2 _))|left; constructor].
  - destruct (force && _); [apply (Hc [] (Forall_nil_2 _))|].
    destruct (force && _); [apply (Hu [] (Forall_nil_2 _))|left; constructor].
  - left. constructor.
Qed.

(** ** C50, C51 *)
Lemma all_storable_snoc h : all_storable h -> all_storable (h ++ [OOptimize]).
Proof.
  intros H n p (h1 & h2 & E & Hn). apply (H n p).
  apply snoc_split in E as [(_ & ? & _)|(h3 & -> & ->)]; [done|]. by exists h1, h3.
Qed.
Lemma runs_optimize h ix ix1 : runs h ix -> runs (h ++ [OOptimize]) ix1 -> optimize ix = Ok ix1.
Proof.
  intros H H1. destruct (runs_snoc_inv _ _ _ H1) as (ix0 & r & H0 & _ & Hs & _).
  apply (runs_det _ _ _ H) in H0 as <-. cbn [step] in Hs.
  destruct (l_C21_optimize_invisible h ix H) as (ix' & E & _). rewrite E in *. congruence.
Qed.
Section save.
  Context (h : list op) (ix ix1 : Index.index) (H : runs h ix) (H1 : runs (h ++ [OOptimize]) ix1)
    (Hd : disk_caps ix1 = true) (Hs : all_storable h).
  Lemma save_bytes : exists bs, optimize ix = Ok ix1 /\ index_write ix1 = Ok (bs, None) /\
    (exists ix', index_read index_new bs = Ok (ix', [])) /\
    forall e s, save_index e s ix =
      if negb (e_create_dat e && dir_ok e s) then ([], Err EOpencorpora) else
      let kept := match e_flush e with Some k => take k bs | None => bs end in
      let '(us, ok) := copy FDat (e_now e) kept (e_room_dat e) in
      if ok then (UCreate FDat (e_now e) :: us, Ok tt)
      else (UCreate FDat (e_now e) :: us ++ (if e_remove e then [URemove FDat] else []), Err EOpencorpora).
  Proof using H H1 Hd Hs.
    pose proof (runs_optimize h ix ix1 H H1) as Eo.
    destruct (l_C23_save_load_same_answers _ ix1 H1 Hd (all_storable_snoc h Hs)) as (bs & ix' & Hw & Hr & _).
    exists bs. split; [done|]. split; [done|]. split; [by eexists|]. intros e s. unfold save_index.
    destruct (negb _); [done|]. rewrite Eo, Hw. destruct (copy _ _ _ _) as [us ok]. by rewrite andb_true_r.
  Qed.
End save.
Lemma l_C50_success : forall h ix ix1 e s us,
  runs h ix -> runs (h ++ [OOptimize]) ix1 -> disk_caps ix1 = true -> all_storable h ->
  save_index e s ix = (us, Ok tt) -> e_flush e = None ->
  exists ix', load_index (after s us) = Ok ix' /\
    nodes_count ix' = nodes_count ix /\ words_count ix' = words_count ix /\
    (forall w, head w <> Some 0%Z -> (fetch_runes ix' w).2 = (fetch_runes ix w).2) /\
    (forall id, node_word ix' id = node_word ix id) /\
    (forall id, node_tag_sets ix' id = (x ← node_tag_sets ix id; Ok (map (map tag_norm) x))).
Proof.
  intros h ix ix1 e s us H H1 Hd Hs E Hf.
  destruct (l_C23_save_load_same_answers _ ix1 H1 Hd (all_storable_snoc h Hs)) as
    (bs & ix' & Hw & Hr & N1 & N2 & N3 & N4 & N5 & N6 & N7).
  destruct (l_C21_optimize_invisible h ix H) as (ix1' & Eo & O1 & O2 & O3 & O4 & O5 & O6 & O7).
  assert (ix1' = ix1) as ->.
  { pose proof (runs_optimize h ix ix1 H H1). congruence. }
  exists ix'. unfold save_index in E. destruct (negb _); [done|]. rewrite Eo, Hw, Hf in E.
  destruct (copy_shape FDat (e_now e) bs (e_room_dat e)) as (k & Ek & Ek').
  destruct (copy _ _ _ _) as [us0 ok]. cbn [fst snd] in *. destruct ok; [|done]. cbn [andb] in E. injection E as <-.
  specialize (Ek' eq_refl). rewrite Ek' in Ek. subst us0. rewrite after_create. unfold load_index. cbn [fs_dat fset f_bytes].
  rewrite Hr. split; [done|]. split; [congruence|]. split; [congruence|]. split; [|split].
  - intros w Hw0. rewrite N3 by done. apply O3.
  - intros id. by rewrite N5.
  - intros id. by rewrite N6, O6.
Qed.
Lemma l_C50_failure : forall e s ix us x, save_index e s ix = (us, Err x) ->
  (us = [] /\ e_create_dat e && dir_ok e s = false) \/
  (e_remove e = true -> fs_dat (after s us) = None).
Proof.
  intros e s ix us x. unfold save_index. destruct (e_create_dat e && dir_ok e s) eqn:Ec; cbn [negb].
  2: { intros [= <- <-]. by left. }
  destruct (optimize ix) as [ix1|?|]; [|done..]. destruct (index_write ix1) as [[bs werr]|?|]; [|done..].
  destruct (copy _ _ _ _) as [us0 ok]. destruct (ok && _); [done|]. intros [= <- <-]. right. intros ->.
  rewrite after_cons, after_app. done.
Qed.
Lemma l_C50_completes : forall h ix ix1 e s,
  runs h ix -> runs (h ++ [OOptimize]) ix1 -> disk_caps ix1 = true -> all_storable h ->
  e_create_dat e = true -> dir_ok e s = true -> e_room_dat e = None ->
  (save_index e s ix).2 = Ok tt.
Proof.
  intros h ix ix1 e s H H1 Hd Hs Hc Hdir Hr.
  destruct (save_bytes h ix ix1 H H1 Hd Hs) as (bs & _ & _ & _ & E). rewrite E, Hc, Hdir, Hr. done.
Qed.
Lemma l_C50_no_panic : forall h ix ix1 e s, runs h ix -> runs (h ++ [OOptimize]) ix1 ->
  (save_index e s ix).2 <> Panic.
Proof.
  intros h ix ix1 e s H H1. unfold save_index. destruct (negb _); [done|].
  rewrite (runs_optimize h ix ix1 H H1). destruct (runs_R _ ix1 H1) as (ld & Hld & T & A).
  assert (exists w, index_write ix1 = Ok w) as [[bs werr] ->].
  { pose proof (t_room _ _ _ _ T). unfold index_write, items_write.
    destruct (N.ltb_spec (lenN (its_list (ix_items ix1))) (its_next (ix_items ix1))); [lia|]. by eexists. }
  destruct (copy _ _ _ _) as [us ok]. by destruct (ok && _).
Qed.
Lemma prefix_take {A} k (l : list A) : take k l `prefix_of` l.
Proof. exists (drop k l). by rewrite take_drop. Qed.
Lemma empty_rejected : load_index (mkFs None None (Some (mkFile [] 0)) true true) = Err EOpencorpora.
Proof. vm_compute. reflexivity. Qed.
Lemma l_C51_what_a_crash_leaves : forall h ix ix1 e s us r s',
  runs h ix -> runs (h ++ [OOptimize]) ix1 -> disk_caps ix1 = true -> all_storable h ->
  save_index e s ix = (us, r) -> crash s us s' ->
  fs_dat s' = fs_dat s \/ load_index s' = Err EOpencorpora \/
  exists bs ix', index_write ix1 = Ok (bs, None) /\ fs_dat s' = Some (mkFile bs (e_now e)) /\
    load_index s' = Ok ix' /\ index_read index_new bs = Ok (ix', []).
Proof.
  intros h ix ix1 e s us r s' H H1 Hd Hs E (k & ->).
  destruct (save_bytes h ix ix1 H H1 Hd Hs) as (bs & _ & Hw & (ix' & Hr) & Es). rewrite Es in E. clear Es.
  destruct (negb _); [injection E as <- <-; left; by rewrite take_nil|].
  set (kept := match e_flush e with Some k => take k bs | None => bs end) in *.
  assert (Hkept : kept `prefix_of` bs).
  { unfold kept. destruct (e_flush e); [apply prefix_take|done]. }
  clearbody kept. cbv zeta in E.
  destruct (copy_shape FDat (e_now e) kept (e_room_dat e)) as (j & Ej & _).
  destruct (copy FDat (e_now e) kept (e_room_dat e)) as [us0 ok]. cbn [fst snd] in *. subst us0.
  assert (Hpre : forall n, let s' := after s (UCreate FDat (e_now e) :: map (UByte FDat (e_now e)) (take n (take j kept))) in
     load_index s' = Err EOpencorpora \/
     exists bs ix', index_write ix1 = Ok (bs, None) /\ fs_dat s' = Some (mkFile bs (e_now e)) /\
       load_index s' = Ok ix' /\ index_read index_new bs = Ok (ix', [])).
  { intros n. cbv zeta. rewrite after_create. unfold load_index. cbn [fs_dat fset f_bytes].
    set (p := take n (take j kept)). assert (Hp : p `prefix_of` bs).
    { etrans; [apply prefix_take|]. etrans; [apply prefix_take|done]. }
    destruct (decide (p = bs)) as [->|Hne].
    - right. exists bs, ix'. rewrite Hr. done.
    - left. destruct (l_C25_any_accepted_file index_new ix' bs Hr p Hp Hne) as [x ->]. done. }
  assert (Htake : forall n (l : list N), take n (map (UByte FDat (e_now e)) l) = map (UByte FDat (e_now e)) (take n l)).
  { intros n l. apply firstn_map. }
  destruct k as [|k]; [by left|]. right.
  destruct ok; injection E as <- <-; cbn [take].
  - rewrite Htake. apply Hpre.
  - rewrite firstn_app. destruct (decide (k <= length (map (UByte FDat (e_now e)) (take j kept)))%nat) as [Hk|Hk].
    + replace (k - length (map (UByte FDat (e_now e)) (take j kept)))%nat with 0%nat by lia.
      cbn [take]. rewrite app_nil_r, Htake. apply Hpre.
    + rewrite (take_ge (map _ _)) by lia. destruct (e_remove e).
      * replace (k - length (map (UByte FDat (e_now e)) (take j kept)))%nat
          with (S (k - length (map (UByte FDat (e_now e)) (take j kept)) - 1)) by lia. cbn [take].
        rewrite take_nil. left. rewrite app_comm_cons, after_app. done.
      * rewrite take_nil, app_nil_r. rewrite <- (firstn_all (take j kept)). apply Hpre.
Qed.
Lemma l_C51_crash_safe_refuted : forall e s ix, e_create_dat e = true -> dir_ok e s = true ->
  exists s', crash s (save_index e s ix).1 s' /\ load_index s' = Err EOpencorpora.
Proof.
  intros e s ix Hc Hd. exists (after s [UCreate FDat (e_now e)]). split.
  - exists 1%nat. unfold save_index. rewrite Hc, Hd. cbn [andb negb].
    destruct (optimize ix) as [ix1|?|]; [|done..]. destruct (index_write ix1) as [[bs werr]|?|]; [|done..].
    destruct (copy _ _ _ _) as [us ok]. by destruct (ok && _).
  - reflexivity.
Qed.

(** ** C52 *)
Lemma up_to_date_check e s : up_to_date e s -> is_update_required (stat_of s FBz (e_stat1 e)) (e_head1 e) = Ok false.
Proof.
  intros (H1 & x & m & Hb & Hh & Hn). rewrite H1, Hh. unfold stat_of. cbn [fget]. rewrite Hb.
  cbn. destruct m as [| |t]; cbn in Hn; [done|done|]. f_equal. lia.
Qed.
Lemma l_C52_stuck : forall e s, stuck e s ->
  update e s false = mkU [] [] (Ok tt) /\ update e s true = mkU [StCompile] [] (Err EOpencorpora).
Proof.
  intros e s [Hu Hp]. unfold update. rewrite (up_to_date_check e s Hu). split; [done|].
  unfold do_compile. by rewrite (l_C49_failed_parse e s Hp).
Qed.
Lemma l_C52_stuck_forever_refuted : forall calls s, Forall (fun c : env * bool => stuck c.1 s) calls ->
  fold_left (fun s c => after s (u_upds (update c.1 s c.2))) calls s = s.
Proof.
  induction calls as [|[e f] calls IH]; intros s Hc; [done|]. apply Forall_cons in Hc as [H1 H2]. cbn [fold_left fst snd] in *.
  destruct (l_C52_stuck e s H1) as [E1 E2]. destruct f; rewrite ?E1, ?E2; by apply IH.
Qed.
Lemma l_C52_crash_in_download_refuted : forall e s body k, all_works e -> dir_ok e (after1 s UMkdir) = true ->
  fs_bz s = None -> fs_xml s = None -> e_get e = Some (200%N, body, true) ->
  (2 <= k <= 2 + length body)%nat ->
  let s' := after s (take k (u_upds (update e s false))) in
  fs_dat s' = fs_dat s /\ fs_bz s' = Some (mkFile (take (k - 2) body) (e_now e)) /\
  forall e' m, e_stat1 e' = false -> e_head1 e' = HResp 200 m -> ~ newer (SFile (e_now e)) m -> stuck e' s'.
Proof.
  intros e s body k W Hdir Hb Hx Hg Hk s'.
  assert (E : s' = fset (after1 s UMkdir) FBz (Some (mkFile (take (k - 2) body) (e_now e)))).
  { unfold s', update. rewrite (w_stat1 e W). unfold stat_of. cbn [fget]. rewrite Hb. cbn [is_update_required].
    unfold do_download, download_update. rewrite (w_stat2 e W). unfold stat_of. cbn [fget]. rewrite Hb. cbn [is_update_required].
    rewrite (w_mkdir1 e W), Hg, (w_create_bz e W), Hdir, (w_room_bz e W). cbn [negb andb copy u_upds].
    destruct k as [|[|k]]; [lia..|]. cbn [app take]. rewrite firstn_app.
    rewrite map_length. replace (k - length body)%nat with 0%nat by lia. cbn [take]. rewrite app_nil_r.
    rewrite (firstn_map (UByte FBz (e_now e))), after_cons, after_create. do 4 f_equal. lia. }
  rewrite E. cbn. split; [done|]. split; [done|]. intros e' m H1 H2 H3. split.
  - split; [done|]. eexists _, m. split; [done|]. split; [done|]. done.
  - unfold parse_file. cbn. rewrite Hx. by destruct (e_open_xml e').
Qed.
Lemma l_C52_force_recompiles : forall e s, up_to_date e s ->
  update e s true = (let '(us, r) := parse_update e s in mkU [StCompile] us r).
Proof. intros e s Hu. unfold update. by rewrite (up_to_date_check e s Hu). Qed.
Lemma l_C52_works_without_archive : forall e s body out tokens p ix1 bs force,
  all_works e -> dir_ok e (after1 s UMkdir) = true -> fs_bz s = None ->
  e_get e = Some (200%N, body, true) -> e_unbz e body = (out, true) -> e_tokens e out = (tokens, true) ->
  parse (e_conv e) (parser_new index_new 0) tokens = (p, Done) ->
  optimize (p_ix p) = Ok ix1 -> index_write ix1 = Ok (bs, None) ->
  u_stages (update e s force) = [StDownload; StUnpack; StCompile] /\ u_res (update e s force) = Ok tt /\
  let s' := after s (u_upds (update e s force)) in
  fs_bz s' = Some (mkFile body (e_now e)) /\ fs_xml s' = Some (mkFile out (e_now e)) /\
  fs_dat s' = Some (mkFile bs (e_now e)).
Proof.
  intros e s body out tokens p ix1 bs force W Hdir Hb Hg Hz Ht Hp Ho Hw.
  assert (Hdir' : forall v w, dir_ok e (fset (after1 (fset (after1 s UMkdir) FBz v) UMkdir) FXml w) = true).
  { intros v w. unfold dir_ok in *. by destruct (e_custom e). }
  assert (Hdir2 : forall v, dir_ok e (after1 (fset (after1 s UMkdir) FBz v) UMkdir) = true).
  { intros v. unfold dir_ok in *. by destruct (e_custom e). }
  unfold update. rewrite (w_stat1 e W). unfold stat_of. cbn [fget]. rewrite Hb. cbn [is_update_required].
  unfold do_download, download_update. rewrite (w_stat2 e W). unfold stat_of. cbn [fget]. rewrite Hb. cbn [is_update_required].
  rewrite (w_mkdir1 e W), Hg, (w_create_bz e W), Hdir, (w_room_bz e W). cbn [negb andb copy].
  rewrite after_cons, after_create. unfold do_unpack, unpack_update.
  rewrite (w_mkdir2 e W), (w_open_bz e W), (w_create_xml e W), (w_room_xml e W), Hdir2. cbn [negb andb fs_bz fset f_bytes].
  rewrite Hz. cbn [copy andb]. rewrite after_cons, after_create. unfold do_compile, parse_update, parse_file.
  rewrite (w_open_xml e W). cbn [fs_xml fset f_bytes]. rewrite Ht, Hp.
  unfold save_index.
  match goal with |- context [dir_ok e ?x] => replace (dir_ok e x) with true
    by (symmetry; apply (Hdir' (Some (mkFile body (e_now e))) (Some (mkFile out (e_now e))))) end.
  rewrite (w_create_dat e W), Ho, Hw, (w_flush e W), (w_room_dat e W). cbn [negb andb copy u_stages u_upds u_res].
  split; [done|]. split; [done|]. cbv zeta. rewrite !after_app, (after_create FDat), (after_cons _ UMkdir), (after_create FXml), (after_cons _ UMkdir), (after_create FBz).
  done.
Qed.

(** ** C55 *)
Definition with_status (e : env) (st : N) : env :=
  mkEnv (e_custom e) (e_now e) (e_stat1 e) (e_head1 e) (e_stat_bz e) (e_stat_xml e) (e_stat2 e) (e_head2 e)
    (e_mkdir1 e) (e_mkdir2 e) (match e_get e with Some (_, body, ends) => Some (st, body, ends) | None => None end)
    (e_create_bz e) (e_room_bz e) (e_open_bz e) (e_unbz e) (e_create_xml e) (e_room_xml e) (e_open_xml e)
    (e_tokens e) (e_conv e) (e_create_dat e) (e_room_dat e) (e_flush e) (e_remove e).
Lemma l_C55_status_ignored_refuted : forall e s force st, update (with_status e st) s force = update e s force.
Proof.
  intros e s force st.
  assert (Hd : forall s, download_update (with_status e st) s = download_update e s).
  { intros s0. unfold download_update. cbn. destruct (is_update_required _ _) as [[|]|x|]; [|done..].
    destruct (negb _); [done|]. by destruct (e_get e) as [[[st0 body] ends]|]. }
  unfold update, do_download. rewrite Hd. done.
Qed.

(** ** C56 *)
Lemma l_C56_custom_directory_refuted : forall e s force, all_works e -> e_custom e = true -> fs_cdir s = false -> fs_bz s = None ->
  update e s force = mkU [StDownload] [UMkdir] (Err EIO).
Proof.
  intros e s force W Hc Hd Hb. unfold update. rewrite (w_stat1 e W). unfold stat_of. cbn [fget]. rewrite Hb. cbn [is_update_required].
  unfold do_download, download_update. rewrite (w_stat2 e W). unfold stat_of. cbn [fget]. rewrite Hb. cbn [is_update_required].
  destruct (w_get e W) as [body Hg]. rewrite (w_mkdir1 e W), Hg. unfold dir_ok. rewrite Hc. cbn. rewrite Hd, andb_false_r. done.
Qed.

(** ** A failed download *)
Lemma l_C52_failed_download_refuted : forall e s body room, fs_bz s = None ->
  e_stat1 e = false -> e_stat2 e = false -> e_mkdir1 e = true -> e_create_bz e = true ->
  dir_ok e (after1 s UMkdir) = true -> e_get e = Some (200%N, body, false) -> e_room_bz e = room ->
  let u := update e s false in let s' := after s (u_upds u) in
  u_res u = Err EIO /\ fs_xml s' = fs_xml s /\ fs_dat s' = fs_dat s /\
  forall e' m, e_stat1 e' = false -> e_head1 e' = HResp 200 m -> ~ newer (SFile (e_now e)) m ->
    update e' s' false = mkU [] [] (Ok tt).
Proof.
  intros e s body room Hb H1 H2 Hm Hc Hd Hg Hr u s'.
  destruct (copy_shape FBz (e_now e) body (e_room_bz e)) as (k & Ek & _).
  assert (E : u = mkU [StDownload] (UMkdir :: UCreate FBz (e_now e) :: map (UByte FBz (e_now e)) (take k body)) (Err EIO)).
  { unfold u, update. rewrite H1. unfold stat_of. cbn [fget]. rewrite Hb. cbn [is_update_required].
    unfold do_download, download_update. rewrite H2. unfold stat_of. cbn [fget]. rewrite Hb. cbn [is_update_required].
    rewrite Hm, Hg, Hc, Hd. cbn [negb andb]. rewrite <- Ek. destruct (copy _ _ _ _) as [us ok]. by rewrite andb_false_r. }
  unfold s'. rewrite E. cbn [u_upds u_res]. rewrite after_cons, after_create. cbn. split; [done|]. split; [done|]. split; [done|].
  intros e' m E1 E2 Hn. unfold update. rewrite up_to_date_check; [done|]. split; [done|].
  eexists _, m. split; [reflexivity|]. done.
Qed.

(** ** C57 *)
Lemma l_C57_end_to_end : forall e s doc body out ix1 force,
  all_works e -> dir_ok e (after1 s UMkdir) = true -> fs_bz s = None ->
  e_get e = Some (200%N, body, true) -> e_unbz e body = (out, true) ->
  e_tokens e out = (flat_map events doc, true) ->
  forallb (valid (e_conv e) []) doc = true -> good_acts [] (doc_acts doc) ->
  runs (acts_ops (doc_acts doc) ++ [OOptimize]) ix1 -> disk_caps ix1 = true ->
  all_storable (acts_ops (doc_acts doc)) ->
  u_res (update e s force) = Ok tt /\
  exists ix, load_index (after s (u_upds (update e s force))) = Ok ix /\
    (forall w, head w <> Some 0%Z -> (exists id, (fetch_runes ix w).2 = Ok id) <->
       w <> [] /\ exists t g, (t, g) ∈ forms (doc_acts doc) /\ w `prefix_of` runes_of_string t) /\
    (forall w id, head w <> Some 0%Z -> (fetch_runes ix w).2 = Ok id ->
       node_word ix id = Ok (string_of_runes w) /\
       exists sets, node_tag_sets ix id = Ok sets /\
         (forall t g, (t, g) ∈ forms (doc_acts doc) -> runes_of_string t = w ->
            exists x, x ∈ sets /\ map tag_name x ≡ₚ map name_norm g) /\
         (forall x, x ∈ sets -> exists t g, (t, g) ∈ forms (doc_acts doc) /\ runes_of_string t = w /\
            map tag_name x ≡ₚ map name_norm g)) /\
    (forall w, head w <> Some 0%Z -> (fetch_runes ix w).2 <> Panic).
Proof.
  intros e s doc body out ix1 force W Hdir Hb Hg Hz Ht Hv Hgood H1 Hd Hst.
  destruct (runs_app_inv _ _ _ H1) as [ix' H].
  destruct (l_C43_what_is_found (e_conv e) 0 doc ix' (Z.le_refl _) Hv H Hgood) as (p & Ep & Hfound & Hword).
  destruct (acts_history (doc_acts doc) index_new [] index_new ix') as (a2 & Ea & Sa); [done|constructor|done..|].
  pose proof (l_C43_same_as_calls _ _ _ doc p Done (Z.le_refl _) Hv Ep) as Ec. rewrite Ec in Ea. injection Ea as <-.
  pose proof (runs_optimize _ _ _ H H1) as Eo.
  pose proof (optimize_cong _ _ Sa) as So. rewrite Eo in So. destruct (optimize (p_ix p)) as [a1|?|] eqn:Eoa; [|done..].
  pose proof (index_write_cong _ _ So) as Sw.
  destruct (l_C23_save_load_same_answers _ ix1 H1 Hd (all_storable_snoc _ Hst)) as
    (bs & ix & Hw & Hr & _ & _ & N3 & _ & N5 & N6 & _).
  destruct (l_C21_optimize_invisible _ ix' H) as (ix1' & Eo' & _ & _ & O3 & _ & O5 & O6 & _).
  rewrite Eo in Eo'. injection Eo' as <-. rewrite Hw in Sw.
  destruct (l_C52_works_without_archive e s body out (flat_map events doc) p a1 bs force W Hdir Hb Hg Hz Ht Ep Eoa Sw)
    as (_ & Hres & _ & _ & Hdat).
  split; [done|]. exists ix. split; [unfold load_index; rewrite Hdat; cbn [f_bytes]; by rewrite Hr|].
  assert (F : forall w, head w <> Some 0%Z -> (fetch_runes ix w).2 = (fetch_runes (p_ix p) w).2).
  { intros w Hw0. rewrite N3, O3 by done. symmetry. apply fetch_cong, Sa. }
  split; [|split].
  - intros w Hw0. rewrite F by done. apply Hfound.
  - intros w id Hw0. rewrite F by done. intros Hid. destruct (Hword w id Hid) as (Hn & sets & Hs & Hs1 & Hs2).
    split; [by rewrite N5, O5, <- (node_word_cong _ _ _ Sa)|].
    exists (map (map tag_norm) sets). split.
    { rewrite N6, O6. pose proof (q_tags _ _ (proj2 (same_core_indist _ _ Sa [])) id) as Q. unfold outs in Q. cbn [fold_left fst] in Q. rewrite <- Q, Hs. done. }
    assert (Hm : forall x, map tag_name (map tag_norm x) = map name_norm (map tag_name x)).
    { intros x. rewrite !map_map. done. }
    split.
    + intros t g Hin Hrw. destruct (Hs1 t g Hin Hrw) as (x & Hx & Hp). exists (map tag_norm x). split.
      * apply elem_of_list_fmap. by exists x.
      * rewrite Hm. by apply Permutation_map.
    + intros x Hx. apply elem_of_list_fmap in Hx as (y & -> & Hy). destruct (Hs2 y Hy) as (t & g & Hin & Hrw & Hp).
      exists t, g. split; [done|]. split; [done|]. rewrite Hm. by apply Permutation_map.
  - intros w Hw0. rewrite F by done. intros Hp. rewrite (proj2 (fetch_cong _ _ w Sa)), (runs_fetch _ _ w H) in Hp by (by intros _).
    destruct w as [|r w]; [done|]. unfold d_find in Hp. by destruct (pos_from _ _ _).
Qed.
