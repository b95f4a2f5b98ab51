(** Several updaters on one directory: C91.  The model is in Together.v, the specification in
    TogetherSpec.v; the proofs are in ThmTogether.v. *)
From Verif Require Import Base Storage Utf8 Tags TagSets Variants Items Index DocSpec Parser Calls Spec Hist
  BaseFacts Loader LoaderSpec PropsParser PropsLoader Together TogetherSpec ThmTogether.
From stdpp Require Import list.

(** The environment of PropsLoader.v with another clock. *)
Definition later (t : Z) : env :=
  mkEnv false t false (HResp 200 (LTime 50%Z)) false false false (HResp 200 (LTime 50%Z)) true true (e_get ok_env) true None true
    (e_unbz ok_env) true None true (e_tokens ok_env) (e_conv ok_env) true None None true.
Definition beginning (t : Z) : updater := mkUpdater (later t) false AtCheck.

(** C91.  One process doing the steps of Update one after the other is Update.  When several
    processes begin with an empty directory and meet the same server, whatever the order of their
    stages, none fails, each is done after four steps, and when all are done the three files are
    the right ones.  But before that a success means nothing: an updater that looks after
    another's download and before its compilation is told that all is up to date, and ends with
    success when there is no index.  A forced one fails then. *)
Theorem C91_alone_is_Update : forall e force s,
  together [0; 0; 0; 0] (s, [mkUpdater e force AtCheck]) =
  (after s (u_upds (update e s force)), [mkUpdater e force (AtEnd (u_res (update e s force)))]).
Proof. exact l_C91_alone_is_Update. Qed.
Print Assumptions C91_alone_is_Update.
Theorem C91_no_updater_fails : forall body out bs s us order u r, fs_bz s = None -> Forall (same_world body out bs) us ->
  u ∈ (together order (s, us)).2 -> q_at u = AtEnd r -> r = Ok tt.
Proof. exact l_C91_no_updater_fails. Qed.
Print Assumptions C91_no_updater_fails.
Theorem C91_when_all_have_ended : forall body out bs s us order, fs_bz s = None -> Forall (same_world body out bs) us -> us <> [] ->
  Forall ended (together order (s, us)).2 ->
  let s' := (together order (s, us)).1 in
  content (fs_bz s') = Some body /\ content (fs_xml s') = Some out /\ content (fs_dat s') = Some bs.
Proof. exact l_C91_when_all_have_ended. Qed.
Print Assumptions C91_when_all_have_ended.
Theorem C91_four_steps_each : forall s us order, (forall i, i < length us -> 4 <= times i order) -> Forall ended (together order (s, us)).2.
Proof. exact l_C91_four_steps_each. Qed.
Print Assumptions C91_four_steps_each.
Theorem C91_success_means_index_refuted : forall body out bs e e' s m,
  same_world body out bs (mkUpdater e false AtCheck) -> same_world body out bs (mkUpdater e' false AtCheck) -> fs_bz s = None ->
  e_head1 e' = HResp 200 m -> ~ newer (SFile (e_now e)) m ->
  let x := together [0; 0; 1] (s, [mkUpdater e false AtCheck; mkUpdater e' false AtCheck]) in
  x.2 = [mkUpdater e false AtUnpack; mkUpdater e' false (AtEnd (Ok tt))] /\ fs_dat x.1 = fs_dat s /\ fs_xml x.1 = fs_xml s.
Proof. exact l_C91_success_means_index_refuted. Qed.
Print Assumptions C91_success_means_index_refuted.
Theorem C91_force_works_refuted : forall body out bs e e' s m,
  same_world body out bs (mkUpdater e false AtCheck) -> same_world body out bs (mkUpdater e' false AtCheck) -> fs_bz s = None -> fs_xml s = None ->
  e_head1 e' = HResp 200 m -> ~ newer (SFile (e_now e)) m ->
  let x := together [0; 0; 1; 1] (s, [mkUpdater e false AtCheck; mkUpdater e' true AtCheck]) in
  x.2 = [mkUpdater e false AtUnpack; mkUpdater e' true (AtEnd (Err EOpencorpora))] /\ fs_dat x.1 = fs_dat s.
Proof. exact l_C91_force_works_refuted. Qed.
Print Assumptions C91_force_works_refuted.
(** The hypotheses hold for the environment of PropsLoader.v. *)
Definition w_body : list N := match e_get ok_env with Some (_, body, _) => body | None => [] end.
Definition w_out : list N := (e_unbz ok_env w_body).1.
Definition w_parser : parser := (parse (e_conv ok_env) (parser_new index_new 0) (e_tokens ok_env w_out).1).1.
Definition w_index : index := match optimize (p_ix w_parser) with Ok ix => ix | _ => index_new end.
Definition w_bytes : list N := match index_write w_index with Ok (bs, _) => bs | _ => [] end.
Example C91_world_case : forall t, same_world w_body w_out w_bytes (beginning t).
Proof.
  intros t. constructor.
  - constructor; try done. exists w_body. vm_compute. reflexivity.
  - done.
  - vm_compute. reflexivity.
  - by eexists.
  - by eexists.
  - vm_compute. reflexivity.
  - exists (e_tokens ok_env w_out).1, w_parser, w_index. split; [vm_compute; reflexivity|]. split.
    + assert (O : match (parse (e_conv ok_env) (parser_new index_new 0) (e_tokens ok_env w_out).1).2 with Done => true | _ => false end = true) by (vm_compute; reflexivity).
      change (e_conv (q_env (beginning t))) with (e_conv ok_env). unfold w_parser. destruct (parse _ _ _) as [p []]; done.
    + split.
      * assert (O : match optimize (p_ix w_parser) with Ok _ => true | _ => false end = true) by (vm_compute; reflexivity). unfold w_index. destruct (optimize _); done.
      * assert (O : match index_write w_index with Ok (_, None) => true | _ => false end = true) by (vm_compute; reflexivity). unfold w_bytes. destruct (index_write _) as [[bs [x|]]| |]; done.
  - done.
  - done.
Qed.
Print Assumptions C91_world_case.
(** Three updaters.  The third ends when there is nothing yet; at the end the index is there. *)
Example C91_case :
  let x := together [0; 1; 0; 2; 1; 0; 0] (PropsLoader.fresh, map beginning [100; 101; 102]%Z) in
  map q_at x.2 = [AtEnd (Ok tt); AtEnd (Ok tt); AtEnd (Ok tt)] /\ loads x.1 = true /\
  let y := together [0; 1; 0; 2] (PropsLoader.fresh, map beginning [100; 101; 102]%Z) in
  map q_at y.2 = [AtUnpack; AtDownload; AtEnd (Ok tt)] /\ loads y.1 = false /\ fs_xml y.1 = None.
Proof. vm_compute. repeat (split; [reflexivity|]). reflexivity. Qed.
Print Assumptions C91_case.
(** An old clock: both download, one after the other. *)
Example C91_twice_case :
  let x := together [0; 0; 1; 1; 1; 0; 0; 1] (PropsLoader.fresh, map beginning [10; 20]%Z) in
  map q_at x.2 = [AtEnd (Ok tt); AtEnd (Ok tt)] /\ loads x.1 = true /\
  map (fun f => option_map f_mtime (fget x.1 f)) [FBz; FXml; FDat] = [Some 20; Some 10; Some 20]%Z.
Proof. vm_compute. repeat (split; [reflexivity|]). reflexivity. Qed.
Print Assumptions C91_twice_case.
