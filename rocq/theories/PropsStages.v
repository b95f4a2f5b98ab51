(** The stages of Update as rules: C76.  The proofs are in ThmStages.v; StageSpec.v is the
    specification. *)
From Verif Require Import Base Bin Index DocSpec Parser Loader LoaderSpec StageSpec ThmStages PropsLoader.
From stdpp Require Import list.
Open Scope N_scope.

(** C76.  The files after a stage and its result are exactly those of the rules of StageSpec.v, for
    every failure outside; so are those of a whole call.  If a call succeeds, either nothing was to
    be done, or the compiled file is that of the unpacked one, and this is the one unpacked from the
    archive just fetched unless the call was forced without need.  A file is only touched in its own
    stage. *)
Theorem C76_download : forall e s s' r, downloads e s s' r <-> outcome s (download_update e s) = (s', r).
Proof. exact l_C76_download. Qed.
Print Assumptions C76_download.
Theorem C76_unpack : forall e s s' r, unpacks e s s' r <-> outcome s (unpack_update e s) = (s', r).
Proof. exact l_C76_unpack. Qed.
Print Assumptions C76_unpack.
Theorem C76_compile : forall e s s' r, compiles e s s' r <-> outcome s (parse_update e s) = (s', r).
Proof. exact l_C76_compile. Qed.
Print Assumptions C76_compile.
Theorem C76_update : forall e s force s' r, updates e s force s' r <->
  after s (u_upds (update e s force)) = s' /\ u_res (update e s force) = r.
Proof. exact l_C76_update. Qed.
Print Assumptions C76_update.
Theorem C76_success : forall e s force, let s' := after s (u_upds (update e s force)) in
  let check := is_update_required (stat_of s FBz (e_stat1 e)) (e_head1 e) in
  let check2 := is_update_required (stat_of s FBz (e_stat2 e)) (e_head2 e) in
  u_res (update e s force) = Ok tt ->
  (s' = s /\ (check = Ok false /\ force = false \/ check = Ok true /\ check2 = Ok false)) \/
  compiled e s' /\
  ((check = Ok true /\ check2 = Ok true /\ exists status body out, e_get e = Some (status, body, true) /\ e_unbz e body = (out, true) /\
      fs_bz s' = Some (mkFile body (e_now e)) /\ fs_xml s' = Some (mkFile out (e_now e))) \/
   (force = true /\ check <> Ok true /\ fs_bz s' = fs_bz s /\
      (fs_xml s' = fs_xml s \/ exists x out, fs_bz s = Some x /\ e_unbz e (f_bytes x) = (out, true) /\ fs_xml s' = Some (mkFile out (e_now e))))).
Proof. exact l_C76_success. Qed.
Print Assumptions C76_success.
Theorem C76_untouched : forall e s force,
  let u := update e s force in let s' := after s (u_upds u) in
  (StDownload ∉ u_stages u -> fs_bz s' = fs_bz s) /\ (StUnpack ∉ u_stages u -> fs_xml s' = fs_xml s) /\
  (StCompile ∉ u_stages u -> fs_dat s' = fs_dat s).
Proof. exact l_C76_untouched. Qed.
Print Assumptions C76_untouched.
(** All goes well. *)
Example C76_case : exists s', updates ok_env PropsLoader.fresh false s' (Ok tt) /\ compiled ok_env s' /\
  match fs_bz s', fs_xml s', fs_dat s' with Some a, Some b, Some c => f_mtime c = 100%Z /\ e_unbz ok_env (f_bytes a) = (f_bytes b, true) | _, _, _ => False end.
Proof.
  exists (after PropsLoader.fresh (u_upds (update ok_env PropsLoader.fresh false))).
  assert (E : u_res (update ok_env PropsLoader.fresh false) = Ok tt) by (vm_compute; reflexivity).
  split; [apply C76_update; split; [reflexivity|exact E]|].
  destruct (C76_success ok_env PropsLoader.fresh false E) as [[Es _]|[Hc _]]; [exfalso; vm_compute in Es; discriminate|].
  split; [exact Hc|]. vm_compute. split; reflexivity.
Qed.
(** Room for 30 bytes of the compiled file: it is removed, the other two stay. *)
Definition no_room := mkEnv false 100%Z false (e_head1 ok_env) false false false (e_head2 ok_env) true true (e_get ok_env) true None true (e_unbz ok_env)
  true None true (e_tokens ok_env) (e_conv ok_env) true (Some 30%nat) None true.
Example C76_no_room_case : exists s', updates no_room PropsLoader.fresh false s' (Err EOpencorpora) /\
  fs_dat s' = None /\ fs_bz s' <> None /\ fs_xml s' <> None.
Proof.
  exists (after PropsLoader.fresh (u_upds (update no_room PropsLoader.fresh false))).
  split; [apply C76_update; split; [reflexivity|vm_compute; reflexivity]|]. vm_compute. repeat split; discriminate.
Qed.
(** The body of the answer breaks off: the part received stays under the name of the archive. *)
Definition broken := mkEnv false 100%Z false (e_head1 ok_env) false false false (e_head2 ok_env) true true (Some (200, [66; 90], false)) true None true (e_unbz ok_env)
  true None true (e_tokens ok_env) (e_conv ok_env) true None None true.
Example C76_broken_case : downloads broken PropsLoader.fresh (with_bz (made PropsLoader.fresh) (Some (mkFile [66; 90] 100%Z))) (Err EIO).
Proof. apply C76_download. vm_compute. reflexivity. Qed.
