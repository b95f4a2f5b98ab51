(** The loader: C48-C53 and C55-C57.  The proofs are in ThmLoader.v; the decision table,
    crashes and stuck states are specified in LoaderSpec.v. *)
From Verif Require Import Base Storage Utf8 Tags TagSets Variants Items Index DocSpec Parser Calls Spec Hist
  BaseFacts ThmTrie Loader LoaderSpec ThmLoader PropsParser.
From stdpp Require Import list.
Open Scope N_scope.

(** An environment for the examples.  The archive is two bytes, the unpacked file three; its
    tokens are the document of PropsParser.v; any other unpacked file is malformed. *)
Definition ex_env (custom : bool) (get : option (N * list N * bool)) (head : head_res) (flush : option nat) : env :=
  mkEnv custom 100%Z false head false false false head true true get true None true
    (fun a => if decide (a = [66; 90]) then ([60; 47; 62], true) else ([], false))
    true None true
    (fun x => if decide (x = [60; 47; 62]) then (flat_map events ex_doc, true) else ([], false))
    ex_conv true None flush true.
Definition ok_env : env := ex_env false (Some (200, [66; 90], true)) (HResp 200 (LTime 50%Z)) None.
Definition fresh : fs := mkFs None None None false false.
Definition loads (s : fs) : bool := match load_index s with Ok _ => true | _ => false end.
Definition finds (s : fs) (w : string) : res (list (list (list N))) :=
  match load_index s with
  | Ok ix => id ← (fetch_runes ix (runes_of_string (bytes_of w))).2;
             x ← node_tag_sets ix id; Ok (map (map tag_name) x)
  | Err e => Err e
  | Panic => Panic
  end.

(** C48.  Update goes through the stages of the table ([plan]) one after the other until one
    fails, and through no other.  Entering a stage is what the following three statements
    describe; with nothing to do nothing is changed. *)
Theorem C48_table : forall e s force,
  let check := is_update_required (stat_of s FBz (e_stat1 e)) (e_head1 e) in
  check <> Panic ->
  update e s force =
  match plan check force (file_exists s FXml (e_stat_xml e)) (file_exists s FBz (e_stat_bz e)) with
  | Some p => run_stages e s p
  | None => mkU [] [] (_ ← check; Ok tt)
  end.
Proof. exact l_C48_table. Qed.
Print Assumptions C48_table.
Theorem C48_download : forall e s force,
  let check := is_update_required (stat_of s FBz (e_stat1 e)) (e_head1 e) in
  StDownload ∈ u_stages (update e s force) <-> check = Ok true.
Proof. exact l_C48_download. Qed.
Print Assumptions C48_download.
Theorem C48_unpack : forall e s force,
  let check := is_update_required (stat_of s FBz (e_stat1 e)) (e_head1 e) in
  StUnpack ∈ u_stages (update e s force) <->
  (check = Ok true /\ (download_update e s).2 = Ok true) \/
  (force = true /\ (exists x, check = Err x) /\ file_exists s FXml (e_stat_xml e) = false /\
   file_exists s FBz (e_stat_bz e) = true).
Proof. exact l_C48_unpack. Qed.
Print Assumptions C48_unpack.
Theorem C48_compile : forall e s force,
  let check := is_update_required (stat_of s FBz (e_stat1 e)) (e_head1 e) in
  let s1 := match check with Ok true => after s (download_update e s).1 | _ => s end in
  StCompile ∈ u_stages (update e s force) <->
  (StUnpack ∈ u_stages (update e s force) /\ (unpack_update e s1).2 = Ok tt) \/
  (force = true /\ (check = Ok false \/ (exists x, check = Err x) /\ file_exists s FXml (e_stat_xml e) = true)).
Proof. exact l_C48_compile. Qed.
Print Assumptions C48_compile.
Theorem C48_nothing_to_do : forall e s, up_to_date e s -> update e s false = mkU [] [] (Ok tt).
Proof. exact l_C48_nothing_to_do. Qed.
Print Assumptions C48_nothing_to_do.
Example C48_case :
  let u := update ok_env fresh false in let s := after fresh (u_upds u) in
  u_stages u = [StDownload; StUnpack; StCompile] /\ u_res u = Ok tt /\
  finds s "cats" = Ok [[bytes_of "NOUN"; bytes_of "plur"]] /\
  update ok_env s false = mkU [] [] (Ok tt) /\
  u_stages (update ok_env s true) = [StCompile] /\
  u_stages (update (ex_env false None HFail None) s true) = [StCompile] /\
  u_stages (update (ex_env false None HFail None) (fset s FXml None) true) = [StUnpack; StCompile] /\
  u_stages (update (ex_env false None HFail None) s false) = [] /\
  u_res (update (ex_env false None HFail None) s false) = Err EIO /\
  u_stages (update (ex_env false (Some (200, [66; 90], true)) (HResp 200 (LTime 150%Z)) None) s false)
    = [StDownload; StUnpack; StCompile].
Proof. vm_compute. repeat (split; [reflexivity|]). reflexivity. Qed.

(** C49.  A failed parse changes no file.  It fails exactly if the unpacked file cannot be
    read, is not well-formed to its end, or is not accepted by the parser (a panic in the
    parser included).  Over a whole Update the compiled file is only ever changed by saving
    an index that a successful parse produced. *)
Theorem C49_failed_parse : forall e s, parse_file e s = None -> parse_update e s = ([], Err EOpencorpora).
Proof. exact l_C49_failed_parse. Qed.
Print Assumptions C49_failed_parse.
Theorem C49_what_fails : forall e s, parse_file e s = None <->
  e_open_xml e = false \/ fs_xml s = None \/
  exists x, fs_xml s = Some x /\
    let es := (e_tokens e (f_bytes x)).1 in let ends := (e_tokens e (f_bytes x)).2 in
    let o := (parse (e_conv e) (parser_new index_new 0) es).2 in
    (o = Done /\ ends = false) \/ o <> Done.
Proof. exact l_C49_what_fails. Qed.
Print Assumptions C49_what_fails.
Theorem C49_only_saving_changes_it : forall e s force,
  let us := u_upds (update e s force) in
  (forall s', crash s us s' -> fs_dat s' = fs_dat s) \/
  exists pre ix, us = pre ++ (save_index e (after s pre) ix).1 /\
    (forall s', crash s pre s' -> fs_dat s' = fs_dat s) /\ parse_file e (after s pre) = Some ix.
Proof. exact l_C49_only_saving_changes_it. Qed.
Print Assumptions C49_only_saving_changes_it.
Example C49_case :
  let s := after fresh (u_upds (update ok_env fresh false)) in
  let bad := fset s FXml (Some (mkFile [60] 100%Z)) in
  parse_file ok_env bad = None /\
  update ok_env bad true = mkU [StCompile] [] (Err EOpencorpora) /\
  finds (after bad (u_upds (update ok_env bad true))) "cats" = Ok [[bytes_of "NOUN"; bytes_of "plur"]].
Proof. vm_compute. repeat (split; [reflexivity|]). reflexivity. Qed.

(** C50.  If SaveIndex succeeds and closing the file does too, LoadIndex gives an index that
    answers like the saved one.  If it returns an error, either the file could not be created
    and nothing has changed, or there is no file (if it can be removed).  It succeeds when
    nothing fails outside, and never panics. *)
Theorem C50_success : forall h ix ix1 e s us,
  runs h ix -> runs (h ++ [OOptimize]) ix1 -> disk_caps ix1 = true -> all_storable h ->
  save_index e s ix = (us, Ok tt) -> e_flush e = None ->
  exists ix', load_index (after s us) = Ok ix' /\
    nodes_count ix' = nodes_count ix /\ words_count ix' = words_count ix /\
    (forall w, head w <> Some 0%Z -> (fetch_runes ix' w).2 = (fetch_runes ix w).2) /\
    (forall id, node_word ix' id = node_word ix id) /\
    (forall id, node_tag_sets ix' id = (x ← node_tag_sets ix id; Ok (map (map tag_norm) x))).
Proof. exact l_C50_success. Qed.
Print Assumptions C50_success.
Theorem C50_failure : forall e s ix us x, save_index e s ix = (us, Err x) ->
  (us = [] /\ e_create_dat e && dir_ok e s = false) \/
  (e_remove e = true -> fs_dat (after s us) = None).
Proof. exact l_C50_failure. Qed.
Print Assumptions C50_failure.
Theorem C50_completes : forall h ix ix1 e s,
  runs h ix -> runs (h ++ [OOptimize]) ix1 -> disk_caps ix1 = true -> all_storable h ->
  e_create_dat e = true -> dir_ok e s = true -> e_room_dat e = None ->
  (save_index e s ix).2 = Ok tt.
Proof. exact l_C50_completes. Qed.
Print Assumptions C50_completes.
Theorem C50_no_panic : forall h ix ix1 e s, runs h ix -> runs (h ++ [OOptimize]) ix1 ->
  (save_index e s ix).2 <> Panic.
Proof. exact l_C50_no_panic. Qed.
Print Assumptions C50_no_panic.
Example C50_case : exists ix, runs [OTagID (bytes_of "NOUN") []; OAdd [1072%Z; 1073%Z]; OTag [1072%Z; 1073%Z] [bytes_of "NOUN"]] ix /\
  let '(us, r) := save_index ok_env (mkFs None None None true false) ix in
  r = Ok tt /\ finds (after fresh us) "аб" = Ok [[bytes_of "NOUN"]] /\
  let e := mkEnv false 100%Z false HFail false false false HFail true true None true None true (fun _ => ([], false))
             true None true (fun _ => ([], false)) ex_conv true (Some 30%nat) None true in
  let '(us, r) := save_index e (mkFs None None None true false) ix in
  r = Err EOpencorpora /\ length us = 32%nat /\ fs_dat (after fresh us) = None.
Proof. apply run_case. vm_compute. repeat (split; [reflexivity|]). reflexivity. Qed.
(** A failure to close the file is not reported: SaveIndex succeeds, LoadIndex fails. *)
Theorem C50_close_refuted : exists e s ix us, runs [OAdd [97%Z]] ix /\
  save_index e s ix = (us, Ok tt) /\ load_index (after s us) = Err EOpencorpora.
Proof.
  pose (e := ex_env false None HFail (Some 20%nat)). pose (s := mkFs None None None true false).
  destruct (run_case [OAdd [97%Z]] (fun ix => (save_index e s ix).2 = Ok tt /\
    load_index (after s (save_index e s ix).1) = Err EOpencorpora)) as (ix & H1 & H2 & H3).
  - vm_compute. split; reflexivity.
  - exists e, s, ix, (save_index e s ix).1. split; [done|]. split; [|done].
    rewrite <- H2. by destruct (save_index e s ix).
Qed.
Print Assumptions C50_close_refuted.

(** C51.  A crash during SaveIndex leaves the old file, a file LoadIndex rejects, or the new
    one.  Crash safety itself is refuted: whenever the file can be created there is a point
    (just after its creation) at which a crash loses the old index and nothing can be loaded. *)
Theorem C51_what_a_crash_leaves : forall h ix ix1 e s us r s',
  runs h ix -> runs (h ++ [OOptimize]) ix1 -> disk_caps ix1 = true -> all_storable h ->
  save_index e s ix = (us, r) -> crash s us s' ->
  fs_dat s' = fs_dat s \/ load_index s' = Err EOpencorpora \/
  exists bs ix', index_write ix1 = Ok (bs, None) /\ fs_dat s' = Some (mkFile bs (e_now e)) /\
    load_index s' = Ok ix' /\ index_read index_new bs = Ok (ix', []).
Proof. exact l_C51_what_a_crash_leaves. Qed.
Print Assumptions C51_what_a_crash_leaves.
Theorem C51_crash_safe_refuted : forall e s ix, e_create_dat e = true -> dir_ok e s = true ->
  exists s', crash s (save_index e s ix).1 s' /\ load_index s' = Err EOpencorpora.
Proof. exact l_C51_crash_safe_refuted. Qed.
Print Assumptions C51_crash_safe_refuted.
Example C51_case :
  let s := after fresh (u_upds (update ok_env fresh false)) in
  let us := u_upds (update ok_env s true) in
  loads s = true /\ loads (after s (take 0 us)) = true /\ loads (after s (take 1 us)) = false /\
  loads (after s (take 100 us)) = false /\ loads (after s us) = true /\ length us = 215%nat.
Proof. vm_compute. repeat (split; [reflexivity|]). reflexivity. Qed.

(** C52.  In a stuck state - the archive is there and not older than the remote one, and
    there is no parseable unpacked file - Update(false) succeeds without doing anything and
    Update(true) fails, for any number of calls ([C52_stuck_forever_refuted]).  A crash
    anywhere from the creation of the archive to its last byte leads there, and so does a
    download that breaks off, with no crash at all.  Update does recover if the archive is not
    there, or if the crash was during compilation and it is forced. *)
Theorem C52_stuck : forall e s, stuck e s ->
  update e s false = mkU [] [] (Ok tt) /\ update e s true = mkU [StCompile] [] (Err EOpencorpora).
Proof. exact l_C52_stuck. Qed.
Print Assumptions C52_stuck.
Theorem C52_stuck_forever_refuted : forall calls s, Forall (fun c : env * bool => stuck c.1 s) calls ->
  fold_left (fun s c => after s (u_upds (update c.1 s c.2))) calls s = s.
Proof. exact l_C52_stuck_forever_refuted. Qed.
Print Assumptions C52_stuck_forever_refuted.
Theorem C52_crash_in_download_refuted : forall e s body k, all_works e -> dir_ok e (after1 s UMkdir) = true ->
  fs_bz s = None -> fs_xml s = None -> e_get e = Some (200%N, body, true) ->
  (2 <= k <= 2 + length body)%nat ->
  let s' := after s (take k (u_upds (update e s false))) in
  fs_dat s' = fs_dat s /\ fs_bz s' = Some (mkFile (take (k - 2) body) (e_now e)) /\
  forall e' m, e_stat1 e' = false -> e_head1 e' = HResp 200 m -> ~ newer (SFile (e_now e)) m -> stuck e' s'.
Proof. exact l_C52_crash_in_download_refuted. Qed.
Print Assumptions C52_crash_in_download_refuted.
Theorem C52_force_recompiles : forall e s, up_to_date e s ->
  update e s true = (let '(us, r) := parse_update e s in mkU [StCompile] us r).
Proof. exact l_C52_force_recompiles. Qed.
Print Assumptions C52_force_recompiles.
Theorem C52_works_without_archive : forall e s body out tokens p ix1 bs force,
  all_works e -> dir_ok e (after1 s UMkdir) = true -> fs_bz s = None ->
  e_get e = Some (200%N, body, true) -> e_unbz e body = (out, true) -> e_tokens e out = (tokens, true) ->
  parse (e_conv e) (parser_new index_new 0) tokens = (p, Done) ->
  optimize (p_ix p) = Ok ix1 -> index_write ix1 = Ok (bs, None) ->
  u_stages (update e s force) = [StDownload; StUnpack; StCompile] /\ u_res (update e s force) = Ok tt /\
  let s' := after s (u_upds (update e s force)) in
  fs_bz s' = Some (mkFile body (e_now e)) /\ fs_xml s' = Some (mkFile out (e_now e)) /\
  fs_dat s' = Some (mkFile bs (e_now e)).
Proof. exact l_C52_works_without_archive. Qed.
Print Assumptions C52_works_without_archive.
Theorem C52_failed_download_refuted : forall e s body room, fs_bz s = None ->
  e_stat1 e = false -> e_stat2 e = false -> e_mkdir1 e = true -> e_create_bz e = true ->
  dir_ok e (after1 s UMkdir) = true -> e_get e = Some (200%N, body, false) -> e_room_bz e = room ->
  let u := update e s false in let s' := after s (u_upds u) in
  u_res u = Err EIO /\ fs_xml s' = fs_xml s /\ fs_dat s' = fs_dat s /\
  forall e' m, e_stat1 e' = false -> e_head1 e' = HResp 200 m -> ~ newer (SFile (e_now e)) m ->
    update e' s' false = mkU [] [] (Ok tt).
Proof. exact l_C52_failed_download_refuted. Qed.
Print Assumptions C52_failed_download_refuted.
Example C52_case :
  let us := u_upds (update ok_env fresh false) in
  (* a crash after the archive has been created, and after it is complete *)
  update ok_env (after fresh (take 2 us)) false = mkU [] [] (Ok tt) /\
  update ok_env (after fresh (take 4 us)) true = mkU [StCompile] [] (Err EOpencorpora) /\
  (* before it is created *)
  loads (after (after fresh (take 1 us)) (u_upds (update ok_env (after fresh (take 1 us)) false))) = true /\
  (* while the index is being written *)
  loads (after fresh (take 20 us)) = false /\
  u_res (update ok_env (after fresh (take 20 us)) false) = Ok tt /\
  loads (after (after fresh (take 20 us)) (u_upds (update ok_env (after fresh (take 20 us)) false))) = false /\
  loads (after (after fresh (take 20 us)) (u_upds (update ok_env (after fresh (take 20 us)) true))) = true.
Proof. vm_compute. repeat (split; [reflexivity|]). reflexivity. Qed.

(** C53.  When IsUpdateRequired says yes, fails, and panics.  Update panics only in these checks. *)
Theorem C53_required : forall st h, is_update_required st h = Ok true <->
  st = SAbsent \/ st <> SAbsent /\ exists m, h = HResp 200 m /\ newer st m.
Proof. exact l_C53_required. Qed.
Print Assumptions C53_required.
Theorem C53_check_fails : forall st h, (exists x, is_update_required st h = Err x) <->
  st <> SAbsent /\ (h = HFail \/ exists status m, h = HResp status m /\ status <> 200%N).
Proof. exact l_C53_check_fails. Qed.
Print Assumptions C53_check_fails.
Theorem C53_panics_iff : forall st h, is_update_required st h = Panic <->
  st = SFail /\ exists t, h = HResp 200 (LTime t).
Proof. exact l_C53_panics_iff. Qed.
Print Assumptions C53_panics_iff.
Theorem C53_only_there : forall e s force,
  let bad st h := st = SFail /\ exists t, h = HResp 200 (LTime t) in
  u_res (update e s force) = Panic <->
  bad (stat_of s FBz (e_stat1 e)) (e_head1 e) \/
  is_update_required (stat_of s FBz (e_stat1 e)) (e_head1 e) = Ok true /\ bad (stat_of s FBz (e_stat2 e)) (e_head2 e).
Proof. exact l_C53_only_there. Qed.
Print Assumptions C53_only_there.
Theorem C53_panic_refuted : exists st h, is_update_required st h = Panic.
Proof. exists SFail, (HResp 200 (LTime 0%Z)). reflexivity. Qed.
Print Assumptions C53_panic_refuted.
Example C53_case :
  is_update_required (SFile 10%Z) (HResp 200 (LTime 11%Z)) = Ok true /\
  is_update_required (SFile 10%Z) (HResp 200 (LTime 10%Z)) = Ok false /\
  is_update_required SAbsent HFail = Ok true /\ is_update_required (SFile 10%Z) (HResp 404 (LTime 11%Z)) = Err EOther /\
  is_update_required SFail (HResp 200 LMissing) = Ok false.
Proof. auto. Qed.

(** C55.  Refuted: the status of the answer to the download request makes no difference to
    anything Update does. *)
Theorem C55_status_ignored_refuted : forall e s force st, update (with_status e st) s force = update e s force.
Proof. exact l_C55_status_ignored_refuted. Qed.
Print Assumptions C55_status_ignored_refuted.
Example C55_case :
  let e := ex_env false (Some (404, [110; 111], true)) (HResp 200 (LTime 50%Z)) None in
  let u := update e fresh false in let s := after fresh (u_upds u) in
  (* the error page is kept as the archive, and nothing is downloaded ever after *)
  u_res u = Err EIO /\ fs_bz s = Some (mkFile [110; 111] 100%Z) /\
  u_stages (update ok_env s false) = [] /\ u_res (update ok_env s false) = Ok tt.
Proof. vm_compute. repeat (split; [reflexivity|]). reflexivity. Qed.

(** C56.  Refuted for a loader with its own data directory: if that does not exist, Update
    makes the default one instead and fails.  For the default directory it works by
    C52_works_without_archive. *)
Theorem C56_custom_directory_refuted : forall e s force, all_works e -> e_custom e = true -> fs_cdir s = false -> fs_bz s = None ->
  update e s force = mkU [StDownload] [UMkdir] (Err EIO).
Proof. exact l_C56_custom_directory_refuted. Qed.
Print Assumptions C56_custom_directory_refuted.
Example C56_case :
  let e := ex_env true (Some (200, [66; 90], true)) (HResp 200 (LTime 50%Z)) None in
  update e fresh false = mkU [StDownload] [UMkdir] (Err EIO) /\
  u_res (update e (mkFs None None None false true) false) = Ok tt /\
  u_res (update ok_env fresh false) = Ok tt.
Proof. vm_compute. repeat (split; [reflexivity|]). reflexivity. Qed.

(** C57.  From the server to the answers: after Update of a fresh directory, when nothing
    fails outside, LoadIndex gives an index in which exactly the non-empty prefixes of the
    forms of the document are found, and a found word has exactly the tag sets of the forms
    that spell it (names as the file format keeps them). *)
Theorem C57_end_to_end : forall e s doc body out ix1 force,
  all_works e -> dir_ok e (after1 s UMkdir) = true -> fs_bz s = None ->
  e_get e = Some (200%N, body, true) -> e_unbz e body = (out, true) ->
  e_tokens e out = (flat_map events doc, true) ->
  forallb (valid (e_conv e) []) doc = true -> good_acts [] (doc_acts doc) ->
  runs (acts_ops (doc_acts doc) ++ [OOptimize]) ix1 -> disk_caps ix1 = true ->
  all_storable (acts_ops (doc_acts doc)) ->
  u_res (update e s force) = Ok tt /\
  exists ix, load_index (after s (u_upds (update e s force))) = Ok ix /\
    (forall w, head w <> Some 0%Z -> (exists id, (fetch_runes ix w).2 = Ok id) <->
       w <> [] /\ exists t g, (t, g) ∈ forms (doc_acts doc) /\ w `prefix_of` runes_of_string t) /\
    (forall w id, head w <> Some 0%Z -> (fetch_runes ix w).2 = Ok id ->
       node_word ix id = Ok (string_of_runes w) /\
       exists sets, node_tag_sets ix id = Ok sets /\
         (forall t g, (t, g) ∈ forms (doc_acts doc) -> runes_of_string t = w ->
            exists x, x ∈ sets /\ map tag_name x ≡ₚ map name_norm g) /\
         (forall x, x ∈ sets -> exists t g, (t, g) ∈ forms (doc_acts doc) /\ runes_of_string t = w /\
            map tag_name x ≡ₚ map name_norm g)) /\
    (forall w, head w <> Some 0%Z -> (fetch_runes ix w).2 <> Panic).
Proof. exact l_C57_end_to_end. Qed.
Print Assumptions C57_end_to_end.
Example C57_case :
  let s := after fresh (u_upds (update ok_env fresh false)) in
  finds s "cat" = Ok [[bytes_of "NOUN"; bytes_of "sing"]] /\
  finds s "oxen" = Ok [[bytes_of "NOUN"; bytes_of "plur"]] /\
  finds s "ca" = Ok [] /\ finds s "dog" = Err EIndex.
Proof. vm_compute. repeat (split; [reflexivity|]). reflexivity. Qed.
(** The hypotheses about the document hold for this one. *)
Example C57_case_hypotheses :
  forallb (valid ex_conv []) ex_doc = true /\ good_acts [] (doc_acts ex_doc) /\
  exists ix1, runs (acts_ops (doc_acts ex_doc) ++ [OOptimize]) ix1 /\ disk_caps ix1 = true.
Proof.
  split; [reflexivity|]. split.
  - vm_compute. repeat split; repeat (apply List.Forall_cons || apply List.Forall_nil);
      (split; [discriminate|]); intros n Hn; repeat (apply elem_of_cons in Hn as [-> |Hn]; [set_solver|]);
      by apply elem_of_nil in Hn.
  - apply run_case. vm_compute. reflexivity.
Qed.
