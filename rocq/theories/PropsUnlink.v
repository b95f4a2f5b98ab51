(** Updaters that fail while others are writing: C90.  The model is in Unlink.v; the proofs are in
    ThmUnlink.v. *)
From Verif Require Import Base Overlap Unlink ThmUnlink.
From stdpp Require Import list.

(** C90.  SaveIndex removes the file by its name when it fails.  With several updaters at once the
    file removed may be the one another updater has just finished: it has reported success and
    there is no index.  The file is missing only if some updater has failed.  Without failures the
    file is that of C79, so updaters that write the same bytes leave these bytes.  An updater that
    creates the file when nobody has the file of that name open, and reports success, leaves
    exactly its bytes, whatever the others still write to files removed, as long as no other
    creates or removes the file in the meantime. *)
Theorem C90_left_alone : forall old bss s0 s1 s2 j bs,
  deeds (before_all old bss) s0 -> (forall n i bs' k, d_name s0 = Some n -> ~ at_place s0 i bs' (Open n k)) ->
  does j DCreate s0 s1 -> rtc (left_to j) s1 s2 -> at_place s2 j bs (Ended true) -> found s2 = Some bs.
Proof. exact l_C90_left_alone. Qed.
Print Assumptions C90_left_alone.
Theorem C90_without_errors : forall old bss s, rtc good_deed (before_all old bss) s ->
  exists t, turns (waiting (default [] old) bss) t /\
    (found s = Some (s_file t) \/ (found s = None /\ old = None /\ forall i bs p, at_place s i bs p -> p = Ready)) /\
    forall i bs, at_place s i bs (Ended true) -> s_writers t !! i = Some (mkWriter bs (Some (length bs))).
Proof. exact l_C90_without_errors. Qed.
Print Assumptions C90_without_errors.
Theorem C90_all_succeed : forall old bs n s, rtc good_deed (before_all old (replicate (S n) bs)) s ->
  (forall i bs' p, at_place s i bs' p -> p = Ended true) -> found s = Some bs.
Proof. exact l_C90_all_succeed. Qed.
Print Assumptions C90_all_succeed.
Theorem C90_missing : forall f bss s, deeds (before_all (Some f) bss) s -> found s = None -> exists i bs, at_place s i bs (Ended false).
Proof. exact l_C90_missing. Qed.
Print Assumptions C90_missing.
Theorem C90_success_is_kept_refuted : forall old a b, exists s,
  deeds (before_all old [a; b]) s /\ at_place s 0 a (Ended false) /\ at_place s 1 b (Ended true) /\ found s = None.
Proof. exact l_C90_success_is_kept_refuted. Qed.
Print Assumptions C90_success_is_kept_refuted.
(** Process 0 has the file open, 1 truncates it, fails and removes it; 2 makes a new one.  What 0
    goes on writing does not get into it. *)
Example C90_case : exists s0 s1 s2,
  deeds (before_all (Some [1; 2; 3]%N) [[4; 5]; [6]; [7; 8]]%N) s0 /\ (forall n i bs' k, d_name s0 = Some n -> ~ at_place s0 i bs' (Open n k)) /\
  does 2 DCreate s0 s1 /\ rtc (left_to 2) s1 s2 /\ at_place s2 2 [7; 8]%N (Ended true) /\ at_place s2 0 [4; 5]%N (Ended true) /\ found s2 = Some [7; 8]%N.
Proof.
  destruct (play [(0, DCreate); (0, DWrite); (1, DCreate); (1, DFail); (1, DRemove)] (before_all (Some [1; 2; 3]%N) [[4; 5]; [6]; [7; 8]]%N)) as [s0|] eqn:E0; [|vm_compute in E0; discriminate E0].
  pose proof (play_deeds _ _ _ E0) as R0. vm_compute in E0. injection E0 as <-.
  eexists _, _, _. split; [exact R0|]. split; [done|]. split; [apply play1_does; vm_compute; reflexivity|]. split.
  - eapply (play_left 2 [(2, DWrite); (0, DWrite); (0, DFinish); (2, DWrite); (2, DFinish)]); [|vm_compute; reflexivity]. repeat (constructor; [done|]). constructor.
  - vm_compute. done.
Qed.
Print Assumptions C90_case.
(** The other order: the file is removed while the second updater is still writing.  It ends with
    success, and there is no file. *)
Example C90_lost_case :
  match play [(0, DCreate); (1, DCreate); (1, DWrite); (0, DFail); (0, DRemove); (1, DWrite); (1, DFinish)] (before_all None [[4; 5]; [7; 8]]%N) with
  | Some s => found s = None /\ at_place s 1 [7; 8]%N (Ended true) /\ d_files s = [[7; 8]%N]
  | None => False
  end.
Proof. vm_compute. done. Qed.
Print Assumptions C90_lost_case.
(** Two updaters with the same bytes. *)
Example C90_same_case :
  match play [(0, DCreate); (0, DWrite); (1, DCreate); (1, DWrite); (0, DWrite); (0, DFinish); (1, DWrite); (1, DFinish)] (before_all None [[7; 8]; [7; 8]]%N) with
  | Some s => found s = Some [7; 8]%N /\ forall i bs' p, at_place s i bs' p -> p = Ended true
  | None => False
  end.
Proof. vm_compute. split; [done|]. intros [|[|i]] bs' p [= <- <-]; done. Qed.
Print Assumptions C90_same_case.
