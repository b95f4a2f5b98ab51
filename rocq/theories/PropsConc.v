(** Concurrent use: C32-C35, C58.  The proofs are in ThmConc.v. *)
From Verif Require Import Base Storage Utf8 Tags TagSets Variants Items Index Spec Hist
  BaseFacts ThmTrie Conc ThmConc.
From stdpp Require Import list gmap relations.
Open Scope N_scope.

(** C32.  Lookups running at the same time: whatever the index and the schedule, each
    goroutine gets the answers it would get alone; every schedule ends.  If the index was
    loaded, no lookup ever writes, so there is no race.  [C32_alone] says that the machine is
    the sequential lookup when there is one goroutine. *)
Theorem C32_answers : forall ix wss s gs i g ws, rtc (cstep l_step) (ix, map l_start wss) (s, gs) ->
  gs !! i = Some g -> wss !! i = Some ws -> l_done g ->
  l_res g = map (fun w => (fetch_runes ix w).2) ws.
Proof. exact l_C32_answers. Qed.
Print Assumptions C32_answers.
Theorem C32_loaded_never_written : forall bs ix rest wss s gs,
  index_read index_new bs = Ok (ix, rest) -> rtc (cstep l_step) (ix, map l_start wss) (s, gs) ->
  s = ix /\ forall i g, gs !! i = Some g -> ~ l_writes g.
Proof. exact l_C32_loaded_never_written. Qed.
Print Assumptions C32_loaded_never_written.
Theorem C32_loaded_no_race : forall bs ix rest wss c,
  index_read index_new bs = Ok (ix, rest) -> rtc (cstep l_step) (ix, map l_start wss) c -> ~ l_race c.
Proof. exact l_C32_loaded_no_race. Qed.
Print Assumptions C32_loaded_no_race.
Theorem C32_every_schedule_ends : forall ix wss n c, nsteps (cstep l_step) n (ix, map l_start wss) c ->
  (n <= sum_list (map l_work wss))%nat /\
  ((forall g, g ∈ c.2 -> l_done g) \/ exists c', cstep l_step c c').
Proof. exact l_C32_every_schedule_ends. Qed.
Print Assumptions C32_every_schedule_ends.
Theorem C32_alone : forall ix w, rtc (cstep l_step) (ix, [l_start [w]])
  ((fetch_runes ix w).1, [mkLooker LNext [] [(fetch_runes ix w).2]]).
Proof. exact l_C32_alone. Qed.
Print Assumptions C32_alone.
Definition ex_loaded : list op := [OAdd [97; 98]%Z; OAdd [99]%Z; OOptimize].
Example C32_case : exists ix, runs ex_loaded ix /\
  match index_write ix with
  | Ok bs => match index_read index_new bs.1 with
    | Ok (ix', rest) => rest = [] /\
        let c := run_sched l_step (concat (replicate 20 [0; 1])%nat)
                   (ix', map l_start [[[97; 98]; [97; 98; 99]]; [[99; 97]; [99]]]%Z) in
        map l_res c.2 = [[Ok 2; Err EIndex]; [Err EIndex; Ok 3]]
    | _ => False
    end
  | _ => False
  end.
Proof. apply run_case. vm_compute. split; reflexivity. Qed.
(** On an index that was built there is a race: two goroutines look "ab" up in an index with
    only "a", and both are about to create the map of the node "a". *)
Theorem C32_built_race_refuted : exists h ix wss c,
  runs h ix /\ rtc (cstep l_step) (ix, map l_start wss) c /\ l_race c.
Proof.
  pose (sched := [0; 1; 0; 1; 0; 1; 0; 1; 0; 1]%nat). pose (wss := [[[97; 98]]; [[97; 98]]]%Z : list (list (list Z))).
  assert (H : exists ix, runs [OAdd [97%Z]] ix /\
    match (run_sched l_step (take 8 sched) (ix, map l_start wss)).2 with
    | [g; g'] => l_pc g = LMake 1 [98%Z] /\ l_pc g' = LMake 1 [98%Z]
    | _ => False
    end) by (apply run_case; vm_compute; split; reflexivity).
  destruct H as (ix & Hr & H). exists [OAdd [97%Z]], ix, wss, (run_sched l_step (take 8 sched) (ix, map l_start wss)).
  split; [done|]. split; [apply run_sched_rtc|].
  destruct (run_sched _ _ _) as [s [|g [|g' [|]]]]; try done. destruct H as [H H'].
  exists 0%nat, 1%nat, g, g'. split; [done|]. split; [done|]. split; [done|]. split; [by exists 1, [98%Z]|]. unfold l_touches. by rewrite H'.
Qed.
Print Assumptions C32_built_race_refuted.

(** C33.  Whatever the schedule and however the storage grows: the numbers obtained are
    different and are the next ones in a row, each request obtains one, no access is out of
    range, somebody can always go on until all is done, and the lock excludes. *)
Theorem C33_unique_consecutive : forall grow rqs s s' gs, a_good s -> m_next s + N.of_nat (a_total rqs) < 2 ^ 32 ->
  rtc (cstep (a_step grow)) (s, a_start rqs) (s', gs) ->
  a_numbers gs ≡ₚ map (fun k => m_next s + N.of_nat k) (seq 0 (length (a_numbers gs))) /\ NoDup (a_numbers gs).
Proof. exact l_C33_unique_consecutive. Qed.
Print Assumptions C33_unique_consecutive.
Theorem C33_each_request_one_number : forall grow rqs s s' gs i g rq, a_good s -> m_next s + N.of_nat (a_total rqs) < 2 ^ 32 ->
  rtc (cstep (a_step grow)) (s, a_start rqs) (s', gs) -> gs !! i = Some g -> rqs !! i = Some rq ->
  (a_got g).*2 `prefix_of` rq /\ (a_todo g = [] -> (a_got g).*2 = rq).
Proof. exact l_C33_each_request_one_number. Qed.
Print Assumptions C33_each_request_one_number.
Theorem C33_no_crash_no_deadlock : forall grow rqs s s' gs, a_good s -> m_next s + N.of_nat (a_total rqs) < 2 ^ 32 ->
  rtc (cstep (a_step grow)) (s, a_start rqs) (s', gs) ->
  (forall g, g ∈ gs -> a_pc g <> ACrash) /\
  ((forall g, g ∈ gs -> a_todo g = []) \/ exists c', cstep (a_step grow) (s', gs) c').
Proof. exact l_C33_no_crash_no_deadlock. Qed.
Print Assumptions C33_no_crash_no_deadlock.
Theorem C33_mutual_exclusion : forall grow rqs s s' gs i j g h, a_good s -> m_next s + N.of_nat (a_total rqs) < 2 ^ 32 ->
  rtc (cstep (a_step grow)) (s, a_start rqs) (s', gs) -> gs !! i = Some g -> gs !! j = Some h ->
  a_cs (a_pc g) = true -> a_cs (a_pc h) = true -> i = j.
Proof. exact l_C33_mutual_exclusion. Qed.
Print Assumptions C33_mutual_exclusion.
Definition go_grow (cap len : nat) : nat := (2 * cap)%nat.
Definition ex_rqs : list (list (N * Z)) := [[(0, 97%Z); (1, 98%Z)]; [(0, 99%Z)]].
Example C33_case :
  let s := mem_of items_new 0 in
  let c := run_sched (a_step go_grow) (concat (replicate 60 [0; 1; 1])%nat) (s, a_start ex_rqs) in
  a_good s /\ m_next s = 1 /\ map a_todo c.2 = [[]; []] /\
  map (fun g => (a_got g).*1) c.2 = [[2; 3]; [1]] /\ m_next c.1 = 4 /\
  its_list (mem_items c.1) = [zero_item; mkItem 0 1 99 0; mkItem 0 2 97 0; mkItem 1 3 98 0; zero_item; zero_item; zero_item; zero_item].
Proof. split; [repeat split; vm_compute; try done; lia|]. vm_compute. repeat (split; [reflexivity|]). reflexivity. Qed.

(** C34.  If the array has room for all the nodes to come, no finished node is lost.  One
    goroutine alone does what the sequential function does. *)
Theorem C34_enough_room_none_lost : forall grow rqs s s' gs i g, a_good s -> m_next s + N.of_nat (a_total rqs) < 2 ^ 32 ->
  (N.to_nat (m_next s) + a_total rqs + 15 <= length (default [] (m_arrays s !! m_arr s)))%nat ->
  rtc (cstep (a_step grow)) (s, a_start rqs) (s', gs) -> gs !! i = Some g ->
  a_ret g = map a_item (take (length (a_ret g)) (a_got g)) /\
  forall e, a_finished g e -> m_at s' e.1 = Some (a_item e).
Proof. exact l_C34_enough_room_none_lost. Qed.
Print Assumptions C34_enough_room_none_lost.
Theorem C34_alone : forall grow its spare p r its' it, items_new_child its p r = Ok (its', it) -> its_next its <= lenN (its_list its) ->
  exists s g, rtc (cstep (a_step grow)) (mem_of its spare, a_start [[(p, r)]]) (s, [g]) /\
    a_todo g = [] /\ a_ret g = [it] /\ mem_items s = its' /\ m_lock s = None.
Proof. exact l_C34_alone. Qed.
Print Assumptions C34_alone.
(** In general a finished node can be lost: goroutine 0 stores node 7 while goroutine 1 has
    copied it to a larger array already. *)
Definition ex_full : list op := [OAdd [97; 98; 99; 100; 101; 102]%Z].
Theorem C34_lost_refuted : exists h ix rqs s gs g e,
  runs h ix /\ a_good (mem_of (ix_items ix) 0) /\
  rtc (cstep (a_step go_grow)) (mem_of (ix_items ix) 0, a_start rqs) (s, gs) /\
  Forall (fun g => a_todo g = []) gs /\ g ∈ gs /\
  a_finished g e /\ a_ret g = [a_item e] /\ m_at s e.1 = Some zero_item.
Proof.
  pose (rqs := [[(0, 120%Z)]; [(0, 121%Z)]] : list (list (N * Z))).
  pose (sched := (replicate 6 0 ++ replicate 12 1 ++ replicate 10 0 ++ replicate 20 1)%nat).
  assert (H : exists ix, runs ex_full ix /\ (bool_decide (m_next (mem_of (ix_items ix) 0) <= N.of_nat (m_len (mem_of (ix_items ix) 0))) = true /\
    (run_sched (a_step go_grow) sched (mem_of (ix_items ix) 0, a_start rqs)).2 =
      [mkAlloc 0 ANext [] [(7, (0, 120%Z))] [mkItem 0 7 120 0]; mkAlloc 1 ANext [] [(8, (0, 121%Z))] [mkItem 0 8 121 0]] /\
    m_at (run_sched (a_step go_grow) sched (mem_of (ix_items ix) 0, a_start rqs)).1 7 = Some zero_item)) by
    (apply run_case; vm_compute; repeat (split; [reflexivity|]); reflexivity).
  destruct H as (ix & Hr & H1 & H2 & H3). apply bool_decide_eq_true in H1.
  pose proof (run_sched_rtc (a_step go_grow) sched (mem_of (ix_items ix) 0, a_start rqs)) as Hrun.
  destruct (run_sched _ _ _) as [s gs]. cbn [fst snd] in *. subst gs.
  eexists ex_full, ix, rqs, s, _, _, (7, (0, 120%Z)). split; [done|].
  split; [split; [cbn; lia|]; split; [cbn; rewrite app_length; lia|]; done|]. split; [exact Hrun|].
  split; [repeat constructor|]. split; [apply elem_of_list_here|]. split; [|done].
  apply elem_of_list_here.
Qed.
Print Assumptions C34_lost_refuted.
(** With room nothing is lost, under the same schedule. *)
Example C34_case : exists ix, runs ex_full ix /\
  let c := run_sched (a_step go_grow) ((replicate 6 0 ++ replicate 12 1 ++ replicate 10 0 ++ replicate 20 1)%nat)
             (mem_of (ix_items ix) 16, a_start [[(0, 120%Z)]; [(0, 121%Z)]]) in
  m_at c.1 7 = Some (mkItem 0 7 120 0) /\ m_at c.1 8 = Some (mkItem 0 8 121 0) /\ map a_todo c.2 = [[]; []].
Proof. apply run_case. vm_compute. repeat (split; [reflexivity|]). reflexivity. Qed.

(** C35.  A goroutine alone adds a word as the sequential function does. *)
Theorem C35_alone : forall ix w, rtc (cstep w_step) (ix, [w_start [w]])
  ((add_runes ix w).1, [mkAdder WNext [] [(add_runes ix w).2]]).
Proof. exact l_C35_alone. Qed.
Print Assumptions C35_alone.
(** Two goroutines adding the same word at the same time can create two nodes for it, each
    being answered a different one. *)
Theorem C35_twice_refuted : exists h ix s gs n n',
  runs h ix /\ rtc (cstep w_step) (ix, map w_start [[[97]]; [[97]]]%Z) (s, gs) /\
  Forall w_done gs /\ map w_res gs = [[Ok n]; [Ok n']] /\ n <> n' /\
  nodes_count s = nodes_count ix + 2.
Proof.
  pose (sched := concat (replicate 10 [0; 1]%nat)).
  assert (H : exists ix, runs [OAdd [98%Z]] ix /\
    ((run_sched w_step sched (ix, map w_start [[[97]]; [[97]]]%Z)).2 = [mkAdder WNext [] [Ok 2]; mkAdder WNext [] [Ok 3]] /\
     nodes_count (run_sched w_step sched (ix, map w_start [[[97]]; [[97]]]%Z)).1 = nodes_count ix + 2)) by
    (apply run_case; vm_compute; split; reflexivity).
  destruct H as (ix & Hr & H1 & H2).
  pose proof (run_sched_rtc w_step sched (ix, map w_start [[[97]]; [[97]]]%Z)) as Hrun.
  destruct (run_sched _ _ _) as [s gs]. cbn [fst snd] in *. subst gs.
  eexists _, ix, s, _, 2, 3. split; [exact Hr|]. split; [exact Hrun|]. split; [repeat constructor|]. done.
Qed.
Print Assumptions C35_twice_refuted.
Example C35_case : exists ix, runs [OAdd [98%Z]] ix /\
  let c := run_sched w_step (replicate 9 0 ++ replicate 9 1)%nat (ix, map w_start [[[97]]; [[97]]]%Z) in
  map w_res c.2 = [[Ok 2]; [Ok 2]] /\ nodes_count c.1 = 2.
Proof. apply run_case. vm_compute. split; reflexivity. Qed.

(** C58.  Words that were there before goroutines started adding others stay found, with the
    same nodes, at every moment of every schedule (as long as there are numbers left). *)
Theorem C58_old_words_stay : forall ix wss s gs w n, its_next (ix_items ix) + N.of_nat (w_total wss) < 2 ^ 32 ->
  rtc (cstep w_step) (ix, map w_start wss) (s, gs) ->
  (fetch_runes ix w).2 = Ok n -> (fetch_runes s w).2 = Ok n.
Proof. exact l_C58_old_words_stay. Qed.
Print Assumptions C58_old_words_stay.
(** A word added at the same time can be lost: goroutine 1, about to create the map of the
    root, throws away what goroutine 0 entered in it. *)
Theorem C58_lost_refuted : exists ix s gs n n',
  runs [] ix /\ rtc (cstep w_step) (ix, map w_start [[[97]]; [[98]]]%Z) (s, gs) /\
  Forall w_done gs /\ map w_res gs = [[Ok n]; [Ok n']] /\
  (fetch_runes s [97%Z]).2 = Err EIndex /\ (fetch_runes s [98%Z]).2 = Ok n'.
Proof.
  pose (sched := (replicate 3 1 ++ replicate 9 0 ++ replicate 9 1)%nat).
  assert (H : exists ix, runs [] ix /\
    ((run_sched w_step sched (ix, map w_start [[[97]]; [[98]]]%Z)).2 = [mkAdder WNext [] [Ok 1]; mkAdder WNext [] [Ok 2]] /\
     (fetch_runes (run_sched w_step sched (ix, map w_start [[[97]]; [[98]]]%Z)).1 [97%Z]).2 = Err EIndex /\
     (fetch_runes (run_sched w_step sched (ix, map w_start [[[97]]; [[98]]]%Z)).1 [98%Z]).2 = Ok 2)) by
    (apply run_case; vm_compute; repeat (split; [reflexivity|]); reflexivity).
  destruct H as (ix & Hr & H1 & H2 & H3).
  pose proof (run_sched_rtc w_step sched (ix, map w_start [[[97]]; [[98]]]%Z)) as Hrun.
  destruct (run_sched _ _ _) as [s gs]. cbn [fst snd] in *. subst gs.
  eexists ix, s, _, 1, 2. split; [exact Hr|]. split; [exact Hrun|]. split; [repeat constructor|]. done.
Qed.
Print Assumptions C58_lost_refuted.
Example C58_case : exists ix, runs [OAdd [97]%Z; OAdd [97; 98]%Z] ix /\
  let c := run_sched w_step (concat (replicate 40 [0; 1])%nat) (ix, map w_start [[[97; 99]; [97]]; [[97; 100]]]%Z) in
  map w_res c.2 = [[Ok 3; Ok 1]; [Ok 4]] /\
  (fetch_runes c.1 [97; 98]%Z).2 = Ok 2 /\ (fetch_runes c.1 [97; 99]%Z).2 = Ok 3 /\ (fetch_runes c.1 [97; 100]%Z).2 = Ok 4.
Proof. apply run_case. vm_compute. repeat (split; [reflexivity|]). reflexivity. Qed.
