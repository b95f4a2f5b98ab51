(** Tagging from several goroutines: C65.  The proofs are in ThmConcTags.v and ThmConcAlone.v. *)
From Verif Require Import Base Storage Utf8 Tags TagSets Variants Items Index Spec Hist
  BaseFacts ThmTrie Conc ThmConc ConcTags ThmConcTags ThmConcAlone.
From stdpp Require Import list gmap relations.
Open Scope N_scope.

(** C65.  Goroutines that tag words of one index at the same time, without a lock: whatever the
    schedule and however the slices grow, the words that nobody tags keep their sets; the count
    of words never falls and never counts a call twice; a goroutine alone does what the calls
    do in sequence; and goroutines that tag different words with sets and collections that the
    index has already do it as if each were alone.  With new sets nothing of the kind holds, see
    the four refutations. *)
Theorem C65_others_kept : forall grow h ix s callss c n,
  runs h ix -> smem_ok s -> mem_index ix s = ix ->
  rtc (cstep (t_step grow (ix_tags ix))) (s, map t_start callss) c ->
  (forall calls names, In calls callss -> ~ In (n, names) calls) ->
  node_tag_sets (mem_index ix c.1) n = node_tag_sets ix n.
Proof. exact l_C65_others_kept. Qed.
Print Assumptions C65_others_kept.
Theorem C65_whole_call : forall grow ix s gs i id names todo rs ix' r,
  gs !! i = Some (mkTagger TNext ((id, names) :: todo) rs) -> smem_ok s ->
  node_add_tag_set (mem_index ix s) id names = (ix', r) ->
  exists s', smem_ok s' /\
    match r with
    | Panic => rtc (cstep (t_step grow (ix_tags ix))) (s, gs) (s', <[i := mkTagger TCrash ((id, names) :: todo) rs]> gs)
    | _ => rtc (cstep (t_step grow (ix_tags ix))) (s, gs) (s', <[i := mkTagger TNext todo (rs ++ [r])]> gs) /\ mem_index ix s' = ix'
    end.
Proof. exact l_C65_whole_call. Qed.
Print Assumptions C65_whole_call.
Theorem C65_alone : forall grow ix s calls ix' rs,
  smem_ok s -> mem_index ix s = ix -> tag_all ix calls = (ix', rs) -> ~ In Panic rs ->
  exists s', rtc (cstep (t_step grow (ix_tags ix))) (s, [t_start calls]) (s', [mkTagger TNext [] rs]) /\
    smem_ok s' /\ mem_index ix s' = ix'.
Proof. exact l_C65_alone. Qed.
Print Assumptions C65_alone.
Theorem C65_known_sets : forall grow ix s callss c,
  smem_ok s -> mem_index ix s = ix ->
  (forall i j calls calls' n, i <> j -> callss !! i = Some calls -> callss !! j = Some calls' -> In n calls.*1 -> ~ In n calls'.*1) ->
  (forall calls, In calls callss -> known ix calls) ->
  rtc (cstep (t_step grow (ix_tags ix))) (s, map t_start callss) c ->
  s_sets c.1 = s_sets s /\ s_cols c.1 = s_cols s /\
  forall i g calls, c.2 !! i = Some g -> callss !! i = Some calls ->
    g_pc g <> TCrash /\
    (t_done g -> g_res g = (tag_all ix calls).2 /\
       forall n, In n calls.*1 -> node_tag_sets (mem_index ix c.1) n = node_tag_sets (tag_all ix calls).1 n).
Proof. exact l_C65_known_sets. Qed.
Print Assumptions C65_known_sets.
Theorem C65_count : forall grow tags s callss c,
  rtc (cstep (t_step grow tags)) (s, map t_start callss) c ->
  s_words s <= s_words c.1 <= s_words s + N.of_nat (length (concat callss)).
Proof. exact l_C65_count. Qed.
Print Assumptions C65_count.
Theorem C65_layout : forall spare ix, smem_ok (smem_of spare ix) /\ mem_index ix (smem_of spare ix) = ix.
Proof. exact l_C65_layout. Qed.
Print Assumptions C65_layout.
Definition nm (k : N) : list N := [65; k].
Definition tg (k : N) : tag := mkTag (nm 9) (nm k).
Definition ex_two : list op :=
  [OTagID (nm 1) (nm 9); OTagID (nm 2) (nm 9); OTagID (nm 3) (nm 9); OAdd [97]%Z; OAdd [98]%Z; OAdd [99]%Z].
Definition go_grow (cap len : nat) : nat := (2 * cap)%nat.
Definition go ix callss sched :=
  run_sched (t_step go_grow (ix_tags ix)) sched (smem_of 0 ix, map t_start callss).
Lemma go_rtc ix callss sched :
  rtc (cstep (t_step go_grow (ix_tags ix))) (smem_of 0 ix, map t_start callss) (go ix callss sched).
Proof. apply run_sched_rtc. Qed.
Definition r (n i : nat) := replicate n i.
(** Words 1 and 2 are tagged in turns, with sets that word 3 brought in. *)
Example C65_case : exists ix, runs (ex_two ++ [OTag [99]%Z [nm 1]; OTag [99]%Z [nm 2]; OTag [98]%Z [nm 2]]) ix /\
  let callss := [[(1, [nm 1]); (1, [nm 2])]; [(2, [nm 1])]] in
  let c := go ix callss (concat (replicate 80 [0; 1])%nat) in
  known ix [(1, [nm 1]); (1, [nm 2])] /\ known ix [(2, [nm 1])] /\
  map g_pc c.2 = [TNext; TNext] /\ map g_todo c.2 = [[]; []] /\ map g_res c.2 = [[Ok tt; Ok tt]; [Ok tt]] /\
  node_tag_sets (mem_index ix c.1) 1 = Ok [[tg 1]; [tg 2]] /\ node_tag_sets (mem_index ix c.1) 2 = Ok [[tg 1]; [tg 2]] /\
  node_tag_sets (mem_index ix c.1) 3 = Ok [[tg 1]; [tg 2]] /\ s_words c.1 = 3.
Proof. apply run_case. vm_compute. repeat (split; [done|]). done. Qed.

(** Both calls answer that all went well, and the word "b", tagged with the second tag only, has the
    first tag instead: both interned their set in the same place. *)
Theorem C65_mixed_up_refuted : exists grow h ix s c,
  runs h ix /\ smem_ok s /\ mem_index ix s = ix /\
  rtc (cstep (t_step grow (ix_tags ix))) (s, map t_start [[(1, [nm 1])]; [(2, [nm 2])]]) c /\
  c.2 = [mkTagger TNext [] [Ok tt]; mkTagger TNext [] [Ok tt]] /\
  node_tag_sets (node_add_tag_set ix 2 [nm 2]).1 2 = Ok [[tg 2]] /\
  node_tag_sets (mem_index ix c.1) 2 = Ok [[tg 1]].
Proof.
  pose (callss := [[(1, [nm 1])]; [(2, [nm 2])]]).
  assert (H : exists ix, runs ex_two ix /\
    let c := go ix callss (r 8 0 ++ r 7 1 ++ r 40 0 ++ r 80 1) in
    c.2 = [mkTagger TNext [] [Ok tt]; mkTagger TNext [] [Ok tt]] /\
    node_tag_sets (node_add_tag_set ix 2 [nm 2]).1 2 = Ok [[tg 2]] /\
    node_tag_sets (mem_index ix c.1) 2 = Ok [[tg 1]]) by (apply run_case; vm_compute; repeat (split; [done|]); done).
  destruct H as (ix & Hr & H). destruct (l_C65_layout 0 ix) as [L1 L2].
  exists go_grow, ex_two, ix, (smem_of 0 ix), (go ix callss (r 8 0 ++ r 7 1 ++ r 40 0 ++ r 80 1)).
  split; [exact Hr|]. split; [exact L1|]. split; [exact L2|]. split; [apply go_rtc|exact H].
Qed.
Print Assumptions C65_mixed_up_refuted.

(** All three calls answer that all went well, and asking the word "c" for its tags later panics: its
    set went into an array that another goroutine then replaced. *)
Theorem C65_later_panic_refuted : exists grow h ix s c,
  runs h ix /\ smem_ok s /\ mem_index ix s = ix /\
  rtc (cstep (t_step grow (ix_tags ix))) (s, map t_start [[(1, [nm 1])]; [(2, [nm 2]); (3, [nm 3])]]) c /\
  c.2 = [mkTagger TNext [] [Ok tt]; mkTagger TNext [] [Ok tt; Ok tt]] /\
  node_tag_sets (mem_index ix c.1) 3 = Panic.
Proof.
  pose (callss := [[(1, [nm 1])]; [(2, [nm 2]); (3, [nm 3])]]).
  assert (H : exists ix, runs ex_two ix /\
    let c := go ix callss (r 33 0 ++ r 90 1 ++ r 20 0) in
    c.2 = [mkTagger TNext [] [Ok tt]; mkTagger TNext [] [Ok tt; Ok tt]] /\
    node_tag_sets (mem_index ix c.1) 3 = Panic) by (apply run_case; vm_compute; repeat (split; [done|]); done).
  destruct H as (ix & Hr & H). destruct (l_C65_layout 0 ix) as [L1 L2].
  exists go_grow, ex_two, ix, (smem_of 0 ix), (go ix callss (r 33 0 ++ r 90 1 ++ r 20 0)).
  split; [exact Hr|]. split; [exact L1|]. split; [exact L2|]. split; [apply go_rtc|exact H].
Qed.
Print Assumptions C65_later_panic_refuted.

(** A tagging call itself panics: the outer slice it made long enough was replaced by a shorter one. *)
Theorem C65_crash_refuted : exists grow h ix s c g,
  runs h ix /\ smem_ok s /\ mem_index ix s = ix /\
  rtc (cstep (t_step grow (ix_tags ix))) (s, map t_start [[(1, [nm 1])]; [(2, [nm 1; nm 2; nm 3])]]) c /\
  c.2 !! 1%nat = Some g /\ g_pc g = TCrash /\ (node_add_tag_set ix 2 [nm 1; nm 2; nm 3]).2 = Ok tt.
Proof.
  pose (callss := [[(1, [nm 1])]; [(2, [nm 1; nm 2; nm 3])]]).
  assert (H : exists ix, runs ex_two ix /\
    match (go ix callss (r 7 0 ++ r 19 1 ++ r 1 0 ++ r 2 1)).2 !! 1%nat with Some g => g_pc g = TCrash | None => False end /\
    (node_add_tag_set ix 2 [nm 1; nm 2; nm 3]).2 = Ok tt)
    by (apply run_case; vm_compute; split; reflexivity).
  destruct H as (ix & Hr & H & H'). destruct (l_C65_layout 0 ix) as [L1 L2].
  pose proof (go_rtc ix callss (r 7 0 ++ r 19 1 ++ r 1 0 ++ r 2 1)) as R. revert H R. generalize (go ix callss (r 7 0 ++ r 19 1 ++ r 1 0 ++ r 2 1)).
  intros c H R. destruct (c.2 !! 1%nat) as [g|] eqn:E; [|destruct H].
  exists go_grow, ex_two, ix, (smem_of 0 ix), c, g.
  split; [exact Hr|]. split; [exact L1|]. split; [exact L2|]. split; [exact R|]. split; [exact E|]. split; [exact H|exact H'].
Qed.
Print Assumptions C65_crash_refuted.

(** Two words are tagged for the first time and only one is counted. *)
Theorem C65_lost_count_refuted : exists grow h ix s c,
  runs h ix /\ smem_ok s /\ mem_index ix s = ix /\
  rtc (cstep (t_step grow (ix_tags ix))) (s, map t_start [[(1, [nm 1])]; [(2, [nm 2])]]) c /\
  c.2 = [mkTagger TNext [] [Ok tt]; mkTagger TNext [] [Ok tt]] /\
  ix_words ix = 0 /\ s_words c.1 = 1.
Proof.
  pose (callss := [[(1, [nm 1])]; [(2, [nm 2])]]).
  assert (H : exists ix, runs ex_two ix /\
    let c := go ix callss (r 19 0 ++ r 60 1 ++ r 40 0) in
    c.2 = [mkTagger TNext [] [Ok tt]; mkTagger TNext [] [Ok tt]] /\
    ix_words ix = 0 /\ s_words c.1 = 1) by (apply run_case; vm_compute; repeat (split; [done|]); done).
  destruct H as (ix & Hr & H). destruct (l_C65_layout 0 ix) as [L1 L2].
  exists go_grow, ex_two, ix, (smem_of 0 ix), (go ix callss (r 19 0 ++ r 60 1 ++ r 40 0)).
  split; [exact Hr|]. split; [exact L1|]. split; [exact L2|]. split; [apply go_rtc|exact H].
Qed.
Print Assumptions C65_lost_count_refuted.
