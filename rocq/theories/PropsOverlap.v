(** Processes that use a file at the same time: C78, C79.  The proofs are in ThmOverlap.v; the shared
    file and its turns are defined in Overlap.v. *)
From Verif Require Import Base Storage Bin Tags Items Index Spec Hist ThmTrie ThmDisk Overlap ThmOverlap.
From stdpp Require Import list relations.

(** Two dictionaries of one word each, whose files have the same length. *)
Definition ex_hist (w : list Z) : list op := [OTagID (bytes_of "NOUN") []; OAdd w; OTag w [bytes_of "NOUN"]].
Definition ex_saved (h : list op) : list N :=
  match run h with Some ix => match index_write ix with Ok (bs, None) => bs | _ => [] end | None => [] end.
Definition ex_a : list N := ex_saved (ex_hist [97; 98]%Z).
Definition ex_b : list N := ex_saved (ex_hist [99; 100]%Z).
(** What the examples look at: how many tag sets a word has in the file's dictionary, if there. *)
Definition sets_of (w : list Z) (bs : list N) : option (option nat) :=
  match index_read index_new bs with
  | Ok (ix, _) => Some (match (fetch_runes ix w).2 with Ok id => match node_tag_sets ix id with Ok s => Some (length s) | _ => None end | _ => None end)
  | _ => None
  end.

(** C78.  What a reader can have seen of a file that is being written over is exactly: a piece of
    the old content and then, from the same position on, a piece of the new one.  If it opened
    the file after the writer did, a beginning of the new content; then loading gives an error or
    has the whole new file.  If both contents are the same, a beginning of that. *)
Theorem C78_seen : forall old bs l,
  (exists s, turns (waiting old [bs]) s /\ s_seen s = Some l) <->
  exists i j, i <= length old /\ l = take i old ++ take j (drop i bs).
Proof. exact l_C78_seen. Qed.
Print Assumptions C78_seen.
Theorem C78_opened_late : forall old bs s1 s2 l,
  turns (waiting old [bs]) s1 -> (exists k, s_writers s1 = [mkWriter bs (Some k)]) -> s_seen s1 = None ->
  turns s1 s2 -> s_seen s2 = Some l -> l `prefix_of` bs.
Proof. exact l_C78_opened_late. Qed.
Print Assumptions C78_opened_late.
Theorem C78_same_bytes : forall bs s l, turns (waiting bs [bs]) s -> s_seen s = Some l -> l `prefix_of` bs.
Proof. exact l_C78_same_bytes. Qed.
Print Assumptions C78_same_bytes.
Theorem C78_load : forall h ix old bs s1 s2 l, runs h ix -> disk_caps ix = true -> index_write ix = Ok (bs, None) ->
  turns (waiting old [bs]) s1 -> (exists k, s_writers s1 = [mkWriter bs (Some k)]) -> s_seen s1 = None ->
  turns s1 s2 -> s_seen s2 = Some l -> l = bs \/ exists e, index_read index_new l = Err e.
Proof. exact l_C78_load. Qed.
Print Assumptions C78_load.
Example C78_case : length ex_a = 91 /\ sets_of [97; 98]%Z ex_a = Some (Some 1) /\ sets_of [99; 100]%Z ex_a = Some None /\
  sets_of [99; 100]%Z ex_b = Some (Some 1) /\ sets_of [97; 100]%Z ex_a = Some None /\ sets_of [97; 100]%Z ex_b = Some None /\
  (exists s, turns (waiting ex_a [ex_b]) s /\ s_seen s = Some (take 50 ex_b)) /\ sets_of [99; 100]%Z (take 50 ex_b) = None.
Proof.
  do 6 (split; [vm_compute; reflexivity|]). split; [|vm_compute; reflexivity].
  apply C78_seen. exists 0, 50. split; [lia|reflexivity].
Qed.
(** A reader that is overtaken by a save can load a dictionary that was never saved. *)
Theorem C78_overtaken_refuted : exists s l, turns (waiting ex_a [ex_b]) s /\ s_seen s = Some l /\
  sets_of [97; 100]%Z l = Some (Some 1) /\ sets_of [97; 98]%Z l = Some None /\ sets_of [99; 100]%Z l = Some None.
Proof.
  destruct (proj2 (C78_seen ex_a ex_b (take 71 ex_a ++ drop 71 ex_b))) as (s & T & Hs).
  { exists 71, 20. split; [vm_compute; lia|]. vm_compute. reflexivity. }
  exists s, (take 71 ex_a ++ drop 71 ex_b). split; [done|]. split; [done|]. vm_compute. auto.
Qed.
Print Assumptions C78_overtaken_refuted.

(** C79.  However the turns of several writers fall, when all have finished, every byte of the file
    is one that some writer wrote at this place or a zero in a gap, and the file has no gap up to the
    length of the one that created it last.  If all write the same, the file is that.  A
    writer that is not disturbed leaves what it wrote. *)
Theorem C79_mixture : forall old bss s, turns (waiting old bss) s -> bss <> [] -> Forall finished (s_writers s) ->
  (exists bs, bs ∈ bss /\ forall i, i < length bs -> exists b, s_file s !! i = Some b /\ offered bss i b) /\
  (forall i b, s_file s !! i = Some b -> offered bss i b \/ (b = 0%N /\ exists i' b', i < i' /\ offered bss i' b')).
Proof. exact l_C79_mixture. Qed.
Print Assumptions C79_mixture.
Theorem C79_same_bytes : forall old bs n s, turns (waiting old (replicate (S n) bs)) s -> Forall finished (s_writers s) -> s_file s = bs.
Proof. exact l_C79_same_bytes. Qed.
Print Assumptions C79_same_bytes.
Theorem C79_alone : forall s1 s2 i bs, s_writers s1 !! i = Some (mkWriter bs None) ->
  rtc (turn_of i) s1 s2 -> s_writers s2 !! i = Some (mkWriter bs (Some (length bs))) -> s_file s2 = bs.
Proof. exact l_C79_alone. Qed.
Print Assumptions C79_alone.
Definition turn_list (n : nat) (i : nat) : list (option nat) := replicate n (Some i).
Example C79_case : match go_all (waiting [1; 2] [[5; 6; 7]; [5; 6; 7]])%N [Some 0; Some 0; Some 0; Some 1; Some 0; Some 1; Some 1; Some 1] with
  | Some s => s_file s = [5; 6; 7]%N /\ Forall finished (s_writers s) | None => False end /\
  match go_all (waiting [1; 2] [[5; 6; 7]; [5; 6; 7]])%N [Some 0; Some 0; Some 0; Some 1; Some 0] with
  | Some s => s_file s = [0; 0; 7]%N | None => False end.
Proof. vm_compute. split; [split; [done|repeat constructor]|done]. Qed.
(** Two saves at the same time can leave a dictionary that was never saved. *)
Theorem C79_two_saves_refuted : exists s, turns (waiting [] [ex_a; ex_b]) s /\ Forall finished (s_writers s) /\
  sets_of [97; 100]%Z (s_file s) = Some (Some 1) /\ sets_of [97; 98]%Z (s_file s) = Some None /\ sets_of [99; 100]%Z (s_file s) = Some None.
Proof.
  destruct (go_all (waiting [] [ex_a; ex_b]) (turn_list 1 0 ++ turn_list 72 1 ++ turn_list 91 0 ++ turn_list 20 1)) as [s|] eqn:E; [|vm_compute in E; done].
  exists s. split; [by eapply go_turns|].
  assert (H : match go_all (waiting [] [ex_a; ex_b]) (turn_list 1 0 ++ turn_list 72 1 ++ turn_list 91 0 ++ turn_list 20 1) with
    | Some s => map w_pos (s_writers s) = [Some 91; Some 91] /\ map w_bytes (s_writers s) = [ex_a; ex_b] /\
       sets_of [97; 100]%Z (s_file s) = Some (Some 1) /\ sets_of [97; 98]%Z (s_file s) = Some None /\ sets_of [99; 100]%Z (s_file s) = Some None
    | None => False end) by (vm_compute; auto 10).
  rewrite E in H. destruct H as (H1 & H2 & H). split; [|done]. clear E. destruct s as [f ws seen]. cbn [s_writers] in *.
  destruct ws as [|[b0 p0] [|[b1 p1] [|]]]; try done. cbn in H1, H2. injection H1 as -> ->. injection H2 as -> ->.
  apply List.Forall_cons; [vm_compute; reflexivity|]. apply List.Forall_cons; [vm_compute; reflexivity|]. apply List.Forall_nil.
Qed.
Print Assumptions C79_two_saves_refuted.
(** A save that has finished with success can be undone by another that has just begun. *)
Theorem C79_finished_refuted : exists s w, turns (waiting [] [ex_a; ex_a]) s /\ s_writers s !! 0 = Some w /\ finished w /\ s_file s = [] /\
  sets_of [97; 98]%Z (s_file s) = None.
Proof.
  destruct (go_all (waiting [] [ex_a; ex_a]) (turn_list 92 0 ++ turn_list 1 1)) as [s|] eqn:E; [|vm_compute in E; done].
  assert (H : match go_all (waiting [] [ex_a; ex_a]) (turn_list 92 0 ++ turn_list 1 1) with
    | Some s => s_writers s = [mkWriter ex_a (Some 91); mkWriter ex_a (Some 0)] /\ s_file s = [] | None => False end) by (vm_compute; auto).
  rewrite E in H. destruct H as [H1 H2]. exists s, (mkWriter ex_a (Some 91)). split; [by eapply go_turns|]. rewrite H1, H2.
  split; [done|]. split; [vm_compute; reflexivity|]. split; [done|]. vm_compute. reflexivity.
Qed.
Print Assumptions C79_finished_refuted.
