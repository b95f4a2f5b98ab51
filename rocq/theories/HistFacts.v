(** The index refines the abstract dictionary along every history. *)
From Coq Require Import ZifyBool ZifyNat ZifyN.
From Verif Require Import Base Storage Bin Utf8 Tags TagSets Variants Items Index Spec Hist
  BaseFacts Intern SpecFacts TrieFacts NoteFacts OptFacts BinFacts CodecFacts ReloadFacts.
From stdpp Require Import list.
Open Scope N_scope.

(** [b] tells whether a load was attempted, [ld] whether one succeeded. *)
Definition R (b : bool) (ix : index) (d : dict) : Prop :=
  exists ld : bool, (ld = true -> b = true) /\ trie_of ld ix (d_words d) /\ annot ix d.

Lemma R_new : R false index_new d_empty.
Proof.
  exists false. split; [done|]. split.
  - split; cbn; try done.
    + apply NoDup_singleton.
    + intros i it Hi H. destruct i as [|i]; [lia|done].
    + intros p r c. unfold child. rewrite lookup_empty. split; [done|].
      intros [(Hc & q & Hq & H)|(? & _)]; [|done].
      destruct (N.to_nat c) eqn:E; cbn in H; [lia|]. done.
  - split; cbn; try done; try apply tables_ok_nil; try (split; [done|constructor]);
      try constructor; intros c; by destruct c.
Qed.

Lemma fetch_refines ld ix d w :
  trie_of ld ix (d_words d) -> annot ix d -> head_ok ld w ->
  trie_of ld (fetch_runes ix w).1 (d_words d) /\ annot (fetch_runes ix w).1 d /\
  same_core (fetch_runes ix w).1 ix /\
  (fetch_runes ix w).2 = match w with [] => Err EIndex | _ => d_find d w end.
Proof.
  intros T A Hh. destruct (fetch_from_spec ld (d_words d) ix 0 [] w T (P_0 _) Hh) as [Hs Hr].
  unfold fetch_runes. split; [by eapply trie_of_same|]. split; [by eapply annot_same|].
  split; [done|]. rewrite Hr. by destruct w.
Qed.

Lemma add_refines ld ix d w :
  trie_of ld ix (d_words d) -> annot ix d -> head_ok ld w -> Forall int32 w ->
  lenN (its_list (ix_items (add_runes ix w).1)) < 4294967296 ->
  trie_of ld (add_runes ix w).1 (d_words (d_add d w)) /\ annot (add_runes ix w).1 (d_add d w) /\
  (add_runes ix w).2 = match w with [] => Err EIndex | _ => d_find (d_add d w) w end.
Proof.
  intros T A Hh Hw Hc. unfold add_runes, add_to_node in *. destruct w as [|r w]; [by destruct d|].
  destruct (add_loop_spec ld (r :: w) (d_words d) ix 0 [] T) as (T' & F & id & Hid & Hpos); [apply P_0|done..|].
  split; [done|]. split; [by eapply annot_add|]. rewrite Hid. unfold d_find.
  assert (id <> 0) by (intros ->; by rewrite P_0 in Hpos).
  rewrite P_pos in Hpos by done. cbn [d_words d_add].
  erewrite (pos_from_lookup 1 _ _ _ (trie_ws_NoDup T')); [|exact Hpos]. f_equal. lia.
Qed.

(** One call: the new index represents the new dictionary and the result is the one of the
    dictionary. *)
Theorem step_refines b ix d o ix' r :
  R b ix d -> op_ok b ix o -> step ix o = (ix', r) -> caps ix' = true ->
  R (b || is_reload o) ix' (d_step d o) /\ r = d_out d o.
Proof.
  intros (ld & Hld & T & A) Hok Hstep Hcaps.
  assert (Hhead : forall w, (b = true -> head w <> Some 0%Z) -> head_ok ld w).
  { intros w H E. by apply H, Hld. }
  destruct o as [w|w|n p|w names| |]; cbn [step op_ok is_reload d_step d_out] in *; rewrite ?orb_false_r.
  - destruct Hok as [Hw Hh]. apply caps_spec in Hcaps as (_ & _ & _ & Hi).
    destruct (add_refines ld ix d w T A (Hhead w Hh) Hw) as (T' & A' & Hr); rewrite Hstep in *; [done|].
    split; [by exists ld|done].
  - destruct Hok as [Hw Hh].
    destruct (fetch_refines ld ix d w T A (Hhead w Hh)) as (T' & A' & _ & Hr). rewrite Hstep in *.
    split; [by exists ld|done].
  - destruct (index_tag_id ix n p) as [ix1 id] eqn:E. injection Hstep as <- <-.
    apply caps_spec in Hcaps as (Ht & _). destruct Hok as [Hn Hp].
    destruct (tag_register ld ix d n p ix1 id T A Hn Hp E Ht) as (-> & T' & A').
    split; [by exists ld|done].
  - destruct Hok as (Hne & Hw & Hh).
    destruct (fetch_refines ld ix d w T A (Hhead w Hh)) as (T' & A' & Hs & Hr).
    destruct (fetch_runes ix w) as [ix1 r1]. cbn [fst snd] in *.
    assert (Hr' : r1 = match pos_from 1 (d_words d) w with Some i => Ok i | None => Err EIndex end).
    { subst r1. destruct w as [|a w]; [|done].
      destruct (pos_from 1 (d_words d) []) as [i|] eqn:Ep; [|done].
      apply pos_from_Some in Ep as (j & _ & Hj). exfalso.
      apply (trie_nil_notin T). by eapply elem_of_list_lookup_2. }
    destruct (pos_from 1 (d_words d) w) as [i|] eqn:Ep; subst r1; rewrite Hr' in Hstep.
    2:{ injection Hstep as <- <-. split; [by exists ld|done]. }
    destruct (node_add_tag_set ix1 i names) as [ix2 r2] eqn:E. injection Hstep as <- <-.
    apply pos_from_Some in Ep as (j & -> & Hj).
    replace (1 + N.of_nat j) with (N.of_nat (S j)) in E by lia.
    pose proof (attach_tag_set T' A' j w names ix2 r2 Hj Hne E Hcaps) as Hat.
    destruct (d_ids d names) as [ids|].
    + destruct Hat as (-> & T2 & A2). split; [by exists ld|done].
    + destruct Hat as (-> & ->). split; [by exists ld|done].
  - destruct (optimize_spec T A) as (ix1 & E & T' & A' & _). rewrite E in Hstep.
    injection Hstep as <- <-. split; [by exists ld|done].
  - destruct Hok as [Hd Hp]. rewrite (reload_spec T A Hd Hp) in Hstep. rewrite orb_true_r.
    destruct (decide (storable d)); injection Hstep as <- <-.
    + destruct (loaded_spec T A Hp) as [T' A']. split; [by exists true|done].
    + split; [by exists ld|done].
Qed.

(** Along a history. *)
Theorem runs_refines h ix : runs h ix -> R (reloaded h) ix (d_run h).
Proof.
  induction 1 as [|h o ix ix' r H IH Hok Hstep Hcaps]; [apply R_new|].
  rewrite d_run_snoc, reloaded_snoc. by eapply step_refines.
Qed.
