(** The abstract dictionary in terms of the calls made. *)
From Coq Require Import ZifyBool ZifyNat ZifyN.
From Verif Require Import Base BaseFacts Spec SpecFacts.
From stdpp Require Import list.

(** ** Tags *)
Lemma d_step_tags d o :
  d_tags (d_step d o) = match o with OTagID n p => d_tags (d_register d n p) | _ => d_tags d end.
Proof.
  destruct o; cbn; try done. destruct (pos_from _ _ _); [|done]. by destruct (d_ids _ _).
Qed.
Lemma d_register_tags d n p : exists new, d_tags (d_register d n p) = d_tags d ++ new.
Proof.
  unfold d_register. destruct (d_tag_pos d n); [exists []; by rewrite app_nil_r|]. by eexists.
Qed.
Lemma d_step_tags_prefix d o : d_tags d `prefix_of` d_tags (d_step d o).
Proof.
  rewrite d_step_tags. destruct o; try done. destruct (d_register_tags d name parent) as [new ->].
  by exists new.
Qed.
Lemma d_run_tags_prefix h h' : d_tags (d_run h) `prefix_of` d_tags (d_run (h ++ h')).
Proof.
  induction h' as [|o h' IH] using rev_ind; [by rewrite app_nil_r|].
  rewrite app_assoc, d_run_snoc. etrans; [exact IH|]. apply d_step_tags_prefix.
Qed.
Lemma tag_pos_prefix d d' n k : d_tags d `prefix_of` d_tags d' ->
  d_tag_pos d n = Some k -> d_tag_pos d' n = Some k.
Proof.
  intros [new E] H. unfold d_tag_pos in *. rewrite E, fmap_app. by apply pos_from_app_old.
Qed.
Lemma d_ids_prefix d d' names ids : d_tags d `prefix_of` d_tags d' ->
  d_ids d names = Some ids -> d_ids d' names = Some ids.
Proof.
  intros Hp. unfold d_ids. rewrite !mapM_Some. intros H.
  eapply Forall2_impl; [exact H|]. intros n k. by apply tag_pos_prefix.
Qed.
Lemma d_run_registered h n : n ∈ (d_tags (d_run h)).*1 <-> n ∈ registered h.
Proof.
  induction h as [|o h IH] using rev_ind; [done|].
  rewrite d_run_snoc, d_step_tags, registered_snoc, elem_of_app, <- IH.
  destruct o; try (rewrite elem_of_nil; naive_solver).
  rewrite elem_of_list_singleton. unfold d_register.
  destruct (d_tag_pos (d_run h) name) as [k|] eqn:E.
  - split; [by left|]. intros [?| ->]; [done|]. unfold d_tag_pos in E.
    apply pos_from_Some in E as (j & _ & Hj). by eapply elem_of_list_lookup_2.
  - cbn [d_tags]. rewrite fmap_app, elem_of_app. change ([(name, if decide (parent = []) then bytes_of "----" else parent)].*1) with [name].
    by rewrite elem_of_list_singleton.
Qed.
Lemma d_tag_pos_registered h n : is_Some (d_tag_pos (d_run h) n) <-> n ∈ registered h.
Proof.
  rewrite <- d_run_registered. unfold d_tag_pos.
  destruct (pos_from 0 (d_tags (d_run h)).*1 n) as [k|] eqn:E.
  - split; [|by eexists]. intros _. apply pos_from_Some in E as (j & _ & Hj).
    by eapply elem_of_list_lookup_2.
  - apply pos_from_None in E. split; [by intros []|done].
Qed.
Lemma d_ids_registered h names :
  is_Some (d_ids (d_run h) names) <-> forall n, n ∈ names -> n ∈ registered h.
Proof.
  unfold d_ids. setoid_rewrite <- d_tag_pos_registered.
  rewrite mapM_is_Some, Forall_forall. done.
Qed.
Lemma d_ids_None h names :
  d_ids (d_run h) names = None <-> ~ forall n, n ∈ names -> n ∈ registered h.
Proof. rewrite <- d_ids_registered. by rewrite <- eq_None_not_Some. Qed.

(** ** Annotations *)
Lemma snoc_split {A} (h h1 h2 : list A) o o' :
  h ++ [o] = h1 ++ o' :: h2 <-> (h = h1 /\ o = o' /\ h2 = []) \/ (exists h3, h2 = h3 ++ [o] /\ h = h1 ++ o' :: h3).
Proof.
  split.
  - intros E. destruct h2 as [|x h2] using rev_ind.
    + apply app_inj_tail in E as [-> ->]. by left.
    + rewrite app_comm_cons, app_assoc in E. apply app_inj_tail in E as [-> ->]. right. by exists h2.
  - intros [(-> & -> & ->)|(h3 & -> & ->)]; [done|]. by rewrite app_comm_cons, app_assoc.
Qed.
Lemma attached_snoc h o w names :
  attached (h ++ [o]) w names <->
  attached h w names \/ (o = OTag w names /\ present h w /\ forall n, n ∈ names -> n ∈ registered h).
Proof.
  unfold attached. split.
  - intros (h1 & h2 & E & Hp & Hr). apply snoc_split in E as [(-> & -> & ->)|(h3 & -> & ->)].
    + by right.
    + left. by exists h1, h3.
  - intros [(h1 & h2 & -> & Hp & Hr)|(-> & Hp & Hr)].
    + exists h1, (h2 ++ [o]). by rewrite <- app_assoc.
    + by exists h, [].
Qed.
Lemma attached_registered h w names : attached h w names -> forall n, n ∈ names -> n ∈ registered h.
Proof.
  intros (h1 & h2 & -> & _ & Hr) n Hn. specialize (Hr n Hn).
  unfold registered in *. rewrite omap_app, elem_of_app. by left.
Qed.
Lemma attached_present h w names : attached h w names -> present h w.
Proof.
  intros (h1 & h2 & -> & (Hne & w' & Hin & Hp) & _). split; [done|]. exists w'. split; [|done].
  unfold added in *. rewrite omap_app, elem_of_app. by left.
Qed.

Lemma d_run_notes h w s :
  (exists S, d_notes (d_run h) !! w = Some S /\ s ∈ S) <->
  exists names ids, attached h w names /\ d_ids (d_run h) names = Some ids /\ s = merge_sort N.le ids.
Proof.
  induction h as [|o h IH] using rev_ind.
  { cbn. split.
    - intros (S & H & _). by rewrite lookup_empty in H.
    - intros (names & ids & (h1 & h2 & E & _) & _). by destruct h1. }
  rewrite d_run_snoc. pose proof (d_step_tags_prefix (d_run h) o) as Hpre.
  assert (Hold : (exists names ids, attached h w names /\ d_ids (d_step (d_run h) o) names = Some ids
      /\ s = merge_sort N.le ids) <-> (exists S, d_notes (d_run h) !! w = Some S /\ s ∈ S)).
  { rewrite IH. split; intros (names & ids & Ha & Hi & ->).
    - assert (is_Some (d_ids (d_run h) names)) as [ids' Hi'].
      { apply d_ids_registered. by eapply attached_registered. }
      assert (ids' = ids) as -> by (apply (d_ids_prefix _ _ _ _ Hpre) in Hi'; congruence).
      by exists names, ids.
    - exists names, ids. split; [done|]. split; [|done]. by eapply d_ids_prefix. }
  setoid_rewrite attached_snoc.
  assert (Hsplit : (exists names ids, (attached h w names \/
      (o = OTag w names /\ present h w /\ (forall n, n ∈ names -> n ∈ registered h))) /\
      d_ids (d_step (d_run h) o) names = Some ids /\ s = merge_sort N.le ids) <->
    (exists S, d_notes (d_run h) !! w = Some S /\ s ∈ S) \/
    (exists names ids, o = OTag w names /\ present h w /\ d_ids (d_run h) names = Some ids /\
       s = merge_sort N.le ids)).
  { rewrite <- Hold. split.
    - intros (names & ids & [Ha|(-> & Hp & Hr)] & Hi & ->); [left; by exists names, ids|].
      right. exists names, ids. split; [done|]. split; [done|]. split; [|done].
      apply d_ids_registered in Hr as [ids' Hi']. pose proof (d_ids_prefix _ _ _ _ Hpre Hi'). congruence.
    - intros [(names & ids & Ha & Hi & ->)|(names & ids & -> & Hp & Hi & ->)].
      + exists names, ids. by auto.
      + exists names, ids. split; [right|].
        * split; [done|]. split; [done|]. apply d_ids_registered. by eexists.
        * split; [|done]. by eapply d_ids_prefix. }
  rewrite Hsplit. clear Hold Hsplit Hpre IH. destruct o as [w0|w0|n p|w0 names| |]; cbn [d_step].
  1, 2, 5, 6: split; [by left|intros [?|(names & ids & ? & _)]; done].
  - unfold d_register. destruct (d_tag_pos _ _); (split; [by left|intros [?|(names & ids & ? & _)]; done]).
  - destruct (pos_from 1 (d_words (d_run h)) w0) as [i|] eqn:Ep.
    2:{ split; [by left|]. intros [?|(names' & ids & [= -> ->] & Hp & _)]; [done|].
        apply pos_from_None in Ep. by apply d_run_words in Hp. }
    assert (Hin : w0 ∈ d_words (d_run h)).
    { apply pos_from_Some in Ep as (j & _ & Hj). by eapply elem_of_list_lookup_2. }
    destruct (d_ids (d_run h) names) as [ids|] eqn:Ei.
    2:{ split; [by left|]. intros [?|(names' & ids & [= -> ->] & Hp & Hi & _)]; [done|congruence]. }
    cbn. destruct (decide (w = w0)) as [->|Hne].
    + rewrite lookup_insert. split.
      * intros (S & [= <-] & Hs). apply elem_of_union in Hs as [Hs|Hs].
        -- apply elem_of_singleton in Hs as ->. right. exists names, ids. split; [done|].
           split; [by apply d_run_words|done].
        -- left. destruct (d_notes (d_run h) !! w0) as [S|]; [by exists S|]. cbn in Hs.
           by apply elem_of_empty in Hs.
      * intros [(S & HS & Hs)|(names' & ids' & [= <-] & _ & Hi & ->)].
        -- eexists. split; [done|]. rewrite HS. cbn. apply elem_of_union. by right.
        -- eexists. split; [done|]. apply elem_of_union. left. apply elem_of_singleton. congruence.
    + rewrite lookup_insert_ne by done. split; [by left|].
      intros [?|(names' & ids' & [= -> _] & _)]; done.
Qed.
Lemma d_run_notes_ne h w S : d_notes (d_run h) !! w = Some S -> S <> ∅.
Proof.
  revert S. induction h as [|o h IH] using rev_ind; [done|]. intros S. rewrite d_run_snoc.
  destruct o as [w0|w0|n p|w0 names| |]; cbn [d_step]; try apply IH.
  - unfold d_register. destruct (d_tag_pos _ _); apply IH.
  - destruct (pos_from 1 (d_words (d_run h)) w0) as [i|]; [|apply IH].
    destruct (d_ids (d_run h) names) as [ids|]; [|apply IH]. cbn.
    destruct (decide (w = w0)) as [->|Hne].
    + rewrite lookup_insert. intros [= <-] E.
      assert (Hm : merge_sort N.le ids ∈ ({[merge_sort N.le ids]} ∪ default ∅ (d_notes (d_run h) !! w0) : gset (list N)))
        by (apply elem_of_union; left; by apply elem_of_singleton).
      rewrite E in Hm. by apply elem_of_empty in Hm.
    + rewrite lookup_insert_ne by done. apply IH.
Qed.
Lemma d_run_notes_dom h w :
  is_Some (d_notes (d_run h) !! w) <-> exists names, attached h w names.
Proof.
  split.
  - intros [S HS]. pose proof (d_run_notes_ne _ _ _ HS) as Hne.
    apply set_choose_L in Hne as [s Hs].
    destruct (proj1 (d_run_notes h w s)) as (names & ids & Ha & _); [by exists S|]. by exists names.
  - intros [names Ha].
    assert (is_Some (d_ids (d_run h) names)) as [ids Hi].
    { apply d_ids_registered. by eapply attached_registered. }
    destruct (proj2 (d_run_notes h w (merge_sort N.le ids))) as (S & HS & _); [by exists names, ids|].
    by exists S.
Qed.
