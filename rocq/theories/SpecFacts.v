(** Facts about the abstract dictionary. *)
From Coq Require Import ZifyBool ZifyNat ZifyN.
From Verif Require Import Base BaseFacts Spec.

Section pos.
  Context {A : Type} `{EqDecision A}.
  Implicit Types l : list A.
  Lemma pos_from_Some i l x k : pos_from i l x = Some k ->
    exists j, k = (i + N.of_nat j)%N /\ l !! j = Some x.
  Proof.
    revert i. induction l as [|y l IH]; intros i; cbn; [done|].
    destruct (decide (y = x)) as [->|Hne].
    - intros [= <-]. exists 0%nat. split; [lia|done].
    - intros (j & -> & Hj)%IH. exists (S j). split; [lia|done].
  Qed.
  Lemma pos_from_None i l x : pos_from i l x = None <-> x ∉ l.
  Proof.
    revert i. induction l as [|y l IH]; intros i; cbn.
    - split; [|done]. intros _ H. by apply elem_of_nil in H.
    - destruct (decide (y = x)) as [->|Hne].
      + split; [done|]. intros H. exfalso. apply H. left.
      + rewrite IH, not_elem_of_cons. naive_solver.
  Qed.
  Lemma pos_from_lookup i l x j :
    NoDup l -> l !! j = Some x -> pos_from i l x = Some (i + N.of_nat j)%N.
  Proof.
    intros Hnd Hj. destruct (pos_from i l x) as [k|] eqn:E.
    - apply pos_from_Some in E as (j' & -> & Hj'). f_equal. f_equal. f_equal.
      eapply NoDup_lookup; eauto.
    - apply pos_from_None in E. exfalso. apply E. by eapply elem_of_list_lookup_2.
  Qed.
  Lemma pos_from_first i l x k j : pos_from i l x = Some k -> l !! j = Some x ->
    (k <= i + N.of_nat j)%N.
  Proof.
    revert i j. induction l as [|y l IH]; intros i j; cbn; [done|].
    destruct (decide (y = x)) as [->|Hne]; [intros [= <-]; lia|].
    intros Hk Hj. destruct j as [|j]; cbn in Hj; [congruence|].
    specialize (IH _ _ Hk Hj). lia.
  Qed.
  Lemma pos_from_app_old i l k x p : pos_from i l x = Some p -> pos_from i (l ++ k) x = Some p.
  Proof.
    revert i. induction l as [|y l IH]; intros i; cbn; [done|].
    destruct (decide (y = x)) as [->|Hne]; [done|]. apply IH.
  Qed.
End pos.

(** ** Words *)
Lemma add_prefixes_app ws pre rest : exists new, add_prefixes ws pre rest = ws ++ new.
Proof.
  revert ws pre. induction rest as [|r rest IH]; intros ws pre; cbn.
  - exists []. by rewrite app_nil_r.
  - destruct (IH (if decide (pre ++ [r] ∈ ws) then ws else ws ++ [pre ++ [r]]) (pre ++ [r])) as [new ->].
    destruct (decide _); [by exists new|]. exists ((pre ++ [r]) :: new). by rewrite <- app_assoc.
Qed.
Lemma add_prefixes_elem ws pre rest w :
  w ∈ add_prefixes ws pre rest <->
  w ∈ ws \/ exists k, k <> [] /\ k `prefix_of` rest /\ w = pre ++ k.
Proof.
  revert ws pre. induction rest as [|r rest IH]; intros ws pre; cbn.
  - split; [by left|]. intros [?|(k & Hk & Hp & _)]; [done|]. apply prefix_nil_inv in Hp. done.
  - rewrite IH.
    assert (Hif : w ∈ (if decide (pre ++ [r] ∈ ws) then ws else ws ++ [pre ++ [r]]) <->
                  w ∈ ws \/ w = pre ++ [r]).
    { destruct (decide _) as [Hin|Hin]; [naive_solver|].
      rewrite elem_of_app, elem_of_list_singleton. done. }
    rewrite Hif. split.
    + intros [[?| ->]|(k & Hk & Hp & ->)]; [by left| |].
      * right. exists [r]. split; [done|]. split; [|done]. apply prefix_cons, prefix_nil.
      * right. exists (r :: k). split; [done|]. split; [by apply prefix_cons|].
        by rewrite <- app_assoc.
    + intros [?|(k & Hk & Hp & ->)]; [by left; left|].
      destruct k as [|r' k]; [done|]. pose proof (prefix_cons_inv_1 _ _ _ _ Hp) as ->.
      apply prefix_cons_inv_2 in Hp. destruct k as [|r2 k]; [by left; right|].
      right. exists (r2 :: k). split; [done|]. split; [done|]. by rewrite <- app_assoc.
Qed.
Lemma add_prefixes_NoDup ws pre rest : NoDup ws -> NoDup (add_prefixes ws pre rest).
Proof.
  revert ws pre. induction rest as [|r rest IH]; intros ws pre Hnd; cbn; [done|].
  apply IH. destruct (decide _) as [Hin|Hin]; [done|].
  apply NoDup_app. split; [done|]. split.
  - intros x Hx ->%elem_of_list_singleton. done.
  - apply NoDup_singleton.
Qed.
(** nothing is added when all prefixes are there *)
Lemma add_prefixes_id ws pre rest :
  (forall k, k <> [] -> k `prefix_of` rest -> pre ++ k ∈ ws) -> add_prefixes ws pre rest = ws.
Proof.
  revert pre. induction rest as [|r rest IH]; intros pre H; cbn; [done|].
  rewrite decide_True.
  - apply IH. intros k Hk Hp. rewrite <- app_assoc. apply H; [done|]. by apply prefix_cons.
  - apply H; [done|]. apply prefix_cons, prefix_nil.
Qed.
Lemma add_prefixes_split ws pre a b :
  add_prefixes ws pre (a ++ b) = add_prefixes (add_prefixes ws pre a) (pre ++ a) b.
Proof.
  revert ws pre. induction a as [|r a IH]; intros ws pre; cbn; [by rewrite app_nil_r|].
  rewrite IH. by rewrite <- app_assoc.
Qed.

Lemma d_run_snoc h o : d_run (h ++ [o]) = d_step (d_run h) o.
Proof. unfold d_run. by rewrite fold_left_app. Qed.

Lemma d_step_words d o :
  d_words (d_step d o) = match o with OAdd w => add_prefixes (d_words d) [] w | _ => d_words d end.
Proof.
  destruct o; cbn; try done.
  - unfold d_register. by destruct (d_tag_pos _ _).
  - destruct (pos_from _ _ _); [|done]. by destruct (d_ids _ _).
Qed.
Lemma added_snoc h o : added (h ++ [o]) = added h ++ match o with OAdd w => [w] | _ => [] end.
Proof. unfold added. rewrite omap_app. by destruct o. Qed.
Lemma registered_snoc h o :
  registered (h ++ [o]) = registered h ++ match o with OTagID n _ => [n] | _ => [] end.
Proof. unfold registered. rewrite omap_app. by destruct o. Qed.
Lemma reloaded_snoc h o : reloaded (h ++ [o]) = reloaded h || is_reload o.
Proof. unfold reloaded. rewrite existsb_app. cbn. by rewrite orb_false_r. Qed.

Lemma d_run_NoDup h : NoDup (d_words (d_run h)).
Proof.
  induction h as [|o h IH] using rev_ind; [constructor|].
  rewrite d_run_snoc, d_step_words. destruct o; try done. by apply add_prefixes_NoDup.
Qed.

(** The abstract dictionary holds exactly the non-empty prefixes of added words. *)
Lemma d_run_words h w : w ∈ d_words (d_run h) <-> present h w.
Proof.
  unfold present. induction h as [|o h IH] using rev_ind.
  - cbn. split.
    + intros H. by apply elem_of_nil in H.
    + intros (_ & w' & H & _). by apply elem_of_nil in H.
  - rewrite d_run_snoc, d_step_words, added_snoc. destruct o; rewrite ?app_nil_r; try done.
    rewrite add_prefixes_elem, IH. cbn. split.
    + intros [(Hne & w' & Hin & Hp)|(k & Hk & Hp & ->)].
      * split; [done|]. exists w'. split; [|done]. apply elem_of_app. by left.
      * split; [done|]. exists w0. split; [|done]. apply elem_of_app. right. left.
    + intros (Hne & w' & Hin & Hp). apply elem_of_app in Hin as [Hin|Hin].
      * left. split; [done|]. by exists w'.
      * apply elem_of_list_singleton in Hin as ->. right. by exists w.
Qed.
Lemma d_run_nil_not h : [] ∉ d_words (d_run h).
Proof. rewrite d_run_words. by intros [? _]. Qed.

(** the words never move *)
Lemma d_step_words_prefix d o : d_words d `prefix_of` d_words (d_step d o).
Proof.
  rewrite d_step_words. destruct o; try done.
  destruct (add_prefixes_app (d_words d) [] w) as [new ->]. by exists new.
Qed.
Lemma d_run_words_prefix h h' : d_words (d_run h) `prefix_of` d_words (d_run (h ++ h')).
Proof.
  induction h' as [|o h' IH] using rev_ind; [by rewrite app_nil_r|].
  rewrite app_assoc, d_run_snoc. etrans; [exact IH|]. apply d_step_words_prefix.
Qed.
