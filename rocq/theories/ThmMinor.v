(** Proofs about small functions: C87. *)
From Coq Require Import ZifyBool ZifyNat ZifyN.
From Verif Require Import Base Storage Tags TagSets Variants Items Index Spec Hist
  BaseFacts SpecFacts TrieFacts NoteFacts HistFacts ThmTrie ThmTags AnswerSpec Screen Minor MinorSpec ThmRest.
From stdpp Require Import list gmap.
Open Scope N_scope.

Lemma l_C87_text : forall e x,
  gerror_text e = Ok x <-> exists l, tells e l /\ x = join_with (bytes_of ": ") l.
Proof.
  assert (Hne : forall e l, tells e l -> l <> []) by (by destruct 1).
  induction e as [| |a t w IH|n t i _]; intros x.
  - split; [done|]. intros (l & H & _). inversion H.
  - split; [done|]. intros (l & H & _). inversion H.
  - assert (Hw : w <> ENil -> gerror_text (EPointer a t w) = (x ← gerror_text w; Ok (t ++ bytes_of ": " ++ x))) by (by destruct w).
    assert (Hd : w = ENil \/ w <> ENil) by (destruct w; first [by left|by right]). destruct Hd as [->|Hn].
    + split.
      * intros [= <-]. exists [t]. split; [constructor|done].
      * intros (l & H & ->). inversion H as [|?? E|???? H' E]; subst; [done|]. inversion H'.
    + rewrite (Hw Hn). split.
      * intros H. destruct (gerror_text w) as [y| |] eqn:E; cbn in H; [|done|done]. injection H as <-.
        destruct (proj1 (IH y) eq_refl) as (l & Hl & ->). exists (t :: l). split; [by constructor|].
        apply Hne in Hl. by destruct l.
      * intros (l & H & ->). inversion H as [|?? E|? ? ? l' H' E]; subst; [done|].
        rewrite (proj2 (IH (join_with (bytes_of ": ") l'))) by (by exists l'). cbn [mbind res_bind]. apply Hne in H'. by destruct l'.
  - split.
    + intros [= <-]. exists [t]. split; [constructor|done].
    + intros (l & H & ->). by inversion H.
Qed.
Lemma l_C87_panic : forall e,
  (gerror_text e = Panic <-> e = ENil \/ dangling e) /\ forall y, gerror_text e <> Err y.
Proof.
  induction e as [| |a t w [IH1 IH2]|n t i _].
  - split; [|done]. split; [by left|done].
  - split; [|done]. split; [right; constructor|done].
  - assert (Hw : w <> ENil -> gerror_text (EPointer a t w) = (x ← gerror_text w; Ok (t ++ bytes_of ": " ++ x))) by (by destruct w).
    assert (Hd : w = ENil \/ w <> ENil) by (destruct w; first [by left|by right]). destruct Hd as [->|Hn].
    + split; [|done]. split; [done|]. intros [?|H]; [done|]. inversion H as [|? ? ? H']; subst. inversion H'.
    + rewrite (Hw Hn). split.
      * split.
        -- intros H. right. constructor. destruct (gerror_text w) as [y|y|]; cbn in H; [done|done|].
           destruct (proj1 IH1 eq_refl) as [?|?]; done.
        -- intros [?|H]; [done|]. inversion H as [|? ? ? H']; subst. rewrite (proj2 IH1) by (by right). done.
      * intros y H. destruct (gerror_text w) as [z|z|]; cbn in H; [done| |done]. by apply (IH2 z).
  - split; [|done]. split; [done|]. intros [?|H]; [done|]. inversion H.
Qed.
Lemma l_C87_go_string : forall e x,
  gerror_go_string e = Ok x <-> exists y, gerror_text e = Ok y /\ x = bytes_of "grammemes.Error:" ++ y.
Proof.
  intros e x. unfold gerror_go_string. destruct (gerror_text e) as [y|y|]; cbn [mbind res_bind].
  - split; [intros [= <-]; by exists y|]. intros (z & [= <-] & ->). done.
  - split; [done|]. by intros (z & ? & _).
  - split; [done|]. by intros (z & ? & _).
Qed.
Lemma same_identical y x : x <> ENil -> same_gerror y x = true <-> identical y x.
Proof.
  intros Hx. split.
  - destruct y, x; cbn; try done; intros H; try apply N.eqb_eq in H; subst; constructor.
  - intros H. inversion H; subst; cbn; try done; apply N.eqb_refl.
Qed.
Lemma is_same : forall e x, x <> ENil ->
  is_gerror e x = true <-> exists y, reaches e y /\ same_gerror y x = true.
Proof.
  assert (H0 : forall e x, same_gerror e x = true -> exists y, reaches e y /\ same_gerror y x = true).
  { intros e x H. exists e. split; [constructor|done]. }
  induction e as [| |a t w _|n t i IH]; intros x Hx.
  1-3: cbn [is_gerror]; rewrite orb_false_r; split; [apply H0|]; intros (y & Hy & H); by inversion Hy; subst.
  cbn [is_gerror]. assert (Hi : i <> ENil -> (match i, x with ENil, _ | _, ENil => false | _, _ => is_gerror i x end) = is_gerror i x)
    by (by destruct i, x).
  split.
  - intros H. apply orb_true_iff in H as [H|H]; [by apply H0|].
    assert (Hd : i <> ENil) by (by intros ->). rewrite (Hi Hd) in H. apply IH in H as (y & Hy & H); [|done].
    exists y. split; [by constructor|done].
  - intros (y & Hy & H). apply orb_true_iff. inversion Hy as [|? ? ? ? Hd Hy']; subst; [by left|right].
    rewrite (Hi Hd). apply IH; [done|]. by exists y.
Qed.
Lemma l_C87_is : forall e x,
  (x <> ENil -> is_gerror e x = true <-> exists y, reaches e y /\ identical y x) /\
  (is_gerror e ENil = true <-> e = ENil).
Proof.
  intros e x. split.
  - intros Hx. rewrite (is_same e x Hx). split; intros (y & Hy & H); exists y; (split; [done|]); by apply same_identical.
  - split; [|by intros ->]. destruct e as [| | |n t i]; cbn; try done. by destruct i.
Qed.
(** What WrapErrorf wraps cannot be found again. *)
Lemma l_C87_wrapped_is_lost_refuted : forall next w text x, older next w -> w <> ENil -> older next x ->
  (exists z, gerror_text w = Ok z) ->
  (exists z, gerror_text (wrap_errorf next w text).2 = Ok (text ++ bytes_of ": " ++ z) /\ gerror_text w = Ok z) /\
  is_gerror (wrap_errorf next w text).2 x = false.
Proof.
  intros next w text x Hw Hn Hx [z Hz]. split.
  - exists z. split; [|done]. cbn [wrap_errorf snd]. destruct w; [done|..]; cbn [gerror_text] in *; by rewrite Hz.
  - cbn. rewrite orb_false_r. destruct x as [| |b ? ?|]; try done. destruct Hx as [Hx _]. by apply N.eqb_neq; lia.
Qed.
(** Two errors with the same text are different errors. *)
Lemma l_C87_new : forall next text text',
  let '(next1, a) := new_errorf next text in let '(next2, b) := new_errorf next1 text' in
  gerror_text a = Ok text /\ gerror_text b = Ok text' /\
  is_gerror a a = true /\ is_gerror a b = false /\ is_gerror b a = false /\ older next1 a /\ older next2 b.
Proof.
  intros next t t'. cbn. repeat split; try lia; rewrite ?orb_false_r; (apply N.eqb_eq || apply N.eqb_neq); lia.
Qed.

(** ** Accessors *)
Lemma l_C87_next_id : forall h ix, runs h ix ->
  items_next_id (ix_items ix) = lenN (d_words (d_run h)) + 1 /\ nodes_count ix = items_next_id (ix_items ix) - 1.
Proof.
  intros h ix H. destruct (runs_R h ix H) as (ld & Hld & T & A). unfold items_next_id, nodes_count.
  pose proof (t_len _ _ _ _ T) as H1. pose proof (t_room _ _ _ _ T) as H2. pose proof (t_cap _ _ _ _ T) as H3.
  split; [done|]. unfold wrap32. rewrite H1 in *.
  replace (lenN (d_words (d_run h)) + 1 + 4294967295) with (lenN (d_words (d_run h)) + 1 * 4294967296) by lia.
  rewrite N.mod_add by done. rewrite N.mod_small by lia. lia.
Qed.
Lemma l_C87_item : forall h ix id w, runs h ix -> word_at (d_run h) id w ->
  exists it, node_item ix id = Ok it /\ get_item ix id = Ok (Some it).
Proof.
  intros h ix id w H Hw. destruct (runs_R h ix H) as (ld & Hld & T & A). apply word_at_pos in Hw as [Hw H0].
  destruct (trie_item T id w H0 Hw) as (it & q & H1 & H2 & _). exists it. split; [|done].
  unfold node_item, slice_get. by rewrite H2.
Qed.
(** For a number that is no node Item gives the zero item or panics, where the search gives nil. *)
Lemma l_C87_item_of_no_node_refuted : forall h ix id, runs h ix -> (forall w, ~ word_at (d_run h) id w) ->
  get_item ix id = Ok None /\
  node_item ix id = (if lenN (its_list (ix_items ix)) <=? id then Panic else Ok zero_item) /\
  node_item ix 0 = Ok zero_item.
Proof.
  intros h ix id H Hn. destruct (runs_R h ix H) as (ld & Hld & T & A). unfold get_item.
  assert (H0 : node_item ix 0 = Ok zero_item) by (unfold node_item, slice_get; change (N.to_nat 0) with 0%nat; by rewrite (t_zero _ _ _ _ T)).
  destruct (decide (id = 0)) as [->|Hid].
  - pose proof (t_room _ _ _ _ T). pose proof (t_len _ _ _ _ T). destruct (N.leb_spec (lenN (its_list (ix_items ix))) 0); [lia|].
    repeat split; try done.
  - assert (Hlt : its_next (ix_items ix) <= id).
    { destruct (N.leb_spec (its_next (ix_items ix)) id) as [?|Hlt]; [done|]. destruct (trie_id_ex T id Hlt) as [w Hw].
      destruct (Hn w). apply word_at_pos. done. }
    split; [exact (trie_get_none id Hlt)|]. split; [|done]. unfold node_item, slice_get.
    destruct (N.leb_spec (lenN (its_list (ix_items ix))) id).
    + rewrite lookup_ge_None_2; [done|]. unfold lenN in *. lia.
    + destruct (its_list (ix_items ix) !! N.to_nat id) as [it|] eqn:E.
      * by rewrite (t_tail _ _ _ _ T (N.to_nat id) it) by (done || lia).
      * apply lookup_ge_None in E. unfold lenN in *. lia.
Qed.
Lemma l_C87_lengths : forall ts (t : tagset_table) k,
  (is_Some (tags_get ts k) <-> k < tags_len ts) /\ (is_Some (tagset_table_get t k) <-> k < tagset_table_len t).
Proof.
  intros ts t k. unfold tags_len, tagset_table_len. split.
  - rewrite tags_get_lookup, lookup_lt_is_Some. unfold lenN. lia.
  - unfold tagset_table_get, table_get. split.
    + destruct (N.leb_spec (lenN t) k) as [Hk|Hk]; [by intros [? ?]|done].
    + intros Hk. destruct (N.leb_spec (lenN t) k); [lia|]. apply lookup_lt_is_Some. unfold lenN in *. lia.
Qed.
Lemma l_C87_tables : forall x n t, lenN x <= 65535 -> 1 <= n <= 65535 ->
  variants_get_table x n = Ok t <-> variants_tables x !! N.to_nat (n - 1) = Some t.
Proof.
  intros x n t Hx Hn. rewrite l_C86_table by lia. rewrite decide_False by lia. unfold variants_tables.
  destruct (x !! N.to_nat (n - 1)); split; by intros [= <-].
Qed.
Lemma l_C87_node_map_cannot_be_written_refuted : forall m, node_map_write m = Panic.
Proof. done. Qed.
Lemma l_C87_tag_string : forall h ix i j a b, runs h ix -> ix_tags ix !! i = Some a -> ix_tags ix !! j = Some b ->
  tag_string a = tag_string b -> i = j.
Proof.
  intros h ix i j a b H Ha Hb E. destruct (runs_R h ix H) as (ld & Hld & T & A). rewrite (a_tags _ _ A) in *.
  pose proof (a_names _ _ A) as Hn. rewrite list_lookup_fmap in Ha, Hb.
  destruct (d_tags (d_run h) !! i) as [x|] eqn:Ei; [|done]. destruct (d_tags (d_run h) !! j) as [y|] eqn:Ej; [|done].
  injection Ha as <-. injection Hb as <-. unfold tag_string, tag_of in E. cbn in E.
  eapply NoDup_lookup; [exact Hn| |]; rewrite list_lookup_fmap; [by rewrite Ei|]. rewrite Ej. cbn. by rewrite <- E.
Qed.
Lemma l_C87_tag_string_hides_the_parent_refuted : forall t, exists t', t' <> t /\ tag_string t' = tag_string t.
Proof.
  intros [p n]. exists (mkTag (0 :: p) n). split; [|done]. intros [= E]. apply (f_equal length) in E. cbn in E. lia.
Qed.
Lemma l_C87_get_item : forall h ix id, runs h ix ->
  index_get ix id = Ok (index_get_item ix id) <-> id = 0 \/ exists w, word_at (d_run h) id w.
Proof.
  intros h ix id H. destruct (runs_R h ix H) as (ld & Hld & T & A). unfold index_get, index_get_item.
  pose proof (t_len _ _ _ _ T) as Hl. destruct (N.leb_spec (its_next (ix_items ix)) id) as [Hk|Hk].
  - split; [done|]. intros [->|[w Hw]]; [lia|]. apply word_at_pos in Hw as [Hw H0]. apply lookup_lt_Some in Hw. cbn [length] in Hw.
    unfold lenN in Hl. lia.
  - split; [|done]. intros _. destruct (decide (id = 0)) as [->|H0]; [by left|right].
    destruct (trie_id_ex T id Hk) as [w Hw]. exists w. by apply word_at_pos.
Qed.
