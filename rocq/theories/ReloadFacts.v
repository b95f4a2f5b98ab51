(** Saving and loading an index gives back the same dictionary. *)
From Coq Require Import ZifyBool ZifyNat ZifyN.
From Verif Require Import Base Storage Bin Utf8 Tags TagSets Variants Items Index Spec Hist
  BaseFacts Intern SpecFacts TrieFacts NoteFacts OptFacts BinFacts CodecFacts.
From stdpp Require Import list.
Open Scope N_scope.

(** ** Rebuilding the children map *)
Definition at_edge (p : N) (r : Z) (it : item) : Prop := it_parent it = p /\ it_letter it = r.

Lemma rebuild_child l : forall pos m words p r c,
  pos + lenN l <= 4294967296 ->
  child (rebuild_loop pos l m words).1 p r = Some c <->
  (exists j it, l !! j = Some it /\ at_edge p r it /\ c = pos + N.of_nat j /\
     forall j' it', (j < j')%nat -> l !! j' = Some it' -> ~ at_edge p r it') \/
  ((forall j it, l !! j = Some it -> ~ at_edge p r it) /\ child m p r = Some c).
Proof.
  induction l as [|it l IH]; intros pos m words p r c Hpos; cbn [rebuild_loop].
  - cbn. split.
    + intros H. right. split; [|done]. intros j it Hj. by rewrite lookup_nil in Hj.
    + intros [(j & it & Hj & _)|[_ H]]; [by rewrite lookup_nil in Hj|done].
  - rewrite lenN_cons in Hpos. rewrite wrap32_small by lia.
    rewrite IH by lia. rewrite child_set, !child_ensure. split.
    + intros [(j & it' & Hj & He & -> & Hlast)|[Hnone H]].
      * left. exists (S j), it'. split; [done|]. split; [done|]. split; [lia|].
        intros [|j'] it2 Hlt Hj'; [lia|]. eapply (Hlast j'); [lia|done].
      * destruct (decide (p = it_parent it /\ r = it_letter it)) as [[-> ->]|Hne].
        -- left. exists 0%nat, it. injection H as <-. split; [done|]. split; [done|]. split; [lia|].
           intros [|j'] it2 Hlt Hj'; [lia|]. by eapply Hnone.
        -- right. split; [|done]. intros [|j] it2 Hj; [|by eapply Hnone].
           injection Hj as <-. intros [??]. by apply Hne.
    + intros [(j & it' & Hj & He & -> & Hlast)|[Hnone H]].
      * destruct j as [|j].
        -- injection Hj as <-. destruct He as [<- <-]. right. split.
           { intros j it2 Hj. apply (Hlast (S j)); [lia|done]. }
           rewrite decide_True by done. f_equal. lia.
        -- left. exists j, it'. split; [done|]. split; [done|]. split; [lia|].
           intros j' it2 Hlt Hj'. apply (Hlast (S j')); [lia|done].
      * right. split; [intros j it2 Hj; by apply (Hnone (S j))|].
        rewrite decide_False; [done|]. intros [-> ->]. by apply (Hnone 0%nat it).
Qed.
Lemma rebuild_words l : forall pos m words,
  (rebuild_loop pos l m words).2 = words + lenN (filter (fun it => it_variants it <> 0) l).
Proof.
  induction l as [|it l IH]; intros pos m words; cbn [rebuild_loop]; [cbn; lia|].
  rewrite IH, filter_cons. destruct (N.eqb_spec (it_variants it) 0) as [E|E].
  - by rewrite decide_False by (intros H; by apply H).
  - rewrite decide_True by done. rewrite lenN_cons. lia.
Qed.

Lemma filter_length_Forall2 {A B} (P : A -> Prop) (Q : B -> Prop)
    `{!forall x, Decision (P x), !forall y, Decision (Q y)} l k :
  Forall2 (fun x y => P x <-> Q y) l k -> length (filter P l) = length (filter Q k).
Proof.
  induction 1 as [|x y l k Hxy _ IH]; [done|]. rewrite !filter_cons.
  destruct (decide (P x)), (decide (Q y)); cbn; naive_solver congruence.
Qed.

Section reload.
  Context {ld : bool} {ix : index} {d : dict}.
  Context (T : trie_of ld ix (d_words d)) (A : annot ix d).
  Let its := ix_items ix.
  Let ws := d_words d.
  Let cut := take (N.to_nat (its_next its)) (its_list its).
  Let its' := mkItems cut (its_next its).

  Lemma cut_lookup i it : cut !! i = Some it <-> (N.of_nat i < its_next its) /\ its_list its !! i = Some it.
  Proof.
    unfold cut. split.
    - intros H. pose proof (lookup_lt_Some _ _ _ H) as Hl. rewrite take_length in Hl.
      rewrite lookup_take in H by lia. split; [lia|done].
    - intros [Hi H]. by rewrite lookup_take by lia.
  Qed.
  Lemma cut_len : lenN cut = its_next its.
  Proof.
    unfold cut, lenN. rewrite take_length. pose proof (t_room _ _ _ _ T). unfold lenN, its in *. lia.
  Qed.
  (** the item at an edge is the node of the longer word *)
  Lemma edge_word i it p r : cut !! S i = Some it -> at_edge p r it ->
    exists q, ([] :: ws) !! N.to_nat p = Some q /\ ws !! i = Some (q ++ [r]).
  Proof.
    intros [Hlt Hit]%cut_lookup [<- <-]. pose proof (t_len _ _ _ _ T) as Hlen.
    destruct (ws !! i) as [w|] eqn:E.
    - destruct (t_items _ _ _ _ T i w E) as (it' & q & Hit' & _ & _ & Hq & -> & _).
      fold its in Hit'. assert (it' = it) as -> by congruence. by exists q.
    - apply lookup_ge_None in E. unfold lenN, its, ws in *. lia.
  Qed.
  Lemma word_edge i w : ws !! i = Some w ->
    exists it q, cut !! S i = Some it /\ ([] :: ws) !! N.to_nat (it_parent it) = Some q /\
      w = q ++ [it_letter it] /\ it_id it = N.of_nat (S i) /\ it_parent it <= N.of_nat i /\
      int32 (it_letter it).
  Proof.
    intros H. destruct (t_items _ _ _ _ T i w H) as (it & q & Hit & Hid & Hp & Hq & -> & Hr).
    exists it, q. split.
    - apply cut_lookup. split; [|done]. pose proof (t_len _ _ _ _ T) as Hlen.
      apply lookup_lt_Some in H. unfold lenN, its, ws in *. lia.
    - repeat split; try done; lia || apply Hr.
  Qed.
  Lemma cut_zero : cut !! 0%nat = Some zero_item.
  Proof. apply cut_lookup. split; [pose proof (t_len _ _ _ _ T); unfold its; lia|]. apply T. Qed.

  Lemma rebuilt_trie words : trie true its' (rebuild its' ∅ words).1 ws.
  Proof.
    split; cbn.
    - apply T.
    - by rewrite cut_len.
    - rewrite cut_len. pose proof (t_room _ _ _ _ T). pose proof (t_cap _ _ _ _ T). unfold its. lia.
    - apply T.
    - apply cut_zero.
    - intros i w Hi. destruct (word_edge i w Hi) as (it & q & H1 & H2 & H3 & H4 & H5 & H6).
      exists it, q. repeat split; try done; lia || apply H6.
    - intros i it Hi H. apply cut_lookup in H as [H _]. lia.
    - intros p r c. unfold rebuild. cbn [its_list its'].
      assert (Hpos : 0 + lenN cut <= 4294967296).
      { rewrite cut_len. pose proof (t_room _ _ _ _ T). pose proof (t_cap _ _ _ _ T). unfold its. lia. }
      rewrite rebuild_child by done. rewrite child_ensure. unfold child at 1. rewrite lookup_empty.
      split.
      + intros [(j & it & Hj & He & -> & Hlast)|[_ ?]]; [|done]. destruct j as [|i].
        * right. rewrite cut_zero in Hj. injection Hj as <-. destruct He as [<- <-]. cbn.
          split; [done|]. split; [done|]. split; [done|]. split; [done|].
          intros (i & Hi)%elem_of_list_lookup.
          destruct (word_edge i _ Hi) as (it & q & H1 & H2 & H3 & _).
          apply (Hlast (S i) it); [lia|done|]. unfold at_edge. cbn.
          destruct q as [|a [|]]; try done. injection H3 as <-. split; [|done].
          eapply (trie_P_inj T); [exact H2|]. by rewrite P_0.
        * left. split; [lia|]. destruct (edge_word i it p r Hj He) as (q & Hq & Hw).
          exists q. split; [done|]. replace (N.to_nat (0 + N.of_nat (S i))) with (S i) by lia. done.
      + intros [(Hc & q & Hq & Hw)|(_ & -> & -> & -> & Hn)]; left.
        * rewrite P_pos in Hw by done. pose proof (word_edge _ _ Hw) as (it & q' & H1 & H2 & H3 & _).
          apply app_inj_tail in H3 as [<- H3]. exists (S (N.to_nat c - 1)), it.
          split; [done|]. split.
          { split; [|done]. eapply (trie_P_inj T); done. }
          split; [lia|]. intros j' it' Hlt Hj' He'. destruct j' as [|i']; [lia|].
          destruct (edge_word i' it' p r Hj' He') as (q2 & Hq2 & Hw2).
          rewrite Hq in Hq2. injection Hq2 as <-.
          assert (i' = (N.to_nat c - 1)%nat); [|lia].
          eapply NoDup_lookup; [apply (trie_ws_NoDup T)|done..].
        * exists 0%nat, zero_item. split; [apply cut_zero|]. split; [done|]. split; [done|].
          intros [|i] it Hlt Hit He; [lia|]. destruct (edge_word i it _ _ Hit He) as (q & Hq & Hw).
          rewrite P_0 in Hq. injection Hq as <-. apply Hn. by eapply elem_of_list_lookup_2.
  Qed.

  Lemma rebuilt_words m : (rebuild its' m 0).2 = N.of_nat (size (d_notes d)).
  Proof.
    unfold rebuild. rewrite rebuild_words. cbn [its_list its'].
    assert (E : cut = zero_item :: drop 1 cut).
    { pose proof cut_zero as H. destruct cut as [|z k]; [done|]. injection H as ->. cbn. by rewrite drop_0. }
    rewrite E, filter_cons. rewrite decide_False by (cbn; intros H; by apply H).
    unfold lenN. rewrite (filter_length_Forall2 (fun it => it_variants it <> 0) (fun w => is_Some (d_notes d !! w)) _ ws).
    - rewrite <- (size_dom (D := gset (list Z)) (d_notes d)).
      replace (dom (d_notes d)) with (list_to_set (C := gset (list Z)) (filter (fun w => is_Some (d_notes d !! w)) ws)).
      + rewrite size_list_to_set; [lia|]. apply NoDup_filter. apply (trie_ws_NoDup T).
      + apply set_eq. intros w. rewrite elem_of_list_to_set, elem_of_list_filter, elem_of_dom.
        split; [by intros [? _]|]. intros [s Hs]. split; [by exists s|]. by eapply (a_dom _ _ A).
    - apply Forall2_same_length_lookup. split.
      + pose proof cut_len as Hl. rewrite drop_length. pose proof (t_len _ _ _ _ T) as Hn. unfold its in Hl. rewrite Hn in Hl.
        unfold lenN, ws in *. lia.
      + intros i it w Hit Hw. rewrite lookup_drop in Hit. apply cut_lookup in Hit as [_ Hit].
        destruct (a_items _ _ A i w it Hw Hit) as [[-> ->]|(col & Hg & ->)].
        * split; [by intros []|by intros []].
        * split; [by eexists|]. intros _. by eapply good_col_nz.
  Qed.

  Lemma reload_disk : disk_caps ix = true -> disk_index ix.
  Proof.
    unfold disk_caps. rewrite !andb_true_iff, N.leb_le, !within_capN.
    intros [[Htags [Hs1 Hs2]] [Hc1 Hc2]]. split.
    - lia.
    - split; [lia|]. apply Forall_lookup. intros c t Ht.
      eapply Forall_lookup_1 in Hs2; [|exact Ht]. cbn in Hs2. split; [lia|].
      apply Forall_lookup. intros i s Hi.
      assert (Hat : at2 (ix_sets ix) c i = Some s) by (unfold at2; by rewrite Ht).
      pose proof (at2_ok _ _ _ _ (a_sets _ _ A) Hat) as [_ Hl].
      apply lookup_lt_Some in Ht. split; [unfold lenN in *; lia|].
      eapply Forall_impl; [by eapply (a_set_ids _ _ A)|]. cbn. intros x Hx.
      pose proof (a_ntags _ _ A). lia.
    - split; [lia|]. apply Forall_lookup. intros c t Ht.
      eapply Forall_lookup_1 in Hc2; [|exact Ht]. cbn in Hc2. split; [lia|].
      apply Forall_lookup. intros i s Hi.
      assert (Hat : at2 (ix_cols ix) c i = Some s) by (unfold at2; by rewrite Ht).
      pose proof (at2_ok _ _ _ _ (a_cols _ _ A) Hat) as [_ Hl].
      apply lookup_lt_Some in Ht. split; [unfold lenN in *; lia|].
      eapply Forall_impl; [by apply (a_col_ids _ _ A c i s)|]. cbn. by intros x [s' [Hx _]].
    - apply T.
    - pose proof (t_room _ _ _ _ T). pose proof (t_cap _ _ _ _ T). lia.
    - fold its. fold cut. apply Forall_lookup. intros i it Hit.
      destruct i as [|i].
      + rewrite cut_zero in Hit. injection Hit as <-. repeat split; cbn; lia.
      + pose proof Hit as [Hlt Hl]%cut_lookup. pose proof (t_len _ _ _ _ T) as Hlen.
        destruct (ws !! i) as [w|] eqn:Ew;
          [|apply lookup_ge_None in Ew; unfold lenN, its, ws in *; lia].
        destruct (word_edge i w Ew) as (it' & q & H1 & _ & _ & H4 & H5 & H6).
        assert (it' = it) as -> by congruence.
        pose proof (t_room _ _ _ _ T). pose proof (t_cap _ _ _ _ T).
        fold its in H, H0. split; [lia|]. split; [lia|]. split; [done|].
        destruct (a_items _ _ A i w it Ew Hl) as [[-> _]|(col & [Hg _] & _)]; [lia|done].
  Qed.

  Lemma name_norm_plain n : plain_name n = true -> name_norm n = n.
  Proof.
    unfold plain_name, name_norm. rewrite andb_true_iff, !negb_true_iff, !bool_decide_eq_false.
    intros [H1 H2]. rewrite decide_False by done. by rewrite decide_False by done.
  Qed.
  Lemma tags_norm_plain : plain_tags ix = true -> map tag_norm (ix_tags ix) = ix_tags ix.
  Proof.
    unfold plain_tags. induction (ix_tags ix) as [|[p n] ts IH]; [done|]. cbn.
    rewrite !andb_true_iff. intros [[H1 H2] H3]. rewrite IH by done. unfold tag_norm. cbn.
    by rewrite !name_norm_plain.
  Qed.
  Lemma tags_storable : Forall storable_tag (ix_tags ix) <-> storable d.
  Proof.
    rewrite (a_tags _ _ A). unfold storable. rewrite !Forall_forall. unfold storable_tag.
    split; intros H x Hx.
    - destruct (H (tag_of x)) as [? ?]; [|done]. by apply (elem_of_list_fmap_1 tag_of).
    - apply (elem_of_list_fmap_2 tag_of) in Hx as (np & -> & Hnp). by destruct (H _ Hnp).
  Qed.

  Lemma loaded_spec : plain_tags ix = true ->
    trie_of true (loaded index_new ix) (d_words d) /\ annot (loaded index_new ix) d.
  Proof.
    intros Hp. unfold loaded, trie_of. rewrite tags_norm_plain by done. cbn [ix_items ix_children ix_words index_new].
    split; [apply rebuilt_trie|]. pose proof (rebuilt_words ∅) as Hw. fold its cut its'.
    destruct A as [a1 a2 a3 a4 a5 a6 a7 a8 a9 a10 a11 a12 a13 a14].
    split; cbn [ix_items ix_children ix_words ix_tags ix_sets ix_cols its_list its']; try done.
    intros i w it Hi Hit. apply cut_lookup in Hit as [_ Hit]. by eapply a12.
  Qed.

  Lemma reload_spec : disk_caps ix = true -> plain_tags ix = true ->
    reload ix = if decide (storable d) then (loaded index_new ix, Ok 0) else (ix, Err EIndex).
  Proof.
    intros Hd Hp. unfold reload. destruct (decide (storable d)) as [Hs|Hs].
    - destruct (index_round index_new ix (reload_disk Hd)) as (bs & -> & Hr); [by apply tags_storable|].
      specialize (Hr []). rewrite app_nil_r in Hr. by rewrite Hr.
    - destruct (index_write_fail ix) as [bs ->]; [apply T| |done]. by rewrite tags_storable.
  Qed.
End reload.
