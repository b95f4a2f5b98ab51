(** Proofs of the properties of tag sets and optimisation (C16-C22). *)
From Coq Require Import ZifyBool ZifyNat ZifyN.
From Verif Require Import Base Storage Bin Utf8 Tags TagSets Variants Items Index Spec Hist
  BaseFacts Intern SpecFacts TrieFacts NoteFacts OptFacts BinFacts CodecFacts ReloadFacts HistFacts
  DictFacts QueryFacts Utf8Facts ThmTrie.
From stdpp Require Import list.
Open Scope N_scope.

(** ** C16 *)
Lemma d_tags_first h n p' : (n, p') ∈ d_tags (d_run h) ->
  exists p, first_registered h n p /\ p' = or_dashes p.
Proof.
  induction h as [|o h IH] using rev_ind; [intros H; by apply elem_of_nil in H|].
  assert (Hold : (n, p') ∈ d_tags (d_run h) ->
    exists p, first_registered (h ++ [o]) n p /\ p' = or_dashes p).
  { intros H. destruct (IH H) as (p & (h1 & h2 & -> & Hn) & Hp). exists p. split; [|done].
    exists h1, (h2 ++ [o]). by rewrite <- app_assoc. }
  rewrite d_run_snoc, d_step_tags. destruct o; try done. unfold d_register.
  destruct (d_tag_pos (d_run h) name) as [k|] eqn:E; [done|]. cbn.
  intros [H|H]%elem_of_app; [by apply Hold|]. apply elem_of_list_singleton in H. injection H as -> ->.
  exists parent. split; [|done]. exists h, []. split; [done|].
  intros Hin. apply d_tag_pos_registered in Hin as [k Hk]. congruence.
Qed.

Lemma l_C16_tag_sets_exact : forall h ix w id,
  runs h ix -> (reloaded h = true -> head w <> Some 0%Z) -> (fetch_runes ix w).2 = Ok id ->
  exists sets, node_tag_sets ix id = Ok sets /\
    (forall s, s ∈ sets -> exists names, attached h w names /\ map tag_name s ≡ₚ names) /\
    (forall names, attached h w names -> exists s, s ∈ sets /\ map tag_name s ≡ₚ names) /\
    (forall i j s s', sets !! i = Some s -> sets !! j = Some s' ->
       map tag_name s ≡ₚ map tag_name s' -> i = j) /\
    (forall s, s ∈ sets -> Sorted N.le (map (fun t => (index_tag_id ix (tag_name t) []).2) s)) /\
    (forall s t, s ∈ sets -> t ∈ s -> exists p, first_registered h (tag_name t) p /\
       tag_parent t = or_dashes p).
Proof.
  intros h ix w id H Hh Hid. destruct (runs_fetch_pos _ _ _ _ H Hh Hid) as (i & -> & Hi).
  destruct (runs_R h ix H) as (ld & Hld & T & A).
  destruct (node_tag_sets_spec T A i w Hi) as (col & Hts & Hnd & Hgood & Hres).
  exists (map (set_tags_of ix) col). split; [done|].
  assert (Hset : forall s, s ∈ map (set_tags_of ix) col -> exists k ids,
    k ∈ col /\ good_set (ix_sets ix) k ids /\ s = map (tagn ix) ids).
  { intros s Hs. apply elem_of_list_fmap in Hs as (k & -> & Hk).
    destruct (proj1 (Forall_forall _ _) Hgood k Hk) as [ids Hg]. exists k, ids.
    split; [done|]. split; [done|]. unfold set_tags_of. by rewrite (proj2 Hg). }
  split; [|split; [|split; [|split]]].
  - intros s Hs. destruct (Hset s Hs) as (k & ids & Hk & Hg & ->).
    assert (Hin : ids ∈ default ∅ (d_notes (d_run h) !! w)).
    { rewrite Hres. apply elem_of_resolved. exists k. split; [done|apply Hg]. }
    destruct (d_notes (d_run h) !! w) as [S|] eqn:E; [|cbn in Hin; set_solver].
    destruct (proj1 (d_run_notes h w ids)) as (names & ids' & Hat & Hd & ->); [by exists S|].
    exists names. split; [done|]. rewrite <- (ids_names A _ _ Hd), map_map.
    apply Permutation_map. apply merge_sort_Permutation.
  - intros names Hat. destruct (proj2 (d_ids_registered h names)) as [ids Hd]; [by eapply attached_registered|].
    destruct (proj2 (d_run_notes h w (merge_sort N.le ids))) as (S & HS & Hin); [by exists names, ids|].
    rewrite HS in Hres. cbn in Hres. rewrite Hres in Hin. apply elem_of_resolved in Hin as (k & Hk & Hg).
    exists (set_tags_of ix k). split; [by apply elem_of_list_fmap_1|]. unfold set_tags_of. rewrite Hg. cbn.
    rewrite <- (ids_names A _ _ Hd), map_map. apply Permutation_map. apply merge_sort_Permutation.
  - intros a b s s' Ha Hb Hp. apply (list_lookup_fmap_inv (set_tags_of ix)) in Ha as (k & -> & Ha).
    apply (list_lookup_fmap_inv (set_tags_of ix)) in Hb as (k' & -> & Hb).
    destruct (Forall_lookup_1 _ _ _ _ Hgood Ha) as [ids Hg].
    destruct (Forall_lookup_1 _ _ _ _ Hgood Hb) as [ids' Hg'].
    unfold set_tags_of in Hp. rewrite (proj2 Hg), (proj2 Hg') in Hp. cbn in Hp.
    destruct (good_set_ids A _ _ Hg) as [Hlt Hs1]. destruct (good_set_ids A _ _ Hg') as [Hlt' Hs2].
    apply (names_perm A _ _ Hlt Hlt') in Hp. pose proof (sorted_unique _ _ Hs1 Hs2 Hp) as <-.
    pose proof (good_set_inj _ _ _ _ (a_sets _ _ A) Hg Hg') as <-. by eapply NoDup_lookup.
  - intros s Hs. destruct (Hset s Hs) as (k & ids & Hk & Hg & ->).
    destruct (good_set_ids A _ _ Hg) as [Hlt Hsort]. rewrite map_map.
    replace (map _ ids) with ids; [done|]. clear Hs Hg Hsort. induction Hlt as [|t ids Ht _ IH]; [done|].
    cbn [map]. f_equal; [|done]. destruct (tagn_spec A t Ht) as [Hg Hp].
    unfold index_tag_id, tags_index. rewrite (a_tags _ _ A), tags_find_pos by apply A.
    unfold d_tag_pos in Hp. rewrite Hp. done.
  - intros s t Hs Ht. destruct (Hset s Hs) as (k & ids & Hk & Hg & ->).
    apply elem_of_list_fmap in Ht as (a & -> & Ha). destruct (good_set_ids A _ _ Hg) as [Hlt _].
    pose proof (proj1 (Forall_forall _ _) Hlt a Ha) as Hla. destruct (tagn_spec A a Hla) as [Hget _].
    rewrite tags_get_lookup, (a_tags _ _ A), (list_lookup_fmap tag_of) in Hget.
    destruct (d_tags (d_run h) !! N.to_nat a) as [[n p]|] eqn:E; [|done]. injection Hget as Hget.
    rewrite <- Hget. cbn. apply d_tags_first. by eapply elem_of_list_lookup_2.
Qed.

(** ** C17 *)
Lemma l_C17_other_words_untouched : forall h w names ix ix',
  runs h ix -> runs (h ++ [OTag w names]) ix' ->
  nodes_count ix' = nodes_count ix /\
  (forall w', (reloaded h = true -> head w' <> Some 0%Z) -> (fetch_runes ix' w').2 = (fetch_runes ix w').2) /\
  (forall w' id, (reloaded h = true -> head w' <> Some 0%Z) -> w' <> w -> (fetch_runes ix w').2 = Ok id ->
     node_tag_sets ix' id = node_tag_sets ix id /\ node_word ix' id = node_word ix id).
Proof.
  intros h w names ix ix' H H'.
  destruct (runs_R h ix H) as (ld & Hld & T & A). destruct (runs_R _ ix' H') as (ld' & Hld' & T' & A').
  assert (Hw : d_words (d_run (h ++ [OTag w names])) = d_words (d_run h)).
  { rewrite d_run_snoc. cbn. by destruct (pos_from 1 (d_words (d_run h)) w), (d_ids (d_run h) names). }
  assert (Hre : reloaded (h ++ [OTag w names]) = reloaded h).
  { rewrite reloaded_app. cbn. by rewrite orb_false_r. }
  split; [by rewrite (nodes_count_spec T), (nodes_count_spec T'), Hw|]. split.
  - intros w' Hh. rewrite (runs_fetch _ _ _ H Hh), (runs_fetch _ _ _ H') by (unfold hd_ok; by rewrite Hre).
    unfold d_find. by rewrite Hw.
  - intros w' id Hh Hne Hid. destruct (runs_fetch_pos _ _ _ _ H Hh Hid) as (j & -> & Hj). split.
    + apply runs_snoc_inv in H' as (ix0 & r & H0 & Hok & Hs & Hc). rewrite (runs_det _ _ _ H0 H) in *.
      clear H0 ix0. cbn in Hs, Hok. destruct Hok as (Hnn & Hint & Hh0).
      assert (Hf : (fetch_runes ix w).2 = match w with [] => Err EIndex | _ => d_find (d_run h) w end)
        by by apply runs_fetch.
      pose proof (fetch_same ix w) as Hsame.
      destruct (fetch_runes ix w) as [ix1 r1] eqn:Ef. cbn [fst snd] in *.
      assert (Hq : forall id, node_tag_sets ix1 id = node_tag_sets ix id) by apply (same_core_queries _ _ Hsame).
      destruct r1 as [i|e|]; [|by injection Hs as <- <-; rewrite Hq..].
      destruct w as [|r0 w0]; [done|]. symmetry in Hf. apply d_find_Some in Hf as (a & -> & Ha).
      destruct (node_add_tag_set ix1 (N.of_nat (S a)) names) as [ix2 r2] eqn:Ea.
      apply (f_equal fst) in Hs. cbn in Hs. subst ix2. rewrite <- Hq.
      eapply (attach_other (trie_of_same _ _ _ _ Hsame T) (annot_same _ _ _ Hsame A) a j);
        [done|done| |done|done|done].
      intros ->. congruence.
    + rewrite (node_word_spec T j w' Hj). apply (node_word_spec T'). by rewrite Hw.
Qed.

(** ** C18 *)
Lemma l_C18_unregistered : forall h ix id names n,
  runs h ix -> n ∈ names -> n ∉ registered h -> node_add_tag_set ix id names = (ix, Err EIndex).
Proof.
  intros h ix id names n H Hin Hn. destruct (runs_R h ix H) as (ld & Hld & T & A).
  unfold node_add_tag_set. rewrite (names_to_ids_spec ix _ _ A).
  destruct (d_ids (d_run h) names) as [ids|] eqn:E; [|done]. exfalso. apply Hn.
  exact (proj1 (d_ids_registered h names) (mk_is_Some _ _ E) n Hin).
Qed.
Lemma l_C18_registered : forall h ix id names,
  runs h ix -> id <> 0 -> id <= nodes_count ix -> (forall n, n ∈ names -> n ∈ registered h) ->
  (node_add_tag_set ix id names).2 = Ok tt.
Proof.
  intros h ix id names H Hid Hle Hn. destruct (runs_R h ix H) as (ld & Hld & T & A).
  rewrite (nodes_count_spec T) in Hle.
  destruct (trie_id_ex T id) as [w Hw]; [rewrite (t_len _ _ _ _ T); lia|]. rewrite P_pos in Hw by done.
  replace id with (N.of_nat (S (N.to_nat id - 1))) by lia.
  rewrite (add_tag_set_total ld ix _ _ _ names T A Hw).
  destruct (proj2 (d_ids_registered h names) Hn) as [ids ->]. done.
Qed.

(** ** C19 *)
Lemma l_C19_empty_list_attaches_refuted : forall h ix w id w0 n ix' r,
  runs h ix -> (reloaded h = true -> head w <> Some 0%Z) -> (fetch_runes ix w).2 = Ok id ->
  attached h w0 [n] ->
  node_add_tag_set ix id [] = (ix', r) -> caps ix' = true ->
  r = Ok tt /\
  exists sets t, node_tag_sets ix' id = Ok sets /\ [t] ∈ sets /\ tag_name t ∈ registered h.
Proof.
  intros h ix w id w0 n ix' r H Hh Hid Hat E Hcaps.
  destruct (runs_fetch_pos _ _ _ _ H Hh Hid) as (i & -> & Hi).
  destruct (runs_R h ix H) as (ld & Hld & T & A).
  (* the first one-tag set *)
  assert (H0 : exists t0, good_set (ix_sets ix) 0 [t0]).
  { destruct (proj2 (d_ids_registered h [n])) as [ids Hd]; [by eapply attached_registered|].
    destruct (proj2 (d_run_notes h w0 (merge_sort N.le ids))) as (S & HS & Hin); [by exists [n], ids|].
    pose proof (a_dom _ _ A _ _ HS) as Hw0. apply elem_of_list_lookup in Hw0 as [j Hj].
    destruct (node_tag_sets_spec T A j w0 Hj) as (col & _ & _ & _ & Hres).
    rewrite HS in Hres. cbn in Hres. rewrite Hres in Hin. apply elem_of_resolved in Hin as (k & Hk & Hg).
    rewrite tagset_get_at2 in Hg. pose proof (at2_ok _ _ _ _ (a_sets _ _ A) Hg) as [_ Hl].
    assert (Hc : N.to_nat (id32_upper k) = 0%nat).
    { rewrite merge_sort_Permutation in Hl. apply d_ids_length in Hd. cbn in Hd. lia. }
    rewrite Hc in Hg. apply bind_Some in Hg as (t & Ht & Hx).
    destruct t as [|s0 t]; [done|].
    assert (Hs0 : at2 (ix_sets ix) 0 0 = Some s0) by (unfold at2; by rewrite Ht).
    destruct (at2_ok _ _ _ _ (a_sets _ _ A) Hs0) as [_ Hl0]. destruct s0 as [|t0 [|]]; try done.
    exists t0. split; [done|]. rewrite tagset_get_at2. done. }
  destruct H0 as [t0 H0].
  destruct (node_variants T A i w Hi) as (it & Hget & Hl & Hv).
  assert (Hcol : exists col, variants_get (ix_cols ix) (it_variants it) = Ok col /\ lenN col <= 65535 /\
    Forall (fun k => exists s, good_set (ix_sets ix) k s) col).
  { destruct Hv as [[-> Hn]|(col & Hg & Hn)]; [by exists []|].
    exists col. split; [by apply good_col_get|].
    destruct (a_col_ids _ _ A _ _ _ (proj2 (proj2 Hg))) as [Hnd Hf]. split; [|done].
    rewrite (good_col_len _ _ _ (a_cols _ _ A) Hg). unfold id32_upper.
    pose proof (wrap16_lt (N.land (N.shiftr (it_variants it) 16) 65535)). lia. }
  destruct Hcol as (col & Hcg & Hcl & Hcf).
  assert (Hadd : lenN (collection_add col 0) <= 65536).
  { pose proof (collection_add_len col 0). lia. }
  unfold node_add_tag_set, get_item in E. rewrite Hget in E.
  cbn [names_to_ids] in E. rewrite Hcg in E. unfold mbind, res_bind in E.
  change (tagset_index_index (ix_sets ix) []) with (@Ok (list (list (list N)) * N) (ix_sets ix, 0)) in E.
  cbv iota beta in E.
  pose proof (variants_index_intern (ix_cols ix) (collection_add col 0) (collection_add_ne col 0) Hadd) as Ec.
  destruct (variants_index_index (ix_cols ix) (collection_add col 0)) as [[cols' vid]|e|] eqn:Ec';
    [|discriminate Ec..]. clear Ec. rename Ec' into Ec.
  pose proof (f_equal snd E) as Er. apply (f_equal fst) in E. cbn [fst snd] in E, Er. subst r ix'.
  split; [done|].
  apply caps_spec in Hcaps as (_ & _ & Hcc & _). cbn in Hcc.
  pose proof (cols_interned _ _ _ _ (a_cols _ _ A) (collection_add_ne col 0) Hadd Ec Hcc) as IC.
  set (ix' := mkIndex _ _ _ _ _ _).
  assert (Hget' : items_get (set_variants (ix_items ix) (N.of_nat (S i)) vid) (N.of_nat (S i)) =
    Ok (Some (mkItem (it_parent it) (it_id it) (it_letter it) vid))).
  { unfold items_get in *. cbn [its_next set_variants]. destruct (N.of_nat (S i) =? 0); [done|].
    destruct (its_next (ix_items ix) <=? N.of_nat (S i)); [done|]. unfold slice_get in *.
    cbn [its_list set_variants]. rewrite !Nat2N.id in *. by rewrite list_lookup_alter, Hl. }
  assert (Hperm : go_sort (collection_add col 0) ≡ₚ collection_add col 0) by apply go_sort_perm.
  exists (resolve_sets ix' (go_sort (collection_add col 0))), (tagn ix t0).
  split; [|split].
  - unfold node_tag_sets, get_item. cbn [ix_items ix']. subst ix'. cbn [ix_items].
    rewrite Hget'. unfold mbind, res_bind. cbn [ix_cols it_variants].
    by rewrite (good_col_get _ _ _ (in_get _ _ _ _ _ IC)).
  - assert (Hres : resolve_sets ix' (go_sort (collection_add col 0)) = resolve_sets ix (go_sort (collection_add col 0)))
      by (by apply resolve_sets_cong).
    rewrite Hres, (resolve_sets_good (ix := ix)).
    + replace [tagn ix t0] with (set_tags_of ix 0) by (unfold set_tags_of; by rewrite (proj2 H0)).
      apply elem_of_list_fmap_1. rewrite Hperm. apply collection_add_elem. by left.
    + rewrite Hperm. apply Forall_forall. intros k [->|Hk]%collection_add_elem; [by exists [t0]|].
      exact (proj1 (Forall_forall _ _) Hcf k Hk).
  - destruct (good_set_ids A _ _ H0) as [Hlt _]. apply Forall_cons in Hlt as [Hlt _].
    apply d_tag_pos_registered. exists t0. by apply tagn_spec.
Qed.

(** ** C20 *)
Lemma l_C20_words_count : forall h ix, runs h ix ->
  exists l, NoDup l /\ (forall w, w ∈ l <-> exists names, attached h w names) /\ words_count ix = lenN l.
Proof.
  intros h ix H. destruct (runs_R h ix H) as (ld & Hld & T & A).
  exists (elements (dom (d_notes (d_run h)))). split; [apply NoDup_elements|]. split.
  - intros w. rewrite elem_of_elements, elem_of_dom. apply d_run_notes_dom.
  - rewrite (words_count_spec A). unfold lenN. f_equal. by rewrite <- size_dom.
Qed.

(** ** C21, C22 *)
Lemma l_C21_optimize_invisible : forall h ix, runs h ix ->
  exists ix', optimize ix = Ok ix' /\
    nodes_count ix' = nodes_count ix /\ words_count ix' = words_count ix /\
    (forall w, (fetch_runes ix' w).2 = (fetch_runes ix w).2) /\
    (forall id, index_get ix' id = index_get ix id) /\
    (forall id, node_word ix' id = node_word ix id) /\
    (forall id, node_tag_sets ix' id = node_tag_sets ix id) /\
    (forall id, get_children_map ix' id = get_children_map ix id).
Proof.
  intros h ix H. destruct (runs_R h ix H) as (ld & Hld & T & A).
  destruct (optimize_spec T A) as (ix' & E & T' & A' & _ & Et & Es & Ew & Ec & Hsn & Hv).
  exists ix'. split; [done|].
  assert (Hnext : its_next (ix_items ix') = its_next (ix_items ix)) by apply Hsn.
  assert (Hlen : length (its_list (ix_items ix')) = length (its_list (ix_items ix))).
  { pose proof (sn_len _ _ Hsn) as L. unfold lenN in L. lia. }
  assert (Hitem : forall i it, its_list (ix_items ix) !! i = Some it ->
    exists it', its_list (ix_items ix') !! i = Some it' /\ it_parent it' = it_parent it /\ it_letter it' = it_letter it /\
      variants_get (ix_cols ix') (it_variants it') = variants_get (ix_cols ix) (it_variants it)).
  { intros i it Hit. destruct (lookup_lt_is_Some_2 (its_list (ix_items ix')) i) as [it' Hit'].
    { rewrite Hlen. by apply lookup_lt_Some in Hit. }
    destruct (Hv _ _ Hit') as (it0 & H0 & Hvg). destruct (sn_item _ _ Hsn _ _ Hit') as (it1 & H1 & Hp & _ & Hl & _).
    rewrite Hit in H0, H1. injection H0 as <-. injection H1 as <-. by exists it'. }
  assert (Hget : forall id, match items_get (ix_items ix) id with
    | Ok (Some it) => exists it', items_get (ix_items ix') id = Ok (Some it') /\
        it_parent it' = it_parent it /\ it_letter it' = it_letter it /\
        variants_get (ix_cols ix') (it_variants it') = variants_get (ix_cols ix) (it_variants it)
    | r => items_get (ix_items ix') id = r
    end).
  { intros id. unfold items_get. rewrite Hnext. destruct (id =? 0); [done|].
    destruct (its_next (ix_items ix) <=? id); [done|]. unfold slice_get.
    destruct (its_list (ix_items ix) !! N.to_nat id) as [it|] eqn:Eit; cbn.
    - destruct (Hitem _ _ Eit) as (it' & -> & ?). cbn. by exists it'.
    - apply lookup_ge_None in Eit. rewrite lookup_ge_None_2 by lia. done. }
  assert (Hword : forall id, node_word ix' id = node_word ix id).
  { intros id. unfold node_word. rewrite Hlen. generalize (S (length (its_list (ix_items ix)))) as fuel.
    intros fuel. revert id. induction fuel as [|fuel IH]; intros id; [done|]. cbn [word_fuel].
    destruct (id =? 0); [done|]. unfold get_item. specialize (Hget id).
    destruct (items_get (ix_items ix) id) as [[it|]|e|]; [|by rewrite Hget..].
    destruct Hget as (it' & -> & Hp & Hl & _). unfold mbind, res_bind. rewrite Hp, Hl.
    destruct (it_parent it =? 0); [done|]. by rewrite IH. }
  split; [unfold nodes_count; by rewrite Hnext|]. split; [done|].
  assert (Hig : forall id, index_get ix' id = index_get ix id) by (intros id; unfold index_get; by rewrite Hnext).
  split; [|split; [done|split; [done|split]]].
  - intros w. unfold fetch_runes, fetch_from_item. destruct w as [|r w]; [done|].
    generalize (r :: w) as l. clear r w. intros l.
    assert (Hloop : forall l a b p, (forall p r, child (ix_children a) p r = child (ix_children b) p r) ->
      (forall id, node_word a id = node_word b id) -> (forall id, index_get a id = index_get b id) ->
      (fetch_loop a p l).2 = (fetch_loop b p l).2).
    { clear. induction l as [|r l IH]; intros a b p Hc Hwd Hg; [done|]. cbn [fetch_loop].
      assert (Hw1 : forall x p id, node_word (ensure_children x p) id = node_word x id).
      { intros. by apply node_word_cong, same_core_ensure. }
      cbn [ix_children ensure_children set_children]. rewrite !child_ensure, Hc.
      destruct (child (ix_children b) p r) as [n|].
      - destruct l as [|r' l']; [apply Hg|]. apply IH.
        + intros. cbn [ix_children ensure_children set_children]. by rewrite !child_ensure.
        + intros. by rewrite !Hw1.
        + intros. apply Hg.
      - cbn [snd]. by rewrite !Hw1, Hwd. }
    apply Hloop; [intros; by rewrite Ec|done|done].
  - intros id. unfold node_tag_sets, get_item. specialize (Hget id).
    destruct (items_get (ix_items ix) id) as [[it|]|e|]; [|by rewrite Hget..].
    destruct Hget as (it' & -> & _ & _ & Hvg). unfold mbind, res_bind. rewrite Hvg.
    destruct (variants_get (ix_cols ix) (it_variants it)) as [col|e|]; [|done..].
    f_equal. by apply resolve_sets_cong.
  - intros id. unfold get_children_map. by rewrite Ec.
Qed.

Lemma item_used_get ld ix d v : trie_of ld ix (d_words d) -> annot ix d ->
  item_used ix v <-> used_by_a_word ix v.
Proof.
  intros T A. split.
  - intros (i & it & Hit & Hv & Hz). split; [done|]. exists (N.of_nat i), it. split; [|done].
    destruct (item_cases T i it Hit) as [[-> _]|(j & w & -> & Hw & _)]; [by subst v|].
    destruct (trie_item T (N.of_nat (S j)) w) as (it' & q & Hg & Hl & _); [lia|by rewrite Nat2N.id|].
    rewrite Nat2N.id in Hl. rewrite Hl in Hit. by injection Hit as ->.
  - intros (Hz & id & it & Hg & Hv). exists (N.to_nat id), it. split; [|done].
    unfold get_item, items_get in Hg. destruct (id =? 0); [done|].
    destruct (its_next (ix_items ix) <=? id); [done|]. unfold slice_get in Hg.
    destruct (its_list (ix_items ix) !! N.to_nat id) as [it'|]; [|done]. cbn in Hg. by injection Hg as ->.
Qed.
Lemma l_C22_optimize_exact : forall h ix, runs h ix ->
  exists ix', optimize ix = Ok ix' /\
    (forall v, v ∈ known_id (ix_cols ix') <-> used_by_a_word ix' v) /\
    (forall v, used_by_a_word ix' v -> exists c, variants_get (ix_cols ix') v = Ok c /\ c <> []) /\
    optimize ix' = Ok ix'.
Proof.
  intros h ix H. destruct (runs_R h ix H) as (ld & Hld & T & A).
  destruct (optimize_spec T A) as (ix' & E & T' & A' & Hk & _).
  exists ix'. split; [done|]. split; [|split].
  - intros v. rewrite Hk. by eapply item_used_get.
  - intros v Hv. apply (item_used_get _ _ _ _ T' A') in Hv.
    destruct (used_is_known T' A' v Hv) as [col Hg]. exists col. split; [by apply good_col_get|].
    eapply good_col_ne; [apply (a_cols _ _ A')|done].
  - apply optimize_fix. intros v Hv. apply (used_map_used T'). by apply Hk.
Qed.
