(** Proofs of the properties of the file format (C23-C30). *)
From Coq Require Import ZifyBool ZifyNat ZifyN.
From Verif Require Import Base Storage Bin Utf8 Tags TagSets Variants Items Index Spec Hist
  BaseFacts Intern SpecFacts TrieFacts NoteFacts OptFacts BinFacts CodecFacts ReloadFacts HistFacts
  DictFacts QueryFacts Utf8Facts ThmTrie ThmTags.
From stdpp Require Import list.
Open Scope N_scope.

(** ** Which histories can be stored *)
Lemma first_registered_tags h n p : first_registered h n p -> (n, or_dashes p) ∈ d_tags (d_run h).
Proof.
  intros (h1 & h2 & -> & Hn). rewrite cons_middle, app_assoc.
  assert (H : (n, or_dashes p) ∈ d_tags (d_run (h1 ++ [OTagID n p]))).
  { rewrite d_run_snoc, d_step_tags. unfold d_register.
    destruct (d_tag_pos (d_run h1) n) as [k|] eqn:E; [exfalso; apply Hn, d_tag_pos_registered; by exists k|].
    cbn. apply elem_of_app. right. apply elem_of_list_singleton. done. }
  destruct (d_run_tags_prefix (h1 ++ [OTagID n p]) h2) as [more ->]. apply elem_of_app. by left.
Qed.
Lemma storable_or_dashes p : storable_name (or_dashes p) <-> storable_name p.
Proof.
  unfold or_dashes. destruct (decide (p = [])) as [->|Hp]; [|done].
  split; intros _; [by left|by right].
Qed.
Lemma all_storable_spec h : all_storable h <-> storable (d_run h).
Proof.
  unfold all_storable, storable. rewrite Forall_forall. split.
  - intros H [n p'] Hin. destruct (d_tags_first h n p' Hin) as (p & Hf & ->). cbn.
    rewrite storable_or_dashes. by apply H.
  - intros H n p Hf. specialize (H _ (first_registered_tags _ _ _ Hf)). cbn in H.
    by rewrite storable_or_dashes in H.
Qed.

(** ** A loaded index *)
Lemma loaded_trie ld ix d : trie_of ld ix (d_words d) ->
  trie_of true (loaded index_new ix) (d_words d).
Proof. intros T. unfold loaded, trie_of. cbn [ix_items ix_children ix_words index_new]. apply (rebuilt_trie T). Qed.

Lemma resolve_sets_map f a b col : ix_sets a = ix_sets b -> ix_tags a = map f (ix_tags b) ->
  f zero_tag = zero_tag \/ Forall (fun k => exists s, tagset_get (ix_sets b) k = Some s /\
     Forall (fun t => t < lenN (ix_tags b)) s) col ->
  resolve_sets a col = map (map f) (resolve_sets b col).
Proof.
  intros E1 E2 Hz. induction col as [|k col IH]; [done|]. cbn [resolve_sets]. rewrite E1, E2.
  destruct (tagset_get (ix_sets b) k) as [s|] eqn:Es.
  - cbn [map]. f_equal.
    + rewrite map_map. apply map_ext_in. intros t Ht. rewrite !tags_get_lookup.
      change (map f (ix_tags b)) with (f <$> ix_tags b). rewrite list_lookup_fmap.
      destruct (ix_tags b !! N.to_nat t) as [x|] eqn:Et; [done|]. cbn.
      destruct Hz as [Hz|Hz]; [done|]. exfalso. apply Forall_cons in Hz as [(s' & Hs' & Hf) _].
      rewrite Es in Hs'. injection Hs' as <-. rewrite Forall_forall in Hf.
      apply lookup_ge_None in Et. specialize (Hf t (proj2 (elem_of_list_In _ _) Ht)). unfold lenN in Hf. lia.
    + apply IH. destruct Hz as [Hz|Hz]; [by left|]. right. by apply Forall_cons in Hz as [_ ?].
  - destruct Hz as [Hz|Hz]; [|apply Forall_cons in Hz as [(s' & Hs' & _) _]; congruence].
    generalize (length (k :: col)) as n. induction n as [|n IHn]; [done|]. cbn. by f_equal.
Qed.

Lemma loaded_get ld ix d id : trie_of ld ix (d_words d) ->
  items_get (ix_items (loaded index_new ix)) id = items_get (ix_items ix) id.
Proof.
  intros T. unfold items_get. cbn [loaded ix_items its_next its_list].
  destruct (id =? 0); [done|]. destruct (N.leb_spec (its_next (ix_items ix)) id); [done|].
  unfold slice_get. by rewrite lookup_take by lia.
Qed.

Lemma l_C23_save_load_same_answers : forall h ix,
  runs h ix -> disk_caps ix = true -> all_storable h ->
  exists bs ix', index_write ix = Ok (bs, None) /\ index_read index_new bs = Ok (ix', []) /\
    nodes_count ix' = nodes_count ix /\ words_count ix' = words_count ix /\
    (forall w, head w <> Some 0%Z -> (fetch_runes ix' w).2 = (fetch_runes ix w).2) /\
    (forall id, index_get ix' id = index_get ix id) /\
    (forall id, node_word ix' id = node_word ix id) /\
    (forall id, node_tag_sets ix' id = (s ← node_tag_sets ix id; Ok (map (map tag_norm) s))) /\
    (forall id r, id <> 0 -> get_children_map ix' id !! r = get_children_map ix id !! r).
Proof.
  intros h ix H Hd Hs. destruct (runs_R h ix H) as (ld & Hld & T & A).
  destruct (index_round index_new ix (reload_disk T A Hd)) as (bs & Hw & Hr);
    [by apply (tags_storable A), all_storable_spec|].
  specialize (Hr []). rewrite app_nil_r in Hr. exists bs, (loaded index_new ix).
  split; [done|]. split; [done|]. pose proof (loaded_trie _ _ _ T) as T'.
  split; [done|]. split; [unfold words_count; cbn [ix_words loaded index_new];
    rewrite (rebuilt_words T A); symmetry; apply A|].
  split.
  { intros w Hh. destruct (fetch_from_spec true (d_words (d_run h)) (loaded index_new ix) 0 [] w T' (P_0 _)) as [_ Hf1];
      [by intros _|].
    destruct (fetch_from_spec ld (d_words (d_run h)) ix 0 [] w T (P_0 _)) as [_ Hf2]; [by intros _|].
    unfold fetch_runes. by rewrite Hf1, Hf2. }
  split; [done|]. split; [|split].
  - intros id. destruct (decide (id = 0)) as [->|Hz]; [done|].
    destruct (decide (id < its_next (ix_items ix))) as [Hlt|Hge].
    + destruct (trie_id_ex T id Hlt) as [w Hw']. rewrite (trie_word T' _ id w eq_refl Hw'). symmetry. exact (trie_word T _ id w eq_refl Hw').
    + unfold node_word. cbn [word_fuel]. destruct (N.eqb_spec id 0); [done|].
      unfold get_item. rewrite (loaded_get _ _ _ _ T). unfold items_get.
      destruct (N.eqb_spec id 0); [done|]. destruct (N.leb_spec (its_next (ix_items ix)) id); [done|lia].
  - intros id. unfold node_tag_sets, get_item. rewrite (loaded_get _ _ _ _ T).
    destruct (items_get (ix_items ix) id) as [[it|]|e|] eqn:Eg; [|done..].
    unfold mbind, res_bind. cbn [loaded ix_cols].
    destruct (variants_get (ix_cols ix) (it_variants it)) as [col|e|] eqn:Ev; [|done..].
    f_equal. apply resolve_sets_map; [done|done|]. right.
    assert (Hit : its_list (ix_items ix) !! N.to_nat id = Some it /\ id <> 0 /\ id < its_next (ix_items ix)).
    { unfold items_get in Eg. destruct (N.eqb_spec id 0); [done|].
      destruct (N.leb_spec (its_next (ix_items ix)) id); [done|]. unfold slice_get in Eg.
      destruct (its_list (ix_items ix) !! N.to_nat id) as [x|]; [|done]. cbn in Eg. by injection Eg as ->. }
    destruct Hit as (Hit & Hz & Hlt). destruct (trie_id_ex T id Hlt) as [w Hw']. rewrite P_pos in Hw' by done.
    replace (N.to_nat id) with (S (N.to_nat id - 1)) in Hit by lia.
    destruct (a_items _ _ A _ _ _ Hw' Hit) as [[Hv _]|(col' & Hg & _)].
    + rewrite Hv in Ev. injection Ev as <-. constructor.
    + rewrite (good_col_get _ _ _ Hg) in Ev. injection Ev as ->.
      destruct (a_col_ids _ _ A _ _ _ (proj2 (proj2 Hg))) as [_ Hf].
      eapply Forall_impl; [exact Hf|]. intros k [s [Hk Hs']]. exists s. split; [done|].
      rewrite (a_tags _ _ A). unfold lenN. rewrite map_length. rewrite tagset_get_at2 in Hs'.
      exact (a_set_ids _ _ A _ _ _ Hs').
  - intros id r Hz.
    assert (E : forall x, get_children_map x id !! r = child (ix_children x) id r).
    { intros x. unfold get_children_map, child. by destruct (ix_children x !! id). }
    rewrite !E. apply option_eq. intros c. unfold trie_of in T, T'.
    rewrite (t_child _ _ _ _ T id r c), (t_child _ _ _ _ T' id r c). naive_solver.
Qed.

Lemma l_C23_history_goes_on : forall h ix,
  runs h ix -> disk_caps ix = true -> plain_tags ix = true -> all_storable h ->
  exists bs ix', index_write ix = Ok (bs, None) /\ index_read index_new bs = Ok (ix', []) /\
    runs (h ++ [OReload]) ix'.
Proof.
  intros h ix H Hd Hp Hs. destruct (runs_R h ix H) as (ld & Hld & T & A).
  pose proof (proj1 (all_storable_spec h) Hs) as Hs'.
  destruct (index_round index_new ix (reload_disk T A Hd)) as (bs & Hw & Hr); [by apply (tags_storable A)|].
  specialize (Hr []). rewrite app_nil_r in Hr. exists bs, (loaded index_new ix).
  split; [done|]. split; [done|]. eapply runs_snoc; [exact H|by split| |].
  - cbn [step]. rewrite (reload_spec T A Hd Hp), decide_True by done. done.
  - unfold caps. rewrite !andb_true_iff, N.leb_le, !within_capN, N.ltb_lt.
    cbn [loaded ix_tags ix_sets ix_cols ix_items its_list].
    split; [split; [split|]|].
    { unfold lenN. rewrite map_length, (a_tags _ _ A), map_length. apply A. }
    { apply A. }
    { apply A. }
    pose proof (t_cap _ _ _ _ T). unfold lenN in *.
    rewrite take_length. lia.
Qed.

(** ** C24 *)
Lemma l_C24_null_words_refuted : forall h ix bs ix' rest,
  runs h ix -> disk_caps ix = true -> ~ present h [0%Z] ->
  index_write ix = Ok (bs, None) -> index_read index_new bs = Ok (ix', rest) ->
  (forall n, (fetch_runes ix' (replicate (S n) 0%Z)).2 = Ok 0) /\
  (forall n w, w <> [] -> (fetch_runes ix' (replicate n 0%Z ++ w)).2 = (fetch_runes ix' w).2) /\
  node_tag_sets ix' 0 = Panic.
Proof.
  intros h ix bs ix' rest H Hd Hnp Hw Hr. destruct (runs_R h ix H) as (ld & Hld & T & A).
  assert (Hst : Forall storable_tag (ix_tags ix)).
  { destruct (decide (storable (d_run h))) as [Hs|Hs]; [by apply (tags_storable A)|]. exfalso.
    destruct (index_write_fail ix) as [b E]; [apply T|by rewrite (tags_storable A)|]. congruence. }
  destruct (index_round index_new ix (reload_disk T A Hd) Hst) as (bs' & Hw' & Hr').
  rewrite Hw in Hw'. injection Hw' as <-. specialize (Hr' []). rewrite app_nil_r, Hr in Hr'.
  injection Hr' as -> _. pose proof (loaded_trie _ _ _ T) as T'. clear Hr Hw Hst.
  set (ix1 := loaded index_new ix) in *.
  assert (Hc : forall x, same_core x ix1 -> child (ix_children (ensure_children x 0)) 0 0%Z = Some 0).
  { intros x Hx. cbn [ix_children ensure_children set_children]. rewrite child_ensure, (sc_child _ _ Hx).
    apply (t_child _ _ _ _ T'). right. do 4 (split; [done|]).
    intros Hin. by apply Hnp, d_run_words. }
  assert (Hloop : forall n w x, w <> [] -> same_core x ix1 ->
    (fetch_loop x 0 (replicate n 0%Z ++ w)).2 = (fetch_loop ix1 0 w).2).
  { induction n as [|n IH]; intros w x Hne Hx; cbn [replicate app].
    - pose proof (q_fetch _ _ (same_core_queries _ _ Hx) w) as E.
      unfold fetch_runes, fetch_from_item in E. by destruct w.
    - cbn [fetch_loop]. rewrite Hc by done.
      destruct (replicate n 0%Z ++ w) as [|r' w'] eqn:E; [by apply app_eq_nil in E as [_ ->]|].
      rewrite <- E. apply IH; [done|]. etrans; [apply same_core_ensure|done]. }
  assert (Hget : index_get (ensure_children ix1 0) 0 = Ok 0).
  { unfold index_get. cbn [ix_items ensure_children set_children]. pose proof (t_len _ _ _ _ T') as E.
    destruct (N.leb_spec (its_next (ix_items ix1)) 0); [lia|done]. }
  split; [|split].
  - intros n. rewrite <- Nat.add_1_r, replicate_add. change (replicate 1 0%Z) with [0%Z].
    unfold fetch_runes, fetch_from_item.
    assert (E : replicate n 0%Z ++ [0%Z] <> []) by by destruct n.
    destruct (replicate n 0%Z ++ [0%Z]) as [|a l] eqn:El; [done|]. rewrite <- El, Hloop by done.
    cbn [fetch_loop]. by rewrite (Hc ix1).
  - intros n w Hne. unfold fetch_runes, fetch_from_item.
    destruct (replicate n 0%Z ++ w) as [|a l] eqn:El; [by apply app_eq_nil in El as [_ ->]|].
    rewrite <- El, Hloop by done. by destruct w.
  - done.
Qed.

(** ** C25, C26 *)
Lemma l_C25_truncated_file_rejected : forall h ix bs,
  runs h ix -> disk_caps ix = true -> index_write ix = Ok (bs, None) ->
  forall ix0 p, p `prefix_of` bs -> p <> bs -> exists e, index_read ix0 p = Err e.
Proof.
  intros h ix bs H Hd Hw ix0 p Hp Hne. destruct (runs_R h ix H) as (ld & Hld & T & A).
  assert (Hst : Forall storable_tag (ix_tags ix)).
  { destruct (decide (storable (d_run h))) as [Hs|Hs]; [by apply (tags_storable A)|]. exfalso.
    destruct (index_write_fail ix) as [b E]; [apply T|by rewrite (tags_storable A)|]. congruence. }
  destruct (index_round ix0 ix (reload_disk T A Hd) Hst) as (bs' & Hw' & Hr).
  rewrite Hw in Hw'. injection Hw' as <-. specialize (Hr []). rewrite app_nil_r in Hr.
  pose proof (truncated _ _ _ (stable_index ix0) (calm_index ix0) Hr p Hp Hne) as E.
  destruct (index_read ix0 p) as [[? ?]|e|]; try done. by exists e.
Qed.
Lemma l_C25_any_accepted_file : forall ix0 ix bs,
  index_read ix0 bs = Ok (ix, []) ->
  forall p, p `prefix_of` bs -> p <> bs -> exists e, index_read ix0 p = Err e.
Proof.
  intros ix0 ix bs Hr p Hp Hne.
  pose proof (truncated _ _ _ (stable_index ix0) (calm_index ix0) Hr p Hp Hne) as E.
  destruct (index_read ix0 p) as [[? ?]|e|]; try done. by exists e.
Qed.
Lemma l_C25_no_panic : forall ix0 bs, index_read ix0 bs <> Panic.
Proof. intros ix0 bs. apply calm_index. Qed.

Lemma l_C26_reads_exactly_what_was_written : forall h ix,
  runs h ix -> disk_caps ix = true -> all_storable h ->
  exists bs, index_write ix = Ok (bs, None) /\
  forall ix0, exists ix', forall rest, index_read ix0 (bs ++ rest) = Ok (ix', rest).
Proof.
  intros h ix H Hd Hs. destruct (runs_R h ix H) as (ld & Hld & T & A).
  assert (Hst : Forall storable_tag (ix_tags ix)) by by apply (tags_storable A), all_storable_spec.
  destruct (index_round index_new ix (reload_disk T A Hd) Hst) as (bs & Hw & _). exists bs. split; [done|].
  intros ix0. exists (loaded ix0 ix).
  destruct (index_round ix0 ix (reload_disk T A Hd) Hst) as (bs' & Hw' & Hr). congruence.
Qed.
(** whatever the bytes are, what follows the part that was read does not matter *)
Lemma l_C26_rest_does_not_matter : forall ix0 bs ix rest,
  index_read ix0 bs = Ok (ix, rest) ->
  exists used, bs = used ++ rest /\ forall more, index_read ix0 (used ++ more) = Ok (ix, more).
Proof. intros ix0 bs ix rest H. by apply stable_index. Qed.

(** ** C27 *)
Lemma name_bytes_norm n : storable_name n ->
  storable_name (name_norm n) /\ name_bytes (name_norm n) = name_bytes n.
Proof.
  intros H. assert (Hn : storable_name (name_norm n)).
  { unfold name_norm. destruct (decide (n = [])); [by right|]. destruct (decide (n = bytes_of "    ")); [by right|done]. }
  split; [done|]. unfold name_bytes.
  destruct (proj1 (name_marshal_spec n) H) as (b1 & -> & _ & ->).
  destruct (proj1 (name_marshal_spec _) Hn) as (b2 & -> & _ & ->).
  unfold name_norm. destruct (decide (n = [])) as [->|H1]; [done|].
  destruct (decide (n = bytes_of "    ")) as [->|H2]; done.
Qed.
Lemma tags_bytes_norm ts : Forall storable_tag ts ->
  Forall storable_tag (map tag_norm ts) /\ tags_bytes (map tag_norm ts) = tags_bytes ts.
Proof.
  intros H. split.
  - apply Forall_fmap. eapply Forall_impl; [exact H|]. intros t [H1 H2]. split; by apply name_bytes_norm.
  - unfold tags_bytes. unfold lenN. rewrite map_length, map_map. do 2 f_equal. apply map_ext_in.
    intros t Ht. apply elem_of_list_In in Ht. rewrite Forall_forall in H. destruct (H t Ht) as [H1 H2].
    unfold tag_bytes, tag_norm. cbn. by rewrite (proj2 (name_bytes_norm _ H1)), (proj2 (name_bytes_norm _ H2)).
Qed.
Lemma resave_same ix bs : disk_index ix -> index_write ix = Ok (bs, None) -> resave bs = Some bs.
Proof.
  intros Hd Hw. assert (Hst : Forall storable_tag (ix_tags ix)).
  { assert (Dst : forall t, Decision (storable_tag t)) by (intros t; unfold storable_tag; apply _).
    destruct (decide (Forall storable_tag (ix_tags ix))) as [Hs|Hs]; [done|]. exfalso.
    destruct (index_write_fail ix) as [b E]; [apply Hd|done|]. congruence. }
  destruct (index_round index_new ix Hd Hst) as (bs' & Hw' & Hr). rewrite Hw in Hw'. injection Hw' as <-.
  specialize (Hr []). rewrite app_nil_r in Hr. unfold resave. rewrite Hr.
  destruct (tags_bytes_norm _ Hst) as [Hst' Hb].
  assert (E : index_write (loaded index_new ix) = index_write ix); [|by rewrite E, Hw].
  unfold index_write. cbn [loaded ix_items ix_tags ix_sets ix_cols].
  rewrite !tags_write_ok by done. rewrite Hb. f_equal. unfold items_write. cbn [its_next its_list].
  pose proof (di_room _ Hd) as Hroom. rewrite take_take, Nat.min_id.
  assert (Hl : lenN (take (N.to_nat (its_next (ix_items ix))) (its_list (ix_items ix))) = its_next (ix_items ix)).
  { unfold lenN in *. rewrite take_length. lia. }
  rewrite Hl. destruct (N.ltb_spec (its_next (ix_items ix)) (its_next (ix_items ix))); [lia|].
  destruct (N.ltb_spec (lenN (its_list (ix_items ix))) (its_next (ix_items ix))); [lia|done].
Qed.
Lemma l_C27_bytes_stable : forall h ix bs,
  runs h ix -> disk_caps ix = true -> index_write ix = Ok (bs, None) ->
  forall n, Nat.iter n (fun o => o ≫= resave) (Some bs) = Some bs.
Proof.
  intros h ix bs H Hd Hw n. destruct (runs_R h ix H) as (ld & Hld & T & A).
  pose proof (resave_same ix bs (reload_disk T A Hd) Hw) as E.
  induction n as [|n IH]; [done|].
  transitivity (Nat.iter n (fun o => o ≫= resave) (Some bs) ≫= resave); [done|]. by rewrite IH.
Qed.

(** ** C28 *)
Lemma l_C28_marshal : forall n,
  (forall bs, name_marshal n = Ok bs -> length bs = 4%nat) /\
  ((n = [] \/ length n = 4%nat) <-> exists bs, name_marshal n = Ok bs) /\
  (~ (n = [] \/ length n = 4%nat) -> name_marshal n = Err EGrammar).
Proof.
  intros n. destruct (name_marshal_spec n) as [H1 H2]. fold (storable_name n).
  destruct (decide (storable_name n)) as [Hs|Hs].
  - destruct (H1 Hs) as (bs & E & Hl & _). rewrite E. split; [by intros ? [= <-]|]. split; [|done].
    split; [by exists bs|done].
  - rewrite (H2 Hs). split; [done|]. split; [|done]. split; [done|]. by intros [? ?].
Qed.
Lemma l_C28_unmarshal : forall n bs, name_marshal n = Ok bs ->
  name_unmarshal bs = Ok (name_norm n) /\
  (n <> [] -> n <> bytes_of "    " -> name_unmarshal bs = Ok n).
Proof.
  intros n bs H. assert (Hs : storable_name n).
  { destruct (decide (storable_name n)) as [Hs|Hs]; [done|]. rewrite (proj2 (name_marshal_spec n) Hs) in H. done. }
  pose proof (name_round_trip n Hs) as E. rewrite H in E. cbn in E. split; [done|].
  intros H1 H2. rewrite E. unfold name_norm. by rewrite !decide_False by done.
Qed.
Lemma l_C28_saving_fails_iff : forall h ix, runs h ix ->
  (all_storable h <-> exists bs, index_write ix = Ok (bs, None)) /\
  (~ all_storable h -> exists bs, index_write ix = Ok (bs, Some EIndex)).
Proof.
  intros h ix H. destruct (runs_R h ix H) as (ld & Hld & T & A). rewrite all_storable_spec.
  assert (Hfail : ~ storable (d_run h) -> exists bs, index_write ix = Ok (bs, Some EIndex)).
  { intros Hs. apply index_write_fail; [apply T|by rewrite (tags_storable A)]. }
  split; [|done]. split.
  - intros Hs. unfold index_write, items_write. pose proof (t_room _ _ _ _ T) as Hr.
    destruct (N.ltb_spec (lenN (its_list (ix_items ix))) (its_next (ix_items ix))); [lia|].
    unfold mbind, res_bind. rewrite tags_write_ok by by apply (tags_storable A). by eexists.
  - intros [bs E]. destruct (decide (storable (d_run h))) as [|Hs]; [done|].
    destruct (Hfail Hs) as [bs' E']. congruence.
Qed.

(** ** C29 *)
Lemma l_C29_tags : forall ts rest, lenN ts <= 255 ->
  Forall (fun t => storable_name (tag_parent t) /\ storable_name (tag_name t)) ts ->
  exists bs, tags_write ts = (bs, None) /\ tags_read (bs ++ rest) = Ok (map tag_norm ts, rest).
Proof.
  intros ts rest Hl Hs. exists (tags_bytes ts). split; [by apply tags_write_ok|].
  apply tags_read_round; [done|lia].
Qed.
Lemma l_C29_tag_set : forall s rest, lenN s <= 255 -> Forall (fun t => t <= 255) s ->
  tagset_read (tagset_write s ++ rest) = Ok (s, rest).
Proof.
  intros s rest Hl Hs. apply tagset_read_round. split; [lia|]. eapply Forall_impl; [exact Hs|]. cbn. lia.
Qed.
Lemma l_C29_set_table : forall t rest, lenN t <= 65535 ->
  Forall (fun s => lenN s <= 255 /\ Forall (fun t => t <= 255) s) t ->
  tagset_table_read (tagset_table_write t ++ rest) = Ok (t, rest).
Proof.
  intros s rest Hl Hs. apply tagset_table_read_round. split; [lia|]. eapply Forall_impl; [exact Hs|].
  intros x [H1 H2]. split; [lia|]. eapply Forall_impl; [exact H2|]. cbn. lia.
Qed.
Lemma l_C29_set_index : forall x rest, lenN x <= 4294967295 ->
  Forall (fun t => lenN t <= 65535 /\
    Forall (fun s => lenN s <= 255 /\ Forall (fun t => t <= 255) s) t) x ->
  tagset_index_read (tagset_index_write x ++ rest) = Ok (x, rest).
Proof.
  intros s rest Hl Hs. apply tagset_index_read_round. split; [lia|]. eapply Forall_impl; [exact Hs|].
  intros t [H1 H2]. split; [lia|]. eapply Forall_impl; [exact H2|].
  intros x [H3 H4]. split; [lia|]. eapply Forall_impl; [exact H4|]. cbn. lia.
Qed.
Lemma l_C29_collection : forall c rest, lenN c <= 255 -> Forall (fun k => k <= 4294967295) c ->
  collection_read (collection_write c ++ rest) = Ok (c, rest).
Proof.
  intros s rest Hl Hs. apply collection_read_round. split; [lia|]. eapply Forall_impl; [exact Hs|]. cbn. lia.
Qed.
Lemma l_C29_collection_table : forall t rest, lenN t <= 4294967295 ->
  Forall (fun c => lenN c <= 255 /\ Forall (fun k => k <= 4294967295) c) t ->
  variants_table_read (variants_table_write t ++ rest) = Ok (t, rest).
Proof.
  intros s rest Hl Hs. apply variants_table_read_round. split; [lia|]. eapply Forall_impl; [exact Hs|].
  intros x [H1 H2]. split; [lia|]. eapply Forall_impl; [exact H2|]. cbn. lia.
Qed.
Lemma l_C29_collection_index : forall x rest, lenN x <= 255 ->
  Forall (fun t => lenN t <= 4294967295 /\
    Forall (fun c => lenN c <= 255 /\ Forall (fun k => k <= 4294967295) c) t) x ->
  variants_read (variants_write x ++ rest) = Ok (x, rest).
Proof.
  intros s rest Hl Hs. apply variants_read_round. split; [lia|]. eapply Forall_impl; [exact Hs|].
  intros t [H1 H2]. split; [lia|]. eapply Forall_impl; [exact H2|].
  intros x [H3 H4]. split; [lia|]. eapply Forall_impl; [exact H4|]. cbn. lia.
Qed.
Lemma l_C29_nodes : forall l rest, lenN l <= 4294967295 ->
  Forall (fun i => it_parent i <= 4294967295 /\ it_id i <= 4294967295 /\ int32 (it_letter i) /\
                   it_variants i <= 4294967295) l ->
  exists bs, items_write (mkItems l (lenN l)) = Ok bs /\
    items_read (bs ++ rest) = Ok (mkItems l (lenN l), rest).
Proof.
  intros l rest Hl Hs. unfold items_write. cbn [its_list its_next].
  destruct (N.ltb_spec (lenN l) (lenN l)); [lia|]. eexists. split; [done|].
  replace (take (N.to_nat (lenN l)) l) with l by (rewrite to_nat_lenN; by rewrite firstn_all).
  pose proof (items_read_round (mkItems l (lenN l))) as E. cbn [its_list its_next] in E.
  replace (take (N.to_nat (lenN l)) l) with l in E by (rewrite to_nat_lenN; by rewrite firstn_all).
  apply E; [|lia|].
  - unfold items_write. cbn [its_list its_next]. destruct (N.ltb_spec (lenN l) (lenN l)); [lia|].
    by replace (take (N.to_nat (lenN l)) l) with l by (rewrite to_nat_lenN; by rewrite firstn_all).
  - eapply Forall_impl; [exact Hs|]. intros i (H1 & H2 & H3 & H4). unfold disk_item.
    split; [lia|]. split; [lia|]. split; [done|lia].
Qed.

(** one more element than the length prefix can count: all of them are left unread *)
Lemma l_C29_tags_refuted : forall ts rest, lenN ts = 256 ->
  Forall (fun t => storable_name (tag_parent t) /\ storable_name (tag_name t)) ts ->
  exists data, tags_write ts = (0 :: data, None) /\ length data = 2048%nat /\
    tags_read (0 :: data ++ rest) = Ok ([], data ++ rest).
Proof.
  intros ts rest Hl Hs. exists (concat (map tag_bytes ts)). split; [|split; [|done]].
  - rewrite tags_write_ok by done. unfold tags_bytes. rewrite Hl. done.
  - assert (E : length (concat (map tag_bytes ts)) = (8 * length ts)%nat).
    { clear Hl. induction Hs as [|t ts [H1 H2] _ IH]; [done|]. cbn [map concat]. rewrite app_length, IH.
      unfold tag_bytes. rewrite app_length. destruct (name_write_ok _ H1) as [_ ->].
      destruct (name_write_ok _ H2) as [_ ->]. cbn. lia. }
    rewrite E. unfold lenN in Hl. assert (length ts = 256%nat) as -> by lia. done.
Qed.
Lemma l_C29_tag_set_refuted : forall s rest, lenN s = 256 ->
  tagset_read (tagset_write s ++ rest) = Ok ([], concat (map put_u8 s) ++ rest).
Proof. intros s rest Hl. unfold tagset_write. rewrite Hl. done. Qed.
Lemma l_C29_set_table_refuted : forall t rest, lenN t = 65536 ->
  tagset_table_read (tagset_table_write t ++ rest) = Ok ([], concat (map tagset_write t) ++ rest).
Proof. intros s rest Hl. unfold tagset_table_write. rewrite Hl. done. Qed.
Lemma l_C29_collection_refuted : forall c rest, lenN c = 256 ->
  collection_read (collection_write c ++ rest) = Ok ([], concat (map put_u32 c) ++ rest).
Proof. intros s rest Hl. unfold collection_write. rewrite Hl. done. Qed.
Lemma l_C29_collection_index_refuted : forall x rest, lenN x = 256 ->
  variants_read (variants_write x ++ rest) = Ok ([], concat (map variants_table_write x) ++ rest).
Proof. intros s rest Hl. unfold variants_write. rewrite Hl. done. Qed.

(** ** C30 *)
Lemma loads_over h ix bs : runs h ix -> disk_caps ix = true -> index_write ix = Ok (bs, None) ->
  forall ix0, index_read ix0 bs = Ok (loaded ix0 ix, []).
Proof.
  intros H Hd Hw ix0. destruct (runs_R h ix H) as (ld & Hld & T & A).
  assert (Hst : Forall storable_tag (ix_tags ix)).
  { destruct (decide (storable (d_run h))) as [Hs|Hs]; [by apply (tags_storable A)|]. exfalso.
    destruct (index_write_fail ix) as [b E]; [apply T|by rewrite (tags_storable A)|]. congruence. }
  destruct (index_round ix0 ix (reload_disk T A Hd) Hst) as (bs' & Hw' & Hr).
  rewrite Hw in Hw'. injection Hw' as <-. specialize (Hr []). by rewrite app_nil_r in Hr.
Qed.
Lemma l_C30_counts_add_up_refuted : forall h ix bs, runs h ix -> disk_caps ix = true ->
  index_write ix = Ok (bs, None) ->
  forall ix0, exists ix', index_read ix0 bs = Ok (ix', []) /\
    words_count ix' = words_count ix0 + words_count ix.
Proof.
  intros h ix bs H Hd Hw ix0. exists (loaded ix0 ix). split; [by eapply loads_over|].
  destruct (runs_R h ix H) as (ld & Hld & T & A). unfold words_count. cbn [loaded ix_words].
  rewrite (a_words _ _ A), <- (rebuilt_words T A (ix_children ix0)). unfold rebuild. rewrite !rebuild_words. lia.
Qed.
Lemma l_C30_old_letters_refuted : forall h ix bs h0 ix0 r c,
  runs h ix -> disk_caps ix = true -> index_write ix = Ok (bs, None) ->
  runs h0 ix0 -> r <> 0%Z -> (fetch_runes ix0 [r]).2 = Ok c -> ~ present h [r] ->
  exists ix', index_read ix0 bs = Ok (ix', []) /\
    (fetch_runes ix' [r]).2 = if c <=? nodes_count ix then Ok c else Err EIndex.
Proof.
  intros h ix bs h0 ix0 r c H Hd Hw H0 Hr Hc Hnp. exists (loaded ix0 ix). split; [by eapply loads_over|].
  destruct (runs_R h ix H) as (ld & Hld & T & A). destruct (runs_R h0 ix0 H0) as (ld0 & Hld0 & T0 & A0).
  assert (Hh : hd_ok h0 [r]) by (intros _ E; cbn in E; congruence).
  destruct (runs_fetch_pos _ _ _ _ H0 Hh Hc) as (i & -> & Hi).
  assert (Hch : child (ix_children ix0) 0 r = Some (N.of_nat (S i))).
  { apply (t_child _ _ _ _ T0). left. split; [lia|]. exists []. split; [done|]. by rewrite Nat2N.id. }
  unfold fetch_runes, fetch_from_item. cbn [fetch_loop].
  cbn [ix_children ensure_children set_children]. rewrite child_ensure.
  assert (E : child (ix_children (loaded ix0 ix)) 0 r = Some (N.of_nat (S i))).
  { cbn [loaded ix_children]. unfold rebuild. cbn [its_list]. apply rebuild_child.
    - pose proof (cut_len T). pose proof (t_room _ _ _ _ T). pose proof (t_cap _ _ _ _ T). lia.
    - right. split; [|by rewrite child_ensure]. intros j it Hj He. destruct j as [|j].
      + rewrite (cut_zero T) in Hj. injection Hj as <-. destruct He as [_ He]. by apply Hr.
      + destruct (edge_word T j it 0 r Hj He) as (q & Hq & Hw'). injection Hq as <-.
        apply Hnp, d_run_words. by eapply elem_of_list_lookup_2. }
  rewrite E. cbn [snd]. unfold index_get. cbn [ix_items ensure_children set_children loaded its_next].
  rewrite (nodes_count_spec T). pose proof (t_len _ _ _ _ T) as Hl. rewrite Hl.
  destruct (N.leb_spec (lenN (d_words (d_run h)) + 1) (N.of_nat (S i)));
    destruct (N.leb_spec (N.of_nat (S i)) (lenN (d_words (d_run h)))); try lia; done.
Qed.
Lemma l_C30_over_an_index_without_words : forall h ix bs h0 ix0,
  runs h ix -> disk_caps ix = true -> index_write ix = Ok (bs, None) ->
  runs h0 ix0 -> reloaded h0 = false -> (forall w, ~ present h0 w) ->
  exists a b, index_read ix0 bs = Ok (a, []) /\ index_read index_new bs = Ok (b, []) /\ indist a b.
Proof.
  intros h ix bs h0 ix0 H Hd Hw H0 Hrl Hnp. exists (loaded ix0 ix), (loaded index_new ix).
  split; [by eapply loads_over|]. split; [by eapply loads_over|].
  destruct (runs_R h ix H) as (ld & Hld & T & A). destruct (runs_R h0 ix0 H0) as (ld0 & Hld0 & T0 & A0).
  assert (Hch : forall p r, child (ix_children ix0) p r = None).
  { intros p r. destruct (child (ix_children ix0) p r) as [c|] eqn:E; [|done]. exfalso.
    apply (t_child _ _ _ _ T0) in E as [(Hc & q & _ & Hq)|(El & _)].
    - rewrite P_pos in Hq by done. apply (Hnp (q ++ [r])), d_run_words. by eapply elem_of_list_lookup_2.
    - rewrite Hld0 in Hrl by done. done. }
  assert (Hwc : ix_words ix0 = 0).
  { rewrite (a_words _ _ A0). assert (E : d_notes (d_run h0) = ∅); [|by rewrite E].
    apply map_empty. intros w. destruct (d_notes (d_run h0) !! w) as [s|] eqn:E; [|done]. exfalso.
    apply (Hnp w), d_run_words. by eapply (a_dom _ _ A0). }
  apply same_core_indist. split; try done; cbn [loaded ix_words ix_children index_new].
  - unfold rebuild. by rewrite Hwc, !rebuild_words.
  - intros p r. apply option_eq. intros c. unfold rebuild. cbn [its_list].
    pose proof (cut_len T). pose proof (t_room _ _ _ _ T). pose proof (t_cap _ _ _ _ T).
    rewrite !rebuild_child by lia. rewrite !child_ensure, Hch. done.
Qed.
