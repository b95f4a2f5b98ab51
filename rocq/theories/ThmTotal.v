(** Every history within the capacity limits runs: the hypothesis [runs] of the other theorems
    is met by all histories small enough, and every call answers as the abstract dictionary. *)
From Coq Require Import ZifyBool ZifyNat ZifyN.
From Verif Require Import Base Storage Bin Utf8 Tags TagSets Variants Items Index Spec Hist
  BaseFacts Intern SpecFacts TrieFacts NoteFacts OptFacts BinFacts CodecFacts ReloadFacts HistFacts DictFacts Limits.
From stdpp Require Import list.
Open Scope N_scope.

(** ** Nodes *)
Lemma extend_count_le n : extend_count n <= 15.
Proof.
  unfold extend_count. destruct (find _ _) as [i|] eqn:E; [|done].
  apply find_some in E as [Hi _]. cbn in Hi. repeat destruct Hi as [<-|Hi]; done.
Qed.
Definition roomy (s : items) : Prop := lenN (its_list s) <= its_next s + 14.
Lemma new_child_grow s p r s' it : items_new_child s p r = Ok (s', it) -> its_next s + 1 < 4294967296 -> roomy s ->
  its_next s' = its_next s + 1 /\ roomy s'.
Proof.
  unfold items_new_child, roomy. intros H Hn Hr. pose proof (extend_count_le (lenN (its_list s))) as He.
  destruct (N.leb_spec (lenN (its_list s)) (its_next s)) as [Hl|Hl];
    match type of H with (if ?c then _ else _) = _ => destruct c; [|done] end;
    injection H as <- <-; cbn [its_list its_next];
    rewrite (wrap32_small (its_next s + 1)) by done; (split; [done|]);
    unfold items_extend, lenN in *; rewrite insert_length, ?app_length, ?replicate_length; lia.
Qed.

Lemma add_loop_grow : forall w ix p, its_next (ix_items ix) + lenN w < 4294967296 -> roomy (ix_items ix) ->
  let ix' := (add_loop ix p w).1 in
  its_next (ix_items ix') <= its_next (ix_items ix) + lenN w /\ roomy (ix_items ix') /\
  ix_tags ix' = ix_tags ix /\ ix_sets ix' = ix_sets ix /\ ix_cols ix' = ix_cols ix.
Proof.
  induction w as [|r w IH]; intros ix p Hn Hr; cbn [add_loop]; [cbn; split; [lia|done]|].
  rewrite lenN_cons in *.
  destruct (if p =? 0 then _ else _) as [[]|e|]; try (cbn; split; [lia|done]).
  assert (E : ix_items (ensure_children ix p) = ix_items ix /\ ix_tags (ensure_children ix p) = ix_tags ix /\
    ix_sets (ensure_children ix p) = ix_sets ix /\ ix_cols (ensure_children ix p) = ix_cols ix) by done.
  destruct E as (E1 & E2 & E3 & E4). set (ix1 := ensure_children ix p) in *. clearbody ix1.
  destruct (child (ix_children ix1) p r) as [c|].
  - destruct w as [|r' w]; [cbn [fst]; rewrite E1; split; [lia|done]|].
    destruct (IH ix1 c) as (H1 & H2 & H3 & H4 & H5); rewrite E1 in *; [lia|done|].
    cbv zeta. split; [lia|]. split; [done|]. split; [congruence|]. split; congruence.
  - destruct (items_new_child (ix_items ix1) p r) as [[its it]|e|] eqn:En; try (cbn [fst]; rewrite E1; split; [lia|done]).
    rewrite E1 in En. destruct (new_child_grow _ _ _ _ _ En) as [Hx Hy]; [lia|done|].
    destruct w as [|r' w]; [cbn; split; [lia|done]|].
    set (ix2 := set_children _ _). destruct (IH ix2 (it_id it)) as (H1 & H2 & H3 & H4 & H5); [change (its_next (ix_items ix2)) with (its_next its); lia|done|].
    change (its_next (ix_items ix2)) with (its_next its) in H1. cbv zeta. cbn [ix_tags ix_sets ix_cols ix2] in H3, H4, H5.
    split; [lia|]. split; [done|]. split; [rewrite <- E2; exact H3|]. split; [rewrite <- E3; exact H4|rewrite <- E4; exact H5].
Qed.

(** ** Tables *)
Lemma capN_mono t k t' k' x : t <= t' -> k <= k' -> capN t k x -> capN t' k' x.
Proof. intros Ht Hk [H1 H2]. split; [lia|]. eapply Forall_impl; [exact H2|]. cbn. lia. Qed.
Lemma optimize_sub {ld ix d ix'} : trie_of ld ix (d_words d) -> annot ix d -> optimize ix = Ok ix' ->
  sub_tables (ix_cols ix) (ix_cols ix').
Proof.
  intros T A Ho. unfold optimize in Ho. set (l0 := its_list (ix_items ix)) in *. set (cols := ix_cols ix) in *.
  destruct (filter (fun id => used_map l0 !! id = None) (known_id cols)) as [|u0 us].
  { injection Ho as <-. split; [done|]. intros c i s H. by exists i. }
  destruct (opt_build_spec cols (a_cols _ _ A) (a_cols_cap _ _ A) (used_map l0) (known_id cols) [] [])
    as (new & repl & Eb & B & _).
  - split.
    + apply tables_ok_nil.
    + split; [cbn; lia|]. intros c i s H. unfold at2 in H. by rewrite lookup_nil in H.
    + intros o n H. by apply elem_of_nil in H.
    + intros n col (_ & _ & H). unfold at2 in H. by rewrite lookup_nil in H.
  - apply known_id_NoDup. apply A.
  - constructor.
  - intros o _ H. by apply elem_of_nil in H.
  - intros o. apply known_id_spec. apply A.
  - rewrite Eb in Ho. cbn in Ho. destruct (opt_replace _ _ _ _ _) as [l|e|]; [|done..]. injection Ho as <-. cbn. apply B.
Qed.

(** ** The size of a collection *)
Lemma resolved_size sets col : tables_ok sets -> NoDup col -> Forall (fun k => exists s, good_set sets k s) col ->
  size (resolved sets col) = length col.
Proof.
  intros Hok Hnd Hf. unfold resolved. induction col as [|k col IH]; [done|].
  apply NoDup_cons in Hnd as [Hk Hnd]. apply Forall_cons in Hf as [[s Hs] Hf].
  cbn [omap list_omap]. destruct Hs as [Hk32 Hs]. rewrite Hs. cbn [list_to_set]. rewrite size_union.
  - rewrite size_singleton, IH by done. done.
  - apply disjoint_singleton_l. rewrite elem_of_list_to_set, elem_of_list_omap. intros (k' & Hin & Hs').
    apply Hk. rewrite Forall_forall in Hf. destruct (Hf k' Hin) as (s' & Hk' & Hg).
    assert (k = k') as ->; [|done]. eapply (good_set_inj sets); [done|split; done|split; done].
Qed.

(** ** Histories *)
Lemma step_notes d o w n : d_notes d !! w = Some n -> exists n', d_notes (d_step d o) !! w = Some n' /\ n ⊆ n'.
Proof.
  intros H. destruct o as [w0|w0|nm p|w0 names| |]; cbn [d_step]; try (by exists n).
  - unfold d_register. destruct (d_tag_pos d nm); by exists n.
  - destruct (pos_from _ _ _); [|by exists n]. destruct (d_ids d names) as [ids|]; [|by exists n].
    cbn [d_notes d_note]. destruct (decide (w0 = w)) as [->|Hne].
    + rewrite lookup_insert, H. eexists. split; [done|]. cbn. set_solver.
    + rewrite lookup_insert_ne by done. by exists n.
Qed.
Lemma elem_of_all_sets d s : s ∈ all_sets d <-> exists w n, d_notes d !! w = Some n /\ s ∈ n.
Proof.
  unfold all_sets. rewrite elem_of_union_list. split.
  - intros (n & Hn & Hs). apply elem_of_list_fmap in Hn as ([w n'] & -> & Hn). apply elem_of_map_to_list in Hn. by exists w, n'.
  - intros (w & n & Hn & Hs). exists n. split; [|done]. apply elem_of_list_fmap. exists (w, n). split; [done|]. by apply elem_of_map_to_list.
Qed.
Lemma elem_of_seen h n : n ∈ seen h <-> exists i w, (i <= length h)%nat /\ d_notes (d_run (take i h)) !! w = Some n.
Proof.
  unfold seen. rewrite elem_of_list_to_set, elem_of_list_In, in_flat_map. split.
  - intros (i & Hi & Hn). apply in_seq in Hi. apply elem_of_list_In, elem_of_list_fmap in Hn as ([w n'] & -> & Hn).
    apply elem_of_map_to_list in Hn. exists i, w. split; [lia|done].
  - intros (i & w & Hi & Hn). exists i. split; [apply in_seq; lia|]. apply elem_of_list_In, elem_of_list_fmap.
    exists (w, n). split; [done|]. by apply elem_of_map_to_list.
Qed.
Lemma seen_snoc h o n : n ∈ seen (h ++ [o]) <-> n ∈ seen h \/ exists w, d_notes (d_run (h ++ [o])) !! w = Some n.
Proof.
  rewrite !elem_of_seen. split.
  - intros (i & w & Hi & Hn). rewrite app_length in Hi. cbn in Hi. destruct (decide (i <= length h)%nat) as [Hle|Hgt].
    + left. exists i, w. split; [done|]. by rewrite take_app_le in Hn.
    + right. exists w. by rewrite take_ge in Hn by (rewrite app_length; cbn; lia).
  - intros [(i & w & Hi & Hn)|(w & Hn)].
    + exists i, w. rewrite app_length, take_app_le by done. split; [lia|done].
    + exists (length (h ++ [o])), w. split; [done|]. by rewrite take_ge.
Qed.
Lemma seen_last h w n : d_notes (d_run h) !! w = Some n -> n ∈ seen h.
Proof. intros H. apply elem_of_seen. exists (length h), w. split; [done|]. by rewrite take_ge. Qed.
Lemma all_sets_step d o : all_sets d ⊆ all_sets (d_step d o).
Proof.
  intros s. rewrite !elem_of_all_sets. intros (w & n & Hn & Hs). destruct (step_notes d o w n Hn) as (n' & Hn' & Hsub).
  exists w, n'. split; [done|]. set_solver.
Qed.
Lemma filter_size {A} `{Countable A} (P : A -> Prop) `{!forall x, Decision (P x)} (X Y : gset A) : X ⊆ Y ->
  (size (filter P X) <= size (filter P Y))%nat.
Proof. intros HXY. apply subseteq_size. intros x. rewrite !elem_of_filter. set_solver. Qed.

Lemma filter_all_size {A} `{Countable A} (P : A -> Prop) `{!forall x, Decision (P x)} (X : gset A) : (size (filter P X) <= size X)%nat.
Proof. apply subseteq_size. intros x. rewrite elem_of_filter. tauto. Qed.

Lemma modest_prefix b h o : modest b (h ++ [o]) -> modest b h.
Proof.
  intros M. assert (Et : exists l, tag_calls (h ++ [o]) = tag_calls h ++ l) by (eexists; unfold tag_calls; by rewrite omap_app).
  destruct Et as [l Et].
  split.
  - pose proof (m_letters _ _ M) as H. unfold letters, added in *. rewrite omap_app, map_app, sum_list_with_app in H.
    unfold sum_list in *. lia.
  - etrans; [|apply (m_names _ _ M)]. unfold registered. rewrite omap_app, list_to_set_app.
    match goal with |- N.of_nat (size ?a) <= N.of_nat (size ?c) => assert (size a <= size c)%nat by (apply subseteq_size; set_solver) end. lia.
  - intros k. etrans; [|apply (m_sets _ _ M k)]. rewrite d_run_snoc.
    pose proof (filter_size (fun s => length s = k) _ _ (all_sets_step (d_run h) o)). lia.
  - intros k. etrans; [|apply (m_notes _ _ M k)].
    assert (Hs : seen h ⊆ seen (h ++ [o])) by (intros n Hn; apply seen_snoc; by left).
    pose proof (filter_size (fun n => size n = k) _ _ Hs). lia.
  - intros w names H. apply (m_lists _ _ M w). rewrite Et. apply elem_of_app. by left.
  - intros w n Hn. destruct (step_notes _ o w n Hn) as (n' & Hn' & Hs). rewrite <- d_run_snoc in Hn'.
    pose proof (m_each _ _ M w n' Hn'). apply subseteq_size in Hs. lia.
  - intros o' w H. apply (m_words _ _ M). apply elem_of_app. by left.
  - intros n p H. apply (m_tags _ _ M). apply elem_of_app. by left.
  - intros n p Hb H. apply (m_plain _ _ M n p Hb). apply elem_of_app. by left.
Qed.
Lemma modest_last b h o : modest b (h ++ [o]) -> o ∈ h ++ [o].
Proof. intros _. apply elem_of_app. right. by apply elem_of_list_singleton. Qed.

Lemma add_prefixes_len rest : forall ws pre, lenN (add_prefixes ws pre rest) <= lenN ws + lenN rest.
Proof.
  induction rest as [|r rest IH]; intros ws pre; cbn [add_prefixes]; [unfold lenN; cbn; lia|].
  rewrite (lenN_cons r rest). etrans; [apply IH|]. destruct (decide _); [lia|].
  rewrite lenN_app, lenN_cons, lenN_nil. lia.
Qed.
Lemma d_words_len h : lenN (d_words (d_run h)) <= letters h.
Proof.
  induction h as [|o h IH] using rev_ind; [done|]. rewrite d_run_snoc.
  assert (E : letters (h ++ [o]) = letters h + match o with OAdd w => lenN w | _ => 0 end).
  { unfold letters, added. rewrite omap_app, map_app, sum_list_with_app. unfold sum_list, lenN.
    destruct o; cbn; unfold Datatypes.id; lia. }
  rewrite E. destruct o as [w|w|n p|w names| |]; cbn [d_step]; try lia.
  - cbn [d_words d_add]. etrans; [apply add_prefixes_len|]. lia.
  - unfold d_register. destruct (d_tag_pos _ _); cbn [d_words]; lia.
  - destruct (pos_from _ _ _); [|lia]. destruct (d_ids _ _); [|lia]. cbn [d_words d_note]. lia.
Qed.
Lemma d_tags_len h : NoDup (d_tags (d_run h)).*1 ->
  length (d_tags (d_run h)) = size (list_to_set (registered h) : gset (list N)).
Proof.
  intros Hnd. rewrite <- (fmap_length fst), <- (size_list_to_set (C := gset (list N)) _ Hnd). f_equal.
  apply set_eq. intros n. by rewrite !elem_of_list_to_set, d_run_registered.
Qed.
Lemma d_tags_from h n p : (n, p) ∈ d_tags (d_run h) -> exists p', OTagID n p' ∈ h /\ p = or_dashes p'.
Proof.
  induction h as [|o h IH] using rev_ind; [intros H; by apply elem_of_nil in H|]. rewrite d_run_snoc, d_step_tags. intros H.
  assert (Hold : (n, p) ∈ d_tags (d_run h) -> exists p', OTagID n p' ∈ h ++ [o] /\ p = or_dashes p').
  { intros H'. destruct (IH H') as (p' & Hp & ->). exists p'. split; [|done]. apply elem_of_app. by left. }
  destruct o as [w|w|n0 p0|w names| |]; try by apply Hold.
  unfold d_register in H. destruct (d_tag_pos (d_run h) n0); [by apply Hold|]. cbn [d_tags] in H.
  apply elem_of_app in H as [H|H]; [by apply Hold|]. apply elem_of_list_singleton in H. injection H as -> ->.
  exists p0. split; [|done]. apply elem_of_app. right. by apply elem_of_list_singleton.
Qed.
(** ** Counting the entries of the tables *)
Lemma sets_count (sets : tables) (X : gset (list N)) (k : N) : tables_ok sets -> (forall c i s, at2 sets c i = Some s -> s ∈ X) ->
  (forall l, N.of_nat (size (filter (fun s => length s = l) X)) <= k) -> Forall (fun t => lenN t <= k) sets.
Proof.
  intros Hok Hin Hk. apply Forall_lookup. intros c t Ht. destruct (Hok c t Ht) as [Hnd Hf].
  etrans; [|apply (Hk (S c))]. unfold lenN.
  enough (length t <= size (filter (fun s => length s = S c) X))%nat by lia.
  rewrite <- (size_list_to_set (C := gset (list N)) t Hnd). apply subseteq_size. intros s. rewrite elem_of_list_to_set, elem_of_filter.
  intros Hs. rewrite Forall_forall in Hf. split; [by apply Hf|]. apply elem_of_list_lookup in Hs as [i Hi].
  apply (Hin c i). unfold at2. by rewrite Ht.
Qed.
Definition all_good (sets : list (list (list N))) (col : list N) : Prop := Forall (fun k => exists s, good_set sets k s) col.
Lemma resolved_sub sets a b : tables_ok sets -> all_good sets a -> all_good sets b ->
  resolved sets a = resolved sets b -> forall k, k ∈ a -> k ∈ b.
Proof.
  intros Hok Fa Fb E k Hk. unfold all_good in *. rewrite Forall_forall in Fa, Fb. destruct (Fa k Hk) as (s & Hs).
  assert (Hin : s ∈ resolved sets a) by (apply elem_of_resolved; exists k; split; [done|apply Hs]). rewrite E in Hin.
  apply elem_of_resolved in Hin as (k' & Hk' & Hs'). destruct (Fb k' Hk') as (s' & Hs'').
  assert (s' = s) as -> by (destruct Hs''; congruence). by rewrite (good_set_inj _ _ _ _ Hok Hs Hs'').
Qed.
Lemma resolved_inj sets a b : tables_ok sets -> sortedN a -> sortedN b -> NoDup a -> NoDup b ->
  all_good sets a -> all_good sets b -> resolved sets a = resolved sets b -> a = b.
Proof.
  intros Hok Sa Sb Na Nb Fa Fb E. apply sorted_unique; [done..|]. apply NoDup_Permutation; [done..|].
  intros k. split; by apply (resolved_sub sets).
Qed.
Lemma cols_count (sets cols : tables) (X : gset (gset (list N))) (k : N) : tables_ok sets -> tables_ok cols ->
  (forall c i col, at2 cols c i = Some col -> NoDup col /\ all_good sets col) ->
  (forall c i col, at2 cols c i = Some col -> resolved sets col ∈ X) ->
  (forall l, N.of_nat (size (filter (fun n => size n = l) X)) <= k) -> Forall (fun t => lenN t <= k) cols.
Proof.
  intros Hok Hokc Hg Hin Hk. apply Forall_lookup. intros c t Ht. destruct (Hokc c t Ht) as [Hnd Hf].
  etrans; [|apply (Hk (S c))]. unfold lenN.
  enough (length t <= size (filter (fun n => size n = S c) X))%nat by lia.
  assert (Hat : forall col, col ∈ t -> exists i, at2 cols c i = Some col).
  { intros col [i Hi]%elem_of_list_lookup. exists i. unfold at2. by rewrite Ht. }
  rewrite Forall_forall in Hf.
  assert (Hnd' : NoDup (resolved sets <$> t)).
  { apply NoDup_fmap_2_strong; [|done]. intros x y Hx Hy E. destruct (Hat x Hx) as [i Hi], (Hat y Hy) as [j Hj].
    destruct (Hg _ _ _ Hi), (Hg _ _ _ Hj). apply (resolved_inj sets); try done; by apply Hf. }
  rewrite <- (fmap_length (resolved sets) t), <- (size_list_to_set (C := gset (gset (list N))) _ Hnd').
  apply subseteq_size. intros n. rewrite elem_of_list_to_set, elem_of_filter, elem_of_list_fmap. intros (col & -> & Hc).
  destruct (Hat col Hc) as [i Hi]. destruct (Hg _ _ _ Hi) as [N1 N2]. split; [|by eapply Hin].
  rewrite resolved_size by done. by apply Hf.
Qed.

(** What the tables hold during a history. *)
Record lim (b : bool) (h : list op) (ix : index) : Prop := {
  l_roomy : roomy (ix_items ix);
  l_sets_ok : tables_ok (ix_sets ix);
  l_sets_in : forall c i s, at2 (ix_sets ix) c i = Some s -> s ∈ all_sets (d_run h);
  l_sets_len : lenN (ix_sets ix) <= if b then 255 else 65536;
  l_cols_ok : tables_ok (ix_cols ix);
  l_col_ids : forall c i col, at2 (ix_cols ix) c i = Some col -> NoDup col /\ all_good (ix_sets ix) col;
  l_cols_in : forall c i col, at2 (ix_cols ix) c i = Some col -> resolved (ix_sets ix) col ∈ seen h;
  l_cols_len : lenN (ix_cols ix) <= if b then 255 else 65535 }.
Lemma lim_capN b h ix : modest b h -> lim b h ix ->
  capN (if b then 255 else 65536) (if b then 65535 else 65536) (ix_sets ix) /\ capN (if b then 255 else 65535) 65536 (ix_cols ix).
Proof.
  intros M L. split; (split; [apply L|]).
  - eapply sets_count; [apply L|apply (l_sets_in _ _ _ L)|apply M].
  - eapply (cols_count (ix_sets ix)); [apply L|apply L|apply (l_col_ids _ _ _ L)|apply (l_cols_in _ _ _ L)|apply M].
Qed.
Lemma caps_intro ix : lenN (ix_tags ix) <= 256 -> capN 65536 65536 (ix_sets ix) -> capN 65535 65536 (ix_cols ix) ->
  lenN (its_list (ix_items ix)) < 4294967296 -> caps ix = true.
Proof. intros H1 H2 H3 H4. unfold caps. rewrite !andb_true_iff, N.leb_le, N.ltb_lt, !within_capN. done. Qed.
Lemma lim_caps b h ix : lim b h ix -> modest b h -> lenN (ix_tags ix) <= 256 ->
  its_next (ix_items ix) <= 4294967281 -> caps ix = true.
Proof.
  intros L M Ht Hn. destruct (lim_capN b h ix M L) as [H2 H3].
  apply caps_intro; [done|eapply capN_mono; [..|exact H2]|eapply capN_mono; [..|exact H3]|];
    [by destruct b|by destruct b|by destruct b|lia|]. pose proof (l_roomy _ _ _ L) as H1. unfold roomy in H1. lia.
Qed.
Lemma same_core_lim b h a c : same_core a c -> lim b h c -> lim b h a.
Proof. intros S L. destruct S, L. split; by rewrite ?sc_items, ?sc_sets, ?sc_cols. Qed.
Lemma lim_keep b h o a c : lim b h a -> roomy (ix_items c) -> ix_sets c = ix_sets a -> ix_cols c = ix_cols a -> lim b (h ++ [o]) c.
Proof.
  intros L Hr Es Ec. destruct L. split; rewrite ?Es, ?Ec; try done.
  - intros x i s H. rewrite d_run_snoc. apply all_sets_step. by eapply l_sets_in0.
  - intros x i col H. apply seen_snoc. left. by eapply l_cols_in0.
Qed.

Lemma total b h : modest b h -> (reloaded h = true -> b = true) -> exists ix, runs h ix /\ lim b h ix.
Proof.
  induction h as [|o h IH] using rev_ind; intros M Hb.
  { exists index_new. split; [constructor|]. split; try done; try (by apply tables_ok_nil);
      try (intros c i s H; unfold at2 in H; by rewrite lookup_nil in H); cbn; destruct b; lia. }
  rewrite reloaded_snoc in Hb. destruct IH as (ix & Hr & L); [by eapply modest_prefix|intros E; apply Hb; by rewrite E|].
  pose proof (runs_refines h ix Hr) as (ld & Hld & T & A).
  assert (Hin : o ∈ h ++ [o]) by (by eapply modest_last).
  assert (Hnext : its_next (ix_items ix) <= 1 + letters h).
  { rewrite (t_len _ _ _ _ T). pose proof (d_words_len h). lia. }
  pose proof (m_letters _ _ M) as Mlet.
  assert (El : letters (h ++ [o]) = letters h + match o with OAdd w => lenN w | _ => 0 end).
  { unfold letters, added. rewrite omap_app, map_app, sum_list_with_app. unfold sum_list, lenN.
    destruct o; cbn; unfold Datatypes.id; lia. }
  assert (Ec : tag_calls (h ++ [o]) = tag_calls h ++ match o with OTag w names => [(w, names)] | _ => [] end).
  { unfold tag_calls. rewrite omap_app. by destruct o. }
  assert (Hword : forall w, op_word o = Some w -> Forall int32 w /\ (reloaded h = true -> head w <> Some 0%Z)).
  { intros w Hw. destruct (m_words _ _ M o w Hin Hw) as [H1 H2]. split; [done|]. intros E. apply H2, Hb. by rewrite E. }
  assert (Hhead : forall w, op_word o = Some w -> head_ok ld w).
  { intros w Hw E. apply (Hword w Hw). by apply Hld. }
  assert (Hgo : op_ok (reloaded h) ix o -> caps (step ix o).1 = true -> lim b (h ++ [o]) (step ix o).1 ->
    exists ix', runs (h ++ [o]) ix' /\ lim b (h ++ [o]) ix').
  { intros H1 H2 H3. exists (step ix o).1. split; [|done]. eapply (runs_snoc h o ix _ (step ix o).2); [done|done| |done]. by destruct (step ix o). }
  assert (Htags : lenN (ix_tags ix) <= 256) by (rewrite (a_tags _ _ A); unfold lenN; rewrite map_length; apply A).
  destruct o as [w|w|n p|w names| |].
  - (* OAdd *)
    assert (G : its_next (ix_items (add_runes ix w).1) <= its_next (ix_items ix) + lenN w /\ roomy (ix_items (add_runes ix w).1) /\
      ix_tags (add_runes ix w).1 = ix_tags ix /\ ix_sets (add_runes ix w).1 = ix_sets ix /\ ix_cols (add_runes ix w).1 = ix_cols ix).
    { pose proof (l_roomy _ _ _ L) as L1. unfold add_runes, add_to_node. destruct w as [|r w]; [cbn; split; [lia|done]|].
      apply add_loop_grow; [lia|done]. }
    destruct G as (G1 & G2 & G3 & G4 & G5).
    assert (L' : lim b (h ++ [OAdd w]) (step ix (OAdd w)).1).
    { by eapply lim_keep. }
    apply Hgo; [cbn; by apply Hword| |done]. eapply lim_caps; [exact L'|done| |]; cbn [step]; [by rewrite G3|lia].
  - (* OFetch *)
    destruct (fetch_refines ld ix _ w T A (Hhead w eq_refl)) as (_ & _ & S & _).
    assert (L' : lim b (h ++ [OFetch w]) (step ix (OFetch w)).1).
    { cbn [step]. eapply same_core_lim; [exact S|]. by eapply lim_keep; [exact L|apply L|..]. }
    apply Hgo; [cbn; by apply Hword| |done]. destruct S. eapply lim_caps; [exact L'|done| |]; cbn [step].
    + by rewrite sc_tags. + rewrite sc_items. lia.
  - (* OTagID *)
    destruct (m_tags _ _ M n p Hin) as [Hn Hp].
    assert (L' : lim b (h ++ [OTagID n p]) (step ix (OTagID n p)).1).
    { cbn [step]. unfold index_tag_id. destruct (tags_index (ix_tags ix) n p) as [ts id]. cbn [fst].
      by eapply lim_keep; [exact L|apply L|..]. }
    apply Hgo; [done| |done]. eapply lim_caps; [exact L'|done| |].
    + cbn [step]. unfold index_tag_id, tags_index, tags_find. rewrite (a_tags _ _ A), tag_pos_pos. cbn [N.of_nat].
      destruct (pos_from 0 (d_tags (d_run h)).*1 n) as [k|] eqn:Ek; cbn.
      * rewrite <- (a_tags _ _ A). done.
      * rewrite lenN_app, lenN_cons, lenN_nil. pose proof (m_names _ _ M) as Mn.
        assert (Hnot : n ∉ registered h).
        { rewrite <- d_tag_pos_registered. unfold d_tag_pos. rewrite Ek. by intros []. }
        unfold registered in Mn. rewrite omap_app, list_to_set_app in Mn. cbn [omap list_omap list_to_set] in Mn.
        fold (registered h) in Mn. rewrite size_union in Mn by set_solver.
        rewrite <- (d_tags_len h (a_names _ _ A)) in Mn. rewrite (union_empty_r_L ({[n]} : gset (list N))), size_singleton in Mn.
        unfold lenN. rewrite map_length. destruct b; lia.
    + cbn [step]. unfold index_tag_id. destruct (tags_index (ix_tags ix) n p) as [ts id]. cbn. lia.
  - (* OTag *)
    destruct (m_lists _ _ M w names) as [Hne Hln]; [rewrite Ec; apply elem_of_app; right; by apply elem_of_list_singleton|].
    destruct (fetch_refines ld ix _ w T A (Hhead w eq_refl)) as (T1 & A1 & Sc & Hf).
    assert (L1 : lim b h (fetch_runes ix w).1) by (by eapply same_core_lim).
    assert (Hmono : lim b (h ++ [OTag w names]) (fetch_runes ix w).1) by (eapply lim_keep; [exact L1|apply L1|done..]).
    assert (Hn1 : its_next (ix_items (fetch_runes ix w).1) <= 4294967281) by (destruct Sc; rewrite sc_items; lia).
    assert (Ht1 : lenN (ix_tags (fetch_runes ix w).1) <= 256) by (destruct Sc; by rewrite sc_tags).
    enough (lim b (h ++ [OTag w names]) (step ix (OTag w names)).1 /\
            its_next (ix_items (step ix (OTag w names)).1) = its_next (ix_items (fetch_runes ix w).1) /\
            ix_tags (step ix (OTag w names)).1 = ix_tags (fetch_runes ix w).1) as (L' & E1 & E2).
    { apply Hgo; [cbn; split; [done|by apply Hword]| |done]. eapply lim_caps; [exact L'|done|by rewrite E2|by rewrite E1]. }
    pose proof (d_run_snoc h (OTag w names)) as Ed. cbn [d_step] in Ed.
    cbn [step]. destruct (fetch_runes ix w) as [ix1 r] eqn:Ef. cbn [fst snd] in *.
    destruct r as [id|e|]; [|cbn; split; [by apply Hmono|done]..].
    (* the node *)
    destruct (pos_from 1 (d_words (d_run h)) w) as [i|] eqn:Ep; [|destruct w; [done|unfold d_find in Hf; by rewrite Ep in Hf]].
    assert (id = i) as -> by (destruct w; [done|unfold d_find in Hf; rewrite Ep in Hf; congruence]).
    apply pos_from_Some in Ep as (j & -> & Hj).
    destruct (node_variants T1 A1 j w Hj) as (it & Hget & Hl & Hv).
    unfold node_add_tag_set. rewrite (names_to_ids_spec ix1 (d_run h)) by done.
    destruct (d_ids (d_run h) names) as [ids|] eqn:Ei; [|cbn; split; [by apply Hmono|done]].
    replace (1 + N.of_nat j) with (N.of_nat (S j)) by lia. unfold get_item. rewrite Hget.
    assert (Hids : ids <> []) by (intros ->; apply d_ids_length in Ei; by destruct names).
    pose proof (d_ids_length _ _ _ Ei) as Hil.
    assert (Hcol : exists col, variants_get (ix_cols ix1) (it_variants it) = Ok col /\ NoDup col /\ all_good (ix_sets ix1) col /\
      default ∅ (d_notes (d_run h) !! w) = resolved (ix_sets ix1) col).
    { destruct Hv as [[-> Hn]|(col & Hg & Hn)].
      - exists []. rewrite Hn. repeat split; constructor.
      - exists col. split; [by apply good_col_get|].
        destruct (a_col_ids _ _ A1 _ _ _ (proj2 (proj2 Hg))) as [Hnd Hfs]. by rewrite Hn. }
    destruct Hcol as (col & Hcg & Hcnd & Hcf & Hcr). rewrite Hcg. cbn.
    set (note := {[ go_sort ids ]} ∪ default ∅ (d_notes (d_run h) !! w)).
    assert (Hnote : d_notes (d_run (h ++ [OTag w names])) !! w = Some note) by (rewrite Ed; apply lookup_insert).
    (* the sets *)
    destruct (tagset_index_index (ix_sets ix1) ids) as [[sets' sid]|e|] eqn:Es; [|rewrite tagset_index_intern in Es by done; discriminate..].
    assert (Hs' : sets' = (intern2 (ix_sets ix1) ids).1) by (rewrite tagset_index_intern in Es by done; by injection Es as <- _).
    pose proof (l_sets_ok _ _ _ L1) as Hok1.
    assert (Hok' : tables_ok sets') by (subst sets'; by apply intern2_ok).
    assert (Hin' : forall c i s, at2 sets' c i = Some s -> s ∈ all_sets (d_run (h ++ [OTag w names]))).
    { intros c i s H. subst sets'. apply intern2_new in H as [H|(_ & _ & ->)]; [|apply elem_of_all_sets; exists w, note; set_solver|done..].
      rewrite d_run_snoc. apply all_sets_step. by eapply (l_sets_in _ _ _ L1). }
    assert (Hlen' : lenN sets' <= if b then 255 else 65536).
    { subst sets'. pose proof (l_sets_len _ _ _ L1). unfold lenN in *. rewrite intern2_length. destruct ids; [done|]. cbn [length] in *. destruct b; lia. }
    assert (Hcap' : capN 65536 65536 sets').
    { eapply capN_mono; [..|split; [exact Hlen'|]]; [by destruct b|done|].
      eapply sets_count; [done|exact Hin'|]. intros l. pose proof (m_sets _ _ M l). destruct b; lia. }
    pose proof (sets_interned _ _ _ _ Hok1 Hids Es Hcap') as IS.
    assert (Hcf' : all_good sets' (collection_add col sid)).
    { apply Forall_forall. intros k [->|Hk]%collection_add_elem; [exists (go_sort ids); apply IS|].
      unfold all_good in Hcf. rewrite Forall_forall in Hcf. destruct (Hcf k Hk) as [s Hs]. exists s. by apply (in_mono _ _ _ _ _ IS). }
    pose proof (collection_add_NoDup col sid Hcnd) as Hcnd'.
    assert (Hres : resolved sets' (collection_add col sid) = note).
    { unfold note. rewrite Hcr. apply set_eq. intros s. rewrite elem_of_union, elem_of_singleton.
      rewrite <- (resolved_mono (ix_sets ix1) sets' col (in_mono _ _ _ _ _ IS) Hcf).
      rewrite !elem_of_resolved. setoid_rewrite collection_add_elem.
      destruct (in_get _ _ _ _ _ IS) as [_ Hsid]. split.
      - intros (k & [->|Hk] & Hs); [left; congruence|right; by exists k].
      - intros [->|(k & Hk & Hs)]; [exists sid; by auto|exists k; by auto]. }
    (* the collections *)
    assert (Hadd : lenN (collection_add col sid) <= if b then 255 else 65535).
    { pose proof (m_each _ _ M w note Hnote) as Mt. rewrite <- Hres, resolved_size in Mt by done. done. }
    cbn. rewrite variants_index_intern; [|apply collection_add_ne|destruct b; lia]. cbn.
    split; [|done]. split; cbn [ix_sets ix_cols ix_items]; try done.
    + pose proof (l_roomy _ _ _ L1). unfold roomy in *. cbn. unfold lenN in *. by rewrite alter_length.
    + apply intern2_ok; [apply L1|apply collection_add_ne].
    + intros c i x H. apply intern2_new in H as [H|(_ & _ & ->)].
      * destruct (l_col_ids _ _ _ L1 _ _ _ H) as [N1 N2]. split; [done|]. eapply Forall_impl; [exact N2|].
        intros k [s Hs]. exists s. by apply (in_mono _ _ _ _ _ IS).
      * split; [by apply go_sort_NoDup|]. unfold all_good. by apply go_sort_Forall.
    + intros c i x H. apply intern2_new in H as [H|(_ & _ & ->)].
      * destruct (l_col_ids _ _ _ L1 _ _ _ H) as [N1 N2].
        rewrite (resolved_mono (ix_sets ix1) sets' x (in_mono _ _ _ _ _ IS) N2). apply seen_snoc. left. by eapply (l_cols_in _ _ _ L1).
      * rewrite (resolved_perm _ _ (collection_add col sid)) by (intros k; apply go_sort_elem). rewrite Hres. by eapply seen_last.
    + pose proof (l_cols_len _ _ _ L1). pose proof (collection_add_ne col sid). unfold lenN in *. rewrite intern2_length.
      destruct (collection_add col sid); [done|]. cbn [length] in *. destruct b; lia.
  - (* OOptimize *)
    destruct (optimize_spec T A) as (ix' & E & _ & A' & _ & Et & Es & _ & _ & Sn & _).
    assert (L' : lim b (h ++ [OOptimize]) (step ix OOptimize).1).
    { destruct (optimize_sub T A E) as [Hsl Hss]. cbn [step]. rewrite E. cbn [fst]. destruct L. split; rewrite ?Es; try done.
      - unfold roomy in *. destruct Sn. by rewrite sn_next, sn_len.
      - intros c i s H. rewrite d_run_snoc. by eapply l_sets_in0.
      - apply A'.
      - intros c i s H. destruct (Hss c i s H) as [j Hj]. by eapply l_col_ids0.
      - intros c i s H. destruct (Hss c i s H) as [j Hj]. apply seen_snoc. left. by eapply l_cols_in0.
      - unfold lenN in *. lia. }
    apply Hgo; [done| |done]. eapply lim_caps; [exact L'|done| |]; cbn [step]; rewrite E; cbn [fst].
    + by rewrite Et. + destruct Sn. rewrite sn_next. lia.
  - (* OReload *)
    assert (b = true) as -> by (apply Hb; cbn; by rewrite orb_true_r).
    destruct (lim_capN true h ix (modest_prefix _ _ _ M) L) as [L2 L3].
    assert (Hd : disk_caps ix = true).
    { unfold disk_caps. rewrite !andb_true_iff, N.leb_le, !within_capN. split; [split|].
      - pose proof (m_names _ _ (modest_prefix _ _ _ M)) as Mn. rewrite (a_tags _ _ A). unfold lenN. rewrite map_length.
        by rewrite (d_tags_len h (a_names _ _ A)).
      - eapply capN_mono; [..|exact L2]; lia.
      - eapply capN_mono; [..|exact L3]; lia. }
    assert (Hp : plain_tags ix = true).
    { unfold plain_tags. rewrite (a_tags _ _ A). apply forallb_forall. intros t Ht. apply elem_of_list_In in Ht.
      apply (elem_of_list_fmap_2 tag_of) in Ht as ([n p] & -> & Hnp). destruct (d_tags_from h n p Hnp) as (p' & Ho & ->).
      destruct (m_plain _ _ (modest_prefix _ _ _ M) n p' eq_refl Ho) as (H1 & H2 & H3). cbn [tag_of tag_parent tag_name].
      unfold plain_name, or_dashes. rewrite !andb_true_iff, !negb_true_iff, !bool_decide_eq_false.
      split; [|done]. destruct (decide (p' = [])); [|done]. split; by vm_compute. }
    pose proof (reload_spec T A Hd Hp) as Er.
    assert (L' : lim true (h ++ [OReload]) (step ix OReload).1 /\ its_next (ix_items (step ix OReload).1) = its_next (ix_items ix) /\
      lenN (ix_tags (step ix OReload).1) = lenN (ix_tags ix)).
    { cbn [step]. rewrite Er. destruct (decide _); cbn [fst]; [|split; [eapply lim_keep; [exact L|apply L|done..]|done]].
      split; [eapply lim_keep; [exact L|..]|].
      - unfold roomy, loaded. cbn. unfold lenN. rewrite take_length. lia.
      - done.
      - done.
      - unfold loaded. cbn. split; [done|]. unfold lenN. by rewrite map_length. }
    destruct L' as (L' & E1 & E2).
    apply Hgo; [done| |done]. eapply lim_caps; [exact L'|done|by rewrite E2|rewrite E1; lia].
Qed.

(** ** The property *)
Lemma d_outs_snoc h o d : d_outs d (h ++ [o]) = d_outs d h ++ [d_out (fold_left d_step h d) o].
Proof. revert d. induction h as [|o' h IH]; intros d; [done|]. cbn. by rewrite IH. Qed.
Lemma runs_outs h ix : runs h ix -> outs index_new h = (ix, d_outs d_empty h).
Proof.
  induction 1 as [|h o ix ix' r H IH Hok Hstep Hcaps]; [done|].
  unfold outs in *. rewrite fold_left_app, IH. cbn. rewrite Hstep, d_outs_snoc. f_equal. f_equal.
  destruct (step_refines _ _ _ _ _ _ (runs_refines h ix H) Hok Hstep Hcaps) as [_ ->]. done.
Qed.
Lemma l_C59_runs : forall h, modest (reloaded h) h -> runs h (outs index_new h).1.
Proof.
  intros h M. destruct (total _ h M) as (ix & Hr & _); [done|]. by rewrite (runs_outs h ix Hr).
Qed.
Lemma l_C59_answers : forall h, modest (reloaded h) h -> (outs index_new h).2 = d_outs d_empty h.
Proof.
  intros h M. destruct (total _ h M) as (ix & Hr & _); [done|]. by rewrite (runs_outs h ix Hr).
Qed.
Lemma l_C59_no_panic : forall h, modest (reloaded h) h -> Panic ∉ (outs index_new h).2.
Proof.
  intros h M. rewrite l_C59_answers by done. clear M. generalize d_empty as d. induction h as [|o h IH]; intros d; cbn [d_outs].
  { apply not_elem_of_nil. }
  rewrite not_elem_of_cons. split; [|apply IH].
  destruct o as [w|w|n p|w names| |]; cbn; try done.
  - destruct w; [done|]. unfold d_find. by destruct (pos_from _ _ _).
  - destruct w; [done|]. unfold d_find. by destruct (pos_from _ _ _).
  - destruct (pos_from _ _ _) as [pp|]; [|done]. by destruct (d_ids _ _).
  - by destruct (decide _).
Qed.

(** A check that implies [modest]. *)
Lemma step_all_sets d o : (size (all_sets (d_step d o)) <= size (all_sets d) + match o with OTag _ _ => 1 | _ => 0 end)%nat.
Proof.
  destruct o as [w|w|n p|w names| |]; cbn [d_step]; try (cbn; lia).
  - change (all_sets (d_add d w)) with (all_sets d). lia.
  - unfold d_register. destruct (d_tag_pos d n); [lia|]. match goal with |- context [all_sets (mkDict ?a ?b ?c)] => change (all_sets (mkDict a b c)) with (all_sets d) end. lia.
  - destruct (pos_from _ _ _) as [pp|]; [|lia]. destruct (d_ids d names) as [ids|]; [|lia].
    assert (H : all_sets (d_note d w ids) ⊆ {[merge_sort N.le ids]} ∪ all_sets d).
    { intros s. rewrite elem_of_union, elem_of_singleton, !elem_of_all_sets. intros (w' & n & Hn & Hs). cbn [d_note d_notes] in Hn.
      destruct (decide (w = w')) as [<-|Hne].
      - rewrite lookup_insert in Hn. injection Hn as <-. destruct (d_notes d !! w) as [n|] eqn:E; cbn in Hs; [|set_solver].
        apply elem_of_union in Hs as [Hs|Hs]; [left; set_solver|right; by exists w, n].
      - rewrite lookup_insert_ne in Hn by done. right. by exists w', n. }
    apply subseteq_size in H. rewrite size_union_alt, size_singleton in H.
    assert (size (all_sets d ∖ {[merge_sort N.le ids]}) <= size (all_sets d))%nat by (apply subseteq_size; set_solver). lia.
Qed.
Lemma seen_step h o : (size (seen (h ++ [o])) <= size (seen h) + match o with OTag _ _ => 1 | _ => 0 end)%nat.
Proof.
  assert (Hsame : d_notes (d_run (h ++ [o])) = d_notes (d_run h) -> (size (seen (h ++ [o])) <= size (seen h))%nat).
  { intros E. apply subseteq_size. intros n. rewrite seen_snoc. intros [H|[w H]]; [done|]. rewrite E in H. by eapply seen_last. }
  pose proof (d_run_snoc h o) as Ed.
  destruct o as [w|w|n p|w names| |]; cbn [d_step] in Ed; try (etrans; [apply Hsame; by rewrite Ed|lia]).
  - etrans; [apply Hsame|lia]. rewrite Ed. unfold d_register. by destruct (d_tag_pos _ _).
  - destruct (pos_from _ _ _) as [pp|]; [|etrans; [apply Hsame; by rewrite Ed|lia]].
    destruct (d_ids _ names) as [ids|]; [|etrans; [apply Hsame; by rewrite Ed|lia]].
    set (note := {[ merge_sort N.le ids ]} ∪ default ∅ (d_notes (d_run h) !! w)).
    assert (H : seen (h ++ [OTag w names]) ⊆ {[note]} ∪ seen h).
    { intros n. rewrite seen_snoc, elem_of_union, elem_of_singleton. intros [H|[w' H]]; [by right|]. rewrite Ed in H. cbn [d_notes d_note] in H.
      destruct (decide (w = w')) as [<-|Hne].
      - rewrite lookup_insert in H. injection H as <-. by left.
      - rewrite lookup_insert_ne in H by done. right. by eapply seen_last. }
    apply subseteq_size in H. rewrite size_union_alt, size_singleton in H.
    assert (size (seen h ∖ {[note]}) <= size (seen h))%nat by (apply subseteq_size; set_solver). lia.
Qed.
Lemma tag_calls_snoc h o : length (tag_calls (h ++ [o])) = (length (tag_calls h) + match o with OTag _ _ => 1 | _ => 0 end)%nat.
Proof. unfold tag_calls. rewrite omap_app, app_length. f_equal. by destruct o. Qed.
Lemma all_sets_calls h : (size (all_sets (d_run h)) <= length (tag_calls h))%nat.
Proof.
  induction h as [|o h IH] using rev_ind; [vm_compute; lia|]. rewrite d_run_snoc, tag_calls_snoc.
  pose proof (step_all_sets (d_run h) o). lia.
Qed.
Lemma seen_calls h : (size (seen h) <= length (tag_calls h))%nat.
Proof.
  induction h as [|o h IH] using rev_ind; [vm_compute; lia|]. rewrite tag_calls_snoc. pose proof (seen_step h o). lia.
Qed.
Definition modestb (b : bool) (h : list op) : bool :=
  (letters h <=? 4294967280)
  && (N.of_nat (size (list_to_set (registered h) : gset (list N))) <=? if b then 255 else 256)
  && (lenN (tag_calls h) <=? if b then 255 else 65535)
  && forallb (fun c => negb (bool_decide (c.2 = [])) && (lenN c.2 <=? if b then 255 else 65536)) (tag_calls h)
  && forallb (fun o => match op_word o with Some w => forallb int32b w && headb b w | None => true end) h
  && forallb (fun o => match o with
       | OTagID n p => bytesb n && bytesb p && (negb b || (negb (bool_decide (n = [])) &&
           negb (bool_decide (n = bytes_of "    ")) && negb (bool_decide (p = bytes_of "    "))))
       | _ => true end) h.
Lemma modestb_modest b h : modestb b h = true -> modest b h.
Proof.
  unfold modestb. rewrite !andb_true_iff, !N.leb_le. intros [[[[[H1 H2] H3] H4] H5] H6].
  rewrite forallb_forall in H4, H5, H6. setoid_rewrite <- elem_of_list_In in H4.
  setoid_rewrite <- elem_of_list_In in H5. setoid_rewrite <- elem_of_list_In in H6.
  split; try done.
  - intros k. pose proof (all_sets_calls h). pose proof (filter_all_size (fun s => length s = k) (all_sets (d_run h))).
    unfold lenN in H3. destruct b; lia.
  - intros k. pose proof (seen_calls h). pose proof (filter_all_size (fun s => size s = k) (seen h)).
    unfold lenN in H3. destruct b; lia.
  - intros w names H. specialize (H4 _ H). cbn in H4. rewrite andb_true_iff, N.leb_le, negb_true_iff, bool_decide_eq_false in H4. done.
  - intros w n Hn. assert (Hs : n ⊆ all_sets (d_run h)) by (intros s Hs; apply elem_of_all_sets; by exists w, n).
    apply subseteq_size in Hs. pose proof (all_sets_calls h). unfold lenN in H3. lia.
  - intros o w Ho Hw. specialize (H5 o Ho). rewrite Hw, andb_true_iff in H5. destruct H5 as [Ha Hh]. split.
    + apply Forall_forall. intros r Hr. rewrite forallb_forall in Ha. specialize (Ha r). rewrite <- elem_of_list_In in Ha.
      specialize (Ha Hr). unfold int32b, int32 in *. lia.
    + intros ->. unfold headb in Hh. cbn in Hh. by rewrite negb_true_iff, bool_decide_eq_false in Hh.
  - intros n p Ho. specialize (H6 _ Ho). cbn in H6. rewrite !andb_true_iff in H6. destruct H6 as [[Ha Hc] _].
    unfold bytesb in *. rewrite forallb_forall in Ha, Hc. split; apply Forall_forall; intros c Hi; apply elem_of_list_In in Hi;
      [specialize (Ha c Hi)|specialize (Hc c Hi)]; lia.
  - intros n p -> Ho. specialize (H6 _ Ho). cbn in H6. rewrite !andb_true_iff, !negb_true_iff, !bool_decide_eq_false in H6.
    by destruct H6 as [_ [[? ?] ?]].
Qed.

(** Calling AddTagSet again costs nothing. *)
Lemma d_tag_twice d w names : d_step (d_step d (OTag w names)) (OTag w names) = d_step d (OTag w names).
Proof.
  cbn [d_step]. destruct (pos_from 1 (d_words d) w) as [i|] eqn:Ep; [|by rewrite Ep].
  destruct (d_ids d names) as [ids|] eqn:Ei; [|by rewrite Ep, Ei].
  cbn [d_words d_note]. rewrite Ep. change (d_ids (d_note d w ids) names) with (d_ids d names). rewrite Ei.
  unfold d_note. cbn [d_words d_tags d_notes]. f_equal. rewrite lookup_insert, insert_insert. cbn. f_equal. set_solver.
Qed.
Lemma modest_twice b h w names : modest b (h ++ [OTag w names]) -> modest b ((h ++ [OTag w names]) ++ [OTag w names]).
Proof.
  intros M. set (o := OTag w names) in *.
  assert (Ed : d_run ((h ++ [o]) ++ [o]) = d_run (h ++ [o])) by (rewrite !(d_run_snoc _ o); apply d_tag_twice).
  assert (Ho : forall o', o' ∈ (h ++ [o]) ++ [o] -> o' ∈ h ++ [o]).
  { intros o' [H|H]%elem_of_app; [done|]. apply elem_of_app. by right. }
  assert (Es : seen ((h ++ [o]) ++ [o]) = seen (h ++ [o])).
  { apply set_eq. intros n. rewrite (seen_snoc (h ++ [o])), Ed. split; [|by left]. intros [H|[w' H]]; [done|by eapply seen_last]. }
  split.
  - pose proof (m_letters _ _ M) as H. unfold letters, added in *. rewrite omap_app, map_app, sum_list_with_app. cbn. cbn in H. lia.
  - pose proof (m_names _ _ M) as H. unfold registered in *. rewrite omap_app. cbn [omap list_omap o]. by rewrite app_nil_r.
  - rewrite Ed. apply M.
  - rewrite Es. apply M.
  - intros w' names' H. apply (m_lists _ _ M w'). revert H. unfold tag_calls. rewrite !elem_of_list_omap. intros (o' & H1 & H2).
    exists o'. split; [by apply Ho|done].
  - rewrite Ed. apply M.
  - intros o' w' H. by apply (m_words _ _ M), Ho.
  - intros n p H. by apply (m_tags _ _ M), Ho.
  - intros n p Hb H. by apply (m_plain _ _ M n p Hb), Ho.
Qed.
Lemma l_C59_no_limit_on_calls : forall b h w names n, modest b (h ++ [OTag w names]) ->
  modest b (h ++ replicate n (OTag w names)).
Proof.
  intros b h w names n M. induction n as [|[|n] IH].
  - rewrite app_nil_r. by eapply modest_prefix.
  - done.
  - replace (replicate (S (S n)) (OTag w names)) with ((replicate n (OTag w names) ++ [OTag w names]) ++ [OTag w names]).
    + rewrite app_assoc. rewrite app_assoc. apply modest_twice. rewrite <- app_assoc.
      replace (replicate n (OTag w names) ++ [OTag w names]) with (replicate (S n) (OTag w names)); [done|]. by rewrite replicate_S_end.
    + rewrite <- !replicate_S_end. done.
Qed.
