(** What the query functions return on an index that represents a dictionary. *)
From Coq Require Import ZifyBool ZifyNat ZifyN.
From Verif Require Import Base Storage Bin Utf8 Tags TagSets Variants Items Index Spec Hist
  BaseFacts Intern SpecFacts DictFacts TrieFacts NoteFacts OptFacts BinFacts CodecFacts
  ReloadFacts HistFacts.
From stdpp Require Import list.
Open Scope N_scope.

(** ** Indexes that differ only in empty inner maps behave the same *)


Lemma node_word_cong a b id : same_core a b -> node_word a id = node_word b id.
Proof.
  intros S. unfold node_word. rewrite (sc_items _ _ S).
  generalize (Datatypes.S (length (its_list (ix_items b)))) as fuel. intros fuel. revert id.
  induction fuel as [|fuel IH]; intros id; [done|]. cbn [word_fuel]. unfold get_item.
  rewrite (sc_items _ _ S). destruct (id =? 0); [done|].
  destruct (items_get (ix_items b) id) as [[it|]|e|]; try done. cbn.
  destruct (it_parent it =? 0); [done|]. by rewrite IH.
Qed.
Lemma ensure_cong a b id : same_core a b -> same_core (ensure_children a id) (ensure_children b id).
Proof.
  intros S. etrans; [apply same_core_ensure|]. etrans; [exact S|]. symmetry. apply same_core_ensure.
Qed.
Lemma child_cong a b p r : same_core a b -> child (ix_children a) p r = child (ix_children b) p r.
Proof. intros S. apply S. Qed.

Lemma fetch_loop_cong rest : forall a b p, same_core a b ->
  same_core (fetch_loop a p rest).1 (fetch_loop b p rest).1 /\
  (fetch_loop a p rest).2 = (fetch_loop b p rest).2.
Proof.
  induction rest as [|r rest IH]; intros a b p S; [done|]. cbn [fetch_loop].
  pose proof (ensure_cong a b p S) as S1.
  rewrite (child_cong _ _ p r S1). destruct (child (ix_children (ensure_children b p)) p r) as [n|].
  - destruct rest; [|by apply IH]. split; [done|]. cbn [snd]. unfold index_get. by rewrite (sc_items _ _ S1).
  - split; [done|]. cbn [snd]. by rewrite (node_word_cong _ _ p S1).
Qed.
Lemma fetch_cong a b w : same_core a b ->
  same_core (fetch_runes a w).1 (fetch_runes b w).1 /\ (fetch_runes a w).2 = (fetch_runes b w).2.
Proof.
  intros S. unfold fetch_runes, fetch_from_item. destruct w; [done|]. by apply fetch_loop_cong.
Qed.
(** a lookup leaves everything but empty inner maps unchanged, in any state *)
Lemma fetch_loop_same rest : forall a p, same_core (fetch_loop a p rest).1 a.
Proof.
  induction rest as [|r rest IH]; intros a p; [done|]. cbn [fetch_loop].
  destruct (child _ p r) as [n|]; [|apply same_core_ensure].
  destruct rest; [apply same_core_ensure|]. etrans; [apply IH|]. apply same_core_ensure.
Qed.
Lemma fetch_same a w : same_core (fetch_runes a w).1 a.
Proof. unfold fetch_runes, fetch_from_item. destruct w; [done|]. apply fetch_loop_same. Qed.

Lemma set_child_cong a b its p r c : same_core a b ->
  same_core (set_children (set_items a its) (set_child (ix_children a) p r c))
            (set_children (set_items b its) (set_child (ix_children b) p r c)).
Proof.
  intros S. destruct S. split; cbn; try done. intros p' r'. rewrite !child_set. by destruct (decide _).
Qed.
Lemma add_loop_cong rest : forall a b p, same_core a b ->
  same_core (add_loop a p rest).1 (add_loop b p rest).1 /\
  (add_loop a p rest).2 = (add_loop b p rest).2.
Proof.
  induction rest as [|r rest IH]; intros a b p S; [done|]. cbn [add_loop].
  pose proof (ensure_cong a b p S) as S1. rewrite (sc_items _ _ S).
  destruct (if p =? 0 then Ok true
     else oit ← items_get (ix_items b) p; Ok (match oit with Some _ => true | None => false end))
    as [[|]|e|]; try done.
  rewrite (child_cong _ _ p r S1). destruct (child (ix_children (ensure_children b p)) p r) as [n|].
  - destruct rest; [|by apply IH]. split; [done|]. cbn [snd]. unfold index_get. by rewrite (sc_items _ _ S1).
  - rewrite (sc_items _ _ S1).
    destruct (items_new_child (ix_items (ensure_children b p)) p r) as [[its it]|e|]; try done.
    pose proof (set_child_cong _ _ its p r (it_id it) S1) as S2.
    destruct rest; [|by apply IH]. split; [done|]. cbn. done.
Qed.
Lemma add_to_node_cong a b p w : same_core a b ->
  same_core (add_to_node a p w).1 (add_to_node b p w).1 /\
  (add_to_node a p w).2 = (add_to_node b p w).2.
Proof. intros S. unfold add_to_node. destruct w; [done|]. by apply add_loop_cong. Qed.

Lemma tag_set_cong a b id names : same_core a b ->
  same_core (node_add_tag_set a id names).1 (node_add_tag_set b id names).1 /\
  (node_add_tag_set a id names).2 = (node_add_tag_set b id names).2.
Proof.
  intros S. unfold node_add_tag_set, get_item. destruct S as [S1 S2 S3 S4 S5 S6].
  rewrite S1, S2, S3, S4, S5.
  destruct (names_to_ids (ix_tags b) names) as [ids|e|]; [|done..].
  destruct (items_get (ix_items b) id) as [[it|]|e|]; [|done..].
  destruct (variants_get (ix_cols b) (it_variants it)) as [col|e|]; [|done..]. cbn.
  destruct (tagset_index_index (ix_sets b) ids) as [[sets sid]|e|]; [|done..]. cbn.
  destruct (variants_index_index (ix_cols b) (collection_add col sid)) as [[cols vid]|e|]; [|done..].
  done.
Qed.
Lemma optimize_cong a b : same_core a b ->
  match optimize a, optimize b with
  | Ok a', Ok b' => same_core a' b'
  | Err e, Err e' => e = e'
  | Panic, Panic => True
  | _, _ => False
  end.
Proof.
  intros S. unfold optimize. destruct S as [S1 S2 S3 S4 S5 S6]. rewrite S3, S4.
  destruct (filter _ _); [done|].
  destruct (opt_build _ _ _ _ _) as [[new repl]|e|]; [|done..]. cbn.
  destruct (opt_replace _ _ _ _ _) as [l|e|]; done.
Qed.
Lemma index_write_cong a b : same_core a b -> index_write a = index_write b.
Proof. intros [S1 S2 S3 S4 S5 S6]. unfold index_write. by rewrite S1, S2, S3, S4. Qed.

Lemma step_cong a b o : same_core a b ->
  same_core (step a o).1 (step b o).1 /\ (step a o).2 = (step b o).2.
Proof.
  intros S. destruct o as [w|w|n p|w names| |]; cbn [step].
  - by apply add_to_node_cong.
  - by apply fetch_cong.
  - unfold index_tag_id. rewrite (sc_tags _ _ S). destruct (tags_index (ix_tags b) n p) as [ts id].
    split; [|done]. destruct S. by split.
  - destruct (fetch_cong a b w S) as [S1 E]. destruct (fetch_runes a w) as [a1 ra], (fetch_runes b w) as [b1 rb].
    cbn in S1, E. subst rb. destruct ra as [id|e|]; [|done..].
    destruct (tag_set_cong a1 b1 id names S1) as [S2 E2].
    destruct (node_add_tag_set a1 id names) as [a2 ra], (node_add_tag_set b1 id names) as [b2 rb].
    cbn in *. by subst rb.
  - pose proof (optimize_cong a b S) as O.
    destruct (optimize a) as [a'|e|], (optimize b) as [b'|e'|]; try done. by subst.
  - unfold reload. rewrite (index_write_cong a b S). destruct (index_write b) as [[bs [e|]]|e|]; try done.
    destruct (index_read index_new bs) as [[ix' rest]|e|]; done.
Qed.

Lemma outs_cong a b os : same_core a b ->
  same_core (outs a os).1 (outs b os).1 /\ (outs a os).2 = (outs b os).2.
Proof.
  intros S. unfold outs.
  enough (H : forall l, same_core (fold_left (fun s o => let '(ix', r) := step s.1 o in (ix', s.2 ++ [r])) os (a, l)).1
     (fold_left (fun s o => let '(ix', r) := step s.1 o in (ix', s.2 ++ [r])) os (b, l)).1 /\
     (fold_left (fun s o => let '(ix', r) := step s.1 o in (ix', s.2 ++ [r])) os (a, l)).2 =
     (fold_left (fun s o => let '(ix', r) := step s.1 o in (ix', s.2 ++ [r])) os (b, l)).2) by apply H.
  revert a b S. induction os as [|o os IH]; intros a b S l; [done|]. cbn [fold_left fst snd].
  destruct (step_cong a b o S) as [S1 E]. destruct (step a o) as [a1 ra], (step b o) as [b1 rb].
  cbn [fst snd] in *. subst rb. by apply IH.
Qed.

Lemma resolve_sets_cong a b col : ix_sets a = ix_sets b -> ix_tags a = ix_tags b ->
  resolve_sets a col = resolve_sets b col.
Proof.
  intros E1 E2. induction col as [|k col IH]; [done|]. cbn. rewrite E1, E2.
  destruct (tagset_get (ix_sets b) k); [|done]. by rewrite IH.
Qed.
Lemma same_core_queries a b : same_core a b -> same_queries a b.
Proof.
  intros S. split.
  - unfold nodes_count. by rewrite (sc_items _ _ S).
  - apply S.
  - intros w. by apply fetch_cong.
  - intros id. unfold index_get. by rewrite (sc_items _ _ S).
  - intros id. by apply node_word_cong.
  - intros id. unfold node_tag_sets, get_item. rewrite (sc_items _ _ S), (sc_cols _ _ S).
    destruct (items_get (ix_items b) id) as [[it|]|e|]; [|done..]. cbn.
    destruct (variants_get (ix_cols b) (it_variants it)) as [col|e|]; [|done..]. cbn.
    f_equal. apply resolve_sets_cong; apply S.
  - intros id. unfold get_children_map. apply map_eq. intros r.
    pose proof (sc_child _ _ S id r) as E. unfold child in E.
    destruct (ix_children a !! id), (ix_children b !! id); cbn; rewrite ?lookup_empty; congruence.
  - by apply index_write_cong.
Qed.
Lemma same_core_indist a b : same_core a b -> indist a b.
Proof.
  intros S os. destruct (outs_cong a b os S) as [S' E]. split; [done|]. by apply same_core_queries.
Qed.

(** ** Queries on a represented dictionary *)
Definition tagn (ix : index) (k : N) : tag := default zero_tag (tags_get (ix_tags ix) k).
Definition set_tags_of (ix : index) (k : N) : list tag :=
  map (tagn ix) (default [] (tagset_get (ix_sets ix) k)).

Lemma d_find_Some d w id : d_find d w = Ok id ->
  exists i, id = N.of_nat (S i) /\ d_words d !! i = Some w.
Proof.
  unfold d_find. destruct (pos_from 1 (d_words d) w) as [k|] eqn:E; [|done]. intros [= <-].
  apply pos_from_Some in E as (j & -> & Hj). exists j. split; [lia|done].
Qed.

Section queries.
  Context {ld : bool} {ix : index} {d : dict}.
  Context (T : trie_of ld ix (d_words d)) (A : annot ix d).

  Lemma nodes_count_spec : nodes_count ix = lenN (d_words d).
  Proof.
    unfold nodes_count. pose proof (t_len _ _ _ _ T) as Hl. pose proof (t_room _ _ _ _ T) as Hr.
    pose proof (t_cap _ _ _ _ T) as Hc. rewrite Hl.
    replace (lenN (d_words d) + 1 + 4294967295) with (lenN (d_words d) + 1 * 4294967296) by lia.
    unfold wrap32. rewrite N.mod_add by done. apply N.mod_small. lia.
  Qed.
  Lemma words_count_spec : words_count ix = N.of_nat (size (d_notes d)).
  Proof. apply A. Qed.
  Lemma node_word_spec i w : d_words d !! i = Some w ->
    node_word ix (N.of_nat (S i)) = Ok (string_of_runes w).
  Proof. intros H. eapply (trie_word T); [done|]. by rewrite Nat2N.id. Qed.

  Lemma resolve_sets_good col :
    Forall (fun k => exists s, good_set (ix_sets ix) k s) col ->
    resolve_sets ix col = map (set_tags_of ix) col.
  Proof.
    induction 1 as [|k col [s [Hk Hs]] _ IH]; [done|]. cbn. unfold set_tags_of at 1.
    rewrite Hs. cbn. by rewrite IH.
  Qed.
  (** the collection of a node *)
  Definition node_col (col : list N) (w : list Z) : Prop :=
    NoDup col /\ Forall (fun k => exists s, good_set (ix_sets ix) k s) col /\
    default ∅ (d_notes d !! w) = resolved (ix_sets ix) col.
  Lemma node_tag_sets_spec i w : d_words d !! i = Some w ->
    exists col, node_tag_sets ix (N.of_nat (S i)) = Ok (map (set_tags_of ix) col) /\ node_col col w.
  Proof.
    intros Hw. destruct (node_variants T A i w Hw) as (it & Hget & _ & Hv).
    unfold node_tag_sets, get_item. rewrite Hget. cbn.
    destruct Hv as [[-> Hn]|(col & Hg & Hn)].
    - exists []. split; [done|]. split; [constructor|]. split; [constructor|]. by rewrite Hn.
    - rewrite (good_col_get _ _ _ Hg). cbn. destruct (a_col_ids _ _ A _ _ _ (proj2 (proj2 Hg))) as [Hnd Hf].
      exists col. rewrite resolve_sets_good by done. split; [done|]. split; [done|]. split; [done|].
      by rewrite Hn.
  Qed.

  Lemma tagn_spec k : k < lenN (d_tags d) ->
    tags_get (ix_tags ix) k = Some (tagn ix k) /\ d_tag_pos d (tag_name (tagn ix k)) = Some k.
  Proof.
    intros Hk. unfold tagn. rewrite tags_get_lookup, (a_tags _ _ A).
    rewrite (list_lookup_fmap tag_of). assert (is_Some (d_tags d !! N.to_nat k)) as [np Hnp].
    { apply lookup_lt_is_Some. unfold lenN in Hk. lia. }
    rewrite Hnp. cbn. split; [done|]. unfold d_tag_pos.
    rewrite (pos_from_lookup 0 _ np.1 (N.to_nat k)); [f_equal; lia|apply A|].
    by rewrite list_lookup_fmap, Hnp.
  Qed.
  Lemma tag_pos_name n k : d_tag_pos d n = Some k -> k < lenN (d_tags d) /\ tag_name (tagn ix k) = n.
  Proof.
    intros H. pose proof H as H'. unfold d_tag_pos in H'. apply pos_from_Some in H' as (j & -> & Hj).
    rewrite list_lookup_fmap in Hj. destruct (d_tags d !! j) as [np|] eqn:E; [|done].
    injection Hj as <-. split; [apply lookup_lt_Some in E; unfold lenN; lia|].
    unfold tagn. rewrite tags_get_lookup, (a_tags _ _ A), (list_lookup_fmap tag_of).
    replace (N.to_nat (0 + N.of_nat j)) with j by lia. by rewrite E.
  Qed.
  Lemma ids_names names ids : d_ids d names = Some ids ->
    map (fun k => tag_name (tagn ix k)) ids = names.
  Proof.
    unfold d_ids. rewrite mapM_Some. induction 1 as [|n k names ids Hn _ IH]; [done|].
    cbn. rewrite IH. by rewrite (proj2 (tag_pos_name _ _ Hn)).
  Qed.
  Lemma names_ids ids : Forall (fun k => k < lenN (d_tags d)) ids ->
    d_ids d (map (fun k => tag_name (tagn ix k)) ids) = Some ids.
  Proof.
    intros H. unfold d_ids. apply mapM_Some. apply Forall2_fmap_l, Forall_Forall2_diag.
    eapply Forall_impl; [exact H|]. intros k Hk. by apply tagn_spec.
  Qed.
  Lemma good_set_ids k s : good_set (ix_sets ix) k s ->
    Forall (fun t => t < lenN (d_tags d)) s /\ sortedN s.
  Proof.
    intros [Hk Hs]. rewrite tagset_get_at2 in Hs. split; [by eapply (a_set_ids _ _ A)|].
    by apply (at2_ok _ _ _ _ (a_sets _ _ A)) in Hs as [? _].
  Qed.
  (** sets of tags with the same names have the same number *)
  Lemma names_perm s t :
    Forall (fun k => k < lenN (d_tags d)) s -> Forall (fun k => k < lenN (d_tags d)) t ->
    map tag_name (map (tagn ix) s) ≡ₚ map tag_name (map (tagn ix) t) -> s ≡ₚ t.
  Proof.
    intros Hs Ht Hp. pose (f n := default 0 (d_tag_pos d n)).
    assert (E : forall s, Forall (fun k => k < lenN (d_tags d)) s ->
                map f (map tag_name (map (tagn ix) s)) = s).
    { intros s0 H0. rewrite !map_map. induction H0 as [|k s0 Hk _ IH]; [done|]. cbn. rewrite IH.
      f_equal. unfold f. by rewrite (proj2 (tagn_spec k Hk)). }
    rewrite <- (E s Hs), <- (E t Ht). by apply Permutation_map.
  Qed.
End queries.

(** ** Attaching tags *)
Section attach.
  Context {ld : bool} {ix : index} {d : dict}.
  Context (T : trie_of ld ix (d_words d)) (A : annot ix d).

  (** the whole effect of a call *)
  Lemma attach_shape i w names :
    d_words d !! i = Some w -> names <> [] ->
    match d_ids d names with
    | None => node_add_tag_set ix (N.of_nat (S i)) names = (ix, Err EIndex)
    | Some ids =>
      exists it col sets' sid cols' vid,
        its_list (ix_items ix) !! S i = Some it /\
        variants_get (ix_cols ix) (it_variants it) = Ok col /\
        tagset_index_index (ix_sets ix) ids = Ok (sets', sid) /\
        lenN (collection_add col sid) <= 65536 /\
        variants_index_index (ix_cols ix) (collection_add col sid) = Ok (cols', vid) /\
        node_add_tag_set ix (N.of_nat (S i)) names =
          (mkIndex (ix_tags ix) sets' cols' (set_variants (ix_items ix) (N.of_nat (S i)) vid)
             (ix_children ix) (if it_variants it =? 0 then ix_words ix + 1 else ix_words ix), Ok tt)
    end.
  Proof.
    intros Hw Hne. unfold node_add_tag_set. rewrite (names_to_ids_spec ix d) by done.
    destruct (d_ids d names) as [ids|] eqn:Eids; [|done].
    assert (Hids : ids <> []).
    { apply d_ids_length in Eids. intros ->. by destruct names. }
    destruct (node_variants T A i w Hw) as (it & Hget & Hl & Hv).
    unfold get_item. rewrite Hget.
    assert (Hcol : exists col, variants_get (ix_cols ix) (it_variants it) = Ok col /\ lenN col <= 65535).
    { destruct Hv as [[-> Hn]|(col & Hg & Hn)]; [by exists []|].
      exists col. split; [by apply good_col_get|].
      rewrite (good_col_len _ _ _ (a_cols _ _ A) Hg). unfold id32_upper.
      pose proof (wrap16_lt (N.land (N.shiftr (it_variants it) 16) 65535)). lia. }
    destruct Hcol as (col & Hcg & Hcl). rewrite Hcg. unfold mbind, res_bind.
    pose proof (tagset_index_intern (ix_sets ix) ids Hids) as Es. rewrite Es.
    set (sid := combine16 _ _) in *. set (sets' := (intern2 (ix_sets ix) ids).1) in *.
    assert (Hadd : lenN (collection_add col sid) <= 65536).
    { pose proof (collection_add_len col sid). lia. }
    pose proof (variants_index_intern (ix_cols ix) (collection_add col sid) (collection_add_ne col sid) Hadd) as Ec.
    rewrite Ec. exists it, col, sets', sid. eexists _, _. split; [done|]. split; [done|]. split; [done|].
    split; [done|]. split; [done|]. done.
  Qed.

  Lemma attach_other i j w w' names ix' r :
    d_words d !! i = Some w -> d_words d !! j = Some w' -> i <> j -> names <> [] ->
    node_add_tag_set ix (N.of_nat (S i)) names = (ix', r) -> caps ix' = true ->
    node_tag_sets ix' (N.of_nat (S j)) = node_tag_sets ix (N.of_nat (S j)).
  Proof.
    intros Hw Hw' Hij Hne E Hcaps. pose proof (attach_shape i w names Hw Hne) as Hs.
    destruct (d_ids d names) as [ids|] eqn:Eids; [|rewrite Hs in E; by injection E as <- <-].
    destruct Hs as (it & col & sets' & sid & cols' & vid & Hit & Hcol & Es & Hlen & Ec & E').
    rewrite E' in E. apply (f_equal fst) in E. cbn [fst] in E. subst ix'.
    apply caps_spec in Hcaps as (_ & Hcs & Hcc & _). cbn in Hcs, Hcc.
    assert (Hids : ids <> []).
    { apply d_ids_length in Eids. intros ->. by destruct names. }
    pose proof (sets_interned _ _ _ _ (a_sets _ _ A) Hids Es Hcs) as IS.
    pose proof (cols_interned _ _ _ _ (a_cols _ _ A) (collection_add_ne col sid) Hlen Ec Hcc) as IC.
    destruct (node_variants T A j w' Hw') as (itj & Hget & Hlj & Hv).
    unfold node_tag_sets, get_item.
    assert (Hget' : items_get (set_variants (ix_items ix) (N.of_nat (S i)) vid) (N.of_nat (S j)) = Ok (Some itj)).
    { unfold items_get in *. cbn [its_next set_variants]. destruct (N.of_nat (S j) =? 0); [done|].
      destruct (its_next (ix_items ix) <=? N.of_nat (S j)); [done|]. unfold slice_get in *.
      cbn [its_list set_variants]. rewrite !Nat2N.id in *. rewrite list_lookup_alter_ne by lia.
      by rewrite Hlj. }
    cbn [ix_items]. rewrite Hget, Hget'. cbn.
    destruct Hv as [[-> _]|(colj & Hg & _)]; [done|].
    rewrite (good_col_get _ _ _ Hg), (good_col_get _ _ _ (in_mono _ _ _ _ _ IC _ _ Hg)). cbn.
    f_equal. destruct (a_col_ids _ _ A _ _ _ (proj2 (proj2 Hg))) as [_ Hf].
    clear Hg. induction Hf as [|k colj' [s Hs] _ IH]; [done|]. cbn.
    rewrite (proj2 Hs), (proj2 (in_mono _ _ _ _ _ IS _ _ Hs)). by rewrite IH.
  Qed.
End attach.
