(** Proofs of the properties of the index browser (C54). *)
From Coq Require Import ZifyBool ZifyNat ZifyN.
From Verif Require Import Base Storage Bin Utf8 Tags TagSets Variants Items Index Spec Hist
  BaseFacts Intern SpecFacts TrieFacts NoteFacts OptFacts HistFacts DictFacts QueryFacts Utf8Facts ThmTrie ThmTags Cli.
From stdpp Require Import list gmap.
Open Scope N_scope.

Lemma to_u32_id n : (0 <= n < 4294967296)%Z -> to_u32 n = Z.to_N n.
Proof. intros H. unfold to_u32. by rewrite Z.mod_small. Qed.

Lemma children_ensure ix id : get_children_map (ensure_children ix id) id = get_children_map ix id.
Proof.
  unfold get_children_map, ensure_children. cbn. unfold ensure_map.
  destruct (ix_children ix !! id) eqn:E; [by rewrite E|]. by rewrite lookup_insert.
Qed.
Section node.
  Context (h : list op) (ix : Index.index) (H : runs h ix).
  Lemma show_node_ok i w : d_words (d_run h) !! i = Some w ->
    exists it ts, items_get (ix_items ix) (N.of_nat (S i)) = Ok (Some it) /\
      node_tag_sets ix (N.of_nat (S i)) = Ok ts /\
      (show_node ix (N.of_nat (S i))).2 = Ok (mkInfo (N.of_nat (S i)) (string_of_runes w) (it_parent it)
         (it_variants it) (map (map tag_name) ts) (get_children_map ix (N.of_nat (S i)))) /\
      (exists q, ([] :: d_words (d_run h)) !! N.to_nat (it_parent it) = Some q /\ w = q ++ [it_letter it]).
  Proof using H.
    intros Hw. destruct (runs_R h ix H) as (ld & Hld & T & A).
    destruct (t_items _ _ _ _ T i w Hw) as (it & q & Hit & Hid & _ & Hq & Eq & _).
    destruct (node_tag_sets_spec T A _ _ Hw) as (col & Hts & _).
    exists it, (map (set_tags_of ix) col).
    destruct (node_variants T A i w Hw) as (it' & Hg & Hl & _). rewrite Hit in Hl. injection Hl as <-.
    split; [done|]. split; [done|]. split; [|exists q; split; [done|done]].
    unfold show_node. cbn [snd]. rewrite (node_word_spec T _ _ Hw), Hts. unfold slice_get. rewrite Nat2N.id, Hit, children_ensure. done.
  Qed.
  Lemma id_word id : id <> 0 -> id <= nodes_count ix -> exists i w, id = N.of_nat (S i) /\ d_words (d_run h) !! i = Some w.
  Proof using H.
    intros Hz Hle. destruct (runs_R h ix H) as (ld & Hld & T & A). rewrite (nodes_count_spec T) in Hle. unfold lenN in Hle.
    destruct (lookup_lt_is_Some_2 (d_words (d_run h)) (N.to_nat id - 1)) as [w Hw]; [lia|].
    exists (N.to_nat id - 1)%nat, w. split; [lia|done].
  Qed.
  Lemma show_root : (show_node ix 0).2 = Panic.
  Proof. reflexivity. Qed.
  Lemma count_lt : nodes_count ix < 4294967295.
  Proof using H.
    destruct (runs_R h ix H) as (ld & Hld & T & A). rewrite (nodes_count_spec T).
    pose proof (t_len _ _ _ _ T). pose proof (t_room _ _ _ _ T). pose proof (t_cap _ _ _ _ T). lia.
  Qed.
End node.

Lemma sets_shown h ix col : annot ix (d_run h) -> Forall (fun k => exists s, good_set (ix_sets ix) k s) col ->
  map (fun k => option_map (map (fun t => option_map tag_name (tags_get (ix_tags ix) t))) (tagset_get (ix_sets ix) k)) col =
  map (fun s => Some (map Some s)) (map (map tag_name) (map (set_tags_of ix) col)).
Proof.
  intros A. induction 1 as [|k col [s [Hk Hg]] Hfa IH]; [done|]. cbn [map]. rewrite IH. f_equal. clear IH.
  unfold set_tags_of. rewrite Hg. cbn. f_equal.
  assert (Hss : Forall (fun t => t < lenN (d_tags (d_run h))) s).
  { rewrite tagset_get_at2 in Hg. by eapply (a_set_ids _ _ A). }
  clear Hg. induction Hss as [|t s0 Ht Hss IHs]; [done|]. cbn [map]. rewrite IHs. f_equal. unfold tagn.
  assert (exists x, tags_get (ix_tags ix) t = Some x) as [x ->]; [|done].
  unfold tags_get. rewrite (a_tags _ _ A). unfold lenN in *. rewrite map_length.
  destruct (N.leb_spec (N.of_nat (length (d_tags (d_run h)))) t); [lia|].
  apply lookup_lt_is_Some_2. rewrite map_length. lia.
Qed.
Lemma l_C54_node : forall h ix n, runs h ix ->
  match (cmd_node ix n).2 with
  | Ok i => (n < Z.of_N (nodes_count ix))%Z /\ 1 <= to_u32 n <= nodes_count ix /\ ni_id i = to_u32 n
  | Err _ => (Z.of_N (nodes_count ix) <= n)%Z \/ nodes_count ix < to_u32 n
  | Panic => (n < Z.of_N (nodes_count ix))%Z /\ to_u32 n = 0
  end.
Proof.
  intros h ix n H. unfold cmd_node. destruct (Z.leb_spec (Z.of_N (nodes_count ix)) n) as [Hn|Hn]; [by left|].
  destruct (l_C36_get_iff h ix (to_u32 n) H) as [Hi He].
  destruct (decide (to_u32 n <= nodes_count ix)) as [Hle|Hgt].
  - rewrite (proj2 Hi Hle). destruct (decide (to_u32 n = 0)) as [Hz|Hz].
    + rewrite Hz. cbn [snd]. by rewrite show_root.
    + destruct (id_word h ix H _ Hz Hle) as (i & w & E & Hw). rewrite E.
      destruct (show_node_ok h ix H i w Hw) as (it & ts & _ & _ & -> & _). split; [done|]. cbn [ni_id]. split; [lia|done].
  - rewrite He by lia. right. lia.
Qed.
Lemma l_C54_node_numbers : forall h ix n, runs h ix -> (0 <= n < 4294967296)%Z ->
  (exists i, (cmd_node ix n).2 = Ok i) <-> (1 <= n < Z.of_N (nodes_count ix))%Z.
Proof.
  intros h ix n H Hn. pose proof (l_C54_node h ix n H) as Hc. rewrite (to_u32_id n Hn) in Hc. split.
  - intros [i E]. rewrite E in Hc. lia.
  - intros Hb. destruct (cmd_node ix n).2 as [i|e|]; [by exists i|lia|lia].
Qed.
Lemma l_C54_node_content : forall h ix w id, runs h ix -> hd_ok h w -> (fetch_runes ix w).2 = Ok id ->
  id < nodes_count ix ->
  exists i ts, (cmd_node ix (Z.of_N id)).2 = Ok i /\ ni_id i = id /\ ni_word i = string_of_runes w /\
    node_tag_sets ix id = Ok ts /\ ni_sets i = map (map tag_name) ts /\
    (match removelast w with [] => ni_parent i = 0 | q => (fetch_runes ix q).2 = Ok (ni_parent i) end) /\
    (forall r c, ni_children i !! r = Some c <-> (fetch_runes ix (w ++ [r])).2 = Ok c) /\
    cmd_var ix (ni_variants i) = Ok (map (fun s => Some (map Some s)) (ni_sets i)).
Proof.
  intros h ix w id H Hh Hf Hlt. destruct (runs_fetch_pos h ix w id H Hh Hf) as (i & -> & Hw).
  pose proof (count_lt h ix H) as Hcl.
  destruct (show_node_ok h ix H i w Hw) as (it & ts & Hit & Hts & Hs & q & Hq & Eq).
  eexists _, ts. split.
  { unfold cmd_node. destruct (Z.leb_spec (Z.of_N (nodes_count ix)) (Z.of_N (N.of_nat (S i)))); [lia|].
    rewrite to_u32_id, N2Z.id by lia. rewrite (proj2 (proj1 (l_C36_get_iff h ix (N.of_nat (S i)) H))) by lia. exact Hs. }
  cbn [ni_id ni_word ni_sets ni_parent ni_children ni_variants].
  destruct (runs_R h ix H) as (ld & Hld & T & A).
  assert (Hne : w <> []) by (intros ->; by destruct q).
  split; [done|]. split; [done|]. split; [done|]. split; [done|]. split; [|split].
  - rewrite Eq, removelast_last. destruct (N.to_nat (it_parent it)) as [|j] eqn:Ep.
    + cbn in Hq. injection Hq as <-. lia.
    + cbn in Hq. assert (q <> []) by (intros ->; apply (d_run_nil_not h); by eapply elem_of_list_lookup_2).
      destruct q as [|r q]; [done|]. replace (it_parent it) with (N.of_nat (S j)) by lia.
      apply (runs_fetch_at h ix _ j H); [|done]. intros Hr. specialize (Hh Hr). by rewrite Eq in Hh.
  - intros r c. assert (Hh' : hd_ok h (w ++ [r])) by (intros Hr; specialize (Hh Hr); by destruct w).
    transitivity (child (ix_children ix) (N.of_nat (S i)) r = Some c).
    { unfold get_children_map, child. by destruct (ix_children ix !! N.of_nat (S i)). }
    rewrite (t_child _ _ _ _ T). split.
    + intros [(Hc & q' & Hq' & Hc')|(_ & ? & _)]; [|lia]. rewrite Nat2N.id in Hq'. change (d_words (d_run h) !! i = Some q') in Hq'.
      rewrite Hw in Hq'. injection Hq' as <-. rewrite P_pos in Hc' by done.
      rewrite (runs_fetch_at h ix _ _ H Hh' Hc'). f_equal. lia.
    + intros Hf'. left. destruct (runs_fetch_pos h ix _ _ H Hh' Hf') as (j & -> & Hj). split; [lia|].
      exists w. rewrite !Nat2N.id. done.
  - pose proof (node_variants T A i w Hw) as (it' & Hget & _ & Hv). rewrite Hget in Hit. injection Hit as <-.
    unfold node_tag_sets, get_item in Hts. rewrite Hget in Hts. cbn in Hts. unfold cmd_var.
    destruct Hv as [[Hv _]|(col & Hg & _)].
    + rewrite Hv in *. cbn in *. by injection Hts as <-.
    + rewrite (good_col_get _ _ _ Hg) in *. cbn in *. injection Hts as <-. f_equal.
      destruct (a_col_ids _ _ A _ _ _ (proj2 (proj2 Hg))) as [_ Hfa].
      rewrite resolve_sets_good by done. by apply (sets_shown h).
Qed.

Lemma l_C54_last_node_refuted : forall h ix, runs h ix -> nodes_count ix <> 0 ->
  (cmd_node ix (Z.of_N (nodes_count ix))).2 = Err EOther /\ index_get ix (nodes_count ix) = Ok (nodes_count ix).
Proof.
  intros h ix H _. split.
  - unfold cmd_node. by destruct (Z.leb_spec (Z.of_N (nodes_count ix)) (Z.of_N (nodes_count ix))); [|lia].
  - by apply (l_C36_get_iff h ix _ H).
Qed.
Lemma l_C54_node_zero_refuted : forall h ix, runs h ix -> nodes_count ix <> 0 -> (cmd_node ix 0).2 = Panic.
Proof.
  intros h ix H Hn. pose proof (l_C54_node h ix 0 H) as Hc. rewrite to_u32_id in Hc by lia.
  destruct (cmd_node ix 0).2 as [i|e|]; [lia|lia|done].
Qed.
Lemma l_C54_negative_node_refuted : forall h ix id, runs h ix -> 1 <= id <= nodes_count ix ->
  exists i, (cmd_node ix (Z.of_N id - 4294967296)).2 = Ok i /\ ni_id i = id.
Proof.
  intros h ix id H Hid. pose proof (count_lt h ix H) as Hc. pose proof (l_C54_node h ix (Z.of_N id - 4294967296) H) as Hn.
  assert (E : to_u32 (Z.of_N id - 4294967296) = id).
  { unfold to_u32. replace (Z.of_N id - 4294967296)%Z with (Z.of_N id + (-1) * 4294967296)%Z by lia.
    rewrite Z.mod_add, Z.mod_small by lia. lia. }
  rewrite E in Hn. destruct (cmd_node ix (Z.of_N id - 4294967296)).2 as [i|e|]; [|lia..]. exists i. split; [done|]. apply Hn.
Qed.
Lemma l_C54_word : forall h ix w, runs h ix -> hd_ok h w ->
  match (fetch_runes ix w).2 with
  | Ok id => exists i, (cmd_node_word ix w).2 = Ok i /\ ni_id i = id /\ ni_word i = string_of_runes w
  | _ => (cmd_node_word ix w).2 = Err EOther
  end.
Proof.
  intros h ix w H Hh. destruct (runs_R h ix H) as (ld & Hld & T & A).
  assert (E : fetch_item_from_parent ix 0 w = fetch_runes ix w).
  { unfold fetch_item_from_parent, fetch_runes, fetch_from_item. destruct w as [|r w]; [done|].
    apply (fetch_item_loop_eq (r :: w) ld _ ix 0 [] T (P_0 _)). intros El. by apply Hh, Hld. }
  unfold cmd_node_word. rewrite E. pose proof (fetch_same ix w) as Sc.
  destruct ((fetch_runes ix w).2) as [id|e|] eqn:Ef.
  - destruct (runs_fetch_pos h ix w id H Hh Ef) as (i & -> & Hw).
    destruct (fetch_runes ix w) as [ix1 r]. cbn [fst snd] in *. subst r.
    destruct (show_node_ok h ix H i w Hw) as (it & ts & _ & Hts & Hs & _).
    assert (Hi : index_get ix1 (N.of_nat (S i)) = Ok (N.of_nat (S i))).
    { rewrite (q_get _ _ (same_core_queries _ _ Sc)). apply (l_C36_get_iff h ix _ H). rewrite (nodes_count_spec T).
      pose proof (lookup_lt_Some _ _ _ Hw). unfold lenN. lia. }
    rewrite Hi. cbn [snd].
    assert (Hs' : exists x y z, (show_node ix1 (N.of_nat (S i))).2 = Ok (mkInfo (N.of_nat (S i)) (string_of_runes w) x y (map (map tag_name) ts) z)).
    { unfold show_node in *. cbn [snd] in *. rewrite (q_word _ _ (same_core_queries _ _ Sc)), (q_tags _ _ (same_core_queries _ _ Sc)), (sc_items _ _ Sc).
      destruct (node_word ix (N.of_nat (S i))) as [wd|?|]; [|done..]. cbn in *. rewrite Hts in *. cbn in *.
      destruct (slice_get _ _) as [it'|?|]; [|done..]. cbn in *. injection Hs as -> -> ->. by eexists _, _, _. }
    destruct Hs' as (x & y & z & E2). eexists. split; [exact E2|]. done.
  - by destruct (fetch_runes ix w) as [ix1 r]; cbn [fst snd] in *; subst r.
  - exfalso. rewrite (runs_fetch h ix w H Hh) in Ef. destruct w as [|r w]; [done|]. unfold d_find in Ef. by destruct (pos_from _ _ _).
Qed.
Lemma l_C54_search : forall h ix s, runs h ix -> hd_ok h (runes_of_string s) ->
  (cmd_search ix s).2 = (id ← (fetch_string ix s).2; node_tag_sets ix id) /\
  (cmd_search ix s).2 <> Panic.
Proof.
  intros h ix s H Hh. unfold cmd_search, fetch_string. pose proof (fetch_same ix (runes_of_string s)) as Sc.
  destruct (fetch_runes ix (runes_of_string s)) as [ix1 r] eqn:E. cbn [fst snd] in *.
  assert (E1 : (id ← r; node_tag_sets ix1 id) = (id ← r; node_tag_sets ix id)).
  { destruct r as [id|?|]; [|done..]. apply (q_tags _ _ (same_core_queries _ _ Sc)). }
  split; [done|]. rewrite E1. destruct r as [id|e|]; [|done|].
  - cbn. destruct (runs_fetch_pos h ix (runes_of_string s) id H Hh) as (i & -> & Hw); [by rewrite E|].
    destruct (runs_R h ix H) as (ld & Hld & T & A). by destruct (node_tag_sets_spec T A _ _ Hw) as (col & -> & _).
  - exfalso. pose proof (runs_fetch h ix _ H Hh) as Ef. rewrite E in Ef. cbn in Ef. destruct (runes_of_string s) as [|r w]; [done|].
    unfold d_find in Ef. by destruct (pos_from _ _ _).
Qed.
Lemma l_C54_tag_numbers : forall ix n,
  match cmd_tag ix n with
  | Ok t => (0 <= n)%Z /\ ix_tags ix !! Z.to_nat n = Some t
  | Err _ => (Z.of_N (lenN (ix_tags ix)) <= n)%Z
  | Panic => (n < 0)%Z
  end.
Proof.
  intros ix n. unfold cmd_tag, slice_at, slice_get. destruct (Z.leb_spec (Z.of_N (lenN (ix_tags ix))) n); [done|].
  destruct (Z.ltb_spec n 0); [done|]. rewrite Z_N_nat. destruct (ix_tags ix !! Z.to_nat n) as [t|] eqn:E; [done|].
  apply lookup_ge_None in E. unfold lenN in *. lia.
Qed.
Lemma l_C54_table_numbers : forall ix n,
  match cmd_table ix n with
  | Ok t => (0 <= n)%Z /\ ix_sets ix !! Z.to_nat n = Some t
  | Err _ => (Z.of_N (lenN (ix_sets ix)) <= n)%Z
  | Panic => (n < 0)%Z
  end.
Proof.
  intros ix n. unfold cmd_table, slice_at, slice_get. destruct (Z.leb_spec (Z.of_N (lenN (ix_sets ix))) n); [done|].
  destruct (Z.ltb_spec n 0); [done|]. rewrite Z_N_nat. destruct (ix_sets ix !! Z.to_nat n) as [t|] eqn:E; [done|].
  apply lookup_ge_None in E. unfold lenN in *. lia.
Qed.
Lemma l_C54_set_numbers : forall h ix n, runs h ix ->
  match cmd_set ix n with
  | Ok names => exists ids ts, tagset_get (ix_sets ix) (to_u32 n) = Some ids /\
      Forall2 (fun k t => ix_tags ix !! N.to_nat k = Some t) ids ts /\ names = map (fun t => Some (tag_name t)) ts
  | Err _ => tagset_get (ix_sets ix) (to_u32 n) = None
  | Panic => False
  end.
Proof.
  intros h ix n H. destruct (runs_R h ix H) as (ld & Hld & T & A). unfold cmd_set.
  destruct (tagset_get (ix_sets ix) (to_u32 n)) as [ids|] eqn:E; [|done].
  assert (Hss : Forall (fun t => t < lenN (d_tags (d_run h))) ids).
  { rewrite tagset_get_at2 in E. by eapply (a_set_ids _ _ A). }
  exists ids. clear E. induction Hss as [|k ids Hk Hss (ts & _ & Hf & E)].
  { exists []. split; [done|]. split; [constructor|done]. }
  assert (exists x, tags_get (ix_tags ix) k = Some x) as [x Hx].
  { unfold tags_get. rewrite (a_tags _ _ A). unfold lenN in *. rewrite map_length.
    destruct (N.leb_spec (N.of_nat (length (d_tags (d_run h)))) k); [lia|].
    apply lookup_lt_is_Some_2. rewrite map_length. lia. }
  exists (x :: ts). split; [done|]. split.
  - constructor; [|done]. unfold tags_get in Hx. by destruct (_ <=? _).
  - cbn [map]. rewrite E, Hx. done.
Qed.
Lemma l_C54_var_numbers : forall ix id,
  match cmd_var ix id with
  | Ok l => id32_upper id = 0 /\ l = [] \/
      exists col, at2 (ix_cols ix) (N.to_nat (id32_upper id) - 1) (N.to_nat (id32_lower id)) = Some col /\ length l = length col
  | Err _ => False
  | Panic => id32_upper id <> 0 /\ at2 (ix_cols ix) (N.to_nat (id32_upper id) - 1) (N.to_nat (id32_lower id)) = None
  end.
Proof.
  intros ix id. unfold cmd_var. rewrite variants_get_at2. destruct (N.eqb_spec (id32_upper id) 0) as [Hz|Hz]; [by left|].
  destruct (at2 _ _ _) as [col|] eqn:E; [|done]. cbn. right. exists col. split; [done|]. by rewrite map_length.
Qed.
Lemma l_C54_unknown_variant_refuted : forall ix, lenN (ix_cols ix) < 65535 ->
  cmd_var ix (combine16 (lenN (ix_cols ix) + 1) 0) = Panic.
Proof.
  intros ix Hl. pose proof (l_C54_var_numbers ix (combine16 (lenN (ix_cols ix) + 1) 0)) as Hv.
  rewrite upper_combine16, lower_combine16 in Hv by lia.
  assert (E : at2 (ix_cols ix) (N.to_nat (lenN (ix_cols ix) + 1) - 1) (N.to_nat 0) = None).
  { unfold at2. rewrite lookup_ge_None_2; [done|]. unfold lenN. lia. }
  rewrite E in Hv. destruct (cmd_var _ _) as [l|e|]; [|done|done]. exfalso.
  destruct Hv as [[? _]|(col & ? & _)]; [lia|done].
Qed.
