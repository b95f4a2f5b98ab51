(** Proofs about the accessors no other property speaks of: C86. *)
From Coq Require Import ZifyBool ZifyNat ZifyN.
From Verif Require Import Base Storage Bin Tags TagSets Variants Items Index Spec Hist
  BaseFacts Intern SpecFacts TrieFacts NoteFacts HistFacts DictFacts QueryFacts ThmTrie ThmTags Cli ThmCli Browse AnswerSpec
  Numerals Streams ThmStreams Paths PathSpec ThmPaths Screen ScreenSpec ThmScreen.
From stdpp Require Import list gmap.
Open Scope N_scope.

(** ** Children *)
(** The root is node 0 with the empty word. *)
Definition node_at (d : dict) (id : N) (w : list Z) : Prop := id = 0 /\ w = [] \/ word_at d id w.

Lemma word_at_pos d id w : word_at d id w <-> ([] :: d_words d) !! N.to_nat id = Some w /\ id <> 0.
Proof.
  unfold word_at. split.
  - intros [H1 H2]. split; [|lia]. rewrite P_pos by lia. by replace (N.to_nat id - 1)%nat with (N.to_nat (id - 1)) by lia.
  - intros [H1 H2]. split; [lia|]. rewrite P_pos in H1 by lia. by replace (N.to_nat (id - 1)) with (N.to_nat id - 1)%nat by lia.
Qed.
Lemma node_at_pos d id w : node_at d id w -> ([] :: d_words d) !! N.to_nat id = Some w.
Proof. intros [[-> ->] | H]; [done|]. by apply word_at_pos in H as [H _]. Qed.
Lemma map_child ix id r : get_children_map ix id !! r = child (ix_children ix) id r.
Proof. unfold get_children_map, child. by destruct (ix_children ix !! id). Qed.
Lemma child_word h ix id w r c : runs h ix -> node_at (d_run h) id w -> id <> 0 \/ r <> 0%Z ->
  child (ix_children ix) id r = Some c <-> word_at (d_run h) c (w ++ [r]).
Proof.
  intros H Hn Hz. destruct (runs_R h ix H) as (ld & Hld & T & A). apply node_at_pos in Hn.
  rewrite (t_child _ _ _ _ T), word_at_pos. split.
  - intros [(Hc & q & Hq & Hc') | (_ & -> & -> & _)]; [|by destruct Hz]. split; [congruence|done].
  - intros [Hc H0]. left. split; [done|]. by exists w.
Qed.
Lemma l_C86_root : forall h ix r c, runs h ix -> r <> 0%Z ->
  (root_node ix r = Some c <-> word_at (d_run h) c [r]) /\
  (children_of_root ix !! r = Some c <-> word_at (d_run h) c [r]).
Proof.
  intros h ix r c H Hr. unfold root_node, children_of_root. rewrite map_child.
  rewrite (child_word h ix 0 [] r c H); [done|by left|by right].
Qed.
Lemma in_word_at d w : w ∈ d_words d <-> exists c, word_at d c w.
Proof.
  rewrite elem_of_list_lookup. unfold word_at. split.
  - intros [i Hi]. exists (N.of_nat (S i)). split; [lia|]. by replace (N.to_nat (N.of_nat (S i) - 1)) with i by lia.
  - intros (c & _ & Hc). by exists (N.to_nat (c - 1)).
Qed.
Lemma children_empty h ix id w : runs h ix -> word_at (d_run h) id w ->
  get_children_map ix id = ∅ <-> forall r, w ++ [r] ∉ d_words (d_run h).
Proof.
  intros H Hw. assert (Hid : id <> 0) by (unfold word_at in Hw; lia). split.
  - intros E r Hr. apply in_word_at in Hr as [c Hc]. apply (child_word h ix id w) in Hc; [|done|by right|by left].
    by rewrite <- map_child, E, lookup_empty in Hc.
  - intros Hno. apply map_eq. intros r. rewrite lookup_empty, map_child. destruct (child _ id r) as [c|] eqn:E; [|done].
    exfalso. apply (Hno r), in_word_at. exists c. apply (child_word h ix id w) in E; [done|done|by right|by left].
Qed.
Lemma l_C86_child : forall h ix id w r, runs h ix -> word_at (d_run h) id w ->
  (forall c, c <> 0 -> get_child ix id r = Some c <-> word_at (d_run h) c (w ++ [r])) /\
  (get_child ix id r = None <-> forall r', w ++ [r'] ∉ d_words (d_run h)).
Proof.
  intros h ix id w r H Hw. assert (Hid : id <> 0) by (unfold word_at in Hw; lia).
  pose proof (children_empty h ix id w H Hw) as He. unfold get_child. cbv zeta. rewrite map_child. split.
  - intros c Hc. rewrite <- (child_word h ix id w) by (first [done|by right|by left]).
    destruct (bool_decide_reflect (get_children_map ix id = ∅)) as [E|E].
    + rewrite <- map_child, E, lookup_empty. done.
    + destruct (child _ id r); cbn; [done|]. split; [|done]. intros [= <-]. done.
  - rewrite <- He. destruct (bool_decide_reflect (get_children_map ix id = ∅)); done.
Qed.
(** A letter that is missing beside others gives the root instead of no node. *)
Lemma l_C86_missing_child_is_the_root_refuted : forall h ix id w r, runs h ix -> word_at (d_run h) id w ->
  get_child ix id r = Some 0 <-> w ++ [r] ∉ d_words (d_run h) /\ exists r', w ++ [r'] ∈ d_words (d_run h).
Proof.
  intros h ix id w r H Hw. assert (Hid : id <> 0) by (unfold word_at in Hw; lia).
  pose proof (children_empty h ix id w H Hw) as He. unfold get_child. cbv zeta. rewrite map_child.
  assert (Hc : child (ix_children ix) id r = None <-> w ++ [r] ∉ d_words (d_run h)).
  { rewrite in_word_at, eq_None_not_Some. split.
    - intros Hn [c Hc]. apply Hn. exists c. apply (child_word h ix id w); [done|by right|by left|done].
    - intros Hn [c Hc]. apply Hn. exists c. apply (child_word h ix id w) in Hc; [done|done|by right|by left]. }
  assert (H0 : child (ix_children ix) id r <> Some 0).
  { intros E. apply (child_word h ix id w) in E; [|done|by right|by left]. unfold word_at in E. lia. }
  destruct (bool_decide_reflect (get_children_map ix id = ∅)) as [E|E].
  - split; [done|]. intros [_ [r' Hr']]. by apply He in Hr'.
  - rewrite <- Hc. assert (Hex : exists r', w ++ [r'] ∈ d_words (d_run h)).
    { apply map_choose in E as (r' & c & Hr'). exists r'. apply in_word_at. exists c. rewrite map_child in Hr'.
      apply (child_word h ix id w) in Hr'; [done|done|by right|by left]. }
    destruct (child _ id r) as [c|]; cbn; [|done]. split; [congruence|]. by intros [? _].
Qed.

(** ** Index.TagSet *)
Lemma l_C86_tag_set : forall ts ids,
  match index_tag_set ts ids with
  | Ok l => Forall2 (fun k t => ts !! N.to_nat k = Some t) ids l
  | Err x => x = EOther /\ Exists (fun k => lenN ts <= k) ids
  | Panic => False
  end.
Proof.
  intros ts ids. induction ids as [|k ids IH]; cbn [index_tag_set]; [constructor|].
  rewrite tags_get_lookup. destruct (ts !! N.to_nat k) as [t|] eqn:E.
  - destruct (index_tag_set ts ids) as [l|x|]; cbn; [by constructor| |done]. destruct IH as [-> IH]. split; [done|]. by constructor.
  - split; [done|]. constructor. apply lookup_ge_None in E. unfold lenN. lia.
Qed.
Lemma l_C86_known_set : forall h ix k ids, runs h ix -> tagset_get (ix_sets ix) k = Some ids ->
  index_tag_set (ix_tags ix) ids = Ok (map (fun t => default zero_tag (tags_get (ix_tags ix) t)) ids).
Proof.
  intros h ix k ids H Hk. pose proof (set_ids_known h ix k ids H Hk) as Hf. clear Hk. induction ids as [|t ids IH]; [done|].
  apply Forall_cons in Hf as [Ht Hf]. cbn [index_tag_set map]. rewrite tags_get_lookup.
  destruct (ix_tags ix !! N.to_nat t) as [x|] eqn:E; [|apply lookup_ge_None in E; unfold lenN in Ht; lia].
  rewrite IH by done. done.
Qed.

(** ** Tables and sizes *)
Lemma l_C86_table : forall x n, lenN x <= 65535 -> n <= 65535 ->
  variants_get_table x n =
  if decide (n = 0) then Panic else match x !! N.to_nat (n - 1) with Some t => Ok t | None => Panic end.
Proof.
  intros x n Hx Hn. unfold variants_get_table, slice_get, wrap16. destruct (decide (n = 0)) as [->|H0].
  - change ((0 + 65535) mod 65536) with 65535. by rewrite lookup_ge_None_2 by (unfold lenN in Hx; lia).
  - replace ((n + 65535) mod 65536) with (n - 1); [done|].
    replace (n + 65535) with (n - 1 + 1 * 65536) by lia. rewrite N.mod_add by done. by rewrite N.mod_small by lia.
Qed.
Lemma l_C86_table_of : forall x id col, lenN x <= 65535 -> id < 2 ^ 32 -> 1 <= id32_upper id -> variants_get x id = Ok col ->
  exists t, variants_get_table x (id32_upper id) = Ok t /\ variants_table_get t (id32_lower id) = Ok col.
Proof.
  intros x id col Hx Hid Hu Hg. assert (Hu2 : id32_upper id <= 65535).
  { unfold id32_upper, wrap16. pose proof (N.mod_lt (id / 65536) 65536). lia. }
  rewrite l_C86_table by done. rewrite decide_False by lia. unfold variants_get in Hg.
  destruct (id =? 0) eqn:E0. { apply N.eqb_eq in E0. subst. done. }
  destruct (id32_upper id <? 1) eqn:E1; [lia|]. unfold slice_get in Hg.
  destruct (x !! N.to_nat (id32_upper id - 1)) as [t|]; [|done]. by exists t.
Qed.
Lemma l_C86_variants : forall h ix id w, runs h ix -> word_at (d_run h) id w ->
  exists it col, get_item ix id = Ok (Some it) /\ index_variants ix (it_variants it) = Ok col.
Proof.
  intros h ix id w H [H1 Hw]. destruct (show_node_ok h ix H _ _ Hw) as (it & ts & Hit & Hts & _).
  replace (N.of_nat (S (N.to_nat (id - 1)))) with id in * by lia. unfold node_tag_sets in Hts. unfold get_item in *. rewrite Hit in Hts.
  cbn in Hts. unfold index_variants. destruct (variants_get (ix_cols ix) (it_variants it)) as [col|x|] eqn:E; [|done|done].
  exists it, col. by rewrite Hit.
Qed.
Lemma NoDup_tables (x : list (list (list N))) : forall k,
  (forall c t, x !! c = Some t -> NoDup t /\ Forall (fun s => length s = S (k + c)) t) -> NoDup (concat x).
Proof.
  induction x as [|t x IH]; intros k H; [constructor|]. cbn [concat]. apply NoDup_app. split; [by apply (H 0%nat)|]. split.
  - intros s Hs Hx. destruct (H 0%nat t eq_refl) as [_ Ht]. rewrite Forall_forall in Ht. apply Ht in Hs.
    apply elem_of_list_In, in_concat in Hx as (t' & Ht' & Hx). apply elem_of_list_In, elem_of_list_lookup in Ht' as [c Hc].
    destruct (H (S c) t' Hc) as [_ Hf]. rewrite Forall_forall in Hf. apply elem_of_list_In, Hf in Hx. lia.
  - apply (IH (S k)). intros c t' Hc. destruct (H (S c) t' Hc) as [H1 H2]. split; [done|].
    eapply Forall_impl; [exact H2|]. cbn. intros. lia.
Qed.
Lemma concat_imap_length {A B} (g : nat -> nat -> A -> B) (x : list (list A)) : length (concat (imap (fun i t => imap (g i) t) x)) = length (concat x).
Proof.
  revert g. induction x as [|t x IH]; intros g; [done|]. rewrite imap_cons. cbn [concat]. rewrite !app_length, imap_length. f_equal.
  apply (IH (fun i => g (S i))).
Qed.
Lemma l_C86_size : forall h ix, runs h ix ->
  tagset_index_size (ix_sets ix) = lenN (concat (ix_sets ix)) /\ NoDup (concat (ix_sets ix)) /\
  tagset_index_size (ix_sets ix) = lenN (tagset_table_ids (ix_sets ix)).
Proof.
  intros h ix H. destruct (runs_R h ix H) as (ld & Hld & T & A).
  assert (Hs : forall x : tagset_index, tagset_index_size x = lenN (concat x)).
  { intros x. induction x as [|t x IH]; [done|]. cbn. rewrite lenN_app. unfold tagset_index_size in IH. by rewrite IH. }
  split; [apply Hs|]. split.
  - apply (NoDup_tables _ 0). intros c t Hc. destruct (a_sets _ _ A c t Hc) as [H1 H2]. split; [done|].
    eapply Forall_impl; [exact H2|]. cbn. by intros s [_ ?].
  - rewrite Hs. unfold lenN, tagset_table_ids. by rewrite concat_imap_length.
Qed.

(** ** Items.filter *)
Lemma l_C86_filter : forall f s, its_list (items_filter f s) =
  zero_item :: filter (fun it => f it = true /\ it_id it <> 0) (its_list s).
Proof.
  intros f s. unfold items_filter. cbv zeta. cbn [its_list]. f_equal. induction (its_list s) as [|it l IH]; [done|].
  cbn [List.filter]. rewrite filter_cons. destruct (f it); cbn [andb].
  - destruct (N.eqb_spec (it_id it) 0); cbn [negb].
    + rewrite decide_False by naive_solver. done.
    + rewrite decide_True by done. by f_equal.
  - rewrite decide_False by naive_solver. done.
Qed.
(** The next number is one too many: the last number taken for used is outside of the slice. *)
Lemma l_C86_filter_next_refuted : forall f s, lenN (its_list s) < 2 ^ 32 - 2 ->
  let s' := items_filter f s in its_next s' = lenN (its_list s') + 1 /\ items_get s' (lenN (its_list s')) = Panic.
Proof.
  intros f s Hs s'. assert (Hl : lenN (its_list s') <= lenN (its_list s) + 1).
  { unfold s'. rewrite l_C86_filter, lenN_cons. pose proof (filter_length (fun it => f it = true /\ it_id it <> 0) (its_list s)). unfold lenN. lia. }
  assert (H1 : 1 <= lenN (its_list s')) by (unfold s'; rewrite l_C86_filter, lenN_cons; lia).
  assert (Hn : its_next s' = lenN (its_list s') + 1).
  { unfold s', items_filter at 1. cbv zeta. cbn [its_next]. rewrite wrap32_small; [done|]. change (2 ^ 32) with 4294967296 in Hs.
    unfold s', items_filter in Hl. cbn [its_list] in Hl. lia. }
  split; [done|]. unfold items_get. rewrite Hn.
  destruct (N.eqb_spec (lenN (its_list s')) 0); [lia|]. destruct (N.leb_spec (lenN (its_list s') + 1) (lenN (its_list s'))); [lia|].
  unfold slice_get. rewrite lookup_ge_None_2; [done|]. unfold lenN. lia.
Qed.

(** ** Hexadecimal numbers on the screen *)
Lemma digit16_of d : d < 16 -> digit16 d (hex_digit d).
Proof.
  intros Hd. assert (H : Forall (fun d => digit16 d (hex_digit d)) (map N.of_nat (seq 0 16))) by (vm_compute; repeat constructor).
  rewrite Forall_forall in H. apply H. apply elem_of_list_fmap. exists (N.to_nat d). split; [lia|]. apply elem_of_seq. lia.
Qed.
Lemma digit16_lt d c : digit16 d c -> d < 16.
Proof. unfold digit16. intros H. apply lookup_lt_Some in H. cbn in H. lia. Qed.
Lemma digit16_fun d d' c : digit16 d c -> digit16 d' c -> d = d'.
Proof.
  unfold digit16. intros H H'. assert (Hn : NoDup (bytes_of "0123456789ABCDEF")).
  { apply (bool_decide_unpack (NoDup (bytes_of "0123456789ABCDEF"))). vm_compute. exact I. }
  pose proof (NoDup_lookup _ _ _ _ Hn H H'). lia.
Qed.
Lemma hex_fuel_ok f : forall n, n < 2 ^ N.of_nat f -> hexadecimal (hex_fuel (S f) n) n.
Proof.
  induction f as [|f IH]; intros n Hn.
  - cbn in Hn. assert (n = 0) as -> by lia. by apply hex_one.
  - change (hex_fuel (S (S f)) n) with (if n <? 16 then [hex_digit n] else hex_fuel (S f) (n / 16) ++ [hex_digit (n mod 16)]).
    destruct (N.ltb_spec n 16) as [H|H]; [apply hex_one, digit16_of; lia|].
    rewrite Nat2N.inj_succ, N.pow_succ_r' in Hn.
    assert (Hq : n / 16 < 2 ^ N.of_nat f) by (apply N.div_lt_upper_bound; [done|]; lia).
    assert (H0 : n / 16 <> 0) by (apply N.neq_0_lt_0, N.div_str_pos; lia).
    pose proof (hex_snoc _ _ _ _ (IH _ Hq) H0 (digit16_of (n mod 16) (N.mod_lt n 16 ltac:(done)))) as X.
    replace (n / 16 * 16 + n mod 16) with n in X; [exact X|]. rewrite (N.mul_comm (n / 16)). by apply N.div_mod.
Qed.
Lemma l_C86_hex : forall n, hexadecimal (hex n) n.
Proof. intros n. apply hex_fuel_ok. rewrite NumFacts.size_nat_N. apply N.size_gt. Qed.
Lemma hexadecimal_ne s n : hexadecimal s n -> s <> [].
Proof. destruct 1 as [|s ? ? ?]; [done|]. by destruct s. Qed.
Lemma l_C86_hex_unique : forall s n m, hexadecimal s n -> (hexadecimal s m <-> m = n) /\ (hexadecimal (hex m) n <-> m = n).
Proof.
  assert (Hf : forall s n, hexadecimal s n -> forall m, hexadecimal s m -> n = m).
  { induction 1 as [d c Hd|s n d c Hs IH Hn Hd]; intros m Hm.
    - inversion Hm as [d' c' Hd' E|s' n' d' c' Hs' Hn' Hd' E]; subst; [by eapply digit16_fun|].
      apply hexadecimal_ne in Hs'. by destruct s' as [|? [|? ?]].
    - inversion Hm as [d' c' Hd' E|s' n' d' c' Hs' Hn' Hd' E]; subst.
      + apply hexadecimal_ne in Hs. by destruct s as [|? [|? ?]].
      + apply app_inj_tail in E as [E1 E2]. subst s' c'. rewrite (IH n' Hs'). by rewrite (digit16_fun d d' c Hd Hd'). }
  intros s n m Hn. split; split.
  - intros Hm. symmetry. by eapply Hf.
  - by intros ->.
  - intros Hm. eapply Hf; [apply l_C86_hex|done].
  - intros ->. apply l_C86_hex.
Qed.

(** ** The stream of a tag set, and the files of a domain *)
Lemma l_C86_tagset_stream : forall l rest, Forall (fun x => x < 256) l -> lenN l <= 255 ->
  tagset_read_from (lenN l :: l ++ rest) = mkRd (lenN l + 1) (Some l) None rest.
Proof.
  intros l rest Hl Hn. change tagset_read_from with set8_read_from.
  change (lenN l :: l ++ rest) with (set8_layout l ++ rest). rewrite l_C38_set8_round by done.
  unfold set8_layout. by rewrite lenN_cons.
Qed.
Lemma l_C86_domain_file : forall cwd domain name, entry domain -> entry name ->
  walk cwd (domain_file_path domain name) = cwd ++ [bytes_of ".data"; domain; name].
Proof.
  intros cwd d f Hd Hf. unfold domain_file_path, domain_data_path, get_data_path.
  rewrite (join_two (bytes_of ".data")) by done. rewrite join_two by apply clean_ne.
  rewrite l_C64_same_place, walk_slash by apply clean_ne. rewrite l_C64_same_place, walk_slash by done.
  rewrite !pieces_entry by (apply Hd || apply Hf). cbn [fold_left]. rewrite !move_entry by done.
  unfold walk. rewrite (pieces_entry (bytes_of ".data")) by (vm_compute; set_solver). cbn [fold_left].
  rewrite move_entry by (repeat split; try done; vm_compute; set_solver). by rewrite <- !app_assoc.
Qed.
