(** Proofs of the properties of words and nodes (C02-C08, C31, C36, C37). *)
From Coq Require Import ZifyBool ZifyNat ZifyN.
From Verif Require Import Base Storage Bin Utf8 Tags TagSets Variants Items Index Spec Hist
  BaseFacts Intern SpecFacts TrieFacts NoteFacts OptFacts BinFacts CodecFacts ReloadFacts HistFacts
  DictFacts QueryFacts Utf8Facts.
From stdpp Require Import list pretty.
Open Scope N_scope.

(** ** Histories *)
Lemma forallb_Forall {A} (f : A -> bool) (P : A -> Prop) l :
  (forall x, f x = true -> P x) -> forallb f l = true -> Forall P l.
Proof.
  intros HP. induction l as [|x l IH]; cbn; [constructor|]. intros [H1 H2]%andb_true_iff.
  constructor; auto.
Qed.
Lemma op_okb_ok b ix o : op_okb b ix o = true -> op_ok b ix o.
Proof.
  assert (Hi : forall w, forallb int32b w = true -> Forall int32 w).
  { intros w. apply forallb_Forall. unfold int32b, int32. lia. }
  assert (Hb : forall n, bytesb n = true -> Forall (fun b => b < 256) n).
  { intros n. apply forallb_Forall. lia. }
  assert (Hh : forall w, headb b w = true -> b = true -> head w <> Some 0%Z).
  { intros w H -> E. unfold headb in H. cbn in H. by rewrite bool_decide_eq_true_2 in H. }
  destruct o; cbn; rewrite ?andb_true_iff; intros H; try done.
  - destruct H. by auto.
  - destruct H. by auto.
  - destruct H. by auto.
  - destruct H as [[H1 H2] H3]. split; [|by auto]. apply negb_true_iff, bool_decide_eq_false in H1. done.
Qed.
Lemma run_from_runs h ix h' ix' :
  runs h ix -> run_from (reloaded h) ix h' = Some ix' -> runs (h ++ h') ix'.
Proof.
  revert h ix. induction h' as [|o h' IH]; intros h ix H; cbn.
  - intros [= <-]. by rewrite app_nil_r.
  - destruct (op_okb (reloaded h) ix o) eqn:Eo; [|done].
    destruct (caps (step ix o).1) eqn:Ec; [|done]. intros E.
    replace (h ++ o :: h') with ((h ++ [o]) ++ h') by by rewrite <- app_assoc.
    eapply IH; [|by rewrite reloaded_snoc].
    eapply runs_snoc; [done|by apply op_okb_ok|apply surjective_pairing|done].
Qed.
Lemma run_runs h ix : run h = Some ix -> runs h ix.
Proof. intros H. apply (run_from_runs [] index_new h ix); [constructor|done]. Qed.

(** For the examples: run a concrete history and evaluate a statement about its result. *)
Lemma run_case h (P : Index.index -> Prop) :
  match run h with Some ix => P ix | None => False end -> exists ix, runs h ix /\ P ix.
Proof.
  destruct (run h) as [ix|] eqn:E; [|done]. intros H. exists ix. split; [by apply run_runs|exact H].
Qed.
Lemma run_case2 h h' (P : Index.index -> Index.index -> Prop) :
  match run h, run h' with Some ix, Some ix' => P ix ix' | _, _ => False end ->
  exists ix ix', runs h ix /\ runs h' ix' /\ P ix ix'.
Proof.
  destruct (run h) as [ix|] eqn:E; [|done]. destruct (run h') as [ix'|] eqn:E'; [|done].
  intros H. exists ix, ix'. split; [by apply run_runs|]. split; [by apply run_runs|exact H].
Qed.

Lemma runs_snoc_inv h o ix' : runs (h ++ [o]) ix' ->
  exists ix r, runs h ix /\ op_ok (reloaded h) ix o /\ step ix o = (ix', r) /\ caps ix' = true.
Proof.
  intros H. inversion H as [E|h0 o0 ix ix0 r Hr Hok Hs Hc E]; [by destruct h|].
  apply app_inj_tail in E as [-> ->]. subst. by exists ix, r.
Qed.
Lemma runs_det h ix ix' : runs h ix -> runs h ix' -> ix = ix'.
Proof.
  intros H. revert ix'. induction H as [|h o ix ix1 r H IH Hok Hs Hc]; intros ix' H'.
  - inversion H' as [|h0 o0 ? ? ? ? ? ? ? E]; [done|]. by destruct h0.
  - apply runs_snoc_inv in H' as (ix2 & r2 & H2 & _ & Hs2 & _). apply IH in H2 as <-. congruence.
Qed.
Lemma runs_app_inv h h' ix' : runs (h ++ h') ix' -> exists ix, runs h ix.
Proof.
  revert ix'. induction h' as [|o h' IH] using rev_ind; intros ix' H.
  - rewrite app_nil_r in H. by exists ix'.
  - rewrite app_assoc in H. apply runs_snoc_inv in H as (ix & r & H & _). by eapply IH.
Qed.
Lemma reloaded_app h h' : reloaded (h ++ h') = reloaded h || reloaded h'.
Proof. unfold reloaded. apply existsb_app. Qed.
Lemma added_app h h' : added (h ++ h') = added h ++ added h'.
Proof. unfold added. apply omap_app. Qed.
Lemma present_app h h' w : present h w -> present (h ++ h') w.
Proof.
  intros (Hne & w' & Hin & Hp). split; [done|]. exists w'. split; [|done].
  rewrite added_app, elem_of_app. by left.
Qed.
Lemma present_add h h' w : w <> [] -> present (h ++ OAdd w :: h') w.
Proof.
  intros Hne. split; [done|]. exists w. split; [|done].
  rewrite added_app, elem_of_app. right. cbn. by left.
Qed.
Lemma present_prefix h v w : v <> [] -> v `prefix_of` w -> present h w -> present h v.
Proof.
  intros Hv Hp (_ & w' & Hin & Hw). split; [done|]. exists w'. split; [done|]. by etrans.
Qed.
Lemma runs_R h ix : runs h ix -> exists ld,
  (ld = true -> reloaded h = true) /\ trie_of ld ix (d_words (d_run h)) /\ annot ix (d_run h).
Proof. exact (runs_refines h ix). Qed.

(** a word may be looked up after [h] *)
Definition hd_ok (h : list op) (w : list Z) : Prop := reloaded h = true -> head w <> Some 0%Z.

Lemma runs_fetch h ix w : runs h ix -> hd_ok h w ->
  (fetch_runes ix w).2 = match w with [] => Err EIndex | _ => d_find (d_run h) w end.
Proof.
  intros H Hh. destruct (runs_R h ix H) as (ld & Hld & T & A).
  eapply fetch_refines; [exact T|exact A|]. intros E. by apply Hh, Hld.
Qed.
Lemma runs_fetch_pos h ix w id : runs h ix -> hd_ok h w -> (fetch_runes ix w).2 = Ok id ->
  exists i, id = N.of_nat (S i) /\ d_words (d_run h) !! i = Some w.
Proof.
  intros H Hh. rewrite (runs_fetch h ix w H Hh). destruct w as [|r w]; [done|]. apply d_find_Some.
Qed.
Lemma runs_fetch_at h ix w i : runs h ix -> hd_ok h w -> d_words (d_run h) !! i = Some w ->
  (fetch_runes ix w).2 = Ok (N.of_nat (S i)).
Proof.
  intros H Hh Hi. rewrite (runs_fetch h ix w H Hh).
  assert (w <> []) by (intros ->; apply (d_run_nil_not h); by eapply elem_of_list_lookup_2).
  destruct w as [|r w]; [done|]. unfold d_find.
  rewrite (pos_from_lookup 1 _ _ _ (d_run_NoDup h) Hi). f_equal. lia.
Qed.

(** ** C02 *)
Lemma l_C02_added_is_found : forall h h' w ix ix',
  runs h ix -> runs (h ++ OAdd w :: h') ix' -> w <> [] ->
  (reloaded h' = true -> head w <> Some 0%Z) ->
  exists id, (add_runes ix w).2 = Ok id /\ (fetch_runes ix' w).2 = Ok id.
Proof.
  intros h h' w ix ix' H H' Hne Hg.
  replace (h ++ OAdd w :: h') with ((h ++ [OAdd w]) ++ h') in H' by by rewrite <- app_assoc.
  destruct (runs_app_inv _ _ _ H') as [ix1 H1].
  apply runs_snoc_inv in H1 as H1'. destruct H1' as (ix0 & r & H0 & Hok & Hs & Hc).
  apply (runs_det _ _ _ H) in H0 as <-. destruct Hok as [Hw Hh].
  assert (Hhd : hd_ok ((h ++ [OAdd w]) ++ h') w).
  { intros E. rewrite reloaded_app, reloaded_snoc in E. cbn in E. rewrite orb_false_r in E.
    apply orb_true_iff in E as [E|E]; auto. }
  assert (Hr : r = d_out (d_run h) (OAdd w)).
  { eapply (step_refines (reloaded h)); [by apply runs_refines|by split|exact Hs|done]. }
  cbn [step] in Hs. rewrite Hs. cbn [snd]. subst r. cbn [d_out].
  rewrite (runs_fetch _ _ w H' Hhd). destruct w as [|a w]; [done|].
  set (v := a :: w) in *.
  assert (Hin : v ∈ d_words (d_add (d_run h) v)).
  { cbn [d_words d_add]. apply add_prefixes_elem. right. exists v. by rewrite app_nil_l. }
  unfold d_find at 1. destruct (pos_from 1 (d_words (d_add (d_run h) v)) v) as [id|] eqn:E.
  2:{ by apply pos_from_None in E. }
  exists id. split; [done|]. unfold d_find.
  destruct (d_run_words_prefix (h ++ [OAdd v]) h') as [new Ew]. rewrite d_run_snoc in Ew. cbn [d_step] in Ew.
  rewrite Ew. by rewrite (pos_from_app_old _ _ _ _ _ E).
Qed.
Lemma l_C02_added_string_is_found : forall h h' s ix ix',
  runs h ix -> runs (h ++ OAdd (runes_of_string s) :: h') ix' -> s <> [] ->
  (reloaded h' = true -> head s <> Some 0) ->
  exists id, (add_string ix s).2 = Ok id /\ (fetch_string ix' s).2 = Ok id.
Proof.
  intros h h' s ix ix' H H' Hne Hg. unfold add_string, fetch_string.
  replace (lenN s =? 0) with false by (destruct s; [done|unfold lenN; cbn [length]; lia]).
  eapply l_C02_added_is_found; [exact H|exact H'|by rewrite decode_nil|].
  intros E Hh. apply (Hg E). revert Hh. destruct s as [|a s]; [done|]. clear. cbn [runes_of_string].
  destruct (a <? 128) eqn:E1; [cbn; intros [= ?]; f_equal; lia|].
  assert (Hfe : forall l, head (rune_error :: l) <> Some 0%Z) by done.
  destruct (in_range 194 223 a) eqn:E2.
  { destruct s as [|b s]; [done|]. destruct (is_cont b) eqn:Eb; [|done].
    unfold in_range, is_cont in *. cbn [head]. intros [= ?]. lia. }
  destruct (in_range 224 239 a) eqn:E3.
  { destruct s as [|b [|c s]]; [done..|].
    destruct (in_range (second_lo a) (second_hi a) b && is_cont c) eqn:Eb; [|done].
    apply andb_true_iff in Eb as [Eb Ec]. unfold in_range, is_cont, second_lo, second_hi in *. cbn [head].
    intros [= ?]. destruct (N.eqb_spec a 224), (N.eqb_spec a 240), (N.eqb_spec a 237), (N.eqb_spec a 244); lia. }
  destruct (in_range 240 244 a) eqn:E4; [|done].
  destruct s as [|b [|c [|e s]]]; [done..|].
  destruct (in_range (second_lo a) (second_hi a) b && is_cont c && is_cont e) eqn:Eb; [|done].
  apply andb_true_iff in Eb as [Eb Ee]. apply andb_true_iff in Eb as [Eb Ec].
  unfold in_range, is_cont, second_lo, second_hi in *. cbn [head].
  intros [= ?]. destruct (N.eqb_spec a 224), (N.eqb_spec a 240), (N.eqb_spec a 237), (N.eqb_spec a 244); lia.
Qed.

(** ** C03 *)
Lemma l_C03_found_iff : forall h ix w,
  runs h ix -> (reloaded h = true -> head w <> Some 0%Z) ->
  ((exists id, (fetch_runes ix w).2 = Ok id) <-> present h w) /\
  (~ present h w -> (fetch_runes ix w).2 = Err EIndex).
Proof.
  intros h ix w H Hh. rewrite (runs_fetch h ix w H Hh).
  destruct w as [|r w]; [split; [|done]; split; [by intros [? ?]|by intros [? _]]|].
  rewrite <- d_run_words. unfold d_find. destruct (pos_from 1 _ (r :: w)) as [id|] eqn:E.
  - assert (Hin : r :: w ∈ d_words (d_run h)).
    { apply pos_from_Some in E as (j & _ & Hj). by eapply elem_of_list_lookup_2. }
    split; [|done]. split; [done|]. by exists id.
  - apply pos_from_None in E. split; [|done]. split; [by intros [? ?]|done].
Qed.
Lemma l_C03_empty_word : forall ix, (fetch_runes ix []).2 = Err EIndex /\ (fetch_string ix []).2 = Err EIndex.
Proof. done. Qed.

(** ** C04 *)
Lemma l_C04_same_node_iff_same_word : forall h h' ix ix' w w' i j,
  runs h ix -> runs (h ++ h') ix' ->
  (reloaded h = true -> head w <> Some 0%Z) -> (reloaded (h ++ h') = true -> head w' <> Some 0%Z) ->
  (fetch_runes ix w).2 = Ok i -> (fetch_runes ix' w').2 = Ok j -> i = j <-> w = w'.
Proof.
  intros h h' ix ix' w w' i j H H' Hh Hh' Hi Hj.
  destruct (runs_fetch_pos _ _ _ _ H Hh Hi) as (a & -> & Ha).
  destruct (runs_fetch_pos _ _ _ _ H' Hh' Hj) as (b & -> & Hb).
  destruct (d_run_words_prefix h h') as [new E].
  assert (Ha' : d_words (d_run (h ++ h')) !! a = Some w) by (rewrite E; by apply lookup_app_l_Some).
  split.
  - intros Hab. assert (a = b) as -> by lia. congruence.
  - intros ->. assert (a = b) as ->; [|done]. eapply NoDup_lookup; [apply d_run_NoDup|done..].
Qed.
Lemma l_C04_node_is_stable : forall h h' ix ix' w i,
  runs h ix -> runs (h ++ h') ix' -> (reloaded (h ++ h') = true -> head w <> Some 0%Z) ->
  (fetch_runes ix w).2 = Ok i -> (fetch_runes ix' w).2 = Ok i.
Proof.
  intros h h' ix ix' w i H H' Hh Hi.
  assert (Hh0 : hd_ok h w) by (intros E; apply Hh; by rewrite reloaded_app, E).
  destruct (runs_fetch_pos _ _ _ _ H Hh0 Hi) as (a & -> & Ha).
  apply (runs_fetch_at _ _ _ _ H' Hh). destruct (d_run_words_prefix h h') as [new E].
  rewrite E. by apply lookup_app_l_Some.
Qed.

(** ** C05 *)
Lemma l_C05_nodes_count : forall h ix, runs h ix ->
  exists l, NoDup l /\ (forall w, w ∈ l <-> present h w) /\ nodes_count ix = lenN l.
Proof.
  intros h ix H. destruct (runs_R h ix H) as (ld & Hld & T & A).
  exists (d_words (d_run h)). split; [apply d_run_NoDup|]. split; [apply d_run_words|].
  exact (nodes_count_spec T).
Qed.

(** ** C06 *)
Lemma add_loop_present ld ws rest : forall ix p q,
  trie_of ld ix ws -> ([] :: ws) !! N.to_nat p = Some q -> rest <> [] ->
  head_ok ld (q ++ rest) -> q ++ rest ∈ ws ->
  add_loop ix p rest = fetch_loop ix p rest.
Proof.
  induction rest as [|r rest IH]; intros ix p q T Hp Hne Hg Hin; [done|]. cbn [add_loop fetch_loop].
  assert (Hpar : (if p =? 0 then Ok true
    else oit ← items_get (ix_items ix) p; Ok (match oit with Some _ => true | None => false end)) = Ok true).
  { destruct (N.eqb_spec p 0) as [->|Hp0]; [done|].
    destruct (trie_item T p q Hp0 Hp) as (it & q' & -> & _). done. }
  rewrite Hpar. pose proof (same_core_ensure ix p) as S1.
  pose proof (trie_of_same _ _ _ _ S1 T) as T1. set (ix1 := ensure_children ix p) in *.
  assert (Hr : q ++ [r] ∈ ws).
  { replace (q ++ r :: rest) with ((q ++ [r]) ++ rest) in Hin by by rewrite <- app_assoc.
    eapply (trie_prefix_closed_app T1); [|exact Hin]. by destruct q. }
  pose proof (head_ok_step ld q r rest Hg) as Hst.
  destruct (child (ix_children ix1) p r) as [n|] eqn:Ec.
  - destruct rest as [|r2 rest]; [done|].
    eapply (IH _ _ (q ++ [r])); [exact T1| |done| |]; [|by rewrite <- app_assoc..].
    by apply (trie_child_Some T1 p q).
  - exfalso. apply (trie_child_None T1 p q) in Ec; done.
Qed.
Lemma l_C06_add_again : forall h ix w,
  runs h ix -> present h w -> (reloaded h = true -> head w <> Some 0%Z) ->
  exists id, (fetch_runes ix w).2 = Ok id /\ (add_runes ix w).2 = Ok id /\
             indist (add_runes ix w).1 ix.
Proof.
  intros h ix w H Hp Hh. destruct (proj2 (proj1 (l_C03_found_iff h ix w H Hh)) Hp) as [id Hid].
  exists id. split; [done|]. destruct (runs_R h ix H) as (ld & Hld & T & A).
  assert (E : add_runes ix w = fetch_runes ix w).
  { destruct w as [|r w]; [done|]. apply (add_loop_present ld (d_words (d_run h)) _ ix 0 []); [done..| |].
    - intros E. by apply Hh, Hld.
    - by apply d_run_words. }
  rewrite E. split; [done|]. apply same_core_indist, fetch_same.
Qed.

(** ** C07 *)
Lemma add_loop_below ld ws rest r0 : forall pre ix p q id,
  trie_of ld ix ws -> ([] :: ws) !! N.to_nat p = Some q ->
  head_ok ld (q ++ pre) -> ([] :: ws) !! N.to_nat id = Some (q ++ pre) ->
  exists ix', same_core ix' ix /\ add_loop ix p (pre ++ r0 :: rest) = add_loop ix' id (r0 :: rest).
Proof.
  induction pre as [|r pre IH]; intros ix p q id T Hp Hg Hid.
  { rewrite app_nil_r in Hid. assert (p = id) as -> by (eapply (trie_P_inj T); done). by exists ix. }
  rewrite <- app_comm_cons. cbn [add_loop].
  assert (Hpar : (if p =? 0 then Ok true
    else oit ← items_get (ix_items ix) p; Ok (match oit with Some _ => true | None => false end)) = Ok true).
  { destruct (N.eqb_spec p 0) as [->|Hp0]; [done|].
    destruct (trie_item T p q Hp0 Hp) as (it & q' & -> & _). done. }
  rewrite Hpar. pose proof (same_core_ensure ix p) as S1.
  pose proof (trie_of_same _ _ _ _ S1 T) as T1. set (ix1 := ensure_children ix p) in *.
  pose proof (head_ok_step ld q r pre Hg) as Hst.
  assert (Hin : q ++ [r] ∈ ws).
  { assert (id <> 0). { intros ->. rewrite P_0 in Hid. injection Hid as Hid. by destruct q. }
    rewrite P_pos in Hid by done. apply elem_of_list_lookup_2 in Hid.
    replace (q ++ r :: pre) with ((q ++ [r]) ++ pre) in Hid by by rewrite <- app_assoc.
    eapply (trie_prefix_closed_app T1); [|exact Hid]. by destruct q. }
  destruct (child (ix_children ix1) p r) as [n|] eqn:Ec.
  2:{ exfalso. apply (trie_child_None T1 p q) in Ec; done. }
  assert (Hn : ([] :: ws) !! N.to_nat n = Some (q ++ [r])) by by apply (trie_child_Some T1 p q).
  destruct (IH ix1 n (q ++ [r]) id T1 Hn) as (ix' & S' & E).
  - by rewrite <- app_assoc.
  - by rewrite <- app_assoc.
  - exists ix'. split; [by etrans|]. etrans; [|exact E]. by destruct pre.
Qed.
Lemma l_C07_add_below_node : forall h ix p r id,
  runs h ix -> (reloaded h = true -> head p <> Some 0%Z) -> r <> [] ->
  (fetch_runes ix p).2 = Ok id ->
  (add_to_node ix id r).2 = (add_runes ix (p ++ r)).2 /\
  indist (add_to_node ix id r).1 (add_runes ix (p ++ r)).1.
Proof.
  intros h ix p r id H Hh Hr Hid. destruct (runs_fetch_pos _ _ _ _ H Hh Hid) as (i & -> & Hi).
  destruct (runs_R h ix H) as (ld & Hld & T & A). destruct r as [|r0 r]; [done|].
  assert (Hp : ([] :: d_words (d_run h)) !! N.to_nat (N.of_nat (S i)) = Some ([] ++ p)) by by rewrite Nat2N.id.
  destruct (add_loop_below ld (d_words (d_run h)) r r0 p ix 0 [] (N.of_nat (S i)) T) as (ix' & S' & E);
    [apply P_0|intros E; by apply Hh, Hld|done|].
  assert (Ea : add_runes ix (p ++ r0 :: r) = add_loop ix' (N.of_nat (S i)) (r0 :: r)).
  { rewrite <- E. unfold add_runes, add_to_node. by destruct p. }
  rewrite Ea. unfold add_to_node. symmetry in S'.
  destruct (add_loop_cong (r0 :: r) ix ix' (N.of_nat (S i)) S') as [S1 E1].
  split; [done|]. by apply same_core_indist.
Qed.
Lemma l_C07_unknown_parent : forall h ix id r,
  runs h ix -> nodes_count ix < id -> add_to_node ix id r = (ix, Err EIndex).
Proof.
  intros h ix id r H Hid. destruct (runs_R h ix H) as (ld & Hld & T & A).
  apply add_to_node_unknown; [|lia]. rewrite (nodes_count_spec T) in Hid.
  rewrite (t_len _ _ _ _ T). lia.
Qed.

(** ** C08 *)
Lemma l_C08_word : forall h ix w id,
  runs h ix -> (reloaded h = true -> head w <> Some 0%Z) -> (fetch_runes ix w).2 = Ok id ->
  node_word ix id = Ok (string_of_runes w).
Proof.
  intros h ix w id H Hh Hid. destruct (runs_fetch_pos _ _ _ _ H Hh Hid) as (i & -> & Hi).
  destruct (runs_R h ix H) as (ld & Hld & T & A). exact (node_word_spec T i w Hi).
Qed.
Lemma l_C08_string_word : forall h ix s id,
  runs h ix -> (reloaded h = true -> head (runes_of_string s) <> Some 0%Z) -> wf_utf8 s ->
  (fetch_string ix s).2 = Ok id -> node_word ix id = Ok s.
Proof.
  intros h ix s id H Hh Hs Hid. rewrite (l_C08_word h ix _ id H Hh Hid). f_equal. by apply round_iff.
Qed.

(** ** C31 *)
Lemma l_C31_lookup_has_no_effect : forall ix w, indist (fetch_runes ix w).1 ix.
Proof. intros. apply same_core_indist, fetch_same. Qed.

(** ** C36 *)
Lemma tagset_index_nil ts : exists r, tagset_index_index ts [] = Ok r.
Proof.
  unfold tagset_index_index. cbn. eauto.
Qed.
Lemma variants_index_total cols item : lenN item <= 65536 ->
  exists cols' vid, variants_index_index cols item = Ok (cols', vid).
Proof.
  intros H. destruct (decide (item = [])) as [->|Hne]; [eexists _, _; done|].
  eexists _, _. by apply variants_index_intern.
Qed.
(** AddTagSet on a node of the index, whatever the tags *)
Lemma add_tag_set_total ld ix d i w names :
  trie_of ld ix (d_words d) -> annot ix d -> d_words d !! i = Some w ->
  (node_add_tag_set ix (N.of_nat (S i)) names).2 =
    match d_ids d names with Some _ => Ok tt | None => Err EIndex end.
Proof.
  intros T A Hw. destruct (decide (names = [])) as [->|Hne].
  - unfold node_add_tag_set. cbn [names_to_ids].
    destruct (node_variants T A i w Hw) as (it & Hget & Hl & Hv). unfold get_item. rewrite Hget.
    assert (Hcol : exists col, variants_get (ix_cols ix) (it_variants it) = Ok col /\ lenN col <= 65535).
    { destruct Hv as [[-> Hn]|(col & Hg & Hn)]; [by exists []|].
      exists col. split; [by apply good_col_get|].
      rewrite (good_col_len _ _ _ (a_cols _ _ A) Hg). unfold id32_upper.
      pose proof (wrap16_lt (N.land (N.shiftr (it_variants it) 16) 65535)). lia. }
    destruct Hcol as (col & -> & Hcl). unfold mbind, res_bind.
    destruct (tagset_index_nil (ix_sets ix)) as [[sets sid] ->].
    destruct (variants_index_total (ix_cols ix) (collection_add col sid)) as (cols' & vid & ->).
    { pose proof (collection_add_len col sid). lia. }
    done.
  - pose proof (attach_shape T A i w names Hw Hne) as H. destruct (d_ids d names).
    + destruct H as (it & col & sets' & sid & cols' & vid & _ & _ & _ & _ & _ & ->). done.
    + by rewrite H.
Qed.
Lemma l_C36_nodes_usable : forall h ix id,
  runs h ix -> id <> 0 -> index_get ix id = Ok id ->
  (exists s, node_word ix id = Ok s /\ wf_utf8 s) /\
  (exists ts, node_tag_sets ix id = Ok ts) /\
  (forall names, (node_add_tag_set ix id names).2 = Ok tt \/ (node_add_tag_set ix id names).2 = Err EIndex).
Proof.
  intros h ix id H Hid Hget. destruct (runs_R h ix H) as (ld & Hld & T & A).
  assert (Hlt : id < its_next (ix_items ix)).
  { unfold index_get in Hget. destruct (N.leb_spec (its_next (ix_items ix)) id); [done|lia]. }
  destruct (trie_id_ex T id Hlt) as [w Hw]. rewrite P_pos in Hw by done.
  replace id with (N.of_nat (S (N.to_nat id - 1))) by lia. split; [|split].
  - exists (string_of_runes w). split; [by apply (node_word_spec T)|apply wf_string_of_runes].
  - destruct (node_tag_sets_spec T A _ _ Hw) as (col & -> & _). by eexists.
  - intros names. rewrite (add_tag_set_total ld ix _ _ _ names T A Hw). destruct (d_ids _ _); auto.
Qed.
Lemma l_C36_returned_nodes : forall h ix w id,
  runs h ix -> (reloaded h = true -> head w <> Some 0%Z) -> (fetch_runes ix w).2 = Ok id ->
  id <> 0 /\ index_get ix id = Ok id.
Proof.
  intros h ix w id H Hh Hid. destruct (runs_fetch_pos _ _ _ _ H Hh Hid) as (i & -> & Hi).
  destruct (runs_R h ix H) as (ld & Hld & T & A). split; [lia|].
  eapply index_get_ok; [exact T|]. by rewrite Nat2N.id.
Qed.
Lemma l_C36_get_iff : forall h ix id, runs h ix ->
  (index_get ix id = Ok id <-> id <= nodes_count ix) /\ (nodes_count ix < id -> index_get ix id = Err EIndex).
Proof.
  intros h ix id H. destruct (runs_R h ix H) as (ld & Hld & T & A).
  rewrite (nodes_count_spec T). unfold index_get. rewrite (t_len _ _ _ _ T).
  destruct (N.leb_spec (lenN (d_words (d_run h)) + 1) id); split; try done; try lia; split; try done; lia.
Qed.
Lemma l_C36_root_panics : forall ix names ids,
  index_get index_new 0 = Ok 0 /\
  node_tag_sets ix 0 = Panic /\
  (names_to_ids (ix_tags ix) names = Ok ids -> (node_add_tag_set ix 0 names).2 = Panic).
Proof.
  intros ix names ids. split; [done|]. split; [done|]. intros E. unfold node_add_tag_set.
  rewrite E. unfold get_item, items_get. cbn. done.
Qed.

(** ** C37 *)
Lemma l_C37_node_string : forall h ix w c id it,
  runs h ix -> (reloaded h = true -> head (w ++ [c]) <> Some 0%Z) -> (0 <= c < 128)%Z ->
  (fetch_runes ix (w ++ [c])).2 = Ok id -> get_item ix id = Ok (Some it) ->
  node_string ix id = Ok (bytes_of "Node(" ++ string_of_runes w ++ bytes_of "[" ++ [Z.to_N c] ++ bytes_of "]"
    ++ bytes_of (pretty id) ++ bytes_of "_" ++ bytes_of (pretty (it_parent it)) ++ bytes_of "_"
    ++ bytes_of (pretty (it_variants it)) ++ bytes_of ")").
Proof.
  intros h ix w c id it H Hh Hc Hid Hit. pose proof (l_C08_word h ix _ id H Hh Hid) as Hword.
  destruct (runs_fetch_pos _ _ _ _ H Hh Hid) as (i & -> & Hi).
  destruct (runs_R h ix H) as (ld & Hld & T & A).
  destruct (trie_item T (N.of_nat (S i)) (w ++ [c])) as (it' & q & Hget & _ & Hidd & _ & _ & E & _);
    [lia|by rewrite Nat2N.id|].
  assert (it' = it) as -> by (unfold get_item in Hit; congruence).
  apply app_inj_tail in E as [-> ->].
  unfold node_string. rewrite Hit. rewrite Hword. cbn [mbind res_bind].
  assert (Es : string_of_rune (it_letter it) = [Z.to_N (it_letter it)]).
  { unfold string_of_rune. replace (valid_rune (it_letter it)) with true by (unfold valid_rune; lia).
    unfold encode_scalar. by replace (it_letter it <? 128)%Z with true by lia. }
  unfold string_of_runes. rewrite map_app, concat_app. cbn [map concat]. rewrite Es, app_nil_r.
  set (pre := concat _). rewrite app_length. cbn [length].
  replace (length pre + 1 - 1)%nat with (length pre) by lia.
  destruct (pre ++ [Z.to_N (it_letter it)]) eqn:Ep; [by destruct pre|]. rewrite <- Ep. clear Ep.
  rewrite take_app. unfold item_string. rewrite Es. cbn [app drop]. rewrite Hidd.
  assert (Hb : forall a b, bytes_of (a +:+ b) = bytes_of a ++ bytes_of b).
  { clear. intros a b. unfold bytes_of. induction a as [|x a IH]; [done|].
    change (String x a +:+ b) with (String x (a +:+ b)).
    cbn [list_ascii_of_string map app]. by rewrite IH. }
  rewrite !Hb, drop_0, <- ?app_assoc. done.
Qed.
