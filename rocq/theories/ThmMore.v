(** Proofs about listings and texts: C14, C15, C37, C69. *)
From Coq Require Import ZifyBool ZifyNat ZifyN.
From Verif Require Import Base Storage Bin Utf8 Tags TagSets Variants Items Index Spec Hist
  BaseFacts Intern SpecFacts TrieFacts NoteFacts OptFacts HistFacts DictFacts QueryFacts ThmTrie ThmStore Cli ThmCli Strconv Session Screen ScreenSpec ThmScreen.
From stdpp Require Import list gmap pretty.
Open Scope N_scope.

(** ** C14 *)
Lemma l_C14_following : forall t id k, lenN t <= 65536 ->
  k ∈ variants_table_following t id <-> id < k < lenN t.
Proof.
  intros t id k Ht. unfold variants_table_following. rewrite elem_of_list_fmap. split.
  - intros (i & -> & Hi). apply elem_of_seq in Hi. rewrite wrap16_small by lia. lia.
  - intros Hk. exists (N.to_nat (k - (id + 1))). split; [rewrite wrap16_small by lia; lia|]. apply elem_of_seq. lia.
Qed.
Lemma l_C14_following_order : forall t id, lenN t <= 65536 -> StronglySorted N.lt (variants_table_following t id).
Proof.
  intros t id Ht. unfold variants_table_following. set (n := N.to_nat _).
  assert (Hs : forall m, (m + (n - m) <= n)%nat -> StronglySorted N.lt (map (fun i => wrap16 (id + 1 + N.of_nat i)) (seq m (n - m)))).
  { intros m. remember (n - m)%nat as d eqn:Ed. revert m Ed. induction d as [|d IH]; intros m Ed Hm; [constructor|]. cbn [seq map]. constructor; [apply IH; lia|].
    apply Forall_forall. intros x Hx. apply elem_of_list_fmap in Hx as (i & -> & Hi). apply elem_of_seq in Hi. rewrite !wrap16_small by lia. lia. }
  specialize (Hs 0%nat). rewrite Nat.sub_0_r in Hs. apply Hs. lia.
Qed.
(** ** C15 *)
Lemma l_C15_listed : forall items x ids, nonempty items -> fits 65536 65536 items ->
  idx_all tagset_index_index [] items = Ok (x, ids) ->
  Forall2 (fun id s => exists k, tagset_get x k = Some s /\ k ∈ ids /\ id = (k + 65536) mod 2 ^ 32) (tagset_table_ids x) (concat x).
Proof.
  intros items x ids Hne Hf E.
  rewrite (idx_all_intern tagset_index_index pack16 65536 tagset_idx) in E by (done || apply Hf).
  injection E as <- <-. destruct (intern_all_spec items [] tables_ok_nil Hne) as (Hok & Hlen & _ & Hg & Hnew & Hcols).
  set (r := intern_all [] items) in *.
  apply (Forall2_concat_imap _ (fun c i => combine16 (wrap16 (wrap16 (N.of_nat c) + 1)) (wrap16 (N.of_nat i)))).
  intros c t i s Hct Hi. assert (Ha : at2 r.1 c i = Some s) by (unfold at2; by rewrite Hct).
  assert (N.of_nat c < 65536 /\ N.of_nat i < 65536) as [H1 H2] by (by eapply (packed_lt 65536 65536 items c i s Hne Hf)).
  exists (combine16 (N.of_nat c) (N.of_nat i)). split; [|split].
  - rewrite tagset_get_at2, upper_combine16, lower_combine16 by done. by rewrite !Nat2N.id.
  - apply elem_of_list_fmap. destruct (Hnew _ _ _ Ha) as [Hx|(k & s' & _ & _ & Hk)]; [by unfold at2 in Hx; rewrite lookup_nil in Hx|].
    exists (c, i). split; [|by eapply elem_of_list_lookup_2]. unfold pack16. cbn. by rewrite !wrap16_small.
  - rewrite !(wrap16_small (N.of_nat _)) by done. destruct (decide (N.of_nat c = 65535)) as [-> | Hn].
    + change (wrap16 (65535 + 1)) with 0. rewrite !combine16_arith by lia.
      replace (65535 * 65536 + N.of_nat i + 65536) with (N.of_nat i + 1 * 2 ^ 32) by lia. rewrite N.mod_add, N.mod_small by lia. lia.
    + rewrite wrap16_small by lia. rewrite !combine16_arith by lia. rewrite N.mod_small by lia. lia.
Qed.
(** ** C37 *)
Lemma l_C37_any_letter : forall h ix w c id it,
  runs h ix -> (reloaded h = true -> head (w ++ [c]) <> Some 0%Z) ->
  (fetch_runes ix (w ++ [c])).2 = Ok id -> get_item ix id = Ok (Some it) ->
  node_string ix id = Ok (bytes_of "Node(" ++ removelast (string_of_runes (w ++ [c])) ++ bytes_of "[" ++ string_of_rune c ++ bytes_of "]"
    ++ tail (string_of_rune c) ++ bytes_of (pretty id) ++ bytes_of "_" ++ bytes_of (pretty (it_parent it)) ++ bytes_of "_"
    ++ bytes_of (pretty (it_variants it)) ++ bytes_of ")").
Proof.
  intros h ix w c id it H Hh Hid Hit. pose proof (l_C08_word h ix _ id H Hh Hid) as Hword.
  destruct (runs_fetch_pos _ _ _ _ H Hh Hid) as (i & -> & Hi).
  destruct (runs_R h ix H) as (ld & Hld & T & A).
  destruct (trie_item T (N.of_nat (S i)) (w ++ [c])) as (it' & q & Hget & _ & Hidd & _ & _ & E & _);
    [lia|by rewrite Nat2N.id|].
  assert (it' = it) as -> by (unfold get_item in Hit; congruence).
  apply app_inj_tail in E as [-> ->].
  unfold node_string. rewrite Hit. rewrite Hword. cbn [mbind res_bind].
  assert (Hr : exists b bs, string_of_rune (it_letter it) = b :: bs).
  { unfold string_of_rune, encode_scalar. repeat case_match; by eexists _, _. }
  destruct Hr as (b & bs & Er).
  assert (En : string_of_runes (q ++ [it_letter it]) <> []).
  { unfold string_of_runes. rewrite map_app, concat_app. cbn [map concat]. rewrite Er. by destruct (concat _). }
  set (ww := string_of_runes (q ++ [it_letter it])) in *. destruct ww as [|x wd] eqn:Ew; [done|].
  assert (take (length (x :: wd) - 1) (x :: wd) = removelast (x :: wd)) as ->.
  { rewrite removelast_firstn_len. f_equal. cbn [length]. lia. }
  unfold item_string. rewrite Er. cbn [app drop tail]. rewrite Hidd.
  assert (Hb : forall a b, bytes_of (a +:+ b) = bytes_of a ++ bytes_of b).
  { clear. intros a b. unfold bytes_of. induction a as [|x a IH]; [done|].
    change (String x a +:+ b) with (String x (a +:+ b)).
    cbn [list_ascii_of_string map app]. by rewrite IH. }
  rewrite !Hb, ?drop_0, <- ?app_assoc. done.
Qed.
(** ** C69 *)
Lemma l_C69_node : forall f load h ix line ix' i order, runs h ix -> process_input f load ix line = Reply ix' (RNode i) -> walks order (RNode i) ->
  (forall r id, ni_children i !! r = Some id -> scalar r) ->
  exists L, L ≡ₚ map_to_list (ni_children i) /\ StronglySorted Z.lt L.*1 /\
    line_text order ix (RNode i) =
      bytes_of "Node:     " ++ itoa (ni_id i) ++ [10] ++ bytes_of "Prefix:   " ++ ni_word i ++ [10] ++
      bytes_of "Parent:   " ++ itoa (ni_parent i) ++ [10] ++ bytes_of "Variants: " ++
      (if ni_variants i =? 0 then bytes_of "--------" else
         itoa (ni_variants i) ++ bytes_of "(0x" ++ hex (ni_variants i) ++ bytes_of "), " ++ itoa (lenN (ni_sets i)) ++ bytes_of " item(s): " ++
          concat (imap (fun k names => [10] ++ bytes_of "- " ++ fmt_0d 2 (N.of_nat k) ++ bytes_of ": (" ++ join_with (bytes_of ",") names ++ bytes_of ")") (ni_sets i))) ++ [10] ++ bytes_of "Children: " ++
      match L with
      | [] => bytes_of "--------" ++ [10]
      | _ => itoa (lenN L) ++ bytes_of " items:" ++ [10] ++ child_lines L
      end ++ [10].
Proof.
  intros f load h ix line ix' i order H Hp Hw Hs. pose proof (shown_facts _ _ _ _ _ _ _ H Hp) as (_ & _ & Hv & _).
  destruct (sorted_children order) as (L & HL & HS). cbn in Hw. pose proof HL as HLm. rewrite Hw in HLm.
  assert (Hall : Forall (fun p => scalar p.1) L).
  { rewrite HLm. apply Forall_forall. intros [r id] Hin. apply elem_of_map_to_list in Hin. by apply Hs in Hin. }
  assert (Hnd : NoDup L.*1). { rewrite HLm. apply NoDup_fst_map_to_list. }
  assert (Hst : StronglySorted str_le (map child_string L)).
  { rewrite <- HS. apply Sorted_StronglySorted; [intros ? ? ?; apply str_trans|]. apply Sorted_merge_sort. intros ? ?. apply str_total. }
  exists L. split; [done|]. split.
  - clear HS HL HLm. induction L as [|p L IH]; [constructor|]. cbn in *. apply Forall_cons_1 in Hall as [Hpp Hall].
    apply NoDup_cons in Hnd as [Hni Hnd]. apply StronglySorted_inv in Hst as [Hst Hf]. constructor; [by apply IH|].
    rewrite Forall_map in Hf. apply Forall_map. rewrite Forall_forall in *. intros q Hq. cbn.
    pose proof (child_order p q Hpp (Hall q Hq) (Hf q Hq)). assert (p.1 <> q.1); [|lia]. intros E. apply Hni. rewrite E. by apply elem_of_list_fmap_1.
  - assert (Ec : children_text order = bytes_of "Children: " ++ match L with [] => bytes_of "--------" ++ [10] | _ => itoa (lenN L) ++ bytes_of " items:" ++ [10] ++ child_lines L end).
    { unfold children_text. destruct L as [|p L].
      - apply Permutation_nil in HL as ->. by rewrite bool_decide_eq_true_2.
      - rewrite bool_decide_eq_false_2 by (intros ->; by apply Permutation_nil_r in HL). rewrite HS.
        assert (lenN (p :: L) = lenN order) as ->. { unfold lenN. by rewrite HL. }
        do 4 f_equal. unfold child_lines. rewrite map_map. f_equal. apply map_ext. intros x. unfold child_string. by rewrite <- !app_assoc. }
    unfold line_text, node_text. rewrite Ec. destruct (N.eqb_spec (ni_variants i) 0) as [Ez|Ez].
    + rewrite <- !app_assoc. done.
    + rewrite (Hv Ez). rewrite <- !app_assoc. done.
Qed.
