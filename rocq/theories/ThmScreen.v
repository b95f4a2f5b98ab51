(** Proofs about what the browser prints (C69). *)
From Coq Require Import ZifyBool ZifyNat ZifyN.
From Verif Require Import Base Storage Utf8 Tags TagSets Variants Items Index Cli Strconv Session Screen ScreenSpec Spec Hist
  BaseFacts Intern SpecFacts TrieFacts NoteFacts HistFacts QueryFacts Utf8Facts Numerals NumFacts ThmTrie ThmCli ThmSession.
From stdpp Require Import list gmap.
Open Scope N_scope.

(** ** Taking texts apart *)
Lemma span_split (P : N -> Prop) a b x y s t : Forall P a -> Forall P b -> ~ P x -> ~ P y ->
  a ++ x :: s = b ++ y :: t -> a = b /\ x = y /\ s = t.
Proof.
  intros Ha Hb Hx Hy. revert b Hb. induction Ha as [|c a Hc Ha IH]; intros b Hb E.
  - destruct Hb as [|d b Hd Hb]; cbn in E; [by injection E as -> ->|]. injection E as -> _. done.
  - destruct Hb as [|d b Hd Hb]; cbn in E; [by injection E as -> _|]. injection E as -> E.
    destruct (IH b Hb E) as (-> & -> & ->). done.
Qed.
Definition is_dig (c : N) : Prop := 48 <= c <= 57.
Lemma decimal_digits s n : decimal s n -> Forall is_dig s /\ s <> [].
Proof.
  induction 1 as [d Hd|s n d Hs [IH _] Hd].
  - split; [|done]. apply Forall_singleton. unfold is_dig. lia.
  - split; [|by destruct s]. apply Forall_app. split; [done|]. apply Forall_singleton. unfold is_dig. lia.
Qed.
Lemma decimal_fun s n : decimal s n -> forall m, decimal s m -> n = m.
Proof.
  induction 1 as [d Hd|s n d Hs IH Hd]; intros m Hm; inversion Hm as [d' Hd' E|s' n' d' Hs' Hd' E]; subst.
  - lia.
  - exfalso. apply decimal_digits in Hs' as [_ Hs']. destruct s' as [|c [|c' s']]; done.
  - exfalso. apply decimal_digits in Hs as [_ Hs']. destruct s as [|c [|c' s]]; done.
  - apply app_inj_tail in E as [-> E]. apply IH in Hs'. lia.
Qed.
Lemma itoa_digits n : Forall is_dig (itoa n).
Proof. apply (decimal_digits _ n), itoa_decimal. Qed.
Lemma itoa_inj n m : itoa n = itoa m -> n = m.
Proof. intros E. pose proof (itoa_decimal n) as H. rewrite E in H. exact (decimal_fun _ _ H _ (itoa_decimal m)). Qed.
Lemma itoa_cut n m x y s t : ~ is_dig x -> ~ is_dig y -> itoa n ++ x :: s = itoa m ++ y :: t -> n = m /\ x = y /\ s = t.
Proof.
  intros Hx Hy E. destruct (span_split is_dig _ _ _ _ _ _ (itoa_digits n) (itoa_digits m) Hx Hy E) as (H & -> & ->).
  by apply itoa_inj in H as ->.
Qed.
Lemma fmt_d_cut a b x y s t : ~ is_dig x -> ~ is_dig y -> fmt_d a ++ x :: s = fmt_d b ++ y :: t -> a = b /\ x = y /\ s = t.
Proof.
  intros Hx Hy. unfold fmt_d. assert (Hm : forall n s', Forall is_dig (itoa n) -> forall u, itoa n ++ s' <> 45 :: u).
  { intros n s' Hd u E. pose proof (decimal_digits _ _ (itoa_decimal n)) as [_ Hne]. destruct (itoa n) as [|c l]; [done|].
    injection E as -> _. apply Forall_cons in Hd as [Hd _]. unfold is_dig in Hd. lia. }
  destruct (Z.ltb_spec a 0), (Z.ltb_spec b 0); cbn [app]; intros E.
  - injection E as E. apply itoa_cut in E as (E & -> & ->); [|done..]. split; [lia|done].
  - exfalso. symmetry in E. by apply Hm in E; [|apply itoa_digits].
  - exfalso. by apply Hm in E; [|apply itoa_digits].
  - apply itoa_cut in E as (E & -> & ->); [|done..]. split; [lia|done].
Qed.
Lemma rune_decode r s : runes_of_string (string_of_rune r ++ s) = (if valid_rune r then r else rune_error) :: runes_of_string s.
Proof.
  unfold string_of_rune. apply Utf8Facts.decode_encode. destruct (valid_rune r) eqn:E; [by apply valid_rune_scalar|].
  by apply valid_rune_scalar.
Qed.
Lemma rune_cut a b s t : string_of_rune a ++ s = string_of_rune b ++ t -> string_of_rune a = string_of_rune b /\ s = t.
Proof.
  intros E. assert (H : string_of_rune a = string_of_rune b).
  { apply (f_equal runes_of_string) in E. rewrite !rune_decode in E. injection E as E _. unfold string_of_rune. by rewrite E. }
  split; [done|]. rewrite H in E. by apply app_inv_head in E.
Qed.
Lemma join_inj c l k : Forall (fun x => x <> [] /\ c ∉ x) l -> Forall (fun x => x <> [] /\ c ∉ x) k ->
  join_with [c] l = join_with [c] k -> l = k.
Proof.
  intros Hl. revert k. induction Hl as [|x l [Hx Hxc] Hl IH]; intros k Hk E.
  - destruct Hk as [|y k [Hy _] Hk]; [done|]. destruct k; cbn in E; [by subst|]. by destruct y.
  - destruct Hk as [|y k [Hy Hyc] Hk]; [destruct l; cbn in E; [by subst|by destruct x]|].
    assert (Hf : forall z : list N, c ∉ z -> Forall (fun d => d <> c) z).
    { intros z Hz. apply Forall_forall. by intros d Hd ->. }
    destruct l as [|x' l], k as [|y' k].
    + cbn in E. by subst.
    + exfalso. apply Hxc. cbn [join_with] in E. rewrite E. apply elem_of_app. right. by left.
    + exfalso. apply Hyc. cbn [join_with] in E. rewrite <- E. apply elem_of_app. right. by left.
    + change (x ++ c :: join_with [c] (x' :: l) = y ++ c :: join_with [c] (y' :: k)) in E.
      apply (span_split (fun d => d <> c)) in E as (-> & _ & E'); [|by apply Hf|by apply Hf|exact (fun H => H eq_refl)|exact (fun H => H eq_refl)].
      f_equal. by apply IH.
Qed.
Lemma join_Forall (P : N -> Prop) sep l : Forall P sep -> Forall (Forall P) l -> Forall P (join_with sep l).
Proof.
  intros Hs. induction 1 as [|x l Hx Hl IH]; [constructor|]. destruct l as [|y l]; [exact Hx|]. cbn [join_with].
  apply Forall_app. split; [done|]. by apply Forall_app.
Qed.

(** ** Sorting strings *)
Lemma str_refl a : str_leb a a = true.
Proof. induction a as [|x a IH]; [done|]. cbn. rewrite IH, N.eqb_refl. by rewrite orb_true_r. Qed.
Lemma str_total a b : str_leb a b = true \/ str_leb b a = true.
Proof.
  revert b. induction a as [|x a IH]; intros b; [by left|]. destruct b as [|y b]; [by right|]. cbn.
  destruct (IH b); destruct (N.ltb_spec x y), (N.ltb_spec y x), (N.eqb_spec x y), (N.eqb_spec y x); cbn; try lia; auto.
Qed.
Lemma str_trans a b c : str_leb a b = true -> str_leb b c = true -> str_leb a c = true.
Proof.
  revert b c. induction a as [|x a IH]; intros b c; [done|]. destruct b as [|y b]; [done|]. destruct c as [|z c]; [done|]. cbn.
  intros H1 H2. apply orb_true_iff in H1, H2. apply orb_true_iff. rewrite andb_true_iff in *.
  destruct H1 as [H1|[H1 H1']], H2 as [H2|[H2 H2']]; [left; lia..|]. right. split; [lia|]. by eapply IH.
Qed.
Lemma str_antisym a b : str_leb a b = true -> str_leb b a = true -> a = b.
Proof.
  revert b. induction a as [|x a IH]; intros b; [by destruct b|]. destruct b as [|y b]; [done|]. cbn.
  intros H1 H2. apply orb_true_iff in H1, H2. rewrite andb_true_iff in *.
  destruct H1 as [H1|[H1 H1']], H2 as [H2|[H2 H2']]; [lia..|]. f_equal; [lia|]. by apply IH.
Qed.
Global Instance str_le_trans : Transitive str_le.
Proof. intros a b c. apply str_trans. Qed.
Global Instance str_le_total : Total str_le.
Proof. intros a b. apply str_total. Qed.
Lemma sort_strings_unique l k : Sorted str_le k -> k ≡ₚ l -> k = sort_strings l.
Proof.
  intros Hk Hp. assert (Anti : AntiSymm (=) str_le) by (intros a b; apply str_antisym).
  apply (Sorted_unique str_le); [done|apply Sorted_merge_sort, _|]. unfold sort_strings. by rewrite merge_sort_Permutation.
Qed.
Lemma sort_strings_perm l k : l ≡ₚ k -> sort_strings l = sort_strings k.
Proof.
  intros H. apply sort_strings_unique; [apply Sorted_merge_sort, _|]. unfold sort_strings. by rewrite merge_sort_Permutation.
Qed.
Lemma sorted_children o : exists L, L ≡ₚ o /\ sort_strings (map child_string o) = map child_string L.
Proof.
  assert (H : sort_strings (map child_string o) ≡ₚ map child_string o) by (unfold sort_strings; by rewrite merge_sort_Permutation).
  apply Permutation_map_inv in H as (L & E & HL).
  exists L. split; [by symmetry|done].
Qed.

(** ** The order of the map does not show *)
Lemma children_text_order o o' : o ≡ₚ o' -> children_text o = children_text o'.
Proof.
  intros H. unfold children_text. rewrite (sort_strings_perm (map child_string o) (map child_string o')) by by rewrite H.
  assert (E : bool_decide (o = []) = bool_decide (o' = [])).
  { apply bool_decide_ext. split; intros ->; [by apply Permutation_nil_l in H|by apply Permutation_nil_r in H]. }
  rewrite E. unfold lenN. by rewrite (Permutation_length H).
Qed.
Lemma node_text_order o o' i : o ≡ₚ o' -> node_text o i = node_text o' i.
Proof. intros H. unfold node_text. by rewrite (children_text_order o o'). Qed.
Lemma l_C69_order : forall ix r o o', walks o r -> walks o' r -> line_text o ix r = line_text o' ix r.
Proof.
  intros ix r o o'. destruct r as [| | | | | | | |i| |]; try reflexivity. unfold walks, line_text. intros H H'. rewrite (node_text_order o o'); [done|]. by rewrite H, H'.
Qed.

(** ** A node is shown unambiguously *)
Definition plain_info (i : node_info) : Prop :=
  10 ∉ ni_word i /\ Forall (Forall clear_name) (ni_sets i) /\ (ni_variants i = 0 -> ni_sets i = []).
Lemma child_cut p q s t : child_string p ++ 10 :: s = child_string q ++ 10 :: t -> p = q /\ s = t.
Proof.
  destruct p as [a n], q as [b m]. unfold child_string. cbn [fst snd]. rewrite <- !app_assoc. intros E.
  apply rune_cut in E as [Er E]. change (bytes_of "[") with [91] in E. cbn [app] in E. injection E as E.
  change (bytes_of "]: ") with [93; 58; 32] in E. cbn [app] in E.
  apply fmt_d_cut in E as (-> & _ & E); [|unfold is_dig; lia..]. injection E as E.
  apply itoa_cut in E as (-> & _ & ->); [done|unfold is_dig; lia..].
Qed.
Lemma children_cut L K s t : concat (map (fun x => bytes_of "- " ++ x ++ [10]) (map child_string L)) ++ 10 :: s =
  concat (map (fun x => bytes_of "- " ++ x ++ [10]) (map child_string K)) ++ 10 :: t -> L = K /\ s = t.
Proof.
  revert K. induction L as [|p L IH]; intros [|q K]; cbn [map concat].
  - intros E. by injection E.
  - intros E. done.
  - intros E. done.
  - intros E. rewrite <- !app_assoc in E. apply app_inv_head in E. cbn [app] in E. apply child_cut in E as [-> E].
    apply IH in E as [-> ->]. done.
Qed.
Lemma sets_cut k S1 S2 s t : Forall (Forall clear_name) S1 -> Forall (Forall clear_name) S2 ->
  concat (imap (fun i => set_entry (k + i)) S1) ++ 10 :: 67 :: s = concat (imap (fun i => set_entry (k + i)) S2) ++ 10 :: 67 :: t ->
  S1 = S2 /\ s = t.
Proof.
  intros H1. revert k S2. induction H1 as [|n1 S1 Hn1 H1 IH]; intros k S2 H2; destruct H2 as [|n2 S2 Hn2 H2]; cbn [imap concat].
  - intros E. by injection E.
  - intros E. done.
  - intros E. done.
  - intros E. rewrite <- !app_assoc in E. unfold set_entry at 1 3 in E. rewrite <- !app_assoc in E. do 3 apply app_inv_head in E.
    assert (Hj : forall l, Forall clear_name l -> Forall (fun c => c <> 10) (join_with (bytes_of ",") l ++ bytes_of ")")).
    { intros l Hl. apply Forall_app. split; [|by repeat constructor]. apply join_Forall; [by repeat constructor|].
      eapply Forall_impl; [exact Hl|]. intros x (_ & Hx & _). apply Forall_forall. by intros c Hc ->. }
    assert (Ht : forall k0 S0 u, exists u', concat (imap (fun i => set_entry (k0 + i)) S0) ++ 10 :: 67 :: u = 10 :: u').
    { intros k0 S0 u. destruct S0 as [|n0 S0]; cbn; by eexists. }
    assert (Hs : forall S0, imap ((fun i => set_entry (k + i)) ∘ S) S0 = imap (fun i => set_entry (S k + i)) S0).
    { intros S0. apply imap_ext. intros i x _. unfold compose. by rewrite Nat.add_succ_r. }
    rewrite !Hs in E. specialize (IH (S k) S2 H2).
    destruct (Ht (S k) S1 s) as [u1 E1], (Ht (S k) S2 t) as [u2 E2]. rewrite E1, E2 in IH. rewrite E1, E2 in E.
    rewrite !app_assoc in E.
    apply (span_split (fun c => c <> 10)) in E as (E & _ & Eu); [|by apply Hj|by apply Hj|exact (fun H => H eq_refl)|exact (fun H => H eq_refl)].
    apply app_inv_tail in E. apply join_inj in E as ->;
      [|eapply Forall_impl; [eassumption|]; by intros x (? & ? & ?)..].
    subst u2. destruct (IH eq_refl) as [-> ->]. done.
Qed.
Lemma dash_itoa n u v : 45 :: u <> itoa n ++ v.
Proof.
  intros E'. pose proof (itoa_digits n) as Hd. destruct (decimal_digits _ _ (itoa_decimal n)) as [_ Hne].
  destruct (itoa n) as [|c l]; [done|]. injection E' as <- _. apply Forall_cons in Hd as [Hd _]. unfold is_dig in Hd. lia.
Qed.
Lemma children_head o : exists u, children_text o = 67 :: u.
Proof. unfold children_text. destruct (bool_decide (o = [])); by eexists. Qed.
Lemma children_text_inj o o' : children_text o ++ [10] = children_text o' ++ [10] -> o ≡ₚ o'.
Proof.
  unfold children_text. intros E.
  destruct (bool_decide_reflect (o = [])) as [Eo|Hn1]; destruct (bool_decide_reflect (o' = [])) as [Eo'|Hn2]; [by subst| | |].
  - exfalso. rewrite <- !app_assoc in E. change (bytes_of "Children: --------") with (bytes_of "Children: " ++ 45 :: bytes_of "-------") in E.
    rewrite <- app_assoc in E. apply app_inv_head in E. cbn [app] in E. by apply dash_itoa in E.
  - exfalso. rewrite <- !app_assoc in E. change (bytes_of "Children: --------") with (bytes_of "Children: " ++ 45 :: bytes_of "-------") in E.
    rewrite <- app_assoc in E. apply app_inv_head in E. cbn [app] in E. symmetry in E. by apply dash_itoa in E.
  - destruct (sorted_children o) as (L & HL & EL), (sorted_children o') as (K & HK & EK). rewrite EL, EK in E.
    rewrite <- !app_assoc in E. apply app_inv_head in E. change (bytes_of " items:") with (32 :: bytes_of "items:") in E. cbn [app] in E.
    apply itoa_cut in E as (_ & _ & E); [|unfold is_dig; lia..]. apply app_inv_head in E. injection E as E.
    apply children_cut in E as [-> _]. by rewrite <- HL, <- HK.
Qed.
Lemma node_text_inj o o' i j : o ≡ₚ map_to_list (ni_children i) -> o' ≡ₚ map_to_list (ni_children j) ->
  plain_info i -> plain_info j -> node_text o i ++ [10] = node_text o' j ++ [10] -> i = j.
Proof.
  intros Ho Ho' (Hwi & Hni & Hvi) (Hwj & Hnj & Hvj). unfold node_text. rewrite <- !app_assoc.
  destruct i as [id1 w1 p1 v1 S1 C1], j as [id2 w2 p2 v2 S2 C2].
  cbn [ni_id ni_word ni_parent ni_variants ni_sets ni_children] in *. intros E.
  assert (Hnd : ~ is_dig 10) by (unfold is_dig; lia).
  assert (HC : children_text o ++ [10] = children_text o' ++ [10] -> C1 = C2).
  { intros Ec. apply children_text_inj in Ec. apply (map_to_list_inj C1 C2). by rewrite <- Ho, <- Ho'. }
  apply app_inv_head in E. cbn [app] in E. apply itoa_cut in E as (-> & _ & E); [|exact Hnd|exact Hnd].
  apply app_inv_head in E.
  apply (span_split (fun c => c <> 10)) in E as (-> & _ & E);
    [|apply Forall_forall; intros c Hc Ec; subst c; exact (Hwi Hc)|apply Forall_forall; intros c Hc Ec; subst c; exact (Hwj Hc)
     |exact (fun H => H eq_refl)|exact (fun H => H eq_refl)].
  apply app_inv_head in E. apply itoa_cut in E as (-> & _ & E); [|exact Hnd|exact Hnd].
  destruct (N.eqb_spec v1 0) as [->|Hv1], (N.eqb_spec v2 0) as [->|Hv2].
  - rewrite <- !app_assoc in E. do 2 apply app_inv_head in E. rewrite Hvi, Hvj by done. by rewrite HC.
  - exfalso. change (bytes_of "Variants: --------") with (bytes_of "Variants: " ++ 45 :: bytes_of "-------") in E.
    rewrite <- !app_assoc in E. apply app_inv_head in E. cbn [app] in E. by apply dash_itoa in E.
  - exfalso. change (bytes_of "Variants: --------") with (bytes_of "Variants: " ++ 45 :: bytes_of "-------") in E.
    rewrite <- !app_assoc in E. apply app_inv_head in E. cbn [app] in E. symmetry in E. by apply dash_itoa in E.
  - rewrite <- !app_assoc in E. apply app_inv_head in E. change (bytes_of "(0x") with (40 :: bytes_of "0x") in E. cbn [app] in E.
    apply itoa_cut in E as (-> & _ & E); [|unfold is_dig; lia..]. do 5 apply app_inv_head in E.
    destruct (children_head o) as [u1 Eu1], (children_head o') as [u2 Eu2].
    rewrite Eu1, Eu2 in E. cbn [app] in E.
    destruct (sets_cut 0 S1 S2 (u1 ++ [10]) (u2 ++ [10]) Hni Hnj) as [-> Eu]; [exact E|].
    rewrite HC; [done|]. rewrite Eu1, Eu2. cbn [app]. by rewrite Eu.
Qed.

(** ** What the nodes of a history show *)
Lemma plain_tags ix col : Forall (fun t => clear_name (tag_name t)) (ix_tags ix) ->
  Forall (fun k => exists s, tagset_get (ix_sets ix) k = Some s /\ Forall (fun t => t < lenN (ix_tags ix)) s) col ->
  Forall (Forall clear_name) (map (map tag_name) (resolve_sets ix col)).
Proof.
  intros Ht. induction 1 as [|k col (s & Hs & Hb) _ IH]; [constructor|]. cbn [resolve_sets]. rewrite Hs. cbn [map]. constructor; [|done].
  apply Forall_forall. intros n Hn. apply elem_of_list_In, in_map_iff in Hn as (t & <- & Hn). apply in_map_iff in Hn as (x & <- & Hn).
  eapply Forall_forall in Hb; [|by apply elem_of_list_In]. unfold tags_get. destruct (N.leb_spec (lenN (ix_tags ix)) x); [lia|].
  destruct (lookup_lt_is_Some_2 (ix_tags ix) (N.to_nat x)) as [t Et]; [unfold lenN in *; lia|]. rewrite Et. cbn. by eapply Forall_lookup_1 in Ht.
Qed.
Lemma node_reply f load ix line ix' i : process_input f load ix line = Reply ix' (RNode i) ->
  exists id, index_get ix id = Ok id /\ (show_node ix id).2 = Ok i.
Proof.
  unfold process_input. intros H.
  assert (HR : forall A a (g : A -> reply) r, (forall x, g x <> RNode i) -> reply_res a g r <> Reply ix' (RNode i)).
  { intros A a g r Hg E. destruct r; cbn in E; [|done|done]. injection E as _ E. by apply Hg in E. }
  destruct (is_cmd "tag" "t" _).
  { exfalso. unfold process_tag in H. destruct (split_space line) as [|? [|? [|? ?]]]; try done. destruct (bool_decide _); [done|].
    destruct (atoi _) as [n|]; [by apply HR in H|]. by destruct (find_tag _ _ _) as [[? ?]|]. }
  destruct (is_cmd "set" "s" _).
  { exfalso. unfold process_set in H. destruct (split_space line) as [|? [|? rest]]; try done. destruct (bool_decide _); [done|]. destruct (bool_decide _).
    - destruct rest as [|? [|? ?]]; try done. destruct (atoi _) as [n|]; [by apply HR in H|done].
    - destruct (parse_int0 _) as [n|]; [by apply HR in H|done]. }
  destruct (is_cmd "node" "n" _).
  { unfold process_node in H. destruct (split_space line) as [|? [|arg rest]]; try done. destruct (bool_decide _); [done|].
    destruct rest; [|done]. assert (HG : forall a id j, index_get a id = Ok j -> j = id).
    { intros a id j. unfold index_get. destruct (its_next _ <=? id); [done|]. by intros [= <-]. }
    destruct (atoi arg) as [n|].
    - unfold cmd_node in H. destruct (_ <=? n)%Z; [done|]. destruct (index_get ix (to_u32 n)) as [id| |] eqn:Eg; [|done|done].
      pose proof (HG _ _ _ Eg) as ->. exists (to_u32 n). split; [done|]. destruct (show_node ix (to_u32 n)) as [a1 [j| |]]; [|done|done]. by injection H as _ ->.
    - unfold cmd_node_word in H. pose proof (item_same ix (runes_of_string arg)) as S.
      destruct (fetch_item_from_parent ix 0 (runes_of_string arg)) as [ix1 [id| |]] eqn:Ef; [|done|done]. cbn [fst] in S.
      destruct (index_get ix1 id) as [id'| |] eqn:Eg; [|done|done]. pose proof (HG _ _ _ Eg) as ->.
      exists id. split; [by rewrite <- (get_cong _ _ id S)|]. rewrite <- (show_cong ix1 ix id S).
      destruct (show_node ix1 id) as [a1 [j| |]]; [|done|done]. by injection H as _ ->. }
  destruct (is_cmd "var" "v" _).
  { exfalso. unfold process_var in H. destruct (split_space line) as [|? [|arg rest]]; try done. destruct (parse_u32 arg) as [n|]; [|done]. by apply HR in H. }
  destruct (is_cmd "reload" "r" _); [by destruct load|]. destruct (is_cmd "exit" "e" _); [done|].
  destruct (cmd_search ix line) as [a r]. by apply HR in H.
Qed.
Lemma shown_facts f load h ix line ix' i : runs h ix -> process_input f load ix line = Reply ix' (RNode i) ->
  (exists w, w ∈ d_words (d_run h) /\ ni_word i = string_of_runes w) /\
  (ni_variants i = 0 -> ni_sets i = []) /\ (ni_variants i <> 0 -> id32_upper (ni_variants i) = lenN (ni_sets i)) /\
  (Forall (fun t => clear_name (tag_name t)) (ix_tags ix) -> Forall (Forall clear_name) (ni_sets i)).
Proof.
  intros H Hp. apply node_reply in Hp as (id & Hg & Hs). destruct (l_C36_get_iff h ix id H) as [Hi _].
  apply Hi in Hg. destruct (decide (id = 0)) as [->|Hz]; [done|].
  destruct (id_word h ix H id Hz Hg) as (k & w & -> & Hw). destruct (show_node_ok h ix H k w Hw) as (it & ts & Hit & Hts & Hs' & _).
  rewrite Hs in Hs'. injection Hs' as ->. cbn [ni_word ni_variants ni_sets]. split; [exists w; split; [by eapply elem_of_list_lookup_2|done]|].
  destruct (runs_R h ix H) as (ld & Hld & T & A). destruct (node_variants T A k w Hw) as (it' & Hget & _ & Hv). rewrite Hget in Hit. injection Hit as <-.
  unfold node_tag_sets, get_item in Hts. rewrite Hget in Hts. cbn [mbind res_bind] in Hts.
  destruct Hv as [[Hv _]|(col & Hg' & _)].
  - rewrite Hv in *. cbn in Hts. injection Hts as <-. cbn. done.
  - rewrite (good_col_get _ _ _ Hg') in Hts. cbn [mbind res_bind] in Hts. injection Hts as <-.
    destruct (a_col_ids _ _ A _ _ _ (proj2 (proj2 Hg'))) as [_ Hfa]. split; [|split].
    + intros E0. exfalso. exact (good_col_nz _ _ _ Hg' E0).
    + intros _. rewrite <- (good_col_len _ _ _ (a_cols _ _ A) Hg'). rewrite resolve_sets_good by done. unfold lenN. by rewrite !map_length.
    + intros Ht. apply plain_tags; [done|]. eapply Forall_impl; [exact Hfa|]. intros x (s & _ & Hx). exists s. split; [done|].
      rewrite tagset_get_at2 in Hx. eapply Forall_impl; [by eapply (a_set_ids _ _ A)|]. cbn. intros t Ht'. rewrite (a_tags _ _ A). unfold lenN in *. by rewrite map_length.
Qed.
Lemma l_C69_items : forall f load h ix line ix' i, runs h ix -> process_input f load ix line = Reply ix' (RNode i) ->
  ni_variants i <> 0 -> id32_upper (ni_variants i) = lenN (ni_sets i).
Proof. intros f load h ix line ix' i H Hp. by apply (shown_facts _ _ _ _ _ _ _ H Hp). Qed.
Lemma l_C69_unique : forall f1 load1 h1 ix1 line1 ix1' i1 o1 f2 load2 h2 ix2 line2 ix2' i2 o2,
  runs h1 ix1 -> process_input f1 load1 ix1 line1 = Reply ix1' (RNode i1) -> walks o1 (RNode i1) ->
  runs h2 ix2 -> process_input f2 load2 ix2 line2 = Reply ix2' (RNode i2) -> walks o2 (RNode i2) ->
  Forall (fun t => clear_name (tag_name t)) (ix_tags ix1) -> Forall (fun t => clear_name (tag_name t)) (ix_tags ix2) ->
  10 ∉ ni_word i1 -> 10 ∉ ni_word i2 ->
  line_text o1 ix1 (RNode i1) = line_text o2 ix2 (RNode i2) -> i1 = i2.
Proof.
  intros f1 load1 h1 ix1 line1 ix1' i1 o1 f2 load2 h2 ix2 line2 ix2' i2 o2 H1 P1 W1 H2 P2 W2 T1 T2 N1 N2 E.
  destruct (shown_facts _ _ _ _ _ _ _ H1 P1) as (_ & Z1 & _ & Q1). destruct (shown_facts _ _ _ _ _ _ _ H2 P2) as (_ & Z2 & _ & Q2).
  apply (node_text_inj o1 o2); [done|done| | |exact E]; (split; [done|]); split; auto.
Qed.
(** ** The order of the children *)
Lemma str_lt_cons x y s t : y < x \/ (x = y /\ str_leb s t = false) -> str_leb (x :: s) (y :: t) = false.
Proof.
  cbn [str_leb]. intros [H|[-> H]].
  - destruct (N.ltb_spec x y); [lia|]. by destruct (N.eqb_spec x y); [lia|].
  - by rewrite N.ltb_irrefl, N.eqb_refl.
Qed.
Lemma dig_eqs a : (0 <= a)%Z -> exists a0 a1 a2 a3, (a = 262144 * a3 + 4096 * a2 + 64 * a1 + a0 /\ 0 <= a0 < 64 /\ 0 <= a1 < 64 /\ 0 <= a2 < 64 /\ 0 <= a3 /\
  a mod 64 = a0 /\ a / 64 mod 64 = a1 /\ a / 4096 mod 64 = a2 /\ a / 262144 = a3 /\ a / 64 = a1 + 64 * a2 + 4096 * a3 /\ a / 4096 = a2 + 64 * a3)%Z.
Proof.
  intros Ha. exists (a mod 64)%Z, (a / 64 mod 64)%Z, (a / 4096 mod 64)%Z, (a / 262144)%Z.
  Z.div_mod_to_equations. lia.
Qed.
Lemma enc_order a b s t : scalar a -> scalar b -> (a < b)%Z -> str_leb (encode_scalar b ++ s) (encode_scalar a ++ t) = false.
Proof.
  unfold scalar, encode_scalar. intros Ha Hb Hl.
  destruct (dig_eqs a) as (a0 & a1 & a2 & a3 & A); [lia|]. destruct (dig_eqs b) as (b0 & b1 & b2 & b3 & B); [lia|].
  destruct A as (A & ? & ? & ? & ? & -> & -> & -> & -> & -> & ->). destruct B as (B & ? & ? & ? & ? & -> & -> & -> & -> & -> & ->).
  destruct (Z.ltb_spec a 128), (Z.ltb_spec b 128); try lia.
  all: try (destruct (Z.ltb_spec a 2048)); try (destruct (Z.ltb_spec b 2048)); try lia.
  all: try (destruct (Z.ltb_spec a 65536)); try (destruct (Z.ltb_spec b 65536)); try lia.
  all: cbn [map app].
  all: apply str_lt_cons.
  all: try (left; lia).
  all: match goal with |- ?x < ?y \/ _ => destruct (decide (x < y)); [by left|right; split; [lia|]] end.
  all: apply str_lt_cons.
  all: try (left; lia).
  all: match goal with |- ?x < ?y \/ _ => destruct (decide (x < y)); [by left|right; split; [lia|]] end.
  all: apply str_lt_cons.
  all: try (left; lia).
  all: match goal with |- ?x < ?y \/ _ => destruct (decide (x < y)); [by left|right; split; [lia|]] end.
  all: apply str_lt_cons; left; lia.
Qed.
Lemma scalar_valid r : scalar r -> valid_rune r = true.
Proof. unfold scalar, valid_rune. lia. Qed.
Lemma child_order p q : scalar p.1 -> scalar q.1 -> str_le (child_string p) (child_string q) -> (p.1 <= q.1)%Z.
Proof.
  unfold str_le, child_string, string_of_rune. intros Hp Hq. rewrite (scalar_valid _ Hp), (scalar_valid _ Hq). intros H.
  destruct (decide (p.1 <= q.1)%Z); [done|]. rewrite enc_order in H; [done|done|done|lia].
Qed.
Lemma node_split i : exists pre, forall o, node_text o i = pre ++ children_text o.
Proof. eexists. intros o. unfold node_text. rewrite !app_assoc. reflexivity. Qed.
Lemma l_C69_children : forall i order, order ≡ₚ map_to_list (ni_children i) -> ni_children i <> ∅ ->
  (forall r id, ni_children i !! r = Some id -> scalar r) ->
  exists L pre, L ≡ₚ map_to_list (ni_children i) /\ StronglySorted Z.lt L.*1 /\
    node_text order i = pre ++ bytes_of "Children: " ++ itoa (lenN L) ++ bytes_of " items:" ++ [10] ++ child_lines L.
Proof.
  intros i order Ho Hne Hsc. destruct (sorted_children order) as (L & HL & HS). pose proof HL as HLm. rewrite Ho in HLm.
  assert (Hall : Forall (fun p => scalar p.1) L).
  { rewrite HLm. apply Forall_forall. intros [r id] Hin. apply elem_of_map_to_list in Hin. by apply Hsc in Hin. }
  assert (Hnd : NoDup L.*1). { rewrite HLm. apply NoDup_fst_map_to_list. }
  assert (Hst : StronglySorted str_le (map child_string L)).
  { rewrite <- HS. apply Sorted_StronglySorted; [intros ? ? ?; apply str_trans|]. apply Sorted_merge_sort. intros ? ?. apply str_total. }
  destruct (node_split i) as [pre Hpre]. exists L, pre. split; [done|]. split.
  - clear HS HL HLm. induction L as [|p L IH]; [constructor|]. cbn in *. apply Forall_cons_1 in Hall as [Hp Hall].
    apply NoDup_cons in Hnd as [Hni Hnd]. apply StronglySorted_inv in Hst as [Hst Hf]. constructor; [by apply IH|].
    rewrite Forall_map in Hf. apply Forall_map. rewrite Forall_forall in *. intros q Hq. cbn.
    pose proof (child_order p q Hp (Hall q Hq) (Hf q Hq)). assert (p.1 <> q.1); [|lia]. intros E. apply Hni. rewrite E. by apply elem_of_list_fmap_1.
  - rewrite Hpre. f_equal. unfold children_text. rewrite bool_decide_eq_false_2.
    2:{ intros ->. apply Hne. apply map_to_list_empty_iff. by apply Permutation_nil. }
    rewrite HS. assert (lenN L = lenN order) as ->. { unfold lenN. by rewrite HL. }
    do 4 f_equal. unfold child_lines. rewrite map_map. f_equal. apply map_ext. intros p. unfold child_string.
    by rewrite <- !app_assoc.
Qed.
(** ** Sets and variants *)
Lemma set_reply f load ix line ix' n names : process_input f load ix line = Reply ix' (RSet n names) -> cmd_set ix n = Ok names.
Proof.
  unfold process_input. intros H.
  assert (HR : forall A a (g : A -> reply) r, (forall x, g x <> RSet n names) -> reply_res a g r <> Reply ix' (RSet n names)).
  { intros A a g r Hg E. destruct r; cbn in E; [|done|done]. injection E as _ E. by apply Hg in E. }
  destruct (is_cmd "tag" "t" _).
  { exfalso. unfold process_tag in H. destruct (split_space line) as [|? [|? [|? ?]]]; try done. destruct (bool_decide _); [done|].
    destruct (atoi _) as [m|]; [by apply HR in H|]. by destruct (find_tag _ _ _) as [[? ?]|]. }
  destruct (is_cmd "set" "s" _).
  { unfold process_set in H. destruct (split_space line) as [|? [|? rest]]; try done. destruct (bool_decide _); [done|]. destruct (bool_decide _).
    - destruct rest as [|? [|? ?]]; try done. destruct (atoi _) as [m|]; [by apply HR in H|done].
    - destruct (parse_int0 _) as [m|]; [|done]. destruct (cmd_set ix m) as [res0| |] eqn:E; [|done|done]. by injection H as _ -> ->. }
  destruct (is_cmd "node" "n" _).
  { exfalso. unfold process_node in H. destruct (split_space line) as [|? [|arg rest]]; try done. destruct (bool_decide _); [done|].
    destruct rest; [|done]. destruct (match atoi arg with None => _ | Some _ => _ end) as [a r]. by apply HR in H. }
  destruct (is_cmd "var" "v" _).
  { exfalso. unfold process_var in H. destruct (split_space line) as [|? [|arg rest]]; try done. destruct (parse_u32 arg) as [m|]; [|done]. by apply HR in H. }
  destruct (is_cmd "reload" "r" _); [by destruct load|]. destruct (is_cmd "exit" "e" _); [done|].
  destruct (cmd_search ix line) as [a r]. by apply HR in H.
Qed.
Lemma var_reply f load ix line ix' id sets : process_input f load ix line = Reply ix' (RVar id sets) -> cmd_var ix id = Ok sets /\ id < 4294967296.
Proof.
  unfold process_input. intros H.
  assert (HR : forall A a (g : A -> reply) r, (forall x, g x <> RVar id sets) -> reply_res a g r <> Reply ix' (RVar id sets)).
  { intros A a g r Hg E. destruct r; cbn in E; [|done|done]. injection E as _ E. by apply Hg in E. }
  destruct (is_cmd "tag" "t" _).
  { exfalso. unfold process_tag in H. destruct (split_space line) as [|? [|? [|? ?]]]; try done. destruct (bool_decide _); [done|].
    destruct (atoi _) as [m|]; [by apply HR in H|]. by destruct (find_tag _ _ _) as [[? ?]|]. }
  destruct (is_cmd "set" "s" _).
  { exfalso. unfold process_set in H. destruct (split_space line) as [|? [|? rest]]; try done. destruct (bool_decide _); [done|]. destruct (bool_decide _).
    - destruct rest as [|? [|? ?]]; try done. destruct (atoi _) as [m|]; [by apply HR in H|done].
    - destruct (parse_int0 _) as [m|]; [by apply HR in H|done]. }
  destruct (is_cmd "node" "n" _).
  { exfalso. unfold process_node in H. destruct (split_space line) as [|? [|arg rest]]; try done. destruct (bool_decide _); [done|].
    destruct rest; [|done]. destruct (match atoi arg with None => _ | Some _ => _ end) as [a r]. by apply HR in H. }
  destruct (is_cmd "var" "v" _).
  { unfold process_var in H. destruct (split_space line) as [|? [|arg rest]]; try done. destruct (parse_u32 arg) as [m|] eqn:Ep; [|done].
    destruct (cmd_var ix m) as [res0| |] eqn:E; [|done|done]. injection H as _ -> ->. split; [done|].
    apply parse_u32_spec in Ep as [_ Ep]. exact Ep. }
  exfalso. destruct (is_cmd "reload" "r" _); [by destruct load|]. destruct (is_cmd "exit" "e" _); [done|].
  destruct (cmd_search ix line) as [a r]. by apply HR in H.
Qed.
Lemma known_tags tags ids : Forall (fun t => t < lenN tags) ids -> exists ns,
  map (fun t => option_map tag_name (tags_get tags t)) ids = map Some ns /\
  forall bad, map (fun t => match tags_get tags t with Some x => tag_name x | None => bad t end) ids = ns.
Proof.
  induction 1 as [|t ids Ht _ (ns & IH & IH')]; [by exists []|].
  destruct (tags_get tags t) as [x|] eqn:Ex.
  - exists (tag_name x :: ns). cbn [map]. rewrite Ex. cbn. split; [by f_equal|]. intros bad. by rewrite IH'.
  - exfalso. unfold tags_get in Ex. destruct (N.leb_spec (lenN tags) t); [lia|]. apply lookup_ge_None in Ex. unfold lenN in *. lia.
Qed.
Lemma set_ids_known h ix k ids : runs h ix -> tagset_get (ix_sets ix) k = Some ids -> Forall (fun t => t < lenN (ix_tags ix)) ids.
Proof.
  intros H Hk. destruct (runs_R h ix H) as (ld & Hld & T & A). rewrite tagset_get_at2 in Hk.
  rewrite (a_tags _ _ A). unfold lenN. rewrite map_length. by eapply (a_set_ids _ _ A).
Qed.
Lemma l_C69_set : forall f load h ix line ix' n names order, runs h ix -> process_input f load ix line = Reply ix' (RSet n names) ->
  exists ns, names = map Some ns /\
    line_text order ix (RSet n names) = bytes_of "set." ++ fmt_d n ++ bytes_of "(0x" ++ fmt_X n ++ bytes_of "): " ++ join_with (bytes_of ", ") ns ++ [10].
Proof.
  intros f load h ix line ix' n names order H Hp. apply set_reply in Hp. unfold cmd_set in Hp. cbn [line_text].
  destruct (tagset_get (ix_sets ix) (to_u32 n)) as [ids|] eqn:Ek; [|done]. injection Hp as <-.
  destruct (known_tags _ _ (set_ids_known _ _ _ _ H Ek)) as (ns & E1 & E2). exists ns. split; [done|].
  unfold line_text. rewrite Ek. unfold set_text. pose proof (E2 (fun t => bytes_of "[" ++ itoa t ++ bytes_of "]!!!NOT_FOUND!!!")) as E3. cbv beta in E3. rewrite E3. by rewrite <- !app_assoc.
Qed.
Lemma l_C69_var : forall f load h ix line ix' id sets order, runs h ix -> process_input f load ix line = Reply ix' (RVar id sets) ->
  exists col nss, sets = map (fun ns => Some (map Some ns)) nss /\ length col = length nss /\
    line_text order ix (RVar id sets) = bytes_of "variant: " ++ itoa id ++ bytes_of ": [" ++ join_with (bytes_of " ") (map itoa col) ++ bytes_of "]" ++
      concat (imap (fun i (p : N * list (list N)) => [10] ++ bytes_of "- " ++ fmt_0d 2 (N.of_nat i) ++ bytes_of ": " ++ fmt_0d 3 p.1 ++
                      bytes_of ": TS" ++ fmt_0d 3 p.1 ++ bytes_of ": " ++ join_with (bytes_of ",") p.2) (zip col nss)) ++ [10; 10].
Proof.
  intros f load h ix line ix' id sets order H Hp. apply var_reply in Hp as [Hp Hid]. unfold cmd_var in Hp. cbn [line_text].
  destruct (variants_get (ix_cols ix) id) as [col| |] eqn:Ec; [|done|done]. cbn [mbind res_bind] in Hp. injection Hp as <-.
  assert (Hk : Forall (fun k => exists s, tagset_get (ix_sets ix) k = Some s /\ Forall (fun t => t < lenN (ix_tags ix)) s) col).
  { rewrite variants_get_at2 in Ec. destruct (_ =? 0) eqn:E0; [by injection Ec as <-; constructor|].
    destruct (at2 _ _ _) as [c|] eqn:E; [|done]. injection Ec as ->. destruct (runs_R h ix H) as (ld & Hld & T & A).
    destruct (a_col_ids _ _ A _ _ _ E) as [_ Hf]. eapply Forall_impl; [exact Hf|]. intros k (s & _ & Hs). exists s. split; [done|].
    by eapply set_ids_known. }
  assert (exists nss, map (fun k => option_map (map (fun t => option_map tag_name (tags_get (ix_tags ix) t))) (tagset_get (ix_sets ix) k)) col =
      map (fun ns => Some (map Some ns)) nss /\ length col = length nss /\
      forall j, imap (fun i => var_entry (ix_tags ix) (ix_sets ix) (j + i)) col =
        imap (fun i (p : N * list (list N)) => [10] ++ bytes_of "- " ++ fmt_0d 2 (N.of_nat (j + i)) ++ bytes_of ": " ++ fmt_0d 3 p.1 ++
                      bytes_of ": TS" ++ fmt_0d 3 p.1 ++ bytes_of ": " ++ join_with (bytes_of ",") p.2) (zip col nss)) as (nss & E1 & El & E2).
  { clear Ec. induction Hk as [|k col (s & Hs & Hin) Hk (nss & IH1 & IHl & IH2)]; [by exists []|].
    destruct (known_tags _ _ Hin) as (ns & K1 & K2). exists (ns :: nss). split; [cbn [map]; rewrite Hs; cbn; by rewrite IH1, K1|]. split; [cbn; lia|].
    intros j. cbn [zip zip_with]. rewrite !imap_cons. f_equal.
    - unfold var_entry. rewrite Hs. pose proof (K2 (fun _ => bytes_of "!!!NOT FOUND!!!")) as K3. cbv beta in K3. rewrite K3. reflexivity.
    - etransitivity; [|etransitivity; [exact (IH2 (S j))|]]; apply imap_ext; intros i x _; unfold compose; by rewrite <- Nat.add_succ_comm. }
  exists col, nss. split; [done|]. split; [done|]. unfold line_text. rewrite Ec. unfold var_text. pose proof (E2 0%nat) as E3. change (fun i => var_entry (ix_tags ix) (ix_sets ix) (0 + i)) with (var_entry (ix_tags ix) (ix_sets ix)) in E3. rewrite E3. unfold fmt_slice. by rewrite <- !app_assoc.
Qed.
