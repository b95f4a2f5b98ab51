(** Proofs about the answers of the index browser: C75. *)
From Coq Require Import ZifyBool ZifyNat ZifyN.
From Verif Require Import Base Storage Bin Utf8 Tags TagSets Variants Items Index Spec Hist
  BaseFacts Intern SpecFacts TrieFacts NoteFacts OptFacts HistFacts DictFacts QueryFacts Utf8Facts ThmTrie ThmTags Cli ThmCli
  Numerals NumFacts Strconv Browse Session ThmSession AnswerSpec.
From stdpp Require Import list gmap.
Open Scope N_scope.

Lemma no_space c : c ∈ commands -> 32 ∉ c.
Proof.
  intros Hc Hx. assert (forallb (fun c => forallb (fun b => negb (b =? 32)) c) commands = true) as H by (by vm_compute).
  rewrite forallb_forall in H. apply elem_of_list_In in Hc. specialize (H _ Hc). rewrite forallb_forall in H. apply elem_of_list_In in Hx.
  specialize (H _ Hx). lia.
Qed.
Lemma one_line eqf ix load line : session eqf ix [(load, line)] =
  match process_input eqf load ix line with Reply _ r => says r | Exit c => ([], Some c) | Crash => crash end.
Proof. cbn [session]. by destruct (process_input eqf load ix line). Qed.
Lemma input_cmd eqf ix load c args : c ∈ commands -> Forall (fun f => 32 ∉ f) args ->
  process_input eqf load ix (spaced c args) =
    if is_cmd "tag" "t" c then process_tag eqf ix (c :: args)
    else if is_cmd "set" "s" c then process_set ix (c :: args)
    else if is_cmd "node" "n" c then process_node ix (c :: args)
    else if is_cmd "var" "v" c then process_var ix (c :: args)
    else if is_cmd "reload" "r" c then process_reload load
    else if is_cmd "exit" "e" c then Exit 0
    else let '(ix1, r) := cmd_search ix (spaced c args) in reply_res ix1 RFound r.
Proof. intros Hc Ha. unfold process_input. rewrite split_join by (by try apply no_space). done. Qed.
Lemma number_dec arg : (exists n, atoi arg = Some n /\ with_sign decimal arg n) \/ (atoi arg = None /\ ~ is_number arg).
Proof.
  destruct (atoi arg) as [n|] eqn:E; [left; exists n; split; [done|by apply atoi_spec]|]. right. split; [done|]. intros [n H].
  apply atoi_spec in H. congruence.
Qed.
Lemma find_tag_inv eqf ts arg k : match find_tag eqf ts arg k with
  | Some (i, t) => exists j, i = (k + Z.of_nat j)%Z /\ ts !! j = Some t /\ eqf (tag_name t) arg = true /\
      forall l u, (l < j)%nat -> ts !! l = Some u -> eqf (tag_name u) arg = false
  | None => forall t, t ∈ ts -> eqf (tag_name t) arg = false
  end.
Proof.
  revert k. induction ts as [|t ts IH]; intros k; cbn [find_tag]; [intros t Ht; by apply elem_of_nil in Ht|].
  destruct (eqf (tag_name t) arg) eqn:E.
  - exists 0%nat. split; [lia|]. split; [done|]. split; [done|]. lia.
  - specialize (IH (k + 1)%Z). destruct (find_tag eqf ts arg (k + 1)) as [[i u]|].
    + destruct IH as (j & -> & Hj & He & Hl). exists (S j). split; [lia|]. split; [done|]. split; [done|].
      intros [|l] v Hlt Hv; [by injection Hv as <-|]. apply (Hl l); [lia|done].
    + intros u [-> | Hu]%elem_of_cons; [done|by apply IH].
Qed.
Ltac numeric := match goal with H1 : with_sign decimal ?a ?n, H2 : with_sign decimal ?a ?m |- _ =>
  apply atoi_spec in H1; apply atoi_spec in H2; rewrite H1 in H2; injection H2 as ? end.

Lemma l_C75_tag : forall eqf ix load c args o, c ∈ [bytes_of "tag"; bytes_of "t"] -> Forall (fun f => 32 ∉ f) args ->
  session eqf ix [(load, spaced c args)] = o <-> tag_says eqf (ix_tags ix) args o.
Proof.
  intros eqf ix load c args o Hc Ha. rewrite one_line, input_cmd; [|rewrite !elem_of_cons, elem_of_nil in Hc; destruct Hc as [-> | [-> | []]]; by repeat constructor|done].
  rewrite (proj2 (is_cmd_spec "tag" "t" c) Hc). unfold process_tag.
  assert (Hu : length args <> 1%nat -> (match c :: args with
    | [_; arg] => if bool_decide (arg = bytes_of "count") then Reply ix (RTagCount (lenN (ix_tags ix))) else
      match atoi arg with
      | None => match find_tag eqf (ix_tags ix) arg 0%Z with Some (i, t) => Reply ix (RTag i t) | None => Reply ix RMessage end
      | Some n => reply_res ix (RTag n) (cmd_tag ix n)
      end
    | _ => Reply ix RMessage end) = Reply ix RMessage) by (destruct args as [|? [|]]; done).
  split.
  - intros <-. destruct (decide (length args = 1%nat)) as [El|El]; [|rewrite Hu by done; by constructor].
    destruct args as [|arg [|]]; try done. case_bool_decide as E; [subst arg; constructor|].
    destruct (number_dec arg) as [(n & -> & Hn)|[-> Hn]].
    + pose proof (l_C54_tag_numbers ix n) as T. destruct (cmd_tag ix n) as [t|e|]; cbn [reply_res].
      * destruct T as [T1 T2]. replace n with (Z.of_N (Z.to_N n)) in Hn |- * by lia. apply tag_number; [done|]. by rewrite Z_N_nat.
      * by eapply tag_too_big.
      * by eapply tag_negative.
    + pose proof (find_tag_inv eqf (ix_tags ix) arg 0) as F. destruct (find_tag eqf (ix_tags ix) arg 0) as [[i t]|].
      * destruct F as (j & -> & Hj & He & Hl). rewrite Z.add_0_l. by apply tag_called.
      * by apply tag_not_called.
  - intros H. destruct H as [|arg n t Hn Ht|arg n Hn Hl|arg n Hn Hl|arg i t Hn Hne Ht He Hl|arg Hn Hne Hl|args Hl].
    + by rewrite bool_decide_true.
    + rewrite bool_decide_false by (intros ->; by eapply not_count). apply atoi_spec in Hn. rewrite Hn. unfold cmd_tag.
      pose proof (lookup_lt_Some _ _ _ Ht). rewrite (proj2 (Z.leb_gt _ _)) by (unfold lenN; lia).
      unfold slice_at. rewrite (proj2 (Z.ltb_ge _ _)) by lia. unfold slice_get. by rewrite N2Z.id, Ht.
    + rewrite bool_decide_false by (intros ->; by eapply not_count). apply atoi_spec in Hn. rewrite Hn. unfold cmd_tag.
      by rewrite (proj2 (Z.leb_le _ _)).
    + rewrite bool_decide_false by (intros ->; by eapply not_count). apply atoi_spec in Hn. rewrite Hn. unfold cmd_tag.
      rewrite (proj2 (Z.leb_gt _ _)) by lia. unfold slice_at. by rewrite (proj2 (Z.ltb_lt _ _)).
    + rewrite bool_decide_false by done. destruct (number_dec arg) as [(n & _ & Hn')|[-> _]]; [by destruct Hn; exists n|].
      pose proof (find_tag_inv eqf (ix_tags ix) arg 0) as F. destruct (find_tag eqf (ix_tags ix) arg 0) as [[i' t']|].
      * destruct F as (j & -> & Hj & He' & Hl'). destruct (Nat.lt_trichotomy i j) as [L|[->|L]].
        -- specialize (Hl' _ _ L Ht). congruence.
        -- rewrite Hj in Ht. by injection Ht as ->.
        -- specialize (Hl _ _ L Hj). congruence.
      * apply elem_of_list_lookup_2 in Ht. specialize (F _ Ht). congruence.
    + rewrite bool_decide_false by done. destruct (number_dec arg) as [(n & _ & Hn')|[-> _]]; [by destruct Hn; exists n|].
      pose proof (find_tag_inv eqf (ix_tags ix) arg 0) as F. destruct (find_tag eqf (ix_tags ix) arg 0) as [[i' t']|]; [|done].
      destruct F as (j & _ & Hj & He & _). apply elem_of_list_lookup_2 in Hj. specialize (Hl _ Hj). congruence.
    + by rewrite Hu.
Qed.

Lemma literal_dec sub : (exists n, parse_int0 sub = Some n /\ with_sign int_lit sub n) \/ (parse_int0 sub = None /\ forall n, ~ with_sign int_lit sub n).
Proof.
  destruct (l_C60_numbers sub) as (_ & H & _). destruct (parse_int0 sub) as [n|]; [left; exists n; split; [done|by apply H]|]. right. split; [done|].
  intros n Hn. by apply H in Hn.
Qed.
Lemma not_literal a : a = bytes_of "tables" \/ a = bytes_of "table" -> forall n, ~ with_sign int_lit a n.
Proof. intros Ha n Hn. apply (proj1 (proj2 (l_C60_numbers a))) in Hn. by destruct Ha as [-> | ->]; vm_compute in Hn. Qed.
Lemma set_at_get sets n : n < 2 ^ 32 -> tagset_get sets n = set_at sets n.
Proof. intros H. rewrite tagset_get_at2, id32_upper_arith, id32_lower_arith by exact H. done. Qed.
Lemma names_get tags ids : map (fun t => option_map tag_name (tags_get tags t)) ids = names tags ids.
Proof. apply map_ext. intros k. by rewrite tags_get_lookup. Qed.
Lemma u32_lt n : to_u32 n < 2 ^ 32.
Proof. unfold to_u32. pose proof (Z.mod_pos_bound n 4294967296). change (2 ^ 32) with 4294967296. lia. Qed.
Lemma other_cmd a b c c1 c2 : bytes_of a <> bytes_of c1 -> bytes_of a <> bytes_of c2 -> bytes_of b <> bytes_of c1 -> bytes_of b <> bytes_of c2 ->
  c ∈ [bytes_of c1; bytes_of c2] -> is_cmd a b c = false.
Proof.
  intros H1 H2 H3 H4 Hc. destruct (is_cmd a b c) eqn:E; [|done]. apply is_cmd_spec in E. rewrite !elem_of_cons, elem_of_nil in E, Hc.
  destruct E as [-> | [-> | []]], Hc as [E|[E|[]]]; congruence.
Qed.
Ltac cmd := match goal with Hc : ?c ∈ [bytes_of ?x; bytes_of ?y] |- _ =>
  rewrite ?one_line, input_cmd; [|rewrite !elem_of_cons, elem_of_nil in Hc; destruct Hc as [-> | [-> | []]]; by repeat constructor|done];
  repeat match goal with |- context [is_cmd ?a ?b c] =>
    first [rewrite (proj2 (is_cmd_spec a b c) Hc) | rewrite (other_cmd a b c x y ltac:(done) ltac:(done) ltac:(done) ltac:(done) Hc)] end end.

Lemma l_C75_set : forall eqf ix load c args o, c ∈ [bytes_of "set"; bytes_of "s"] -> Forall (fun f => 32 ∉ f) args ->
  session eqf ix [(load, spaced c args)] = o <-> set_says (ix_tags ix) (ix_sets ix) args o.
Proof.
  intros eqf ix load c args o Hc Ha. cmd. unfold process_set.
  assert (U : forall n, Z.to_N (n mod 2 ^ 32) = to_u32 n) by done.
  assert (S : forall n, cmd_set ix n = match set_at (ix_sets ix) (to_u32 n) with Some ids => Ok (names (ix_tags ix) ids) | None => Err EOther end).
  { intros n. unfold cmd_set. rewrite set_at_get by apply u32_lt. destruct (set_at _ _); [|done]. by rewrite names_get. }
  split.
  - intros <-. destruct args as [|sub rest]; [constructor|]. case_bool_decide as E1; [subst sub; constructor|]. case_bool_decide as E2.
    { subst sub. destruct rest as [|arg [|]]; [by apply set_table_usage| |by apply set_table_usage].
      destruct (number_dec arg) as [(n & -> & Hn)|[-> Hn]]; [|by apply set_table_word].
      pose proof (l_C54_table_numbers ix n) as T. destruct (cmd_table ix n) as [t|e|]; cbn [reply_res].
      - destruct T as [T1 T2]. replace n with (Z.of_N (Z.to_N n)) in Hn |- * by lia. apply set_table; [done|]. by rewrite Z_N_nat.
      - by eapply set_table_too_big.
      - by eapply set_table_negative. }
    destruct (literal_dec sub) as [(n & -> & Hn)|[-> Hn]]; [|by apply set_word]. rewrite S.
    destruct (set_at (ix_sets ix) (to_u32 n)) as [ids|] eqn:E; cbn [reply_res]; [by apply set_number|by eapply set_no_number].
  - intros H. destruct H as [|rest|arg n t Hn Ht|arg n Hn Hl|arg n Hn Hl|arg Hn|rest Hl|sub rest n ids Hn Ht|sub rest n Hn Ht|sub rest H1 H2 Hn].
    + done.
    + by rewrite bool_decide_true.
    + rewrite bool_decide_false, bool_decide_true by done. apply atoi_spec in Hn. rewrite Hn. unfold cmd_table.
      pose proof (lookup_lt_Some _ _ _ Ht). rewrite (proj2 (Z.leb_gt _ _)) by (unfold lenN; lia).
      unfold slice_at. rewrite (proj2 (Z.ltb_ge _ _)) by lia. unfold slice_get. by rewrite N2Z.id, Ht.
    + rewrite bool_decide_false, bool_decide_true by done. apply atoi_spec in Hn. rewrite Hn. unfold cmd_table. by rewrite (proj2 (Z.leb_le _ _)).
    + rewrite bool_decide_false, bool_decide_true by done. apply atoi_spec in Hn. rewrite Hn. unfold cmd_table.
      rewrite (proj2 (Z.leb_gt _ _)) by lia. unfold slice_at. by rewrite (proj2 (Z.ltb_lt _ _)).
    + rewrite bool_decide_false, bool_decide_true by done. destruct (number_dec arg) as [(n & _ & Hn')|[-> _]]; [by destruct Hn; exists n|done].
    + rewrite bool_decide_false, bool_decide_true by done. by destruct rest as [|? [|]].
    + rewrite bool_decide_false, bool_decide_false by (intros ->; eapply not_literal; [|exact Hn]; auto).
      destruct (literal_dec sub) as [(m & -> & Hm)|[_ Hm]]; [|by destruct (Hm n)].
      apply (proj1 (proj2 (l_C60_numbers sub))) in Hn. apply (proj1 (proj2 (l_C60_numbers sub))) in Hm. rewrite Hn in Hm. injection Hm as <-.
      rewrite S, <- U, Ht. done.
    + rewrite bool_decide_false, bool_decide_false by (intros ->; eapply not_literal; [|exact Hn]; auto).
      destruct (literal_dec sub) as [(m & -> & Hm)|[_ Hm]]; [|by destruct (Hm n)].
      apply (proj1 (proj2 (l_C60_numbers sub))) in Hn. apply (proj1 (proj2 (l_C60_numbers sub))) in Hm. rewrite Hn in Hm. injection Hm as <-.
      rewrite S, <- U, Ht. done.
    + rewrite !bool_decide_false by done. destruct (literal_dec sub) as [(m & _ & Hm)|[-> _]]; [by destruct (Hn m)|done].
Qed.
Lemma u32_dec sub : (exists n, parse_u32 sub = Some n /\ int_lit sub n /\ n < 2 ^ 32) \/ (parse_u32 sub = None /\ forall n, int_lit sub n -> 2 ^ 32 <= n).
Proof.
  destruct (l_C60_numbers sub) as (_ & _ & H). destruct (parse_u32 sub) as [n|]; [left; exists n; split; [done|by apply H]|]. right. split; [done|].
  intros n Hn. destruct (N.le_gt_cases (2 ^ 32) n) as [|L]; [done|]. assert (None = Some n) by (by apply H). done.
Qed.
Lemma l_C75_var : forall eqf h ix load c args o, runs h ix -> c ∈ [bytes_of "var"; bytes_of "v"] -> Forall (fun f => 32 ∉ f) args ->
  session eqf ix [(load, spaced c args)] = o <-> var_says (ix_tags ix) (ix_sets ix) (ix_cols ix) args o.
Proof.
  intros eqf h ix load c args o H Hc Ha. cmd. unfold process_var. destruct (runs_R h ix H) as (ld & Hld & T & A).
  assert (S : forall n, n < 2 ^ 32 -> cmd_var ix n = match col_at (ix_cols ix) n with
    Some col => Ok (map (fun k => names (ix_tags ix) <$> set_at (ix_sets ix) k) col) | None => Panic end).
  { intros n Hn. unfold cmd_var, col_at. rewrite variants_get_at2, id32_upper_arith, id32_lower_arith by exact Hn. change (2 ^ 16) with 65536.
    destruct (N.ltb_spec n 65536) as [L|L]; [by rewrite N.div_small|].
    assert (1 <= n / 65536) by (apply N.div_le_lower_bound; lia). rewrite (proj2 (N.eqb_neq _ _)) by lia.
    replace (N.to_nat (n / 65536 - 1)) with (N.to_nat (n / 65536) - 1)%nat by lia. unfold at2.
    destruct (ix_cols ix !! (N.to_nat (n / 65536) - 1)%nat ≫= (.!! N.to_nat (n mod 65536))) as [col|] eqn:E; [|done]. cbn. f_equal.
    destruct (a_col_ids _ _ A _ _ _ E) as [_ Hf]. clear E. induction Hf as [|k col [s [Hk Hg]] Hf IH]; [done|]. cbn [map]. rewrite IH. f_equal.
    rewrite set_at_get by exact Hk. destruct (set_at _ k); [|done]. cbn. by rewrite names_get. }
  split.
  - intros <-. destruct args as [|sub rest]; [constructor|]. destruct (u32_dec sub) as [(n & -> & Hn & Hl)|[-> Hn]]; [|by apply var_word].
    rewrite S by done. destruct (col_at (ix_cols ix) n) as [col|] eqn:E; cbn [reply_res]; [by apply var_number|by eapply var_no_number].
  - intros V. destruct V as [|sub rest n col Hn Hl Ht|sub rest n Hn Hl Ht|sub rest Hn].
    + done.
    + rewrite (proj2 (proj2 (proj2 (l_C60_numbers sub)) n)) by done. by rewrite S, Ht by done.
    + rewrite (proj2 (proj2 (proj2 (l_C60_numbers sub)) n)) by done. by rewrite S, Ht by done.
    + destruct (u32_dec sub) as [(m & _ & Hm & Hl)|[-> _]]; [|done]. specialize (Hn _ Hm). lia.
Qed.
Lemma reload_input eqf ix load args c : c ∈ [bytes_of "reload"; bytes_of "r"] -> Forall (fun f => 32 ∉ f) args ->
  process_input eqf load ix (spaced c args) = process_reload load.
Proof. intros Hc Ha. cmd. done. Qed.
Lemma l_C75_reload : forall eqf ix ix' lines args c, c ∈ [bytes_of "reload"; bytes_of "r"] -> Forall (fun f => 32 ∉ f) args ->
  session eqf ix ((Ok ix', spaced c args) :: lines) = (RReloaded :: (session eqf ix' lines).1, (session eqf ix' lines).2).
Proof. intros eqf ix ix' lines args c Hc Ha. cbn [session]. rewrite reload_input by done. cbn [process_reload]. by destruct (session eqf ix' lines). Qed.
Lemma l_C75_reload_fails : forall eqf ix x lines args c, c ∈ [bytes_of "reload"; bytes_of "r"] -> Forall (fun f => 32 ∉ f) args ->
  session eqf ix ((Err x, spaced c args) :: lines) = ([], Some 1).
Proof. intros eqf ix x lines args c Hc Ha. cbn [session]. by rewrite reload_input. Qed.
Lemma l_C75_exit : forall eqf ix load lines args c, c ∈ [bytes_of "exit"; bytes_of "e"] -> Forall (fun f => 32 ∉ f) args ->
  session eqf ix ((load, spaced c args) :: lines) = ([], Some 0).
Proof.
  intros eqf ix load lines args c Hc Ha.
  assert (E : process_input eqf load ix (spaced c args) = Exit 0).
  { cmd. done. }
  cbn [session]. by rewrite E.
Qed.

(** ** Nodes *)
(** The number of the collection of a node. *)
Definition numbers_of (ix : index) (id : N) : option N := it_variants <$> its_list (ix_items ix) !! N.to_nat id.
Lemma items_get_numbers ix id it : items_get (ix_items ix) id = Ok (Some it) -> numbers_of ix id = Some (it_variants it).
Proof.
  unfold items_get, numbers_of. destruct (id =? 0); [done|]. destruct (its_next _ <=? id); [done|]. unfold slice_get.
  destruct (its_list (ix_items ix) !! N.to_nat id) as [x|]; [|done]. cbn. by intros [= ->].
Qed.
Section nodes.
  Context (h : list op) (ix : Index.index) (H : runs h ix).
  Lemma count_words : nodes_count ix = lenN (d_words (d_run h)).
  Proof using H. destruct (runs_R h ix H) as (ld & Hld & T & A). by rewrite (nodes_count_spec T). Qed.
  Lemma word_at_S i w : word_at (d_run h) (N.of_nat (S i)) w <-> d_words (d_run h) !! i = Some w.
  Proof. unfold word_at. replace (N.to_nat (N.of_nat (S i) - 1)) with i by lia. split; [by intros [_ ?]|split; [lia|done]]. Qed.
  Lemma word_at_inv id w : word_at (d_run h) id w -> exists i, id = N.of_nat (S i) /\ d_words (d_run h) !! i = Some w.
  Proof. intros [H1 H2]. exists (N.to_nat (id - 1)). split; [lia|done]. Qed.
  Lemma show_describes i w : d_words (d_run h) !! i = Some w ->
    exists n, (show_node ix (N.of_nat (S i))).2 = Ok n /\ describes (d_run h) (node_tag_sets ix) (numbers_of ix) (N.of_nat (S i)) n.
  Proof using H.
    intros Hw. destruct (show_node_ok h ix H i w Hw) as (it & ts & Hit & Hts & Hs & q & Hq & Eq). eexists. split; [exact Hs|].
    exists w, ts. cbn [ni_id ni_word ni_sets ni_parent ni_children ni_variants]. split; [by apply word_at_S|]. split; [done|]. split; [done|].
    split; [|split; [|split; [done|split; [done|]]]].
    3: { by apply items_get_numbers. }
    - rewrite Eq, removelast_last. destruct (N.to_nat (it_parent it)) as [|j] eqn:Ep; cbn in Hq.
      + injection Hq as <-. left. split; [done|lia].
      + right. replace (it_parent it) with (N.of_nat (S j)) by lia. by apply word_at_S.
    - intros r c. destruct (runs_R h ix H) as (ld & Hld & T & A).
      transitivity (child (ix_children ix) (N.of_nat (S i)) r = Some c).
      { unfold get_children_map, child. by destruct (ix_children ix !! N.of_nat (S i)). }
      rewrite (t_child _ _ _ _ T). split.
      + intros [(Hc & q' & Hq' & Hc')|(_ & ? & _)]; [|lia]. rewrite Nat2N.id in Hq'. change (d_words (d_run h) !! i = Some q') in Hq'.
        rewrite Hw in Hq'. injection Hq' as <-. rewrite P_pos in Hc' by done. split; [lia|]. by replace (N.to_nat (c - 1)) with (N.to_nat c - 1)%nat by lia.
      + intros (j & -> & Hj)%word_at_inv. left. split; [lia|]. exists w. rewrite !Nat2N.id. done.
  Qed.
  Lemma describes_det id a b : describes (d_run h) (node_tag_sets ix) (numbers_of ix) id a -> describes (d_run h) (node_tag_sets ix) (numbers_of ix) id b -> a = b.
  Proof.
    intros (w & ts & Hw & A1 & A2 & A3 & A4 & A5 & A6 & A7) (w' & ts' & Hw' & B1 & B2 & B3 & B4 & B5 & B6 & B7).
    assert (w' = w) as -> by (destruct Hw as [_ Hw], Hw' as [_ Hw']; rewrite Hw in Hw'; by injection Hw' as <-).
    rewrite A5 in B5. injection B5 as <-. rewrite A7 in B7. injection B7 as E7.
    assert (ni_parent a = ni_parent b) as E3.
    { destruct A3 as [[A3 A3']|A3], B3 as [[B3 B3']|B3]; [congruence| | |].
      - rewrite A3 in B3. apply word_at_inv in B3 as (j & _ & Hj). exfalso. apply (d_run_nil_not h). by eapply elem_of_list_lookup_2.
      - rewrite B3 in A3. apply word_at_inv in A3 as (j & _ & Hj). exfalso. apply (d_run_nil_not h). by eapply elem_of_list_lookup_2.
      - apply word_at_inv in A3 as (j & -> & Hj), B3 as (k & -> & Hk). do 2 f_equal. eapply NoDup_lookup; [apply d_run_NoDup|done..]. }
    assert (ni_children a = ni_children b) as E4.
    { apply map_eq. intros r. apply option_eq. intros c. by rewrite A4, B4. }
    destruct a, b; cbn in *. congruence.
  Qed.
  Lemma word_at_fun id w w' : word_at (d_run h) id w -> word_at (d_run h) id w' -> w = w'.
  Proof. intros [_ A] [_ B]. rewrite A in B. by injection B. Qed.
  Lemma word_at_inj a b w : word_at (d_run h) a w -> word_at (d_run h) b w -> a = b.
  Proof.
    intros (j & -> & Hj)%word_at_inv (k & -> & Hk)%word_at_inv. do 2 f_equal. eapply NoDup_lookup; [apply d_run_NoDup|done..].
  Qed.
  Lemma word_at_le id w : word_at (d_run h) id w -> 1 <= id <= lenN (d_words (d_run h)).
  Proof. intros (j & -> & Hj)%word_at_inv. apply lookup_lt_Some in Hj. unfold lenN. lia. Qed.
  Lemma describes_at id n : describes (d_run h) (node_tag_sets ix) (numbers_of ix) id n -> 1 <= id <= lenN (d_words (d_run h)).
  Proof. intros (w & ts & Hw & _). by eapply word_at_le. Qed.
  Lemma node_det args a b : node_says (d_run h) (node_tag_sets ix) (numbers_of ix) args a ->
    node_says (d_run h) (node_tag_sets ix) (numbers_of ix) args b -> a = b.
  Proof.
    assert (Hz : forall n, (0 <= n mod 2 ^ 32 < 2 ^ 32)%Z) by (intros; by apply Z.mod_pos_bound).
    intros Ha Hb. destruct Ha; inversion Hb; subst; try done;
      try (by exfalso; eapply not_count); try numeric; subst;
      repeat match goal with D : describes _ _ _ ?id _ |- _ => lazymatch goal with _ : 1 <= id <= _ |- _ => fail | _ => pose proof (describes_at _ _ D) end end;
      repeat match goal with n : Z |- _ => lazymatch goal with _ : (0 <= n mod 2 ^ 32 < 2 ^ 32)%Z |- _ => fail | _ => pose proof (Hz n) end end;
      try (exfalso; lia);
      try (exfalso; match goal with N : ~ is_number _ |- _ => apply N; by eexists end).
    - do 2 f_equal. by eapply describes_det.
    - assert (id = id0) as -> by (by eapply word_at_inj). do 2 f_equal. by eapply describes_det.
    - match goal with N : _ ∉ _, W : word_at _ _ _ |- _ => destruct W as [_ W]; exfalso; apply N; by eapply elem_of_list_lookup_2 end.
    - match goal with N : _ ∉ _, W : word_at _ _ _ |- _ => destruct W as [_ W]; exfalso; apply N; by eapply elem_of_list_lookup_2 end.
  Qed.
  Lemma show_same ix1 id : same_core ix1 ix -> (show_node ix1 id).2 = (show_node ix id).2.
  Proof.
    intros Sc. unfold show_node. cbn [snd]. rewrite (q_word _ _ (same_core_queries _ _ Sc)), (q_tags _ _ (same_core_queries _ _ Sc)), (sc_items _ _ Sc), !children_ensure.
    replace (get_children_map ix1 id) with (get_children_map ix id); [done|].
    apply map_eq. intros r. pose proof (sc_child _ _ Sc id r) as E. unfold child in E. unfold get_children_map.
    destruct (ix_children ix !! id), (ix_children ix1 !! id); cbn in *; by rewrite ?lookup_empty in *.
  Qed.
End nodes.

Lemma l_C75_node : forall h ix eqf load c args o, runs h ix -> c ∈ [bytes_of "node"; bytes_of "n"] ->
  Forall (fun f => 32 ∉ f /\ hd_ok h (runes_of_string f)) args ->
  session eqf ix [(load, spaced c args)] = o <-> node_says (d_run h) (node_tag_sets ix) (numbers_of ix) args o.
Proof.
  intros h ix eqf load c args o H Hc Ha.
  enough (node_says (d_run h) (node_tag_sets ix) (numbers_of ix) args (session eqf ix [(load, spaced c args)])) as Hs.
  { split; [by intros <-|]. intros Ho. by eapply node_det. }
  clear o. rewrite one_line, input_cmd; [|rewrite !elem_of_cons, elem_of_nil in Hc; destruct Hc as [-> | [-> | []]]; by repeat constructor|].
  2: { eapply Forall_impl; [exact Ha|]. by intros x [? _]. }
  assert (E : forall T (a b d : T), (if is_cmd "tag" "t" c then a else if is_cmd "set" "s" c then b else if is_cmd "node" "n" c then d else a) = d).
  { intros T a b d. rewrite !elem_of_cons, elem_of_nil in Hc. by destruct Hc as [-> | [-> | []]]. }
  assert (is_cmd "tag" "t" c = false /\ is_cmd "set" "s" c = false /\ is_cmd "node" "n" c = true) as (-> & -> & ->).
  { rewrite !elem_of_cons, elem_of_nil in Hc. by destruct Hc as [-> | [-> | []]]. }
  clear E. unfold process_node. destruct args as [|sub rest]; [constructor|].
  destruct (bool_decide_reflect (sub = bytes_of "count")) as [-> | Hne]; [rewrite (count_words h ix H); constructor|].
  destruct rest as [|x rest]; [|by constructor].
  apply Forall_cons in Ha as [[_ Hh] _].
  destruct (number_dec sub) as [(n & -> & Hn)|[-> Hn]].
  - pose proof (count_lt h ix H) as Hcl. pose proof (count_words h ix H) as Hcw. unfold cmd_node.
    assert (Hu : to_u32 n = Z.to_N (n mod 2 ^ 32)) by done. pose proof (Z.mod_pos_bound n (2 ^ 32) eq_refl) as Hb.
    destruct (Z.leb_spec (Z.of_N (nodes_count ix)) n) as [Hl|Hl]; [cbn; eapply node_too_big; [done|left; lia]|].
    destruct (l_C36_get_iff h ix (to_u32 n) H) as [Hi He].
    destruct (decide (to_u32 n <= nodes_count ix)) as [Hle|Hgt]; [|rewrite He by lia; cbn; eapply node_too_big; [done|right; lia]].
    rewrite (proj2 Hi Hle). destruct (decide (to_u32 n = 0)) as [Hz|Hz].
    + rewrite Hz. pose proof (show_root ix) as E. destruct (show_node ix 0) as [ix1 r]. cbn [snd] in E. subst r. cbn. eapply node_root; [done|lia|lia].
    + destruct (id_word h ix H _ Hz Hle) as (i & w & Ei & Hw). rewrite Ei.
      destruct (show_describes h ix H i w Hw) as (info & Es & Hd). destruct (show_node ix (N.of_nat (S i))) as [ix1 r]. cbn [snd] in Es. subst r. cbn.
      eapply node_number; [done|lia|]. by rewrite <- Hu, Ei.
  - pose proof (fetch_same ix (runes_of_string sub)) as Sc.
    destruct (runs_R h ix H) as (ld & Hld & T & A).
    assert (E : fetch_item_from_parent ix 0 (runes_of_string sub) = fetch_runes ix (runes_of_string sub)).
    { unfold fetch_item_from_parent, fetch_runes, fetch_from_item. destruct (runes_of_string sub) as [|r w]; [done|].
      apply (fetch_item_loop_eq (r :: w) ld _ ix 0 [] T (P_0 _)). intros El. by apply Hh, Hld. }
    unfold cmd_node_word. rewrite E. destruct ((fetch_runes ix (runes_of_string sub)).2) as [id|e|] eqn:Ef.
    + destruct (runs_fetch_pos h ix _ id H Hh Ef) as (i & -> & Hw).
      destruct (fetch_runes ix (runes_of_string sub)) as [ix1 r]. cbn [fst snd] in *. subst r.
      assert (index_get ix1 (N.of_nat (S i)) = Ok (N.of_nat (S i))) as ->.
      { rewrite (q_get _ _ (same_core_queries _ _ Sc)). apply (l_C36_get_iff h ix _ H). rewrite (nodes_count_spec T).
        pose proof (lookup_lt_Some _ _ _ Hw). unfold lenN. lia. }
      destruct (show_describes h ix H i _ Hw) as (info & Es & Hd). rewrite <- (show_same ix ix1 _ Sc) in Es.
      destruct (show_node ix1 (N.of_nat (S i))) as [ix2 r]. cbn [snd] in Es. subst r. cbn.
      eapply node_called; [done|done| |exact Hd]. by apply word_at_S.
    + assert (runes_of_string sub ∉ d_words (d_run h)) as Hnot.
      { intros (i & Hi)%elem_of_list_lookup. by rewrite (runs_fetch_at h ix _ i H Hh Hi) in Ef. }
      destruct (fetch_runes ix (runes_of_string sub)) as [ix1 r]. cbn [snd] in Ef. subst r. cbn. by apply node_not_called.
    + exfalso. rewrite (runs_fetch h ix _ H Hh) in Ef. destruct (runes_of_string sub) as [|r w]; [done|]. unfold d_find in Ef. by destruct (pos_from _ _ _).
Qed.
