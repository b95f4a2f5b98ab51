(** C94: the texts of the errors of lookups, additions and taggings. *)
From Coq Require Import ZifyBool ZifyNat ZifyN.
From Verif Require Import Base Storage Utf8 Tags TagSets Variants Items Index DocSpec Parser Calls Spec Hist Strconv
  BaseFacts TrieFacts NoteFacts HistFacts SpecFacts DictFacts QueryFacts Utf8Facts ParserFacts ThmTrie ThmTags ThmParser ThmDoc
  ThmErrors Messages MessageSpec.
From stdpp Require Import list.
Open Scope N_scope.

(** ** The functions are those of Index.v and Parser.v *)
Lemma get_same ix id : erase (get_said ix id) = index_get ix id.
Proof. unfold get_said, index_get. by destruct (_ <=? _). Qed.
Lemma word_fuel_not_err fuel : forall ix id e, word_fuel fuel ix id <> Err e.
Proof.
  induction fuel as [|fuel IH]; intros ix id e; [done|]. cbn [word_fuel]. destruct (id =? 0); [done|].
  unfold get_item, items_get. destruct (id =? 0); [done|]. destruct (_ <=? _); [done|].
  unfold slice_get. destruct (_ !! _) as [it|]; [|done]. cbn. destruct (it_parent it =? 0); [done|].
  specialize (IH ix (it_parent it) e). destruct (word_fuel fuel ix (it_parent it)); cbn; congruence.
Qed.
Lemma not_found_same ix p r : erase (not_found ix p r) = (_ ← node_word ix p; Err EIndex).
Proof.
  unfold not_found. pose proof (word_fuel_not_err (S (length (its_list (ix_items ix)))) ix p) as H.
  fold (node_word ix p) in H. destruct (node_word ix p) as [w|e|]; [done| |done]. by destruct (H e).
Qed.
Lemma fetch_loop_same w : forall ix p,
  ((fetch_loop_said ix p w).1, erase (fetch_loop_said ix p w).2) = fetch_loop ix p w.
Proof.
  induction w as [|r w IH]; intros ix p; [done|]. cbn [fetch_loop fetch_loop_said].
  destruct (child _ p r) as [n|].
  - destruct w; [|apply IH]. cbn [fst snd]. by rewrite get_same.
  - cbn [fst snd]. by rewrite not_found_same.
Qed.
Lemma add_loop_same w : forall ix st p,
  ((add_loop_said ix st p w).1, erase (add_loop_said ix st p w).2) = add_loop ix p w.
Proof.
  induction w as [|r w IH]; intros ix st p; [done|]. cbn [add_loop add_loop_said].
  assert (He : forall e, (if (p =? 0) then Ok true
           else oit ← items_get (ix_items ix) p; Ok (match oit with Some _ => true | None => false end)) <> Err e).
  { intros e. destruct (p =? 0) eqn:E; [done|]. unfold items_get. rewrite E. destruct (_ <=? _); [done|].
    unfold slice_get. by destruct (_ !! _). }
  destruct (if (p =? 0) then Ok true else _) as [[|]|e|]; [|done|by destruct (He e)|done]. clear He.
  destruct (child _ p r) as [n|].
  - destruct w; [|apply IH]. cbn [fst snd]. by rewrite get_same.
  - unfold items_new_child. destruct (_ <? _); [|done].
    destruct w; [|apply IH]. cbn [fst snd]. by rewrite get_same.
Qed.
Lemma names_same ts names : erase (names_said ts names) = names_to_ids ts names.
Proof.
  induction names as [|n names IH]; [done|]. cbn [names_said names_to_ids]. destruct (tags_find ts n); [|done].
  rewrite <- IH. by destruct (names_said ts names).
Qed.
Lemma add_string_same ix s : ((add_string_said ix s).1, erase (add_string_said ix s).2) = add_string ix s.
Proof.
  unfold add_string_said, add_string. destruct (_ =? _); [done|]. unfold add_runes, add_to_node, add_said.
  destruct (runes_of_string s) as [|r w]; [done|]. apply add_loop_same.
Qed.
Lemma tagset_no_err ix id names ids : names_to_ids (ix_tags ix) names = Ok ids ->
  forall e, (node_add_tag_set ix id names).2 <> Err e.
Proof.
  intros E e. unfold node_add_tag_set. rewrite E. destruct (get_item ix id) as [[it|]|e'|] eqn:Eg; [|done| |done].
  2: { unfold get_item, items_get in Eg. destruct (id =? 0); [done|]. destruct (_ <=? _); [done|].
       unfold slice_get in Eg. by destruct (_ !! _). }
  match goal with |- context [match ?m with Ok _ => _ | Err _ => _ | Panic => _ end] => assert (Hx : forall e, m <> Err e) end.
  { clear. intros e. unfold variants_get, tagset_index_index, variants_index_index, variants_table_get, tagset_table_index, slice_get.
    repeat first [done | match goal with
      | |- context [if ?b then _ else _] => destruct b
      | |- context [match ?l !! ?i with Some _ => _ | None => _ end] => destruct (l !! i)
      | |- context [let '(_, _) := ?x in _] => destruct x
      end; cbn]. }
  match goal with |- context [match ?m with Ok _ => _ | Err _ => _ | Panic => _ end] => destruct m as [[[? ?] ?]|e'|] end;
    [done|by destruct (Hx e')|done].
Qed.
Lemma tag_same ix id names : ((tag_said ix id names).1, erase (tag_said ix id names).2) = node_add_tag_set ix id names.
Proof.
  unfold tag_said. pose proof (names_same (ix_tags ix) names) as En.
  pose proof (tagset_no_err ix id names) as Hn.
  destruct (names_said (ix_tags ix) names) as [ids|t|]; cbn [erase] in En.
  - specialize (Hn ids (eq_sym En)). destruct (node_add_tag_set ix id names) as [ix' [[]|e|]]; [done| |done].
    by destruct (Hn e).
  - unfold node_add_tag_set. by rewrite <- En.
  - unfold node_add_tag_set. by rewrite <- En.
Qed.
Lemma lemma_same lg fs : forall ix,
  (lemma_said ix lg fs).1 = (lemma_loop ix lg fs).1 /\ same_outcome (lemma_said ix lg fs).2 (lemma_loop ix lg fs).2.
Proof.
  induction fs as [|[f|] fs IH]; intros ix; [done| |by (split; [|left])]. cbn [lemma_said lemma_loop].
  rewrite <- add_string_same. destruct (add_string_said ix (f_text f)) as [ix1 [id|t|]]; cbn [fst snd erase].
  - rewrite <- tag_same. destruct (tag_said ix1 id _) as [ix2 [u|t|]]; cbn [fst snd erase]; [apply IH|done|by (split; [|right])].
  - done.
  - by (split; [|right]).
Qed.

(** What is said and what is returned agree. *)
Lemma l_C94_same : forall ix p w s id names lg fs,
  ((fetch_said ix p w).1, erase (fetch_said ix p w).2) = fetch_from_item ix p w /\
  ((add_said ix p w).1, erase (add_said ix p w).2) = add_to_node ix p w /\
  ((add_string_said ix s).1, erase (add_string_said ix s).2) = add_string ix s /\
  ((tag_said ix id names).1, erase (tag_said ix id names).2) = node_add_tag_set ix id names /\
  (lemma_said ix lg fs).1 = (lemma_loop ix lg fs).1 /\
  same_outcome (lemma_said ix lg fs).2 (lemma_loop ix lg fs).2.
Proof.
  intros ix p w s id names lg fs. split; [destruct w; [done|apply fetch_loop_same]|].
  split; [destruct w; [done|apply add_loop_same]|]. split; [apply add_string_same|].
  split; [apply tag_same|]. apply lemma_same.
Qed.

(** ** A word that is not there *)
Lemma fetch_text ld ws rest : forall ix p u, trie_of ld ix ws -> ([] :: ws) !! N.to_nat p = Some u ->
  head_ok ld (u ++ rest) -> rest <> [] -> u ++ rest ∉ ws ->
  exists q r s, rest = q ++ r :: s /\ (q = [] \/ u ++ q ∈ ws) /\ (u ++ q) ++ [r] ∉ ws /\
    (fetch_loop_said ix p rest).2 = Failed (not_found_text (u ++ q) r).
Proof.
  induction rest as [|r rest IH]; intros ix p u T Hp Hh Hne Hin; [done|]. cbn [fetch_loop_said].
  pose proof (same_core_ensure ix p) as S. pose proof (sc_child _ _ S p r) as Ec.
  pose proof (head_ok_step ld u r rest Hh) as Hg.
  destruct (child (ix_children (ensure_children ix p)) p r) as [n|] eqn:E.
  - symmetry in Ec. apply (trie_child_Some T p u) in Ec; [|done..].
    destruct rest as [|r2 rest].
    { exfalso. apply Hin. assert (n <> 0). { intros ->. rewrite P_0 in Ec. injection Ec. by destruct u. }
      rewrite P_pos in Ec by done. by eapply elem_of_list_lookup_2. }
    destruct (IH (ensure_children ix p) n (u ++ [r])) as (q & r' & s & Er & Hq & Hn & Ht).
    + by eapply trie_of_same.
    + done.
    + by rewrite <- app_assoc.
    + done.
    + by rewrite <- app_assoc.
    + exists (r :: q), r', s. rewrite <- !(app_assoc u [r]) in Hq, Hn, Ht. cbn in Hq, Hn, Ht.
      split; [cbn; by rewrite <- Er|]. split; [|done]. right. destruct Hq as [-> |Hq]; [|done].
      assert (n <> 0). { intros ->. rewrite P_0 in Ec. injection Ec. by destruct u. }
      rewrite P_pos in Ec by done. by eapply elem_of_list_lookup_2.
  - exists [], r, rest. rewrite app_nil_r. split; [done|]. split; [by left|].
    split; [by apply (trie_child_None T p u)|]. cbn [snd]. unfold not_found.
    rewrite (trie_word T _ p u); [done|by apply sc_items|done].
Qed.
(** The text of a failed lookup splits the word at the first letter that is not there. *)
Lemma l_C94_lookup : forall h ix w, runs h ix -> (reloaded h = true -> head w <> Some 0%Z) -> w <> [] -> ~ present h w ->
  exists p r s, w = p ++ r :: s /\ (p = [] \/ present h p) /\ ~ present h (p ++ [r]) /\
    (fetch_said ix 0 w).2 = Failed (not_found_text p r).
Proof.
  intros h ix w H Hh Hne Hp. destruct (runs_R h ix H) as (ld & Hld & T & A).
  destruct (fetch_text ld _ w ix 0 [] T (P_0 _)) as (p & r & s & E & Hq & Hn & Ht).
  - intros E. by apply Hh, Hld.
  - done.
  - by rewrite d_run_words.
  - exists p, r, s. cbn in *. rewrite d_run_words in Hq, Hn. split; [done|]. split; [done|]. split; [done|].
    unfold fetch_said. by destruct w.
Qed.
(** It tells which letter of which word that was. *)
Lemma l_C94_lookup_tells : forall p r p' r', Forall scalar (r :: p) -> Forall scalar (r' :: p') ->
  not_found_text p r = not_found_text p' r' -> p = p' /\ r = r'.
Proof.
  intros p r p' r' H H' E. unfold not_found_text in E. apply app_inv_head in E.
  rewrite !app_assoc in E. apply app_inv_tail in E.
  assert (Hs : forall q x, (string_of_runes q ++ bytes_of "[") ++ string_of_rune x = string_of_runes (q ++ [91; x]%Z)).
  { intros q x. unfold string_of_runes. rewrite map_app, concat_app, <- app_assoc. f_equal. cbn [map concat].
    rewrite app_nil_r. done. }
  rewrite !Hs in E. apply (f_equal runes_of_string) in E.
  assert (Hf : forall q x, Forall scalar (x :: q) -> Forall scalar (q ++ [91; x]%Z)).
  { intros q x [Hx Hq]%Forall_cons. apply Forall_app. split; [done|]. apply Forall_cons. split; [unfold scalar; lia|]. by apply Forall_singleton. }
  rewrite !decode_encode_all in E by auto.
  change [91%Z; r] with ([91%Z] ++ [r]) in E. change [91%Z; r'] with ([91%Z] ++ [r']) in E.
  rewrite !app_assoc in E. apply app_inj_tail in E as [E ->]. apply app_inj_tail in E as [-> _]. done.
Qed.

(** ** A tag that is not there *)
Lemma find_registered h ix n : runs h ix -> n ∈ registered h <-> is_Some (tags_find (ix_tags ix) n).
Proof.
  intros H. destruct (runs_R h ix H) as (ld & _ & _ & A).
  pose proof (names_to_ids_spec ix (d_run h) [n] A) as E. pose proof (d_ids_registered h [n]) as R.
  setoid_rewrite elem_of_list_singleton in R. cbn [names_to_ids] in E.
  split.
  - intros Hn. destruct (tags_find _ n); [by eexists|]. destruct (proj2 R) as [ids Ei]; [by intros ? ->|].
    by rewrite Ei in E.
  - intros [k Ek]. rewrite Ek in E. destruct (d_ids (d_run h) [n]) as [ids|] eqn:Ei; [|done]. by apply (proj1 R).
Qed.
Lemma first_unknown h ix : runs h ix -> forall names t,
  names_said (ix_tags ix) names = Failed t <->
  exists a n b, names = a ++ n :: b /\ (forall x, x ∈ a -> x ∈ registered h) /\ n ∉ registered h /\ t = unknown_tag_text n.
Proof.
  intros H. induction names as [|m names IH]; intros t; cbn [names_said].
  { split; [done|]. intros (a & n & b & E & _). by destruct a. }
  pose proof (find_registered h ix m H) as R. destruct (tags_find (ix_tags ix) m) as [k|].
  - transitivity (names_said (ix_tags ix) names = Failed t).
    { by destruct (names_said (ix_tags ix) names). }
    rewrite IH. split.
    + intros (a & n & b & -> & Ha & Hn & Ht). exists (m :: a), n, b. split; [done|]. split; [|done].
      intros x [-> |Hx]%elem_of_cons; [|by apply Ha]. by apply R.
    + intros (a & n & b & E & Ha & Hn & Ht). destruct a as [|a0 a]; injection E as -> ->.
      * destruct Hn. by apply R.
      * exists a, n, b. split; [done|]. split; [|done]. intros x Hx. apply Ha. by right.
  - split.
    + intros [= <-]. exists [], m, names. split; [done|]. split; [by intros x Hx%elem_of_nil|]. split; [|done].
      intros Hm. by apply R in Hm as [].
    + intros (a & n & b & E & Ha & Hn & ->). destruct a as [|a0 a]; injection E as -> ->; [done|].
      exfalso. destruct (proj1 R) as [? ?]; [|done]. apply Ha. by left.
Qed.
(** The text of a failed tagging is that of the first name that is not registered. *)
Lemma l_C94_unknown_tag : forall h ix id names t, runs h ix ->
  (tag_said ix id names).2 = Failed t <->
  exists a n b, names = a ++ n :: b /\ (forall x, x ∈ a -> x ∈ registered h) /\ n ∉ registered h /\ t = unknown_tag_text n.
Proof.
  intros h ix id names t H. rewrite <- (first_unknown h ix H). unfold tag_said.
  destruct (names_said _ names) as [ids|t'|]; cbn [snd]; [|naive_solver..].
  destruct (node_add_tag_set ix id names) as [? [[]|e|]]; done.
Qed.
(** A node that is not there is named by its number. *)
Lemma l_C94_no_parent : forall ix p w, w <> [] -> p <> 0 -> its_next (ix_items ix) <= p ->
  (add_said ix p w) = (ix, Failed (bytes_of "index: add: no parent: " ++ itoa p)).
Proof.
  intros ix p w Hw Hp Hn. unfold add_said. destruct w as [|r w]; [done|]. cbn [add_loop_said]. unfold items_get.
  replace (p =? 0) with false by lia. by replace (_ <=? p) with true by lia.
Qed.

(** ** The forms of a lemma *)
Lemma lemma_said_app lg fs fs' : forall ix ix1, call_forms ix (map (with_lemma lg) fs) = (ix1, Done) ->
  lemma_said ix lg (map some_form (fs ++ fs')) = lemma_said ix1 lg (map some_form fs').
Proof.
  induction fs as [|[t g] fs IH]; intros ix ix1 E; [by injection E as ->|].
  cbn [map app some_form lemma_said f_text f_g fst snd] in *. cbn [call_forms with_lemma fst snd] in E.
  unfold call_form in E. change (with_lemma lg (t, g)) with (t, lg ++ g) in E. cbn [fst snd] in E. rewrite <- add_string_same in E.
  destruct (add_string_said ix t) as [ix2 [id|x|]]; cbn [fst snd erase] in E; [|done..].
  rewrite <- tag_same in E. destruct (tag_said ix2 id (lg ++ g)) as [ix3 [u|x|]]; cbn [fst snd erase] in E; [|done..].
  by apply IH.
Qed.
(** The first bad form of a lemma says what is wrong with it. *)
Lemma l_C94_lemma : forall h ix lg fs t g fs' ix', runs h ix ->
  Forall (fun f => f.1 <> [] /\ forall n, n ∈ lg ++ f.2 -> n ∈ registered h) fs ->
  runs (h ++ flat_map form_ops (map (with_lemma lg) fs) ++ [OAdd (runes_of_string t)]) ix' ->
  (t = [] -> (lemma_said ix lg (map some_form (fs ++ (t, g) :: fs'))).2 = Failed (bytes_of "index: index: empty word")) /\
  (forall a n b, t <> [] -> lg ++ g = a ++ n :: b -> (forall x, x ∈ a -> x ∈ registered h) -> n ∉ registered h ->
    (lemma_said ix lg (map some_form (fs ++ (t, g) :: fs'))).2 = Failed (bytes_of "add lemma variant: " ++ unknown_tag_text n)).
Proof.
  intros h ix lg fs t g fs' ix' H Hf Hr. rewrite app_assoc in Hr.
  destruct (runs_app_inv _ _ _ Hr) as [ix2 H2].
  destruct (forms_history (map (with_lemma lg) fs) ix h ix ix2) as (a2 & E2 & S2); [done|done|done| |].
  { rewrite Forall_map. eapply Forall_impl; [exact Hf|]. intros [t0 g0] Hg. exact Hg. }
  rewrite (lemma_said_app lg fs _ ix a2 E2). cbn [map some_form lemma_said f_text f_g fst snd]. split.
  - intros ->. done.
  - intros a n b Ht El Ha Hn. set (w := runes_of_string t) in *.
    assert (Hw : w <> []) by (unfold w; by rewrite decode_nil).
    destruct (l_C02_added_is_found _ [] w ix2 ix' H2 Hr Hw) as (id & E1 & _); [done|].
    destruct (add_to_node_cong a2 ix2 0 w S2) as [S3 E3]. fold (add_runes a2 w) in *. fold (add_runes ix2 w) in *.
    rewrite E1 in E3. pose proof (add_string_same a2 t) as Ea. unfold add_string in Ea. fold w in Ea.
    replace (lenN t =? 0) with false in Ea by (destruct t; [done|unfold lenN; cbn [length]; lia]).
    destruct (add_string_said a2 t) as [a3 o] eqn:Es. rewrite <- Ea in S3, E3. cbn [fst snd] in S3, E3.
    destruct o as [id'|x|]; [|done..]. injection E3 as ->.
    destruct (runs_snoc_inv _ _ _ Hr) as (ix2' & r1 & H2' & _ & Hs & _). apply (runs_det _ _ _ H2) in H2' as <-.
    cbn [step] in Hs. rewrite Hs in S3. cbn [fst] in S3.
    assert (En : (tag_said a3 id (lg ++ g)).2 = Failed (unknown_tag_text n)).
    { unfold tag_said. rewrite (sc_tags _ _ S3).
      replace (names_said (ix_tags ix') (lg ++ g)) with (Failed (A := list N) (unknown_tag_text n)); [done|]. symmetry.
      apply (first_unknown _ ix' Hr). exists a, n, b.
      assert (Ereg : registered ((h ++ flat_map form_ops (map (with_lemma lg) fs)) ++ [OAdd w]) = registered h).
      { by rewrite !registered_app, registered_forms, !app_nil_r. }
      rewrite Ereg. done. }
    destruct (tag_said a3 id (lg ++ g)) as [a4 o]. cbn [snd] in En. subst o. done.
Qed.
