(** Proofs that parsing a document is making the calls it stands for (C43). *)
From Coq Require Import ZifyBool ZifyNat ZifyN.
From Verif Require Import Base Storage Utf8 Tags TagSets Variants Items Index DocSpec Parser Calls Spec Hist
  BaseFacts TrieFacts NoteFacts HistFacts SpecFacts DictFacts QueryFacts Utf8Facts ParserFacts ThmTrie ThmTags ThmParser.
From stdpp Require Import list.
Open Scope N_scope.

Lemma form_history a h ix0 t g ix2 : same_core a ix0 -> runs h ix0 ->
  runs (h ++ form_ops (t, g)) ix2 -> t <> [] ->
  exists a2 o, call_form a (t, g) = (a2, o) /\ same_core a2 ix2 /\
    ((forall n, n ∈ g -> n ∈ registered h) -> o = Done) /\
    (forall n, n ∈ g -> n ∉ registered h -> o = Fail EIndex).
Proof.
  intros S H0 H2 Ht. unfold form_ops in H2. cbn [fst snd] in H2. set (w := runes_of_string t) in *.
  change [OAdd w; OTag w g] with ([OAdd w] ++ [OTag w g]) in H2. rewrite app_assoc in H2.
  destruct (runs_snoc_inv _ _ _ H2) as (ix1 & r2 & H1 & Hok2 & Hs2 & Hc2).
  destruct (runs_snoc_inv _ _ _ H1) as (ix0' & r1 & H0' & Hok1 & Hs1 & Hc1).
  apply (runs_det _ _ _ H0) in H0' as <-.
  assert (Hw : w <> []) by (unfold w; by rewrite decode_nil).
  destruct (l_C02_added_is_found h [] w ix0 ix1 H0 H1 Hw) as (id & E1 & E2); [done|].
  cbn [step] in Hs1. rewrite Hs1 in E1. cbn in E1. subst r1.
  destruct (add_to_node_cong a ix0 0 w S) as [S1 E1]. fold (add_runes a w) in *. fold (add_runes ix0 w) in *.
  rewrite Hs1 in S1, E1. cbn [fst snd] in S1, E1.
  unfold call_form, add_string. cbn [fst snd]. fold w.
  replace (lenN t =? 0) with false by (destruct t; [done|unfold lenN; cbn [length]; lia]).
  destruct (add_runes a w) as [a1 r1]. cbn [fst snd] in S1, E1. subst r1.
  assert (Hr : r2 = d_out (d_run (h ++ [OAdd w])) (OTag w g)).
  { eapply (step_refines (reloaded (h ++ [OAdd w]))); [by apply runs_refines|exact Hok2|exact Hs2|exact Hc2]. }
  cbn [step] in Hs2. pose proof (fetch_same ix1 w) as S1'.
  destruct (fetch_runes ix1 w) as [ix1' r1']. cbn [fst snd] in E2, S1'. subst r1'.
  destruct (tag_set_cong a1 ix1' id g) as [S2 E3]; [by etrans|].
  destruct (node_add_tag_set ix1' id g) as [ix2' r3] eqn:E4. injection Hs2 as -> Hr2. cbn [fst snd] in *.
  destruct (node_add_tag_set a1 id g) as [a2 r4]. cbn [fst snd] in *. subst r4.
  assert (Hreg : registered (h ++ [OAdd w]) = registered h) by (rewrite registered_snoc; apply app_nil_r).
  rewrite Hr in Hr2. cbn [d_out] in Hr2.
  assert (Hp : present (h ++ [OAdd w]) w) by by apply present_add.
  apply d_run_words in Hp. destruct (pos_from 1 (d_words (d_run (h ++ [OAdd w]))) w) as [k|] eqn:Hk; [|by apply pos_from_None in Hk].
  destruct (d_ids (d_run (h ++ [OAdd w])) g) as [ids|] eqn:Ei.
  - destruct r3 as [u|e|]; try done. exists a2, Done. split; [done|]. split; [done|]. split; [done|].
    intros n Hn Hnr. exfalso. apply Hnr. rewrite <- Hreg.
    exact (proj1 (d_ids_registered _ g) (mk_is_Some _ _ Ei) n Hn).
  - destruct r3 as [u|e|]; try done. cbn in Hr2. injection Hr2 as ->. exists a2, (Fail EIndex).
    split; [done|]. split; [done|]. split; [|done]. intros Hn. exfalso. apply d_ids_None in Ei. apply Ei.
    by rewrite Hreg.
Qed.
Lemma registered_app h h' : registered (h ++ h') = registered h ++ registered h'.
Proof. unfold registered. apply omap_app. Qed.
Lemma registered_forms fs : registered (flat_map form_ops fs) = [].
Proof. induction fs as [|f fs IH]; [done|]. cbn [flat_map]. by rewrite registered_app, IH. Qed.
Lemma forms_history fs : forall a h ix0 ix2, same_core a ix0 -> runs h ix0 ->
  runs (h ++ flat_map form_ops fs) ix2 -> Forall (form_good (registered h)) fs ->
  exists a2, call_forms a fs = (a2, Done) /\ same_core a2 ix2.
Proof.
  induction fs as [|[t g] fs IH]; intros a h ix0 ix2 S H0 H2 Hg.
  { rewrite app_nil_r in H2. apply (runs_det _ _ _ H0) in H2 as <-. by exists a. }
  apply Forall_cons in Hg as [[Ht Hn] Hg]. cbn [flat_map] in H2. rewrite app_assoc in H2.
  destruct (runs_app_inv _ _ _ H2) as [ix1 H1].
  destruct (form_history a h ix0 t g ix1 S H0 H1 Ht) as (a1 & o & E & S1 & Ho & _).
  cbn [call_forms]. rewrite E, (Ho Hn). apply (IH a1 (h ++ form_ops (t, g)) ix1 ix2 S1 H1 H2).
  by rewrite registered_app, app_nil_r.
Qed.
Lemma acts_history ss : forall a h ix0 ix2, same_core a ix0 -> runs h ix0 ->
  runs (h ++ acts_ops ss) ix2 -> good_acts (registered h) ss ->
  exists a2, call_acts a ss = (a2, Done) /\ same_core a2 ix2.
Proof.
  induction ss as [|s ss IH]; intros a h ix0 ix2 S H0 H2 Hg.
  { unfold acts_ops in H2. rewrite app_nil_r in H2. apply (runs_det _ _ _ H0) in H2 as <-. by exists a. }
  unfold acts_ops in H2. cbn [flat_map] in H2. rewrite app_assoc in H2. fold (acts_ops ss) in H2.
  destruct (runs_app_inv _ _ _ H2) as [ix1 H1]. destruct s as [n p|fs]; cbn [call_acts call_act good_acts] in *.
  - cbn [act_ops] in *. destruct (runs_snoc_inv _ _ _ H1) as (ix0' & r1 & H0' & _ & Hs1 & _).
    apply (runs_det _ _ _ H0) in H0' as <-.
    destruct (step_cong a ix0 (OTagID n p) S) as [S1 _]. rewrite Hs1 in S1. cbn [step] in S1.
    apply (IH _ (h ++ [OTagID n p]) ix1 ix2); [|done..|].
    + destruct (index_tag_id a n p) as [a1 i1]. exact S1.
    + by rewrite registered_snoc.
  - destruct Hg as [Hf Hg]. destruct (forms_history fs a h ix0 ix1 S H0 H1 Hf) as (a1 & -> & S1).
    apply (IH a1 (h ++ act_ops (ALemma fs)) ix1 ix2 S1 H1 H2). cbn [act_ops].
    by rewrite registered_app, registered_forms, app_nil_r.
Qed.
Lemma good_acts_app ss : forall names ss', good_acts names (ss ++ ss') <->
  good_acts names ss /\ good_acts (names ++ registered (acts_ops ss)) ss'.
Proof.
  induction ss as [|[n p|fs] ss IH]; intros names ss'; cbn [app good_acts].
  - cbn. rewrite app_nil_r. naive_solver.
  - rewrite IH. unfold acts_ops. cbn [flat_map act_ops]. rewrite registered_app, app_assoc. done.
  - rewrite IH. unfold acts_ops. cbn [flat_map act_ops]. rewrite registered_app, registered_forms, app_nil_l. naive_solver.
Qed.
Lemma acts_ops_app ss ss' : acts_ops (ss ++ ss') = acts_ops ss ++ acts_ops ss'.
Proof. unfold acts_ops. apply flat_map_app. Qed.

Lemma l_C43_history : forall c h ix mx doc ix', (mx <= 0)%Z -> forallb (valid c []) doc = true ->
  runs h ix -> runs (h ++ acts_ops (doc_acts doc)) ix' -> good_acts (registered h) (doc_acts doc) ->
  exists p, parse c (parser_new ix mx) (flat_map events doc) = (p, Done) /\ indist (p_ix p) ix'.
Proof.
  intros c h ix mx doc ix' Hmx Hv H H' Hg.
  destruct (acts_history (doc_acts doc) ix h ix ix') as (a2 & E & S); [done..|].
  destruct (parse c (parser_new ix mx) (flat_map events doc)) as [p o] eqn:Ep.
  pose proof (l_C43_same_as_calls c ix mx doc p o Hmx Hv Ep) as Ec. rewrite E in Ec. injection Ec as -> <-.
  exists p. split; [done|]. by apply same_core_indist.
Qed.

Lemma acts_ops_snoc ss fs : acts_ops (ss ++ [ALemma fs]) = acts_ops ss ++ flat_map form_ops fs.
Proof. rewrite acts_ops_app. f_equal. unfold acts_ops. cbn. apply app_nil_r. Qed.
Lemma call_forms_app fs x fs' : forall a, call_forms a (fs ++ x :: fs') =
  match call_forms a fs with (a1, Done) =>
    match call_form a1 x with (a2, Done) => call_forms a2 fs' | x => x end | x => x end.
Proof.
  induction fs as [|f fs0 IH]; intros a; [done|]. cbn [app call_forms].
  destruct (call_form a f) as [a1 [ | | | | ]]; [|done..]. apply IH.
Qed.
(** The first form that cannot be indexed stops the parse. *)
Lemma l_C43_first_bad_form : forall c h ix mx doc pre fs t g fs' post ix', (mx <= 0)%Z ->
  forallb (valid c []) doc = true -> runs h ix ->
  doc_acts doc = pre ++ ALemma (fs ++ (t, g) :: fs') :: post ->
  good_acts (registered h) (pre ++ [ALemma fs]) ->
  (t = [] /\ runs (h ++ acts_ops (pre ++ [ALemma fs])) ix') \/
  (t <> [] /\ (exists n, n ∈ g /\ n ∉ registered (h ++ acts_ops pre)) /\
   runs (h ++ acts_ops (pre ++ [ALemma (fs ++ [(t, g)])])) ix') ->
  exists p, parse c (parser_new ix mx) (flat_map events doc) = (p, Fail EIndex) /\ indist (p_ix p) ix'.
Proof.
  intros c h ix mx doc pre fs t g fs' post ix' Hmx Hv H Ed Hg Hbad.
  destruct (parse c (parser_new ix mx) (flat_map events doc)) as [p o] eqn:Ep.
  pose proof (l_C43_same_as_calls c ix mx doc p o Hmx Hv Ep) as Ec.
  enough (exists a, call_acts ix (doc_acts doc) = (a, Fail EIndex) /\ same_core a ix') as (a & E & S).
  { rewrite E in Ec. injection Ec as -> <-. exists p. split; [done|]. by apply same_core_indist. }
  rewrite Ed, call_acts_app. clear Ed Ec Ep.
  rewrite !acts_ops_snoc, !(app_assoc h) in Hbad.
  assert (Hpre : exists ix1, runs (h ++ acts_ops pre) ix1 /\ exists ix2, runs ((h ++ acts_ops pre) ++ flat_map form_ops fs) ix2).
  { destruct Hbad as [[_ Hr]|(_ & _ & Hr)].
    - destruct (runs_app_inv _ _ _ Hr) as [ix1 H1]. exists ix1. split; [done|]. by exists ix'.
    - rewrite flat_map_app, (app_assoc (h ++ acts_ops pre)) in Hr. destruct (runs_app_inv _ _ _ Hr) as [ix2 H2].
      destruct (runs_app_inv _ _ _ H2) as [ix1 H1]. exists ix1. split; [done|]. by exists ix2. }
  destruct Hpre as (ix1 & H1 & ix2 & H2). apply good_acts_app in Hg as [Hg1 [Hg2 _]].
  destruct (acts_history pre ix h ix ix1) as (a1 & E1 & S1); [done..|]. rewrite E1. cbn [call_acts call_act].
  rewrite call_forms_app.
  destruct (forms_history fs a1 (h ++ acts_ops pre) ix1 ix2 S1 H1 H2) as (a2 & E2 & S2).
  { by rewrite registered_app. }
  rewrite E2. destruct Hbad as [[-> Hr]|(Ht & (n & Hn & Hnr) & Hr)].
  - apply (runs_det _ _ _ H2) in Hr as <-. cbn. by exists a2.
  - rewrite flat_map_app, (app_assoc (h ++ acts_ops pre)) in Hr. cbn [flat_map] in Hr. rewrite app_nil_r in Hr.
    destruct (form_history a2 _ ix2 t g ix' S2 H2 Hr Ht) as (a3 & o3 & E3 & S3 & _ & Ho).
    rewrite (Ho n Hn) in E3; [|by rewrite registered_app, registered_forms, app_nil_r].
    rewrite E3. by exists a3.
Qed.

(** ** The whole chain: what a lookup finds after parsing a document into a new index *)
Lemma added_acts ss : added (acts_ops ss) = map (fun f => runes_of_string f.1) (forms ss).
Proof.
  unfold acts_ops, forms. induction ss as [|s ss IH]; [done|]. cbn [flat_map]. rewrite added_app, map_app, IH. f_equal.
  destruct s as [n p|fs]; [done|]. cbn [act_ops]. clear. induction fs as [|f fs IH]; [done|]. cbn [flat_map map].
  rewrite added_app, IH. done.
Qed.
Lemma attached_app_l h h' w g : attached h w g -> attached (h ++ h') w g.
Proof. intros (h1 & h2 & -> & Hp & Hr). exists h1, (h2 ++ h'). by rewrite <- app_assoc. Qed.
Lemma attached_acts ss w g : good_acts [] ss -> attached (acts_ops ss) w g <->
  exists t, (t, g) ∈ forms ss /\ runes_of_string t = w.
Proof.
  enough (H : forall h, good_acts (registered h) ss -> attached (h ++ acts_ops ss) w g <->
    attached h w g \/ exists t, (t, g) ∈ forms ss /\ runes_of_string t = w).
  { intros Hg. rewrite (H [] Hg). split; [|by right]. intros [(h1 & h2 & E & _)|?]; [by destruct h1|done]. }
  induction ss as [|s ss IH]; intros h Hg.
  { unfold acts_ops. rewrite app_nil_r. split; [by left|]. intros [?|(t & Ht & _)]; [done|]. by apply elem_of_nil in Ht. }
  unfold acts_ops, forms. cbn [flat_map]. fold (acts_ops ss). fold (forms ss). rewrite app_assoc.
  destruct s as [n p|fs]; cbn [good_acts act_ops] in *.
  - rewrite IH by by rewrite registered_snoc. rewrite attached_snoc. naive_solver.
  - destruct Hg as [Hf Hg]. rewrite IH by by rewrite registered_app, registered_forms, app_nil_r.
    setoid_rewrite elem_of_app.
    enough (attached (h ++ flat_map form_ops fs) w g <-> attached h w g \/ exists t, (t, g) ∈ fs /\ runes_of_string t = w) by naive_solver.
    clear IH Hg ss. revert h Hf. induction fs as [|[t0 g0] fs IH]; intros h Hf.
    { cbn. rewrite app_nil_r. split; [by left|]. intros [?|(t & Ht & _)]; [done|]. by apply elem_of_nil in Ht. }
    apply Forall_cons in Hf as [[Ht Hn] Hf]. cbn [flat_map]. rewrite app_assoc.
    rewrite IH by by rewrite registered_app, app_nil_r.
    setoid_rewrite elem_of_cons. unfold form_ops. cbn [fst snd] in *.
    replace (h ++ [OAdd (runes_of_string t0); OTag (runes_of_string t0) g0])
      with ((h ++ [OAdd (runes_of_string t0)]) ++ [OTag (runes_of_string t0) g0]) by by rewrite <- app_assoc.
    rewrite !attached_snoc. split.
    + intros [[[?|[? _]]|([= <- <-] & _)]|(t & ? & ?)]; [by left|done| |].
      * right. exists t0. split; [by left|done].
      * right. exists t. split; [by right|done].
    + intros [?|(t & [[= -> ->]|?] & <-)]; [by left; left; left| |].
      * left. right. split; [done|]. split; [apply present_add; by rewrite decode_nil|].
        intros n Hin. rewrite registered_snoc. apply elem_of_app. left. by apply Hn.
      * right. by exists t.
Qed.
Lemma reloaded_acts ss : reloaded (acts_ops ss) = false.
Proof.
  unfold acts_ops. induction ss as [|s ss IH]; [done|]. cbn [flat_map]. rewrite reloaded_app, IH, orb_false_r.
  destruct s as [n p|fs]; [done|]. cbn [act_ops]. clear. induction fs as [|f fs IH]; [done|]. cbn [flat_map].
  by rewrite reloaded_app, IH.
Qed.
Lemma l_C43_what_is_found : forall c mx doc ix', (mx <= 0)%Z -> forallb (valid c []) doc = true ->
  runs (acts_ops (doc_acts doc)) ix' -> good_acts [] (doc_acts doc) ->
  exists p, parse c (parser_new index_new mx) (flat_map events doc) = (p, Done) /\
    (forall w, (exists id, (fetch_runes (p_ix p) w).2 = Ok id) <->
       w <> [] /\ exists t g, (t, g) ∈ forms (doc_acts doc) /\ w `prefix_of` runes_of_string t) /\
    (forall w id, (fetch_runes (p_ix p) w).2 = Ok id ->
       node_word (p_ix p) id = Ok (string_of_runes w) /\
       exists sets, node_tag_sets (p_ix p) id = Ok sets /\
         (forall t g, (t, g) ∈ forms (doc_acts doc) -> runes_of_string t = w ->
            exists s, s ∈ sets /\ map tag_name s ≡ₚ g) /\
         (forall s, s ∈ sets -> exists t g, (t, g) ∈ forms (doc_acts doc) /\ runes_of_string t = w /\
            map tag_name s ≡ₚ g)).
Proof.
  intros c mx doc ix' Hmx Hv H' Hg.
  destruct (l_C43_history c [] index_new mx doc ix' Hmx Hv runs_nil H' Hg) as (p & E & Hi).
  exists p. split; [done|]. destruct (Hi []) as [_ Q]. unfold outs in Q. cbn [fold_left fst] in Q.
  assert (Hh : forall w, hd_ok (acts_ops (doc_acts doc)) w) by (intros w; unfold hd_ok; by rewrite reloaded_acts).
  split.
  - intros w. rewrite (q_fetch _ _ Q). rewrite (proj1 (l_C03_found_iff _ ix' w H' (Hh w))).
    unfold present. rewrite added_acts. split.
    + intros (Hne & w' & Hin & Hp). split; [done|]. apply elem_of_list_fmap in Hin as ([t g] & -> & Hin). by exists t, g.
    + intros (Hne & t & g & Hin & Hp). split; [done|]. exists (runes_of_string t). split; [|done].
      apply elem_of_list_fmap. by exists (t, g).
  - intros w id Hid. rewrite (q_fetch _ _ Q) in Hid. rewrite (q_word _ _ Q), (q_tags _ _ Q).
    split; [by apply (l_C08_word _ ix' w id H' (Hh w))|].
    destruct (l_C16_tag_sets_exact _ ix' w id H' (Hh w) Hid) as (sets & Es & H1 & H2 & _).
    exists sets. split; [done|]. split.
    + intros t g Hin Ht. apply H2, attached_acts; [done|]. by exists t.
    + intros s Hs. destruct (H1 s Hs) as (g & Ha & Hp). apply attached_acts in Ha as (t & Hin & Ht); [|done].
      by exists t, g.
Qed.
