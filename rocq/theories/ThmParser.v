(** Proofs of the properties of the parser: C42, C43, C45, C46, C47. *)
From Coq Require Import ZifyBool ZifyNat ZifyN.
From Verif Require Import Base Storage Tags TagSets Variants Items Index DocSpec Parser Calls BaseFacts ParserFacts.
From stdpp Require Import list.
Open Scope N_scope.

(** ** What the pointers of the parser are at each position *)
Definition isS {A} (o : option A) : bool := match o with Some _ => true | None => false end.
Definition prefb (p q : list (list N)) : bool := isS (strip p q).
Record pinv (p : parser) (pos : list (list N)) : Prop := {
  pi_path : p_path p = path_of pos;
  pi_known : known pos = true;
  pi_gram : isS (p_gram p) = prefb p_gramm pos;
  pi_lemma : isS (p_lemma p) = prefb p_lem pos;
  pi_form : isS (p_form p) = prefb p_f pos;
  pi_forms : forall l, p_lemma p = Some l -> Forall (fun o : option form => is_Some o) (l_f l) }.
Lemma pinv_new ix mx : pinv (parser_new ix mx) [].
Proof. by constructor. Qed.

Definition split_last (q : list (list N)) : option (list (list N) * list N) :=
  match rev q with n :: r => Some (rev r, n) | [] => None end.
Definition triples : list (list (list N) * list N * handler) :=
  omap (fun qh => match split_last qh.1 with Some pn => Some (pn, qh.2) | None => None end) by_position.
Lemma split_last_snoc pos n : split_last (pos ++ [n]) = Some (pos, n).
Proof. unfold split_last. rewrite rev_app_distr. cbn. by rewrite rev_involutive. Qed.
Lemma handler_triple pos n h : handler_pos by_position (pos ++ [n]) = Some h -> (pos, n, h) ∈ triples.
Proof.
  unfold triples. induction by_position as [|[q h'] t IH]; [done|]. cbn [handler_pos omap list_omap fst snd].
  destruct (decide (q = pos ++ [n])) as [->|Hne].
  - intros [= ->]. rewrite split_last_snoc. left.
  - intros H%IH. destruct (split_last q); [by right|done].
Qed.
Ltac triple_cases H :=
  apply handler_triple in H;
  let v := eval vm_compute in triples in change triples with v in H;
  repeat (apply elem_of_cons in H as [H|H]; [injection H as -> -> ->|]); [..|by apply elem_of_nil in H].

Lemma start_step c p pos n a : pinv p pos -> no_dot n ->
  let r := process_start c p n a in let pos' := pos ++ [n] in
  (known pos' && attrs_ok c pos' a = true /\ r.2 = Done /\ pinv r.1 pos') \/
  (known pos' && attrs_ok c pos' a = false /\ r.2 = Fail EOpencorpora).
Proof.
  intros [Hp Hk Hg Hl Hf Hfs] Hn. cbv zeta.
  assert (Hd : Forall no_dot (pos ++ [n])) by (apply Forall_app; split; [by apply known_no_dot|by constructor]).
  unfold process_start. cbn [p_path set_path]. rewrite Hp, <- path_of_snoc, handler_path by done.
  destruct (handler_pos by_position (pos ++ [n])) as [h|] eqn:E.
  2: { right. destruct (known (pos ++ [n])) eqn:Ek; [|done].
       apply handler_pos_known in Ek. rewrite E in Ek. by destruct Ek. }
  assert (Hk' : known (pos ++ [n]) = true) by (apply handler_pos_known; by rewrite E).
  rewrite Hk'. cbn [andb].
  destruct p as [path gr l f ix m mx]. cbn [p_path p_gram p_lemma p_form p_ix p_count p_max set_path] in *. subst path.
  triple_cases E;
    (match type of Hg with isS ?x = _ => destruct x as [?t|]; [|] end; try discriminate Hg);
    (match type of Hl with isS ?x = _ => destruct x as [?l|]; [|] end; try discriminate Hl);
    (match type of Hf with isS ?x = _ => destruct x as [?f|]; [|] end; try discriminate Hf).
  - (* dictionary *)
    change (attrs_ok c _ a) with (forallb (fun '(n, v) => if bool_decide (n = bytes_of "version") then is_float c v
      else if bool_decide (n = bytes_of "revision") then is_int c v else true) a).
    rewrite <- process_elem_spec. cbn [on_start]. destruct (process_elem c a); [left|by right].
    split; [done|]. split; [done|]. by constructor.
  - left. split; [done|]. split; [done|]. by constructor.
  - change (attrs_ok c _ a) with (has_attr "parent" a). unfold on_start, has_attr. rewrite get_attr_spec.
    destruct (attr "parent" a); [left|by right]. split; [done|]. split; [done|]. by constructor.
  - left. split; [done|]. split; [done|]. by constructor.
  - left. split; [done|]. split; [done|]. by constructor.
  - left. split; [done|]. split; [done|]. by constructor.
  - left. split; [done|]. split; [done|]. by constructor.
  - left. split; [done|]. split; [done|]. by constructor.
  - left. split; [done|]. split; [done|]. by constructor.
  - left. split; [done|]. split; [done|]. by constructor.
  - left. split; [done|]. split; [done|]. by constructor.
  - (* lemma *)
    change (attrs_ok c _ a) with (has_int c "id" a && has_int c "rev" a). unfold on_start. rewrite !get_int_spec.
    destruct (has_int c "id" a); [|by right]. destruct (has_int c "rev" a); [|by right].
    left. split; [done|]. split; [done|]. constructor; try done. intros l [= <-]. constructor.
  - change (attrs_ok c _ a) with (has_attr "t" a). unfold on_start, has_attr. cbn [p_lemma]. rewrite get_attr_spec.
    destruct (attr "t" a); [left|by right]. split; [done|]. split; [done|]. by constructor.
  - change (attrs_ok c _ a) with (has_attr "v" a). unfold on_start, has_attr. cbn [p_lemma]. rewrite get_attr_spec.
    destruct (attr "v" a); [left|by right]. split; [done|]. split; [done|]. constructor; try done.
    intros l' [= <-]. cbn. by apply Hfs.
  - change (attrs_ok c _ a) with (has_attr "t" a). unfold on_start, has_attr. cbn [p_lemma]. rewrite get_attr_spec.
    destruct (attr "t" a); [left|by right]. split; [done|]. split; [done|]. by constructor.
  - change (attrs_ok c _ a) with (has_attr "v" a). unfold on_start, has_attr. cbn [p_form]. rewrite get_attr_spec.
    destruct (attr "v" a); [left|by right]. split; [done|]. split; [done|]. by constructor.
  - left. split; [done|]. split; [done|]. by constructor.
  - left. split; [done|]. split; [done|]. by constructor.
  - left. split; [done|]. split; [done|]. by constructor.
  - left. split; [done|]. split; [done|]. by constructor.
Qed.
Lemma chars_step p pos s : pinv p pos -> exists p', process_chars p s = (p', Done) /\ pinv p' pos.
Proof.
  intros [Hp Hk Hg Hl Hf Hfs]. unfold process_chars. rewrite Hp.
  destruct (known_handler pos Hk) as (h & -> & Hh).
  assert (Hd : h = HGrammemeName \/ on_chars h s p = (p, Done)) by (destruct h; auto).
  destruct Hd as [-> | ->].
  - destruct p as [path gr l f ix m mx]. cbn [p_path p_gram p_lemma p_form p_ix p_count p_max on_chars] in *.
    assert (Hpos : pos = p_name).
    { revert Hh. unfold by_position. cbn [handler_pos]. repeat (destruct (decide _) as [E|_]; [by rewrite <- ?E|]). done. }
    subst pos. destruct gr as [t|]; [|done]. eexists. split; [done|]. by constructor.
  - exists p. split; [done|]. by constructor.
Qed.
Lemma lemma_loop_calm lg fs : Forall (fun o : option form => is_Some o) fs -> forall ix,
  (lemma_loop ix lg fs).2 <> NilDeref /\ (lemma_loop ix lg fs).2 <> CutPath.
Proof.
  induction 1 as [|o fs [f ->] Hfs IH]; intros ix; [done|]. cbn [lemma_loop].
  destruct (add_string ix (f_text f)) as [ix1 [id|e|]]; [|done..].
  destruct (node_add_tag_set ix1 id (lg ++ f_g f)) as [ix2 [u|e|]]; [|done..]. apply IH.
Qed.
Definition calm_out (o : outcome) : Prop := match o with NilDeref | CutPath => False | _ => True end.
Lemma end_step p pos n : pinv p (pos ++ [n]) ->
  let r := process_end p n in
  (r.2 = Done /\ pinv r.1 pos) \/ (r.2 <> Done /\ calm_out r.2).
Proof.
  intros [Hp Hk Hg Hl Hf Hfs]. cbv zeta. unfold process_end. rewrite Hp.
  destruct (known_handler _ Hk) as (h & -> & E).
  destruct p as [path gr l f ix m mx]. cbn [p_path p_gram p_lemma p_form p_ix p_count p_max] in *. subst path.
  assert (Hcut : forall p1 o, p_path p1 = path_of (pos ++ [n]) ->
    (if (length (p_path p1) <? length n + 1)%nat then (p1, CutPath)
     else (set_path p1 (take (length (p_path p1) - length n - 1) (p_path p1)), o)) =
    (set_path p1 (path_of pos), o)).
  { intros p1 o ->. by rewrite cut_path_ok, cut_path. }
  triple_cases E;
    (match type of Hg with isS ?x = _ => destruct x as [?t|]; [|] end; try discriminate Hg);
    (match type of Hl with isS ?x = _ => destruct x as [?l|]; [|] end; try discriminate Hl);
    (match type of Hf with isS ?x = _ => destruct x as [?f|]; [|] end; try discriminate Hf).
  all: cbn [on_end p_gram p_lemma p_form p_ix p_count p_max].
  all: try (rewrite Hcut by done; left; split; [done|]; by constructor).
  - (* lemma *) destruct (lemma_loop_calm (l_g l) (l_f l) (Hfs _ eq_refl) ix) as [Hc1 Hc2].
    destruct (lemma_loop ix (l_g l) (l_f l)) as [ix1 o]. cbn [snd] in Hc1, Hc2.
    destruct o as [|e| | |]; [|right..].
    + rewrite Hcut by done.
      cbn [snd fst]. destruct (_ && _); [by right|left]. split; [done|]. by constructor.
    + rewrite Hcut by done. done.
    + by destruct Hc1.
    + by destruct Hc2.
    + rewrite Hcut by done. done.
  - (* f *) rewrite Hcut by done.
    left. split; [done|]. constructor; try done. intros l' [= <-]. cbn.
    apply Forall_app. split; [by apply Hfs|]. constructor; [by eexists|constructor].
Qed.
Lemma stream_step c es : forall p st st', Forall ev_no_dot es -> opens st es = Some st' -> pinv p (rev st) ->
  let r := parse c p es in
  (r.2 = Done /\ pinv r.1 (rev st')) \/ (r.2 <> Done /\ calm_out r.2).
Proof.
  induction es as [|e es IH]; intros p st st' Hd Ho Hp; cbn [opens] in Ho.
  { injection Ho as <-. by left. }
  apply Forall_cons in Hd as [He Hd]. cbv zeta. cbn [parse].
  destruct e as [n a|n|s|]; cbn [process].
  - destruct (start_step c p (rev st) n a Hp He) as [(_ & H1 & H2)|(_ & H1)].
    + destruct (process_start c p n a) as [p1 o]. cbn in H1, H2. subst o. by apply (IH p1 (n :: st)).
    + destruct (process_start c p n a) as [p1 o]. cbn in H1. subst o. by right.
  - destruct st as [|m st]; [done|]. destruct (decide (m = n)) as [->|]; [|done].
    destruct (end_step p (rev st) n Hp) as [(H1 & H2)|(H1 & H2)].
    + destruct (process_end p n) as [p1 o]. cbn in H1, H2. subst o. by apply (IH p1 st).
    + destruct (process_end p n) as [p1 o]. cbn in H1, H2. right. by destruct o.
  - destruct (chars_step p (rev st) s Hp) as (p1 & -> & H1). by apply (IH p1 st).
  - by apply (IH p st).
Qed.

(** ** C42 *)
Lemma l_C42_position : forall c ix mx es st p, Forall ev_no_dot es -> opens [] es = Some st ->
  parse c (parser_new ix mx) es = (p, Done) ->
  known (rev st) = true /\ p_path p = flat_map (fun n => dot :: n) (rev st) /\
  (forall pos, Forall no_dot pos -> p_path p = flat_map (fun n => dot :: n) pos -> pos = rev st).
Proof.
  intros c ix mx es st p Hd Ho E.
  destruct (stream_step c es _ [] st Hd Ho (pinv_new ix mx)) as [(_ & Hi)|(H & _)]; rewrite E in *; [|done].
  cbn in Hi. split; [by destruct Hi|]. split; [by destruct Hi|]. intros pos Hp Hpath. destruct Hi as [Hi Hk].
  apply path_of_inj; [done|by apply known_no_dot|]. by rewrite <- Hi.
Qed.
Lemma l_C42_back_at_start : forall c ix mx es p, Forall ev_no_dot es -> opens [] es = Some [] ->
  parse c (parser_new ix mx) es = (p, Done) ->
  p_path p = [] /\ p_gram p = None /\ p_lemma p = None /\ p_form p = None.
Proof.
  intros c ix mx es p Hd Ho E.
  destruct (stream_step c es _ [] [] Hd Ho (pinv_new ix mx)) as [(_ & Hi)|(H & _)]; rewrite E in *; [|done].
  destruct Hi as [Hp _ Hg Hl Hf _]. cbn [fst] in *. split; [done|].
  destruct (p_gram p), (p_lemma p), (p_form p); done.
Qed.
Lemma l_C42_next_element : forall c ix mx es st p n a, Forall ev_no_dot es -> opens [] es = Some st ->
  parse c (parser_new ix mx) es = (p, Done) -> no_dot n ->
  (process c p (EStart n a)).2 =
  (if known (rev (n :: st)) && attrs_ok c (rev (n :: st)) a then Done else Fail EOpencorpora).
Proof.
  intros c ix mx es st p n a Hd Ho E Hn.
  destruct (stream_step c es _ [] st Hd Ho (pinv_new ix mx)) as [(_ & Hi)|(H & _)]; rewrite E in *; [|done].
  cbn [fst] in Hi. cbn [rev process].
  destruct (start_step c p (rev st) n a Hi Hn) as [(H1 & H2 & _)|(H1 & H2)]; by rewrite H1, H2.
Qed.

(** ** C47 *)
Lemma l_C47_no_nil_pointer : forall c ix mx es st, Forall ev_no_dot es -> opens [] es = Some st ->
  (parse c (parser_new ix mx) es).2 <> NilDeref /\ (parse c (parser_new ix mx) es).2 <> CutPath.
Proof.
  intros c ix mx es st Hd Ho.
  destruct (stream_step c es _ [] st Hd Ho (pinv_new ix mx)) as [(-> & Hi)|(_ & H)]; [done|].
  by destruct ((parse c (parser_new ix mx) es).2).
Qed.

(** ** C43 *)
Lemma exec_unlimited mx ss : (mx <= 0)%Z -> forall n ix,
  ((exec mx n ix ss).1.1, (exec mx n ix ss).2) = call_acts ix ss.
Proof.
  intros Hmx. induction ss as [|s ss IH]; intros n ix; [done|]. destruct s as [a b|fs]; cbn [exec call_acts call_act].
  - apply IH.
  - destruct (call_forms ix fs) as [ix1 [ | | | | ]]; [|done..].
    replace (0 <? mx)%Z with false by lia. apply IH.
Qed.
Lemma l_C43_same_as_calls : forall c ix mx doc p o, (mx <= 0)%Z -> forallb (valid c []) doc = true ->
  parse c (parser_new ix mx) (flat_map events doc) = (p, o) ->
  call_acts ix (doc_acts doc) = (p_ix p, o).
Proof.
  intros c ix mx doc p o Hmx Hv E. rewrite <- (exec_unlimited mx _ Hmx 0).
  pose proof (doc_run c mx doc ix 0 Hv) as H. change (idle [] mx ix 0) with (parser_new ix mx) in H. rewrite E in H.
  destruct (exec mx 0 ix (doc_acts doc)) as [[ix1 n1] o1]. cbn [fst snd]. destruct o1; cbn in H.
  - by injection H as -> ->.
  - destruct H as [<- <-]; done.
  - destruct H as [<- <-]; done.
  - destruct H as [<- <-]; done.
  - destruct H as [<- <-]; done.
Qed.

(** induction on trees. *)
Lemma node_rect' (P : node -> Prop) :
  (forall n a k, Forall P k -> P (Elem n a k)) -> (forall s, P (Text s)) -> P Note -> forall k, P k.
Proof.
  intros HE HT HN. fix IH 1. intros [n a k|s|]; [|apply HT|apply HN]. apply HE.
  induction k as [|x k IHk]; constructor; [apply IH|apply IHk].
Qed.
Fixpoint names_no_dot (k : node) : Prop :=
  match k with
  | Elem n _ ks => no_dot n /\ fold_right (fun k acc => names_no_dot k /\ acc) True ks
  | _ => True
  end.
Lemma opens_app es : forall st st' es', opens st es = Some st' -> opens st (es ++ es') = opens st' es'.
Proof.
  induction es as [|e es IH]; intros st st' es'; cbn; [by intros [= <-]|].
  destruct e as [n a|n|s|]; try apply IH. destruct st as [|m st]; [done|]. destruct (decide _); [apply IH|done].
Qed.
Lemma opens_events k : forall st, opens st (events k) = Some st.
Proof.
  induction k as [n a ks IH|s|] using node_rect'; intros st; [|done..]. cbn [events opens].
  assert (H : forall st, opens st (flat_map events ks) = Some st).
  { induction IH as [|k ks Hk Hks IHk]; intros st'; [done|]. cbn [flat_map]. erewrite opens_app; [apply IHk|apply Hk]. }
  erewrite opens_app; [|apply H]. cbn. by rewrite decide_True.
Qed.
Lemma opens_doc doc : opens [] (flat_map events doc) = Some [].
Proof.
  induction doc as [|k doc IH]; [done|]. cbn [flat_map]. erewrite opens_app; [apply IH|apply opens_events].
Qed.
Lemma done_valid_node c k : forall p pos p', Forall ev_no_dot (events k) -> pinv p pos ->
  parse c p (events k) = (p', Done) -> valid c pos k = true /\ pinv p' pos.
Proof.
  induction k as [n a ks IH|s|] using node_rect'; intros p pos p' Hd Hp E.
  - rewrite parse_elem in E. cbn [events] in Hd. apply Forall_cons in Hd as [Hn Hd].
    apply Forall_app in Hd as [Hd _].
    destruct (start_step c p pos n a Hp Hn) as [(H1 & H2 & H3)|(H1 & H2)];
      destruct (process_start c p n a) as [p1 o1]; cbn in H2; subst o1; [|done]. cbn [fst] in H3.
    assert (Hks : forall p1 p2, pinv p1 (pos ++ [n]) -> parse c p1 (flat_map events ks) = (p2, Done) ->
       forallb (valid c (pos ++ [n])) ks = true /\ pinv p2 (pos ++ [n])).
    { clear E H3 p1. induction IH as [|k ks Hk Hks IHk]; intros p1 p2 Hp1 E.
      { injection E as <-. done. }
      cbn [flat_map] in *. apply Forall_app in Hd as [Hd1 Hd2]. rewrite parse_app in E.
      destruct (parse c p1 (events k)) as [p3 o3] eqn:E3. destruct o3; try done.
      destruct (Hk p1 (pos ++ [n]) p3 Hd1 Hp1 E3) as [Hv Hp3]. destruct (IHk Hd2 p3 p2 Hp3 E) as [Hvs Hp2].
      cbn. by rewrite Hv. }
    destruct (parse c p1 (flat_map events ks)) as [p2 o2] eqn:E2. destruct o2; try done.
    destruct (Hks p1 p2 H3 E2) as [Hv Hp2]. cbn [valid]. rewrite H1, Hv. split; [done|].
    destruct (end_step p2 pos n Hp2) as [(H4 & H5)|(H4 & _)]; rewrite E in *; done.
  - cbn [events] in E. rewrite parse_one in E. cbn in E. destruct (chars_step p pos s Hp) as (p1 & E1 & H1).
    rewrite E1 in E. injection E as <-. done.
  - injection E as <-. done.
Qed.
Lemma l_C43_only_known : forall c ix mx doc p, Forall ev_no_dot (flat_map events doc) ->
  parse c (parser_new ix mx) (flat_map events doc) = (p, Done) -> forallb (valid c []) doc = true.
Proof.
  intros c ix mx doc p. generalize (pinv_new ix mx). generalize (parser_new ix mx).
  induction doc as [|k doc IH]; intros p0 Hp Hd E; [done|]. cbn [flat_map] in *.
  apply Forall_app in Hd as [Hd1 Hd2]. rewrite parse_app in E.
  destruct (parse c p0 (events k)) as [p3 o3] eqn:E3. destruct o3; try done.
  destruct (done_valid_node c k p0 [] p3 Hd1 Hp E3) as [Hv Hp3]. cbn [forallb]. rewrite Hv. by apply (IH p3).
Qed.

(** ** C45 *)
Lemma lemmas_cons s ss : lemmas (s :: ss) = ((match s with ALemma _ => 1 | _ => 0 end) + lemmas ss)%nat.
Proof. unfold lemmas. by destruct s. Qed.
Lemma exec_below mx ss : forall n ix, (Z.of_N n + Z.of_nat (lemmas ss) < mx)%Z ->
  exec mx n ix ss = match call_acts ix ss with
    | (ix1, Done) => (ix1, n + N.of_nat (lemmas ss), Done)
    | (ix1, o) => (ix1, (exec mx n ix ss).1.2, o) end.
Proof.
  induction ss as [|s ss IH]; intros n ix Hn.
  { cbn. by rewrite N.add_0_r. }
  rewrite lemmas_cons in *. destruct s as [a b|fs]; cbn [exec call_acts call_act].
  - rewrite IH at 1 by lia. destruct (call_acts _ ss) as [ix1 [ | | | | ]]; done.
  - destruct (call_forms ix fs) as [ix1 [ | | | | ]]; [|done..].
    replace (mx <=? Z.of_N (n + 1))%Z with false by lia. rewrite andb_false_r.
    rewrite IH at 1 by lia. destruct (call_acts ix1 ss) as [ix2 [ | | | | ]]; [|done..]. do 2 f_equal. lia.
Qed.
Lemma call_acts_app ss : forall ix ss', call_acts ix (ss ++ ss') =
  match call_acts ix ss with (ix1, Done) => call_acts ix1 ss' | x => x end.
Proof.
  induction ss as [|s ss IH]; intros ix ss'; [done|]. cbn [app call_acts].
  destruct (call_act ix s) as [ix1 [ | | | | ]]; [|done..]. apply IH.
Qed.
Lemma l_C45_stops_after_limit : forall c ix mx doc pre fs post ix', (0 < mx)%Z ->
  forallb (valid c []) doc = true ->
  doc_acts doc = pre ++ ALemma fs :: post -> Z.of_nat (lemmas pre) = (mx - 1)%Z ->
  call_acts ix (pre ++ [ALemma fs]) = (ix', Done) ->
  exists p, parse c (parser_new ix mx) (flat_map events doc) = (p, Fail EControlledStop) /\ p_ix p = ix'.
Proof.
  intros c ix mx doc pre fs post ix' Hmx Hv Ed Hn Hc.
  pose proof (doc_run c mx doc ix 0 Hv) as H. change (idle [] mx ix 0) with (parser_new ix mx) in H.
  rewrite Ed, exec_app, exec_below in H by lia. rewrite call_acts_app in Hc.
  destruct (call_acts ix pre) as [ix1 o1]. destruct o1; try done. cbn [call_acts call_act] in Hc.
  cbn [exec] in H. destruct (call_forms ix1 fs) as [ix2 o2]. destruct o2; try done. injection Hc as <-.
  replace (0 <? mx)%Z with true in H by lia.
  replace (mx <=? Z.of_N (0 + N.of_nat (lemmas pre) + 1))%Z with true in H by lia. cbn in H.
  destruct (parse c _ _) as [p o]. exists p. cbn in H. destruct H as [-> ->]. done.
Qed.
Lemma l_C45_limit_not_reached : forall c ix mx doc, (0 < mx)%Z -> forallb (valid c []) doc = true ->
  (Z.of_nat (lemmas (doc_acts doc)) < mx)%Z ->
  exists p o, parse c (parser_new ix mx) (flat_map events doc) = (p, o) /\
              call_acts ix (doc_acts doc) = (p_ix p, o).
Proof.
  intros c ix mx doc Hmx Hv Hn.
  pose proof (doc_run c mx doc ix 0 Hv) as H. change (idle [] mx ix 0) with (parser_new ix mx) in H.
  rewrite exec_below in H by lia. destruct (parse c _ _) as [p o]. exists p, o. split; [done|].
  destruct (call_acts ix (doc_acts doc)) as [ix1 o1]. destruct o1; cbn in H.
  - by injection H as -> ->.
  - by destruct H as [<- <-].
  - by destruct H as [<- <-].
  - by destruct H as [<- <-].
  - by destruct H as [<- <-].
Qed.
(** a failure inside the first [mx] lemmas is reported as without a limit. *)
Lemma l_C45_earlier_failure : forall c ix mx doc pre s post ix' o, (0 < mx)%Z ->
  forallb (valid c []) doc = true ->
  doc_acts doc = pre ++ s :: post -> (Z.of_nat (lemmas pre) < mx)%Z ->
  call_acts ix (pre ++ [s]) = (ix', o) -> o <> Done ->
  exists p, parse c (parser_new ix mx) (flat_map events doc) = (p, o) /\ p_ix p = ix'.
Proof.
  intros c ix mx doc pre s post ix' o Hmx Hv Ed Hn Hc Ho.
  pose proof (doc_run c mx doc ix 0 Hv) as H. change (idle [] mx ix 0) with (parser_new ix mx) in H.
  rewrite Ed, exec_app, exec_below in H by lia. rewrite call_acts_app in Hc.
  destruct (parse c _ _) as [p o']. exists p.
  destruct (call_acts ix pre) as [ix1 o1]. destruct o1.
  2-5: (injection Hc as <- <-; cbn in H; by destruct H as [-> ->]).
  cbn [call_acts] in Hc. cbn [exec] in H. destruct s as [a b|fs]; cbn [call_act] in Hc.
  - injection Hc as <- <-. done.
  - destruct (call_forms ix1 fs) as [ix2 o2]. destruct o2; [by injection Hc as <- <-|..].
    all: injection Hc as <- <-; cbn in H; by destruct H as [-> ->].
Qed.

(** Errors of the index are never the controlled stop. *)
Definition no_stop {A} (r : res A) : Prop := r <> Err EControlledStop.
Lemma no_stop_bind {A B} (m : res A) (f : A -> res B) :
  no_stop m -> (forall a, m = Ok a -> no_stop (f a)) -> no_stop (m ≫= f).
Proof. unfold no_stop. intros H1 H2. destruct m as [a|e|]; cbn; [by apply H2|congruence|done]. Qed.
Lemma slice_get_no_stop {A} (l : list A) i : no_stop (slice_get l i).
Proof. unfold slice_get, no_stop. by destruct (l !! _). Qed.
Lemma items_get_no_stop s id : no_stop (items_get s id).
Proof.
  unfold items_get. destruct (_ =? _); [done|]. destruct (_ <=? _); [done|].
  apply no_stop_bind; [apply slice_get_no_stop|done].
Qed.
Lemma add_loop_no_stop w : forall ix p, no_stop (add_loop ix p w).2.
Proof.
  induction w as [|r w IH]; intros ix p; [done|]. cbn [add_loop].
  assert (Hp : no_stop (if (p =? 0) then Ok true
           else oit ← items_get (ix_items ix) p; Ok (match oit with Some _ => true | None => false end))).
  { destruct (p =? 0); [done|]. apply no_stop_bind; [apply items_get_no_stop|done]. }
  destruct (if (p =? 0) then Ok true else _) as [[|]|e|]; [| |intros [= ->]; by apply Hp|done].
  2: done.
  destruct (child _ p r) as [n|].
  - destruct w; [|apply IH]. unfold index_get. cbn. by destruct (_ <=? _).
  - unfold items_new_child. destruct (_ <? _); [|done].
    destruct w; [|apply IH]. unfold index_get. cbn [snd]. by destruct (_ <=? _).
Qed.
Lemma add_string_no_stop ix s : no_stop (add_string ix s).2.
Proof.
  unfold add_string. destruct (_ =? _); [done|]. unfold add_runes, add_to_node.
  destruct (Utf8.runes_of_string s) as [|r w]; [done|]. apply add_loop_no_stop.
Qed.
Lemma add_tags_no_stop ix id names : no_stop (node_add_tag_set ix id names).2.
Proof.
  unfold node_add_tag_set.
  assert (Hn : no_stop (names_to_ids (ix_tags ix) names)).
  { induction names as [|n names IH]; [done|]. cbn [names_to_ids]. destruct (tags_find _ n); [|done].
    by apply no_stop_bind. }
  destruct (names_to_ids _ names) as [ids|e|]; [|intros [= ->]; by apply Hn|done].
  destruct (get_item ix id) as [[it|]|e|]; try done.
  assert (Hx : no_stop (col ← variants_get (ix_cols ix) (it_variants it);
             '(sets, sid) ← tagset_index_index (ix_sets ix) ids;
             '(cols, vid) ← variants_index_index (ix_cols ix) (collection_add col sid);
             Ok (sets, cols, vid))).
  { apply no_stop_bind.
    - unfold variants_get. repeat (destruct (_ : bool); [done|]).
      apply no_stop_bind; [apply slice_get_no_stop|]. intros t _. apply slice_get_no_stop.
    - intros col _. apply no_stop_bind.
      + unfold tagset_index_index. destruct (_ =? _); [done|].
        apply no_stop_bind; [apply slice_get_no_stop|]. intros t _. apply no_stop_bind; [|by intros [? ?]].
        unfold tagset_table_index. by destruct (_ =? _).
      + intros [sets sid] _. apply no_stop_bind; [|by intros [? ?]].
        unfold variants_index_index. repeat (destruct (_ : bool); [done|]).
        apply no_stop_bind; [apply slice_get_no_stop|]. intros t _.
        repeat match goal with |- context [let '(_, _) := ?x in _] => destruct x end. done. }
  destruct (_ ≫= _) as [[[sets cols] vid]|e|]; [done|intros [= ->]; by apply Hx|done].
Qed.
Lemma l_C45_never_without_limit : forall c ix mx es, (mx <= 0)%Z ->
  (parse c (parser_new ix mx) es).2 <> Fail EControlledStop.
Proof.
  intros c ix mx es Hmx.
  assert (Hl : forall lg fs ix, (lemma_loop ix lg fs).2 <> Fail EControlledStop).
  { intros lg fs. induction fs as [|[f|] fs IH]; intros ix'; [done| |done]. cbn [lemma_loop].
    pose proof (add_string_no_stop ix' (f_text f)) as H1.
    destruct (add_string ix' (f_text f)) as [ix1 [id|e|]]; [|cbn in *; unfold no_stop in *; congruence|done].
    pose proof (add_tags_no_stop ix1 id (lg ++ f_g f)) as H2.
    destruct (node_add_tag_set ix1 id (lg ++ f_g f)) as [ix2 [u|e|]]; [|cbn in *; unfold no_stop in *; congruence|done].
    apply IH. }
  assert (Hp : forall p e, p_max p = mx -> (process c p e).2 <> Fail EControlledStop /\
     ((process c p e).2 = Done -> p_max (process c p e).1 = mx)).
  { intros p e Hm. destruct e as [n a|n|s|]; cbn [process]; [| | |done].
    - unfold process_start. destruct (handler_at _) as [h|]; [|done].
      destruct h; cbn; rewrite ?get_attr_spec;
        repeat (match goal with |- context [match ?x with _ => _ end] => destruct x end; cbn); done.
    - unfold process_end. destruct (handler_at _) as [h|]; [|done].
      assert (He : (on_end h p).2 <> Fail EControlledStop /\ p_max (on_end h p).1 = mx).
      { destruct h; cbn [on_end]; try done.
        - by destruct (p_gram p).
        - destruct (p_lemma p) as [l|]; [|done]. pose proof (Hl (l_g l) (l_f l) (p_ix p)) as H.
          destruct (lemma_loop _ _ _) as [ix' o]. destruct o; cbn in *; try done.
          replace (0 <? p_max p)%Z with false by lia. done.
        - by destruct (p_lemma p). }
      destruct (on_end h p) as [p1 o]. cbn in He. destruct (_ <? _)%nat; [done|]. cbn. naive_solver.
    - unfold process_chars. destruct (handler_at _) as [h|]; [|done]. destruct h; cbn; try done.
      by destruct (p_gram p). }
  assert (H0 : p_max (parser_new ix mx) = mx) by done. revert H0. generalize (parser_new ix mx).
  induction es as [|e es IH]; intros p Hm; [done|]. cbn [parse]. destruct (Hp p e Hm) as [H1 H2].
  destruct (process c p e) as [p1 o]. cbn in H1, H2. destruct o; try done. apply IH. by apply H2.
Qed.

(** ** C46 *)
Definition one_grammeme (da ga pa : list (list N * list N)) (kids : list node) : list node :=
  [Elem (bytes_of "dictionary") da [Elem (bytes_of "grammemes") ga [Elem (bytes_of "grammeme") pa kids]]].
Lemma l_C46_one_piece : forall c ix mx da ga pa kids text parent,
  forallb (valid c []) (one_grammeme da ga pa kids) = true ->
  attr "parent" pa = Some parent -> name_pieces kids = [text] ->
  exists p, parse c (parser_new ix mx) (flat_map events (one_grammeme da ga pa kids)) = (p, Done) /\
    p_ix p = (index_tag_id ix text parent).1.
Proof.
  intros c ix mx da ga pa kids text parent Hv Hp Hn.
  pose proof (doc_run c mx _ ix 0 Hv) as H. change (idle [] mx ix 0) with (parser_new ix mx) in H.
  change (doc_acts (one_grammeme da ga pa kids)) with [gram_act (pa, kids)] in H.
  unfold gram_act, attr_or_empty, last_or_empty in H. cbn [fst snd] in H. rewrite Hp, Hn in H. cbn in H.
  eexists. split; [apply H|]. done.
Qed.
Lemma l_C46_last_piece : forall c ix mx da ga pa kids pieces text parent,
  forallb (valid c []) (one_grammeme da ga pa kids) = true ->
  attr "parent" pa = Some parent -> name_pieces kids = pieces ++ [text] ->
  exists p, parse c (parser_new ix mx) (flat_map events (one_grammeme da ga pa kids)) = (p, Done) /\
    p_ix p = (index_tag_id ix text parent).1.
Proof.
  intros c ix mx da ga pa kids pieces text parent Hv Hp Hn.
  pose proof (doc_run c mx _ ix 0 Hv) as H. change (idle [] mx ix 0) with (parser_new ix mx) in H.
  change (doc_acts (one_grammeme da ga pa kids)) with [gram_act (pa, kids)] in H.
  unfold gram_act, attr_or_empty, last_or_empty in H. cbn [fst snd] in H. rewrite Hp, Hn, last_snoc in H. cbn in H.
  eexists. split; [apply H|]. done.
Qed.
