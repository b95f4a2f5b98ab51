(** C85: which errors the functions return and what errors.Is finds in them. *)
From Verif Require Import Base Bin Storage Tags TagSets Variants Items Index DocSpec Parser Loader Errors ErrorSpec ThmParser.
From stdpp Require Import list relations.

(** ** errors.Is *)
Lemma is_contains e t : is_err e t = true <-> contains e t.
Proof.
  unfold contains. split.
  - induction e as [s|n| |e IH]; cbn [is_err]; intros [H | H]%orb_true_iff;
      try (apply bool_decide_eq_true_1 in H; subst; apply rtc_refl); try done.
    + destruct s; try done; apply bool_decide_eq_true_1 in H; subst; by apply rtc_once.
    + eapply rtc_l; [|by apply IH]. done.
  - intros H. induction H as [e|e x t H _ IH].
    + destruct e; cbn [is_err]; by rewrite bool_decide_true.
    + unfold inside in H. destruct e as [s|n| |e]; cbn in H; try done.
      * destruct s; try done; injection H as <-; cbn [is_err] in *; rewrite ?orb_false_r in IH;
          rewrite IH; apply orb_true_r.
      * injection H as <-. cbn [is_err]. rewrite IH. apply orb_true_r.
Qed.
Lemma l_C85_is : forall e t, is_err e t = true <-> contains e t.
Proof. exact is_contains. Qed.

(** ** All errors of a function *)
(** The errors of a function, with [Foreign 0] for any error of another package. *)
Fixpoint shapes (k : nat) (f : func) : list error :=
  match k with
  | O => []
  | S k =>
    flat_map (fun r =>
      match r with
      | Forget s => [Around (Declared s)]
      | Itself s => [Declared s]
      | New => [Text]
      | Out => [Foreign 0]
      | AroundOut => [Around (Foreign 0)]
      | Keep g => shapes k g
      | AroundOf g => Around <$> shapes k g
      | AroundUnless s g => Around <$> filter (fun e => is_err e (Declared s) = false) (shapes k g)
      end) (returns f)
  end.
Fixpoint plug (n : N) (e : error) : error :=
  match e with Foreign _ => Foreign n | Around e => Around (plug n e) | e => e end.
Fixpoint foreign (e : error) : bool :=
  match e with Foreign _ => true | Around e => foreign e | _ => false end.

Lemma plug_is n e s : is_err (plug n e) (Declared s) = is_err e (Declared s).
Proof.
  by induction e as [x|m| |e IH].
Qed.
Lemma foreign_is e n : is_err e (Foreign n) = true -> foreign e = true.
Proof.
  induction e as [x|m| |e IH]; cbn [is_err foreign]; [|done|done|].
  - rewrite bool_decide_false by done. by destruct x.
  - rewrite bool_decide_false by done. apply IH.
Qed.
Lemma foreign_plug e : foreign (plug 0 e) = foreign e.
Proof. induction e; cbn; auto. Qed.
Lemma plug_foreign n e : foreign e = true -> is_err (plug n e) (Foreign n) = true.
Proof.
  induction e as [x|m| |e IH]; cbn [plug is_err foreign]; try done.
  intros _. by rewrite bool_decide_true.
Qed.
Lemma plug_plug n m e : plug n (plug m e) = plug n e.
Proof. induction e; cbn; congruence. Qed.

Lemma shapes_sound k : forall f e n, e ∈ shapes k f -> gives f (plug n e).
Proof.
  induction k as [|k IH]; intros f e n; cbn [shapes]; [by intros ?%elem_of_nil|].
  rewrite elem_of_list_In, in_flat_map. setoid_rewrite <- elem_of_list_In.
  intros (r & Hr & He). destruct r as [s|s| | | |g|g|s g].
  1-5: apply elem_of_list_singleton in He; subst e; by constructor.
  - eapply gives_keep; [done|]. by apply IH.
  - apply elem_of_list_fmap in He as (x & -> & Hx). cbn. eapply gives_around; [done|]. by apply IH.
  - apply elem_of_list_fmap in He as (x & -> & Hx). apply elem_of_list_filter in Hx as [Hs Hx].
    cbn. eapply gives_unless; [done|by apply IH|]. by rewrite plug_is.
Qed.

Definition from_ret (errs : func -> list error) (r : ret) : list error :=
  match r with
  | Forget s => [Around (Declared s)]
  | Itself s => [Declared s]
  | New => [Text]
  | Out => [Foreign 0]
  | AroundOut => [Around (Foreign 0)]
  | Keep g => errs g
  | AroundOf g => Around <$> errs g
  | AroundUnless s g => Around <$> filter (fun e => is_err e (Declared s) = false) (errs g)
  end.
Lemma shapes_S k f : shapes (S k) f = flat_map (from_ret (shapes k)) (returns f).
Proof. done. Qed.
(** The call graph has no cycles; nine steps are enough. *)
Definition all_errors (f : func) : list error := shapes 9 f.
Lemma step_all f : flat_map (from_ret all_errors) (returns f) = all_errors f.
Proof. destruct f; vm_compute; reflexivity. Qed.
Lemma step_in f r e : r ∈ returns f -> e ∈ from_ret all_errors r -> e ∈ all_errors f.
Proof.
  intros Hr He. rewrite <- step_all.
  rewrite elem_of_list_In, in_flat_map. exists r. by rewrite <- !elem_of_list_In.
Qed.
Local Opaque all_errors.
Lemma all_complete f e : gives f e -> plug 0 e ∈ all_errors f.
Proof.
  induction 1 as [f s Hr|f s Hr|f Hr|f n Hr|f n Hr|f g e Hr Hg IH|f g e Hr Hg IH|f s g e Hr Hg IH Hs];
    (eapply step_in; [exact Hr|]); cbn [from_ret plug].
  1-5: apply elem_of_list_here.
  - done.
  - by apply elem_of_list_fmap_1.
  - apply elem_of_list_fmap_1. apply elem_of_list_filter. by rewrite plug_is.
Qed.
Lemma gives_all f e : gives f e <-> exists x n, x ∈ all_errors f /\ e = plug n x.
Proof.
  split.
  - intros H. pose proof (all_complete f e H) as Hx.
    assert (Hp : exists n, e = plug n (plug 0 e)).
    { clear. induction e as [s|n| |e [n IH]]; cbn; [by exists 0%N|by exists n|by exists 0%N|].
      exists n. congruence. }
    destruct Hp as [n Hn]. by exists (plug 0 e), n.
  - intros (x & n & Hx & ->). by apply (shapes_sound 9).
Qed.

Definition always_b (f : func) (s : sentinel) : bool :=
  match all_errors f with [] => false | l => forallb (fun e => is_err e (Declared s)) l end.
Definition sometimes_b (f : func) (s : sentinel) : bool := existsb (fun e => is_err e (Declared s)) (all_errors f).
Definition cause_b (f : func) : bool := existsb foreign (all_errors f).

Lemma always_spec f s : always f s <-> always_b f s = true.
Proof.
  unfold always, always_b. setoid_rewrite gives_all. destruct (all_errors f) as [|x l] eqn:E.
  { split; [|done]. intros [(e & y & n & Hy & _) _]. by apply elem_of_nil in Hy. }
  rewrite forallb_forall. setoid_rewrite <- elem_of_list_In. setoid_rewrite is_contains. split.
  - intros [_ H] y Hy. specialize (H (plug 0 y) (ex_intro _ y (ex_intro _ 0%N (conj Hy eq_refl)))).
    rewrite <- is_contains, plug_is in H. by apply is_contains.
  - intros H. split.
    + exists (plug 0 x), x, 0%N. split; [apply elem_of_list_here|done].
    + intros e (y & n & Hy & ->). apply is_contains. rewrite plug_is. by apply is_contains, H.
Qed.
Lemma sometimes_spec f s : sometimes f s <-> sometimes_b f s = true.
Proof.
  unfold sometimes, sometimes_b. setoid_rewrite gives_all. rewrite existsb_exists.
  setoid_rewrite <- elem_of_list_In. split.
  - intros (e & (y & n & Hy & ->) & Hc). exists y. split; [done|].
    by rewrite <- is_contains, plug_is in Hc.
  - intros (y & Hy & Hc). exists (plug 0 y). split; [by exists y, 0%N|].
    by apply is_contains; rewrite plug_is.
Qed.
Lemma cause_spec f : shows_cause f <-> cause_b f = true.
Proof.
  unfold shows_cause, cause_b. setoid_rewrite gives_all. rewrite existsb_exists.
  setoid_rewrite <- elem_of_list_In. split.
  - intros (e & n & (y & m & Hy & ->) & Hc). exists y. split; [done|].
    apply is_contains, foreign_is in Hc. rewrite <- (foreign_plug y), <- Hc.
    rewrite <- (foreign_plug (plug m y)), plug_plug. done.
  - intros (y & Hy & Hc). exists (plug 0 y), 0%N. split; [by exists y, 0%N|].
    by apply is_contains, plug_foreign.
Qed.

(** A boolean on functions is membership in a list: all functions are looked at. *)
Lemma by_cases (b : func -> bool) (l : list func) :
  (forall f, b f = bool_decide (f ∈ l)) -> forall f, b f = true <-> f ∈ l.
Proof. intros H f. rewrite H. apply bool_decide_eq_true. Qed.
Ltac look := apply by_cases; intros []; vm_compute; reflexivity.

Lemma l_C85_index : forall f, always f SIndex <-> f ∈
  [FTagSetRead; FTagSetWrite; FTagSetWriteTo; FTableRead; FTableWrite; FSetsRead; FSetsWrite;
   FCollectionRead; FCollectionWrite; FColTableRead; FColTableWrite; FColsRead; FColsWrite;
   FSecTagsRead; FSecTagsWrite; FSecSetsRead; FSecSetsWrite; FSecColsRead; FSecColsWrite; FSecItemsRead; FSecItemsWrite;
   FIndexRead; FIndexWrite; FGet; FAddToNode; FAddRunes; FAddString;
   FFetchFromItem; FFetchItemFromParent; FFetchRunes; FFetchString; FAddTagSet].
Proof. intros f. rewrite always_spec. revert f. look. Qed.
Lemma l_C85_index_outside : forall f, sometimes f SIndex /\ ~ always f SIndex <-> f ∈
  [FItemsWrite; FHandlerEnd; FEnd; FParseXML; FParseUpdate; FUpdate].
Proof.
  intros f. rewrite sometimes_spec, always_spec, not_true_iff_false, <- negb_true_iff, <- andb_true_iff. revert f. look.
Qed.
Lemma l_C85_opencorpora : forall f, always f SOpencorpora <-> f ∈
  [FProcessElem; FHandlerStart; FStart; FChars; FLoad; FSave].
Proof. intros f. rewrite always_spec. revert f. look. Qed.
Lemma l_C85_opencorpora_not_always_refuted : forall f, sometimes f SOpencorpora /\ ~ always f SOpencorpora <-> f ∈
  [FHandlerEnd; FEnd; FParseXML; FParseUpdate; FUpdate].
Proof.
  intros f. rewrite sometimes_spec, always_spec, not_true_iff_false, <- negb_true_iff, <- andb_true_iff. revert f. look.
Qed.
Lemma l_C85_cause : forall f, shows_cause f <-> f ∈
  [FItemRead; FItemWrite; FItemsRead; FItemsWrite; FTagSetReadFrom; FMakePath; FParseXML;
   FIsRequired; FDownload; FUnpack; FParseUpdate; FUpdate; FSet8Read; FSet8Write; FSet16Read; FSet16Write].
Proof. intros f. rewrite cause_spec. revert f. look. Qed.
Lemma l_C85_stop : forall f e, gives f e ->
  (contains e (Declared SStop) <-> e = Declared SStop) /\
  (contains e (Declared SStop) -> f = FHandlerEnd \/ f = FEnd \/ f = FParseXML).
Proof.
  intros f e H. apply gives_all in H as (x & n & Hx & ->).
  assert (Hb : forall f, forallb (fun e => implb (is_err e (Declared SStop)) (bool_decide (e = Declared SStop))) (all_errors f) = true)
    by (intros []; vm_compute; reflexivity).
  specialize (Hb f). rewrite forallb_forall in Hb. specialize (Hb x). rewrite <- elem_of_list_In in Hb.
  specialize (Hb Hx). rewrite <- is_contains, plug_is.
  assert (Hs : is_err x (Declared SStop) = true -> x = Declared SStop).
  { intros E. rewrite E in Hb. by apply bool_decide_eq_true_1 in Hb. }
  split; [split|].
  - intros E. by rewrite (Hs E).
  - destruct x; cbn; try done. by intros [= ->].
  - intros E. assert (Hf : f ∈ [FHandlerEnd; FEnd; FParseXML]).
    { apply (by_cases (fun f => sometimes_b f SStop)); [intros []; vm_compute; reflexivity|].
      apply existsb_exists. exists x. by rewrite <- elem_of_list_In. }
    rewrite !elem_of_cons, elem_of_nil in Hf. naive_solver.
Qed.
Lemma l_C85_stays_inside : forall f,
  (sometimes f SNilWriter <-> f = FSetsWrite) /\ (sometimes f SNilReader <-> f = FSetsRead) /\
  (sometimes f SGrammar <-> f ∈ [FNameMarshal; FNameUnmarshal; FNameRead; FNameWrite; FTagRead; FTagWrite]) /\
  (sometimes f SUnmarshal <-> f = FTagsRead) /\ (sometimes f SMarshal <-> f = FTagsWrite).
Proof.
  intros f. rewrite !sometimes_spec.
  assert (Hone : forall g, f = g <-> f ∈ [g]) by (intros g; by rewrite elem_of_list_singleton).
  rewrite !Hone. clear Hone. refine (conj _ (conj _ (conj _ (conj _ _)))); revert f; look.
Qed.
Lemma l_C85_storage_refuted : forall f,
  (sometimes f SStorage <-> f = FSet8Write \/ f = FSet16Write) /\ ~ always f SStorage /\
  (sometimes f SSet8 <-> f = FSet8Write) /\ (sometimes f SSet16 <-> f = FSet16Write).
Proof.
  intros f. rewrite !sometimes_spec, always_spec.
  assert (Hone : forall g, f = g <-> f ∈ [g]) by (intros g; by rewrite elem_of_list_singleton).
  assert (Htwo : f = FSet8Write \/ f = FSet16Write <-> f ∈ [FSet8Write; FSet16Write])
    by (rewrite elem_of_cons, elem_of_list_singleton; done).
  rewrite Htwo, !Hone. clear Hone Htwo. refine (conj _ (conj _ (conj _ _))); [revert f; look| |revert f; look|revert f; look].
  destruct f; vm_compute; done.
Qed.

(** ** The parser *)
Definition only_index {A} (r : res A) : Prop := forall x, r = Err x -> x = EIndex.
Lemma only_bind {A B} (m : res A) (f : A -> res B) :
  only_index m -> (forall a, m = Ok a -> only_index (f a)) -> only_index (m ≫= f).
Proof. unfold only_index. intros H1 H2. destruct m as [a|e|]; cbn; [by apply H2|intros ? [= <-]; by apply H1|done]. Qed.
Lemma slice_get_only {A} (l : list A) i : only_index (slice_get l i).
Proof. unfold slice_get, only_index. by destruct (l !! _). Qed.
Lemma items_get_only s id : only_index (items_get s id).
Proof.
  unfold items_get. destruct (_ =? _)%N; [done|]. destruct (_ <=? _)%N; [done|].
  apply only_bind; [apply slice_get_only|done].
Qed.
Lemma add_loop_only w : forall ix p, only_index (add_loop ix p w).2.
Proof.
  induction w as [|r w IH]; intros ix p; [done|]. cbn [add_loop].
  assert (Hp : only_index (if (p =? 0)%N then Ok true
           else oit ← items_get (ix_items ix) p; Ok (match oit with Some _ => true | None => false end))).
  { destruct (p =? 0)%N; [done|]. apply only_bind; [apply items_get_only|done]. }
  destruct (if (p =? 0)%N then Ok true else _) as [[|]|e|]; [| |intros x [= <-]; by apply Hp|done].
  2: by intros x [= <-].
  destruct (child _ p r) as [n|].
  - destruct w; [|apply IH]. unfold index_get, only_index. cbn. destruct (_ <=? _)%N; [|done]. by intros x [= <-].
  - unfold items_new_child. destruct (_ <? _)%N; [|done].
    destruct w; [|apply IH]. unfold index_get, only_index. cbn [snd]. destruct (_ <=? _)%N; [|done]. by intros x [= <-].
Qed.
Lemma add_string_only ix s : only_index (add_string ix s).2.
Proof.
  unfold add_string. destruct (_ =? _)%N; [by intros x [= <-]|]. unfold add_runes, add_to_node.
  destruct (Utf8.runes_of_string s) as [|r w]; [by intros x [= <-]|]. apply add_loop_only.
Qed.
Lemma add_tags_only ix id names : only_index (node_add_tag_set ix id names).2.
Proof.
  unfold node_add_tag_set.
  assert (Hn : only_index (names_to_ids (ix_tags ix) names)).
  { induction names as [|n names IH]; [done|]. cbn [names_to_ids]. destruct (tags_find _ n); [|by intros x [= <-]].
    by apply only_bind. }
  destruct (names_to_ids _ names) as [ids|e|]; [|intros x [= <-]; by apply Hn|done].
  destruct (get_item ix id) as [[it|]|e|]; [|done..].
  assert (Hx : only_index (col ← variants_get (ix_cols ix) (it_variants it);
             '(sets, sid) ← tagset_index_index (ix_sets ix) ids;
             '(cols, vid) ← variants_index_index (ix_cols ix) (collection_add col sid);
             Ok (sets, cols, vid))).
  { apply only_bind.
    - unfold variants_get. repeat (destruct (_ : bool); [done|]).
      apply only_bind; [apply slice_get_only|]. intros t _. apply slice_get_only.
    - intros col _. apply only_bind.
      + unfold tagset_index_index. destruct (_ =? _)%N; [done|].
        apply only_bind; [apply slice_get_only|]. intros t _. apply only_bind; [|by intros [? ?]].
        unfold tagset_table_index. by destruct (_ =? _)%N.
      + intros [sets sid] _. apply only_bind; [|by intros [? ?]].
        unfold variants_index_index. repeat (destruct (_ : bool); [done|]).
        apply only_bind; [apply slice_get_only|]. intros t _.
        repeat match goal with |- context [let '(_, _) := ?x in _] => destruct x end. done. }
  destruct (_ ≫= _) as [[[sets cols] vid]|e|]; [done|intros x [= <-]; by apply Hx|done].
Qed.
Lemma lemma_loop_only lg fs : forall ix x, (lemma_loop ix lg fs).2 = Fail x -> x = EIndex.
Proof.
  induction fs as [|[f|] fs IH]; intros ix x; [done| |done]. cbn [lemma_loop].
  pose proof (add_string_only ix (f_text f)) as H1.
  destruct (add_string ix (f_text f)) as [ix1 [id|e|]]; [|intros [= <-]; by apply H1|done].
  pose proof (add_tags_only ix1 id (lg ++ f_g f)) as H2.
  destruct (node_add_tag_set ix1 id (lg ++ f_g f)) as [ix2 [u|e|]]; [|intros [= <-]; by apply H2|done].
  apply IH.
Qed.
Definition parser_code (x : err) : Prop := x = EOpencorpora \/ x = EIndex \/ x = EControlledStop.
Lemma process_codes c p e x : (process c p e).2 = Fail x -> parser_code x.
Proof.
  unfold parser_code. destruct e as [n a|n|s|]; cbn [process]; [| | |done].
  - unfold process_start. destruct (handler_at _) as [h|]; [|intros [= <-]; by left].
    destruct h; cbn; rewrite ?get_attr_spec;
      repeat (match goal with |- context [match ?y with _ => _ end] => destruct y end; cbn); try done; intros [= <-]; by left.
  - unfold process_end. destruct (handler_at _) as [h|]; [|intros [= <-]; by left].
    assert (He : (on_end h p).2 = Fail x -> x = EIndex \/ x = EControlledStop).
    { destruct h; cbn [on_end]; try done.
      - by destruct (p_gram p).
      - destruct (p_lemma p) as [l|]; [|done]. pose proof (lemma_loop_only (l_g l) (l_f l) (p_ix p) x) as H.
        destruct (lemma_loop _ _ _) as [ix' o]. destruct o; cbn in *; try done; [|naive_solver].
        destruct (_ && _); [|done]. intros [= <-]. by right.
      - by destruct (p_lemma p). }
    destruct (on_end h p) as [p1 o]. cbn in He. destruct (_ <? _)%nat; [done|]. cbn. naive_solver.
  - unfold process_chars. destruct (handler_at _) as [h|]; [|intros [= <-]; by left]. destruct h; cbn; try done.
    by destruct (p_gram p).
Qed.
Lemma parse_codes c es : forall p x, (parse c p es).2 = Fail x -> parser_code x.
Proof.
  induction es as [|e es IH]; intros p x; [done|]. cbn [parse].
  pose proof (process_codes c p e x) as H. destruct (process c p e) as [p1 o]. cbn in H.
  destruct o; try done. apply IH.
Qed.
Lemma parser_error_given x : parser_code x -> gives FParseXML (parser_error x).
Proof.
  intros H. change (parser_error x) with (id (parser_error x)).
  replace (id (parser_error x)) with (plug 0 (parser_error x)) by (by destruct H as [-> | [-> | ->]]).
  apply (shapes_sound 9), elem_of_list_In. destruct H as [-> | [-> | ->]]; vm_compute; intuition.
Qed.
Lemma l_C85_parser : forall c ix mx es p x, parse c (parser_new ix mx) es = (p, Fail x) ->
  gives FParseXML (parser_error x) /\
  (contains (parser_error x) (Declared SStop) <-> x = EControlledStop) /\
  (contains (parser_error x) (Declared SIndex) <-> x = EIndex) /\
  (contains (parser_error x) (Declared SOpencorpora) <-> x = EOpencorpora \/ x = EControlledStop).
Proof.
  intros c ix mx es p x H. assert (Hx : parser_code x) by (eapply parse_codes; by rewrite H).
  split; [by apply parser_error_given|]. rewrite <- !is_contains.
  destruct Hx as [-> | [-> | ->]]; cbn; naive_solver.
Qed.
Lemma parse_update_given e s x : parse_update_error e s = Some x -> gives FParseUpdate x.
Proof.
  assert (Hf : gives FParseUpdate (Around (Declared SOpencorpora))) by (apply gives_forget; apply elem_of_list_here).
  assert (Ha : forall y, gives FParseXML y -> is_err y (Declared SStop) = false -> gives FParseUpdate (Around y)).
  { intros y Hy Hs. eapply (gives_unless _ SStop FParseXML); [|done|done]. cbn. by right; left. }
  assert (Ho : forall n, gives FParseXML (Foreign n)) by (intros n; apply gives_out; apply elem_of_list_here).
  unfold parse_update_error. destruct (if e_open_xml e then _ else _) as [f|].
  2: { intros [= <-]. by apply Ha. }
  destruct (e_tokens e (f_bytes f)) as [es ends]. destruct (parse _ _ es) as [p o] eqn:Ep.
  destruct o as [|y| | |]; try (intros [= <-]; exact Hf).
  - destruct ends; [|intros [= <-]; by apply Ha]. destruct (save_index _ _ _).2; [done|..]; intros [= <-]; exact Hf.
  - destruct (is_err _ _) eqn:Ei.
    + destruct (save_index _ _ _).2; [done|..]; intros [= <-]; exact Hf.
    + intros [= <-]. apply Ha; [|done]. apply parser_error_given. eapply parse_codes. by rewrite Ep.
Qed.
Lemma l_C85_parse_update : forall e s,
  (parse_update_error e s = None <-> (parse_update e s).2 = Ok tt) /\
  (forall x, parse_update_error e s = Some x -> gives FParseUpdate x /\ (parse_update e s).2 = Err EOpencorpora).
Proof.
  intros e s.
  assert (H : match parse_update_error e s with None => (parse_update e s).2 = Ok tt | Some _ => (parse_update e s).2 = Err EOpencorpora end).
  { assert (Hs : forall ix, match (match (save_index e s ix).2 with Ok _ => None | _ => Some (Around (Declared SOpencorpora)) end) with
        | None => (let '(us, r) := save_index e s ix in (us, match r with Panic => Err EOpencorpora | _ => r end)).2 = Ok tt
        | Some _ => (let '(us, r) := save_index e s ix in (us, match r with Panic => Err EOpencorpora | _ => r end)).2 = Err EOpencorpora end).
    { intros ix. assert (Hr : forall x, (save_index e s ix).2 = Err x -> x = EOpencorpora).
      { unfold save_index. destruct (negb _); [by intros ? [= <-]|]. destruct (optimize ix); [|done|done].
        destruct (index_write _) as [[bs werr]| |]; [|done|done]. destruct (copy _ _ _ _) as [us ok]. destruct (ok && _); [done|by intros ? [= <-]]. }
      destruct (save_index e s ix) as [us [[]|x|]]; cbn in *; [done| |done]. by rewrite (Hr x). }
    unfold parse_update, parse_update_error, parse_file. destruct (if e_open_xml e then _ else _) as [f|]; [|done].
    destruct (e_tokens e (f_bytes f)) as [es ends]. destruct (parse _ _ es) as [p o] eqn:Ep.
    destruct o as [|y| | |]; try done.
    - destruct ends; [apply Hs|done].
    - assert (Hy : parser_code y) by (eapply parse_codes; by rewrite Ep).
      destruct Hy as [-> | [-> | ->]]; cbn; [done|done|]. apply Hs. }
  split.
  - destruct (parse_update_error e s); [|done]. rewrite H. done.
  - intros x Hx. split; [by eapply parse_update_given|]. by rewrite Hx in H.
Qed.
(** What a caller can tell from the error. *)
Definition told (x : error) (absent empty : Prop) : Prop :=
  (contains x (Declared SOpencorpora) <-> ~ contains x (Declared SIndex) /\ ~ exists n, contains x (Foreign n)) /\
  ~ contains x (Declared SStop) /\ (contains x (Foreign 0) <-> absent) /\ (contains x (Declared SIndex) <-> empty).
Lemma has_not e t : is_err e t = false -> ~ contains e t.
Proof. intros H Hc. apply is_contains in Hc. congruence. Qed.
Lemma has e t : is_err e t = true -> contains e t.
Proof. apply is_contains. Qed.
Lemma told_own x (P Q : Prop) : ~ P -> ~ Q ->
  x = Around (Declared SOpencorpora) \/ x = Around (Around (Declared SOpencorpora)) -> told x P Q.
Proof.
  intros HP HQ Hx.
  assert (H1 : contains x (Declared SOpencorpora)) by (apply has; by destruct Hx as [-> | ->]).
  assert (H2 : ~ contains x (Declared SIndex)) by (apply has_not; by destruct Hx as [-> | ->]).
  assert (H3 : ~ contains x (Declared SStop)) by (apply has_not; by destruct Hx as [-> | ->]).
  assert (H4 : forall n, ~ contains x (Foreign n)) by (intros n; apply has_not; by destruct Hx as [-> | ->]).
  split; [split; [intros _; split; [done|intros [n Hn]; by apply (H4 n)]|done]|].
  split; [done|]. split; split; try done. intros Hn. by apply H4 in Hn.
Qed.
Lemma told_foreign k (P Q : Prop) : (k = 0%N <-> P) -> ~ Q -> told (Around (Foreign k)) P Q.
Proof.
  intros HP HQ.
  assert (H1 : ~ contains (Around (Foreign k)) (Declared SOpencorpora)) by by apply has_not.
  assert (H2 : ~ contains (Around (Foreign k)) (Declared SIndex)) by by apply has_not.
  assert (H3 : ~ contains (Around (Foreign k)) (Declared SStop)) by by apply has_not.
  assert (H4 : forall n, contains (Around (Foreign k)) (Foreign n) <-> k = n).
  { intros n. rewrite <- is_contains. cbn [is_err]. rewrite bool_decide_false by done.
    rewrite orb_false_r. cbn. rewrite bool_decide_eq_true. split; [by intros [= ->]|by intros ->]. }
  split; [split; [done|]|].
  - intros [_ H]. exfalso. apply H. exists k. by apply H4.
  - split; [done|]. rewrite (H4 0%N). done.
Qed.
Lemma told_index (P Q : Prop) : ~ P -> Q -> told (Around (Around (Around (Declared SIndex)))) P Q.
Proof.
  intros HP HQ. set (x := Around (Around (Around (Declared SIndex)))).
  assert (H1 : ~ contains x (Declared SOpencorpora)) by by apply has_not.
  assert (H2 : contains x (Declared SIndex)) by by apply has.
  assert (H3 : ~ contains x (Declared SStop)) by by apply has_not.
  assert (H4 : ~ contains x (Foreign 0)) by by apply has_not.
  split; [split; [done|by intros [? ?]]|]. split; [done|]. done.
Qed.
Lemma told_all e s x : parse_update_error e s = Some x ->
  told x (e_open_xml e = false \/ fs_xml s = None) (exists f, e_open_xml e = true /\ fs_xml s = Some f /\
     (parse (e_conv e) (parser_new index_new 0) (e_tokens e (f_bytes f)).1).2 = Fail EIndex).
Proof.
  unfold parse_update_error.
  destruct (e_open_xml e) eqn:Eo; [destruct (fs_xml s) as [f|] eqn:Ex|].
  2: { intros [= <-]. apply told_foreign; [split; [by right|done]|]. by intros (? & _ & ? & _). }
  2: { intros [= <-]. apply told_foreign; [split; [by left|done]|]. by intros (? & ? & _). }
  destruct (e_tokens e (f_bytes f)) as [es ends] eqn:Et. destruct (parse _ _ es) as [p o] eqn:Ep.
  assert (HP : ~ (true = false \/ Some f = None)) by by intros [? | ?].
  assert (HQ : (exists f0, true = true /\ Some f = Some f0 /\ (parse (e_conv e) (parser_new index_new 0) (e_tokens e (f_bytes f0)).1).2 = Fail EIndex) <-> o = Fail EIndex).
  { split; [|by intros ->; exists f; rewrite Et; cbn; rewrite Ep].
    intros (f0 & _ & [= <-] & H). rewrite Et in H. cbn [fst] in H. by rewrite Ep in H. }
  assert (Hsv : forall A (r : res A), match r with Ok _ => None | _ => Some (Around (Declared SOpencorpora)) end = Some x -> x = Around (Declared SOpencorpora))
    by (intros A [?|?|]; [done|by intros [= <-]|by intros [= <-]]).
  destruct o as [|y| | |].
  - destruct ends; [intros ->%Hsv; apply told_own; [done|by rewrite HQ|by left]|].
    intros [= <-]. apply told_foreign; [by split|by rewrite HQ].
  - assert (Hy : parser_code y) by (eapply parse_codes; by rewrite Ep).
    destruct Hy as [-> | [-> | ->]]; cbn [parser_error].
    + change (is_err _ _) with false at 1. intros [= <-]. apply told_own; [done|by rewrite HQ|by right].
    + change (is_err _ _) with false at 1. intros [= <-]. apply told_index; [done|by rewrite HQ].
    + change (is_err _ _) with true at 1. intros ->%Hsv. apply told_own; [done|by rewrite HQ|by left].
  - intros [= <-]. apply told_own; [done|by rewrite HQ|by left].
  - intros [= <-]. apply told_own; [done|by rewrite HQ|by left].
  - intros [= <-]. apply told_own; [done|by rewrite HQ|by left].
Qed.
Lemma l_C85_compile_cause : forall e s x, parse_update_error e s = Some x ->
  (contains x (Declared SOpencorpora) <-> ~ contains x (Declared SIndex) /\ ~ exists n, contains x (Foreign n)) /\
  ~ contains x (Declared SStop) /\
  (contains x (Foreign 0) <-> e_open_xml e = false \/ fs_xml s = None) /\
  (contains x (Declared SIndex) <-> exists f, e_open_xml e = true /\ fs_xml s = Some f /\
     (parse (e_conv e) (parser_new index_new 0) (e_tokens e (f_bytes f)).1).2 = Fail EIndex).
Proof. exact told_all. Qed.
