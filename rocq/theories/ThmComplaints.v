(** C95: what the parser says about a document it refuses. *)
From Verif Require Import Base Storage Utf8 Tags Items Index DocSpec Parser Messages MessageSpec Complaints ComplaintSpec
  ParserFacts ThmParser ThmMessages.
From stdpp Require Import list.
Open Scope N_scope.

(** ** The functions are those of Parser.v *)
Lemma int_attr_same v c n a :
  match int_attr_said v c (bytes_of n) a with
  | Fine _ => get_int_attr c (bytes_of n) a = true
  | Failed t => get_int_attr c (bytes_of n) a = false /\ bad_int v c a n t
  | Crashed => False
  end.
Proof.
  unfold int_attr_said, get_int_attr, attr_said, quoted. rewrite get_attr_spec. destruct (attr n a) as [x|] eqn:E.
  - destruct (is_int c x) eqn:Ei; [done|]. split; [done|].
    pose proof (bi_wrong v c a n x E Ei) as H. rewrite <- !app_assoc. exact H.
  - split; [done|]. exact (bi_missing v c a n E).
Qed.
Lemma elem_same v c a : same_kind (elem_said v c a) (if process_elem c a then Done else Fail EOpencorpora).
Proof.
  induction a as [|[n x] a IH]; [done|]. cbn [elem_said process_elem].
  destruct (bool_decide (n = bytes_of "version")); [destruct (is_float c x); [done|by eexists]|].
  destruct (bool_decide (n = bytes_of "revision")); [destruct (is_int c x); [done|by eexists]|done].
Qed.
Lemma on_start_same v c h a p :
  (on_start_said v c h a p).1 = (on_start c h a p).1 /\ same_kind (on_start_said v c h a p).2 (on_start c h a p).2.
Proof.
  destruct h; cbn [on_start_said on_start].
  - done.
  - split; [done|apply elem_same].
  - destruct (get_attr _ a); cbn; [done|]. split; [done|by eexists].
  - done.
  - split; [done|]. cbn [snd]. pose proof (int_attr_same v c "id" a) as H1. pose proof (int_attr_same v c "rev" a) as H2.
    destruct (int_attr_said v c (bytes_of "id") a) as [[]|t|]; [rewrite H1|destruct H1 as [-> _]; by eexists|done].
    destruct (int_attr_said v c (bytes_of "rev") a) as [[]|t|]; [by rewrite H2|destruct H2 as [-> _]; by eexists|done].
  - destruct (p_lemma p); [|by (split; [|left])]. split; [done|]. unfold attr_said. destruct (get_attr _ a); [done|by eexists].
  - unfold attr_said. destruct (get_attr _ a); [|split; [done|by eexists]]. destruct (p_lemma p); [done|by (split; [|left])].
  - unfold attr_said. destruct (get_attr _ a); [done|split; [done|by eexists]].
  - unfold attr_said. destruct (get_attr _ a); [|split; [done|by eexists]]. destruct (p_form p); [done|by (split; [|left])].
Qed.
Lemma on_end_other h p : h <> HLemma \/ p_lemma p = None ->
  (on_end h p).2 = Done \/ (on_end h p).2 = NilDeref.
Proof.
  intros H. destruct h; cbn [on_end]; auto.
  - destruct (p_gram p); auto.
  - destruct H as [H|H]; [done|]. rewrite H. auto.
  - destruct (p_lemma p); auto.
Qed.
Lemma on_end_same h p : (on_end_said h p).1 = (on_end h p).1 /\ same_kind (on_end_said h p).2 (on_end h p).2.
Proof.
  assert (Ho : h <> HLemma \/ p_lemma p = None ->
    on_end_said h p = match on_end h p with (p1, Done) => (p1, Fine tt) | (p1, _) => (p1, Crashed) end ->
    (on_end_said h p).1 = (on_end h p).1 /\ same_kind (on_end_said h p).2 (on_end h p).2).
  { intros H ->. apply on_end_other in H. destruct (on_end h p) as [p1 o]. cbn [snd] in H.
    destruct H as [-> | ->]; [done|]. by (split; [|left]). }
  destruct h; try (apply Ho; [by left|done]).
  unfold on_end_said in *. destruct (p_lemma p) as [l|] eqn:El; [|by apply Ho; [right|]]. clear Ho.
  cbn [on_end]. rewrite El. destruct (lemma_same (l_g l) (l_f l) (p_ix p)) as [E H].
  destruct (lemma_said (p_ix p) (l_g l) (l_f l)) as [ix [[]|t|]], (lemma_loop (p_ix p) (l_g l) (l_f l)) as [ix' o];
    cbn [fst snd same_outcome] in *; subst.
  - split; [done|]. cbn [snd]. destruct (_ && _); [by eexists|done].
  - split; [done|by eexists].
  - destruct H as [-> | ->]; (split; [done|cbn; auto]).
Qed.
Lemma process_same v c p e :
  (process_said v c p e).1 = (process c p e).1 /\ same_kind (process_said v c p e).2 (process c p e).2.
Proof.
  destruct e as [n a|n|s|]; cbn [process_said process]; [| | |done].
  - unfold process_start. destruct (handler_at _) as [h|]; [apply on_start_same|]. split; [done|by eexists].
  - unfold process_end. destruct (handler_at _) as [h|]; [|split; [done|by eexists]].
    destruct (on_end_same h p) as [E H]. destruct (on_end_said h p) as [p1 o], (on_end h p) as [p1' o']. cbn [fst snd] in *. subst p1'.
    destruct (_ <? _)%nat; [|done]. split; [done|]. right. by left.
  - unfold process_chars. destruct (handler_at _) as [h|]; [|split; [done|by eexists]].
    destruct h; cbn [on_chars]; try done. destruct (p_gram p); [done|]. by (split; [|left]).
Qed.
Lemma l_C95_same : forall v c es p,
  (parse_said v c p es).1 = (parse c p es).1 /\ same_kind (parse_said v c p es).2 (parse c p es).2.
Proof.
  intros v c es. induction es as [|e es IH]; intros p; [done|]. cbn [parse_said parse].
  destruct (process_same v c p e) as [E H].
  destruct (process_said v c p e) as [p1 o], (process c p e) as [p1' o']. cbn [fst snd] in *. subst p1'.
  destruct o as [[]|t|]; cbn [same_kind] in H.
  - subst o'. apply IH.
  - destruct H as [x ->]. split; [done|by eexists].
  - destruct H as [-> | [-> | ->]]; (split; [done|cbn; auto]).
Qed.
(** The parser says what it says about the first event it cannot process. *)
Lemma l_C95_first : forall v c es p t, (parse_said v c p es).2 = Failed t <->
  exists es1 e es2 p1, es = es1 ++ e :: es2 /\ parse c p es1 = (p1, Done) /\ (process_said v c p1 e).2 = Failed t.
Proof.
  intros v c es. induction es as [|e es IH]; intros p t.
  { split; [done|]. intros (es1 & e & es2 & p1 & E & _). by destruct es1. }
  cbn [parse_said]. destruct (process_same v c p e) as [E H]. split.
  - intros Ht. destruct (process_said v c p e) as [p1 o] eqn:Ep, (process c p e) as [p1' o'] eqn:Ep'. cbn [fst snd] in *. subst p1'.
    destruct o as [[]|t'|]; cbn [snd] in Ht; [|injection Ht as ->|done].
    + cbn in H. subst o'. apply IH in Ht as (es1 & e' & es2 & p2 & -> & E1 & E2).
      exists (e :: es1), e', es2, p2. split; [done|]. split; [|done]. cbn [parse]. by rewrite Ep'.
    + exists [], e, es, p. split; [done|]. split; [done|]. by rewrite Ep.
  - intros (es1 & e' & es2 & p1 & El & E1 & E2). destruct es1 as [|e1 es1]; injection El as -> ->.
    + injection E1 as <-. destruct (process_said v c p e') as [p1 o]. cbn [snd] in E2. by subst o.
    + cbn [parse] in E1. destruct (process_said v c p e1) as [p2 o], (process c p e1) as [p2' o']. cbn [fst snd] in *. subst p2'.
      destruct o' as [|x| | |]; try done. destruct o as [[]|t'|]; cbn in H.
      * apply IH. by exists es1, e', es2, p1.
      * by destruct H.
      * by destruct H as [?|[?|?]].
Qed.

(** ** The start of an element *)
Definition by_handler (v : voice) (c : conv) (h : handler) (a : list (list N * list N)) (t : list N) : Prop :=
  let missed n := attr n a = None /\ t = bytes_of "opencorpora: " ++ v_attrs v a ++ bytes_of ": missed attr `" ++ bytes_of n ++ bytes_of "`" in
  match h with
  | HMute | HGrammemeName => False
  | HDictionary => exists a1 n x a2, a = a1 ++ (n, x) :: a2 /\ Forall (number_ok c) a1 /\
      ((n = bytes_of "version" /\ is_float c x = false /\
        t = bytes_of "opencorpora: parse: dictionary.version: `" ++ x ++ bytes_of "`: " ++ v_float v x) \/
       (n = bytes_of "revision" /\ is_int c x = false /\
        t = bytes_of "opencorpora: parse: dictionary.revision: `" ++ x ++ bytes_of "`: " ++ v_int v x))
  | HGrammeme => attr "parent" a = None /\ t = bytes_of "opencorpora: required parent attr"
  | HLemma => exists t', t = bytes_of "opencorpora: " ++ v_attrs v a ++ bytes_of ": " ++ t' /\
      (bad_int v c a "id" t' \/ has_int c "id" a = true /\ bad_int v c a "rev" t')
  | HL | HF => missed "t"%string
  | HLG | HFG => missed "v"%string
  end.
Lemma complains_handler v c pos a t : complains v c pos a t <->
  (known pos = false /\ t = bytes_of "opencorpora: unexpected start: `" ++ path_of pos ++ bytes_of "`") \/
  (exists h, handler_pos by_position pos = Some h /\ by_handler v c h a t).
Proof.
  split.
  - intros [Hk|Ep Ha|q n Hq Ep Ha|t' Ep Hb|t' Ep Hi Hb|a1 x a2 Ep Ea H1 Hx|a1 x a2 Ep Ea H1 Hx]; [by left|subst pos; right..].
    + exists HGrammeme. split; [by vm_compute|done].
    + repeat (apply elem_of_cons in Hq as [Hq|Hq]; [injection Hq as -> ->|]); [..|by apply elem_of_nil in Hq].
      * exists HL. split; [by vm_compute|done].
      * exists HLG. split; [by vm_compute|done].
      * exists HF. split; [by vm_compute|done].
      * exists HFG. split; [by vm_compute|done].
    + exists HLemma. split; [by vm_compute|]. exists t'. auto.
    + exists HLemma. split; [by vm_compute|]. exists t'. auto.
    + exists HDictionary. split; [by vm_compute|]. exists a1, (bytes_of "version"), x, a2. auto 10.
    + exists HDictionary. split; [by vm_compute|]. exists a1, (bytes_of "revision"), x, a2. auto 10.
  - intros [[Hk ->]|(h & Eh & H)]; [by apply co_unknown|]. revert Eh. unfold by_position. cbn [handler_pos].
    repeat (destruct (decide _) as [<- |_]; [intros [= <-]; cbn [by_handler] in H; try done|]); [..|done].
    + destruct H as (a1 & n & x & a2 & Ea & H1 & [(-> & Hx & ->)|(-> & Hx & ->)]); [by eapply co_version|by eapply co_revision].
    + destruct H as [Ha ->]. by apply co_parent.
    + destruct H as (t' & -> & [Hb|[Hi Hb]]); [by apply co_id|by apply co_rev].
    + destruct H as [Ha ->]. eapply co_string; [|reflexivity|done]. left.
    + destruct H as [Ha ->]. eapply co_string; [|reflexivity|done]. right. left.
    + destruct H as [Ha ->]. eapply co_string; [|reflexivity|done]. right. right. left.
    + destruct H as [Ha ->]. eapply co_string; [|reflexivity|done]. right. right. right. left.
Qed.
Lemma elem_said_iff v c a : forall t, elem_said v c a = Failed t <-> by_handler v c HDictionary a t.
Proof.
  cbn [by_handler]. induction a as [|[n x] a IH]; intros t.
  { split; [done|]. intros (a1 & n & x & a2 & E & _). by destruct a1. }
  assert (Hgood : number_ok c (n, x) -> elem_said v c a = Failed t <-> by_handler v c HDictionary ((n, x) :: a) t).
  { intros Hn. rewrite IH. split.
    - intros (a1 & m & y & a2 & -> & H1 & H). exists ((n, x) :: a1), m, y, a2. split; [done|]. split; [by constructor|done].
    - intros (a1 & m & y & a2 & E & H1 & H). destruct a1 as [|nx a1]; injection E.
      + intros -> -> ->. exfalso. destruct Hn as [Hv Hr]. cbn [fst snd] in Hv, Hr.
        destruct H as [(-> & Hx & _)|(-> & Hx & _)]; [rewrite Hv in Hx by done|rewrite Hr in Hx by done]; done.
      + intros -> <-. apply Forall_cons in H1 as [_ H1]. by exists a1, m, y, a2. }
  cbn [elem_said]. destruct (bool_decide_reflect (n = bytes_of "version")) as [-> |Hv].
  - destruct (is_float c x) eqn:Ex; [by apply Hgood|]. clear Hgood IH. split.
    + intros [= <-]. exists [], (bytes_of "version"), x, a. split; [done|]. split; [constructor|]. left. split; [done|]. split; [done|].
      unfold corpora_error, quoted. rewrite <- !app_assoc. reflexivity.
    + intros (a1 & m & y & a2 & E & H1 & H). destruct a1 as [|nx a1]; injection E.
      * intros -> -> <-. destruct H as [(_ & _ & ->)|(E' & _)]; [|done].
        unfold corpora_error, quoted. rewrite <- !app_assoc. reflexivity.
      * intros -> <-. apply Forall_cons in H1 as [[H1 _] _]. cbn [fst snd] in H1. rewrite H1 in Ex; done.
  - destruct (bool_decide_reflect (n = bytes_of "revision")) as [-> |Hr]; [|by apply Hgood].
    destruct (is_int c x) eqn:Ex; [by apply Hgood|]. clear Hgood IH. split.
    + intros [= <-]. exists [], (bytes_of "revision"), x, a. split; [done|]. split; [constructor|]. right. split; [done|]. split; [done|].
      unfold corpora_error, quoted. rewrite <- !app_assoc. reflexivity.
    + intros (a1 & m & y & a2 & E & H1 & H). destruct a1 as [|nx a1]; injection E.
      * intros -> -> <-. destruct H as [(E' & _)|(_ & _ & ->)]; [done|].
        unfold corpora_error, quoted. rewrite <- !app_assoc. reflexivity.
      * intros -> <-. apply Forall_cons in H1 as [[_ H1] _]. cbn [fst snd] in H1. rewrite H1 in Ex; done.
Qed.
Lemma bad_int_det v c a n t t' : bad_int v c a n t -> bad_int v c a n t' -> t = t'.
Proof. intros [H|x H H1] [H'|x' H' H1']; [done|congruence..|]. rewrite H in H'. by injection H' as ->. Qed.
Lemma bad_int_not v c a n t : bad_int v c a n t -> has_int c n a = false.
Proof. unfold has_int. by intros [-> |x -> H]. Qed.
Lemma missed_text v n a : of_attrs v a (bytes_of "missed attr " ++ quoted n) =
  bytes_of "opencorpora: " ++ v_attrs v a ++ bytes_of ": missed attr `" ++ n ++ bytes_of "`".
Proof. reflexivity. Qed.
Lemma on_start_iff v c h a p t : (on_start_said v c h a p).2 <> Crashed ->
  (on_start_said v c h a p).2 = Failed t <-> by_handler v c h a t.
Proof.
  intros Hc. destruct h; cbn [on_start_said] in *.
  - done.
  - cbn [snd]. apply elem_said_iff.
  - cbn [by_handler]. rewrite get_attr_spec. destruct (attr "parent" a); cbn [snd]; [by split; [|intros [? _]]|].
    split; [by intros [= <-]|by intros [_ ->]].
  - done.
  - cbn [snd by_handler] in *. clear Hc. pose proof (int_attr_same v c "id" a) as H1. pose proof (int_attr_same v c "rev" a) as H2.
    rewrite get_int_spec in H1, H2.
    destruct (int_attr_said v c (bytes_of "id") a) as [[]|t1|]; [|destruct H1 as [Ei H1]|done].
    + destruct (int_attr_said v c (bytes_of "rev") a) as [[]|t2|]; [|destruct H2 as [Er H2]|done].
      * split; [done|]. intros (t' & _ & [Hb|[_ Hb]]); apply bad_int_not in Hb; congruence.
      * split; [intros [= <-]; exists t2; auto|]. intros (t' & -> & [Hb|[_ Hb]]); [apply bad_int_not in Hb; congruence|].
        by rewrite (bad_int_det _ _ _ _ _ _ Hb H2).
    + split; [intros [= <-]; exists t1; auto|]. intros (t' & -> & [Hb|[Hi _]]); [|congruence].
      by rewrite (bad_int_det _ _ _ _ _ _ Hb H1).
  - destruct (p_lemma p); [|done]. cbn [snd by_handler] in *. unfold attr_said. rewrite get_attr_spec.
    destruct (attr "t" a); [by split; [|intros [? _]]|]. rewrite missed_text. split; [by intros [= <-]|by intros [_ ->]].
  - cbn [by_handler] in *. unfold attr_said in *. rewrite get_attr_spec in *.
    destruct (attr "v" a); [destruct (p_lemma p); by split; [|intros [? _]]|]. rewrite missed_text. cbn [snd]. split; [by intros [= <-]|by intros [_ ->]].
  - cbn [by_handler] in *. unfold attr_said in *. rewrite get_attr_spec in *.
    destruct (attr "t" a); [by split; [|intros [? _]]|]. rewrite missed_text. cbn [snd]. split; [by intros [= <-]|by intros [_ ->]].
  - cbn [by_handler] in *. unfold attr_said in *. rewrite get_attr_spec in *.
    destruct (attr "v" a); [destruct (p_form p); by split; [|intros [? _]]|]. rewrite missed_text. cbn [snd]. split; [by intros [= <-]|by intros [_ ->]].
Qed.
(** The start of an element is refused exactly for the reasons of [complains], in those words. *)
Lemma l_C95_start : forall v c ix mx es st p n a t, Forall ev_no_dot es -> opens [] es = Some st ->
  parse c (parser_new ix mx) es = (p, Done) -> no_dot n ->
  (process_said v c p (EStart n a)).2 = Failed t <-> complains v c (rev (n :: st)) a t.
Proof.
  intros v c ix mx es st p n a t Hd Ho E Hn.
  destruct (stream_step c es _ [] st Hd Ho (pinv_new ix mx)) as [(_ & Hi)|(H & _)]; rewrite E in *; [|done].
  cbn [fst] in Hi. cbn [rev].
  assert (Hc : (process_said v c p (EStart n a)).2 <> Crashed).
  { intros Hcr. destruct (process_same v c p (EStart n a)) as [_ H]. rewrite Hcr in H. cbn [process same_kind] in H.
    destruct (start_step c p (rev st) n a Hi Hn) as [(_ & H2 & _)|(_ & H2)]; rewrite H2 in H; naive_solver. }
  rewrite complains_handler. cbn [process_said] in *. cbn [p_path set_path] in *.
  destruct Hi as [Hp Hk _ _ _ _].
  assert (Hds : Forall no_dot (rev st ++ [n])) by (apply Forall_app; split; [by apply known_no_dot|by constructor]).
  rewrite Hp, <- path_of_snoc, handler_path in * by done.
  destruct (handler_pos by_position (rev st ++ [n])) as [h|] eqn:Eh.
  - rewrite on_start_iff by done. assert (Hk' : known (rev st ++ [n]) = true) by (apply handler_pos_known; by rewrite Eh).
    rewrite Hk'. split; [intros H; right; by exists h|]. intros [[? _]|(h' & [= <-] & H)]; done.
  - assert (Hk' : known (rev st ++ [n]) = false).
    { destruct (known (rev st ++ [n])) eqn:Ek; [|done]. apply handler_pos_known in Ek. rewrite Eh in Ek. by destruct Ek. }
    rewrite Hk'. cbn [snd]. split.
    + intros [= <-]. left. done.
    + intros [[_ ->]|(h' & ? & _)]; [|done]. done.
Qed.
(** The complaint about an unknown element says where it is. *)
Lemma l_C95_where : forall pos pos', Forall no_dot pos -> Forall no_dot pos' ->
  bytes_of "opencorpora: unexpected start: `" ++ flat_map (fun n => dot :: n) pos ++ bytes_of "`" =
  bytes_of "opencorpora: unexpected start: `" ++ flat_map (fun n => dot :: n) pos' ++ bytes_of "`" -> pos = pos'.
Proof.
  intros pos pos' H H' E. apply app_inv_head in E. apply app_inv_tail in E. by apply path_of_inj.
Qed.
(** Nothing is said about texts and notes, and about the end of an element only if it is a lemma. *)
Lemma l_C95_rest : forall v c ix mx es st p, Forall ev_no_dot es -> opens [] es = Some st ->
  parse c (parser_new ix mx) es = (p, Done) ->
  (forall s, (process_said v c p (EText s)).2 = Fine tt) /\ (process_said v c p ENote).2 = Fine tt /\
  (forall n st' t, st = n :: st' -> (process_said v c p (EEnd n)).2 = Failed t ->
    rev st = map bytes_of ["dictionary"; "lemmata"; "lemma"]%string /\
    exists l, p_lemma p = Some l /\
      ((lemma_said (p_ix p) (l_g l) (l_f l)).2 = Failed t \/
       t = bytes_of "opencorpora: controlled stop" /\ (0 < p_max p <= Z.of_N (p_count p) + 1)%Z /\
       (lemma_said (p_ix p) (l_g l) (l_f l)).2 = Fine tt)).
Proof.
  intros v c ix mx es st p Hd Ho E.
  destruct (stream_step c es _ [] st Hd Ho (pinv_new ix mx)) as [(_ & Hi)|(H & _)]; rewrite E in *; [|done].
  cbn [fst] in Hi. split; [|split; [done|]].
  - intros s. destruct (chars_step p (rev st) s Hi) as (p' & Ec & _).
    destruct (process_same v c p (EText s)) as [_ H]. cbn [process] in H. rewrite Ec in H. cbn [snd] in H.
    destruct ((process_said v c p (EText s)).2) as [[]|t|]; [done|by destruct H|naive_solver].
  - intros n st' t -> Ht. destruct Hi as [Hp Hk _ _ _ _]. cbn [process_said] in Ht. rewrite Hp in Ht.
    destruct (known_handler _ Hk) as (h & Eh & Ehp). rewrite Eh in Ht.
    destruct (on_end_said h p) as [p1 o] eqn:Eo.
    assert (Ho' : o = Failed t). { destruct (_ <? _)%nat; [done|exact Ht]. } subst o. clear Ht.
    unfold on_end_said in Eo. assert (Hh : h = HLemma).
    { destruct h; try (destruct (on_end _ p) as [? [| | | |]]; done). }
    subst h. split.
    { revert Ehp. unfold by_position. cbn [handler_pos]. repeat (destruct (decide _) as [<- |_]; [done|]). done. }
    destruct (p_lemma p) as [l|]; [|by destruct (on_end HLemma p) as [? [| | | |]]]. exists l. split; [done|].
    destruct (lemma_said (p_ix p) (l_g l) (l_f l)) as [ix' [[]|t'|]]; cbn [snd]; [right|left|done].
    + destruct (_ && _) eqn:Eb; [|done]. injection Eo as _ <-. split; [done|]. apply andb_true_iff in Eb as [Eb1 Eb2].
      cbn [p_count set_count] in Eb2. apply Z.ltb_lt in Eb1. apply Z.leb_le in Eb2. split; [|done]. lia.
    + by injection Eo as _ ->.
Qed.
