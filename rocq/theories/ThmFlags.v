(** The updater program: C63. *)
From Coq Require Import ZifyBool ZifyNat ZifyN.
From Verif Require Import Base Index Spec Hist Parser DocSpec Calls Loader LoaderSpec ThmLoader Strconv Session Browse Numerals Limits
  ThmSession ThmEnd Flags FlagSpec.
From stdpp Require Import list.
Open Scope N_scope.

Definition same_switch (x y : switch) : bool :=
  match x, y with Force, Force | Debug, Debug | Help, Help => true | _, _ => false end.
Definition sw_val (sw : switches) (x : switch) : bool :=
  match x with Force => sw_f sw | Debug => sw_d sw | Help => sw_h sw end.
Definition sw_put (sw : switches) (x : switch) (b : bool) : switches :=
  match x with Force => mkSw b (sw_d sw) (sw_h sw) | Debug => mkSw (sw_f sw) b (sw_h sw) | Help => mkSw (sw_f sw) (sw_d sw) b end.

Lemma sw_set_letter sw x b : sw_set sw (letter x) b = Some (sw_put sw x b).
Proof. by destruct x. Qed.
Lemma sw_set_Some sw n b sw' : sw_set sw n b = Some sw' -> exists x, n = letter x /\ sw' = sw_put sw x b.
Proof.
  unfold sw_set. intros H. destruct (bool_decide_reflect (n = bytes_of "f")) as [->|_]; [injection H as <-; by exists Force|].
  destruct (bool_decide_reflect (n = bytes_of "d")) as [->|_]; [injection H as <-; by exists Debug|].
  destruct (bool_decide_reflect (n = bytes_of "h")) as [->|_]; [injection H as <-; by exists Help|done].
Qed.
Lemma sw_set_None sw n b : sw_set sw n b = None -> forall x, n <> letter x.
Proof. intros H x ->. by rewrite sw_set_letter in H. Qed.

Lemma parse_bool_Some v b : parse_bool v = Some b <-> v ∈ if b then truths else falses.
Proof.
  unfold parse_bool. fold truths falses. destruct (bool_decide_reflect (v ∈ truths)) as [H|H].
  - destruct b; [done|]. split; [done|]. intros H'. exfalso. revert H H'.
    unfold truths, falses. cbn. rewrite !elem_of_cons. intros [->|[->|[->|[->|[->|[->|H]]]]]]; [| | | | | |by apply elem_of_nil in H];
      intros H'; repeat (destruct H' as [H'|H']; [discriminate H'|]); by apply elem_of_nil in H'.
  - destruct (bool_decide_reflect (v ∈ falses)) as [H'|H']; destruct b; try done.
Qed.
Lemma parse_bool_None v : parse_bool v = None <-> v ∉ truths /\ v ∉ falses.
Proof.
  destruct (parse_bool v) as [b|] eqn:E; split; try done.
  - apply parse_bool_Some in E. destruct b; by intros [? ?].
  - intros _. split; intros H; [apply (parse_bool_Some v true) in H|apply (parse_bool_Some v false) in H]; congruence.
Qed.

Lemma split_eq_spec s n v : split_eq s = (n, v) <->
  61 ∉ n /\ s = n ++ match v with Some v => 61 :: v | None => [] end.
Proof.
  revert n v. induction s as [|c s IH]; intros n v; cbn [split_eq].
  - split.
    + intros [= <- <-]. split; [apply not_elem_of_nil|done].
    + intros [_ H]. destruct n; [|done]. by destruct v.
  - destruct (N.eqb_spec c 61) as [->|Hc].
    + split.
      * intros [= <- <-]. split; [apply not_elem_of_nil|done].
      * intros [Hn H]. destruct n as [|x n].
        -- destruct v; cbn in H; [|done]. by injection H as ->.
        -- injection H as <- _. exfalso. apply Hn. by left.
    + destruct (split_eq s) as [n' v'] eqn:E. split.
      * intros [= <- <-]. destruct (proj1 (IH n' v') eq_refl) as [H1 ->]. split; [|done]. rewrite not_elem_of_cons. by split.
      * intros [Hn H]. destruct n as [|x n]; [destruct v; cbn in H; [injection H as -> _|]; done|].
        injection H as <- H. rewrite not_elem_of_cons in Hn.
        pose proof (proj2 (IH n v) (conj (proj2 Hn) H)) as E2. congruence.
Qed.
Lemma name_value_spec c s n v : name_value (c :: s) = (n, v) <->
  exists n', n = c :: n' /\ 61 ∉ n' /\ s = n' ++ match v with Some v => 61 :: v | None => [] end.
Proof.
  cbn. destruct (split_eq s) as [n' v'] eqn:E. split.
  - intros [= <- <-]. exists n'. split; [done|]. by apply split_eq_spec.
  - intros (n2 & -> & H). apply split_eq_spec in H. congruence.
Qed.

(** What kind of argument comes first. *)
Lemma one_dash sw c s args : c <> 45 -> parse_one sw ((bytes_of "-" ++ c :: s) :: args) = parse_named sw (c :: s) args.
Proof. intros H. change (bytes_of "-" ++ c :: s) with (45 :: c :: s). unfold parse_one. by rewrite (proj2 (N.eqb_neq c 45)). Qed.
Lemma one_dashes sw c s args : parse_one sw ((bytes_of "--" ++ c :: s) :: args) = parse_named sw (c :: s) args.
Proof. done. Qed.
Lemma one_named sw d c s args : dash d -> c <> 45 -> parse_one sw ((d ++ c :: s) :: args) = parse_named sw (c :: s) args.
Proof. intros [-> | ->] H; [by apply one_dash|apply one_dashes]. Qed.
Lemma letter_one x : exists c, letter x = [c] /\ c <> 45 /\ c <> 61.
Proof. destruct x; by eexists. Qed.
Lemma named_seen sw x v b args : match v with Some v => parse_bool v | None => Some true end = Some b ->
  parse_named sw (letter x ++ match v with Some v => 61 :: v | None => [] end) args = OSeen (sw_put sw x b) args.
Proof.
  intros Hb. assert (Hn : name_value (letter x ++ match v with Some v => 61 :: v | None => [] end) = (letter x, v)) by (by destruct x, v).
  destruct (letter_one x) as (c & El & H1 & H2). unfold parse_named.
  assert (E : letter x ++ match v with Some v => 61 :: v | None => [] end = c :: match v with Some v => 61 :: v | None => [] end) by (by rewrite El).
  rewrite E in *. rewrite (proj2 (N.eqb_neq c 45)), (proj2 (N.eqb_neq c 61)) by done. cbv [orb].
  by rewrite Hn, sw_set_letter, Hb, sw_set_letter.
Qed.
Lemma sets_iff a x b : sets a x b <-> exists d v, dash d /\ a = d ++ letter x ++ match v with Some v => 61 :: v | None => [] end /\
  match v with Some v => parse_bool v | None => Some true end = Some b.
Proof.
  split.
  - intros (d & Hd & [[-> ->]|(v & -> & Hv)]).
    + exists d, None. by rewrite app_nil_r.
    + exists d, (Some v). apply parse_bool_Some in Hv. done.
  - intros (d & [v|] & Hd & -> & Hb); exists d; (split; [done|]).
    + right. exists v. split; [done|]. by apply parse_bool_Some.
    + left. injection Hb as <-. by rewrite app_nil_r.
Qed.
Lemma one_seen sw a args x b : sets a x b -> parse_one sw (a :: args) = OSeen (sw_put sw x b) args.
Proof.
  rewrite sets_iff. intros (d & v & Hd & -> & Hb). destruct (letter_one x) as (c & El & H1 & H2).
  rewrite El. change ([c] ++ ?t) with (c :: t). rewrite one_named by done.
  change (c :: ?t) with ([c] ++ t). rewrite <- El. by apply named_seen.
Qed.
Lemma one_operand sw a args : operand a -> parse_one sw (a :: args) = OEnd (a :: args).
Proof.
  unfold operand. intros H. destruct a as [|m [|c s]]; try done. destruct H as [H|H]; [cbn in H; lia|].
  unfold parse_one. rewrite (proj2 (N.eqb_neq m 45)); [done|]. intros ->. by apply H.
Qed.
Lemma one_stop sw args : parse_one sw (bytes_of "--" :: args) = OEnd args.
Proof. done. Qed.
Lemma one_help sw a args : asks_help a -> parse_one sw (a :: args) = OHelp.
Proof.
  intros (d & v & Hd & -> & Hv). change (bytes_of "help" ++ v) with (104 :: bytes_of "elp" ++ v).
  rewrite one_named by done. destruct Hv as [-> |(v' & ->)]; [done|].
  unfold parse_named. replace (name_value _) with (bytes_of "help", Some v') by done. done.
Qed.
(** The result of one step tells the kind of the argument. *)
Definition refused (a : list N) : Prop := ~ operand a /\ a <> bytes_of "--" /\ ~ asks_help a /\ forall x b, ~ sets a x b.
Lemma one_kind sw a args :
  match parse_one sw (a :: args) with
  | OSeen sw' rest => exists x b, sets a x b /\ sw' = sw_put sw x b /\ rest = args
  | OEnd rest => operand a /\ rest = a :: args \/ a = bytes_of "--" /\ rest = args
  | OHelp => asks_help a
  | OBad => refused a
  end.
Proof.
  assert (Hbad : parse_one sw (a :: args) = OBad -> refused a).
  { intros E. split; [intros H; apply (one_operand sw a args) in H; congruence|]. split; [intros ->; by rewrite one_stop in E|].
    split; [intros H; apply (one_help sw a args) in H; congruence|]. intros x b H. apply (one_seen sw a args) in H. congruence. }
  assert (Hk : (operand a /\ parse_one sw (a :: args) = OEnd (a :: args)) \/ (a = bytes_of "--" /\ parse_one sw (a :: args) = OEnd args) \/
    exists d name, dash d /\ a = d ++ name /\ parse_one sw (a :: args) = parse_named sw name args).
  { destruct a as [|m [|c s]]; [left; split; [left; cbn; lia|done]..|].
    destruct (decide (m = 45)) as [->|Hm].
    - right. destruct (decide (c = 45)) as [->|Hc].
      + destruct s as [|x s]; [by left|]. right. exists (bytes_of "--"), (x :: s). split; [by right|]. split; [done|]. apply one_dashes.
      + right. exists (bytes_of "-"), (c :: s). split; [by left|]. split; [done|]. by apply one_dash.
    - left. assert (operand (m :: c :: s)) by (right; cbn; congruence). split; [done|]. by apply one_operand. }
  destruct Hk as [[H ->]|[[H ->]|(d & name & Hd & Ea & E)]]; [by left|by right|].
  destruct (parse_one sw (a :: args)) as [sw' rest|rest| |] eqn:Ep; [..|by apply Hbad].
  all: unfold parse_named in E; destruct name as [|x name]; [done|]; destruct ((x =? 45) || (x =? 61)) eqn:Ex; [done|];
    destruct (name_value (x :: name)) as [n v] eqn:En; apply name_value_spec in En as (n' & -> & Hn' & ->);
    destruct (sw_set sw (x :: n') true) as [sw1|] eqn:Es;
    [destruct (match v with Some v0 => parse_bool v0 | None => Some true end) as [b|] eqn:Eb; [|done];
     destruct (sw_set sw (x :: n') b) as [sw2|] eqn:Es2; [|done]|
     destruct (bool_decide_reflect (x :: n' = bytes_of "help")) as [Eh|_];
       [|destruct (bool_decide_reflect (x :: n' = bytes_of "h")) as [Eh|_]]]; try done.
  - injection E as -> ->. destruct (sw_set_Some _ _ _ _ Es2) as (y & Ey & ->). exists y, b. split; [|done].
    apply sets_iff. exists d, v. split; [done|]. split; [|done]. by rewrite <- Ey.
  - exists d, (match v with Some v => 61 :: v | None => [] end). split; [done|]. split; [rewrite <- Eh; exact Ea|].
    destruct v; [right; by eexists|by left].
  - exfalso. by apply (sw_set_None _ _ _ Es Help).
Qed.

(** ** The loop *)
Definition sw_of (sw : switches) (l : list (switch * bool)) : switches :=
  fold_left (fun sw xb => sw_put sw xb.1 xb.2) l sw.
Lemma sw_of_val l : forall sw x, sw_val (sw_of sw l) x = default (sw_val sw x) (given l x).
Proof.
  induction l as [|[y b] l IH]; intros sw x; [done|]. cbn [sw_of fold_left fst snd]. fold (sw_of (sw_put sw y b) l). rewrite IH.
  cbn [given]. destruct (given l x); [done|]. by destruct x, y.
Qed.
Lemma sw_of_value l x : sw_val (sw_of sw_default l) x = value l x.
Proof. rewrite sw_of_val. unfold value. destruct (given l x); [done|]. by destruct x. Qed.
Lemma sw_eta sw : sw = mkSw (sw_val sw Force) (sw_val sw Debug) (sw_val sw Help).
Proof. by destruct sw. Qed.

Lemma loop_leading pre : forall fuel sw l tail, Forall2 (fun a xb => sets a xb.1 xb.2) pre l ->
  parse_loop (length pre + fuel) sw (pre ++ tail) = parse_loop fuel (sw_of sw l) tail.
Proof.
  induction pre as [|a pre IH]; intros fuel sw l tail H; inversion H as [|? [x b] ? l' Ha Hl]; subst; [done|].
  cbn [length app Nat.add parse_loop]. rewrite (one_seen sw a (pre ++ tail) x b Ha). by rewrite (IH fuel _ l').
Qed.
Lemma loop_step fuel sw args : parse_loop fuel sw args =
  match parse_one sw args with
  | OEnd rest => PGo sw rest
  | OHelp => PExit 0
  | OBad => PExit 2
  | OSeen sw' rest => match fuel with O => PExit 2 | S fuel' => parse_loop fuel' sw' rest end
  end.
Proof. by destruct fuel. Qed.
(** Every list of arguments is switches followed by one of four kinds of tails. *)
Lemma arguments_split args : exists l tail, leading args l tail /\
  (tail = [] \/ exists a t, tail = a :: t /\ (operand a \/ a = bytes_of "--" \/ asks_help a \/ refused a)).
Proof.
  induction args as [|a args (l & tail & (pre & -> & Hp) & Ht)].
  { exists [], []. split; [exists []; by split|by left]. }
  pose proof (one_kind sw_default a (pre ++ tail)) as K. destruct (parse_one sw_default (a :: pre ++ tail)).
  - destruct K as (x & b & Ha & _). exists ((x, b) :: l), tail. split; [|done]. exists (a :: pre). split; [done|]. by constructor.
  - exists [], (a :: pre ++ tail). split; [by exists []|]. right. exists a, (pre ++ tail). split; [done|]. destruct K as [[K _]|[K _]]; auto.
  - exists [], (a :: pre ++ tail). split; [by exists []|]. right. exists a, (pre ++ tail). split; [done|]. auto.
  - exists [], (a :: pre ++ tail). split; [by exists []|]. right. exists a, (pre ++ tail). split; [done|]. auto.
Qed.
Lemma flags_leading args l tail : leading args l tail ->
  parse_flags args = match parse_one (sw_of sw_default l) tail with
  | OEnd rest => PGo (sw_of sw_default l) rest
  | OHelp => PExit 0
  | OBad => PExit 2
  | OSeen sw' rest => match length tail with O => PExit 2 | S f => parse_loop f sw' rest end
  end.
Proof.
  intros (pre & -> & H). unfold parse_flags. rewrite app_length, (loop_leading pre _ _ l tail H). apply loop_step.
Qed.
Lemma sw_of_default l : sw_of sw_default l = mkSw (value l Force) (value l Debug) (value l Help).
Proof. rewrite (sw_eta (sw_of sw_default l)), !sw_of_value. done. Qed.

(** ** C63 *)
Lemma l_C63_accepted : forall args sw rest, parse_flags args = PGo sw rest <->
  exists l tail, leading args l tail /\ operands tail rest /\ sw = mkSw (value l Force) (value l Debug) (value l Help).
Proof.
  intros args sw rest. split.
  - intros E. destruct (arguments_split args) as (l & tail & Hl & Ht). exists l, tail. split; [done|].
    rewrite (flags_leading args l tail Hl) in E.
    destruct Ht as [-> |(a & t & -> & [H|[-> |[H|H]]])].
    + injection E as <- <-. split; [by left|apply sw_of_default].
    + rewrite one_operand in E by done. injection E as <- <-. split; [|apply sw_of_default]. right. left. split; [by exists a|done].
    + rewrite one_stop in E. injection E as <- <-. split; [by right; right|apply sw_of_default].
    + by rewrite one_help in E.
    + pose proof (one_kind (sw_of sw_default l) a t) as K. destruct H as (H1 & H2 & H3 & H4).
      destruct (parse_one (sw_of sw_default l) (a :: t)); try done.
      * destruct K as (x & b & K & _). by apply H4 in K.
      * by destruct K as [[K _]|[K _]].
  - intros (l & tail & Hl & Ht & ->). rewrite (flags_leading args l tail Hl), <- sw_of_default.
    destruct Ht as [[-> ->]|[[(a & Ha & H) ->]| ->]]; [done| |by rewrite one_stop].
    destruct tail as [|a' t]; [done|]. injection Ha as ->. by rewrite one_operand.
Qed.
Lemma l_C63_help : forall args, parse_flags args = PExit 0 <->
  exists l a t, leading args l (a :: t) /\ asks_help a.
Proof.
  intros args. split.
  - intros E. destruct (arguments_split args) as (l & tail & Hl & Ht). rewrite (flags_leading args l tail Hl) in E.
    destruct Ht as [-> |(a & t & -> & [H|[-> |[H|H]]])]; [done|by rewrite one_operand in E|by rewrite one_stop in E|by exists l, a, t|].
    pose proof (one_kind (sw_of sw_default l) a t) as K. destruct H as (H1 & H2 & H3 & H4).
    destruct (parse_one (sw_of sw_default l) (a :: t)); try done. destruct K as (x & b & K & _). by apply H4 in K.
  - intros (l & a & t & Hl & Ha). rewrite (flags_leading args l _ Hl). by rewrite one_help.
Qed.
Lemma l_C63_refused : forall args, parse_flags args = PExit 2 <->
  exists l a t, leading args l (a :: t) /\ ~ operand a /\ a <> bytes_of "--" /\ ~ asks_help a /\ forall x b, ~ sets a x b.
Proof.
  intros args. split.
  - intros E. destruct (arguments_split args) as (l & tail & Hl & Ht). rewrite (flags_leading args l tail Hl) in E.
    destruct Ht as [-> |(a & t & -> & [H|[-> |[H|H]]])]; [done|by rewrite one_operand in E|by rewrite one_stop in E|by rewrite one_help in E|].
    by exists l, a, t.
  - intros (l & a & t & Hl & H1 & H2 & H3 & H4). rewrite (flags_leading args l _ Hl).
    pose proof (one_kind (sw_of sw_default l) a t) as K.
    destruct (parse_one (sw_of sw_default l) (a :: t)); try done.
    + destruct K as (x & b & K & _). by apply H4 in K.
    + by destruct K as [[K _]|[K _]].
Qed.
Lemma l_C63_no_other_exit : forall args c, parse_flags args = PExit c -> c = 0 \/ c = 2.
Proof.
  intros args c E. destruct (arguments_split args) as (l & tail & Hl & Ht). rewrite (flags_leading args l tail Hl) in E.
  destruct Ht as [-> |(a & t & -> & H)]; [done|]. pose proof (one_kind (sw_of sw_default l) a t) as K.
  destruct (parse_one (sw_of sw_default l) (a :: t)) as [sw' r'|r'| |]; try done; [|injection E as <-; auto..].
  destruct K as (x & b & K & _). exfalso. pose proof (one_seen (sw_of sw_default l) a t x b K) as S.
  destruct H as [H|[-> |[H|(_ & _ & _ & H)]]].
  - by rewrite one_operand in S.
  - by rewrite one_stop in S.
  - by rewrite one_help in S.
  - by apply H in K.
Qed.

(** The program. *)
Lemma l_C63_exit_0 : forall log_ok e s args, (update_main log_ok e s args).2 = 0 <->
  parse_flags args = PExit 0 \/
  exists sw rest, parse_flags args = PGo sw rest /\
    (sw_h sw = true \/ log_ok (sw_d sw) = true /\ u_res (update e s (sw_f sw)) = Ok tt).
Proof.
  intros log_ok e s args. unfold update_main. destruct (parse_flags args) as [sw rest|c].
  - split.
    + intros H. right. exists sw, rest. split; [done|]. destruct (sw_h sw); [by left|]. right.
      destruct (log_ok (sw_d sw)); [|done]. cbn in H. split; [done|]. by destruct (u_res _) as [[]|x|].
    + intros [?|(sw' & rest' & [= <- <-] & H)]; [done|]. destruct (sw_h sw); [done|]. destruct H as [?|[-> H]]; [done|].
      cbn. by rewrite H.
  - cbn. split.
    + intros ->. by left.
    + intros [[= ->]|(? & ? & ? & _)]; done.
Qed.
Lemma l_C63_exit_2 : forall log_ok e s args, (update_main log_ok e s args).2 = 2 <->
  parse_flags args = PExit 2 \/
  exists sw rest, parse_flags args = PGo sw rest /\ sw_h sw = false /\ log_ok (sw_d sw) = true /\
    u_res (update e s (sw_f sw)) = Panic.
Proof.
  intros log_ok e s args. unfold update_main. destruct (parse_flags args) as [sw rest|c].
  - split.
    + intros H. right. exists sw, rest. split; [done|]. destruct (sw_h sw); [done|]. split; [done|].
      destruct (log_ok (sw_d sw)); [|done]. cbn in H. split; [done|]. by destruct (u_res _) as [[]|x|].
    + intros [?|(sw' & rest' & [= <- <-] & H1 & H2 & H)]; [done|]. rewrite H1, H2. cbn. by rewrite H.
  - cbn. split.
    + intros ->. by left.
    + intros [[= ->]|(? & ? & ? & _)]; done.
Qed.
Lemma l_C63_exit_codes : forall log_ok e s args, (update_main log_ok e s args).2 <= 2.
Proof.
  intros log_ok e s args. unfold update_main. destruct (parse_flags args) as [sw rest|c] eqn:E.
  - destruct (sw_h sw); [done|]. destruct (negb _); [done|]. cbn. by destruct (u_res _).
  - cbn. apply l_C63_no_other_exit in E. lia.
Qed.
Lemma l_C63_files : forall log_ok e s args, (update_main log_ok e s args).1 <> [] ->
  exists sw rest, parse_flags args = PGo sw rest /\ sw_h sw = false /\ log_ok (sw_d sw) = true /\
    (update_main log_ok e s args).1 = u_upds (update e s (sw_f sw)).
Proof.
  intros log_ok e s args. unfold update_main. destruct (parse_flags args) as [sw rest|c]; [|done].
  destruct (sw_h sw) eqn:Eh; [done|]. destruct (log_ok (sw_d sw)) eqn:El; [|done]. cbn. intros _. exists sw, rest. done.
Qed.
Lemma l_C63_no_arguments : forall log_ok e s, log_ok false = true ->
  update_main log_ok e s [] =
  (u_upds (update e s true), match u_res (update e s true) with Ok _ => 0 | Err _ => 1 | Panic => 2 end).
Proof. intros log_ok e s H. unfold update_main. cbn -[update]. by rewrite H. Qed.
(** A value given as a separate argument is not one. *)
Lemma l_C63_separate_value : forall x v rest, operand v ->
  parse_flags ((bytes_of "-" ++ letter x) :: v :: rest) =
  PGo (mkSw (value [(x, true)] Force) (value [(x, true)] Debug) (value [(x, true)] Help)) (v :: rest).
Proof.
  intros x v rest Hv. apply l_C63_accepted. exists [(x, true)], (v :: rest). split; [|split].
  - exists [bytes_of "-" ++ letter x]. split; [done|]. constructor; [|constructor]. exists (bytes_of "-"). split; [by left|]. by left.
  - right. left. split; [by exists v|done].
  - by destruct x.
Qed.
(** The updater and then the browser, on an empty data directory. *)
Lemma l_C63_then_browse : forall log_ok eqf e s doc body out args sw rest lines,
  parse_flags args = PGo sw rest -> sw_h sw = false -> log_ok (sw_d sw) = true ->
  all_works e -> dir_ok e (after1 s UMkdir) = true -> fs_bz s = None ->
  e_get e = Some (200%N, body, true) -> e_unbz e body = (out, true) ->
  e_tokens e out = (flat_map events doc, true) ->
  forallb (valid (e_conv e) []) doc = true -> good_acts [] (doc_acts doc) ->
  modest true (acts_ops (doc_acts doc) ++ [OOptimize; OReload]) ->
  all_storable (acts_ops (doc_acts doc)) ->
  Forall (fun ll => 0 ∉ ll.2 /\ exists p ps, ll.2 = spaced p ps /\ Forall (fun f => 32 ∉ f) (p :: ps) /\ p ∉ commands) lines ->
  let '(us, code) := update_main log_ok e s args in
  code = 0 /\
  let '(replies, code) := browser_main eqf (load_index (after s us)) lines in
  code = Some 0 /\ Forall2 (fun ll r => right_reply (forms (doc_acts doc)) ll.2 r) lines replies.
Proof.
  intros log_ok eqf e s doc body out args sw rest lines Ea Eh El W Hdir Hb Hg Hz Ht Hv Hgood M Hst Hl.
  unfold update_main. rewrite Ea, Eh, El. cbn [negb].
  split; [|by apply (l_C61_within_limits eqf e s doc body out)].
  destruct (within_limits (acts_ops (doc_acts doc) ++ [OOptimize])) as (ix1 & H1 & Hd); [by rewrite <- app_assoc|].
  destruct (l_C57_end_to_end e s doc body out ix1 (sw_f sw) W Hdir Hb Hg Hz Ht Hv Hgood H1 Hd Hst) as [-> _]. done.
Qed.
