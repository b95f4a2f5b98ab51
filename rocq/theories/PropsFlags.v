(** The updater program: C63.  The proofs are in ThmFlags.v; FlagSpec.v is the specification of
    the arguments. *)
From Verif Require Import Base Storage Utf8 Tags TagSets Variants Items Index Spec Hist DocSpec Parser Calls
  BaseFacts Intern Cli Strconv Session Numerals Browse ThmSession Loader LoaderSpec Limits ThmEnd Flags FlagSpec ThmFlags
  PropsParser PropsLoader PropsSession.
From stdpp Require Import list gmap.
Open Scope N_scope.

(** C63.  The arguments of opencorpora_update are switches followed by operands that are ignored.
    The last occurrence of a switch counts, and force is on unless switched off with "=".  The
    program changes files only through Update, with force as given, and its exit code tells what
    happened. *)
Theorem C63_accepted : forall args sw rest, parse_flags args = PGo sw rest <->
  exists l tail, leading args l tail /\ operands tail rest /\ sw = mkSw (value l Force) (value l Debug) (value l Help).
Proof. exact l_C63_accepted. Qed.
Print Assumptions C63_accepted.
Theorem C63_help : forall args, parse_flags args = PExit 0 <->
  exists l a t, leading args l (a :: t) /\ asks_help a.
Proof. exact l_C63_help. Qed.
Print Assumptions C63_help.
Theorem C63_refused : forall args, parse_flags args = PExit 2 <->
  exists l a t, leading args l (a :: t) /\ ~ operand a /\ a <> bytes_of "--" /\ ~ asks_help a /\ forall x b, ~ sets a x b.
Proof. exact l_C63_refused. Qed.
Print Assumptions C63_refused.
Theorem C63_no_other_exit : forall args c, parse_flags args = PExit c -> c = 0 \/ c = 2.
Proof. exact l_C63_no_other_exit. Qed.
Print Assumptions C63_no_other_exit.
Theorem C63_exit_0 : forall log_ok e s args, (update_main log_ok e s args).2 = 0 <->
  parse_flags args = PExit 0 \/
  exists sw rest, parse_flags args = PGo sw rest /\
    (sw_h sw = true \/ log_ok (sw_d sw) = true /\ u_res (update e s (sw_f sw)) = Ok tt).
Proof. exact l_C63_exit_0. Qed.
Print Assumptions C63_exit_0.
Theorem C63_exit_2 : forall log_ok e s args, (update_main log_ok e s args).2 = 2 <->
  parse_flags args = PExit 2 \/
  exists sw rest, parse_flags args = PGo sw rest /\ sw_h sw = false /\ log_ok (sw_d sw) = true /\
    u_res (update e s (sw_f sw)) = Panic.
Proof. exact l_C63_exit_2. Qed.
Print Assumptions C63_exit_2.
Theorem C63_exit_codes : forall log_ok e s args, (update_main log_ok e s args).2 <= 2.
Proof. exact l_C63_exit_codes. Qed.
Print Assumptions C63_exit_codes.
Theorem C63_files : forall log_ok e s args, (update_main log_ok e s args).1 <> [] ->
  exists sw rest, parse_flags args = PGo sw rest /\ sw_h sw = false /\ log_ok (sw_d sw) = true /\
    (update_main log_ok e s args).1 = u_upds (update e s (sw_f sw)).
Proof. exact l_C63_files. Qed.
Print Assumptions C63_files.
Theorem C63_no_arguments : forall log_ok e s, log_ok false = true ->
  update_main log_ok e s [] =
  (u_upds (update e s true), match u_res (update e s true) with Ok _ => 0 | Err _ => 1 | Panic => 2 end).
Proof. exact l_C63_no_arguments. Qed.
Print Assumptions C63_no_arguments.
Theorem C63_separate_value : forall x v rest, operand v ->
  parse_flags ((bytes_of "-" ++ letter x) :: v :: rest) =
  PGo (mkSw (value [(x, true)] Force) (value [(x, true)] Debug) (value [(x, true)] Help)) (v :: rest).
Proof. exact l_C63_separate_value. Qed.
Print Assumptions C63_separate_value.
Theorem C63_then_browse : forall log_ok eqf e s doc body out args sw rest lines,
  parse_flags args = PGo sw rest -> sw_h sw = false -> log_ok (sw_d sw) = true ->
  all_works e -> dir_ok e (after1 s UMkdir) = true -> fs_bz s = None ->
  e_get e = Some (200%N, body, true) -> e_unbz e body = (out, true) ->
  e_tokens e out = (flat_map events doc, true) ->
  forallb (valid (e_conv e) []) doc = true -> good_acts [] (doc_acts doc) ->
  modest true (acts_ops (doc_acts doc) ++ [OOptimize; OReload]) ->
  all_storable (acts_ops (doc_acts doc)) ->
  Forall (fun ll => 0 ∉ ll.2 /\ exists p ps, ll.2 = spaced p ps /\ Forall (fun f => 32 ∉ f) (p :: ps) /\ p ∉ commands) lines ->
  let '(us, code) := update_main log_ok e s args in
  code = 0 /\
  let '(replies, code) := browser_main eqf (load_index (after s us)) lines in
  code = Some 0 /\ Forall2 (fun ll r => right_reply (forms (doc_acts doc)) ll.2 r) lines replies.
Proof. exact l_C63_then_browse. Qed.
Print Assumptions C63_then_browse.
Definition ex_args (l : list string) : list (list N) := map bytes_of l.
Example C63_case :
  parse_flags (ex_args ["-f=0"; "--d"; "-f=TRUE"; "--f=F"; "x"; "-h"]%string) = PGo (mkSw false true false) (ex_args ["x"; "-h"]%string) /\
  parse_flags (ex_args ["-d"; "--"; "-h"]%string) = PGo (mkSw true true false) (ex_args ["-h"]%string) /\
  parse_flags (ex_args ["-h"; "-x"]%string) = PExit 2 /\ parse_flags (ex_args ["-f=yes"]%string) = PExit 2 /\
  parse_flags (ex_args ["---f"]%string) = PExit 2 /\ parse_flags (ex_args ["--help=me"; "-x"]%string) = PExit 0 /\
  parse_flags (ex_args ["-"; "-h"]%string) = PGo sw_default (ex_args ["-"; "-h"]%string).
Proof. vm_compute. repeat split. Qed.
Example C63_case_exits :
  (update_main (fun _ => true) ok_env PropsLoader.fresh []).2 = 0 /\
  (update_main (fun _ => false) ok_env PropsLoader.fresh []) = ([], 1) /\
  (update_main (fun _ => true) ok_env PropsLoader.fresh (ex_args ["-h"]%string)) = ([], 0) /\
  (update_main (fun _ => true) ok_env PropsLoader.fresh (ex_args ["-force"]%string)) = ([], 2) /\
  (update_main (fun _ => true) ok_env PropsLoader.fresh []).1 <> [].
Proof. vm_compute. repeat split; discriminate. Qed.
(** [-f false] does not switch force off. *)
Example C63_force_off_refuted : ~ (forall v, v ∈ falses -> exists sw rest,
  parse_flags [bytes_of "-f"; v] = PGo sw rest /\ sw_f sw = false).
Proof.
  intros H. destruct (H (bytes_of "false")) as (sw & rest & E & F).
  - unfold falses. cbn. rewrite !elem_of_cons. auto.
  - assert (Ec : parse_flags [bytes_of "-f"; bytes_of "false"] = PGo (mkSw true false false) [bytes_of "false"]) by (vm_compute; reflexivity).
    rewrite Ec in E. injection E as <- _. discriminate F.
Qed.
