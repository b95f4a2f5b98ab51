(** A session with the index browser: C60, C61.  The proofs are in NumFacts.v, ThmSession.v and
    ThmEnd.v; Numerals.v, Browse.v and Limits.v are specifications. *)
From Verif Require Import Base Storage Utf8 Tags TagSets Variants Items Index Spec Hist DocSpec Parser Calls
  BaseFacts Intern ThmTrie Cli Strconv Session Numerals Browse ThmSession Loader LoaderSpec Limits ThmTotal ThmEnd
  PropsParser PropsLoader.
From stdpp Require Import list gmap.
Open Scope N_scope.

(** C60.  A line is taken apart at single spaces.  Numbers are accepted as Go writes them, in
    decimal or (sets and variants) as any integer literal.  A line that does not begin with a
    command is looked up as a whole; one that does never is, so a dictionary word equal to or
    starting with a command and a space cannot be looked up.  What is shown for a line does not
    depend on the lines before.  Exactly the listed lines crash the browser. *)
Theorem C60_fields : forall p ps, 32 ∉ p -> Forall (fun f => 32 ∉ f) ps -> split_space (spaced p ps) = p :: ps.
Proof. exact l_C60_fields. Qed.
Print Assumptions C60_fields.
Theorem C60_all_lines : forall s, exists p ps, split_space s = p :: ps /\ s = spaced p ps /\ Forall (fun f => 32 ∉ f) (p :: ps).
Proof. exact l_C60_all_lines. Qed.
Print Assumptions C60_all_lines.
Theorem C60_numbers : forall s,
  (forall z, atoi s = Some z <-> with_sign decimal s z) /\
  (forall z, parse_int0 s = Some z <-> with_sign int_lit s z) /\
  (forall n, parse_u32 s = Some n <-> int_lit s n /\ n < 2 ^ 32).
Proof. exact l_C60_numbers. Qed.
Print Assumptions C60_numbers.
Theorem C60_no_memory : forall eqf ix lines,
  (forall load l, (load, l) ∈ lines -> head (split_space l) = Some (bytes_of "reload") \/ head (split_space l) = Some (bytes_of "r") ->
     forall ix', load = Ok ix' -> ix' = ix) ->
  session eqf ix lines = glue (map (fun ll => session eqf ix [ll]) lines).
Proof. exact l_C60_no_memory. Qed.
Print Assumptions C60_no_memory.
Theorem C60_search : forall eqf h ix line p ps load, runs h ix -> 0 ∉ line -> split_space line = p :: ps -> p ∉ commands ->
  match (fetch_string ix line).2 with
  | Ok id => exists sets, node_tag_sets ix id = Ok sets /\ session eqf ix [(load, line)] = ([RFound sets], Some 0)
  | _ => session eqf ix [(load, line)] = ([RMessage], Some 0)
  end.
Proof. exact l_C60_search. Qed.
Print Assumptions C60_search.
Theorem C60_command_words_refuted : forall eqf ix line p ps load, split_space line = p :: ps -> p ∈ commands ->
  forall sets rs e, session eqf ix [(load, line)] <> (RFound sets :: rs, e).
Proof. exact l_C60_command_words_refuted. Qed.
Print Assumptions C60_command_words_refuted.
Theorem C60_crashes : forall eqf h ix line load, runs h ix -> 0 ∉ line -> load <> Panic ->
  (exists rs, session eqf ix [(load, line)] = (rs, None)) <->
  (exists c arg n, split_space line = [c; arg] /\ c ∈ [bytes_of "tag"; bytes_of "t"] /\ with_sign decimal arg n /\ (n < 0)%Z) \/
  (exists c arg n, split_space line = [c; bytes_of "table"; arg] /\ c ∈ [bytes_of "set"; bytes_of "s"] /\ with_sign decimal arg n /\ (n < 0)%Z) \/
  (exists c arg n, split_space line = [c; arg] /\ c ∈ [bytes_of "node"; bytes_of "n"] /\ with_sign decimal arg n /\
     (n < Z.of_N (nodes_count ix))%Z /\ (n mod 2 ^ 32 = 0)%Z) \/
  (exists c arg rest n, split_space line = c :: arg :: rest /\ c ∈ [bytes_of "var"; bytes_of "v"] /\ int_lit arg n /\
     2 ^ 16 <= n < 2 ^ 32 /\ forall t, ix_cols ix !! N.to_nat (n / 2 ^ 16 - 1) = Some t -> t !! N.to_nat (n mod 2 ^ 16) = None).
Proof. exact l_C60_crashes. Qed.
Print Assumptions C60_crashes.
Theorem C60_node_number : forall eqf h ix id load, runs h ix -> 1 <= id < nodes_count ix ->
  exists i, session eqf ix [(load, spaced (bytes_of "node") [itoa id])] = ([RNode i], Some 0) /\ ni_id i = id /\
    (cmd_node ix (Z.of_N id)).2 = Ok i.
Proof. exact l_C60_node_number. Qed.
Print Assumptions C60_node_number.
Definition ex_session : list op :=
  [OTagID (bytes_of "NOUN") []; OTagID (bytes_of "sing") (bytes_of "NMbr");
   OAdd [97; 98]%Z; OTag [97; 98]%Z [bytes_of "sing"; bytes_of "NOUN"]; OTag [97; 98]%Z [bytes_of "NOUN"];
   OAdd [115; 101; 116]%Z; OTag [115; 101; 116]%Z [bytes_of "NOUN"]; OAdd [49]%Z; OOptimize; OReload].
Definition same (a b : list N) : bool := bool_decide (a = b).
Definition typed (ix : index) (ls : list string) : list reply * option N :=
  session same ix (map (fun l => (Ok ix, bytes_of l)) ls).
Definition noun := mkTag (bytes_of "----") (bytes_of "NOUN").
Definition sing := mkTag (bytes_of "NMbr") (bytes_of "sing").
Definition shape (r : reply) : reply :=
  match r with RNode i => RNode (mkInfo (ni_id i) (ni_word i) (ni_parent i) (ni_variants i) (ni_sets i) ∅) | r => r end.
Example C60_case : exists ix, runs ex_session ix /\ nodes_count ix = 6 /\
  (let '(rs, e) := typed ix ["ab"; "a"; "x"; ""; "tag count"; "t 1"; "tag sing"; "tag none"; "tag 2"; "tag"; "set tables"; "s table 1";
     "set 0x0001_0000"; "set 0b1"; "var 65536"; "v 0200000"; "node count"; "n 2"; "node ab"; "n 1"; "n 1 2"; "reload"; "set ab"; "ab"; "exit"; "ab"]%string in
   map shape rs =
   [RFound [[noun]; [noun; sing]]; RFound []; RMessage; RMessage; RTagCount 2; RTag 1 sing; RTag 1 sing; RMessage; RMessage; RMessage;
    RTables [1; 1]; RTable 1 [[0; 1]]; RSet 65536 [Some (bytes_of "NOUN"); Some (bytes_of "sing")]; RMessage;
    RVar 65536 [Some [Some (bytes_of "NOUN")]]; RVar 65536 [Some [Some (bytes_of "NOUN")]];
    RNodeCount 6; RNode (mkInfo 2 (bytes_of "ab") 1 131072 [[bytes_of "NOUN"]; [bytes_of "NOUN"; bytes_of "sing"]] ∅);
    RNode (mkInfo 2 (bytes_of "ab") 1 131072 [[bytes_of "NOUN"]; [bytes_of "NOUN"; bytes_of "sing"]] ∅);
    RNode (mkInfo 1 (bytes_of "a") 0 0 [] ∅); RMessage; RReloaded; RMessage; RFound [[noun]; [noun; sing]]] /\ e = Some 0).
Proof. apply run_case. vm_compute. repeat (split; [reflexivity|]). reflexivity. Qed.
(** The word "set" is in the dictionary with a tag set, but typing it gives no answer; the word
    "1" is there, but "node 1" shows another one. *)
Example C60_hidden_case_refuted : exists ix, runs ex_session ix /\
  (let r := (fetch_string ix (bytes_of "set")).2 in r = Ok 5 /\ node_tag_sets ix 5 = Ok [[noun]]) /\
  typed ix ["set"]%string = ([RMessage], Some 0) /\
  (fetch_string ix (bytes_of "1")).2 = Ok 6 /\
  match typed ix ["node 1"]%string with ([RNode i], _) => ni_id i = 1 /\ ni_word i = bytes_of "a" | _ => False end.
Proof.
  apply run_case. vm_compute. repeat split; reflexivity.
Qed.
Example C60_crash_case : exists ix, runs ex_session ix /\
  map (fun l => (typed ix [l]).2) ["tag -1"; "set table -1"; "node 0"; "n -4294967296"; "n -0"; "var 0x20001"; "var 0x10000"; "var 1"; "set -1"; "n -1"]%string =
  [None; None; None; None; None; None; Some 0; Some 0; Some 0; Some 0].
Proof. apply run_case. vm_compute. reflexivity. Qed.

(** C61.  From the server to the screen: after Update of a fresh directory, when nothing fails
    outside, the browser shows for every line that does not begin with a command exactly what
    the document says about it, however many lines were typed before. *)
Theorem C61_update_then_browse : forall eqf e s doc body out ix1 force lines,
  all_works e -> dir_ok e (after1 s UMkdir) = true -> fs_bz s = None ->
  e_get e = Some (200%N, body, true) -> e_unbz e body = (out, true) ->
  e_tokens e out = (flat_map events doc, true) ->
  forallb (valid (e_conv e) []) doc = true -> good_acts [] (doc_acts doc) ->
  runs (acts_ops (doc_acts doc) ++ [OOptimize]) ix1 -> disk_caps ix1 = true ->
  all_storable (acts_ops (doc_acts doc)) ->
  Forall (fun ll => 0 ∉ ll.2 /\ exists p ps, ll.2 = spaced p ps /\ Forall (fun f => 32 ∉ f) (p :: ps) /\ p ∉ commands) lines ->
  let '(replies, code) := browser_main eqf (load_index (after s (u_upds (update e s force)))) lines in
  code = Some 0 /\ Forall2 (fun ll r => right_reply (forms (doc_acts doc)) ll.2 r) lines replies.
Proof. exact l_C61_update_then_browse. Qed.
Print Assumptions C61_update_then_browse.
Theorem C61_within_limits : forall eqf e s doc body out force lines,
  all_works e -> dir_ok e (after1 s UMkdir) = true -> fs_bz s = None ->
  e_get e = Some (200%N, body, true) -> e_unbz e body = (out, true) ->
  e_tokens e out = (flat_map events doc, true) ->
  forallb (valid (e_conv e) []) doc = true -> good_acts [] (doc_acts doc) ->
  modest true (acts_ops (doc_acts doc) ++ [OOptimize; OReload]) ->
  all_storable (acts_ops (doc_acts doc)) ->
  Forall (fun ll => 0 ∉ ll.2 /\ exists p ps, ll.2 = spaced p ps /\ Forall (fun f => 32 ∉ f) (p :: ps) /\ p ∉ commands) lines ->
  let '(replies, code) := browser_main eqf (load_index (after s (u_upds (update e s force)))) lines in
  code = Some 0 /\ Forall2 (fun ll r => right_reply (forms (doc_acts doc)) ll.2 r) lines replies.
Proof. exact l_C61_within_limits. Qed.
Print Assumptions C61_within_limits.
Example C61_case :
  let s := after PropsLoader.fresh (u_upds (update ok_env PropsLoader.fresh false)) in
  let '(rs, e) := browser_main same (load_index s) (map (fun l => (Err EOther, bytes_of l)) ["cat"; "dog"; "oxen"; "ca"; "cat"]%string) in
  map (fun r => match r with RFound sets => Some (map (map tag_name) sets) | _ => None end) rs =
  [Some [[bytes_of "NOUN"; bytes_of "sing"]]; None; Some [[bytes_of "NOUN"; bytes_of "plur"]]; Some []; Some [[bytes_of "NOUN"; bytes_of "sing"]]] /\ e = Some 0.
Proof. vm_compute. split; reflexivity. Qed.
Example C61_case_hypotheses : modest true (acts_ops (doc_acts ex_doc) ++ [OOptimize; OReload]) /\
  Forall (fun ll => 0 ∉ ll.2 /\ exists p ps, ll.2 = spaced p ps /\ Forall (fun f => 32 ∉ f) (p :: ps) /\ p ∉ commands)
    [(Err EOther : res index, bytes_of "cat"); (Err EOther, bytes_of "a e")].
Proof.
  split; [apply modestb_modest; vm_compute; reflexivity|].
  repeat (apply List.Forall_cons || apply List.Forall_nil); (split; [apply (bool_decide_unpack _); vm_compute; exact I|]).
  - exists (bytes_of "cat"), []. split; [reflexivity|]. split; [constructor; [|constructor]|]; apply (bool_decide_unpack _); vm_compute; exact I.
  - exists (bytes_of "a"), [bytes_of "e"]. split; [reflexivity|].
    split; [constructor; [|constructor; [|constructor]]|]; apply (bool_decide_unpack _); vm_compute; exact I.
Qed.
