(** The answers of the index browser, command by command: C75.  The proofs are in ThmAnswers.v;
    AnswerSpec.v is the specification. *)
From Verif Require Import Base Storage Utf8 Tags TagSets Variants Items Index Spec Hist
  BaseFacts Intern ThmTrie Cli Strconv Session Numerals Browse ThmSession AnswerSpec ThmAnswers PropsSession.
From stdpp Require Import list gmap.
Open Scope N_scope.

(** C75.  What is seen after one line that begins with a command, for every command and every
    arguments, and nothing else is: the tables are [tag_says], [set_says], [var_says] and
    [node_says].  A reload answers the later lines from the index read; one that fails ends the
    browser with code 1, [exit] with code 0. *)
Theorem C75_tag : forall eqf ix load c args o, c ∈ [bytes_of "tag"; bytes_of "t"] -> Forall (fun f => 32 ∉ f) args ->
  session eqf ix [(load, spaced c args)] = o <-> tag_says eqf (ix_tags ix) args o.
Proof. exact l_C75_tag. Qed.
Print Assumptions C75_tag.
Theorem C75_set : forall eqf ix load c args o, c ∈ [bytes_of "set"; bytes_of "s"] -> Forall (fun f => 32 ∉ f) args ->
  session eqf ix [(load, spaced c args)] = o <-> set_says (ix_tags ix) (ix_sets ix) args o.
Proof. exact l_C75_set. Qed.
Print Assumptions C75_set.
Theorem C75_var : forall eqf h ix load c args o, runs h ix -> c ∈ [bytes_of "var"; bytes_of "v"] -> Forall (fun f => 32 ∉ f) args ->
  session eqf ix [(load, spaced c args)] = o <-> var_says (ix_tags ix) (ix_sets ix) (ix_cols ix) args o.
Proof. exact l_C75_var. Qed.
Print Assumptions C75_var.
Theorem C75_reload : forall eqf ix ix' lines args c, c ∈ [bytes_of "reload"; bytes_of "r"] -> Forall (fun f => 32 ∉ f) args ->
  session eqf ix ((Ok ix', spaced c args) :: lines) = (RReloaded :: (session eqf ix' lines).1, (session eqf ix' lines).2).
Proof. exact l_C75_reload. Qed.
Print Assumptions C75_reload.
Theorem C75_reload_fails : forall eqf ix x lines args c, c ∈ [bytes_of "reload"; bytes_of "r"] -> Forall (fun f => 32 ∉ f) args ->
  session eqf ix ((Err x, spaced c args) :: lines) = ([], Some 1).
Proof. exact l_C75_reload_fails. Qed.
Print Assumptions C75_reload_fails.
Theorem C75_exit : forall eqf ix load lines args c, c ∈ [bytes_of "exit"; bytes_of "e"] -> Forall (fun f => 32 ∉ f) args ->
  session eqf ix ((load, spaced c args) :: lines) = ([], Some 0).
Proof. exact l_C75_exit. Qed.
Print Assumptions C75_exit.
Theorem C75_node : forall h ix eqf load c args o, runs h ix -> c ∈ [bytes_of "node"; bytes_of "n"] ->
  Forall (fun f => 32 ∉ f /\ hd_ok h (runes_of_string f)) args ->
  session eqf ix [(load, spaced c args)] = o <-> node_says (d_run h) (node_tag_sets ix) (numbers_of ix) args o.
Proof. exact l_C75_node. Qed.
Print Assumptions C75_node.
(** The lines of C60_case once more, by the tables: the tag with number 1; the set 0x0001_0000; the
    node [a] with its only child; and two lines of refused arguments. *)
Example C75_case : exists ix, runs ex_session ix /\
  tag_says same (ix_tags ix) [bytes_of "1"] (says (RTag 1 sing)) /\
  tag_says same (ix_tags ix) [bytes_of "2"] (says RMessage) /\
  set_says (ix_tags ix) (ix_sets ix) [bytes_of "0x0001_0000"] (says (RSet 65536 [Some (bytes_of "NOUN"); Some (bytes_of "sing")])) /\
  var_says (ix_tags ix) (ix_sets ix) (ix_cols ix) [bytes_of "0x20001"] crash /\
  node_says (d_run ex_session) (node_tag_sets ix) (numbers_of ix) [bytes_of "1"]
    (says (RNode (mkInfo 1 (bytes_of "a") 0 0 [] {[ 98%Z := 2 ]}))) /\
  node_says (d_run ex_session) (node_tag_sets ix) (numbers_of ix) [bytes_of "set"]
    (says (RNode (mkInfo 5 (bytes_of "set") 4 65536 [[bytes_of "NOUN"]] ∅))) /\
  node_says (d_run ex_session) (node_tag_sets ix) (numbers_of ix) [bytes_of "ax"] (says RMessage).
Proof.
  assert (exists ix, runs ex_session ix /\
    map (fun l => typed ix [l]) ["t 1"; "t 2"; "s 0x0001_0000"; "v 0x20001"; "n 1"; "n set"; "n ax"]%string =
    [says (RTag 1 sing); says RMessage; says (RSet 65536 [Some (bytes_of "NOUN"); Some (bytes_of "sing")]); crash;
     says (RNode (mkInfo 1 (bytes_of "a") 0 0 [] {[ 98%Z := 2 ]}));
     says (RNode (mkInfo 5 (bytes_of "set") 4 65536 [[bytes_of "NOUN"]] ∅)); says RMessage]) as (ix & H & E).
  { apply run_case. vm_compute. reflexivity. }
  exists ix. split; [done|]. unfold typed in E. cbn [map] in E. injection E as E1 E2 E3 E4 E5 E6 E7.
  split; [|split; [|split; [|split; [|split; [|split]]]]].
  1,2: eapply (C75_tag same ix (Ok ix) (bytes_of "t")); [..|eassumption]; apply (bool_decide_unpack _); vm_compute; exact I.
  - eapply (C75_set same ix (Ok ix) (bytes_of "s")); [..|eassumption]; apply (bool_decide_unpack _); vm_compute; exact I.
  - eapply (C75_var same ex_session ix (Ok ix) (bytes_of "v")); [exact H|..|eassumption]; apply (bool_decide_unpack _); vm_compute; exact I.
  - eapply (C75_node ex_session ix same (Ok ix) (bytes_of "n")); [exact H|..|eassumption]; [apply (bool_decide_unpack _); vm_compute; exact I|].
    constructor; [|constructor]. split; [apply (bool_decide_unpack _); vm_compute; exact I|]. by intros _.
  - eapply (C75_node ex_session ix same (Ok ix) (bytes_of "n")); [exact H|..|eassumption]; [apply (bool_decide_unpack _); vm_compute; exact I|].
    constructor; [|constructor]. split; [apply (bool_decide_unpack _); vm_compute; exact I|]. by intros _.
  - eapply (C75_node ex_session ix same (Ok ix) (bytes_of "n")); [exact H|..|eassumption]; [apply (bool_decide_unpack _); vm_compute; exact I|].
    constructor; [|constructor]. split; [apply (bool_decide_unpack _); vm_compute; exact I|]. by intros _.
Qed.
(** A failed reload in the middle of a session: the lines after it are not answered. *)
Example C75_reload_case : exists ix, runs ex_session ix /\
  session same ix [(Ok ix, bytes_of "tag count"); (Ok index_new, bytes_of "r"); (Ok ix, bytes_of "tag count"); (Err EOther, bytes_of "reload"); (Ok ix, bytes_of "tag count")] =
    ([RTagCount 2; RReloaded; RTagCount 0], Some 1).
Proof. apply run_case. vm_compute. reflexivity. Qed.
