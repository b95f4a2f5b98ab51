(** Parts nothing calls yet: C71.  The proofs are in ThmCorpus.v. *)
From Verif Require Import Base Storage Tags Parser Strconv Render Corpus Numerals ThmCorpus.
From stdpp Require Import list.
Open Scope N_scope.

(** C71.  [ChildList.Sort] sends a message for every child, not for every parent, with the parents
    in order and the positions 0, 1, ..., whatever sort.Sort does with equal parents; nobody can
    receive them, so its goroutine never ends unless the list is empty.  [Search] gives the lemmas
    with that base form, all of them, in order.  An integer attribute is the value of the first
    attribute with that local name, read as Go reads decimal numbers.  The tag of a grammeme has its
    name and parent, "----" for an empty parent. *)
Theorem C71_sends : forall l l' ps, sorts_to l l' -> ps ≡ₚ map ch_parent l -> StronglySorted N.le ps ->
  sends l' = imap (fun i p => mkChild p (wrap32 (N.of_nat i))) ps.
Proof. exact l_C71_sends. Qed.
Print Assumptions C71_sends.
Theorem C71_one_per_parent : forall l l', sorts_to l l' -> NoDup (map ch_parent (sends l')) <-> NoDup (map ch_parent l).
Proof. exact l_C71_one_per_parent. Qed.
Print Assumptions C71_one_per_parent.
Theorem C71_stuck : forall l' callers gs, rtc passes (after_sort l' callers) gs -> gs = after_sort l' callers.
Proof. exact l_C71_stuck. Qed.
Print Assumptions C71_stuck.
Theorem C71_finished : forall l l' callers gs, sorts_to l l' -> rtc passes (after_sort l' callers) gs ->
  gs !! 0%nat = Some (Sending []) <-> l = [].
Proof. exact l_C71_finished. Qed.
Print Assumptions C71_finished.
Theorem C71_receiver : forall l' callers,
  rtc passes (after_sort l' callers ++ [Receiving (length (sends l'))]) (Sending [] :: map Sending callers ++ [Receiving 0]).
Proof. exact l_C71_receiver. Qed.
Print Assumptions C71_receiver.
Theorem C71_get : forall l id, match children_get l id with Ok c => l !! N.to_nat id = Some c | Err _ => False | Panic => lenN l <= id end.
Proof. exact l_C71_get. Qed.
Print Assumptions C71_get.
Theorem C71_search : forall l w, search l w `sublist_of` omap id l /\
  Forall (fun x => wf_form (fl_l x) = w) (search l w) /\
  exists rest, search l w ++ rest ≡ₚ omap id l /\ Forall (fun x => wf_form (fl_l x) <> w) rest.
Proof. exact l_C71_search. Qed.
Print Assumptions C71_search.
Theorem C71_attr : forall name attrs z, get_int name attrs = Some z <->
  exists l1 v l2, attrs = l1 ++ (name, v) :: l2 /\ Forall (fun a => a.1 <> name) l1 /\ with_sign decimal v z.
Proof. exact l_C71_attr. Qed.
Print Assumptions C71_attr.
Theorem C71_grammeme : forall g, tag_name (grammeme_tag g) = gr_name g /\ tag_parent (grammeme_tag g) <> [] /\
  (gr_parent g <> [] -> tag_parent (grammeme_tag g) = gr_parent g) /\ (gr_parent g = [] -> tag_parent (grammeme_tag g) = bytes_of "----").
Proof. exact l_C71_grammeme. Qed.
Print Assumptions C71_grammeme.
Definition ex_children : list child := [mkChild 5 1; mkChild 2 7; mkChild 5 0].
Example C71_sort_case : sorts_to ex_children [mkChild 2 7; mkChild 5 0; mkChild 5 1] /\ sorts_to ex_children [mkChild 2 7; mkChild 5 1; mkChild 5 0] /\
  sends [mkChild 2 7; mkChild 5 0; mkChild 5 1] = [mkChild 2 0; mkChild 5 1; mkChild 5 2] /\
  sends [mkChild 2 7; mkChild 5 1; mkChild 5 0] = [mkChild 2 0; mkChild 5 1; mkChild 5 2].
Proof.
  assert (HS : StronglySorted N.le [2; 5; 5]) by (repeat constructor; done).
  split; [split; [|exact HS]|split; [split; [|exact HS]|by vm_compute]].
  - unfold ex_children. rewrite (Permutation_swap (mkChild 2 7) (mkChild 5 1)). constructor. apply Permutation_swap.
  - unfold ex_children. apply Permutation_swap.
Qed.
(** With a receiver, values pass in order; the type of the result rules receivers out. *)
Example C71_receiver_case : rtc passes [Sending ex_children; Receiving 2] [Sending [mkChild 5 0]; Receiving 0].
Proof.
  apply (rtc_l _ _ [Sending [mkChild 2 7; mkChild 5 0]; Receiving 1]); [by apply (passes_on [Sending ex_children; Receiving 2] 0 1 (mkChild 5 1) [mkChild 2 7; mkChild 5 0] 1)|].
  apply (rtc_l _ _ [Sending [mkChild 5 0]; Receiving 0]); [by apply (passes_on [Sending [mkChild 2 7; mkChild 5 0]; Receiving 1] 0 1 (mkChild 2 7) [mkChild 5 0] 0)|]. constructor.
Qed.
(** Two messages for parent 5. *)
Theorem C71_one_per_parent_refuted : exists l l', sorts_to l l' /\ ~ NoDup (map ch_parent (sends l')).
Proof.
  exists ex_children, [mkChild 2 7; mkChild 5 1; mkChild 5 0]. split; [apply C71_sort_case|]. intros H. apply NoDup_cons in H as [_ H]. apply NoDup_cons in H as [H _].
  apply H. by left.
Qed.
Print Assumptions C71_one_per_parent_refuted.
Definition ex_lem (id : Z) (w : string) : full_lemma := mkFullLemma id 0 (mkWordForm (bytes_of w) []) [].
Example C71_case :
  search [Some (ex_lem 1 "ab"); None; Some (ex_lem 2 "abc"); Some (ex_lem 3 "ab")] (bytes_of "ab") = [ex_lem 1 "ab"; ex_lem 3 "ab"] /\
  search [Some (ex_lem 1 "ab")] (bytes_of "AB") = [] /\
  get_int (bytes_of "id") [(bytes_of "rev", bytes_of "7"); (bytes_of "id", bytes_of "-12"); (bytes_of "id", bytes_of "x")] = Some (-12)%Z /\
  get_int (bytes_of "id") [(bytes_of "id", bytes_of "0x1")] = None /\ get_int (bytes_of "id") [(bytes_of "ID", bytes_of "1")] = None /\
  get_int (bytes_of "id") [(bytes_of "id", bytes_of "9223372036854775808")] = None /\
  grammeme_tag (mkGrammeme [] (bytes_of "POST") [] []) = mkTag (bytes_of "----") (bytes_of "POST") /\
  children_get ex_children 1 = Ok (mkChild 2 7) /\ children_get ex_children 3 = Panic.
Proof. vm_compute. repeat (split; [reflexivity|]). reflexivity. Qed.
