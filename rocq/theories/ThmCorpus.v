(** Proofs about the unused parts (C71). *)
From Coq Require Import ZifyBool ZifyNat ZifyN.
From Verif Require Import Base Storage Tags Parser Strconv Render Corpus Numerals NumFacts.
From stdpp Require Import list.
Open Scope N_scope.

(** ** Children *)
Lemma sends_imap l : sends l = imap (fun i c => mkChild (ch_parent c) (wrap32 (N.of_nat i))) l.
Proof.
  unfold sends. assert (H : forall (l : list child) j, omap (fun p : nat * child => if (Z.of_N (ch_parent p.2) =? -1)%Z then None else Some (mkChild (ch_parent p.2) (wrap32 (N.of_nat p.1))))
     (imap (fun i c => (j + i, c)%nat) l) = imap (fun i c => mkChild (ch_parent c) (wrap32 (N.of_nat (j + i)))) l).
  { clear. induction l as [|c l IH]; intros j; [done|]. rewrite !imap_cons. cbn [omap list_omap fst snd].
    destruct (Z.eqb_spec (Z.of_N (ch_parent c)) (-1)) as [E|E]; [lia|]. f_equal.
    etransitivity; [|etransitivity; [exact (IH (S j))|]].
    - f_equal. apply imap_ext. intros i x _. unfold compose. by rewrite <- Nat.add_succ_comm.
    - apply imap_ext. intros i x _. unfold compose. by rewrite <- Nat.add_succ_comm. }
  exact (H l 0%nat).
Qed.
Lemma l_C71_sends : forall l l' ps, sorts_to l l' -> ps ≡ₚ map ch_parent l -> StronglySorted N.le ps ->
  sends l' = imap (fun i p => mkChild p (wrap32 (N.of_nat i))) ps.
Proof.
  intros l l' ps [Hp Hs] Hps Hss. rewrite sends_imap.
  assert (map ch_parent l' = ps) as <-.
  { apply (StronglySorted_unique N.le); [done|done|]. rewrite Hps. by apply Permutation_map. }
  symmetry. by apply (imap_fmap (fun i p => mkChild p (wrap32 (N.of_nat i))) ch_parent l').
Qed.
Lemma sends_parents l : map ch_parent (sends l) = map ch_parent l.
Proof.
  rewrite sends_imap. assert (H : forall (f : nat -> N) (l : list child), map ch_parent (imap (fun i c => mkChild (ch_parent c) (f i)) l) = map ch_parent l).
  { clear. intros f l. revert f. induction l as [|c l IH]; intros f; [done|]. rewrite imap_cons. cbn [map ch_parent]. f_equal. exact (IH (f ∘ S)). }
  apply (H (fun i => wrap32 (N.of_nat i))).
Qed.
(** One message per parent. *)
Lemma l_C71_one_per_parent : forall l l', sorts_to l l' -> NoDup (map ch_parent (sends l')) <-> NoDup (map ch_parent l).
Proof. intros l l' [Hp _]. rewrite sends_parents. by rewrite (Permutation_map ch_parent Hp). Qed.
Lemma l_C71_stuck : forall l' callers gs, rtc passes (after_sort l' callers) gs -> gs = after_sort l' callers.
Proof.
  intros l' callers gs H. inversion H as [|a b c Hs Hr]; [done|]. subst. exfalso.
  inversion Hs as [gs' i j v vs n Hij Hi Hj]; subst. apply elem_of_list_lookup_2 in Hj.
  unfold after_sort in Hj. apply elem_of_cons in Hj as [Hj|Hj]; [done|]. apply elem_of_list_In, in_map_iff in Hj as (x & Hx & _). done.
Qed.
Lemma l_C71_finished : forall l l' callers gs, sorts_to l l' -> rtc passes (after_sort l' callers) gs ->
  gs !! 0%nat = Some (Sending []) <-> l = [].
Proof.
  intros l l' callers gs [Hp Hs] H. apply l_C71_stuck in H as ->. cbn. split.
  - intros [= E]. pose proof (sends_parents l') as Hl. rewrite E in Hl. destruct l' as [|c l']; [|done]. by apply Permutation_nil.
  - intros ->. apply Permutation_sym, Permutation_nil in Hp as ->. done.
Qed.
(** Only the receiver is missing: with one that takes as many values as there are, all of them pass. *)
Lemma l_C71_receiver : forall l' callers,
  rtc passes (after_sort l' callers ++ [Receiving (length (sends l'))]) (Sending [] :: map Sending callers ++ [Receiving 0]).
Proof.
  intros l' callers. unfold after_sort. cbn [app]. generalize (sends l'). generalize (map Sending callers) as cs. clear.
  intros cs vs. induction vs as [|v vs IH]; [done|]. cbn [length]. eapply rtc_l; [|exact IH].
  assert (E : (<[S (length cs) := Receiving (length vs)]> (<[0%nat := Sending vs]> (Sending (v :: vs) :: cs ++ [Receiving (S (length vs))])))
    = Sending vs :: cs ++ [Receiving (length vs)]).
  { change (Sending vs :: <[length cs := Receiving (length vs)]> (cs ++ [Receiving (S (length vs))]) = Sending vs :: cs ++ [Receiving (length vs)]).
    f_equal. rewrite insert_app_r_alt by lia. by rewrite Nat.sub_diag. }
  rewrite <- E. apply (passes_on _ 0 (S (length cs)) v vs (length vs)); [lia|done|].
  change ((cs ++ [Receiving (S (length vs))]) !! length cs = Some (Receiving (S (length vs)))). by apply list_lookup_middle.
Qed.
Lemma l_C71_get : forall l id, match children_get l id with Ok c => l !! N.to_nat id = Some c | Err _ => False | Panic => lenN l <= id end.
Proof.
  intros l id. unfold children_get. destruct (l !! N.to_nat id) as [c|] eqn:E; [done|]. apply lookup_ge_None in E. unfold lenN. lia.
Qed.
(** ** Lemmas *)
Lemma l_C71_search : forall l w, search l w `sublist_of` omap id l /\
  Forall (fun x => wf_form (fl_l x) = w) (search l w) /\
  exists rest, search l w ++ rest ≡ₚ omap id l /\ Forall (fun x => wf_form (fl_l x) <> w) rest.
Proof.
  intros l w. induction l as [|[x|] l (IH1 & IH2 & rest & IH3 & IH4)]; cbn [search].
  - split; [constructor|]. split; [constructor|]. exists []. done.
  - cbn [omap list_omap id]. destruct (bool_decide_reflect (wf_form (fl_l x) = w)) as [E|E].
    + split; [by constructor|]. split; [by constructor|]. exists rest. split; [|done]. cbn. by constructor.
    + split; [by constructor|]. split; [done|]. exists (x :: rest). split; [|by constructor]. rewrite <- Permutation_middle. by constructor.
  - cbn [omap list_omap id]. split; [done|]. split; [done|]. by exists rest.
Qed.
(** ** Attributes *)
Lemma get_attr_spec name attrs v : get_attr name attrs = Some v <->
  exists l1 l2, attrs = l1 ++ (name, v) :: l2 /\ Forall (fun a => a.1 <> name) l1.
Proof.
  induction attrs as [|[m u] attrs IH]; cbn [get_attr].
  - split; [done|]. by intros ([|? ?] & l2 & ? & _).
  - destruct (bool_decide_reflect (m = name)) as [E|E].
    + subst m. split.
      * intros [= ->]. by exists [], attrs.
      * intros ([|a l1] & l2 & El & Hl); [by injection El as -> _|]. injection El as <- _. by apply Forall_cons_1 in Hl as [Hl _].
    + rewrite IH. split.
      * intros (l1 & l2 & -> & Hl). exists ((m, u) :: l1), l2. split; [done|]. by constructor.
      * intros ([|a l1] & l2 & El & Hl); [by injection El as -> _ _|]. injection El as <- ->. apply Forall_cons_1 in Hl as [_ Hl]. by exists l1, l2.
Qed.
Lemma l_C71_attr : forall name attrs z, get_int name attrs = Some z <->
  exists l1 v l2, attrs = l1 ++ (name, v) :: l2 /\ Forall (fun a => a.1 <> name) l1 /\ with_sign decimal v z.
Proof.
  intros name attrs z. unfold get_int. split.
  - destruct (get_attr name attrs) as [v|] eqn:E; [|done]. intros H. apply get_attr_spec in E as (l1 & l2 & -> & Hl). exists l1, v, l2.
    split; [done|]. split; [done|]. by apply atoi_spec.
  - intros (l1 & v & l2 & -> & Hl & Hv). rewrite (proj2 (get_attr_spec name _ v)) by (by exists l1, l2). by apply atoi_spec.
Qed.
Lemma l_C71_grammeme : forall g, tag_name (grammeme_tag g) = gr_name g /\ tag_parent (grammeme_tag g) <> [] /\
  (gr_parent g <> [] -> tag_parent (grammeme_tag g) = gr_parent g) /\ (gr_parent g = [] -> tag_parent (grammeme_tag g) = bytes_of "----").
Proof.
  intros g. unfold grammeme_tag, new_tag. destruct (gr_parent g) as [|c p]; cbn; repeat split; done.
Qed.
