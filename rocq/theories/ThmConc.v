(** Proofs of the properties of concurrent use (C32-C35, C58). *)
From Coq Require Import ZifyBool ZifyNat ZifyN.
From Verif Require Import Base Storage Bin Utf8 Tags TagSets Variants Items Index Spec Hist
  BaseFacts BinFacts TrieFacts CodecFacts ReloadFacts QueryFacts ThmTrie Conc.
From stdpp Require Import list gmap relations.
Open Scope N_scope.

Section machine.
  Context {S G : Type} (step : S -> G -> option (S * G)).
  Lemma rtc_inv (P : S * list G -> Prop) :
    (forall i s gs g s' g', P (s, gs) -> gs !! i = Some g -> step s g = Some (s', g') -> P (s', <[i := g']> gs)) ->
    forall c c', rtc (cstep step) c c' -> P c -> P c'.
  Proof.
    intros Hs c c' Hr. induction Hr as [|[s gs] c1 c2 [i Hi] _ IH]; [done|]. intros HP. apply IH.
    unfold sched_step in Hi. cbn [fst snd] in Hi. destruct (gs !! i) as [g|] eqn:E; [|done].
    destruct (step s g) as [[s' g']|] eqn:E'; [|done]. injection Hi as <-. by eapply Hs.
  Qed.
End machine.

(** ** C32 *)
Definition closed (m : gmap N (gmap Z N)) : Prop :=
  is_Some (m !! 0) /\ forall p r c, child m p r = Some c -> is_Some (m !! c).
Lemma ensure_some m id k : is_Some (m !! k) -> is_Some (ensure_map m id !! k).
Proof.
  intros H. unfold ensure_map. destruct (m !! id) eqn:E; [done|].
  destruct (decide (id = k)) as [->|Hne]; [by rewrite lookup_insert|by rewrite lookup_insert_ne].
Qed.
Lemma ensure_some_self m id : is_Some (ensure_map m id !! id).
Proof. unfold ensure_map. destruct (m !! id) eqn:E; [by rewrite E|by rewrite lookup_insert]. Qed.
Lemma set_child_some m p r c k : is_Some (m !! k) -> is_Some (set_child m p r c !! k).
Proof.
  intros H. unfold set_child. destruct (decide (p = k)) as [->|Hne]; [by rewrite lookup_insert|by rewrite lookup_insert_ne].
Qed.
Lemma child_set_child m p r c p' r' c' : child (set_child m p r c) p' r' = Some c' ->
  c' = c \/ child m p' r' = Some c'.
Proof.
  unfold child, set_child. destruct (decide (p = p')) as [->|Hne].
  - rewrite lookup_insert. destruct (decide (r = r')) as [->|Hne].
    + rewrite lookup_insert. intros [= <-]. by left.
    + rewrite lookup_insert_ne by done. destruct (m !! p') as [m'|]; [by right|]. cbn. by rewrite lookup_empty.
  - rewrite lookup_insert_ne by done. by right.
Qed.
Lemma rebuild_closed l : forall pos m words, closed m -> closed (rebuild_loop pos l m words).1.
Proof.
  induction l as [|it l IH]; intros pos m words [H0 Hc]; [done|]. cbn [rebuild_loop]. apply IH. split.
  - by apply set_child_some, ensure_some, ensure_some.
  - intros p r c E. apply set_child_some. apply child_set_child in E as [->|E]; [apply ensure_some_self|].
    rewrite !child_ensure in E. by apply ensure_some, ensure_some, (Hc p r).
Qed.
Lemma rbind_inv {A B} (m : reader A) (f : A -> reader B) bs r :
  (x ← m; f x) bs = Ok r -> exists a bs', m bs = Ok (a, bs') /\ f a bs' = Ok r.
Proof. unfold mbind, reader_bind. destruct (m bs) as [[a bs']|?|]; [|done..]. by eauto. Qed.
Lemma read_closed bs ix rest : index_read index_new bs = Ok (ix, rest) -> closed (ix_children ix).
Proof.
  unfold index_read. intros H. apply rbind_inv in H as (tags & b1 & _ & H). apply rbind_inv in H as (sets & b2 & _ & H).
  apply rbind_inv in H as (cols & b3 & _ & H). apply rbind_inv in H as (its & b4 & _ & H).
  pose proof (rebuild_closed (its_list its) 0 (ensure_map ∅ 0) 0) as Hc. unfold rebuild in H. cbn [ix_children ix_words index_new] in H.
  destruct (rebuild_loop 0 (its_list its) (ensure_map ∅ 0) 0) as [m w]. injection H as <- <-. cbn [ix_children]. apply Hc.
  split; [apply ensure_some_self|]. intros p r c. rewrite child_ensure. unfold child. by rewrite lookup_empty.
Qed.

Section look.
  Context (ix : Index.index).
  Definition ans (w : list Z) : res N := (fetch_runes ix w).2.
  Definition cur (pc : lpc) : list (res N) :=
    match pc with LNext => [] | LMap p rs | LMake p rs | LLetter p rs => [(fetch_loop ix p rs).2] end.
  Definition linv (g : looker) (ws : list (list Z)) : Prop :=
    l_res g ++ cur (l_pc g) ++ map ans (l_todo g) = map ans ws /\
    match l_pc g with LMake p _ => forall r, child (ix_children ix) p r = None | _ => True end.
  Lemma fetch_loop_eq p r rest : (fetch_loop ix p (r :: rest)).2 =
    match child (ix_children ix) p r with
    | None => _ ← node_word ix p; Err EIndex
    | Some n => match rest with [] => index_get ix n | _ => (fetch_loop ix n rest).2 end
    end.
  Proof.
    cbn [fetch_loop]. pose proof (same_core_ensure ix p) as Sc. rewrite (sc_child _ _ Sc).
    destruct (child _ p r) as [n|].
    - destruct rest as [|r2 rest]; [apply (q_get _ _ (same_core_queries _ _ Sc))|].
      apply (fetch_loop_cong (r2 :: rest) _ _ n Sc).
    - cbn [snd]. by rewrite (q_word _ _ (same_core_queries _ _ Sc)).
  Qed.
  Lemma l_step_inv s g s' g' ws : same_core s ix -> linv g ws -> l_step s g = Some (s', g') ->
    same_core s' ix /\ linv g' ws.
  Proof.
    intros Sc [Hr Hp] E. destruct g as [pc todo rs]. unfold l_step, linv in *. cbn [l_pc l_todo l_res] in *.
    destruct pc as [|p w|p w|p w].
    - destruct todo as [|w todo]; [done|]. injection E as <- <-. split; [done|]. cbn in Hr.
      destruct w as [|r w]; cbn [l_pc l_todo l_res cur app]; (split; [|done]).
      + rewrite <- Hr, <- app_assoc. done.
      + done.
    - injection E as <- <-. cbn [l_pc l_todo l_res]. split; [done|].
      destruct (ix_children s !! p) as [m|] eqn:Em; (split; [exact Hr|]); [done|].
      intros r. rewrite <- (sc_child _ _ Sc). unfold child. by rewrite Em.
    - injection E as <- <-. cbn [l_pc l_todo l_res]. split; [|split; [exact Hr|done]].
      destruct Sc as [S1 S2 S3 S4 S5 S6]. split; cbn; try done. intros p' r. rewrite <- S6. unfold child.
      destruct (decide (p = p')) as [->|Hne]; [|by rewrite lookup_insert_ne]. rewrite lookup_insert, lookup_empty.
      specialize (Hp r). rewrite <- S6 in Hp. unfold child in Hp. done.
    - destruct w as [|r w].
      + injection E as <- <-. split; [done|]. cbn [l_pc l_todo l_res cur app] in *. split; [|done]. by rewrite <- app_assoc.
      + cbn [cur] in Hr. rewrite fetch_loop_eq in Hr. rewrite (sc_child _ _ Sc) in E. destruct (child _ p r) as [n|].
        * destruct w as [|r2 w]; injection E as <- <-; (split; [done|]); cbn [l_pc l_todo l_res cur app] in *; (split; [|done]).
          -- rewrite (q_get _ _ (same_core_queries _ _ Sc)), <- app_assoc. done.
          -- done.
        * injection E as <- <-. split; [done|]. cbn [l_pc l_todo l_res cur app] in *. split; [|done].
          rewrite (q_word _ _ (same_core_queries _ _ Sc)), <- app_assoc. done.
  Qed.
  Definition lconf (wss : list (list (list Z))) (c : Index.index * list looker) : Prop :=
    same_core c.1 ix /\ Forall2 linv c.2 wss.
  Lemma lconf_reach wss s gs : rtc (cstep l_step) (ix, map l_start wss) (s, gs) -> lconf wss (s, gs).
  Proof.
    intros Hr. eapply (rtc_inv l_step (lconf wss)); [|exact Hr|].
    - clear. intros i s gs g s' g' [Sc Hf] Hg E. cbn [fst snd] in *.
      destruct (Forall2_lookup_l _ _ _ _ _ Hf Hg) as (ws & Hw & Hi).
      destruct (l_step_inv s g s' g' ws Sc Hi E) as [Sc' Hi']. split; [done|]. cbn [snd].
      replace wss with (<[i := ws]> wss) by (by apply list_insert_id). by apply Forall2_insert.
    - split; [done|]. cbn [snd]. apply Forall2_fmap_l, Forall_Forall2_diag, Forall_true. intros ws. split; [|done]. done.
  Qed.
End look.
Lemma l_C32_answers : forall ix wss s gs i g ws, rtc (cstep l_step) (ix, map l_start wss) (s, gs) ->
  gs !! i = Some g -> wss !! i = Some ws -> l_done g ->
  l_res g = map (fun w => (fetch_runes ix w).2) ws.
Proof.
  intros ix wss s gs i g ws Hr Hg Hw [Hd1 Hd2]. destruct (lconf_reach ix wss s gs Hr) as [_ Hf].
  destruct (Forall2_lookup_lr _ _ _ _ _ _ Hf Hg Hw) as [E _]. rewrite Hd1, Hd2 in E. cbn in E. by rewrite app_nil_r in E.
Qed.
Lemma l_C32_loaded_never_written : forall bs ix rest wss s gs,
  index_read index_new bs = Ok (ix, rest) -> rtc (cstep l_step) (ix, map l_start wss) (s, gs) ->
  s = ix /\ forall i g, gs !! i = Some g -> ~ l_writes g.
Proof.
  intros bs ix rest wss s gs Hl Hr. apply read_closed in Hl as [H0 Hc].
  pose (P := fun c : Index.index * list looker => c.1 = ix /\ Forall (fun g => match l_pc g with
     | LMake _ _ => False | LMap p _ | LLetter p _ => is_Some (ix_children ix !! p) | LNext => True end) c.2).
  assert (HP : P (s, gs)).
  { eapply (rtc_inv l_step P); [|exact Hr|].
    - clear -H0 Hc. intros i s gs g s' g' [E Hf] Hg Hs. cbn [fst snd] in *. subst s.
      pose proof (Forall_lookup_1 _ _ _ _ Hf Hg) as Hi. cbn in Hi. destruct g as [pc todo rs]. unfold l_step in Hs. cbn [l_pc l_todo l_res] in *.
      assert (Hq : s' = ix /\ match l_pc g' with
         | LMake _ _ => False | LMap p _ | LLetter p _ => is_Some (ix_children ix !! p) | LNext => True end).
      { destruct pc as [|p w|p w|p w].
        - destruct todo as [|w todo]; [done|]. injection Hs as <- <-. split; [done|]. by destruct w.
        - injection Hs as <- <-. split; [done|]. destruct Hi as [m Hm]. rewrite Hm. cbn. by rewrite Hm.
        - done.
        - destruct w as [|r w]; [by injection Hs as <- <-|]. destruct (child _ p r) as [n|] eqn:E; [|by injection Hs as <- <-].
          destruct w as [|r2 w]; injection Hs as <- <-; (split; [done|]); [done|]. cbn. by apply (Hc p r). }
      destruct Hq as [-> Hq]. split; [done|]. cbn [snd]. by apply Forall_insert.
    - split; [done|]. cbn [snd]. apply Forall_fmap, Forall_true. done. }
  destruct HP as [E Hf]. cbn in E. split; [done|]. intros i g Hg (p & rs & Hp).
  pose proof (Forall_lookup_1 _ _ _ _ Hf Hg) as Hi. cbn in Hi. by rewrite Hp in Hi.
Qed.
Lemma l_C32_loaded_no_race : forall bs ix rest wss c,
  index_read index_new bs = Ok (ix, rest) -> rtc (cstep l_step) (ix, map l_start wss) c -> ~ l_race c.
Proof.
  intros bs ix rest wss [s gs] Hl Hr (i & j & g & g' & _ & Hg & _ & Hw & _).
  destruct (l_C32_loaded_never_written bs ix rest wss s gs Hl Hr) as [_ H]. by eapply H.
Qed.
(** Every schedule ends. *)
Definition l_work (ws : list (list Z)) : nat := sum_list (map (fun w => 3 * length w + 4)%nat ws).
Definition l_measure (g : looker) : nat :=
  (match l_pc g with LNext => 0 | LMap _ rs => 3 * length rs + 3 | LMake _ rs => 3 * length rs + 2 | LLetter _ rs => 3 * length rs + 1 end
   + l_work (l_todo g))%nat.
Lemma l_step_measure s g s' g' : l_step s g = Some (s', g') -> (l_measure g' < l_measure g)%nat.
Proof.
  destruct g as [pc todo rs]. unfold l_step, l_measure. cbn [l_pc l_todo l_res].
  destruct pc as [|p w|p w|p w].
  - destruct todo as [|w todo]; [done|]. intros [= _ <-]. unfold l_work. destruct w; cbn [l_pc l_todo length map sum_list sum_list_with foldr]; cbn; lia.
  - intros [= _ <-]. cbn [l_pc l_todo]. destruct (ix_children s !! p); lia.
  - intros [= _ <-]. cbn [l_pc l_todo length]; lia.
  - destruct w as [|r w]; [intros [= _ <-]; cbn [l_pc l_todo length]; lia|]. destruct (child _ p r) as [n|].
    + destruct w as [|r2 w]; intros [= _ <-]; cbn [l_pc l_todo length]; lia.
    + intros [= _ <-]; cbn [l_pc l_todo length]; lia.
Qed.
Lemma sum_list_insert i x y (l : list nat) : l !! i = Some x -> (sum_list (<[i := y]> l) + x = sum_list l + y)%nat.
Proof.
  revert i. induction l as [|z l IH]; intros i Hi; [done|]. destruct i as [|i].
  - injection Hi as ->. change (<[0%nat := y]> (x :: l)) with (y :: l). cbn [sum_list_with id]. unfold id. lia.
  - specialize (IH i Hi). change (<[S i := y]> (z :: l)) with (z :: <[i := y]> l). cbn [sum_list_with]. unfold id in *. lia.
Qed.
Lemma l_C32_every_schedule_ends : forall ix wss n c, nsteps (cstep l_step) n (ix, map l_start wss) c ->
  (n <= sum_list (map l_work wss))%nat /\
  ((forall g, g ∈ c.2 -> l_done g) \/ exists c', cstep l_step c c').
Proof.
  intros ix wss n c Hn. split.
  - assert (Hm : forall n c c', nsteps (cstep l_step) n c c' -> (n + sum_list (map l_measure c'.2) <= sum_list (map l_measure c.2))%nat).
    { clear. intros n c c' H. induction H as [|n [s gs] c1 c2 [i Hi] _ IH]; [lia|]. unfold sched_step in Hi. cbn [fst snd] in *.
      destruct (gs !! i) as [g|] eqn:E; [|done]. destruct (l_step s g) as [[s' g']|] eqn:E'; [|done]. injection Hi as <-. cbn [snd] in *.
      apply l_step_measure in E'. pose proof (sum_list_insert i (l_measure g) (l_measure g') (map l_measure gs)) as Hs.
      assert (E2 : map l_measure gs !! i = Some (l_measure g)) by (change (map l_measure gs) with (l_measure <$> gs); by rewrite list_lookup_fmap, E).
      specialize (Hs E2). change (map l_measure (<[i:=g']> gs)) with (l_measure <$> <[i:=g']> gs) in IH. rewrite list_fmap_insert in IH.
      change (l_measure <$> gs) with (map l_measure gs) in IH. lia. }
    specialize (Hm n _ _ Hn). cbn [snd] in Hm. rewrite map_map in Hm. change (fun x => l_measure (l_start x)) with l_work in Hm. lia.
  - destruct c as [s gs]. cbn [snd]. destruct (decide (Forall (fun g => l_step s g = None) gs)) as [Hf|Hf].
    + left. intros g Hg. rewrite Forall_forall in Hf. specialize (Hf g Hg). destruct g as [pc todo rs]. unfold l_step in Hf. cbn [l_pc l_todo l_res] in Hf.
      destruct pc as [|p w|p w|p w]; [|done|done|].
      * by destruct todo.
      * destruct w as [|r w]; [done|]. destruct (child _ p r); [|done]. by destruct w.
    + right. apply not_Forall_Exists in Hf; [|apply _]. apply Exists_exists in Hf as (g & Hg & Hs). apply elem_of_list_lookup in Hg as [i Hi].
      destruct (l_step s g) as [[s' g']|] eqn:E; [|done]. eexists. exists i. unfold sched_step. cbn [fst snd]. by rewrite Hi, E.
Qed.
Lemma fetch_alone : forall rs s p res, rs <> [] ->
  rtc (cstep l_step) (s, [mkLooker (LMap p rs) [] res])
    ((fetch_loop s p rs).1, [mkLooker LNext [] (res ++ [(fetch_loop s p rs).2])]).
Proof.
  induction rs as [|r rest IH]; intros s p res Hne; [done|].
  assert (H1 : rtc (cstep l_step) (s, [mkLooker (LMap p (r :: rest)) [] res])
                 (ensure_children s p, [mkLooker (LLetter p (r :: rest)) [] res])).
  { eapply rtc_l; [exists 0%nat; reflexivity|]. cbn [l_pc l_todo l_res fst snd]. unfold ensure_children, ensure_map.
    destruct (ix_children s !! p) as [m|] eqn:E.
    - destruct s; cbn in *. constructor.
    - eapply rtc_l; [exists 0%nat; reflexivity|]. constructor. }
  etransitivity; [exact H1|]. cbn [fetch_loop]. set (s1 := ensure_children s p). destruct (child (ix_children s1) p r) as [n|] eqn:E.
  - destruct rest as [|r2 rest].
    + apply rtc_once. exists 0%nat. unfold sched_step. cbn [fst snd lookup list_lookup l_pc l_todo l_res l_step]. rewrite E. done.
    + eapply rtc_l; [|apply (IH s1 n res); done]. exists 0%nat. unfold sched_step. cbn [fst snd lookup list_lookup l_pc l_todo l_res l_step]. rewrite E. done.
  - apply rtc_once. exists 0%nat. unfold sched_step. cbn [fst snd lookup list_lookup l_pc l_todo l_res l_step]. rewrite E. done.
Qed.
Lemma l_C32_alone : forall ix w, rtc (cstep l_step) (ix, [l_start [w]])
  ((fetch_runes ix w).1, [mkLooker LNext [] [(fetch_runes ix w).2]]).
Proof.
  intros ix w. eapply rtc_l; [exists 0%nat; reflexivity|]. unfold fetch_runes, fetch_from_item. destruct w as [|r w]; [constructor|].
  apply (fetch_alone (r :: w) ix 0 []). done.
Qed.

(** ** C33 *)
Definition a_pend (pc : apc) : bool :=
  match pc with AExtend _ | ACopy _ _ _ _ | AInc _ | ASet _ _ => true | _ => false end.
Definition a_early (pc : apc) : bool := match pc with ANext | ALock | ARead => true | _ => false end.
Definition a_rest (g : alloc) : list (N * Z) := if a_early (a_pc g) then a_todo g else tail (a_todo g).
Notation arr s a := (default [] (m_arrays s !! a)).
Definition a_local (s : amem) (g : alloc) : Prop :=
  match a_pc g with
  | ANext | ALock | ARead => True
  | AExtend n => n = m_next s /\ N.of_nat (m_len s) <= n
  | ACopy n a k len => n = m_next s /\ (a < length (m_arrays s))%nat /\ (m_len s <= len)%nat /\ n < N.of_nat len /\
                       (len <= length (arr s a))%nat
  | AInc n => n = m_next s /\ n < N.of_nat (m_len s)
  | ASet n m => n = m_next s /\ m = n /\ n < N.of_nat (m_len s)
  | AUnlock n | ASlice n _ | ALast n => n < N.of_nat (m_len s)
  | AStore n _ a | AResult n a => n < N.of_nat (m_len s) /\ (a < length (m_arrays s))%nat /\ (N.to_nat n < length (arr s a))%nat
  | ACrash => False
  end.
Record a_global (s : amem) : Prop := mkAG {
  ag_arr : (m_arr s < length (m_arrays s))%nat;
  ag_len : (m_len s <= length (arr s (m_arr s)))%nat;
  ag_next : m_next s <= N.of_nat (m_len s) }.
Record a_mono (s s' : amem) : Prop := mkAM {
  am_len : (m_len s <= m_len s')%nat;
  am_arrays : (length (m_arrays s) <= length (m_arrays s'))%nat;
  am_arr : forall a, (a < length (m_arrays s))%nat -> (length (arr s a) <= length (arr s' a))%nat }.
Lemma a_mono_refl s : a_mono s s. Proof. split; [lia|lia|]. intros; lia. Qed.
Lemma extend_count_range n : 4 <= extend_count n <= 15.
Proof.
  unfold extend_count. destruct (find _ _) as [i|] eqn:E; [|vm_compute; split; discriminate].
  apply find_some in E as [E _]. cbn in E. repeat (destruct E as [<-|E]; [vm_compute; split; discriminate|]). done.
Qed.
Lemma arr_insert s a l a' : (a < length (m_arrays s))%nat ->
  default [] (<[a := l]> (m_arrays s) !! a') = if decide (a = a') then l else arr s a'.
Proof.
  intros Ha. destruct (decide (a = a')) as [->|Hne]; [by rewrite list_lookup_insert|by rewrite list_lookup_insert_ne].
Qed.
Lemma arr_app s l a' : (a' < length (m_arrays s))%nat -> default [] ((m_arrays s ++ [l]) !! a') = arr s a'.
Proof. intros. by rewrite lookup_app_l. Qed.

Lemma a_step_local grow s g s' g' :
  a_global s -> a_local s g -> (a_pend (a_pc g) = true -> m_next s + 1 < 2 ^ 32) ->
  a_step grow s g = Some (s', g') ->
  a_global s' /\ a_local s' g' /\ a_mono s s' /\
  (a_cs (a_pc g) = false -> m_next s' = m_next s).
Proof.
  intros [G1 G2 G3] L Hb E. destruct g as [id pc todo got ret]. unfold a_step in E. cbn [a_todo a_pc a_got a_ret a_id] in *.
  destruct todo as [|rq todo]; [done|]. unfold a_local in L. cbn [a_pc] in L.
  destruct pc as [| | |n|n a k len|n|n m|n|n f|n f a|n|n a|]; try done.
  - injection E as <- <-. split; [done|]. split; [done|]. split; [apply a_mono_refl|done].
  - destruct (m_lock s); [done|]. injection E as <- <-. split; [done|]. split; [done|]. split; [|done]. split; cbn; intros; lia.
  - injection E as <- <-. split; [done|]. split; [|split; [apply a_mono_refl|done]]. unfold a_local. cbn [a_pc].
    destruct (N.leb_spec (N.of_nat (m_len s)) (m_next s)); (split; [done|lia]).
  - destruct L as [-> L]. pose proof (extend_count_range (N.of_nat (m_len s))) as Hx. set (x := extend_count _) in *. clearbody x.
    destruct (Nat.leb_spec (m_len s + N.to_nat x) (length (arr s (m_arr s)))) as [Hc|Hc]; injection E as <- <-; cbn.
    + set (l' := take _ _ ++ _). assert (Hl : length l' = length (arr s (m_arr s))).
      { unfold l'. rewrite !app_length, take_length, replicate_length, drop_length. lia. }
      split; [|split; [|split; [|done]]].
      * split; cbn; rewrite ?insert_length; try done; [|lia]. rewrite arr_insert, decide_True by done. lia.
      * unfold a_local. cbn. split; [done|lia].
      * split; cbn; rewrite ?insert_length; [lia|lia|]. intros a Ha. rewrite arr_insert by done. case_decide; subst; lia.
    + set (new := replicate _ _). assert (Hl : (m_len s + N.to_nat x <= length new)%nat) by (unfold new; rewrite replicate_length; lia).
      split; [|split; [|split; [|done]]].
      * split; cbn; rewrite ?app_length; cbn; [lia| |done]. rewrite arr_app by done. done.
      * unfold a_local. cbn. rewrite app_length. cbn. rewrite lookup_app_r, Nat.sub_diag by lia. cbn. repeat split; lia.
      * split; cbn; rewrite ?app_length; cbn; [lia|lia|]. intros a Ha. rewrite arr_app by done. lia.
  - destruct L as (-> & L1 & L2 & L3 & L4). destruct (Nat.ltb_spec k (m_len s)) as [Hk|Hk].
    + destruct (arr s (m_arr s) !! k) as [it|] eqn:Ek; [|apply lookup_ge_None in Ek; lia]. injection E as <- <-. unfold upd_array; cbn.
      split; [|split; [|split; [|done]]].
      * split; cbn; rewrite ?insert_length; try done. rewrite arr_insert by done. case_decide; subst; rewrite ?insert_length; lia.
      * unfold a_local; cbn. rewrite insert_length, arr_insert, decide_True, insert_length by done. repeat split; lia.
      * split; cbn; rewrite ?insert_length; [lia|lia|]. intros b Hb'. rewrite arr_insert by done. case_decide; subst; rewrite ?insert_length; lia.
    + injection E as <- <-. split; [|split; [|split; [|done]]].
      * split; cbn; [done|lia|lia].
      * unfold a_local; cbn. split; [done|lia].
      * split; cbn; [lia|lia|]. intros; lia.
  - destruct L as [-> L]. injection E as <- <-. split; [done|]. split; [|split; [apply a_mono_refl|done]]. unfold a_local; cbn. repeat split; lia.
  - destruct L as (-> & -> & L). injection E as <- <-. specialize (Hb eq_refl).
    assert (Hw : wrap32 (m_next s + 1) = m_next s + 1) by (unfold wrap32; apply N.mod_small; lia). rewrite Hw.
    split; [|split; [|split; [|done]]].
    + split; cbn; [done|lia|lia].
    + unfold a_local; cbn. done.
    + split; cbn; [lia|lia|]. intros; lia.
  - injection E as <- <-. split; [|split; [|split; [|done]]].
    + split; cbn; [done|lia|lia].
    + unfold a_local; cbn. done.
    + split; cbn; [lia|lia|]. intros; lia.
  - injection E as <- <-. split; [done|]. split; [|split; [apply a_mono_refl|done]]. unfold a_local; cbn.
    destruct (N.ltb_spec n (N.of_nat (m_len s))); [|lia]. cbn. repeat split; [done|done|lia].
  - destruct L as (L1 & L2 & L3). destruct (arr s a !! N.to_nat n) as [it|] eqn:Ek; [|apply lookup_ge_None in Ek; lia].
    injection E as <- <-. unfold upd_array; cbn. split; [|split; [|split; [|done]]].
    + split; cbn; rewrite ?insert_length; try done. rewrite arr_insert by done. case_decide; subst; rewrite ?insert_length; lia.
    + unfold a_local; cbn. destruct f; cbn; lia.
    + split; cbn; rewrite ?insert_length; [lia|lia|]. intros b Hb'. rewrite arr_insert by done. case_decide; subst; rewrite ?insert_length; lia.
  - injection E as <- <-. split; [done|]. split; [|split; [apply a_mono_refl|done]]. unfold a_local; cbn.
    destruct (N.ltb_spec n (N.of_nat (m_len s))); [|lia]. cbn. repeat split; [done|done|lia].
  - destruct L as (L1 & L2 & L3). destruct (arr s a !! N.to_nat n) as [it|] eqn:Ek; [|apply lookup_ge_None in Ek; lia].
    injection E as <- <-. split; [done|]. split; [done|]. split; [apply a_mono_refl|done].
Qed.
(** What a step does to the goroutine and to the lock. *)
Lemma a_step_shape grow s g s' g' : a_step grow s g = Some (s', g') -> a_pc g' <> ACrash ->
  a_id g' = a_id g /\ a_todo g <> [] /\ (a_pc g' = ANext \/ a_todo g' <> []) /\
  (a_got g').*2 ++ a_rest g' = (a_got g).*2 ++ a_rest g /\
  (a_cs (a_pc g) = false -> a_cs (a_pc g') = true -> m_lock s = None /\ m_lock s' = Some (a_id g)) /\
  (a_cs (a_pc g) = false -> a_cs (a_pc g') = false -> m_lock s' = m_lock s) /\
  (a_cs (a_pc g) = true -> a_cs (a_pc g') = true -> m_lock s' = m_lock s) /\
  (a_cs (a_pc g) = true -> a_cs (a_pc g') = false -> m_lock s' = None) /\
  ((a_pc g = ARead /\ a_got g' = a_got g ++ [(m_next s, default (0, 0%Z) (head (a_todo g)))] /\ a_pend (a_pc g') = true /\ m_next s' = m_next s) \/
   (a_got g' = a_got g /\ ((exists n m, a_pc g = ASet n m /\ m_next s' = wrap32 (m + 1) /\ a_pend (a_pc g') = false) \/
                           (a_pend (a_pc g') = a_pend (a_pc g) /\ m_next s' = m_next s)))).
Proof.
  intros E Hcr. destruct g as [id pc todo got ret]. unfold a_step in E. cbn [a_todo a_pc a_got a_ret a_id] in *.
  destruct todo as [|rq todo]; [done|]. unfold a_rest. cbn [a_todo a_pc a_got].
  destruct pc as [| | |n|n a k len|n|n m|n|n f|n f a|n|n a|]; try done.
  - injection E as <- <-. cbn. naive_solver.
  - destruct (m_lock s); [done|]. injection E as <- <-. cbn. naive_solver.
  - injection E as <- <-. cbn. rewrite fmap_app, <- app_assoc. destruct (_ <=? _); cbn; naive_solver.
  - destruct (_ <=? _)%nat; injection E as <- <-; cbn; naive_solver.
  - destruct (_ <? _)%nat; [destruct (arr s (m_arr s) !! k)|]; injection E as <- <-; cbn in *; [|done|]; naive_solver.
  - injection E as <- <-. cbn. naive_solver.
  - injection E as <- <-. cbn. naive_solver.
  - injection E as <- <-. cbn. naive_solver.
  - injection E as <- <-. cbn. destruct (_ <? _); cbn; naive_solver.
  - destruct (arr s a !! N.to_nat n); injection E as <- <-; destruct f; cbn; naive_solver.
  - injection E as <- <-. cbn. destruct (_ <? _); cbn; naive_solver.
  - destruct (arr s a !! N.to_nat n); injection E as <- <-; cbn; naive_solver.
Qed.
Lemma numbers_insert gs i g g' : gs !! i = Some g ->
  a_numbers (<[i := g']> gs) ++ (a_got g).*1 ≡ₚ a_numbers gs ++ (a_got g').*1.
Proof.
  intros Hi. pose proof (lookup_lt_Some _ _ _ Hi) as Hl. rewrite (insert_take_drop gs i g') by done.
  rewrite <- (take_drop_middle gs i g Hi) at 3. unfold a_numbers. rewrite !flat_map_app. cbn [flat_map].
  set (A := flat_map _ (take i gs)). set (B := flat_map _ (drop (S i) gs)). clearbody A B. solve_Permutation.
Qed.
Lemma numbers_same gs i g g' : gs !! i = Some g -> a_got g' = a_got g -> a_numbers (<[i := g']> gs) = a_numbers gs.
Proof.
  intros Hi E. pose proof (lookup_lt_Some _ _ _ Hi) as Hl. rewrite (insert_take_drop gs i g') by done.
  rewrite <- (take_drop_middle gs i g Hi) at 3. unfold a_numbers. rewrite !flat_map_app. cbn [flat_map]. by rewrite E.
Qed.
Lemma numbers_bound gs rqs : Forall2 (fun g rq => (a_got g).*2 ++ a_rest g = rq) gs rqs ->
  (length (a_numbers gs) <= a_total rqs)%nat.
Proof.
  unfold a_numbers, a_total. induction 1 as [|g rq gs rqs E _ IH]; [done|]. cbn [flat_map map sum_list_with]. rewrite app_length, fmap_length.
  apply (f_equal length) in E. rewrite app_length, fmap_length in E. unfold id in *. lia.
Qed.
Definition from_n0 (n0 : N) (k : nat) : list N := map (fun i => n0 + N.of_nat i) (seq 0 k).
Record a_conf (n0 : N) (rqs : list (list (N * Z))) (c : amem * list alloc) : Prop := mkAC {
  ac_global : a_global c.1;
  ac_id : forall i g, c.2 !! i = Some g -> a_id g = i;
  ac_got : Forall2 (fun g rq => (a_got g).*2 ++ a_rest g = rq) c.2 rqs;
  ac_busy : forall i g, c.2 !! i = Some g -> a_pc g = ANext \/ a_todo g <> [];
  ac_local : forall i g, c.2 !! i = Some g -> a_local c.1 g;
  ac_cs : forall i g, c.2 !! i = Some g -> a_cs (a_pc g) = true <-> m_lock c.1 = Some i;
  ac_owner : forall i, m_lock c.1 = Some i -> (i < length c.2)%nat;
  ac_perm : a_numbers c.2 ≡ₚ from_n0 n0 (length (a_numbers c.2));
  ac_count : ((exists i g, c.2 !! i = Some g /\ a_pend (a_pc g) = true) /\ m_next c.1 + 1 = n0 + lenN (a_numbers c.2)) \/
             ((forall i g, c.2 !! i = Some g -> a_pend (a_pc g) = false) /\ m_next c.1 = n0 + lenN (a_numbers c.2)) }.
Lemma a_pend_cs pc : a_pend pc = true -> a_cs pc = true. Proof. by destruct pc. Qed.
Lemma a_cs_local_mono s s' g : a_mono s s' -> a_cs (a_pc g) = false -> a_local s g -> a_local s' g.
Proof.
  intros [M1 M2 M3] Hc. unfold a_local. destruct (a_pc g); try done; try lia.
  - intros (H1 & H2 & H3). specialize (M3 _ H2). lia.
  - intros (H1 & H2 & H3). specialize (M3 _ H2). lia.
Qed.
Lemma a_conf_step grow n0 rqs i s gs g s' g' : n0 + N.of_nat (a_total rqs) < 2 ^ 32 ->
  a_conf n0 rqs (s, gs) -> gs !! i = Some g -> a_step grow s g = Some (s', g') -> a_conf n0 rqs (s', <[i := g']> gs).
Proof.
  intros Hb [C1 C2 C3 C4 C5 C6 C7 C8 C9] Hi E. cbn [fst snd] in *. pose proof (lookup_lt_Some _ _ _ Hi) as Hil.
  pose proof (numbers_bound _ _ C3) as Hk.
  assert (Hlen : lenN (a_numbers gs) = N.of_nat (length (a_numbers gs))) by done.
  assert (Hnx : a_pend (a_pc g) = true -> m_next s + 1 < 2 ^ 32).
  { intros Hc. destruct C9 as [[_ H]|[H _]]; [lia|]. specialize (H i g Hi). congruence. }
  destruct (a_step_local grow s g s' g' C1 (C5 i g Hi) Hnx E) as (G' & L' & M & Hn).
  assert (Hcr : a_pc g' <> ACrash) by (intros Hx; unfold a_local in L'; by rewrite Hx in L').
  destruct (a_step_shape grow s g s' g' E Hcr) as (S1 & S2 & S3 & S4 & S5 & S6 & S7 & S8 & S9).
  pose proof (C2 i g Hi) as Hid. pose proof (C6 i g Hi) as Hcs.
  assert (Hother : forall j h, <[i := g']> gs !! j = Some h -> (j = i /\ h = g') \/ (j <> i /\ gs !! j = Some h)).
  { intros j h. destruct (decide (j = i)) as [->|Hne].
    - rewrite list_lookup_insert by done. intros [= ->]. by left.
    - rewrite list_lookup_insert_ne by done. by right. }
  assert (Hnocs : a_cs (a_pc g) = true -> forall j h, j <> i -> gs !! j = Some h -> a_cs (a_pc h) = false).
  { intros Hc j h Hne Hj. destruct (a_cs (a_pc h)) eqn:Eh; [|done]. apply (C6 j h Hj) in Eh. apply Hcs in Hc. congruence. }
  assert (Hnopend : a_cs (a_pc g) = true -> forall j h, j <> i -> gs !! j = Some h -> a_pend (a_pc h) = false).
  { intros Hc j h Hne Hj. destruct (a_pend (a_pc h)) eqn:Eh; [|done]. apply a_pend_cs in Eh. by rewrite (Hnocs Hc j h Hne Hj) in Eh. }
  split; cbn [fst snd].
  - done.
  - intros j h [[-> ->]|[Hne Hj]]%Hother; [by rewrite S1|by apply C2].
  - destruct (Forall2_lookup_l _ _ _ _ _ C3 Hi) as (rq & Hrq & Erq). rewrite <- (list_insert_id rqs i rq Hrq).
    apply Forall2_insert; [done|]. by rewrite S4.
  - intros j h [[-> ->]|[Hne Hj]]%Hother; [done|by eapply C4].
  - intros j h [[-> ->]|[Hne Hj]]%Hother; [done|]. specialize (C5 j h Hj). destruct (a_cs (a_pc h)) eqn:Eh; [|by eapply a_cs_local_mono].
    (* [h] is in the critical section, so [g] is not *)
    assert (Hgc : a_cs (a_pc g) = false). { destruct (a_cs (a_pc g)) eqn:Eg; [|done]. by rewrite (Hnocs eq_refl j h Hne Hj) in Eh. }
    assert (Hl : m_len s' = m_len s).
    { clear -E Hgc. destruct g as [id pc todo got ret]. unfold a_step in E. cbn in *. destruct todo; [done|].
      destruct pc; try done; repeat case_match; try done; by injection E as <- _. }
    destruct M as [M1 M2 M3]. specialize (Hn Hgc). unfold a_local in *. destruct (a_pc h); try done; rewrite ?Hn, ?Hl; try done.
    destruct C5 as (H1 & H2 & H3 & H4 & H5). specialize (M3 _ H2). repeat split; [done|lia..].
  - intros j h [[-> ->]|[Hne Hj]]%Hother.
    + destruct (a_cs (a_pc g)) eqn:Eg, (a_cs (a_pc g')) eqn:Eg'.
      * split; [|done]. intros _. rewrite S7 by done. by apply Hcs.
      * rewrite S8 by done. done.
      * destruct S5 as [_ ->]; [done..|]. by rewrite Hid.
      * rewrite S6 by done. done.
    + rewrite (C6 j h Hj). destruct (a_cs (a_pc g)) eqn:Eg, (a_cs (a_pc g')) eqn:Eg'.
      * by rewrite S7.
      * rewrite S8 by done. split; [|done]. intros Hj'. assert (m_lock s = Some i) by (by apply Hcs). congruence.
      * destruct S5 as [-> ->]; [done..|]. split; [done|]. intros [= <-]. by rewrite Hid in Hne.
      * by rewrite S6.
  - intros j. rewrite insert_length. destruct (a_cs (a_pc g)) eqn:Eg, (a_cs (a_pc g')) eqn:Eg'.
    + rewrite S7 by done. apply C7.
    + by rewrite S8.
    + destruct S5 as [_ ->]; [done..|]. rewrite Hid. by intros [= <-].
    + rewrite S6 by done. apply C7.
  - destruct S9 as [(P1 & P2 & P3 & P4)|(P1 & _)].
    + assert (Hx : a_numbers (<[i := g']> gs) ≡ₚ a_numbers gs ++ [m_next s]).
      { pose proof (numbers_insert gs i g g' Hi) as Hp. rewrite P2, fmap_app in Hp. cbn in Hp.
        apply (Permutation_app_inv_r (a_got g).*1). rewrite Hp. rewrite (Permutation_app_comm (a_got g).*1). by rewrite <- !app_assoc. }
      rewrite Hx at 1. rewrite (Permutation_length Hx), app_length. cbn [length]. unfold from_n0. rewrite seq_app, map_app. cbn [seq map].
      apply Permutation_app; [exact C8|]. destruct C9 as [[(j & h & Hj & Hp) _]|[_ ->]].
      * destruct (decide (j = i)) as [->|Hne]; [|by rewrite (Hnopend ltac:(by rewrite P1) j h Hne Hj) in Hp].
        rewrite Hi in Hj. injection Hj as <-. by rewrite P1 in Hp.
      * by rewrite Hlen.
    + by rewrite (numbers_same gs i g g' Hi P1).
  - destruct S9 as [(P1 & P2 & P3 & P4)|(P1 & [(n & m & Q1 & Q2 & Q3)|(Q1 & Q2)])].
    + left. split; [exists i, g'; split; [by apply list_lookup_insert|done]|].
      assert (Hx : lenN (a_numbers (<[i := g']> gs)) = lenN (a_numbers gs) + 1).
      { pose proof (Permutation_length (numbers_insert gs i g g' Hi)) as Hp. rewrite P2, fmap_app, !app_length in Hp. cbn in Hp. unfold lenN. lia. }
      rewrite Hx, P4. destruct C9 as [[(j & h & Hj & Hp) _]|[_ ->]]; [|lia].
      destruct (decide (j = i)) as [->|Hne]; [|by rewrite (Hnopend ltac:(by rewrite P1) j h Hne Hj) in Hp].
      rewrite Hi in Hj. injection Hj as <-. by rewrite P1 in Hp.
    + right. rewrite (numbers_same gs i g g' Hi P1). split.
      * intros j h [[-> ->]|[Hne Hj]]%Hother; [done|]. apply (Hnopend ltac:(by rewrite Q1) j h Hne Hj).
      * specialize (C5 i g Hi). unfold a_local in C5. rewrite Q1 in C5. destruct C5 as (H1 & -> & _). rewrite Q2, H1.
        destruct C9 as [[_ <-]|[H _]]; [|specialize (H i g Hi); by rewrite Q1 in H].
        unfold wrap32. apply N.mod_small. apply Hnx. by rewrite Q1.
    + rewrite (numbers_same gs i g g' Hi P1), Q2. destruct C9 as [[(j & h & Hj & Hp) H]|[H1 H2]].
      * left. split; [|done]. destruct (decide (j = i)) as [->|Hne].
        -- rewrite Hi in Hj. injection Hj as <-. exists i, g'. split; [by apply list_lookup_insert|by rewrite Q1].
        -- exists j, h. by rewrite list_lookup_insert_ne.
      * right. split; [|done]. intros j h [[-> ->]|[Hne Hj]]%Hother; [|by eapply H1]. rewrite Q1. by eapply H1.
Qed.
Lemma a_conf_start rqs s : a_good s -> a_conf (m_next s) rqs (s, a_start rqs).
Proof.
  intros (G1 & G2 & G3 & G4).
  assert (Hs : forall i g, a_start rqs !! i = Some g -> exists rq, rqs !! i = Some rq /\ g = mkAlloc i ANext rq [] []).
  { intros i g. unfold a_start. rewrite list_lookup_imap. intros (rq & Hrq & ->)%fmap_Some. by eauto. }
  assert (Hn : a_numbers (a_start rqs) = []).
  { unfold a_numbers. assert (H : Forall (fun g => a_got g = []) (a_start rqs)).
    { apply Forall_lookup. intros i g Hg. destruct (Hs i g Hg) as (rq & _ & ->). done. }
    clear Hs. induction H as [|g gs Hg _ IH]; [done|]. cbn [flat_map]. by rewrite Hg, IH. }
  split; cbn [fst snd].
  - done.
  - intros i g Hg. destruct (Hs i g Hg) as (rq & _ & ->). done.
  - apply Forall2_same_length_lookup. split; [unfold a_start; apply imap_length|]. intros i g rq Hg Hrq.
    destruct (Hs i g Hg) as (rq' & Hrq' & ->). rewrite Hrq in Hrq'. by injection Hrq' as <-.
  - intros i g Hg. destruct (Hs i g Hg) as (rq & _ & ->). by left.
  - intros i g Hg. destruct (Hs i g Hg) as (rq & _ & ->). done.
  - intros i g Hg. destruct (Hs i g Hg) as (rq & _ & ->). cbn. by rewrite G4.
  - intros i. by rewrite G4.
  - by rewrite Hn.
  - right. rewrite Hn. cbn. split; [|unfold lenN; cbn; lia]. intros i g Hg. destruct (Hs i g Hg) as (rq & _ & ->). done.
Qed.
Lemma a_reach grow rqs s c : a_good s -> m_next s + N.of_nat (a_total rqs) < 2 ^ 32 ->
  rtc (cstep (a_step grow)) (s, a_start rqs) c -> a_conf (m_next s) rqs c.
Proof.
  intros Hg Hb Hr. eapply (rtc_inv (a_step grow) (a_conf (m_next s) rqs)); [|exact Hr|by apply a_conf_start].
  intros. by eapply a_conf_step.
Qed.
Lemma l_C33_unique_consecutive : forall grow rqs s s' gs, a_good s -> m_next s + N.of_nat (a_total rqs) < 2 ^ 32 ->
  rtc (cstep (a_step grow)) (s, a_start rqs) (s', gs) ->
  a_numbers gs ≡ₚ map (fun k => m_next s + N.of_nat k) (seq 0 (length (a_numbers gs))) /\ NoDup (a_numbers gs).
Proof.
  intros grow rqs s s' gs Hg Hb Hr. pose proof (ac_perm _ _ _ (a_reach grow rqs s _ Hg Hb Hr)) as Hp. cbn [snd] in Hp.
  split; [exact Hp|]. rewrite Hp. unfold from_n0. apply (NoDup_fmap_2_strong (fun i => m_next s + N.of_nat i)); [intros; lia|]. apply NoDup_ListNoDup, seq_NoDup.
Qed.
Lemma l_C33_each_request_one_number : forall grow rqs s s' gs i g rq, a_good s -> m_next s + N.of_nat (a_total rqs) < 2 ^ 32 ->
  rtc (cstep (a_step grow)) (s, a_start rqs) (s', gs) -> gs !! i = Some g -> rqs !! i = Some rq ->
  (a_got g).*2 `prefix_of` rq /\ (a_todo g = [] -> (a_got g).*2 = rq).
Proof.
  intros grow rqs s s' gs i g rq Hg Hb Hr Hi Hrq. destruct (a_reach grow rqs s _ Hg Hb Hr) as [_ _ C3 _ _ _ _ _ _]. cbn [snd] in *.
  pose proof (Forall2_lookup_lr _ _ _ _ _ _ C3 Hi Hrq) as E. cbn in E. split; [exists (a_rest g); by rewrite E|]. intros Ht. unfold a_rest in E. rewrite Ht in E.
  rewrite <- E. destruct (a_early _); by rewrite app_nil_r.
Qed.
Lemma l_C33_no_crash_no_deadlock : forall grow rqs s s' gs, a_good s -> m_next s + N.of_nat (a_total rqs) < 2 ^ 32 ->
  rtc (cstep (a_step grow)) (s, a_start rqs) (s', gs) ->
  (forall g, g ∈ gs -> a_pc g <> ACrash) /\
  ((forall g, g ∈ gs -> a_todo g = []) \/ exists c', cstep (a_step grow) (s', gs) c').
Proof.
  intros grow rqs s s' gs Hg Hb Hr. destruct (a_reach grow rqs s _ Hg Hb Hr) as [C1 C2 C3 C4 C5 C6 C7 C8 C9]. cbn [fst snd] in *.
  split.
  - intros g [i Hi]%elem_of_list_lookup Hx. specialize (C5 i g Hi). unfold a_local in C5. by rewrite Hx in C5.
  - destruct (m_lock s') as [i|] eqn:El.
    + right. destruct (lookup_lt_is_Some_2 gs i (C7 i eq_refl)) as [g Hi]. assert (Hc : a_cs (a_pc g) = true) by (by apply (C6 i g Hi)).
      destruct (C4 i g Hi) as [H|H]; [by rewrite H in Hc|]. destruct (a_todo g) as [|rq todo] eqn:Et; [done|].
      assert (Hs : is_Some (a_step grow s' g)).
      { unfold a_step. rewrite Et. destruct (a_pc g); try done; repeat case_match; done. }
      destruct Hs as [[s2 g2] Hs]. eexists. exists i. unfold sched_step. cbn [fst snd]. by rewrite Hi, Hs.
    + destruct (decide (Forall (fun g => a_todo g = []) gs)) as [Hf|Hf]; [left; by apply Forall_forall|]. right.
      apply not_Forall_Exists in Hf; [|apply _]. apply Exists_exists in Hf as (g & Hgi & Ht). apply elem_of_list_lookup in Hgi as [i Hi].
      destruct (a_todo g) as [|rq todo] eqn:Et; [done|].
      assert (Hs : is_Some (a_step grow s' g)).
      { specialize (C5 i g Hi). unfold a_local in C5. unfold a_step. rewrite Et. destruct (a_pc g); try done; rewrite ?El; repeat case_match; done. }
      destruct Hs as [[s2 g2] Hs]. eexists. exists i. unfold sched_step. cbn [fst snd]. by rewrite Hi, Hs.
Qed.
Lemma l_C33_mutual_exclusion : forall grow rqs s s' gs i j g h, a_good s -> m_next s + N.of_nat (a_total rqs) < 2 ^ 32 ->
  rtc (cstep (a_step grow)) (s, a_start rqs) (s', gs) -> gs !! i = Some g -> gs !! j = Some h ->
  a_cs (a_pc g) = true -> a_cs (a_pc h) = true -> i = j.
Proof.
  intros grow rqs s s' gs i j g h Hg Hb Hr Hi Hj H1 H2. destruct (a_reach grow rqs s _ Hg Hb Hr) as [_ _ _ _ _ C6 _ _ _]. cbn [fst snd] in *.
  apply (C6 i g Hi) in H1. apply (C6 j h Hj) in H2. congruence.
Qed.

(** ** C34 *)
Definition a_num (pc : apc) : N :=
  match pc with
  | ANext | ALock | ARead | ACrash => 0
  | AExtend n | ACopy n _ _ _ | AInc n | ASet n _ | AUnlock n | ASlice n _ | AStore n _ _ | ALast n | AResult n _ => n
  end.
Definition f_part (f : field) (n : N) (rq : N * Z) (it : item) : Prop :=
  match f with
  | FdId => True
  | FdParent => it_id it = n
  | FdLetter => it_id it = n /\ it_parent it = rq.1
  | FdVariants => it_id it = n /\ it_parent it = rq.1 /\ it_letter it = rq.2
  end.
Definition a_part (l : list item) (pc : apc) (rq : N * Z) : Prop :=
  match pc with
  | ASlice n f | AStore n f _ => exists it, l !! N.to_nat n = Some it /\ f_part f n rq it
  | ALast n | AResult n _ => l !! N.to_nat n = Some (a_item (n, rq))
  | _ => True
  end.
Definition a_where (a0 : nat) (pc : apc) : Prop :=
  match pc with ACopy _ _ _ _ => False | AStore _ _ a | AResult _ a => a = a0 | _ => True end.
Definition a_cur (g : alloc) : list (N * (N * Z)) :=
  if a_early (a_pc g) then [] else [(a_num (a_pc g), default (0, 0%Z) (head (a_todo g)))].
Record a_cont (l : list item) (len : nat) (g : alloc) (fin : list (N * (N * Z))) : Prop := mkACont {
  act_got : a_got g = fin ++ a_cur g;
  act_ret : a_ret g = map a_item fin;
  act_fin : forall e, e ∈ fin -> e.1 < N.of_nat len /\ l !! N.to_nat e.1 = Some (a_item e);
  act_part : a_part l (a_pc g) (default (0, 0%Z) (head (a_todo g))) }.
Lemma numbers_disjoint gs : NoDup (a_numbers gs) -> forall i j g h n, gs !! i = Some g -> gs !! j = Some h -> i <> j ->
  n ∈ (a_got g).*1 -> n ∈ (a_got h).*1 -> False.
Proof.
  unfold a_numbers. induction gs as [|x gs IH]; intros Hnd i j g h n Hi Hj Hne Hn Hn'; [done|]. cbn [flat_map] in Hnd.
  apply NoDup_app in Hnd as (N1 & N2 & N3).
  assert (Hin : forall k y m, gs !! k = Some y -> m ∈ (a_got y).*1 -> m ∈ flat_map (fun g => (a_got g).*1) gs).
  { intros k y m Hk Hm. apply elem_of_list_In, in_flat_map. exists y. split; [by eapply elem_of_list_In, elem_of_list_lookup_2|by apply elem_of_list_In]. }
  destruct i as [|i], j as [|j]; cbn in Hi, Hj.
  - done.
  - injection Hi as ->. eapply N2; [exact Hn|]. by eapply Hin.
  - injection Hj as ->. eapply N2; [exact Hn'|]. by eapply Hin.
  - eapply (IH N3 i j g h n); try done. congruence.
Qed.
Record a_room (n0 : N) (rqs : list (list (N * Z))) (a0 : nat) (c : amem * list alloc) : Prop := mkAR {
  ar_conf : a_conf n0 rqs c;
  ar_arr : m_arr c.1 = a0;
  ar_cap : (N.to_nat n0 + a_total rqs + 15 <= length (arr c.1 a0))%nat;
  ar_where : forall i g, c.2 !! i = Some g -> a_where a0 (a_pc g);
  ar_cont : forall i g, c.2 !! i = Some g -> exists fin, a_cont (arr c.1 a0) (m_len c.1) g fin }.
Lemma a_room_step grow n0 rqs a0 i s gs g s' g' : n0 + N.of_nat (a_total rqs) < 2 ^ 32 ->
  a_room n0 rqs a0 (s, gs) -> gs !! i = Some g -> a_step grow s g = Some (s', g') -> a_room n0 rqs a0 (s', <[i := g']> gs).
Proof.
  intros Hb [R1 R2 R3 R4 R5] Hi E. cbn [fst snd] in *.
  pose proof (a_conf_step grow n0 rqs i s gs g s' g' Hb R1 Hi E) as R1'.
  assert (Hnd : NoDup (a_numbers gs)).
  { pose proof (ac_perm _ _ _ R1) as Hp. cbn [snd] in Hp. rewrite Hp. unfold from_n0. apply (NoDup_fmap_2_strong (fun i => n0 + N.of_nat i)); [intros; lia|]. apply NoDup_ListNoDup, seq_NoDup. }
  assert (Hk : (length (a_numbers gs) <= a_total rqs)%nat) by (apply numbers_bound, (ac_got _ _ _ R1)).
  pose proof (ac_count _ _ _ R1) as Hcount. cbn [fst snd] in Hcount.
  pose proof (ac_local _ _ _ R1 i g Hi) as L. cbn [fst] in L. destruct (ac_global _ _ _ R1) as [G1 G2 G3]. cbn [fst] in *.
  pose proof (R4 i g Hi) as W. destruct (R5 i g Hi) as (fin & [K1 K2 K3 K4]).
  assert (Hother : forall j h, <[i := g']> gs !! j = Some h -> (j = i /\ h = g') \/ (j <> i /\ gs !! j = Some h)).
  { pose proof (lookup_lt_Some _ _ _ Hi). intros j h. destruct (decide (j = i)) as [->|Hne].
    - rewrite list_lookup_insert by done. intros [= ->]. by left.
    - rewrite list_lookup_insert_ne by done. by right. }
  (* what has to be shown of the step *)
  assert (Hgoal : m_arr s' = a0 /\ length (arr s' a0) = length (arr s a0) /\ a_where a0 (a_pc g') /\
    (exists fin', a_cont (arr s' a0) (m_len s') g' fin') /\ (m_len s <= m_len s')%nat /\
    forall n, n < N.of_nat (m_len s) -> ~ (n ∈ (a_got g).*1) -> arr s' a0 !! N.to_nat n = arr s a0 !! N.to_nat n).
  { assert (Hown : forall e, e ∈ fin -> a_early (a_pc g) = false -> e.1 <> a_num (a_pc g)).
    { intros e He Hea Hx. assert (Hnd2 : NoDup (a_got g).*1).
      { clear -Hnd Hi. revert i Hi. unfold a_numbers in Hnd. induction gs as [|y gs IH]; intros i Hi; [done|]. cbn [flat_map] in Hnd.
        apply NoDup_app in Hnd as (N1 & _ & N3). destruct i as [|i]; cbn in Hi; [by injection Hi as <-|by eapply IH]. }
      rewrite K1 in Hnd2. unfold a_cur in Hnd2. rewrite Hea, fmap_app in Hnd2. apply NoDup_app in Hnd2 as (_ & N2 & _).
      eapply (N2 e.1); [by apply (elem_of_list_fmap_1 fst)|]. cbn. rewrite Hx. by apply elem_of_list_singleton. }
    destruct g as [id pc todo got ret]. unfold a_step in E. cbn [a_todo a_pc a_got a_ret a_id] in *.
    destruct todo as [|rq todo]; [done|]. unfold a_local in L. unfold a_cur in K1. cbn [a_pc a_todo head default] in *.
    destruct pc as [| | |n|n a k len|n|n m|n|n f|n f a|n|n a|]; try done; cbn [a_early a_where a_part a_num] in *.
    - injection E as <- <-. split; [done|]. split; [done|]. split; [done|]. split; [exists fin; by split|]. split; [lia|done].
    - destruct (m_lock s); [done|]. injection E as <- <-. split; [done|]. split; [done|]. split; [done|]. split; [exists fin; by split|]. split; [cbn; lia|done].
    - injection E as <- <-. split; [done|]. split; [done|]. split; [by destruct (_ <=? _)|]. split; [|split; [lia|done]].
      exists fin. rewrite app_nil_r in K1. subst got. split; cbn; [by destruct (_ <=? _)|done|done|by destruct (_ <=? _)].
    - destruct L as [-> L]. pose proof (extend_count_range (N.of_nat (m_len s))) as Hx. set (x := extend_count _) in *. clearbody x.
      assert (Hn1 : m_next s <= n0 + N.of_nat (a_total rqs)) by (unfold lenN in Hcount; lia). rewrite R2 in *.
      destruct (Nat.leb_spec (m_len s + N.to_nat x) (length (arr s a0))) as [Hc|Hc]; [|lia]. injection E as <- <-. cbn [m_arr m_arrays m_len].
      rewrite arr_insert, decide_True by done. set (l' := take _ _ ++ _).
      assert (Hl : length l' = length (arr s a0)).
      { unfold l'. rewrite !app_length, take_length, replicate_length, drop_length. lia. }
      assert (Hs : forall n, n < N.of_nat (m_len s) -> l' !! N.to_nat n = arr s a0 !! N.to_nat n).
      { intros n Hn. unfold l'. rewrite lookup_app_l by (rewrite take_length; lia). apply lookup_take. lia. }
      split; [done|]. split; [done|]. split; [done|]. split; [|split; [lia|intros; by apply Hs]].
      exists fin. split; cbn; [done|done| |done]. intros e He. destruct (K3 e He) as [Ha Hb']. split; [lia|]. by rewrite Hs.
    - injection E as <- <-. split; [done|]. split; [done|]. split; [done|]. split; [exists fin; by split|]. split; [lia|done].
    - injection E as <- <-. split; [done|]. split; [done|]. split; [done|]. split; [exists fin; by split|]. split; [cbn; lia|done].
    - injection E as <- <-. split; [done|]. split; [done|]. split; [done|]. split; [|split; [cbn; lia|done]].
      exists fin. split; [done|done|done|]. cbn. rewrite R2 in G2. destruct (lookup_lt_is_Some_2 (arr s a0) (N.to_nat n)) as [it Hit]; [lia|by exists it].
    - injection E as <- <-. destruct (N.ltb_spec n (N.of_nat (m_len s))) as [Hn|Hn]; [|lia].
      split; [done|]. split; [done|]. split; [done|]. split; [exists fin; by split|]. split; [lia|done].
    - destruct L as (L1 & L2 & L3). subst a. destruct K4 as (it & Hit & Hpart). rewrite Hit in E. injection E as <- <-.
      unfold upd_array. cbn [m_arr m_arrays m_len]. rewrite arr_insert, decide_True by done. rewrite insert_length.
      assert (Hs : forall m, m <> n -> <[N.to_nat n := set_field f n rq it]> (arr s a0) !! N.to_nat m = arr s a0 !! N.to_nat m).
      { intros m Hm. apply list_lookup_insert_ne. lia. }
      split; [done|]. split; [done|]. split; [by destruct f|]. split; [|split; [lia|]].
      + exists fin. split; cbn [a_got a_ret a_pc a_todo head].
        * unfold a_cur. cbn [a_pc a_todo head]. by destruct f.
        * done.
        * intros e He. destruct (K3 e He) as [Ha Hb']. split; [done|]. rewrite Hs; [done|]. by apply Hown.
        * clear -Hpart L3. destruct it as [ip ii il iv], rq as [rp rl]. destruct f; cbn [next_field a_part set_field].
          -- eexists. rewrite list_lookup_insert by done. split; [done|]. done.
          -- eexists. rewrite list_lookup_insert by done. split; [done|]. cbn in *. done.
          -- eexists. rewrite list_lookup_insert by done. split; [done|]. cbn in *. by destruct Hpart.
          -- rewrite list_lookup_insert by done. cbn in *. by destruct Hpart as (-> & -> & ->).
      + intros m _ Hm. apply Hs. intros ->. apply Hm. rewrite K1, fmap_app. cbn. set_solver.
    - injection E as <- <-. destruct (N.ltb_spec n (N.of_nat (m_len s))) as [Hn|Hn]; [|lia].
      split; [done|]. split; [done|]. split; [done|]. split; [exists fin; by split|]. split; [lia|done].
    - destruct L as (L1 & L2 & L3). subst a. rewrite K4 in E. injection E as <- <-.
      split; [done|]. split; [done|]. split; [done|]. split; [|split; [lia|done]].
      exists got. split; cbn; [by rewrite app_nil_r|by rewrite K1, K2, map_app| |done].
      intros e He. rewrite K1 in He. apply elem_of_app in He as [He|He]; [by apply K3|]. apply elem_of_list_singleton in He as ->. done. }
  destruct Hgoal as (H1 & H2 & H3 & H4 & H5 & H6). split; cbn [fst snd]; [done|done|lia| |].
  - intros j h [[-> ->]|[Hne Hj]]%Hother; [done|by eapply R4].
  - intros j h [[-> ->]|[Hne Hj]]%Hother; [done|]. destruct (R5 j h Hj) as (fin' & [K1' K2' K3' K4']). exists fin'.
    pose proof (ac_local _ _ _ R1 j h Hj) as Lh. cbn [fst] in Lh. unfold a_local in Lh.
    assert (Hout : forall n, n ∈ (a_got h).*1 -> ~ (n ∈ (a_got g).*1)).
    { intros n Hn Hn'. eapply (numbers_disjoint gs Hnd i j g h n); done. }
    assert (Hcur : forall n, a_cur h = [(n, default (0, 0%Z) (head (a_todo h)))] -> n < N.of_nat (m_len s) -> arr s' a0 !! N.to_nat n = arr s a0 !! N.to_nat n).
    { intros n Hc Hn. apply H6; [done|]. apply Hout. rewrite K1', Hc, fmap_app. cbn. set_solver. }
    split; [done|done| |].
    + intros e He. destruct (K3' e He) as [Ha Hb']. split; [lia|]. rewrite H6; [done|done|]. apply Hout. rewrite K1', fmap_app.
      apply elem_of_app. left. by apply (elem_of_list_fmap_1 fst).
    + unfold a_part, a_cur in *. destruct (a_pc h); try done; cbn in Hcur; rewrite Hcur; try done; lia.
Qed.
Lemma a_room_reach grow rqs s c : a_good s -> m_next s + N.of_nat (a_total rqs) < 2 ^ 32 ->
  (N.to_nat (m_next s) + a_total rqs + 15 <= length (arr s (m_arr s)))%nat ->
  rtc (cstep (a_step grow)) (s, a_start rqs) c -> a_room (m_next s) rqs (m_arr s) c.
Proof.
  intros Hg Hb Hc Hr. eapply (rtc_inv (a_step grow) (a_room (m_next s) rqs (m_arr s))); [|exact Hr|].
  - intros. by eapply a_room_step.
  - split; cbn [fst snd]; [by apply a_conf_start|done|done| |].
    + intros i g. unfold a_start. rewrite list_lookup_imap. intros (rq & Hrq & ->)%fmap_Some. done.
    + intros i g. unfold a_start. rewrite list_lookup_imap. intros (rq & Hrq & ->)%fmap_Some. exists []. split; [done|done| |done].
      intros e He. by apply elem_of_nil in He.
Qed.
Lemma l_C34_enough_room_none_lost : forall grow rqs s s' gs i g, a_good s -> m_next s + N.of_nat (a_total rqs) < 2 ^ 32 ->
  (N.to_nat (m_next s) + a_total rqs + 15 <= length (default [] (m_arrays s !! m_arr s)))%nat ->
  rtc (cstep (a_step grow)) (s, a_start rqs) (s', gs) -> gs !! i = Some g ->
  a_ret g = map a_item (take (length (a_ret g)) (a_got g)) /\
  forall e, a_finished g e -> m_at s' e.1 = Some (a_item e).
Proof.
  intros grow rqs s s' gs i g Hg Hb Hc Hr Hi. destruct (a_room_reach grow rqs s _ Hg Hb Hc Hr) as [_ R2 _ _ R5]. cbn [fst snd] in *.
  destruct (R5 i g Hi) as (fin & [K1 K2 K3 K4]). rewrite K2, map_length, K1. unfold a_finished. rewrite K1, K2, map_length, take_app. split; [done|].
  intros e He. destruct (K3 e He) as [Ha Hb']. unfold m_at. rewrite R2. destruct (N.ltb_spec e.1 (N.of_nat (m_len s'))); [done|lia].
Qed.
Lemma alone_step {S G} (step : S -> G -> option (S * G)) s g s' g' c :
  step s g = Some (s', g') -> rtc (cstep step) (s', [g']) c -> rtc (cstep step) (s, [g]) c.
Proof. intros E. apply rtc_l. exists 0%nat. unfold sched_step. cbn. by rewrite E. Qed.
Lemma insert_zero_len (l : list item) (j : nat) x : length (<[j := x]> l) = length l.
Proof. apply insert_length. Qed.
Lemma copy_alone grow (rq : N * Z) : forall d k l new s n len id, (m_len s = k + d)%nat ->
  m_arrays s = [l; new] -> m_arr s = 0%nat -> (m_len s <= length l)%nat -> (m_len s <= length new)%nat -> take k new = take k l ->
  rtc (cstep (a_step grow)) (s, [mkAlloc id (ACopy n 1 k len) [rq] [(n, rq)] []])
    (mkMem [l; take (m_len s) l ++ drop (m_len s) new] 1 len (m_next s) (m_lock s), [mkAlloc id (AInc n) [rq] [(n, rq)] []]).
Proof.
  induction d as [|d IH]; intros k l new s n len id Hd Ha Hr Hl Hn Ht.
  - eapply alone_step.
    + unfold a_step. cbn [a_todo a_pc]. replace (k <? m_len s)%nat with false by (symmetry; apply Nat.ltb_ge; lia). reflexivity.
    + rewrite Ha. replace (m_len s) with k by lia. rewrite <- Ht, take_drop. constructor.
  - destruct (lookup_lt_is_Some_2 l k) as [it Hit]; [lia|]. eapply alone_step.
    + unfold a_step. cbn [a_todo a_pc]. replace (k <? m_len s)%nat with true by (symmetry; apply Nat.ltb_lt; lia).
      rewrite Ha, Hr. cbn [lookup list_lookup default]. unfold default. cbn. rewrite Hit. reflexivity.
    + cbn [a_id a_todo a_got a_ret]. etransitivity.
      * apply (IH (S k) l (<[k := it]> new)); cbn [upd_array m_len m_arrays m_arr]; [lia|by rewrite Ha|done|done|by rewrite insert_length|].
        rewrite (take_S_r l k it Hit). rewrite (take_S_r _ k it) by (apply list_lookup_insert; lia). rewrite take_insert by lia. by rewrite Ht.
      * cbn [upd_array m_len m_next m_lock]. rewrite drop_insert_gt by lia. constructor.
Qed.
Lemma store_alone grow (rq : N * Z) n l0 l a s id it : m_arrays s = l0 ++ [l] -> m_arr s = a -> length l0 = a ->
  n < N.of_nat (m_len s) -> l !! N.to_nat n = Some it ->
  rtc (cstep (a_step grow)) (s, [mkAlloc id (ASlice n FdId) [rq] [(n, rq)] []])
    (mkMem (l0 ++ [<[N.to_nat n := a_item (n, rq)]> l]) a (m_len s) (m_next s) (m_lock s), [mkAlloc id ANext [] [(n, rq)] [a_item (n, rq)]]).
Proof.
  intros Ha Hr Hl Hn Hit. destruct s as [arrays ar len nx lk]. cbn [m_arrays m_arr m_len m_next m_lock] in *. subst arrays ar.
  pose proof (lookup_lt_Some _ _ _ Hit) as Hlt.
  assert (Hone : forall f it l, l !! N.to_nat n = Some it -> (N.to_nat n < length l)%nat ->
    rtc (cstep (a_step grow)) (mkMem (l0 ++ [l]) a len nx lk, [mkAlloc id (ASlice n f) [rq] [(n, rq)] []])
      (mkMem (l0 ++ [<[N.to_nat n := set_field f n rq it]> l]) a len nx lk, [mkAlloc id (next_field f n) [rq] [(n, rq)] []])).
  { clear -Hl Hn. intros f it l Hit Hlt. eapply alone_step.
    { unfold a_step. cbn [a_todo a_pc m_len m_arr]. replace (n <? N.of_nat len) with true by (symmetry; by apply N.ltb_lt). reflexivity. }
    eapply alone_step.
    { unfold a_step. cbn [a_todo a_pc m_arrays a_id a_got a_ret]. rewrite lookup_app_r, Hl, Nat.sub_diag by lia. cbn [lookup list_lookup default]. unfold default; cbn. rewrite Hit. reflexivity. }
    cbn [upd_array m_arrays m_arr m_len m_next m_lock a_id a_todo a_got a_ret]. unfold upd_array. cbn [m_arrays m_arr m_len m_next m_lock].
    rewrite insert_app_r_alt, Hl, Nat.sub_diag by lia. constructor. }
  etransitivity; [apply (Hone FdId it l Hit Hlt)|]. cbn [next_field].
  etransitivity; [apply (Hone FdParent); [by apply list_lookup_insert|by rewrite insert_length]|]. cbn [next_field]. rewrite list_insert_insert.
  etransitivity; [apply (Hone FdLetter); [by apply list_lookup_insert|by rewrite insert_length]|]. cbn [next_field]. rewrite list_insert_insert.
  etransitivity; [apply (Hone FdVariants); [by apply list_lookup_insert|by rewrite insert_length]|]. cbn [next_field]. rewrite list_insert_insert.
  set (l' := <[_ := _]> l). assert (Hl' : l' = <[N.to_nat n := a_item (n, rq)]> l) by (unfold l'; by destruct it, rq). rewrite Hl'.
  eapply alone_step.
  { unfold a_step. cbn [a_todo a_pc m_len m_arr]. replace (n <? N.of_nat len) with true by (symmetry; apply N.ltb_lt; lia). reflexivity. }
  eapply alone_step.
  { unfold a_step. cbn [a_todo a_pc m_arrays a_id a_got a_ret]. rewrite lookup_app_r, Hl, Nat.sub_diag by lia. cbn [lookup list_lookup default]. unfold default; cbn.
    rewrite list_lookup_insert by done. reflexivity. }
  constructor.
Qed.
Lemma step_extend_in grow s id n rq todo got ret l len : m_arrays s !! m_arr s = Some l ->
  len = (m_len s + N.to_nat (extend_count (N.of_nat (m_len s))))%nat -> (len <= length l)%nat ->
  a_step grow s (mkAlloc id (AExtend n) (rq :: todo) got ret) =
  Some (mkMem (<[m_arr s := take (m_len s) l ++ replicate (len - m_len s) zero_item ++ drop len l]> (m_arrays s)) (m_arr s) len (m_next s) (m_lock s),
        mkAlloc id (AInc n) (rq :: todo) got ret).
Proof.
  intros Hl -> Hc. unfold a_step. cbn [a_todo a_pc a_id a_got a_ret]. rewrite Hl. unfold default, from_option, Datatypes.id. apply Nat.leb_le in Hc. by rewrite Hc.
Qed.
Lemma step_extend_out grow s id n rq todo got ret l len : m_arrays s !! m_arr s = Some l ->
  len = (m_len s + N.to_nat (extend_count (N.of_nat (m_len s))))%nat -> (length l < len)%nat ->
  a_step grow s (mkAlloc id (AExtend n) (rq :: todo) got ret) =
  Some (mkMem (m_arrays s ++ [replicate (Nat.max len (grow (length l) len)) zero_item]) (m_arr s) (m_len s) (m_next s) (m_lock s),
        mkAlloc id (ACopy n (length (m_arrays s)) 0 len) (rq :: todo) got ret).
Proof.
  intros Hl -> Hc. unfold a_step. cbn [a_todo a_pc a_id a_got a_ret]. rewrite Hl. unfold default, from_option, Datatypes.id. apply Nat.leb_gt in Hc. by rewrite Hc.
Qed.
Lemma l_C34_alone : forall grow its spare p r its' it, items_new_child its p r = Ok (its', it) -> its_next its <= lenN (its_list its) ->
  exists s g, rtc (cstep (a_step grow)) (mem_of its spare, a_start [[(p, r)]]) (s, [g]) /\
    a_todo g = [] /\ a_ret g = [it] /\ mem_items s = its' /\ m_lock s = None.
Proof.
  intros grow its spare p r its' it E Hle. destruct its as [l nx]. unfold items_new_child in E. cbn [its_list its_next] in *.
  unfold mem_of, a_start. cbn [its_list its_next imap].
  set (s0 := mkMem _ _ _ _ _). set (rq := (p, r)).
  assert (Hend : forall l1 lar l0 s, m_arrays s = l0 ++ [lar] -> m_arr s = length l0 -> take (m_len s) lar = l1 -> (m_len s <= length lar)%nat ->
     m_next s = nx -> nx < lenN l1 -> its' = mkItems (<[N.to_nat nx := mkItem p nx r 0]> l1) (wrap32 (nx + 1)) -> it = mkItem p nx r 0 ->
     exists s' g, rtc (cstep (a_step grow)) (s, [mkAlloc 0 (AInc nx) [rq] [(nx, rq)] []]) (s', [g]) /\
       a_todo g = [] /\ a_ret g = [it] /\ mem_items s' = its' /\ m_lock s' = None).
  { intros l1 lar l0 s Ha Hr Ht Hc Hn Hlt -> ->. assert (Hlen : lenN l1 = N.of_nat (m_len s)) by (rewrite <- Ht; unfold lenN; rewrite take_length; lia).
    destruct (lookup_lt_is_Some_2 lar (N.to_nat nx)) as [it0 Hit]; [lia|].
    eexists _, _. split.
    { eapply alone_step; [reflexivity|]. eapply alone_step; [reflexivity|]. eapply alone_step; [reflexivity|].
      eapply (store_alone grow rq nx l0 lar); [exact Ha|exact Hr|done|cbn; lia|exact Hit]. }
    cbn. repeat split. unfold mem_items. cbn. rewrite lookup_app_r, Nat.sub_diag by lia. cbn. rewrite Hn. f_equal.
    rewrite take_insert_lt by lia. by rewrite Ht. }
  assert (Hstart : rtc (cstep (a_step grow)) (s0, [mkAlloc 0 ANext [rq] [] []])
     (mkMem (m_arrays s0) 0 (length l) nx (Some 0%nat), [mkAlloc 0 (if (lenN l <=? nx) then AExtend nx else AInc nx) [rq] [(nx, rq)] []])).
  { eapply alone_step; [reflexivity|]. eapply alone_step; [reflexivity|]. eapply alone_step; [reflexivity|]. constructor. }
  destruct (N.leb_spec (lenN l) nx) as [Hx|Hx].
  - set (x := extend_count (lenN l)) in *. unfold items_extend in E. set (l1 := l ++ replicate (N.to_nat x) zero_item) in *.
    destruct (N.ltb_spec nx (lenN l1)) as [Hy|Hy]; [|done]. injection E as <- <-.
    set (s1 := mkMem (m_arrays s0) 0 (length l) nx (Some 0%nat)) in *.
    destruct (Nat.leb_spec (length l + N.to_nat x) (length (l ++ replicate spare zero_item))) as [Hc|Hc].
    + destruct (Hend l1 (l1 ++ drop (length l + N.to_nat x) (l ++ replicate spare zero_item)) []
        (mkMem [l1 ++ drop (length l + N.to_nat x) (l ++ replicate spare zero_item)] 0 (length l + N.to_nat x) nx (Some 0%nat))) as (s' & g & Hrun & Hrest).
      * done. * done.
      * cbn [m_len]. unfold l1. rewrite take_app_le by (rewrite app_length, replicate_length; lia). apply take_ge. rewrite app_length, replicate_length. lia.
      * cbn [m_len]. unfold l1. rewrite !app_length, replicate_length. lia.
      * done. * done. * done. * done.
      * exists s', g. split; [|done]. etransitivity; [exact Hstart|]. eapply alone_step; [|exact Hrun].
        rewrite (step_extend_in grow s1 _ _ _ _ _ _ (l ++ replicate spare zero_item) (length l + N.to_nat x)) by done.
        assert (HL : take (length l) (l ++ replicate spare zero_item) ++ replicate (length l + N.to_nat x - length l) zero_item ++
                  drop (length l + N.to_nat x) (l ++ replicate spare zero_item) = l1 ++ drop (length l + N.to_nat x) (l ++ replicate spare zero_item)).
        { rewrite take_app. unfold l1. rewrite <- app_assoc. replace (length l + N.to_nat x - length l)%nat with (N.to_nat x) by lia. done. }
        unfold s1, s0. cbn [m_len m_arr m_arrays m_next m_lock]. rewrite HL. reflexivity.
    + set (new := replicate (Nat.max (length l + N.to_nat x)%nat (grow (length (l ++ replicate spare zero_item)) (length l + N.to_nat x)%nat)) zero_item).
      assert (Hnew : (length l + N.to_nat x <= length new)%nat) by (unfold new; rewrite replicate_length; lia).
      destruct (Hend l1 (take (length l) (l ++ replicate spare zero_item) ++ drop (length l) new) [l ++ replicate spare zero_item]
        (mkMem [l ++ replicate spare zero_item; take (length l) (l ++ replicate spare zero_item) ++ drop (length l) new] 1 (length l + N.to_nat x) nx (Some 0%nat))) as (s' & g & Hrun & Hrest).
      * done. * done.
      * cbn [m_len]. rewrite take_app. unfold l1, new. rewrite firstn_app, take_ge by lia. f_equal. rewrite drop_replicate, take_replicate. f_equal. lia.
      * cbn [m_len]. rewrite app_length, take_length, app_length, drop_length. lia.
      * done. * done. * done. * done.
      * exists s', g. split; [|done]. etransitivity; [exact Hstart|]. eapply alone_step.
        { rewrite (step_extend_out grow s1 _ _ _ _ _ _ (l ++ replicate spare zero_item) (length l + N.to_nat x)) by done. reflexivity. }
        etransitivity; [|exact Hrun].
        apply (copy_alone grow rq (length l) 0 (l ++ replicate spare zero_item) new
                 (mkMem [l ++ replicate spare zero_item; new] 0 (length l) nx (Some 0%nat)) nx (length l + N.to_nat x) 0); try done;
          cbn [m_len]; [rewrite app_length; lia|lia].
  - destruct (N.ltb_spec nx (lenN l)) as [Hy|Hy]; [|lia]. injection E as <- <-.
    destruct (Hend l (l ++ replicate spare zero_item) [] (mkMem (m_arrays s0) 0 (length l) nx (Some 0%nat))) as (s' & g & Hrun & Hrest); try done.
    + cbn. by rewrite take_app. + cbn. rewrite app_length. lia.
    + exists s', g. split; [|done]. etransitivity; [exact Hstart|exact Hrun].
Qed.

(** ** C35, C58 *)
Lemma add_alone : forall rs s p res, rs <> [] ->
  rtc (cstep w_step) (s, [mkAdder (WParent p rs) [] res])
    ((add_loop s p rs).1, [mkAdder WNext [] (res ++ [(add_loop s p rs).2])]).
Proof.
  induction rs as [|r rest IH]; intros s p res Hne; [done|]. cbn [add_loop].
  destruct (if (p =? 0) then Ok true else _) as [[|]|e|] eqn:Ep.
  - assert (H1 : rtc (cstep w_step) (s, [mkAdder (WParent p (r :: rest)) [] res])
                   (ensure_children s p, [mkAdder (WLetter p (r :: rest)) [] res])).
    { eapply alone_step.
      { unfold w_step. cbn [w_pc w_todo w_res]. replace (if p =? 0 then _ else _) with (mkAdder (WMap p (r :: rest)) [] res); [reflexivity|].
        destruct (p =? 0); [done|]. unfold mbind, res_bind in Ep. destruct (items_get _ p) as [[|]|?|]; done. }
      eapply alone_step; [reflexivity|]. unfold ensure_children, ensure_map. destruct (ix_children s !! p) as [m|] eqn:E.
      - destruct s; cbn in *. constructor.
      - eapply alone_step; [reflexivity|]. constructor. }
    etransitivity; [exact H1|]. set (s1 := ensure_children s p). clearbody s1. clear H1. destruct (child (ix_children s1) p r) as [n|] eqn:E.
    + destruct rest as [|r2 rest].
      * eapply alone_step; [|constructor]. unfold w_step. cbn [w_pc w_todo w_res]. by rewrite E.
      * eapply alone_step; [|apply (IH s1 n res); done]. unfold w_step. cbn [w_pc w_todo w_res]. by rewrite E.
    + eapply alone_step.
      { unfold w_step. cbn [w_pc w_todo w_res]. by rewrite E. }
      destruct (items_new_child (ix_items s1) p r) as [[its it]|e|] eqn:En.
      * eapply alone_step. { unfold w_step. cbn [w_pc w_todo w_res]. by rewrite En. }
        destruct rest as [|r2 rest].
        -- eapply alone_step; [reflexivity|]. constructor.
        -- eapply alone_step; [reflexivity|]. apply IH. done.
      * eapply alone_step; [|constructor]. unfold w_step. cbn [w_pc w_todo w_res]. by rewrite En.
      * eapply alone_step; [|constructor]. unfold w_step. cbn [w_pc w_todo w_res]. by rewrite En.
  - eapply alone_step; [|constructor]. unfold w_step. cbn [w_pc w_todo w_res].
    destruct (p =? 0); [done|]. unfold mbind, res_bind in Ep. destruct (items_get _ p) as [[|]|?|]; done.
  - eapply alone_step; [|constructor]. unfold w_step. cbn [w_pc w_todo w_res].
    destruct (p =? 0); [done|]. unfold mbind, res_bind in Ep. destruct (items_get _ p) as [[|]|?|]; naive_solver.
  - eapply alone_step; [|constructor]. unfold w_step. cbn [w_pc w_todo w_res].
    destruct (p =? 0); [done|]. unfold mbind, res_bind in Ep. destruct (items_get _ p) as [[|]|?|]; done.
Qed.
Lemma l_C35_alone : forall ix w, rtc (cstep w_step) (ix, [w_start [w]])
  ((add_runes ix w).1, [mkAdder WNext [] [(add_runes ix w).2]]).
Proof.
  intros ix w. eapply alone_step; [reflexivity|]. unfold add_runes, add_to_node. destruct w as [|r w]; [constructor|].
  apply (add_alone (r :: w) ix 0 []). done.
Qed.
(** What was there stays. *)
Record w_keep (ix0 ix : Index.index) : Prop := mkWK {
  wk_map : forall p, is_Some (ix_children ix0 !! p) -> is_Some (ix_children ix !! p);
  wk_child : forall p r n, child (ix_children ix0) p r = Some n -> child (ix_children ix) p r = Some n;
  wk_next : its_next (ix_items ix0) <= its_next (ix_items ix) }.
Definition w_safe (ix0 : Index.index) (pc : wpc) : Prop :=
  match pc with
  | WMake p _ => ix_children ix0 !! p = None
  | WNew p (r :: _) | WEnter p (r :: _) _ => child (ix_children ix0) p r = None
  | _ => True
  end.
Lemma new_child_next its p r its' it : items_new_child its p r = Ok (its', it) ->
  its_next its' = wrap32 (its_next its + 1).
Proof. unfold items_new_child. destruct (_ <? _); [|done]. by intros [= <- _]. Qed.
Definition w_budget (g : adder) : nat :=
  (match w_pc g with
   | WNext => 0
   | WParent _ rs | WMap _ rs | WMake _ rs | WLetter _ rs | WNew _ rs => length rs
   | WEnter _ rs _ => pred (length rs)
   end + sum_list (map length (w_todo g)))%nat.
Lemma w_step_keep ix0 s g s' g' : w_keep ix0 s -> w_safe ix0 (w_pc g) ->
  its_next (ix_items s) + N.of_nat (w_budget g) < 2 ^ 32 -> w_step s g = Some (s', g') ->
  w_keep ix0 s' /\ w_safe ix0 (w_pc g') /\
  its_next (ix_items s') + N.of_nat (w_budget g') <= its_next (ix_items s) + N.of_nat (w_budget g).
Proof.
  intros [W1 W2 W3] Hs Hb E. destruct g as [pc todo rs]. unfold w_step, w_budget in *. cbn [w_pc w_todo w_res] in *.
  destruct pc as [|p w|p w|p w|p w|p w|p w n].
  - destruct todo as [|w todo]; [done|]. injection E as <- <-. split; [done|].
    destruct w; cbn [w_pc w_todo length map sum_list_with]; (split; [done|]); unfold id; lia.
  - injection E as <- <-. split; [done|]. destruct (p =? 0); [cbn; split; [done|lia]|].
    destruct (items_get _ p) as [[|]|?|]; cbn; (split; [done|lia]).
  - injection E as <- <-. split; [done|]. destruct (ix_children s !! p) eqn:Em; cbn; (split; [|lia]); [done|].
    destruct (ix_children ix0 !! p) eqn:E0; [|done]. destruct (W1 p) as [m Hm]; [by rewrite E0|]. congruence.
  - injection E as <- <-. cbn in *. split; [|split; [done|lia]]. split; cbn; [| |done].
    + intros q Hq. destruct (decide (p = q)) as [->|Hne]; [by rewrite lookup_insert|]. rewrite lookup_insert_ne by done. by apply W1.
    + intros q r c Hq. unfold child. destruct (decide (p = q)) as [->|Hne].
      * unfold child in Hq. by rewrite Hs in Hq.
      * rewrite lookup_insert_ne by done. by apply W2.
  - destruct w as [|r w]; injection E as <- <-; [cbn; split; [done|split; [done|lia]]|]. split; [done|].
    destruct (child _ p r) as [n|] eqn:Ec.
    + destruct w; cbn; (split; [done|lia]).
    + cbn [w_pc w_todo w_safe]. split; [|lia]. destruct (child (ix_children ix0) p r) as [n|] eqn:E0; [|done]. apply W2 in E0. congruence.
  - destruct w as [|r w]; [injection E as <- <-; cbn; split; [done|split; [done|lia]]|].
    destruct (items_new_child (ix_items s) p r) as [[its it]|e|] eqn:En; injection E as <- <-; cbn [w_pc w_todo w_safe length pred] in *.
    + apply new_child_next in En. rewrite (N.mod_small (its_next (ix_items s) + 1)) in En || unfold wrap32 in En.
      rewrite N.mod_small in En by lia. split; [|split; [done|cbn; lia]]. split; cbn; [done|done|lia].
    + split; [done|split; [done|lia]].
    + split; [done|split; [done|lia]].
  - destruct w as [|r w]; injection E as <- <-; [cbn; split; [done|split; [done|lia]]|].
    cbn [w_safe] in Hs. split; [|destruct w; cbn; (split; [done|lia])]. split; cbn; [| |done].
    + intros q Hq. by apply set_child_some, W1.
    + intros q r' c Hq. unfold child, set_child. destruct (decide (p = q)) as [->|Hne].
      * rewrite lookup_insert. destruct (decide (r = r')) as [->|Hne']; [congruence|]. rewrite lookup_insert_ne by done.
        apply W2 in Hq. unfold child in Hq. by destruct (ix_children s !! q).
      * rewrite lookup_insert_ne by done. by apply W2.
Qed.
Lemma w_reach ix wss c : its_next (ix_items ix) + N.of_nat (w_total wss) < 2 ^ 32 ->
  rtc (cstep w_step) (ix, map w_start wss) c -> w_keep ix c.1.
Proof.
  intros Hb Hr.
  pose (P := fun c : Index.index * list adder => w_keep ix c.1 /\ Forall (fun g => w_safe ix (w_pc g)) c.2 /\
    its_next (ix_items c.1) + N.of_nat (sum_list (map w_budget c.2)) < 2 ^ 32).
  assert (HP : P c); [|by destruct HP]. eapply (rtc_inv w_step P); [|exact Hr|].
  - clear. intros i s gs g s' g' (W & Hf & Hb) Hi E. cbn [fst snd] in *.
    assert (Hs : w_safe ix (w_pc g)) by (apply (Forall_lookup_1 _ _ _ _ Hf Hi)).
    assert (E2 : map w_budget gs !! i = Some (w_budget g)) by (change (map w_budget gs) with (w_budget <$> gs); by rewrite list_lookup_fmap, Hi).
    pose proof (sum_list_insert i _ (w_budget g') _ E2) as Hsum.
    assert (Hle : (w_budget g <= sum_list (map w_budget gs))%nat).
    { pose proof (sum_list_insert i _ 0%nat _ E2). lia. }
    destruct (w_step_keep ix s g s' g' W Hs) as (W' & Hs' & Hb'); [lia|done|]. split; [done|]. cbn [fst snd]. split; [by apply Forall_insert|].
    change (map w_budget (<[i:=g']> gs)) with (w_budget <$> <[i:=g']> gs). rewrite list_fmap_insert. change (w_budget <$> gs) with (map w_budget gs). lia.
  - split; [by split|]. cbn [fst snd]. split; [apply Forall_fmap, Forall_true; done|]. rewrite map_map. exact Hb.
Qed.
Lemma fetch_keep ix0 ix w n : w_keep ix0 ix -> (fetch_runes ix0 w).2 = Ok n -> (fetch_runes ix w).2 = Ok n.
Proof.
  intros [_ W2 W3]. unfold fetch_runes, fetch_from_item. destruct w as [|r w]; [done|]. generalize 0 as p. revert r.
  induction w as [|r2 w IH]; intros r p; rewrite !fetch_loop_eq; destruct (child (ix_children ix0) p r) as [c|] eqn:E.
  - rewrite (W2 _ _ _ E). unfold index_get. destruct (N.leb_spec (its_next (ix_items ix0)) c); [done|].
    destruct (N.leb_spec (its_next (ix_items ix)) c); [lia|done].
  - unfold mbind, res_bind. by destruct (node_word ix0 p).
  - rewrite (W2 _ _ _ E). apply IH.
  - unfold mbind, res_bind. by destruct (node_word ix0 p).
Qed.
Lemma l_C58_old_words_stay : forall ix wss s gs w n, its_next (ix_items ix) + N.of_nat (w_total wss) < 2 ^ 32 ->
  rtc (cstep w_step) (ix, map w_start wss) (s, gs) ->
  (fetch_runes ix w).2 = Ok n -> (fetch_runes s w).2 = Ok n.
Proof. intros ix wss s gs w n Hb Hr. apply fetch_keep. apply (w_reach ix wss (s, gs) Hb Hr). Qed.
