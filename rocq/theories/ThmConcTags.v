(** Proofs about tagging words at the same time (C65). *)
From Coq Require Import ZifyBool ZifyNat ZifyN.
From Verif Require Import Base Storage Bin Utf8 Tags TagSets Variants Items Index Spec Hist
  BaseFacts Intern SpecFacts TrieFacts NoteFacts OptFacts HistFacts QueryFacts Conc ThmConc ConcTags.
From stdpp Require Import list gmap relations.

(** ** What was in the tables stays there *)
Section mem.
  Context (T0 : list (list (list N))).
  Definition T0c (c : nat) : list (list N) := default [] (T0 !! c).
  Definition pre (m : tmem) (a c : nat) : Prop := forall j x, T0c c !! j = Some x -> i_arr m a !! j = Some x.
  Definition weak (own : nat -> nat) (m : tmem) (c : nat) (h : hdr) : Prop :=
    h_arr h < length (t_inner m) /\ h_len h <= length (i_arr m (h_arr h)) /\ (i_arr m (h_arr h) = [] \/ own (h_arr h) = c).
  Definition pok (m : tmem) (c : nat) (h : hdr) : Prop := length (T0c c) <= h_len h /\ pre m (h_arr h) c.
  Definition live (m : tmem) (a : nat) : Prop :=
    a < length (t_outer m) /\ forall c, c < length T0 -> exists h, o_arr m a !! c = Some h /\ pok m c h.
  Definition ohdr (m : tmem) (h : hdr) : Prop :=
    live m (h_arr h) /\ length T0 <= h_len h /\ h_len h <= length (o_arr m (h_arr h)).
  Record minv (own : nat -> nat) (m : tmem) : Prop := {
    mi_weak : forall a c h, o_arr m a !! c = Some h -> weak own m c h;
    mi_hdr : ohdr m (t_hdr m);
    mi_nil : t_inner m !! 0 = Some [] }.
  Definition pinv (own : nat -> nat) (col : nat) (m : tmem) (pc : ipc) : Prop :=
    match pc with
    | IStart | IGrow | IExt _ | IPick | IDone _ | IPanic => True
    | IExtPut i h => live m (h_arr h) /\ length T0 <= h_len h /\ h_len h < length (o_arr m (h_arr h))
    | IExtCopy i h a k => ohdr m h /\ a < length (t_outer m) /\ h_len h < length (o_arr m a) /\
        forall c, c < k -> c < length T0 -> exists t, o_arr m a !! c = Some t /\ pok m c t
    | IExtSet i h => ohdr m h
    | ITable a | ILen a | IApp a _ => live m a
    | IScan a h k | IAppSet a k h => live m a /\ weak own m col h /\ pok m col h
    | IAppPut a n h => live m a /\ weak own m col h /\ pok m col h /\ own (h_arr h) = col /\ h_len h < length (i_arr m (h_arr h))
    | IAppCopy a n h b k => live m a /\ weak own m col h /\ pok m col h /\ b < length (t_inner m) /\ own b = col /\
        h_len h < length (i_arr m b) /\ forall j x, j < k -> T0c col !! j = Some x -> i_arr m b !! j = Some x
    end.
  Record guar (own : nat -> nat) (m : tmem) (own' : nat -> nat) (m' : tmem) : Prop := {
    gu_outer : length (t_outer m) <= length (t_outer m');
    gu_olen : forall a, a < length (t_outer m) -> length (o_arr m' a) = length (o_arr m a);
    gu_inner : length (t_inner m) <= length (t_inner m');
    gu_ilen : forall a, a < length (t_inner m) -> length (i_arr m' a) = length (i_arr m a) /\ own' a = own a;
    gu_slot : forall a c h, a < length (t_outer m) -> c < length T0 -> o_arr m a !! c = Some h -> pok m c h ->
      exists h', o_arr m' a !! c = Some h' /\ pok m' c h';
    gu_elem : forall a j x, a < length (t_inner m) -> T0c (own a) !! j = Some x -> i_arr m a !! j = Some x -> i_arr m' a !! j = Some x }.

  Lemma weak_stable own m own' m' c h : guar own m own' m' -> weak own m c h -> weak own' m' c h.
  Proof.
    intros G (H1 & H2 & H3). destruct (gu_ilen _ _ _ _ G _ H1) as [L O]. pose proof (gu_inner _ _ _ _ G).
    split; [lia|]. split; [lia|]. rewrite O. destruct H3 as [H3|H3]; [left|by right].
    apply nil_length_inv. rewrite L. by rewrite H3.
  Qed.
  Lemma pok_stable own m own' m' c h : guar own m own' m' -> weak own m c h -> pok m c h -> pok m' c h.
  Proof.
    intros G (H1 & _ & H3) [P1 P2]. split; [done|]. intros j x Hj. specialize (P2 j x Hj).
    destruct H3 as [H3|H3]; [rewrite H3 in P2; done|]. apply (gu_elem _ _ _ _ G); [done|by rewrite H3|done].
  Qed.
  Lemma live_stable own m own' m' a : guar own m own' m' -> live m a -> live m' a.
  Proof.
    intros G [H1 H2]. pose proof (gu_outer _ _ _ _ G). split; [lia|]. intros c Hc. destruct (H2 c Hc) as (h & E & P).
    apply (gu_slot _ _ _ _ G a c h H1 Hc E P).
  Qed.
  Lemma ohdr_stable own m own' m' h : guar own m own' m' -> ohdr m h -> ohdr m' h.
  Proof.
    intros G (H1 & H2 & H3). split; [by eapply live_stable|]. split; [done|].
    rewrite (gu_olen _ _ _ _ G); [done|]. apply H1.
  Qed.
  Lemma pinv_stable own m own' m' col pc : guar own m own' m' -> pinv own col m pc -> pinv own' col m' pc.
  Proof.
    intros G. pose proof (gu_outer _ _ _ _ G) as Go. pose proof (gu_inner _ _ _ _ G) as Gi.
    destruct pc; cbn [pinv]; try done.
    - intros (H1 & H2 & H3). split; [by eapply live_stable|]. split; [done|].
      rewrite (gu_olen _ _ _ _ G) by apply H1. done.
    - intros (H1 & H2 & H3 & H4). split; [by eapply ohdr_stable|]. split; [lia|].
      rewrite (gu_olen _ _ _ _ G) by done. split; [done|]. intros c Hc Hc'. destruct (H4 c Hc Hc') as (t & E & P).
      by apply (gu_slot _ _ _ _ G _ c t).
    - by apply ohdr_stable with own own'.
    - by eapply live_stable.
    - intros (H1 & H2 & H3). split; [by eapply live_stable|]. split; [by eapply weak_stable|by eapply pok_stable].
    - by eapply live_stable.
    - by eapply live_stable.
    - intros (H1 & H2 & H3 & H4 & H5 & H6 & H7). split; [by eapply live_stable|]. split; [by eapply weak_stable|].
      split; [by eapply pok_stable|]. destruct (gu_ilen _ _ _ _ G _ H4) as [L O]. split; [lia|]. split; [congruence|]. split; [lia|].
      intros j x Hj Hx. apply (gu_elem _ _ _ _ G); [done|by rewrite H5|by apply H7].
    - intros (H1 & H2 & H3 & H4 & H5). split; [by eapply live_stable|]. split; [by eapply weak_stable|].
      split; [by eapply pok_stable|]. destruct (gu_ilen _ _ _ _ G (h_arr h)) as [L O]; [apply H2|]. split; [congruence|lia].
    - intros (H1 & H2 & H3). split; [by eapply live_stable|]. split; [by eapply weak_stable|by eapply pok_stable].
  Qed.

  (** Writing a table. *)
  Lemma o_arr_put m a k h a' : o_arr (o_put m a k h) a' = if decide (a = a' /\ a < length (t_outer m)) then <[k := h]> (o_arr m a) else o_arr m a'.
  Proof.
    unfold o_arr, o_put. cbn. destruct (decide (a = a' /\ a < length (t_outer m))) as [[<- H]|H].
    - by rewrite list_lookup_insert.
    - destruct (decide (a = a')) as [<-|Hn]; [|by rewrite list_lookup_insert_ne]. rewrite list_insert_ge by naive_solver lia. done.
  Qed.
  Lemma i_arr_put m a k x a' : i_arr (i_put m a k x) a' = if decide (a = a' /\ a < length (t_inner m)) then <[k := x]> (i_arr m a) else i_arr m a'.
  Proof.
    unfold i_arr, i_put. cbn. destruct (decide (a = a' /\ a < length (t_inner m))) as [[<- H]|H].
    - by rewrite list_lookup_insert.
    - destruct (decide (a = a')) as [<-|Hn]; [|by rewrite list_lookup_insert_ne]. rewrite list_insert_ge by naive_solver lia. done.
  Qed.
  Lemma o_put_guar own m a k h : minv own m -> weak own m k h -> (k < length T0 -> pok m k h) ->
    minv own (o_put m a k h) /\ guar own m own (o_put m a k h).
  Proof.
    intros I W P. set (m' := o_put m a k h).
    assert (G : guar own m own m').
    { split; cbn; rewrite ?insert_length; try done.
      - intros a' Ha'. unfold m'. rewrite o_arr_put. destruct (decide _) as [[<- _]|_]; [|done]. by rewrite insert_length.
      - intros a' c h' Ha' Hc E Pc. unfold m'. rewrite o_arr_put. destruct (decide _) as [[<- _]|_]; [|by exists h'].
        destruct (decide (k = c)) as [<-|Hn].
        + exists h. split; [apply list_lookup_insert; by eapply lookup_lt_Some|]. by apply P.
        + exists h'. split; [by rewrite list_lookup_insert_ne|done]. }
    split; [|done]. split.
    - intros a' c h' E. unfold m' in E. rewrite o_arr_put in E. destruct (decide _) as [[<- _]|_].
      + apply list_lookup_insert_Some in E as [(-> & -> & _)|[_ E]]; [done|]. apply (mi_weak _ _ I _ _ _ E).
      + apply (mi_weak _ _ I _ _ _ E).
    - eapply ohdr_stable; [exact G|apply I].
    - apply I.
  Qed.
  (** Writing an element. *)
  Lemma i_put_guar own m a k x : minv own m -> own a = own a -> (forall y, T0c (own a) !! k = Some y -> y = x) ->
    minv own (i_put m a k x) /\ guar own m own (i_put m a k x).
  Proof.
    intros I _ P. set (m' := i_put m a k x).
    assert (Hl : forall a', length (i_arr m' a') = length (i_arr m a')).
    { intros a'. unfold m'. rewrite i_arr_put. destruct (decide _) as [[<- _]|_]; [|done]. by rewrite insert_length. }
    assert (He : forall a' j y, T0c (own a') !! j = Some y -> i_arr m a' !! j = Some y -> i_arr m' a' !! j = Some y).
    { intros a' j y Hy E. unfold m'. rewrite i_arr_put. destruct (decide _) as [[<- _]|_]; [|done].
      destruct (decide (k = j)) as [<-|Hn]; [|by rewrite list_lookup_insert_ne].
      rewrite (P y Hy) in *. apply list_lookup_insert. by eapply lookup_lt_Some. }
    assert (G : guar own m own m').
    { split; cbn; rewrite ?insert_length; try done.
      - intros a' c h' Ha' Hc E Pc. exists h'. split; [done|].
        destruct Pc as [P1 P2]. split; [done|]. intros j y Hy. specialize (P2 j y Hy).
        destruct (mi_weak _ _ I _ _ _ E) as (W1 & _ & [W|W]); [rewrite W in P2; done|].
        apply He; [by rewrite W|done].
      - intros. by apply He. }
    split; [|done]. split.
    - intros a' c h' E. change (o_arr m' a' !! c = Some h') with (o_arr m a' !! c = Some h') in E.
      eapply weak_stable; [exact G|]. apply (mi_weak _ _ I _ _ _ E).
    - eapply ohdr_stable; [exact G|apply I].
    - unfold m'. cbn. pose proof (mi_nil _ _ I) as E0. destruct (decide (a = 0)) as [->|Hn].
      + rewrite list_lookup_insert by (by eapply lookup_lt_Some). unfold i_arr. rewrite E0. done.
      + by rewrite list_lookup_insert_ne.
  Qed.
  Lemma o_arr_new m l a : o_arr (o_new m l) a = if decide (a = length (t_outer m)) then l else o_arr m a.
  Proof.
    unfold o_arr, o_new. cbn. destruct (decide _) as [->|Hn]; [by rewrite list_lookup_middle|].
    destruct (decide (a < length (t_outer m))); [by rewrite lookup_app_l|].
    rewrite !lookup_ge_None_2; [done|lia|rewrite app_length; cbn; lia].
  Qed.
  Lemma i_arr_new m l a : i_arr (i_new m l) a = if decide (a = length (t_inner m)) then l else i_arr m a.
  Proof.
    unfold i_arr, i_new. cbn. destruct (decide _) as [->|Hn]; [by rewrite list_lookup_middle|].
    destruct (decide (a < length (t_inner m))); [by rewrite lookup_app_l|].
    rewrite !lookup_ge_None_2; [done|lia|rewrite app_length; cbn; lia].
  Qed.
  Lemma o_new_guar own m n : minv own m ->
    minv own (o_new m (replicate n nil_hdr)) /\ guar own m own (o_new m (replicate n nil_hdr)).
  Proof.
    intros I. set (m' := o_new m _).
    assert (G : guar own m own m').
    { split; cbn; rewrite ?app_length; cbn; try done; try lia.
      - intros a Ha. unfold m'. rewrite o_arr_new. by rewrite decide_False by lia.
      - intros a c h Ha Hc E Pc. unfold m'. rewrite o_arr_new. rewrite decide_False by lia. by exists h. }
    split; [|done]. split.
    - intros a c h E. unfold m' in E. rewrite o_arr_new in E. destruct (decide _) as [_|_].
      + apply lookup_replicate in E as [-> _]. pose proof (mi_nil _ _ I) as E0.
        split; [cbn; by eapply lookup_lt_Some|]. split; [cbn; lia|]. left. cbn. unfold i_arr. cbn. by rewrite E0.
      + apply (mi_weak _ _ I _ _ _ E).
    - eapply ohdr_stable; [exact G|apply I].
    - apply I.
  Qed.
  Lemma i_new_guar own m n c : minv own m ->
    let own' := fun a => if decide (a = length (t_inner m)) then c else own a in
    minv own' (i_new m (replicate n [])) /\ guar own m own' (i_new m (replicate n [])).
  Proof.
    intros I own'. set (m' := i_new m _).
    assert (He : forall a, a < length (t_inner m) -> i_arr m' a = i_arr m a).
    { intros a Ha. unfold m'. rewrite i_arr_new. by rewrite decide_False by lia. }
    assert (G : guar own m own' m').
    { split; cbn; rewrite ?app_length; cbn; try done; try lia.
      - intros a Ha. rewrite He by done. split; [done|]. unfold own'. by rewrite decide_False by lia.
      - intros a c' h Ha Hc E Pc. exists h. split; [done|]. destruct Pc as [P1 P2]. split; [done|].
        intros j x Hj. rewrite He; [by apply P2|]. apply (mi_weak _ _ I _ _ _ E).
      - intros a j x Ha Hj E. by rewrite He. }
    split; [|done]. split.
    - intros a c' h E. eapply weak_stable; [exact G|]. apply (mi_weak _ _ I _ _ _ E).
    - eapply ohdr_stable; [exact G|apply I].
    - cbn. rewrite lookup_app_l; [apply I|]. eapply lookup_lt_Some. apply I.
  Qed.
  Lemma guar_refl own m : guar own m own m.
  Proof. split; try done. intros a c h _ _ E P. by exists h. Qed.
  Lemma nil_ok own m c : minv own m -> weak own m c nil_hdr.
  Proof.
    intros I. pose proof (mi_nil _ _ I) as E0. split; [cbn; by eapply lookup_lt_Some|]. split; [cbn; lia|].
    left. cbn. unfold i_arr. by rewrite E0.
  Qed.
  Lemma live_pok own m a c h : minv own m -> live m a -> o_arr m a !! c = Some h -> weak own m c h /\ pok m c h.
  Proof.
    intros I [L1 L2] E. split; [apply (mi_weak _ _ I _ _ _ E)|]. destruct (decide (c < length T0)) as [Hc|Hc].
    - destruct (L2 c Hc) as (h' & E' & P). by simplify_eq.
    - unfold pok, pre, T0c. rewrite lookup_ge_None_2 by lia. cbn. split; [lia|done].
  Qed.

  Lemma i_step_inv grow own col x m pc m' pc' : minv own m -> pinv own col m pc -> i_step grow col x m pc = (m', pc') ->
    exists own', minv own' m' /\ guar own m own' m' /\ pinv own' col m' pc'.
  Proof.
    intros I P E.
    assert (Hsame : m' = m -> pinv own col m pc' -> exists own', minv own' m' /\ guar own m own' m' /\ pinv own' col m' pc').
    { intros -> Hp. exists own. split; [done|]. split; [apply guar_refl|done]. }
    destruct pc; cbn [i_step] in E.
    - injection E as <- <-. apply Hsame; [done|]. by destruct (_ <? _).
    - injection E as <- <-. apply Hsame; [done|]. by destruct (_ <=? _).
    - (* IExt *) pose proof (mi_hdr _ _ I) as (O1 & O2 & O3). destruct (_ <? _) eqn:Ec; injection E as <- <-.
      + apply Hsame; [done|]. cbn. apply Nat.ltb_lt in Ec. done.
      + apply Nat.ltb_ge in Ec. destruct (o_new_guar own m (room grow (length (o_arr m (h_arr (t_hdr m)))) (S (h_len (t_hdr m)))) I) as [I' G].
        exists own. split; [done|]. split; [done|]. cbn [pinv]. split; [eapply ohdr_stable; [exact G|apply I]|].
        split; [cbn; rewrite app_length; cbn; lia|]. rewrite o_arr_new, decide_True by done. rewrite replicate_length. unfold room.
        split; [lia|]. intros c Hc. lia.
    - (* IExtPut *) injection E as <- <-. destruct P as (P1 & P2 & P3).
      destruct (o_put_guar own m (h_arr h) (h_len h) nil_hdr I) as [I' G]; [by apply nil_ok|lia|].
      exists own. split; [done|]. split; [done|]. cbn [pinv]. split; [by eapply live_stable|]. cbn [h_len h_arr]. split; [lia|].
      rewrite (gu_olen _ _ _ _ G) by apply P1. lia.
    - (* IExtCopy *) destruct P as ((P1 & P2 & P3) & P4 & P5 & P6). destruct (_ <? _) eqn:Ek.
      + apply Nat.ltb_lt in Ek. destruct (o_arr m (h_arr h) !! k) as [t|] eqn:Et.
        2: { apply lookup_ge_None in Et. lia. }
        injection E as <- <-. destruct (live_pok _ _ _ _ _ I P1 Et) as [Wt Pt].
        destruct (o_put_guar own m a k t I Wt (fun _ => Pt)) as [I' G]. exists own. split; [done|]. split; [done|].
        cbn [pinv]. split; [eapply ohdr_stable; [exact G|by split]|]. pose proof (gu_outer _ _ _ _ G). split; [lia|].
        rewrite (gu_olen _ _ _ _ G) by done. split; [done|]. intros c Hc Hc'. destruct (decide (c = k)) as [->|Hn].
        * exists t. rewrite o_arr_put, decide_True by done. split; [apply list_lookup_insert; lia|].
          eapply pok_stable; [exact G|done|done].
        * destruct (P6 c) as (t' & Et' & Pt'); [lia|done|]. by apply (gu_slot _ _ _ _ G a c t').
      + apply Nat.ltb_ge in Ek. injection E as <- <-. apply Hsame; [done|]. cbn [pinv h_arr h_len]. split; [|lia].
        split; [done|]. intros c Hc. apply P6; lia.
    - (* IExtSet *) injection E as <- <-. exists own.
      assert (G : guar own m own (mkTmem (t_outer m) (t_inner m) h)) by (split; try done; intros a c h' _ _ E P'; by exists h').
      split; [|split; [done|repeat case_match; done]]. split; [apply I|exact P|apply I].
    - injection E as <- <-. apply Hsame; [done|]. destruct (_ <? _); [|done]. cbn. apply I.
    - injection E as <- <-. apply Hsame; [done|]. destruct (o_arr m a !! col) as [h|] eqn:Eh; [|done]. cbn. split; [done|].
      by eapply live_pok.
    - injection E as <- <-. apply Hsame; [done|]. destruct (_ <? _); [|cbn; apply P]. destruct (i_arr m (h_arr h) !! k); [|done].
      by destruct (equal_to _ _).
    - injection E as <- <-. apply Hsame; [done|]. destruct (o_arr m a !! col) as [h|] eqn:Eh; done.
    - (* IApp *) cbn [pinv] in P. destruct (o_arr m a !! col) as [h|] eqn:Eh; [|injection E as <- <-; by apply Hsame].
      destruct (live_pok _ _ _ _ _ I P Eh) as [Wh Ph]. destruct (_ <? _) eqn:Ec; injection E as <- <-.
      + apply Nat.ltb_lt in Ec. apply Hsame; [done|]. cbn. split; [done|]. split; [done|]. split; [done|]. split; [|done].
        destruct Wh as (_ & _ & [W|W]); [|done]. rewrite W in Ec. cbn in Ec. lia.
      + apply Nat.ltb_ge in Ec. destruct (i_new_guar own m (room grow (length (i_arr m (h_arr h))) (S (h_len h))) col I) as [I' G].
        eexists. split; [exact I'|]. split; [exact G|]. cbn [pinv]. split; [by eapply live_stable|]. split; [by eapply weak_stable|].
        split; [by eapply pok_stable|]. split; [cbn; rewrite app_length; cbn; lia|]. rewrite decide_True by done. split; [done|].
        rewrite i_arr_new, decide_True by done. rewrite replicate_length. unfold room. split; [lia|]. intros j y Hj. lia.
    - (* IAppCopy *) destruct P as (P1 & P2 & P3 & P4 & P5 & P6 & P7). destruct (_ <? _) eqn:Ek.
      + apply Nat.ltb_lt in Ek. destruct (i_arr m (h_arr h) !! k) as [y|] eqn:Ey.
        2: { apply lookup_ge_None in Ey. destruct P2 as (_ & P2 & _). lia. }
        injection E as <- <-.
        destruct (i_put_guar own m b k y I eq_refl) as [I' G].
        { rewrite P5. intros y' Hy'. apply P3 in Hy'. congruence. }
        exists own. split; [done|]. split; [done|]. cbn [pinv]. split; [by eapply live_stable|]. split; [by eapply weak_stable|].
        split; [by eapply pok_stable|]. destruct (gu_ilen _ _ _ _ G _ P4) as [L _]. pose proof (gu_inner _ _ _ _ G). split; [lia|].
        split; [done|]. split; [lia|]. intros j z Hj Hz. destruct (decide (j = k)) as [->|Hn].
        * rewrite i_arr_put, decide_True by done. apply P3 in Hz. rewrite list_lookup_insert by lia. congruence.
        * apply (gu_elem _ _ _ _ G); [done|by rewrite P5|]. apply P7; [lia|done].
      + apply Nat.ltb_ge in Ek. injection E as <- <-. apply Hsame; [done|]. cbn [pinv h_arr h_len]. split; [done|]. split.
        { split; [done|]. split; [cbn; lia|by right]. }
        split; [|split; [done|lia]]. destruct P3 as [P31 P32]. split; [done|]. intros j z Hz. apply P7; [|done].
        apply lookup_lt_Some in Hz. lia.
    - (* IAppPut *) injection E as <- <-. destruct P as (P1 & P2 & P3 & P4 & P5).
      destruct (i_put_guar own m (h_arr h) (h_len h) x I eq_refl) as [I' G].
      { rewrite P4. intros y Hy. apply lookup_lt_Some in Hy. destruct P3 as [P3 _]. lia. }
      exists own. split; [done|]. split; [done|]. cbn [pinv]. split; [by eapply live_stable|].
      pose proof (pok_stable _ _ _ _ _ _ G P2 P3) as [Q1 Q2]. destruct P2 as (W1 & W2 & W3).
      destruct (gu_ilen _ _ _ _ G _ W1) as [L _]. pose proof (gu_inner _ _ _ _ G). split.
      + split; [cbn [h_arr]; lia|]. split; [cbn [h_len h_arr]; lia|by right].
      + split; [cbn; lia|done].
    - (* IAppSet *) injection E as <- <-. destruct P as (P1 & P2 & P3).
      destruct (o_put_guar own m a col h I P2 (fun _ => P3)) as [I' G]. exists own. done.
    - injection E as <- <-. by apply Hsame.
    - injection E as <- <-. by apply Hsame.
  Qed.

  (** The tables found in the memory contain the old ones. *)
  Lemma minv_at2 own m c j x : minv own m -> at2 T0 c j = Some x -> at2 (tables_of m) c j = Some x.
  Proof.
    intros I E. unfold at2 in *. destruct (T0 !! c) as [t|] eqn:Et; [|done]. cbn in E.
    pose proof (mi_hdr _ _ I) as ((O1 & O2) & O3 & O4). pose proof (lookup_lt_Some _ _ _ Et) as Hc.
    destruct (O2 c Hc) as (h & Eh & P1 & P2). unfold tables_of. rewrite list_lookup_fmap.
    rewrite lookup_take by lia. rewrite Eh. cbn. unfold table_of. assert (E' : T0c c !! j = Some x) by (unfold T0c; by rewrite Et).
    rewrite lookup_take; [by apply P2|]. apply lookup_lt_Some in E'. lia.
  Qed.
  Lemma minv_start m : tmem_ok m -> tables_of m = T0 -> exists own, minv own m.
  Proof.
    intros (H0 & H1 & H2 & own & H3) E. exists own.
    assert (Hlen : length T0 = h_len (t_hdr m)) by (rewrite <- E; unfold tables_of; rewrite map_length, take_length; lia).
    split; [done| |done]. split; [|lia]. split; [done|]. intros c Hc.
    destruct (o_arr m (h_arr (t_hdr m)) !! c) as [h|] eqn:Eh; [|apply lookup_ge_None in Eh; lia].
    exists h. split; [done|]. destruct (H3 _ _ _ Eh) as (W1 & W2 & _).
    assert (Et : T0c c = table_of m h).
    { unfold T0c. rewrite <- E. unfold tables_of. rewrite list_lookup_fmap, lookup_take by lia. by rewrite Eh. }
    split; [rewrite Et; unfold table_of; rewrite take_length; lia|]. intros j x Hj. rewrite Et in Hj. unfold table_of in Hj.
    apply lookup_take_Some in Hj as [Hj _]. done.
  Qed.
End mem.
Open Scope N_scope.

Section kept.
  Context (grow : nat -> nat -> nat) (tags : list tag) (T1 T2 : list (list (list N))) (it0 : items) (busy : N -> Prop).
  Definition cur_col (g : tagger) : nat :=
    match g_todo g with
    | (_, names) :: _ => match names_to_ids tags names with Ok ids => N.to_nat (set_col ids) | _ => 0%nat end
    | [] => 0%nat
    end.
  Definition ginv (own1 own2 : nat -> nat) (s : smem) (g : tagger) : Prop :=
    (forall call, In call (g_todo g) -> busy call.1) /\
    match g_pc g with
    | TSets c pc => pinv T1 own1 (cur_col g) (s_sets s) pc
    | TCols c pc => pinv T2 own2 (N.to_nat (col_col c)) (s_cols s) pc
    | _ => True
    end.
  Definition kinv (c : smem * list tagger) : Prop :=
    exists own1 own2, minv T1 own1 (s_sets c.1) /\ minv T2 own2 (s_cols c.1) /\ Forall (ginv own1 own2 c.1) c.2 /\
      its_next (s_items c.1) = its_next it0 /\ length (its_list (s_items c.1)) = length (its_list it0) /\
      forall n, ~ busy n -> its_list (s_items c.1) !! N.to_nat n = its_list it0 !! N.to_nat n.
  Lemma ginv_stable own1 own2 own1' own2' s s' g : guar T1 own1 (s_sets s) own1' (s_sets s') -> guar T2 own2 (s_cols s) own2' (s_cols s') ->
    ginv own1 own2 s g -> ginv own1' own2' s' g.
  Proof.
    intros G1 G2 [H1 H2]. split; [done|]. destruct (g_pc g); try done; [revert H2; by apply pinv_stable|revert H2; by apply pinv_stable].
  Qed.
  Lemma kinv_step i s gs g s' g' : kinv (s, gs) -> gs !! i = Some g -> t_step grow tags s g = Some (s', g') -> kinv (s', <[i := g']> gs).
  Proof.
    intros (own1 & own2 & I1 & I2 & F & Hn & Hl & Hk) Hg E. cbn [fst snd] in *.
    pose proof (Forall_lookup_1 _ _ _ _ F Hg) as [B P].
    (* a step that changes neither the tables nor the items *)
    assert (Hq : s' = s \/ (s_sets s' = s_sets s /\ s_cols s' = s_cols s /\ s_items s' = s_items s) ->
       ginv own1 own2 s g' -> kinv (s', <[i := g']> gs)).
    { intros Hs Hg'. assert (Hs' : s_sets s' = s_sets s /\ s_cols s' = s_cols s /\ s_items s' = s_items s) by (destruct Hs as [->|?]; done).
      destruct Hs' as (S1 & S2 & S3). exists own1, own2. cbn [fst snd]. rewrite S1, S2, S3. split; [done|]. split; [done|]. split; [|done].
      apply Forall_insert.
      - eapply Forall_impl; [exact F|]. intros g1. apply ginv_stable; rewrite ?S1, ?S2; apply guar_refl.
      - revert Hg'. apply ginv_stable; rewrite ?S1, ?S2; apply guar_refl. }
    unfold t_step in E. destruct g as [pc todo rs]. cbn [g_pc g_todo g_res] in *. unfold ginv, cur_col in Hq, P. cbn [g_pc g_todo] in *.
    destruct todo as [|[id names] todo]; [done|].
    destruct (names_to_ids tags names) as [ids|e|] eqn:En; cycle 1.
    { injection E as <- <-. apply Hq; [by left|]. cbn. split; [|done]. intros call Hc. apply B. by right. }
    { injection E as <- <-. apply Hq; [by left|]. done. }
    assert (Hafter : forall c, match TSets c (if (lenN ids =? 0) then IDone 0 else IStart) with
         | TSets _ pc => pinv T1 own1 (N.to_nat (set_col ids)) (s_sets s) pc | _ => True end) by (intros c; by destruct (_ =? _)).
    destruct pc as [| |v|v h|v h|c ip|c|c|c w|c ip|v|]; cbn [g_pc] in *.
    - injection E as <- <-. apply Hq; [by left|]. destruct (items_get _ _) as [[?|]|?|]; done.
    - destruct (its_list (s_items s) !! N.to_nat id) as [it|]; injection E as <- <-; (apply Hq; [by left|]); [|done]. cbn [g_todo g_pc]. split; [done|].
      rewrite ?En. destruct (_ || _); [apply (Hafter [])|done].
    - injection E as <- <-. apply Hq; [by left|]. done.
    - injection E as <- <-. apply Hq; [by left|]. split; [done|]. cbn [g_pc]. destruct (_ <? _)%nat; [|done]. by destruct (o_arr _ _ !! _).
    - injection E as <- <-. apply Hq; [by left|]. split; [done|]. cbn [g_pc g_todo]. rewrite ?En. destruct (_ <? _)%nat; [|done].
      destruct (i_arr _ _ !! _); [apply (Hafter [])|done].
    - rewrite ?En in P.
      assert (Hgen : forall m ip', i_step grow (N.to_nat (set_col ids)) (go_sort ids) (s_sets s) ip = (m, ip') ->
         kinv (mkSmem m (s_cols s) (s_items s) (s_words s), <[i := mkTagger (TSets c ip') ((id, names) :: todo) rs]> gs)).
      { intros m ip' Es. destruct (i_step_inv _ _ _ _ _ _ _ _ _ I1 P Es) as (own1' & I1' & G1 & P').
        exists own1', own2. cbn [fst snd s_sets s_cols s_items]. split; [done|]. split; [done|]. split; [|done].
        apply Forall_insert.
        - eapply Forall_impl; [exact F|]. intros g1. apply ginv_stable; [exact G1|apply guar_refl].
        - split; [done|]. unfold cur_col. cbn [g_pc g_todo s_sets]. rewrite En. exact P'. }
      destruct ip; try (destruct (i_step _ _ _ _ _) as [m ip'] eqn:Es; injection E as <- <-; by apply Hgen).
      + injection E as <- <-. apply Hq; [by left|]. done.
      + injection E as <- <-. apply Hq; [by left|]. done.
    - destruct (its_list (s_items s) !! N.to_nat id) as [it|]; injection E as <- <-; (apply Hq; [by left|]); [|done]. split; [done|]. cbn [g_pc].
      by destruct (_ =? _).
    - injection E as <- <-. apply Hq; [by left|]. done.
    - injection E as <- <-. apply Hq; [by right|]. done.
    - assert (Hgen : forall m ip', i_step grow (N.to_nat (col_col c)) (go_sort c) (s_cols s) ip = (m, ip') ->
         kinv (mkSmem (s_sets s) m (s_items s) (s_words s), <[i := mkTagger (TCols c ip') ((id, names) :: todo) rs]> gs)).
      { intros m ip' Es. destruct (i_step_inv _ _ _ _ _ _ _ _ _ I2 P Es) as (own2' & I2' & G2 & P').
        exists own1, own2'. cbn [fst snd s_sets s_cols s_items]. split; [done|]. split; [done|]. split; [|done].
        apply Forall_insert.
        - eapply Forall_impl; [exact F|]. intros g1. apply ginv_stable; [apply guar_refl|exact G2].
        - split; [done|]. cbn [g_pc g_todo s_cols]. exact P'. }
      destruct ip; try (destruct (i_step _ _ _ _ _) as [m ip'] eqn:Es; injection E as <- <-; by apply Hgen).
      + injection E as <- <-. apply Hq; [by left|]. done.
      + injection E as <- <-. apply Hq; [by left|]. done.
    - injection E as <- <-. exists own1, own2. cbn [fst snd s_sets s_cols s_items set_variants its_next its_list].
      split; [done|]. split; [done|]. split.
      { apply Forall_insert.
        - eapply Forall_impl; [exact F|]. intros g1. apply ginv_stable; apply guar_refl.
        - split; [|done]. cbn. intros call Hc. apply B. by right. }
      split; [done|]. split; [by rewrite alter_length|]. intros n Hb. rewrite list_lookup_alter_ne; [by apply Hk|].
      intros He. apply Hb. assert (n = id) as -> by lia. apply (B (id, names)). by left.
    - done.
  Qed.
End kept.

Lemma resolve_sets_mono ix ix' col : ix_tags ix' = ix_tags ix ->
  (forall c i x, at2 (ix_sets ix) c i = Some x -> at2 (ix_sets ix') c i = Some x) ->
  Forall (fun k => exists s, good_set (ix_sets ix) k s) col -> resolve_sets ix' col = resolve_sets ix col.
Proof.
  intros Ht Hm. induction 1 as [|k col [x [Hk Hs]] _ IH]; [done|]. cbn [resolve_sets]. rewrite Hs.
  rewrite tagset_get_at2 in Hs. apply Hm in Hs. rewrite <- tagset_get_at2 in Hs. rewrite Hs, Ht, IH. done.
Qed.
Lemma l_C65_others_kept : forall grow h ix s callss c n,
  runs h ix -> smem_ok s -> mem_index ix s = ix ->
  rtc (cstep (t_step grow (ix_tags ix))) (s, map t_start callss) c ->
  (forall calls names, In calls callss -> ~ In (n, names) calls) ->
  node_tag_sets (mem_index ix c.1) n = node_tag_sets ix n.
Proof.
  intros grow h ix s callss c n Hr [Hok1 Hok2] Hm Hrtc Hfree.
  set (busy := fun k => exists calls names, In calls callss /\ In (k, names) calls).
  assert (Et1 : tables_of (s_sets s) = ix_sets ix) by (by rewrite <- Hm).
  assert (Et2 : tables_of (s_cols s) = ix_cols ix) by (by rewrite <- Hm).
  assert (Ei : s_items s = ix_items ix) by (by rewrite <- Hm).
  destruct (minv_start _ _ Hok1 Et1) as [own1 I1]. destruct (minv_start _ _ Hok2 Et2) as [own2 I2].
  assert (K : kinv (ix_tags ix) (ix_sets ix) (ix_cols ix) (ix_items ix) busy c).
  { eapply (ThmConc.rtc_inv _ (kinv _ _ _ _ busy)); [|exact Hrtc|].
    - intros. by eapply kinv_step.
    - exists own1, own2. cbn [fst snd]. rewrite Ei. split; [done|]. split; [done|]. split; [|done].
      apply Forall_forall. intros g Hg. apply elem_of_list_fmap in Hg as (calls & -> & Hin). split; [|done].
      intros [k names] Hc. exists calls, names. split; [by apply elem_of_list_In|done]. }
  destruct K as (o1 & o2 & J1 & J2 & _ & Hnx & Hlen & Hkeep). cbn in Hnx, Hlen, Hkeep.
  pose proof (fun c0 i x => minv_at2 _ _ _ c0 i x J1) as M1. pose proof (fun c0 i x => minv_at2 _ _ _ c0 i x J2) as M2.
  assert (Hnb : ~ busy n) by (intros (calls & names & H1 & H2); by apply (Hfree calls names)).
  destruct (runs_refines _ _ Hr) as (ld & _ & T & A).
  unfold node_tag_sets, get_item, items_get, mem_index. cbn [ix_items ix_cols]. rewrite Hnx.
  destruct (n =? 0) eqn:E0; [done|]. destruct (its_next (ix_items ix) <=? n) eqn:E1; [done|]. apply N.leb_gt in E1. apply N.eqb_neq in E0.
  unfold slice_get. rewrite (Hkeep n Hnb). destruct (its_list (ix_items ix) !! N.to_nat n) as [it|] eqn:Eit; cbn; [|done].
  assert (exists w, d_words (d_run h) !! (N.to_nat n - 1)%nat = Some w) as [w Hw].
  { apply lookup_lt_is_Some. pose proof (t_len _ _ _ _ T). unfold lenN in *. lia. }
  replace (N.to_nat n) with (S (N.to_nat n - 1)) in Eit by lia.
  destruct (a_items _ _ A _ _ _ Hw Eit) as [[-> _]|(col & Hg & _)]; [done|].
  rewrite (good_col_get _ _ _ Hg). destruct Hg as (G1 & G2 & G3).
  rewrite (good_col_get (tables_of (s_cols c.1)) (it_variants it) col) by (split; [done|]; split; [done|]; by apply M2).
  cbn. f_equal. apply resolve_sets_mono; [done|exact M1|]. apply (a_col_ids _ _ A _ _ _ G3).
Qed.
