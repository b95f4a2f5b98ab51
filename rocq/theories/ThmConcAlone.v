(** One goroutine tagging alone, and goroutines that tag with what is there (C65). *)
From Coq Require Import ZifyBool ZifyNat ZifyN.
From Verif Require Import Base Storage Bin Utf8 Tags TagSets Variants Items Index Spec Hist
  BaseFacts Intern SpecFacts TrieFacts NoteFacts OptFacts HistFacts QueryFacts Conc ThmConc ConcTags ThmConcTags.
From stdpp Require Import list gmap relations.
Open Scope N_scope.

(** ** One goroutine alone *)
Definition i_on (pc : ipc) : Prop := match pc with IDone _ | IPanic => False | _ => True end.
Definition intern_at (T : list (list (list N))) (col : nat) (x : list N) : list (list (list N)) * nat :=
  let x1 := extend_to T (N.of_nat col) in
  let t := default [] (x1 !! col) in
  match find_pos t x 0 with Some i => (x1, i) | None => (<[col := t ++ [x]]> x1, length t) end.
Lemma tables_lookup m c : tables_of m !! c = if decide (c < h_len (t_hdr m))%nat then table_of m <$> (o_arr m (h_arr (t_hdr m)) !! c) else None.
Proof.
  unfold tables_of. rewrite list_lookup_fmap. destruct (decide _).
  - by rewrite lookup_take by done.
  - by rewrite lookup_take_ge by lia.
Qed.
Lemma tables_len T0 own m : minv T0 own m -> length (tables_of m) = h_len (t_hdr m).
Proof. intros I. destruct (mi_hdr _ _ _ I) as (_ & _ & O3). unfold tables_of. rewrite map_length, take_length. lia. Qed.
Section alone.
  Context (grow : nat -> nat -> nat) (col : nat) (x : list N).
  Definition irel (a b : tmem * ipc) : Prop := i_on a.2 /\ i_step grow col x a.1 a.2 = b.
  Lemma irel_step m pc m' pc' : i_on pc -> i_step grow col x m pc = (m', pc') -> irel (m, pc) (m', pc').
  Proof. by split. Qed.
  Lemma irel_inv a b : rtc irel a b -> forall T0 own, minv T0 own a.1 -> pinv T0 own col a.1 a.2 ->
    exists own', minv T0 own' b.1 /\ pinv T0 own' col b.1 b.2.
  Proof.
    induction 1 as [a|a b c [_ Hs] _ IH]; intros T0 own I P; [by exists own|]. destruct b as [m' pc'].
    destruct (i_step_inv _ _ _ _ _ _ _ _ _ I P Hs) as (own' & I' & _ & P'). by apply (IH T0 own').
  Qed.
  Lemma ext_copy d : forall m i h a k, (d = h_len h - k)%nat -> (k <= h_len h)%nat -> a <> h_arr h -> (a < length (t_outer m))%nat ->
    (h_len h <= length (o_arr m (h_arr h)))%nat -> (h_len h <= length (o_arr m a))%nat ->
    (forall j, (j < k)%nat -> o_arr m a !! j = o_arr m (h_arr h) !! j) ->
    exists m', rtc irel (m, IExtCopy i h a k) (m', IExtPut i (mkHdr a (h_len h))) /\ t_inner m' = t_inner m /\
      length (t_outer m') = length (t_outer m) /\ length (o_arr m' a) = length (o_arr m a) /\
      (forall j, (j < h_len h)%nat -> o_arr m' a !! j = o_arr m (h_arr h) !! j).
  Proof.
    induction d as [|d IH]; intros m i h a k Hd Hk Ha Hal L1 L2 Hj.
    - exists m. split; [|split; [done|split; [done|split; [done|]]]].
      + apply rtc_once. apply irel_step; [done|]. cbn [i_step]. by replace (k <? h_len h)%nat with false by lia.
      + intros j Hjl. apply Hj. lia.
    - assert (is_Some (o_arr m (h_arr h) !! k)) as [t Ht] by (apply lookup_lt_is_Some_2; lia).
      assert (Hsrc : o_arr (o_put m a k t) (h_arr h) = o_arr m (h_arr h)) by (rewrite o_arr_put; by rewrite decide_False by (intros [? ?]; congruence)).
      assert (Hdst : o_arr (o_put m a k t) a = <[k := t]> (o_arr m a)) by (rewrite o_arr_put; by rewrite decide_True by done).
      destruct (IH (o_put m a k t) i h a (S k)) as (m' & R & E1 & E2 & E3 & E4); [lia|lia|done|cbn; by rewrite insert_length|by rewrite Hsrc|by rewrite Hdst, insert_length| |].
      + intros j Hjk. rewrite Hsrc, Hdst. destruct (decide (j = k)) as [->|Hn].
        * rewrite list_lookup_insert by lia. done.
        * rewrite list_lookup_insert_ne by done. apply Hj. lia.
      + exists m'. split; [|split; [by rewrite E1|split; [by rewrite E2; cbn; rewrite insert_length|split; [by rewrite E3, Hdst, insert_length|by rewrite <- Hsrc]]]].
        eapply rtc_l; [|exact R]. apply irel_step; [done|]. cbn [i_step]. replace (k <? h_len h)%nat with true by lia. by rewrite Ht.
  Qed.
  Lemma table_of_inner m m' h : t_inner m' = t_inner m -> table_of m' h = table_of m h.
  Proof. intros E. unfold table_of, i_arr. by rewrite E. Qed.
  Lemma ext_put m i h m0 : (h_arr h < length (t_outer m))%nat -> (h_len h < length (o_arr m (h_arr h)))%nat ->
    t_inner m = t_inner m0 -> h_len h = h_len (t_hdr m0) -> (h_len (t_hdr m0) <= length (o_arr m0 (h_arr (t_hdr m0))))%nat ->
    (forall j, (j < h_len h)%nat -> o_arr m (h_arr h) !! j = o_arr m0 (h_arr (t_hdr m0)) !! j) ->
    exists m', rtc irel (m, IExtPut i h) (m', if (S i <=? col)%nat then IExt (S i) else IPick) /\
      tables_of m' = tables_of m0 ++ [[]] /\ h_len (t_hdr m') = S (h_len (t_hdr m0)).
  Proof.
    intros Ha Hl Hi Hh Hl0 Hj. eexists. split.
    - eapply rtc_l; [apply irel_step; [done|reflexivity]|]. eapply rtc_l; [apply irel_step; [done|reflexivity]|]. apply rtc_refl.
    - split; [|cbn; lia]. apply list_eq. intros c. rewrite tables_lookup. cbn [t_hdr h_len h_arr].
      change (o_arr (mkTmem ?o ?i' ?h') ?a) with (default [] (o !! a)).
      assert (Harr : default [] (t_outer (o_put m (h_arr h) (h_len h) nil_hdr) !! h_arr h) = <[h_len h := nil_hdr]> (o_arr m (h_arr h))).
      { fold (o_arr (o_put m (h_arr h) (h_len h) nil_hdr) (h_arr h)). by rewrite o_arr_put, decide_True by done. }
      rewrite Harr. assert (Hlen : length (tables_of m0) = h_len h) by (unfold tables_of; rewrite map_length, take_length; lia).
      destruct (decide (c < S (h_len h))%nat) as [Hc|Hc].
      + destruct (decide (c = h_len h)) as [->|Hn].
        * rewrite list_lookup_insert by done. rewrite list_lookup_middle by done. done.
        * rewrite list_lookup_insert_ne by done. rewrite lookup_app_l by lia. rewrite Hj by lia. rewrite tables_lookup, decide_True by lia.
          destruct (o_arr m0 _ !! c) as [t|]; [|done]. cbn. f_equal. by apply table_of_inner.
      + symmetry. apply lookup_ge_None_2. rewrite app_length. cbn. lia.
  Qed.
  Lemma ext_one m i own : minv [] own m ->
    exists m', rtc irel (m, IExt i) (m', if (S i <=? col)%nat then IExt (S i) else IPick) /\
      tables_of m' = tables_of m ++ [[]] /\ h_len (t_hdr m') = S (h_len (t_hdr m)).
  Proof.
    intros I. destruct (mi_hdr _ _ _ I) as ((O1 & _) & _ & O3).
    destruct (h_len (t_hdr m) <? length (o_arr m (h_arr (t_hdr m))))%nat eqn:Ec.
    - destruct (ext_put m i (t_hdr m) m) as (m' & R & Q); [done|lia|done|done|done|done|]. exists m'. split; [|done].
      eapply rtc_l; [|exact R]. apply irel_step; [done|]. cbn [i_step]. by rewrite Ec.
    - set (n := room grow (length (o_arr m (h_arr (t_hdr m)))) (S (h_len (t_hdr m)))).
      set (m1 := o_new m (replicate n nil_hdr)). set (a := length (t_outer m)).
      assert (Hold : o_arr m1 (h_arr (t_hdr m)) = o_arr m (h_arr (t_hdr m))) by (unfold m1; rewrite o_arr_new; by rewrite decide_False by lia).
      assert (Hnew : o_arr m1 a = replicate n nil_hdr) by (unfold m1; rewrite o_arr_new; by rewrite decide_True by done).
      assert (Hn : (S (h_len (t_hdr m)) <= n)%nat) by (unfold n, room; lia).
      destruct (ext_copy (h_len (t_hdr m)) m1 i (t_hdr m) a 0) as (m2 & R & E1 & E2 & E3 & E4);
        [lia|lia|unfold a; lia|unfold m1; cbn; rewrite app_length; cbn; lia|by rewrite Hold|rewrite Hnew, replicate_length; lia|lia|].
      destruct (ext_put m2 i (mkHdr a (h_len (t_hdr m))) m) as (m' & R' & Q); cbn [h_arr h_len].
      + rewrite E2. unfold m1. cbn. rewrite app_length. cbn. unfold a. lia.
      + rewrite E3, Hnew, replicate_length. lia.
      + by rewrite E1.
      + done.
      + done.
      + intros j Hj. by rewrite E4, Hold.
      + exists m'. split; [|done]. eapply rtc_l; [|eapply rtc_transitive; [exact R|exact R']].
        apply irel_step; [done|]. cbn [i_step]. rewrite Ec. done.
  Qed.
  Lemma ext_all d : forall m own, minv [] own m -> (d = col - h_len (t_hdr m))%nat -> (h_len (t_hdr m) <= col)%nat ->
    exists m', rtc irel (m, IExt (h_len (t_hdr m))) (m', IPick) /\ tables_of m' = tables_of m ++ replicate (S d) [] /\ h_len (t_hdr m') = S col.
  Proof.
    induction d as [|d IH]; intros m own I Hd Hle; destruct (ext_one m (h_len (t_hdr m)) own I) as (m1 & R & E1 & E2).
    - exists m1. replace (S (h_len (t_hdr m)) <=? col)%nat with false in R by lia. split; [done|]. split; [done|]. lia.
    - replace (S (h_len (t_hdr m)) <=? col)%nat with true in R by lia.
      destruct (irel_inv _ _ R _ _ I) as (own' & I' & _); [done|].
      destruct (IH m1 own' I') as (m2 & R2 & E3 & E4); [lia|lia|]. exists m2. split; [|split; [|done]].
      + eapply rtc_transitive; [exact R|]. by rewrite <- E2.
      + rewrite E3, E1, <- app_assoc. done.
  Qed.
  Lemma scan_all d : forall m a h k, (d = h_len h - k)%nat -> (k <= h_len h)%nat -> (h_len h <= length (i_arr m (h_arr h)))%nat ->
    rtc irel (m, IScan a h k) (m, match find_pos (drop k (table_of m h)) x k with Some j => IDone j | None => ILen a end).
  Proof.
    induction d as [|d IH]; intros m a h k Hd Hk Hl.
    - rewrite drop_ge by (unfold table_of; rewrite take_length; lia). apply rtc_once, irel_step; [done|]. cbn [i_step find_pos].
      by replace (k <? h_len h)%nat with false by lia.
    - assert (is_Some (i_arr m (h_arr h) !! k)) as [y Hy] by (apply lookup_lt_is_Some_2; lia).
      assert (Hd' : drop k (table_of m h) = y :: drop (S k) (table_of m h)).
      { apply drop_S. unfold table_of. by rewrite lookup_take by lia. }
      rewrite Hd'. cbn [find_pos]. eapply rtc_l.
      + apply irel_step; [done|]. cbn [i_step]. replace (k <? h_len h)%nat with true by lia. rewrite Hy. reflexivity.
      + destruct (equal_to y x); [apply rtc_refl|]. apply IH; lia.
  Qed.
  Lemma app_copy d : forall m a n h b k, (d = h_len h - k)%nat -> (k <= h_len h)%nat -> b <> h_arr h -> (b < length (t_inner m))%nat ->
    (h_len h <= length (i_arr m (h_arr h)))%nat -> (h_len h <= length (i_arr m b))%nat ->
    (forall j, (j < k)%nat -> i_arr m b !! j = i_arr m (h_arr h) !! j) ->
    exists m', rtc irel (m, IAppCopy a n h b k) (m', IAppPut a n (mkHdr b (h_len h))) /\ t_outer m' = t_outer m /\ t_hdr m' = t_hdr m /\
      length (t_inner m') = length (t_inner m) /\ length (i_arr m' b) = length (i_arr m b) /\
      (forall b', b' <> b -> i_arr m' b' = i_arr m b') /\
      (forall j, (j < h_len h)%nat -> i_arr m' b !! j = i_arr m (h_arr h) !! j).
  Proof.
    induction d as [|d IH]; intros m a n h b k Hd Hk Ha Hal L1 L2 Hj.
    - exists m. split; [|repeat (split; [done|])].
      + apply rtc_once. apply irel_step; [done|]. cbn [i_step]. by replace (k <? h_len h)%nat with false by lia.
      + intros j Hjl. apply Hj. lia.
    - assert (is_Some (i_arr m (h_arr h) !! k)) as [t Ht] by (apply lookup_lt_is_Some_2; lia).
      assert (Hsrc : forall b', b' <> b -> i_arr (i_put m b k t) b' = i_arr m b') by (intros b' Hb; rewrite i_arr_put; by rewrite decide_False by (intros [? ?]; congruence)).
      assert (Hdst : i_arr (i_put m b k t) b = <[k := t]> (i_arr m b)) by (rewrite i_arr_put; by rewrite decide_True by done).
      assert (Hs : i_arr (i_put m b k t) (h_arr h) = i_arr m (h_arr h)) by (by apply Hsrc).
      destruct (IH (i_put m b k t) a n h b (S k)) as (m' & R & E1 & E2 & E3 & E4 & E5 & E6); [lia|lia|done|cbn; by rewrite insert_length|by rewrite Hs|by rewrite Hdst, insert_length| |].
      + intros j Hjk. rewrite Hs, Hdst. destruct (decide (j = k)) as [->|Hn].
        * rewrite list_lookup_insert by lia. done.
        * rewrite list_lookup_insert_ne by done. apply Hj. lia.
      + exists m'. split; [|split; [by rewrite E1|split; [by rewrite E2|split; [by rewrite E3; cbn; rewrite insert_length|split; [by rewrite E4, Hdst, insert_length|split]]]]].
        * eapply rtc_l; [|exact R]. apply irel_step; [done|]. cbn [i_step]. replace (k <? h_len h)%nat with true by lia. by rewrite Ht.
        * intros b' Hb. rewrite E5 by done. by apply Hsrc.
        * intros j Hjl. rewrite E6 by done. by rewrite Hs.
  Qed.
  (** [h]: where the element goes; [m0]: the memory before appending. *)
  Lemma app_put m n h m0 own a t : a = h_arr (t_hdr m0) -> minv [] own m0 -> t_outer m = t_outer m0 -> t_hdr m = t_hdr m0 ->
    (col < h_len (t_hdr m0))%nat -> o_arr m0 a !! col = Some t -> h_len h = h_len t ->
    (h_arr h < length (t_inner m))%nat -> (h_len h < length (i_arr m (h_arr h)))%nat ->
    (forall b, b <> h_arr h -> i_arr m b = i_arr m0 b) ->
    (forall j, (j < h_len h)%nat -> i_arr m (h_arr h) !! j = i_arr m0 (h_arr t) !! j) ->
    (forall c t', c <> col -> o_arr m0 a !! c = Some t' -> h_arr t' <> h_arr h) ->
    (h_len t <= length (i_arr m0 (h_arr t)))%nat ->
    exists m', rtc irel (m, IAppPut a n h) (m', IDone n) /\ tables_of m' = <[col := table_of m0 t ++ [x]]> (tables_of m0).
  Proof.
    intros -> I Ho Hh Hc Ht Hl Ha Hlt Hb Hj Hd Hlen. eexists. split.
    - eapply rtc_l; [apply irel_step; [done|reflexivity]|]. eapply rtc_l; [apply irel_step; [done|reflexivity]|]. apply rtc_refl.
    - set (a := h_arr (t_hdr m0)) in *. set (m' := o_put _ a col _).
      destruct (mi_hdr _ _ _ I) as ((O1 & _) & _ & O3). fold a in O1, O3.
      assert (Hm' : t_hdr m' = t_hdr m0) by (unfold m'; cbn; done).
      assert (Harr : o_arr m' a = <[col := mkHdr (h_arr h) (S (h_len h))]> (o_arr m0 a)).
      { unfold m'. rewrite o_arr_put, decide_True.
        - f_equal. unfold o_arr. cbn. by rewrite Ho.
        - split; [done|]. cbn. by rewrite Ho. }
      assert (Hin : forall b, i_arr m' b = i_arr (i_put m (h_arr h) (h_len h) x) b) by done.
      apply list_eq. intros c. rewrite tables_lookup, Hm'. fold a. rewrite Harr.
      assert (Hlt0 : length (tables_of m0) = h_len (t_hdr m0)) by (unfold tables_of; rewrite map_length, take_length; fold a; lia).
      destruct (decide (c < h_len (t_hdr m0))%nat) as [Hcl|Hcl].
      + destruct (decide (c = col)) as [->|Hn].
        * rewrite !list_lookup_insert by lia. cbn. f_equal. unfold table_of. cbn [h_len h_arr]. rewrite Hin, i_arr_put, decide_True by done.
          erewrite take_S_r; [|by apply list_lookup_insert]. f_equal. rewrite take_insert by lia. apply list_eq. intros j.
          destruct (decide (j < h_len h)%nat) as [Hjl|Hjl].
          -- rewrite !lookup_take by lia. by apply Hj.
          -- rewrite !lookup_take_ge by lia. done.
        * rewrite !list_lookup_insert_ne by done. rewrite tables_lookup, decide_True by done. fold a.
          destruct (o_arr m0 a !! c) as [t'|] eqn:Et'; [|done]. cbn. f_equal. unfold table_of. f_equal.
          rewrite Hin, i_arr_put, decide_False; [apply Hb; by eapply Hd|]. intros [He _]. by eapply (Hd c t').
      + symmetry. apply lookup_ge_None_2. rewrite insert_length. lia.
  Qed.
  Lemma app_all m own n : minv [] own m -> (col < h_len (t_hdr m))%nat ->
    exists t m', o_arr m (h_arr (t_hdr m)) !! col = Some t /\ rtc irel (m, IApp (h_arr (t_hdr m)) n) (m', IDone n) /\
      tables_of m' = <[col := table_of m t ++ [x]]> (tables_of m).
  Proof.
    intros I Hc. destruct (mi_hdr _ _ _ I) as ((O1 & _) & _ & O3).
    assert (is_Some (o_arr m (h_arr (t_hdr m)) !! col)) as [t Ht] by (apply lookup_lt_is_Some_2; lia). exists t.
    destruct (mi_weak _ _ _ I _ _ _ Ht) as (W1 & W2 & W3).
    destruct (h_len t <? length (i_arr m (h_arr t)))%nat eqn:Ec.
    - destruct (app_put m n t m own (h_arr (t_hdr m)) t) as (m' & R & E); try done; [lia| |].
      + intros c t' Hn Ht' He. destruct (mi_weak _ _ _ I _ _ _ Ht') as (V1 & V2 & V3). rewrite He in V3.
        assert (Hne : i_arr m (h_arr t) <> []) by (intros E0; rewrite E0 in Ec; cbn in Ec; lia).
        destruct W3 as [?|W3]; [done|]. destruct V3 as [?|V3]; [done|]. lia.
      + exists m'. split; [done|]. split; [|done]. eapply rtc_l; [|exact R]. apply irel_step; [done|]. cbn [i_step]. rewrite Ht, Ec. done.
    - set (k := room grow (length (i_arr m (h_arr t))) (S (h_len t))). set (m1 := i_new m (replicate k [])). set (b := length (t_inner m)).
      assert (Hold : forall b', b' <> b -> i_arr m1 b' = i_arr m b') by (intros b' Hb; unfold m1; rewrite i_arr_new; by rewrite decide_False by done).
      assert (Hnew : i_arr m1 b = replicate k []) by (unfold m1; rewrite i_arr_new; by rewrite decide_True by done).
      assert (Hk : (S (h_len t) <= k)%nat) by (unfold k, room; lia).
      assert (Hbt : h_arr t <> b) by (unfold b; lia).
      destruct (app_copy (h_len t) m1 (h_arr (t_hdr m)) n t b 0) as (m2 & R & E1 & E2 & E3 & E4 & E5 & E6);
        [lia|lia|done|unfold m1; cbn; rewrite app_length; cbn; unfold b; lia|by rewrite Hold|rewrite Hnew, replicate_length; lia|lia|].
      destruct (app_put m2 n (mkHdr b (h_len t)) m own (h_arr (t_hdr m)) t) as (m' & R' & E); cbn [h_arr h_len]; try done.
      + rewrite E3. unfold m1. cbn. rewrite app_length. cbn. unfold b. lia.
      + rewrite E4, Hnew, replicate_length. lia.
      + intros b' Hb. rewrite E5 by done. by apply Hold.
      + intros j Hj. rewrite E6 by done. by rewrite Hold.
      + intros c t' Hn Ht' He. destruct (mi_weak _ _ _ I _ _ _ Ht') as (V1 & _). unfold b in He. lia.
      + exists m'. split; [done|]. split; [|done]. eapply rtc_l; [|eapply rtc_transitive; [exact R|exact R']].
        apply irel_step; [done|]. cbn [i_step]. rewrite Ht, Ec. done.
  Qed.
  Lemma pick_all m own : minv [] own m -> (col < h_len (t_hdr m))%nat ->
    exists m', rtc irel (m, IPick) (m', IDone (intern_at (tables_of m) col x).2) /\ tables_of m' = (intern_at (tables_of m) col x).1.
  Proof.
    intros I Hc. destruct (app_all m own) with (n := length (default [] (tables_of m !! col))) as (t & m' & Ht & R & E); [done|done|].
    destruct (mi_hdr _ _ _ I) as ((O1 & _) & _ & O3).
    destruct (mi_weak _ _ _ I _ _ _ Ht) as (W1 & W2 & W3).
    assert (Hlen : length (tables_of m) = h_len (t_hdr m)) by (unfold tables_of; rewrite map_length, take_length; lia).
    assert (Hx : extend_to (tables_of m) (N.of_nat col) = tables_of m) by (unfold extend_to, lenN; by rewrite (proj2 (N.leb_gt _ _)) by lia).
    assert (Htb : tables_of m !! col = Some (table_of m t)) by (rewrite tables_lookup, decide_True by done; by rewrite Ht).
    unfold intern_at. rewrite Hx, Htb. rewrite Htb in R. change (default [] (Some (table_of m t))) with (table_of m t) in *. cbv zeta.
    assert (Rs : rtc irel (m, IPick) (m, match find_pos (table_of m t) x 0 with Some j => IDone j | None => ILen (h_arr (t_hdr m)) end)).
    { eapply rtc_l; [apply irel_step; [done|]; cbn [i_step]; replace (col <? h_len (t_hdr m))%nat with true by lia; reflexivity|].
      eapply rtc_l; [apply irel_step; [done|]; cbn [i_step]; rewrite Ht; reflexivity|].
      apply (scan_all (h_len t)); lia. }
    destruct (find_pos (table_of m t) x 0) as [j|] eqn:Ef; cbn [fst snd].
    - exists m. done.
    - exists m'. split; [|done]. eapply rtc_transitive; [exact Rs|]. eapply rtc_l; [|exact R].
      apply irel_step; [done|]. cbn [i_step]. rewrite Ht. f_equal. f_equal. unfold table_of. cbn. rewrite take_length. lia.
  Qed.
  Lemma index_all m own : minv [] own m ->
    exists m', rtc irel (m, IStart) (m', IDone (intern_at (tables_of m) col x).2) /\ tables_of m' = (intern_at (tables_of m) col x).1.
  Proof.
    intros I. destruct (mi_hdr _ _ _ I) as ((O1 & _) & _ & O3).
    assert (Hlen : length (tables_of m) = h_len (t_hdr m)) by (unfold tables_of; rewrite map_length, take_length; lia).
    destruct (decide (col < h_len (t_hdr m))%nat) as [Hc|Hc].
    - destruct (pick_all m own I Hc) as (m' & R & E). exists m'. split; [|done]. eapply rtc_l; [|exact R].
      apply irel_step; [done|]. cbn [i_step]. by replace (col <? h_len (t_hdr m))%nat with true by lia.
    - destruct (ext_all (col - h_len (t_hdr m)) m own I) as (m1 & R1 & E1 & E2); [done|lia|].
      destruct (irel_inv _ _ R1 _ _ I) as (own' & I' & _); [done|]. cbn [fst] in I'. destruct (pick_all m1 own' I') as (m' & R & E); [lia|].
      assert (Hx : extend_to (tables_of m) (N.of_nat col) = tables_of m1).
      { rewrite E1. unfold extend_to, lenN. rewrite (proj2 (N.leb_le _ _)) by lia. f_equal. f_equal. lia. }
      assert (Hx1 : extend_to (tables_of m1) (N.of_nat col) = tables_of m1).
      { destruct (mi_hdr _ _ _ I') as ((O1' & _) & _ & O3').
        pose proof (tables_len _ _ _ I') as Hlen1.
        unfold extend_to, lenN. by rewrite (proj2 (N.leb_gt _ _)) by lia. }
      assert (Hi : intern_at (tables_of m1) col x = intern_at (tables_of m) col x) by (unfold intern_at; by rewrite Hx1, Hx).
      rewrite <- Hi. exists m'. split; [|done]. eapply rtc_l; [|eapply rtc_l; [|eapply rtc_transitive; [exact R1|exact R]]].
      + apply irel_step; [done|]. cbn [i_step]. replace (col <? h_len (t_hdr m))%nat with false by lia. reflexivity.
      + apply irel_step; [done|]. cbn [i_step]. by replace (h_len (t_hdr m) <=? col)%nat with true by lia.
  Qed.
End alone.

Lemma tmem_ok_minv m : tmem_ok m <-> exists own, minv [] own m.
Proof.
  split.
  - intros (H0 & H1 & H2 & own & H3). exists own. split; [done| |done]. split; [|cbn; lia]. split; [done|]. cbn. lia.
  - intros [own I]. destruct (mi_hdr _ _ _ I) as ((O1 & _) & _ & O3). split; [apply I|]. split; [done|]. split; [done|].
    exists own. apply (mi_weak _ _ _ I).
Qed.
Lemma index_run grow col x m : tmem_ok m ->
  exists m', rtc (irel grow col x) (m, IStart) (m', IDone (intern_at (tables_of m) col x).2) /\
    tables_of m' = (intern_at (tables_of m) col x).1 /\ tmem_ok m'.
Proof.
  intros [own I]%tmem_ok_minv. destruct (index_all grow col x m own I) as (m' & R & E). exists m'. split; [done|]. split; [done|].
  apply tmem_ok_minv. destruct (irel_inv _ _ _ _ _ R _ _ I) as (own' & I' & _); [done|]. by exists own'.
Qed.
(** One call of AddTagSet by goroutine [i], the others standing still. *)
Section call.
  Context (grow : nat -> nat -> nat) (tags : list tag) (gs : list tagger) (i : nat).
  Definition crel := cstep (t_step grow tags).
  Definition at_g (g : tagger) : list tagger := <[i := g]> gs.
  Lemma crel_step s g s' g' : (i < length gs)%nat -> t_step grow tags s g = Some (s', g') -> crel (s, at_g g) (s', at_g g').
  Proof.
    intros Hi E. exists i. unfold sched_step. cbn [fst snd]. unfold at_g. rewrite list_lookup_insert by done. rewrite E.
    by rewrite list_insert_insert.
  Qed.
  Lemma run_sets (Hi : (i < length gs)%nat) id names ids todo rs c : names_to_ids tags names = Ok ids ->
    forall a b, rtc (irel grow (N.to_nat (set_col ids)) (go_sort ids)) a b -> forall s, s_sets s = a.1 ->
    rtc crel (s, at_g (mkTagger (TSets c a.2) ((id, names) :: todo) rs))
      (mkSmem b.1 (s_cols s) (s_items s) (s_words s), at_g (mkTagger (TSets c b.2) ((id, names) :: todo) rs)).
  Proof.
    intros En. induction 1 as [a|a b e [Hon Hs] _ IH]; intros s Es.
    - rewrite <- Es. destruct s. apply rtc_refl.
    - eapply rtc_l; [|apply (IH (mkSmem b.1 (s_cols s) (s_items s) (s_words s))); done]. apply crel_step; [done|].
      unfold t_step. cbn [g_todo g_pc g_res]. rewrite En, Es. destruct a as [m pc]. cbn [fst snd] in *.
      destruct pc; try (by destruct Hon); rewrite Hs; by destruct b.
  Qed.
  Lemma run_cols (Hi : (i < length gs)%nat) id names ids todo rs c : names_to_ids tags names = Ok ids ->
    forall a b, rtc (irel grow (N.to_nat (col_col c)) (go_sort c)) a b -> forall s, s_cols s = a.1 ->
    rtc crel (s, at_g (mkTagger (TCols c a.2) ((id, names) :: todo) rs))
      (mkSmem (s_sets s) b.1 (s_items s) (s_words s), at_g (mkTagger (TCols c b.2) ((id, names) :: todo) rs)).
  Proof.
    intros En. induction 1 as [a|a b e [Hon Hs] _ IH]; intros s Es.
    - rewrite <- Es. destruct s. apply rtc_refl.
    - eapply rtc_l; [|apply (IH (mkSmem (s_sets s) b.1 (s_items s) (s_words s))); done]. apply crel_step; [done|].
      unfold t_step. cbn [g_todo g_pc g_res]. rewrite En, Es. destruct a as [m pc]. cbn [fst snd] in *.
      destruct pc; try (by destruct Hon); rewrite Hs; by destruct b.
  Qed.
End call.
(** What the model of Index does, in the same terms. *)
Lemma slice_get_extend (T : list (list (list N))) col : slice_get (extend_to T (N.of_nat col)) (N.of_nat col) =
  Ok (default [] (extend_to T (N.of_nat col) !! col)).
Proof. unfold slice_get. rewrite Nat2N.id. by rewrite extend_to_lookup. Qed.
Lemma sets_intern T ids : lenN ids <> 0 -> tagset_index_index T ids =
  Ok ((intern_at T (N.to_nat (set_col ids)) (go_sort ids)).1, set_num (go_sort ids) (intern_at T (N.to_nat (set_col ids)) (go_sort ids)).2).
Proof.
  intros Hne. unfold tagset_index_index, intern_at. rewrite (proj2 (N.eqb_neq _ _) Hne). unfold set_col.
  set (col := N.to_nat (lenN ids - 1)). assert (Hcol : lenN ids - 1 = N.of_nat col) by lia. rewrite Hcol. clearbody col.
  cbv zeta. rewrite slice_get_extend. cbn [mbind res_bind]. unfold tagset_table_index. rewrite (proj2 (N.eqb_neq _ _) Hne).
  unfold table_index, table_find. unfold mbind. cbn [res_bind]. set (t := default [] _).
  assert (Hc : combine16 (wrap16 (N.of_nat col)) = combine16 (wrap16 (set_col (go_sort ids)))).
  { unfold set_col. rewrite go_sort_lenN. by rewrite Hcol. }
  unfold set_num. rewrite <- Hc. rewrite ?Nat2N.id.
  destruct (find_pos t (go_sort ids) 0) as [j|]; cbn [fst snd]; [|done].
  f_equal. f_equal. rewrite list_insert_id; [done|]. unfold t. by rewrite extend_to_lookup.
Qed.
Lemma cols_intern T c : lenN c <> 0 -> variants_index_index T c =
  Ok ((intern_at T (N.to_nat (col_col c)) (go_sort c)).1, col_num c (intern_at T (N.to_nat (col_col c)) (go_sort c)).2).
Proof.
  intros Hne. unfold variants_index_index, intern_at. rewrite (proj2 (N.eqb_neq _ _) Hne). cbv zeta. rewrite go_sort_lenN. fold (col_col c).
  unfold col_num. set (col := N.to_nat (col_col c)). assert (Hc : col_col c = N.of_nat col) by lia. rewrite Hc.
  rewrite slice_get_extend. cbn [mbind res_bind]. unfold variants_table_index. rewrite go_sort_lenN, (proj2 (N.eqb_neq _ _) Hne).
  unfold table_index, table_find. unfold mbind. cbn [res_bind]. rewrite go_sort_idem. set (t := default [] _). rewrite ?Nat2N.id.
  destruct (find_pos t (go_sort c) 0) as [j|]; cbn [fst snd]; [|done].
  f_equal. f_equal. rewrite list_insert_id; [done|]. unfold t. by rewrite extend_to_lookup.
Qed.
(** A call of AddTagSet that is not interrupted does what the sequential model says. *)
Lemma call_alone grow ix s gs i id names todo rs ix' r :
  gs !! i = Some (mkTagger TNext ((id, names) :: todo) rs) -> smem_ok s ->
  node_add_tag_set (mem_index ix s) id names = (ix', r) -> r <> Panic ->
  exists s', rtc (cstep (t_step grow (ix_tags ix))) (s, gs) (s', <[i := mkTagger TNext todo (rs ++ [r])]> gs) /\
    smem_ok s' /\ mem_index ix s' = ix'.
Proof.
  intros Hg [Ok1 Ok2] E Hr. set (tags := ix_tags ix).
  assert (Hi : (i < length gs)%nat) by (by eapply lookup_lt_Some).
  assert (Hgs : gs = at_g gs i (mkTagger TNext ((id, names) :: todo) rs)) by (unfold at_g; by rewrite list_insert_id).
  cut (exists s', rtc (crel grow tags) (s, at_g gs i (mkTagger TNext ((id, names) :: todo) rs)) (s', at_g gs i (mkTagger TNext todo (rs ++ [r]))) /\
    smem_ok s' /\ mem_index ix s' = ix'); [by rewrite <- Hgs|].
  pose proof (fun s g s' g' => crel_step grow tags gs i s g s' g' Hi) as Hstep.
  unfold node_add_tag_set in E. change (ix_tags (mem_index ix s)) with tags in E.
  destruct (names_to_ids tags names) as [ids|e|] eqn:En; [|injection E as <- <-|by injection E as <- <-].
  2:{ exists s. split; [|done]. apply rtc_once, Hstep. unfold t_step. cbn [g_todo g_pc g_res]. by rewrite En. }
  unfold get_item in E. change (ix_items (mem_index ix s)) with (s_items s) in E. change (ix_sets (mem_index ix s)) with (tables_of (s_sets s)) in E.
  change (ix_cols (mem_index ix s)) with (tables_of (s_cols s)) in E. change (ix_words (mem_index ix s)) with (s_words s) in E.
  change (ix_children (mem_index ix s)) with (ix_children ix) in E. change (ix_tags (mem_index ix s)) with tags in E.
  destruct (items_get (s_items s) id) as [[it|]|e|] eqn:Eg; [|by injection E as <- <-..].
  assert (Hit : its_list (s_items s) !! N.to_nat id = Some it).
  { unfold items_get in Eg. destruct (_ =? _); [done|]. destruct (_ <=? _); [done|]. unfold slice_get in Eg.
    destruct (its_list (s_items s) !! N.to_nat id); cbn in Eg; congruence. }
  set (todo' := (id, names) :: todo) in *.
  set (after := fun c => TSets c (if (lenN ids =? 0) then IDone 0 else IStart)).
  destruct (variants_get (tables_of (s_cols s)) (it_variants it)) as [col|e|] eqn:Ev; cbn [mbind res_bind] in E.
  2:{ exfalso. rewrite variants_get_at2 in Ev. destruct (_ =? _); [done|]. by destruct (at2 _ _ _). }
  2:{ injection E as <- <-. done. }
  (* reading the collection *)
  assert (R1 : rtc (crel grow tags) (s, at_g gs i (mkTagger TNext todo' rs)) (s, at_g gs i (mkTagger (after col) todo' rs))).
  { eapply rtc_l; [apply Hstep; unfold t_step, todo'; cbn [g_todo g_pc g_res]; rewrite En, Eg; reflexivity|].
    unfold variants_get in Ev.
    destruct ((it_variants it =? 0) || (id32_upper (it_variants it) <? 1)) eqn:Eb.
    - assert (col = []) as ->.
      { destruct (it_variants it =? 0); [congruence|]. cbn in Eb. rewrite Eb in Ev. congruence. }
      apply rtc_once, Hstep. unfold t_step, todo'. cbn [g_todo g_pc g_res]. rewrite En, Hit, Eb. reflexivity.
    - apply orb_false_elim in Eb as [Eb1 Eb2]. rewrite Eb1, Eb2 in Ev. unfold slice_get in Ev.
      destruct (tables_of (s_cols s) !! N.to_nat (id32_upper (it_variants it) - 1)) as [t|] eqn:Et; [|done]. cbn in Ev.
      unfold variants_table_get, slice_get in Ev. destruct (t !! N.to_nat (id32_lower (it_variants it))) as [c|] eqn:Ec; [|done]. injection Ev as ->.
      rewrite tables_lookup in Et. destruct (decide _) as [Hlt|]; [|done].
      destruct (o_arr (s_cols s) (h_arr (t_hdr (s_cols s))) !! N.to_nat (id32_upper (it_variants it) - 1)) as [h|] eqn:Eh; [|done]. injection Et as <-.
      unfold table_of in Ec. apply lookup_take_Some in Ec as [Ec Hlt'].
      eapply rtc_l; [apply Hstep; unfold t_step, todo'; cbn [g_todo g_pc g_res]; rewrite En, Hit, Eb1, Eb2; reflexivity|].
      eapply rtc_l; [apply Hstep; unfold t_step, todo'; cbn [g_todo g_pc g_res]; rewrite En; reflexivity|].
      eapply rtc_l; [apply Hstep; unfold t_step, todo'; cbn [g_todo g_pc g_res]; rewrite En, (proj2 (Nat.ltb_lt _ _) Hlt), Eh; reflexivity|].
      apply rtc_once, Hstep. unfold t_step, todo'. cbn [g_todo g_pc g_res]. rewrite En, (proj2 (Nat.ltb_lt _ _) Hlt'), Ec. reflexivity. }
  destruct (tagset_index_index (tables_of (s_sets s)) ids) as [[sets' sid]|e|] eqn:Es; cycle 1.
  { exfalso. destruct (N.eq_dec (lenN ids) 0) as [E0|E0]; [unfold tagset_index_index in Es; by rewrite E0 in Es|by rewrite sets_intern in Es]. }
  { exfalso. destruct (N.eq_dec (lenN ids) 0) as [E0|E0]; [unfold tagset_index_index in Es; by rewrite E0 in Es|by rewrite sets_intern in Es]. }
  (* indexing the set *)
  assert (R2 : exists s1, rtc (crel grow tags) (s, at_g gs i (mkTagger (after col) todo' rs)) (s1, at_g gs i (mkTagger (TZero (collection_add col sid)) todo' rs)) /\
    tables_of (s_sets s1) = sets' /\ tmem_ok (s_sets s1) /\ s_cols s1 = s_cols s /\ s_items s1 = s_items s /\ s_words s1 = s_words s).
  { destruct (N.eq_dec (lenN ids) 0) as [E0|E0].
    - unfold tagset_index_index in Es. rewrite E0 in Es. cbn in Es. injection Es as <- <-. exists s. split; [|done].
      apply rtc_once, Hstep. unfold t_step, todo', after. cbn [g_todo g_pc g_res]. rewrite En, E0. reflexivity.
    - rewrite sets_intern in Es by done. injection Es as <- <-.
      destruct (index_run grow (N.to_nat (set_col ids)) (go_sort ids) (s_sets s) Ok1) as (m' & R & Em & Om).
      pose proof (run_sets grow tags gs i Hi id names ids todo rs col En _ _ R s eq_refl) as R'. cbn [fst snd] in R'.
      eexists. split.
      + unfold after. rewrite (proj2 (N.eqb_neq _ _) E0). eapply rtc_r; [exact R'|]. apply Hstep.
        unfold t_step. cbn [g_todo g_pc g_res]. rewrite En, (proj2 (N.eqb_neq _ _) E0). reflexivity.
      + cbn [s_sets s_cols s_items s_words]. done. }
  destruct R2 as (s1 & R2 & T1 & O1 & C1 & I1 & W1). set (c := collection_add col sid) in *.
  (* the count of words *)
  set (w' := if it_variants it =? 0 then s_words s + 1 else s_words s).
  set (s2 := mkSmem (s_sets s1) (s_cols s1) (s_items s1) w').
  assert (R3 : rtc (crel grow tags) (s1, at_g gs i (mkTagger (TZero c) todo' rs)) (s2, at_g gs i (mkTagger (TCols c IStart) todo' rs))).
  { eapply rtc_l; [apply Hstep; unfold t_step, todo'; cbn [g_todo g_pc g_res]; rewrite En, I1, Hit; reflexivity|].
    unfold s2, w'. destruct (it_variants it =? 0).
    - eapply rtc_l; [apply Hstep; unfold t_step, todo'; cbn [g_todo g_pc g_res]; rewrite En; reflexivity|].
      apply rtc_once, Hstep. unfold t_step, todo'. cbn [g_todo g_pc g_res]. rewrite En, W1. reflexivity.
    - rewrite <- W1. destruct s1. apply rtc_refl. }
  assert (Hc0 : lenN c <> 0).
  { assert (Hne : c <> []) by apply collection_add_ne. unfold lenN. destruct c; [done|]. cbn. lia. }
  unfold mbind, res_bind in E. fold c in E. rewrite (cols_intern (tables_of (s_cols s)) c Hc0) in E. cbn [res_bind] in E.
  injection E as <- <-.
  destruct (index_run grow (N.to_nat (col_col c)) (go_sort c) (s_cols s2)) as (m' & R & Em & Om); [unfold s2; cbn [s_cols]; by rewrite C1|].
  pose proof (run_cols grow tags gs i Hi id names ids todo rs c En _ _ R s2 eq_refl) as R'. cbn [fst snd] in R'.
  unfold s2 in Em, R'. cbn [s_cols s_sets s_items s_words] in Em, R'. rewrite C1 in Em.
  eexists. split.
  - eapply rtc_transitive; [exact R1|]. eapply rtc_transitive; [exact R2|]. eapply rtc_transitive; [exact R3|].
    eapply rtc_transitive; [exact R'|].
    eapply rtc_l; [apply Hstep; unfold t_step, todo'; cbn [g_todo g_pc g_res]; rewrite En; reflexivity|].
    apply rtc_once, Hstep. unfold t_step, todo'. cbn [g_todo g_pc g_res]. rewrite En. cbn [tail]. reflexivity.
  - split; [done|]. unfold mem_index. cbn [s_sets s_cols s_items s_words]. rewrite Em, T1, I1, C1. done.
Qed.
Lemma call_crash grow ix s gs i id names todo rs ix' :
  gs !! i = Some (mkTagger TNext ((id, names) :: todo) rs) ->
  node_add_tag_set (mem_index ix s) id names = (ix', Panic) ->
  rtc (cstep (t_step grow (ix_tags ix))) (s, gs) (s, <[i := mkTagger TCrash ((id, names) :: todo) rs]> gs).
Proof.
  intros Hg E. set (tags := ix_tags ix).
  assert (Hi : (i < length gs)%nat) by (by eapply lookup_lt_Some).
  assert (Hgs : gs = at_g gs i (mkTagger TNext ((id, names) :: todo) rs)) by (unfold at_g; by rewrite list_insert_id).
  cut (rtc (crel grow tags) (s, at_g gs i (mkTagger TNext ((id, names) :: todo) rs)) (s, at_g gs i (mkTagger TCrash ((id, names) :: todo) rs))); [by rewrite <- Hgs|].
  pose proof (fun s g s' g' => crel_step grow tags gs i s g s' g' Hi) as Hstep.
  unfold node_add_tag_set in E. change (ix_tags (mem_index ix s)) with tags in E.
  destruct (names_to_ids tags names) as [ids|e|] eqn:En; [|done|].
  2:{ apply rtc_once, Hstep. unfold t_step. cbn [g_todo g_pc g_res]. by rewrite En. }
  unfold get_item in E. change (ix_items (mem_index ix s)) with (s_items s) in E. change (ix_sets (mem_index ix s)) with (tables_of (s_sets s)) in E.
  change (ix_cols (mem_index ix s)) with (tables_of (s_cols s)) in E.
  destruct (items_get (s_items s) id) as [[it|]|e|] eqn:Eg.
  2-4: apply rtc_once, Hstep; unfold t_step; cbn [g_todo g_pc g_res]; rewrite En, Eg; reflexivity.
  assert (Hit : its_list (s_items s) !! N.to_nat id = Some it).
  { unfold items_get in Eg. destruct (_ =? _); [done|]. destruct (_ <=? _); [done|]. unfold slice_get in Eg.
    destruct (its_list (s_items s) !! N.to_nat id); cbn in Eg; congruence. }
  destruct (variants_get (tables_of (s_cols s)) (it_variants it)) as [col|e|] eqn:Ev.
  { exfalso. unfold mbind, res_bind in E. destruct (tagset_index_index (tables_of (s_sets s)) ids) as [[sets' sid]|e|] eqn:Es.
    - destruct (N.eq_dec (lenN (collection_add col sid)) 0) as [E0|E0].
      + unfold lenN in E0. pose proof (collection_add_ne col sid). destruct (collection_add col sid); [done|]. cbn in E0. lia.
      + rewrite cols_intern in E by done. done.
    - destruct (N.eq_dec (lenN ids) 0) as [E0|E0]; [unfold tagset_index_index in Es; by rewrite E0 in Es|by rewrite sets_intern in Es].
    - destruct (N.eq_dec (lenN ids) 0) as [E0|E0]; [unfold tagset_index_index in Es; by rewrite E0 in Es|by rewrite sets_intern in Es]. }
  { exfalso. rewrite variants_get_at2 in Ev. destruct (_ =? _); [done|]. by destruct (at2 _ _ _). }
  clear E. eapply rtc_l; [apply Hstep; unfold t_step; cbn [g_todo g_pc g_res]; rewrite En, Eg; reflexivity|].
  unfold variants_get in Ev. destruct (it_variants it =? 0) eqn:Eb1; [done|]. destruct (id32_upper (it_variants it) <? 1) eqn:Eb2; [done|].
  eapply rtc_l; [apply Hstep; unfold t_step; cbn [g_todo g_pc g_res]; rewrite En, Hit, Eb1, Eb2; reflexivity|].
  eapply rtc_l; [apply Hstep; unfold t_step; cbn [g_todo g_pc g_res]; rewrite En; reflexivity|].
  unfold slice_get in Ev. rewrite tables_lookup in Ev.
  destruct (decide (N.to_nat (id32_upper (it_variants it) - 1) < h_len (t_hdr (s_cols s)))%nat) as [Hlt|Hlt].
  2:{ apply rtc_once, Hstep. unfold t_step. cbn [g_todo g_pc g_res]. rewrite En, (proj2 (Nat.ltb_ge _ _)) by lia. reflexivity. }
  destruct (o_arr (s_cols s) (h_arr (t_hdr (s_cols s))) !! N.to_nat (id32_upper (it_variants it) - 1)) as [h|] eqn:Eh.
  2:{ apply rtc_once, Hstep. unfold t_step. cbn [g_todo g_pc g_res]. rewrite En, (proj2 (Nat.ltb_lt _ _) Hlt), Eh. reflexivity. }
  eapply rtc_l; [apply Hstep; unfold t_step; cbn [g_todo g_pc g_res]; rewrite En, (proj2 (Nat.ltb_lt _ _) Hlt), Eh; reflexivity|].
  cbn in Ev. unfold variants_table_get, slice_get in Ev. destruct (table_of (s_cols s) h !! N.to_nat (id32_lower (it_variants it))) as [c|] eqn:Ec; [done|].
  apply rtc_once, Hstep. unfold t_step. cbn [g_todo g_pc g_res]. rewrite En.
  destruct (N.to_nat (id32_lower (it_variants it)) <? h_len h)%nat eqn:El; [|done]. apply Nat.ltb_lt in El.
  unfold table_of in Ec. rewrite lookup_take in Ec by done. by rewrite Ec.
Qed.

Lemma l_C65_whole_call : forall grow ix s gs i id names todo rs ix' r,
  gs !! i = Some (mkTagger TNext ((id, names) :: todo) rs) -> smem_ok s ->
  node_add_tag_set (mem_index ix s) id names = (ix', r) ->
  exists s', smem_ok s' /\
    match r with
    | Panic => rtc (cstep (t_step grow (ix_tags ix))) (s, gs) (s', <[i := mkTagger TCrash ((id, names) :: todo) rs]> gs)
    | _ => rtc (cstep (t_step grow (ix_tags ix))) (s, gs) (s', <[i := mkTagger TNext todo (rs ++ [r])]> gs) /\ mem_index ix s' = ix'
    end.
Proof.
  intros grow ix s gs i id names todo rs ix' r Hg Ho E. destruct r as [u|e|].
  - destruct (call_alone grow ix s gs i id names todo rs ix' (Ok u) Hg Ho E ltac:(done)) as (s' & R & O & M). by exists s'.
  - destruct (call_alone grow ix s gs i id names todo rs ix' (Err e) Hg Ho E ltac:(done)) as (s' & R & O & M). by exists s'.
  - exists s. split; [done|]. by eapply call_crash.
Qed.
Lemma tags_kept ix id names ix' r : node_add_tag_set ix id names = (ix', r) -> ix_tags ix' = ix_tags ix /\ ix_children ix' = ix_children ix.
Proof.
  unfold node_add_tag_set. intros E. destruct (names_to_ids _ _); [|by injection E as <- <-..].
  destruct (get_item _ _) as [[it|]|?|]; [|by injection E as <- <-..].
  destruct (_ ≫= _) as [[[? ?] ?]|?|]; by injection E as <- <-.
Qed.
Lemma l_C65_alone : forall grow ix s calls ix' rs,
  smem_ok s -> mem_index ix s = ix -> tag_all ix calls = (ix', rs) -> ~ In Panic rs ->
  exists s', rtc (cstep (t_step grow (ix_tags ix))) (s, [t_start calls]) (s', [mkTagger TNext [] rs]) /\
    smem_ok s' /\ mem_index ix s' = ix'.
Proof.
  intros grow ix s calls ix' rs Ho Hm E Hp.
  assert (G : forall calls s ix0 ix' rs pre, smem_ok s -> mem_index ix s = ix0 -> tag_all ix0 calls = (ix', rs) -> ~ In Panic rs ->
    exists s', rtc (cstep (t_step grow (ix_tags ix))) (s, [mkTagger TNext calls pre]) (s', [mkTagger TNext [] (pre ++ rs)]) /\
    smem_ok s' /\ mem_index ix s' = ix').
  { clear. induction calls as [|[id names] calls IH]; intros s ix0 ix' rs pre Ho Hm E Hp; cbn [tag_all] in E.
    - injection E as <- <-. exists s. rewrite app_nil_r. split; [apply rtc_refl|done].
    - destruct (node_add_tag_set ix0 id names) as [ix1 r] eqn:E1. destruct (tag_all ix1 calls) as [ix2 rs'] eqn:E2. injection E as <- <-.
      rewrite <- Hm in E1.
      destruct (call_alone grow ix s [mkTagger TNext ((id, names) :: calls) pre] 0 id names calls pre ix1 r eq_refl Ho E1) as (s1 & R1 & O1 & M1).
      { intros ->. apply Hp. by left. }
      destruct (IH s1 ix1 ix2 rs' (pre ++ [r]) O1 M1 E2) as (s2 & R2 & O2 & M2); [intros H; apply Hp; by right|].
      exists s2. split; [|done]. eapply rtc_transitive; [exact R1|]. rewrite <- app_assoc in R2. exact R2. }
  apply (G calls s ix ix' rs []); done.
Qed.

(** ** Tagging with what is there *)
Lemma intern_same T col x n : intern_at T col x = (T, n) -> (col < length T)%nat /\ find_pos (default [] (T !! col)) x 0 = Some n.
Proof.
  unfold intern_at. intros E. pose proof (extend_to_length T col) as L. pose proof (extend_to_lookup T col) as Hx.
  destruct (find_pos _ _ _) as [k|] eqn:Ef.
  - injection E as E ->. rewrite E in *. split; [lia|done].
  - injection E as E _. exfalso.
    assert (L' : length (extend_to T (N.of_nat col)) = length T) by (rewrite <- E at 2; by rewrite insert_length).
    assert (Hc : (col < length T)%nat) by lia.
    assert (Ht : T !! col = Some (default [] (extend_to T (N.of_nat col) !! col) ++ [x])).
    { rewrite <- E. rewrite list_lookup_insert by lia. by rewrite E at 1. }
    rewrite Hx in Ht. cbn in Ht. destruct (T !! col) as [t|]; [|done]. cbn in Ht. injection Ht as Ht. apply (f_equal length) in Ht. rewrite app_length in Ht. cbn in Ht. lia.
Qed.
Section hit.
  Context (grow : nat -> nat -> nat) (col : nat) (x : list N) (m : tmem) (n : nat).
  Context (Hm : tmem_ok m) (Hx : intern_at (tables_of m) col x = (tables_of m, n)).
  Definition hpc (pc : ipc) : Prop :=
    match pc with
    | IStart | IPick => True
    | ITable a => a = h_arr (t_hdr m)
    | IScan a h k => o_arr m (h_arr (t_hdr m)) !! col = Some h /\ (k <= h_len h)%nat /\ find_pos (drop k (table_of m h)) x k = Some n
    | IDone k => k = n
    | _ => False
    end.
  Lemma hit_step pc m' pc' : hpc pc -> i_step grow col x m pc = (m', pc') -> m' = m /\ hpc pc'.
  Proof.
    apply tmem_ok_minv in Hm as [own I]. pose proof (tables_len _ _ _ I) as Hl. apply intern_same in Hx as [Hc Hf]. rewrite Hl in Hc.
    destruct (mi_hdr _ _ _ I) as ((O1 & _) & _ & O3).
    assert (is_Some (o_arr m (h_arr (t_hdr m)) !! col)) as [h Hh] by (apply lookup_lt_is_Some_2; lia).
    rewrite tables_lookup, decide_True, Hh in Hf by done. cbn in Hf. destruct (mi_weak _ _ _ I _ _ _ Hh) as (_ & W & _).
    destruct pc; cbn [hpc i_step]; intros P E; try done; injection E as <- <-; (split; [done|]).
    - rewrite (proj2 (Nat.ltb_lt _ _) Hc). done.
    - rewrite (proj2 (Nat.ltb_lt _ _) Hc). done.
    - subst a. rewrite Hh. cbn [hpc]. split; [done|]. split; [lia|]. done.
    - destruct P as (P1 & P2 & P3). assert (h0 = h) as -> by congruence. destruct (k <? h_len h)%nat eqn:Ek.
      + apply Nat.ltb_lt in Ek. assert (is_Some (i_arr m (h_arr h) !! k)) as [y Hy] by (apply lookup_lt_is_Some_2; lia).
        rewrite Hy. assert (Hd : drop k (table_of m h) = y :: drop (S k) (table_of m h)).
        { apply drop_S. unfold table_of. by rewrite lookup_take by lia. }
        rewrite Hd in P3. cbn [find_pos] in P3. destruct (equal_to y x); cbn [hpc]; [congruence|]. split; [done|]. split; [lia|done].
      + apply Nat.ltb_ge in Ek. rewrite drop_ge in P3 by (unfold table_of; rewrite take_length; lia). done.
    - done.
  Qed.
End hit.

(** What a call does that needs nothing new. *)
Record plan (ix : index) (id : N) (names : list (list N)) (ids : list N) (it : item) (col : list N) (sid : N) (vid : N) (ix1 : index) : Prop := {
  pl_ids : names_to_ids (ix_tags ix) names = Ok ids;
  pl_it : items_get (ix_items ix) id = Ok (Some it);
  pl_col : variants_get (ix_cols ix) (it_variants it) = Ok col;
  pl_sid : tagset_index_index (ix_sets ix) ids = Ok (ix_sets ix, sid);
  pl_vid : variants_index_index (ix_cols ix) (collection_add col sid) = Ok (ix_cols ix, vid);
  pl_new : ix_items ix1 = set_variants (ix_items ix) id vid }.
Lemma known_plan ix id names ix1 u : node_add_tag_set ix id names = (ix1, Ok u) -> ix_sets ix1 = ix_sets ix -> ix_cols ix1 = ix_cols ix ->
  exists ids it col sid vid, plan ix id names ids it col sid vid ix1.
Proof.
  unfold node_add_tag_set. intros E Es Ec. destruct (names_to_ids _ _) as [ids|?|] eqn:En; [|done..].
  unfold get_item in E. destruct (items_get _ _) as [[it|]|?|] eqn:Eg; [|done..].
  destruct (variants_get _ _) as [col|?|] eqn:Ev; [|done..]. unfold mbind, res_bind in E.
  destruct (tagset_index_index _ _) as [[sets sid]|?|] eqn:E1; [|done..].
  destruct (variants_index_index _ _) as [[cols vid]|?|] eqn:E2; [|done..].
  injection E as <- _. cbn in Es, Ec. subst. exists ids, it, col, sid, vid. by split.
Qed.
Lemma items_get_lookup its id it : items_get its id = Ok (Some it) -> its_list its !! N.to_nat id = Some it.
Proof.
  unfold items_get. destruct (_ =? _); [done|]. destruct (_ <=? _); [done|]. unfold slice_get.
  destruct (its_list its !! N.to_nat id); cbn; congruence.
Qed.
Lemma items_get_cong its its' id : its_next its' = its_next its -> its_list its' !! N.to_nat id = its_list its !! N.to_nat id ->
  items_get its' id = items_get its id.
Proof. intros E1 E2. unfold items_get, slice_get. by rewrite E1, E2. Qed.

Section known.
  Context (grow : nat -> nat -> nat) (tags : list tag) (m1 m2 : tmem) (nx : N).
  Context (Hm1 : tmem_ok m1) (Hm2 : tmem_ok m2).
  (** The goroutine [g], which was given [calls], is on its way; [fin] is what the calls lead to. *)
  Definition kpc (its : items) (ixg : index) (pc : tpc) (todo : list (N * list (list N))) : Prop :=
    pc = TNext \/
    exists id names todo' ids it col sid vid ix1, todo = (id, names) :: todo' /\ plan ixg id names ids it col sid vid ix1 /\
      match pc with
      | TVar => True
      | TGet v => v = it_variants it /\ v <> 0 /\ 1 <= id32_upper v
      | TTable v h => v = it_variants it /\ v <> 0 /\ 1 <= id32_upper v /\ h = t_hdr m2
      | TCol v h => v = it_variants it /\ v <> 0 /\ 1 <= id32_upper v /\
          tables_of m2 !! N.to_nat (id32_upper v - 1) = Some (table_of m2 h)
      | TSets c pc => c = col /\
          if (lenN ids =? 0) then pc = IDone 0
          else hpc (N.to_nat (set_col ids)) (go_sort ids) m1 (intern_at (tables_of m1) (N.to_nat (set_col ids)) (go_sort ids)).2 pc
      | TZero c | TCount c | TInc c _ => c = collection_add col sid
      | TCols c pc => c = collection_add col sid /\
          hpc (N.to_nat (col_col c)) (go_sort c) m2 (intern_at (tables_of m2) (N.to_nat (col_col c)) (go_sort c)).2 pc
      | TStore v => v = vid
      | _ => False
      end.
  Definition kginv (s : smem) (calls : list (N * list (list N))) (fin : index * list (res unit)) (g : tagger) : Prop :=
    exists ixg, ix_tags ixg = tags /\ ix_sets ixg = tables_of m1 /\ ix_cols ixg = tables_of m2 /\ its_next (ix_items ixg) = nx /\
      (forall n, In n (calls.*1) -> its_list (s_items s) !! N.to_nat n = its_list (ix_items ixg) !! N.to_nat n) /\
      known ixg (g_todo g) /\ (forall c, In c (g_todo g) -> In c.1 (calls.*1)) /\
      g_res g ++ (tag_all ixg (g_todo g)).2 = fin.2 /\
      (forall n, In n (calls.*1) -> its_list (ix_items (tag_all ixg (g_todo g)).1) !! N.to_nat n = its_list (ix_items fin.1) !! N.to_nat n) /\
      kpc (s_items s) ixg (g_pc g) (g_todo g).
  Lemma known_step s calls fin g s' g' : s_sets s = m1 -> s_cols s = m2 -> its_next (s_items s) = nx -> kginv s calls fin g ->
    t_step grow tags s g = Some (s', g') ->
    s_sets s' = m1 /\ s_cols s' = m2 /\ its_next (s_items s') = nx /\ kginv s' calls fin g' /\
    (forall n, ~ In n (calls.*1) -> its_list (s_items s') !! N.to_nat n = its_list (s_items s) !! N.to_nat n).
  Proof.
    intros S1 S2 Sn (ixg & G1 & G2 & G3 & G4 & G5 & G6 & G7 & G8 & G9 & G10) E.
    destruct g as [pc todo rs]. cbn [g_pc g_todo g_res] in *.
    assert (Hq : forall pc' s1, s_sets s1 = m1 -> s_cols s1 = m2 -> s_items s1 = s_items s -> kpc (s_items s) ixg pc' todo ->
      s_sets s1 = m1 /\ s_cols s1 = m2 /\ its_next (s_items s1) = nx /\ kginv s1 calls fin (mkTagger pc' todo rs) /\
      (forall n, ~ In n (calls.*1) -> its_list (s_items s1) !! N.to_nat n = its_list (s_items s) !! N.to_nat n)).
    { intros pc' s1 E1 E2 E3 K. rewrite E3. split; [done|]. split; [done|]. split; [done|]. split; [|done].
      exists ixg. rewrite E3. done. }
    unfold t_step in E. cbn [g_pc g_todo g_res] in E. destruct todo as [|[id names] todo]; [done|].
    pose proof G6 as K6. cbn [known] in K6. destruct (node_add_tag_set ixg id names) as [ix1 r] eqn:Ea.
    destruct K6 as (Hr & K1 & K2 & K3). destruct (tags_kept _ _ _ _ _ Ea) as [Kt _].
    cbn [tag_all] in G8, G9. rewrite Ea in G8, G9. destruct (tag_all ix1 todo) as [ix2 rs2] eqn:Eall. cbn [fst snd] in G8, G9.
    assert (Hid : In id (calls.*1)) by (apply (G7 (id, names)); by left).
    destruct (names_to_ids tags names) as [ids|e|] eqn:En.
    2:{ (* an unknown name *) injection E as <- <-. cbn [tail].
        assert (ix1 = ixg /\ r = Err e) as [-> ->] by (unfold node_add_tag_set in Ea; rewrite G1, En in Ea; by injection Ea as <- <-).
        split; [done|]. split; [done|]. split; [done|]. split; [|done]. exists ixg. cbn [g_pc g_todo g_res]. rewrite Eall. cbn [fst snd].
        do 5 (split; [done|]). split; [done|]. split; [intros c Hc; apply G7; by right|].
        split; [by rewrite <- app_assoc|]. split; [done|]. by left. }
    2:{ exfalso. unfold node_add_tag_set in Ea. rewrite G1, En in Ea. injection Ea as <- <-. done. }
    assert (exists u, r = Ok u) as [u ->].
    { destruct r as [u|e|]; [by exists u| |done]. exfalso. unfold node_add_tag_set in Ea. rewrite G1, En in Ea.
      destruct (get_item ixg id) as [[it|]|?|]; [|done..].
      unfold mbind, res_bind in Ea. destruct (variants_get _ _) as [col|?|] eqn:Ev; [| |done].
      - destruct (tagset_index_index _ _) as [[sets sid]|?|] eqn:Es; [| |done].
        + destruct (N.eq_dec (lenN (collection_add col sid)) 0) as [E0|E0].
          * unfold lenN in E0. pose proof (collection_add_ne col sid). destruct (collection_add col sid); [done|]. cbn in E0. lia.
          * rewrite cols_intern in Ea by done. done.
        + destruct (N.eq_dec (lenN ids) 0) as [E0|E0]; [unfold tagset_index_index in Es; by rewrite E0 in Es|by rewrite sets_intern in Es].
      - rewrite variants_get_at2 in Ev. destruct (id32_upper _ =? 0); [done|]. by destruct (at2 _ _ _). }
    destruct (known_plan _ _ _ _ _ Ea K1 K2) as (ids' & it & col & sid & vid & P).
    pose proof (pl_ids _ _ _ _ _ _ _ _ _ P) as P1. rewrite G1, En in P1. injection P1 as <-.
    pose proof (pl_it _ _ _ _ _ _ _ _ _ P) as P2. pose proof (items_get_lookup _ _ _ P2) as P2'.
    assert (Hit : its_list (s_items s) !! N.to_nat id = Some it) by (by rewrite G5).
    assert (Hget : items_get (s_items s) id = Ok (Some it)).
    { rewrite <- P2. apply items_get_cong; [by rewrite Sn, G4|]. by rewrite G5. }
    pose proof (pl_col _ _ _ _ _ _ _ _ _ P) as P3. rewrite G3 in P3.
    pose proof (pl_sid _ _ _ _ _ _ _ _ _ P) as P4. rewrite G2 in P4.
    pose proof (pl_vid _ _ _ _ _ _ _ _ _ P) as P5. rewrite G3 in P5.
    assert (Hc0 : lenN (collection_add col sid) <> 0).
    { pose proof (collection_add_ne col sid) as Hne. unfold lenN. destruct (collection_add col sid); [done|]. cbn. lia. }
    rewrite cols_intern in P5 by done. injection P5 as P5 P5'.
    assert (Hhit2 : intern_at (tables_of m2) (N.to_nat (col_col (collection_add col sid))) (go_sort (collection_add col sid)) =
      (tables_of m2, (intern_at (tables_of m2) (N.to_nat (col_col (collection_add col sid))) (go_sort (collection_add col sid))).2)).
    { rewrite <- P5 at 2. by destruct (intern_at _ _ _). }
    assert (Hk : forall pc', match pc' with
      | TVar => True
      | TGet v => v = it_variants it /\ v <> 0 /\ 1 <= id32_upper v
      | TTable v h => v = it_variants it /\ v <> 0 /\ 1 <= id32_upper v /\ h = t_hdr m2
      | TCol v h => v = it_variants it /\ v <> 0 /\ 1 <= id32_upper v /\
          tables_of m2 !! N.to_nat (id32_upper v - 1) = Some (table_of m2 h)
      | TSets c pc => c = col /\
          if (lenN ids =? 0) then pc = IDone 0
          else hpc (N.to_nat (set_col ids)) (go_sort ids) m1 (intern_at (tables_of m1) (N.to_nat (set_col ids)) (go_sort ids)).2 pc
      | TZero c | TCount c | TInc c _ => c = collection_add col sid
      | TCols c pc => c = collection_add col sid /\
          hpc (N.to_nat (col_col c)) (go_sort c) m2 (intern_at (tables_of m2) (N.to_nat (col_col c)) (go_sort c)).2 pc
      | TStore v => v = vid
      | _ => False
      end -> kpc (s_items s) ixg pc' ((id, names) :: todo)).
    { intros pc' H. right. exists id, names, todo, ids, it, col, sid, vid, ix1. done. }
    assert (Hafter : TSets col (if (lenN ids =? 0) then IDone 0 else IStart) = TSets col (if (lenN ids =? 0) then IDone 0 else IStart) ->
      kpc (s_items s) ixg (TSets col (if (lenN ids =? 0) then IDone 0 else IStart)) ((id, names) :: todo)).
    { intros _. apply Hk. split; [done|]. by destruct (_ =? _). }
    specialize (Hafter eq_refl).
    destruct G10 as [->|(id' & names' & todo0 & ids' & it' & col' & sid' & vid' & ix1' & Et & P' & K)].
    { rewrite Hget in E. injection E as <- <-. apply Hq; try done. by apply Hk. }
    injection Et as <- <- <-. pose proof (pl_ids _ _ _ _ _ _ _ _ _ P') as Q1. rewrite G1, En in Q1. injection Q1 as <-.
    pose proof (pl_it _ _ _ _ _ _ _ _ _ P') as Q2. rewrite P2 in Q2. injection Q2 as <-.
    pose proof (pl_col _ _ _ _ _ _ _ _ _ P') as Q3. rewrite G3, P3 in Q3. injection Q3 as <-.
    pose proof (pl_sid _ _ _ _ _ _ _ _ _ P') as Q4. rewrite G2, P4 in Q4. injection Q4 as <-.
    pose proof (pl_vid _ _ _ _ _ _ _ _ _ P') as Q5. rewrite G3, cols_intern in Q5 by done. injection Q5 as _ Q5. rewrite P5' in Q5. subst vid'. clear P'.
    destruct pc as [| |v|v h|v h|c ip|c|c|c w|c ip|v|]; try done.
    - rewrite Hit in E. injection E as <- <-. apply Hq; try done. unfold variants_get in P3.
      destruct (it_variants it =? 0) eqn:E1; cbn [orb]; [injection P3 as <-; done|].
      destruct (id32_upper (it_variants it) <? 1) eqn:E2; [injection P3 as <-; done|].
      apply Hk. apply N.eqb_neq in E1. apply N.ltb_ge in E2. done.
    - injection E as <- <-. apply Hq; try done. apply Hk. rewrite S2. destruct K as (K01 & K02 & K03). done.
    - destruct K as (-> & K01 & K02 & ->). unfold variants_get in P3. rewrite (proj2 (N.eqb_neq _ _) K01), (proj2 (N.ltb_ge _ _) K02) in P3.
      unfold slice_get in P3. rewrite tables_lookup in P3. rewrite S2 in E.
      destruct (decide _) as [Hlt|]; [|done]. rewrite (proj2 (Nat.ltb_lt _ _) Hlt) in E.
      destruct (o_arr m2 _ !! _) as [h|] eqn:Eh; [|done]. injection E as <- <-. apply Hq; try done. apply Hk.
      rewrite tables_lookup, decide_True, Eh by done. done.
    - destruct K as (-> & K01 & K02 & K03). unfold variants_get in P3. rewrite (proj2 (N.eqb_neq _ _) K01), (proj2 (N.ltb_ge _ _) K02) in P3.
      unfold slice_get in P3. rewrite K03 in P3. cbn in P3. unfold variants_table_get, slice_get in P3.
      destruct (table_of m2 h !! _) as [c|] eqn:Ec; [|done]. injection P3 as ->. unfold table_of in Ec. apply lookup_take_Some in Ec as [Ec Hlt].
      rewrite S2, (proj2 (Nat.ltb_lt _ _) Hlt), Ec in E. injection E as <- <-. by apply Hq.
    - destruct K as [-> K]. destruct (lenN ids =? 0) eqn:E0.
      + subst ip. injection E as <- <-. apply Hq; try done. apply Hk. unfold tagset_index_index in P4. rewrite E0 in P4. congruence.
      + apply N.eqb_neq in E0. rewrite sets_intern in P4 by done. injection P4 as P4 P4'.
        assert (Hhit : intern_at (tables_of m1) (N.to_nat (set_col ids)) (go_sort ids) =
          (tables_of m1, (intern_at (tables_of m1) (N.to_nat (set_col ids)) (go_sort ids)).2)).
        { rewrite <- P4 at 2. by destruct (intern_at _ _ _). }
        assert (Hgen : forall m ip', i_step grow (N.to_nat (set_col ids)) (go_sort ids) (s_sets s) ip = (m, ip') ->
          m = m1 /\ kpc (s_items s) ixg (TSets col ip') ((id, names) :: todo)).
        { rewrite S1. intros m ip' Hs. destruct (hit_step grow _ _ m1 _ Hm1 Hhit _ _ _ K Hs) as [-> K']. split; [done|]. apply Hk.
          split; [done|]. first [done|by rewrite (proj2 (N.eqb_neq _ _) E0)]. }
        destruct ip; try (by destruct K);
          try (destruct (i_step _ _ _ _ _) as [m ip'] eqn:Es; destruct (Hgen _ _ eq_refl) as [-> K']; injection E as <- <-; by apply Hq).
        cbn [hpc] in K. subst n. injection E as <- <-. apply Hq; try done. apply Hk. by rewrite P4'.
    - subst c. rewrite Hit in E. injection E as <- <-. apply Hq; try done. apply Hk. by destruct (it_variants it =? 0).
    - subst c. injection E as <- <-. apply Hq; try done. by apply Hk.
    - subst c. injection E as <- <-. apply Hq; try done. by apply Hk.
    - destruct K as [-> K]. set (c := collection_add col sid) in *.
      assert (Hgen : forall m ip', i_step grow (N.to_nat (col_col c)) (go_sort c) (s_cols s) ip = (m, ip') ->
          m = m2 /\ kpc (s_items s) ixg (TCols c ip') ((id, names) :: todo)).
      { rewrite S2. intros m ip' Hs. destruct (hit_step grow _ _ m2 _ Hm2 Hhit2 _ _ _ K Hs) as [-> K']. split; [done|]. by apply Hk. }
      destruct ip; try (by destruct K);
        try (destruct (i_step _ _ _ _ _) as [m ip'] eqn:Es; destruct (Hgen _ _ eq_refl) as [-> K']; injection E as <- <-; by apply Hq).
      cbn [hpc] in K. subst n. injection E as <- <-. apply Hq; try done. apply Hk. done.
    - subst v. injection E as <- <-. cbn [s_sets s_cols s_items set_variants its_next its_list tail]. split; [done|]. split; [done|]. split; [done|].
      split.
      + exists ix1. cbn [g_pc g_todo g_res s_items set_variants its_list]. rewrite Eall. cbn [fst snd].
        pose proof (pl_new _ _ _ _ _ _ _ _ _ P) as Pn.
        split; [congruence|]. split; [congruence|]. split; [congruence|]. split; [by rewrite Pn|]. split.
        { intros n Hn. rewrite Pn. cbn [set_variants its_list]. destruct (decide (n = id)) as [->|Hne].
          - rewrite !list_lookup_alter. by rewrite G5.
          - rewrite !list_lookup_alter_ne by lia. by apply G5. }
        split; [done|]. split; [intros c Hc; apply G7; by right|].
        split; [destruct u; by rewrite <- app_assoc|]. split; [done|]. by left.
      + intros n Hn. rewrite list_lookup_alter_ne; [done|]. intros He. apply Hn. by replace n with id by lia.
  Qed.
End known.
Lemma l_C65_known_sets : forall grow ix s callss c,
  smem_ok s -> mem_index ix s = ix ->
  (forall i j calls calls' n, i <> j -> callss !! i = Some calls -> callss !! j = Some calls' -> In n calls.*1 -> ~ In n calls'.*1) ->
  (forall calls, In calls callss -> known ix calls) ->
  rtc (cstep (t_step grow (ix_tags ix))) (s, map t_start callss) c ->
  s_sets c.1 = s_sets s /\ s_cols c.1 = s_cols s /\
  forall i g calls, c.2 !! i = Some g -> callss !! i = Some calls ->
    g_pc g <> TCrash /\
    (t_done g -> g_res g = (tag_all ix calls).2 /\
       forall n, In n calls.*1 -> node_tag_sets (mem_index ix c.1) n = node_tag_sets (tag_all ix calls).1 n).
Proof.
  intros grow ix s callss c [Ok1 Ok2] Hm Hdis Hkn Hrtc.
  assert (Et1 : tables_of (s_sets s) = ix_sets ix) by (by rewrite <- Hm).
  assert (Et2 : tables_of (s_cols s) = ix_cols ix) by (by rewrite <- Hm).
  assert (Ei : s_items s = ix_items ix) by (by rewrite <- Hm).
  set (P := fun c : smem * list tagger => s_sets c.1 = s_sets s /\ s_cols c.1 = s_cols s /\ its_next (s_items c.1) = its_next (ix_items ix) /\
    length c.2 = length callss /\
    forall i g calls, c.2 !! i = Some g -> callss !! i = Some calls ->
      kginv (ix_tags ix) (s_sets s) (s_cols s) (its_next (ix_items ix)) c.1 calls (tag_all ix calls) g).
  assert (HP : P c).
  { eapply (ThmConc.rtc_inv _ P); [|exact Hrtc|].
    - intros i s1 gs g s' g' (H1 & H2 & H3 & H4 & H5) Hg Hs. cbn [fst snd] in *.
      assert (is_Some (callss !! i)) as [calls Hcalls] by (apply lookup_lt_is_Some_2; rewrite <- H4; by eapply lookup_lt_Some).
      destruct (known_step grow (ix_tags ix) (s_sets s) (s_cols s) (its_next (ix_items ix)) Ok1 Ok2 s1 calls _ g s' g' H1 H2 H3 (H5 _ _ _ Hg Hcalls) Hs) as (A1 & A2 & A3 & A4 & A5).
      split; [done|]. split; [done|]. split; [done|]. cbn [fst snd]. split; [by rewrite insert_length|].
      intros j gj callsj Hj Hcj. destruct (decide (i = j)) as [<-|Hne].
      + rewrite list_lookup_insert in Hj by (by eapply lookup_lt_Some). injection Hj as <-. assert (callsj = calls) as -> by congruence. done.
      + rewrite list_lookup_insert_ne in Hj by done. destruct (H5 _ _ _ Hj Hcj) as (ixg & B1 & B2 & B3 & B4 & B5 & B).
        exists ixg. split; [done|]. split; [done|]. split; [done|]. split; [done|]. split; [|exact B].
        intros n Hn. rewrite A5; [by apply B5|]. intros Hn'. exact (Hdis i j calls callsj n Hne Hcalls Hcj Hn' Hn).
    - split; [done|]. split; [done|]. cbn [fst snd]. split; [by rewrite Ei|]. split; [by rewrite map_length|].
      intros i g calls Hg Hc. rewrite list_lookup_fmap, Hc in Hg. injection Hg as <-. exists ix. cbn [t_start g_pc g_todo g_res].
      split; [done|]. split; [done|]. split; [done|]. split; [done|]. split; [by rewrite Ei|].
      split; [apply Hkn; apply elem_of_list_In; by eapply elem_of_list_lookup_2|].
      split; [intros c0 H0; apply elem_of_list_In, elem_of_list_fmap; exists c0; split; [done|by apply elem_of_list_In]|].
      split; [done|]. split; [done|]. by left. }
  destruct HP as (H1 & H2 & H3 & H4 & H5). split; [done|]. split; [done|]. intros i g calls Hg Hc.
  destruct (H5 _ _ _ Hg Hc) as (ixg & B1 & B2 & B3 & B4 & B5 & B6 & B7 & B8 & B9 & B10). split.
  - intros E. rewrite E in B10. destruct B10 as [?|(? & ? & ? & ? & ? & ? & ? & ? & ? & _ & _ & [])]. done.
  - intros [D1 D2]. rewrite D2 in *. cbn [tag_all fst snd] in *. rewrite app_nil_r in B8. split; [done|]. intros n Hn.
    assert (Hfin : forall l ix0, ix_tags (tag_all ix0 l).1 = ix_tags ix0 /\ its_next (ix_items (tag_all ix0 l).1) = its_next (ix_items ix0)).
    { clear. induction l as [|[id names] l IH]; intros ix0; [done|]. cbn [tag_all].
      destruct (node_add_tag_set ix0 id names) as [ix1 r] eqn:E. specialize (IH ix1). destruct (tag_all ix1 l) as [ix2 rs]. cbn [fst] in *.
      destruct IH as [I1 I2]. rewrite I1, I2. split; [by apply (tags_kept _ _ _ _ _ E)|].
      unfold node_add_tag_set in E. destruct (names_to_ids _ _); [|by injection E as <- <-..].
      destruct (get_item _ _) as [[it|]|?|]; [|by injection E as <- <-..].
      destruct (_ ≫= _) as [[[? ?] ?]|?|]; by injection E as <- <-. }
    assert (Htab : forall l ix0, known ix0 l -> ix_sets (tag_all ix0 l).1 = ix_sets ix0 /\ ix_cols (tag_all ix0 l).1 = ix_cols ix0).
    { clear. induction l as [|[id names] l IH]; intros ix0 K; [done|]. cbn [tag_all known] in *.
      destruct (node_add_tag_set ix0 id names) as [ix1 r] eqn:E. destruct K as (_ & K1 & K2 & K3). specialize (IH ix1 K3).
      destruct (tag_all ix1 l) as [ix2 rs]. cbn [fst] in *. destruct IH as [I1 I2]. by rewrite I1, I2. }
    destruct (Hfin calls ix) as [F1 F2]. destruct (Htab calls ix) as [F3 F4].
    { apply Hkn, elem_of_list_In. by eapply elem_of_list_lookup_2. }
    unfold node_tag_sets, get_item.
    rewrite (items_get_cong (ix_items (tag_all ix calls).1) (ix_items (mem_index ix c.1)) n).
    2:{ rewrite F2. done. }
    2:{ cbn [mem_index ix_items]. rewrite B5 by done. by apply B9. }
    change (ix_cols (mem_index ix c.1)) with (tables_of (s_cols c.1)). rewrite F4, H2, Et2.
    assert (Hrs : forall l, resolve_sets (mem_index ix c.1) l = resolve_sets (tag_all ix calls).1 l).
    { induction l as [|k l IH]; [done|]. cbn [resolve_sets]. rewrite F3, F1. cbn [mem_index ix_sets ix_tags]. rewrite H1, Et1.
      destruct (tagset_get _ _); [|done]. f_equal. apply IH. }
    destruct (items_get _ n) as [[it|]|?|]; try done. unfold mbind, res_bind.
    destruct (variants_get (ix_cols ix) (it_variants it)) as [col|?|]; try done. by rewrite Hrs.
Qed.

(** ** The count of words *)
Definition g_left (g : tagger) : nat :=
  (length (g_todo g) - match g_pc g with TCols _ _ | TStore _ | TCrash => 1 | _ => 0 end)%nat.
Lemma some_pair {A B} (a a' : A) (b b' : B) : Some (a, b) = Some (a', b') -> a = a' /\ b = b'.
Proof. by intros [= -> ->]. Qed.
Definition left_ok (s : smem) (g : tagger) (s' : smem) (g' : tagger) : Prop :=
  (g_left g' <= g_left g)%nat /\
  match g_pc g with
  | TInc c w => (s_words s' = s_words s /\ g_pc g' = TNext) \/ (s_words s' = s_words s /\ g_pc g' = TCrash) \/ (s_words s' = w + 1 /\ g_pc g' = TCols c IStart /\ (S (g_left g') <= g_left g)%nat)
  | _ => s_words s' = s_words s
  end /\
  match g_pc g' with TInc c w => w = s_words s | _ => True end.
Definition late (pc : tpc) : nat := match pc with TCols _ _ | TStore _ | TCrash => 1 | _ => 0 end.
Definition calm (pc : tpc) : Prop := match pc with TInc _ _ => False | _ => True end.
Lemma left_calm s g s' g' : s_words s' = s_words s -> g_todo g' = g_todo g -> (late (g_pc g) <= late (g_pc g'))%nat ->
  calm (g_pc g') -> calm (g_pc g) -> left_ok s g s' g'.
Proof.
  intros H1 H2 H3 H4 H5. unfold left_ok, g_left. rewrite H2. fold (late (g_pc g)) (late (g_pc g')). split; [lia|].
  split; [by destruct (g_pc g)|by destruct (g_pc g')].
Qed.
Lemma t_step_left grow tags s g s' g' : t_step grow tags s g = Some (s', g') -> left_ok s g s' g'.
Proof.
  destruct g as [pc todo rs]. unfold t_step. cbn [g_pc g_todo g_res]. destruct todo as [|[id names] todo]; [done|].
  intros E. destruct (names_to_ids tags names) as [ids|e|].
  - destruct pc as [| |v|v h|v h|c ip|c|c|c w|c ip|v|].
    + apply some_pair in E as [<- <-]. destruct (items_get _ _) as [[?|]|?|]; (apply left_calm; [done|done|cbn; lia|done|done]).
    + destruct (its_list (s_items s) !! N.to_nat id) as [it|]; apply some_pair in E as [<- <-]; (apply left_calm; [done|done|cbn [late g_pc]; lia| |done]); [|done].
      cbn [g_pc]. by destruct (_ || _).
    + apply some_pair in E as [<- <-]. apply left_calm; [done|done|cbn [late g_pc]; lia|done|done].
    + apply some_pair in E as [<- <-]. apply left_calm; [done|done|cbn [late g_pc]; lia| |done]. cbn [g_pc]. destruct (_ <? _)%nat; [|done]. by destruct (o_arr _ _ !! _).
    + apply some_pair in E as [<- <-]. apply left_calm; [done|done|cbn [late g_pc]; lia| |done]. cbn [g_pc]. destruct (_ <? _)%nat; [|done]. by destruct (i_arr _ _ !! _).
    + destruct ip; try (destruct (i_step _ _ _ _ _) as [m ip']); apply some_pair in E as [<- <-]; (apply left_calm; [done|done|cbn [late g_pc]; lia|done|done]).
    + destruct (its_list (s_items s) !! N.to_nat id) as [it|]; apply some_pair in E as [<- <-]; (apply left_calm; [done|done|cbn [late g_pc]; lia| |done]); [|done].
      cbn [g_pc]. by destruct (_ =? _).
    + apply some_pair in E as [<- <-]. unfold left_ok, g_left. cbn [g_pc g_todo]. split; [lia|]. done.
    + apply some_pair in E as [<- <-]. unfold left_ok, g_left. cbn [g_pc g_todo length s_words]. split; [lia|]. split; [|done]. right. right. split; [done|]. split; [done|]. lia.
    + destruct ip; try (destruct (i_step _ _ _ _ _) as [m ip']); apply some_pair in E as [<- <-]; (apply left_calm; [done|done|cbn [late g_pc]; lia|done|done]).
    + apply some_pair in E as [<- <-]. unfold left_ok, g_left. cbn [g_pc g_todo length s_words tail]. split; [lia|]. done.
    + done.
  - apply some_pair in E as [<- <-]. unfold left_ok, g_left. cbn [g_pc g_todo length s_words tail]. split; [destruct pc; lia|]. split; [|done]. destruct pc; try done. by left.
  - apply some_pair in E as [<- <-]. unfold left_ok, g_left. cbn [g_pc g_todo length s_words tail]. split; [destruct pc; lia|]. split; [|done]. destruct pc; try done. right. by left.
Qed.
Lemma l_C65_count : forall grow tags s callss c,
  rtc (cstep (t_step grow tags)) (s, map t_start callss) c ->
  s_words s <= s_words c.1 <= s_words s + N.of_nat (length (concat callss)).
Proof.
  intros grow tags s callss c Hrtc. set (B := s_words s + N.of_nat (length (concat callss))).
  set (P := fun c : smem * list tagger => s_words s <= s_words c.1 /\ s_words c.1 + N.of_nat (sum_list (map g_left c.2)) <= B /\
    forall g cc w, In g c.2 -> g_pc g = TInc cc w -> s_words s <= w /\ w + N.of_nat (sum_list (map g_left c.2)) <= B).
  assert (HP : P c).
  { eapply (ThmConc.rtc_inv _ P); [|exact Hrtc|].
    - intros i s1 gs g s' g' (H1 & H2 & H3) Hg Hs. cbn [fst snd] in *. destruct (t_step_left _ _ _ _ _ _ Hs) as (L1 & L2 & L3).
      pose proof (sum_list_insert i (g_left g) (g_left g') (map g_left gs)) as Hsum.
      rewrite list_lookup_fmap, Hg in Hsum. specialize (Hsum eq_refl). rewrite <- (list_fmap_insert g_left) in Hsum.
      fold (map g_left (<[i := g']> gs)) in *. unfold P. cbn [fst snd].
      change (g_left <$> <[i := g']> gs) with (map g_left (<[i := g']> gs)) in Hsum.
      assert (Hin : In g gs) by (apply elem_of_list_In; by eapply elem_of_list_lookup_2).
      assert (Hold : forall g1 cc w, In g1 (<[i := g']> gs) -> g_pc g1 = TInc cc w -> s_words s <= w /\ w + N.of_nat (sum_list (map g_left (<[i := g']> gs))) <= B).
      { intros g1 cc w Hin1 Hpc. apply elem_of_list_In, elem_of_list_lookup in Hin1 as [j Hj].
        apply list_lookup_insert_Some in Hj as [(<- & <- & _)|[_ Hj]].
        - rewrite Hpc in L3. subst w. lia.
        - assert (Hin2 : In g1 gs) by (apply elem_of_list_In; by eapply elem_of_list_lookup_2). destruct (H3 _ _ _ Hin2 Hpc) as [? ?]. lia. }
      destruct (g_pc g) eqn:Epc; try (rewrite L2; split; [done|]; split; [lia|done]).
      destruct (H3 _ _ _ Hin Epc) as [B1 B2].
      destruct L2 as [[L2 _]|[[L2 _]|(L2 & _ & L4)]]; rewrite L2; (split; [lia|]); (split; [lia|done]).
    - split; [done|]. cbn [fst snd]. assert (Hz : forall l, sum_list (map g_left (map t_start l)) = length (concat l)).
      { induction l as [|a l IH]; [done|]. cbn [map concat]. rewrite app_length, <- IH. change (sum_list (?x :: ?y)) with (x + sum_list y)%nat.
        unfold g_left at 1. cbn. lia. }
      rewrite Hz. unfold B. split; [lia|]. intros g cc w Hg Hpc. apply elem_of_list_In, elem_of_list_fmap in Hg as (calls & -> & _). done. }
  destruct HP as (H1 & H2 & _). unfold B in H2. lia.
Qed.

(** ** A memory for every index *)
Lemma lay_out_ok spare ts : tmem_ok (lay_out spare ts) /\ tables_of (lay_out spare ts) = ts.
Proof.
  set (m := lay_out spare ts).
  assert (Hin : forall i t, ts !! i = Some t -> i_arr m (S i) = t ++ replicate spare []).
  { intros i t Hi. unfold i_arr, m, lay_out. cbn [t_inner lookup list_lookup]. fold (lookup (M := list (list (list N)))).
    change (default [] ((map (fun t => t ++ replicate spare []) ts) !! i) = t ++ replicate spare []). rewrite list_lookup_fmap, Hi. done. }
  assert (Ho : o_arr m 0 = imap (fun i t => mkHdr (S i) (length t)) ts ++ replicate spare nil_hdr) by done.
  assert (Ho' : forall a, a <> 0%nat -> o_arr m a = []) by (intros [|a] Ha; done).
  assert (Hslot : forall c h, o_arr m 0 !! c = Some h -> h = nil_hdr \/ exists t, ts !! c = Some t /\ h = mkHdr (S c) (length t)).
  { intros c h Hc. rewrite Ho in Hc. apply lookup_app_Some in Hc as [Hc|[_ Hc]].
    - right. rewrite list_lookup_imap in Hc. destruct (ts !! c) as [t|]; [|done]. injection Hc as <-. by exists t.
    - left. by apply lookup_replicate in Hc as [-> _]. }
  split.
  - split; [done|]. split; [cbn; lia|]. split.
    { change (length ts <= length (o_arr m 0))%nat. rewrite Ho, app_length, imap_length. lia. }
    exists pred. intros a c h Hc. destruct (decide (a = 0%nat)) as [->|Hne]; [|by rewrite Ho' in Hc].
    apply Hslot in Hc as [->|(t & Ht & ->)].
    + split; [cbn; lia|]. split; [cbn; lia|]. by left.
    + cbn [h_arr h_len pred]. pose proof (lookup_lt_Some _ _ _ Ht). split; [cbn; rewrite map_length; lia|].
      rewrite (Hin _ _ Ht), app_length. split; [lia|by right].
  - apply list_eq. intros c. rewrite tables_lookup. change (h_len (t_hdr m)) with (length ts). change (h_arr (t_hdr m)) with 0%nat.
    destruct (decide (c < length ts)%nat) as [Hc|Hc]; [|symmetry; apply lookup_ge_None_2; lia].
    apply lookup_lt_is_Some_2 in Hc as [t Ht]. rewrite Ho, lookup_app_l by (rewrite imap_length; by eapply lookup_lt_Some).
    rewrite list_lookup_imap, Ht.
    assert (E : table_of m (mkHdr (S c) (length t)) = t).
    { unfold table_of. cbn [h_arr h_len]. rewrite (Hin _ _ Ht). by rewrite take_app. }
    exact (f_equal Some E).
Qed.
Lemma l_C65_layout : forall spare ix, smem_ok (smem_of spare ix) /\ mem_index ix (smem_of spare ix) = ix.
Proof.
  intros spare ix. destruct (lay_out_ok spare (ix_sets ix)) as [A1 A2]. destruct (lay_out_ok spare (ix_cols ix)) as [B1 B2].
  split; [by split|]. unfold mem_index, smem_of. cbn [s_sets s_cols s_items s_words]. rewrite A2, B2. by destruct ix.
Qed.
