(** Proofs about Optimize on an index read from any file (C81). *)
From Coq Require Import ZifyBool ZifyNat ZifyN.
From Verif Require Import Base Storage Bin Utf8 Tags TagSets Variants Items Index Spec Hist
  BaseFacts BinFacts CodecFacts Intern SpecFacts TrieFacts NoteFacts OptFacts HistFacts QueryFacts ThmConc ThmDisk Foreign ThmForeign FileSpec ThmFile Share ThmShare Tidy.
From stdpp Require Import list gmap.
Open Scope N_scope.

(** ** One collection is put into the new tables *)
Lemma idx_one m new a : deref m a <> [] -> lenN (deref m a) <= 65535 ->
  let c := (length (deref m a) - 1)%nat in
  exists t t' k b, extend_to new (N.of_nat c) !! c = Some t /\
    (t' = t /\ (k < length t)%nat \/ t' = t ++ [a] /\ k = length t /\ go_sort (deref m a) ∉ map (deref (h_sort m a)) t) /\
    t' !! k = Some b /\ deref (h_sort m a) b = go_sort (deref m a) /\
    h_variants_index m new a = Ok (h_sort m a, <[c := t']> (extend_to new (N.of_nat c)), combine16 (N.of_nat c + 1) (wrap16 (N.of_nat k))).
Proof.
  intros Hn Hl c. unfold h_variants_index.
  assert (E0 : lenN (deref m a) <> 0) by (destruct (deref m a); [done|rewrite lenN_cons; lia]).
  rewrite (proj2 (N.eqb_neq _ _) E0). cbv zeta.
  assert (E2 : deref (h_sort m a) a = go_sort (deref m a)) by (rewrite deref_sort; by rewrite decide_True).
  assert (Ess : h_sort (h_sort m a) a = h_sort m a) by (apply h_sort_id; rewrite E2; apply go_sort_sorted).
  rewrite E2, go_sort_lenN. rewrite (wrap16_small (lenN (deref m a) - 1)) by lia.
  assert (Ec : lenN (deref m a) - 1 = N.of_nat c) by (unfold c, lenN; lia). rewrite Ec.
  assert (Hlen : (c < length (extend_to new (N.of_nat c)))%nat).
  { unfold extend_to. destruct (_ <=? _) eqn:E; [rewrite app_length, replicate_length|]; unfold lenN in *; lia. }
  apply lookup_lt_is_Some_2 in Hlen as [t Ht]. unfold slice_get. rewrite Nat2N.id, Ht. cbn [mbind res_bind].
  unfold h_table_index. rewrite Ess, E2. cbv zeta.
  rewrite (wrap16_small (N.of_nat c + 1)) by (unfold lenN in *; lia).
  destruct (find_pos _ _ 0) as [k|] eqn:E.
  - apply find_pos_Some in E as [E _]. change (map ?f t) with (f <$> t) in E.
    rewrite list_lookup_fmap in E. destruct (t !! k) as [b|] eqn:Eb; [|done]. cbn in E. injection E as E.
    exists t, t, k, b. split; [done|]. split; [left; split; [done|by eapply lookup_lt_Some]|]. done.
  - apply find_pos_None in E. exists t, (t ++ [a]), (length t), a. split; [done|]. split; [by right|].
    split; [by rewrite lookup_app_r, Nat.sub_diag by lia|]. done.
Qed.

Section build.
  Context (m0 : list (list N)) (cols : list (list nat)) (used : gmap N (list N)).
  Context (Hok : addrs_ok m0 cols).
  Context (Hlen : forall b, within_n cols b -> lenN (deref m0 b) <= 65535).

  (** The array a collection number stands for. *)
  Definition addr_of (id : N) : option nat := atn cols (N.to_nat (id32_upper id) - 1) (N.to_nat (id32_lower id)).
  Definition size_of (id : N) : nat := length (default [] (deref m0 <$> addr_of id)).
  (** The number of the collection at a place of the new tables. *)
  Definition num (c k : nat) : N := combine16 (N.of_nat c + 1) (N.of_nat k).

  Record inv (m : list (list N)) (new : list (list nat)) (repl : list (N * N)) (dn : list N) : Prop := {
    i_len : (length m0 <= length m)%nat;
    i_mem : forall a, (a < length m0)%nat -> deref m a = deref m0 a \/ within_n cols a /\ deref m a = go_sort (deref m0 a);
    i_new : forall c k b, atn new c k = Some b -> within_n cols b /\ deref m b = go_sort (deref m0 b) /\
              length (deref m0 b) = S c /\ exists o, (o, num c k) ∈ repl;
    i_dup : forall c t, new !! c = Some t -> NoDup (map (deref m) t) /\
              (length t <= length (filter (fun id => size_of id = S c) dn))%nat;
    i_size : lenN new <= 65535;
    i_old : repl.*1 = filter (fun id => is_Some (used !! id)) dn;
    i_repl : forall o n, (o, n) ∈ repl -> exists a, addr_of o = Some a /\
              (deref m0 a = [] /\ n = 0 \/
               deref m0 a <> [] /\ exists c k b, (N.of_nat c < 65535) /\ (N.of_nat k < 65536) /\ n = num c k /\
                 atn new c k = Some b /\ deref m b = go_sort (deref m0 a)) }.

  Lemma build_ok known : forall m new repl dn, inv m new repl dn ->
    (forall id, id ∈ known -> id32_upper id <> 0 /\ is_Some (addr_of id)) ->
    (forall c, lenN (filter (fun id => size_of id = S c) (dn ++ known)) <= 65536) ->
    exists m' new' repl', h_opt_build m cols used known new repl = Ok (m', new', repl') /\ inv m' new' repl' (dn ++ known).
  Proof.
    induction known as [|cid known IH]; intros m new repl dn I Hk Hcap.
    { exists m, new, repl. rewrite app_nil_r. done. }
    cbn [h_opt_build].
    assert (Hk' : forall id, id ∈ known -> id32_upper id <> 0 /\ is_Some (addr_of id)) by (intros id H; apply Hk; by right).
    replace (dn ++ cid :: known) with ((dn ++ [cid]) ++ known) in * by (by rewrite <- app_assoc).
    destruct (used !! cid) as [us|] eqn:Eu.
    2:{ apply IH; [|done|done]. destruct I as [I1 I2 I3 I4 Isz I5 I6]. constructor; try done.
        - intros c t Ht. destruct (I4 c t Ht) as [H1 H2]. split; [done|]. rewrite filter_app, app_length. lia.
        - rewrite filter_app, <- I5. rewrite filter_cons, filter_nil, decide_False by (rewrite Eu; by intros [? ?]). by rewrite app_nil_r. }
    destruct (Hk cid ltac:(left)) as [Hu [a Ha]].
    assert (Wa : within_n cols a) by (by eapply atn_within).
    pose proof (within_ok _ _ _ Hok Wa) as La.
    assert (Eg : h_variants_get m cols cid = Ok (m, a)).
    { unfold h_variants_get. destruct (N.eqb_spec cid 0) as [->|_]; [done|]. rewrite (proj2 (N.ltb_ge _ _)) by lia.
      unfold addr_of, atn in Ha. unfold slice_get.
      replace (N.to_nat (id32_upper cid) - 1)%nat with (N.to_nat (id32_upper cid - 1)) in Ha by lia.
      destruct (cols !! _) as [t|]; [|done]. cbn in *. by rewrite Ha. }
    rewrite Eg. cbn [mbind res_bind].
    destruct I as [I1 I2 I3 I4 Isz I5 I6].
    assert (Es : go_sort (deref m a) = go_sort (deref m0 a)).
    { destruct (I2 a La) as [->|[_ ->]]; [done|]. by rewrite go_sort_idem. }
    assert (Hl0 : length (deref m a) = length (deref m0 a)).
    { rewrite <- (go_sort_length (deref m a)), Es. apply go_sort_length. }
    destruct (decide (deref m0 a = [])) as [Hnil|Hnil].
    - assert (Hnil' : deref m a = []) by (apply nil_length_inv; rewrite Hl0, Hnil; done).
      unfold h_variants_index. rewrite Hnil'. cbn [lenN length]. rewrite (proj2 (N.eqb_eq _ _)) by done. cbn [mbind res_bind].
      unfold h_variants_get, h_alloc. rewrite (proj2 (N.eqb_eq 0 0)) by done. cbn [mbind res_bind].
      assert (La' : (a < length m)%nat) by lia.
      rewrite deref_new, deref_app, Hnil' by done. rewrite (proj2 (equal_to_true [] []) eq_refl).
      apply IH; [|done|done]. constructor.
      + rewrite app_length. lia.
      + intros b Hb. rewrite deref_app by lia. by apply I2.
      + intros c k b Hb. destruct (I3 c k b Hb) as (H1 & H2 & H3 & o & H4). pose proof (within_ok _ _ _ Hok H1).
        rewrite deref_app by lia. split; [done|]. split; [done|]. split; [done|]. exists o. apply elem_of_app. by left.
      + intros c t Ht. destruct (I4 c t Ht) as [H1 H2]. split; [|rewrite filter_app, app_length; lia].
        erewrite map_ext_in; [exact H1|]. intros b Hb. apply elem_of_list_In in Hb.
        assert (Hw : exists k, atn new c k = Some b) by (apply elem_of_list_lookup in Hb as [k Hb]; exists k; unfold atn; by rewrite Ht).
        destruct Hw as [k Hw]. destruct (I3 _ _ _ Hw) as [Hw' _]. pose proof (within_ok _ _ _ Hok Hw'). apply deref_app. lia.
      + done.
      + rewrite fmap_app, I5, filter_app. f_equal. rewrite filter_cons, decide_True by (by rewrite Eu). done.
      + intros o n [H|H]%elem_of_app.
        * destruct (I6 o n H) as (a' & Ha' & H'). exists a'. split; [done|]. destruct H' as [H'|[H' (c & k & b & C1 & C2 & C3 & C4 & C5)]]; [by left|].
          right. split; [done|]. exists c, k, b. do 4 (split; [done|]). destruct (I3 _ _ _ C4) as [Hw' _]. pose proof (within_ok _ _ _ Hok Hw').
          rewrite deref_app by lia. done.
        * apply elem_of_list_singleton in H. injection H as -> ->. exists a. split; [done|]. by left.
    - assert (Hnil' : deref m a <> []) by (intros H; apply Hnil, nil_length_inv; rewrite <- Hl0, H; done).
      assert (Hl1 : lenN (deref m a) <= 65535) by (unfold lenN; rewrite Hl0; by apply Hlen).
      destruct (idx_one m new a Hnil' Hl1) as (t & t' & k & b & Ht & Ht' & Hb & Hd & ->). cbn [mbind res_bind].
      set (c := (length (deref m a) - 1)%nat) in *. set (m1 := h_sort m a) in *. set (x1 := extend_to new (N.of_nat c)) in *.
      assert (Hc : N.of_nat c < 65535) by (unfold c, lenN in *; destruct (deref m a); [done|]; cbn [length] in *; lia).
      assert (HSc : length (deref m0 a) = S c) by (rewrite <- Hl0; unfold c; destruct (deref m a); [done|cbn; lia]).
      assert (Hat1 : atn (<[c:=t']> x1) c k = Some b).
      { unfold atn. rewrite list_lookup_insert by (by eapply lookup_lt_Some). done. }
      assert (Hx1 : forall c' t0, x1 !! c' = Some t0 -> new !! c' = Some t0 \/ t0 = []).
      { intros c' t0 H. unfold x1, extend_to in H. destruct (_ <=? _); [|by left].
        apply lookup_app_Some in H as [H|[_ H]]; [by left|]. right. by apply lookup_replicate in H as [-> _]. }
      assert (Hsize : size_of cid = S c) by (unfold size_of; rewrite Ha; cbn; done).
      assert (Hcap1 : lenN (filter (fun id => size_of id = S c) dn) < 65536).
      { specialize (Hcap c). rewrite !filter_app in Hcap. rewrite filter_cons, decide_True in Hcap by done. unfold lenN in *. rewrite !app_length in Hcap. cbn [length] in Hcap. lia. }
      assert (Htl : (length t <= length (filter (fun id => size_of id = S c) dn))%nat).
      { destruct (Hx1 _ _ Ht) as [H| ->]; [by apply I4|cbn; lia]. }
      assert (Hk1 : N.of_nat k < 65536) by (unfold lenN in Hcap1; destruct Ht' as [[_ H]|(_ & -> & _)]; lia).
      rewrite (wrap16_small (N.of_nat k)) by done. fold (num c k).
      assert (Eg1 : h_variants_get m1 (<[c:=t']> x1) (num c k) = Ok (m1, b)).
      { unfold h_variants_get, num. rewrite upper_combine16, lower_combine16 by lia.
        destruct (N.eqb_spec (combine16 (N.of_nat c + 1) (N.of_nat k)) 0) as [E|_].
        { pose proof (upper_combine16 (N.of_nat c + 1) (N.of_nat k) ltac:(lia) ltac:(lia)) as E'. rewrite E in E'. cbn in E'. lia. }
        rewrite (proj2 (N.ltb_ge _ _)) by lia. replace (N.of_nat c + 1 - 1) with (N.of_nat c) by lia. unfold slice_get. rewrite !Nat2N.id.
        unfold atn in Hat1. destruct (<[c:=t']> x1 !! c); [|done]. cbn in *. by rewrite Hat1. }
      rewrite Eg1. cbn [mbind res_bind].
      assert (Hda : deref m1 a = go_sort (deref m a)) by (unfold m1; rewrite deref_sort; by rewrite decide_True).
      rewrite Hda, Hd. rewrite (proj2 (equal_to_true _ _) eq_refl).
      apply IH; [|done|done].
      assert (Dm : forall b, b <> a -> deref m1 b = deref m b) by (intros b' Hb'; unfold m1; rewrite deref_sort; by rewrite decide_False).
      assert (Dnew : forall c' k' b', atn new c' k' = Some b' -> deref m1 b' = deref m b').
      { intros c' k' b' H. destruct (decide (b' = a)) as [->|Hne]; [|by apply Dm]. destruct (I3 _ _ _ H) as (_ & E & _). rewrite Hda, Es, E. done. }
      assert (Hat : forall c' k' b', atn (<[c:=t']> x1) c' k' = Some b' -> atn new c' k' = Some b' \/ (c' = c /\ k' = k /\ b' = a /\ b' = b)).
      { intros c' k' b' H. unfold atn in H. destruct (decide (c' = c)) as [->|Hne].
        - rewrite list_lookup_insert in H by (by eapply lookup_lt_Some). cbn in H.
          assert (Hold : forall k', t !! k' = Some b' -> atn new c k' = Some b').
          { intros k'' H'. destruct (Hx1 _ _ Ht) as [E| ->]; [unfold atn; by rewrite E|done]. }
          destruct Ht' as [[-> _]|(-> & -> & _)]; [left; by apply Hold|].
          apply lookup_app_Some in H as [H|[Hge H]]; [left; by apply Hold|]. right.
          destruct (k' - length t)%nat as [|j] eqn:Ej; [|by destruct j]. cbn in H. injection H as <-.
          rewrite lookup_app_r, Nat.sub_diag in Hb by lia. injection Hb as <-. split; [done|]. split; [lia|done].
        - rewrite list_lookup_insert_ne in H by done. left. unfold atn. destruct (x1 !! c') as [t0|] eqn:E; [|done]. cbn in H.
          destruct (Hx1 _ _ E) as [-> | ->]; [done|done]. }
      assert (Hgr : forall c' k' b', atn new c' k' = Some b' -> atn (<[c:=t']> x1) c' k' = Some b').
      { intros c' k' b' H. apply (extend_atn new (N.of_nat c)) in H. fold x1 in H. unfold atn in *. destruct (decide (c' = c)) as [->|Hne].
        - rewrite list_lookup_insert by (by eapply lookup_lt_Some). rewrite Ht in H. cbn in *.
          destruct Ht' as [[-> _]|(-> & _)]; [done|]. by apply lookup_app_l_Some.
        - by rewrite list_lookup_insert_ne. }
      constructor.
      + unfold m1. rewrite h_sort_length. done.
      + intros b' Hb'. destruct (decide (b' = a)) as [->|Hne]; [|rewrite Dm by done; by apply I2]. right. split; [done|]. by rewrite Hda.
      + intros c' k' b' H. destruct (Hat _ _ _ H) as [H'|(-> & -> & -> & _)].
        * destruct (I3 _ _ _ H') as (H1 & H2 & H3 & o & H4). split; [done|]. rewrite (Dnew _ _ _ H'). split; [done|]. split; [done|].
          exists o. apply elem_of_app. by left.
        * split; [done|]. split; [by rewrite Hda|]. split; [done|]. exists cid. apply elem_of_app. right. by apply elem_of_list_singleton.
      + intros c' t0 H. destruct (decide (c' = c)) as [->|Hne].
        * rewrite list_lookup_insert in H by (by eapply lookup_lt_Some). injection H as <-.
          assert (E1 : map (deref m1) t = map (deref m) t).
          { apply map_ext_in. intros b' Hb'. apply elem_of_list_In, elem_of_list_lookup in Hb' as [k' Hb'].
            destruct (Hx1 _ _ Ht) as [E| ->]; [|done]. apply (Dnew c k'). unfold atn. by rewrite E. }
          assert (N1 : NoDup (map (deref m) t)) by (destruct (Hx1 _ _ Ht) as [E| ->]; [by apply (I4 c)|constructor]).
          rewrite filter_app, app_length. rewrite (filter_cons _ cid), decide_True by done. cbn [length filter list_filter].
          destruct Ht' as [[-> _]|(-> & _ & Hnin)]; [rewrite E1; split; [done|lia]|].
          rewrite app_length, map_app. cbn [map length]. split; [|lia]. apply NoDup_app. split; [by rewrite E1|]. split.
          -- intros y Hy [->|Hy']%elem_of_cons; [|by apply elem_of_nil in Hy']. rewrite Hda in Hy. done.
          -- apply NoDup_singleton.
        * rewrite list_lookup_insert_ne in H by done. destruct (Hx1 _ _ H) as [E| ->]; [|split; [constructor|cbn; lia]].
          destruct (I4 _ _ E) as [H1 H2]. split; [|rewrite filter_app, app_length; lia].
          erewrite map_ext_in; [exact H1|]. intros b' Hb'. apply elem_of_list_In, elem_of_list_lookup in Hb' as [k' Hb'].
          apply (Dnew c' k'). unfold atn. by rewrite E.
      + unfold lenN in *. rewrite insert_length. unfold x1, extend_to. destruct (_ <=? _); [rewrite app_length, replicate_length|]; unfold lenN in *; lia.
      + rewrite fmap_app, I5, filter_app. f_equal. rewrite filter_cons, decide_True by (by rewrite Eu). done.
      + intros o n [H|H]%elem_of_app.
        * destruct (I6 o n H) as (a' & Ha' & H'). exists a'. split; [done|]. destruct H' as [H'|[H' (c' & k' & b' & C1 & C2 & C3 & C4 & C5)]]; [by left|].
          right. split; [done|]. exists c', k', b'. do 3 (split; [done|]). split; [by apply Hgr|]. by rewrite (Dnew _ _ _ C4).
        * apply elem_of_list_singleton in H. injection H as -> ->. exists a. split; [done|]. right. split; [done|].
          exists c, k, b. do 4 (split; [done|]). by rewrite Hd.
  Qed.
End build.

(** ** The numbers and the collections they stand for *)
Lemma filter_all {A} (P : A -> Prop) `{!forall x, Decision (P x)} (l : list A) : Forall P l -> filter P l = l.
Proof. induction 1 as [|x l Hx _ IH]; [done|]. by rewrite filter_cons, decide_True, IH. Qed.
Lemma filter_map_len {A B} (f : A -> B) (P : B -> Prop) `{!forall x, Decision (P x)} (l : list A) :
  length (filter (fun x => P (f x)) l) = length (filter P (map f l)).
Proof. induction l as [|x l IH]; [done|]. cbn [map]. rewrite !filter_cons. destruct (decide (P (f x))); cbn; by rewrite IH. Qed.
Lemma known_contents cols : capN 65535 65536 cols ->
  map (fun v => at2 cols (N.to_nat (id32_upper v) - 1) (N.to_nat (id32_lower v))) (known_id cols) = map Some (concat cols).
Proof.
  intros [Hc Ht]. unfold known_id. set (g := fun v => at2 cols _ _). set (f := fun ti t => imap _ t).
  assert (Hpos : forall ti t i s, cols !! ti = Some t -> t !! i = Some s -> N.of_nat ti < 65535 /\ N.of_nat i < 65536).
  { intros ti t i s H1 H2. eapply Forall_lookup_1 in Ht; [|exact H1]. cbn in Ht. apply lookup_lt_Some in H1, H2. unfold lenN in *. lia. }
  assert (Hf : forall ti t i s, cols !! ti = Some t -> t !! i = Some s ->
    combine16 (wrap16 (wrap16 (N.of_nat ti) + 1)) (wrap16 (N.of_nat i)) = num ti i /\ N.of_nat ti < 65535 /\ N.of_nat i < 65536).
  { intros ti t i s H1 H2. destruct (Hpos _ _ _ _ H1 H2). split; [|done]. unfold num.
    rewrite (wrap16_small (N.of_nat ti)), (wrap16_small (_ + 1)), wrap16_small by lia. done. }
  rewrite filter_all.
  2:{ apply Forall_forall. intros v Hv. apply elem_of_concat_imap in Hv as (ti & t & Hti & Hv).
      apply elem_of_lookup_imap in Hv as (i & s & -> & Hi). destruct (Hf _ _ _ _ Hti Hi) as (-> & H1 & H2).
      unfold num. intros E. pose proof (upper_combine16 (N.of_nat ti + 1) (N.of_nat i) ltac:(lia) ltac:(lia)) as E'.
      rewrite E in E'. cbn in E'. lia. }
  assert (Hcm : forall (l : list (list (list N))), map Some (concat l) = concat (map (map Some) l)).
  { intros l. apply concat_map. }
  rewrite Hcm, concat_map. f_equal.
  change (map (map g) (imap f cols)) with (map g <$> imap f cols). rewrite fmap_imap.
  apply list_eq. intros ti. rewrite list_lookup_imap. change (map (map Some) cols) with (map (@Some (list N)) <$> cols). rewrite list_lookup_fmap.
  destruct (cols !! ti) as [t|] eqn:Et; [|done]. cbn. f_equal. unfold f. change (map g (imap ?h t)) with (g <$> imap h t). rewrite fmap_imap.
  apply list_eq. intros i. rewrite list_lookup_imap. change (map Some t) with (Some <$> t). rewrite list_lookup_fmap.
  destruct (t !! i) as [s|] eqn:Es; [|done]. cbn. f_equal. destruct (Hf _ _ _ _ Et Es) as (-> & H1 & H2).
  unfold g, num. rewrite upper_combine16, lower_combine16 by lia. unfold at2.
  replace (N.to_nat (N.of_nat ti + 1) - 1)%nat with ti by lia. by rewrite Et, Nat2N.id.
Qed.

(** ** Optimize *)
Definition sane (ix : index) : Prop :=
  (forall i it, its_list (ix_items ix) !! i = Some it -> it_variants it <> 0 ->
     it_id it = N.of_nat i /\ it_variants it < 4294967296 /\ variants_get (ix_cols ix) (it_variants it) <> Panic) /\
  capN 65535 65536 (ix_cols ix) /\ Forall (Forall (fun c => lenN c <= 65535)) (ix_cols ix) /\
  forall k : nat, lenN (filter (fun c => length c = k) (concat (ix_cols ix))) <= 65536.

(** What Optimize does to a sane index. *)
Record tidied (ix : index) (ix' : index) : Prop := {
  t_tags : ix_tags ix' = ix_tags ix;
  t_sets : ix_sets ix' = ix_sets ix;
  t_children : ix_children ix' = ix_children ix;
  t_words : ix_words ix' = ix_words ix;
  t_next : its_next (ix_items ix') = its_next (ix_items ix);
  t_count : length (its_list (ix_items ix')) = length (its_list (ix_items ix));
  t_items : forall i it, its_list (ix_items ix) !! i = Some it -> exists it' c c',
     its_list (ix_items ix') !! i = Some it' /\ it_parent it' = it_parent it /\ it_id it' = it_id it /\ it_letter it' = it_letter it /\
     variants_get (ix_cols ix) (it_variants it) = Ok c /\ variants_get (ix_cols ix') (it_variants it') = Ok c' /\
     (c' = c \/ c' = go_sort c) /\ it_variants it' < 4294967296 }.
Record compact (ix : index) : Prop := {
  c_cap : capN 65535 65536 (ix_cols ix);
  c_sorted : forall c t, ix_cols ix !! c = Some t -> NoDup t /\ Forall (fun s => sortedN s /\ length s = S c) t;
  c_used : forall c k s, at2 (ix_cols ix) c k = Some s -> exists i it, its_list (ix_items ix) !! i = Some it /\ it_variants it = num c k }.

Lemma tidy_spec h : fine h -> sane (view h) ->
  exists h', h_optimize h = Ok h' /\ tidied (view h) (view h') /\
    (filter (fun v => used_map (its_list (ix_items (view h))) !! v = None) (known_id (ix_cols (view h))) <> [] -> compact (view h')) /\
    (filter (fun v => used_map (its_list (ix_items (view h))) !! v = None) (known_id (ix_cols (view h))) = [] -> h' = h).
Proof.
  intros [[O1 O2] Hap] (Hit & Hcap & Hl & Hk). unfold h_optimize. cbv zeta.
  change (ix_items (view h)) with (ix_items (hx_ix h)) in *. change (ix_cols (view h)) with (contents (hx_mem h) (hx_cols h)) in *.
  set (l0 := its_list (ix_items (hx_ix h))) in *. set (m0 := hx_mem h) in *. set (cols := hx_cols h) in *.
  set (used := used_map l0) in *. set (known := known_id (contents m0 cols)) in *.
  assert (Hget : forall i it, l0 !! i = Some it -> exists c, variants_get (contents m0 cols) (it_variants it) = Ok c).
  { intros i it H. destruct (decide (it_variants it = 0)) as [->|Hz]; [by exists []|].
    destruct (Hit i it H Hz) as (_ & _ & Hp). rewrite variants_get_at2 in *. destruct (_ =? 0); [by exists []|].
    destruct (at2 _ _ _) as [c|]; [by exists c|done]. }
  assert (Hkn : forall id, id ∈ known <-> exists col, good_col (contents m0 cols) id col) by (intros id; by apply known_id_spec).
  assert (Hv0 : forall i it, l0 !! i = Some it -> it_variants it < 4294967296).
  { intros i it H. destruct (decide (it_variants it = 0)) as [->|Hz]; [done|]. by apply (Hit i it H Hz). }
  destruct (filter _ known) as [|u0 us0] eqn:Eun.
  { exists h. split; [done|]. split; [|done]. constructor; try done. intros i it H. destruct (Hget i it H) as [c Hc].
    exists it, c, c. split; [exact H|]. do 5 (split; [done|]). split; [by left|by eapply Hv0]. }
  assert (Hok : addrs_ok m0 cols) by exact O2.
  assert (Hlen : forall b, within_n cols b -> lenN (deref m0 b) <= 65535).
  { intros b (t & Ht & Hb). rewrite Forall_forall in Hl. specialize (Hl (map (deref m0) t)).
    assert (Hin : map (deref m0) t ∈ contents m0 cols) by (unfold contents; apply elem_of_list_fmap; by exists t).
    specialize (Hl Hin). rewrite Forall_forall in Hl. apply Hl. apply elem_of_list_fmap. by exists b. }
  assert (Hks : forall id, id ∈ known -> id32_upper id <> 0 /\ is_Some (addr_of cols id)).
  { intros id Hid. apply Hkn in Hid as (col & _ & Hu & Hat). split; [done|]. rewrite at2_contents in Hat. unfold addr_of.
    destruct (atn _ _ _); [by eexists|done]. }
  assert (Hcount : forall c, lenN (filter (fun id => size_of m0 cols id = S c) ([] ++ known)) <= 65536).
  { intros c. cbn [app]. specialize (Hk (S c)). unfold lenN in *.
    set (f := fun v => at2 (contents m0 cols) (N.to_nat (id32_upper v) - 1) (N.to_nat (id32_lower v))).
    assert (E : filter (fun id => size_of m0 cols id = S c) known = filter (fun id => length (default [] (f id)) = S c) known).
    { apply list_filter_iff. intros id. unfold size_of, f. rewrite at2_contents. done. }
    assert (E1 : length (filter (fun id => length (default [] (f id)) = S c) known) = length (filter (fun o => length (default [] o) = S c) (map f known)))
      by exact (filter_map_len f (fun o => length (default [] o) = S c) known).
    rewrite E, E1. unfold f. pose proof (known_contents _ Hcap) as E2. fold known in E2. rewrite E2.
    assert (E3 : length (filter (fun o => length (default [] o) = S c) (map Some (concat (contents m0 cols)))) =
                 length (filter (fun s => length s = S c) (concat (contents m0 cols))))
      by (symmetry; exact (filter_map_len Some (fun o => length (default [] o) = S c) (concat (contents m0 cols)))).
    rewrite E3. exact Hk. }
  assert (I0 : inv m0 cols used m0 [] [] []).
  { constructor; [done|intros a Ha; by left|done|done|done|done|]. intros o n H. by apply elem_of_nil in H. }
  destruct (build_ok m0 cols used Hok Hlen known m0 [] [] [] I0 Hks Hcount) as (m & new & repl & -> & I). cbn [mbind res_bind app] in *.
  destruct I as [I1 I2 I3 I4 Isz I5 I6].
  assert (Hpl : placed l0) by (intros i it H Hz; by apply (Hit i it H Hz)).
  assert (Hnd : NoDup (([] : list (N * N)) ++ repl).*1).
  { cbn [app]. rewrite I5. apply NoDup_filter. by apply known_id_NoDup. }
  assert (Hin1 : forall o n, (o, n) ∈ repl -> o ∈ known /\ is_Some (used !! o)).
  { intros o n H. apply (elem_of_list_fmap_1 fst) in H. cbn [fst] in H. rewrite I5 in H. apply elem_of_list_filter in H. tauto. }
  assert (Hnew : forall o n, (o, n) ∈ repl -> exists c, variants_get (contents m0 cols) o = Ok c /\ variants_get (contents m new) n = Ok (go_sort c) /\ n < 4294967296).
  { intros o n H. destruct (I6 o n H) as (a & Ha & H'). destruct (Hin1 _ _ H) as [Ho _]. destruct (Hks _ Ho) as [Hu _].
    exists (deref m0 a). split.
    - rewrite variants_get_at2, (proj2 (N.eqb_neq _ _) Hu), at2_contents. unfold addr_of in Ha. by rewrite Ha.
    - destruct H' as [[-> ->]|[_ (c & k & b & C1 & C2 & -> & C4 & C5)]]; [done|]. split; [|unfold num; apply combine16_lt; lia].
      rewrite variants_get_at2. unfold num. rewrite upper_combine16, lower_combine16 by lia. rewrite (proj2 (N.eqb_neq _ _)) by lia.
      replace (N.to_nat (N.of_nat c + 1) - 1)%nat with c by lia. rewrite Nat2N.id, at2_contents, C4. cbn. by rewrite C5. }
  assert (Hold : forall v c, variants_get (contents m0 cols) v = Ok c -> is_ok (variants_get (contents m cols) v) = true).
  { intros v c H. rewrite variants_get_at2, at2_contents in *. destruct (_ =? 0); [done|]. by destruct (atn _ _ _). }
  destruct (opt_replace_spec (contents m cols) (contents m new) l0 repl l0 []) as (l' & El & Hlen' & Hl').
  - done.
  - done.
  - intros o n H. destruct (Hin1 _ _ H) as [Ho Hus]. destruct (Hnew _ _ H) as (c & H1 & H2 & _). split; [|split; [exact Hus|split]].
    + intros ->. destruct (Hks _ Ho) as [Hu _]. done.
    + by eapply Hold.
    + by rewrite H2.
  - done.
  - intros i it H. right. split; [apply not_elem_of_nil|done].
  - fold used in El. rewrite El. cbn [mbind res_bind app] in *. eexists. split; [done|].
    assert (Hsets : contents m (hx_sets h) = contents m0 (hx_sets h)).
    { apply contents_ext. intros t a Ht Ha. assert (Hw : within_n (hx_sets h) a) by (by exists t).
      destruct (I2 a (within_ok _ _ _ O1 Hw)) as [->|[Hw' _]]; [done|]. exfalso. by eapply Hap. }
    split; [|split; [|done]].
    + constructor; try done. intros i it H. cbn [view hx_mem hx_cols hx_ix ix_items ix_cols set_items its_list].
      destruct (Hl' i it H) as [(n & Hn & Hi)|[Hn Hi]].
      * destruct (Hnew _ _ Hn) as (c & H1 & H2 & H3). exists (with_variants n it), c, (go_sort c). do 6 (split; [done|]). split; [by right|done].
      * destruct (Hget i it H) as [c Hc]. exists it, c, c. do 5 (split; [done|]). split; [|split; [by left|by eapply Hv0]].
        change (ix_cols (view (mkHix m (hx_sets h) new _))) with (contents m new).
        rewrite variants_get_at2 in Hc |- *. destruct (N.eqb_spec (id32_upper (it_variants it)) 0) as [Hu|Hu]; [done|].
        (* a number that stands for a collection is known and used *)
        exfalso. apply Hn. assert (Hz : it_variants it <> 0) by (intros E; apply Hu; by rewrite E).
        rewrite I5. apply elem_of_list_filter. split.
        -- unfold used. rewrite used_map_spec, decide_False by done.
           assert (Hin : N.of_nat i ∈ users l0 (it_variants it)) by (apply users_elem; [done..|]; exists it; by rewrite Nat2N.id).
           destruct (users l0 (it_variants it)); [by apply elem_of_nil in Hin|by eexists].
        -- apply Hkn. destruct (at2 _ _ _) as [col|] eqn:E; [|done]. exists col. split; [by apply (Hit i it H Hz)|]. done.
    + intros _. constructor.
      * change (ix_cols (view (mkHix m (hx_sets h) new ?x))) with (contents m new). split; [unfold lenN; rewrite contents_length; exact Isz|].
        apply Forall_forall. intros t Ht. apply elem_of_list_lookup in Ht as [c Ht]. rewrite contents_lookup in Ht.
        destruct (new !! c) as [t0|] eqn:E; [|done]. cbn in Ht. injection Ht as <-. apply I4 in E as [_ E]. specialize (Hcount c). cbn [app] in Hcount.
        unfold lenN in *. rewrite map_length. lia.
      * intros c t Ht. change (ix_cols (view (mkHix m (hx_sets h) new ?x))) with (contents m new) in Ht. rewrite contents_lookup in Ht.
        destruct (new !! c) as [t0|] eqn:E; [|done]. cbn in Ht. injection Ht as <-. split; [by apply I4 in E as [? _]|].
        apply Forall_forall. intros s Hs. apply elem_of_list_fmap in Hs as (b & -> & Hb). apply elem_of_list_lookup in Hb as [k Hb].
        assert (Hat : atn new c k = Some b) by (unfold atn; by rewrite E). destruct (I3 _ _ _ Hat) as (_ & -> & H3 & _).
        split; [apply go_sort_sorted|by rewrite go_sort_length].
      * intros c k s Hs. change (ix_cols (view (mkHix m (hx_sets h) new ?x))) with (contents m new) in Hs.
        rewrite at2_contents in Hs. destruct (atn new c k) as [b|] eqn:E; [|done].
        destruct (I3 _ _ _ E) as (_ & _ & _ & o & Ho). destruct (Hin1 _ _ Ho) as [Hok' Hus].
        unfold used in Hus. rewrite used_map_spec in Hus. destruct (decide (o = 0)) as [->|Hz]; [by destruct Hus|].
        destruct (users l0 o) as [|id ids] eqn:Eus; [by destruct Hus|].
        assert (Hin : id ∈ users l0 o) by (rewrite Eus; left). apply users_elem in Hin as (it & Hit0 & Ev); [|done..].
        exists (N.to_nat id). destruct (Hl' _ _ Hit0) as [(n & Hn & Hi)|[Hn Hi]].
        -- exists (with_variants n it). split; [done|]. cbn. rewrite Ev in Hn.
           apply elem_of_list_lookup in Hn as [i1 Hn]. apply elem_of_list_lookup in Ho as [i2 Ho].
           assert (i1 = i2) as ->. { eapply (NoDup_lookup _ _ _ o Hnd); cbn [app]; rewrite list_lookup_fmap; [by rewrite Hn|by rewrite Ho]. }
           congruence.
        -- exfalso. apply Hn. rewrite Ev. apply (elem_of_list_fmap_1 fst) in Ho. exact Ho.
Qed.

(** ** In the words of the specification *)
Lemma variants_of c v : v < 4294967296 ->
  variants_get (c_cols c) v = match collection_of c v with Some s => Ok s | None => Panic end.
Proof.
  intros Hv. rewrite variants_get_at2. unfold collection_of, at2. rewrite id32_upper_arith, id32_lower_arith by done.
  destruct (N.ltb_spec v 65536) as [H|H].
  - rewrite N.div_small by done. done.
  - assert (v / 65536 <> 0) by (intros E; apply N.div_small_iff in E; lia). rewrite (proj2 (N.eqb_neq _ _)) by done.
    replace (N.to_nat (v / 65536) - 1)%nat with (N.to_nat (v / 65536 - 1)) by lia. done.
Qed.
Lemma num_at t k : N.of_nat t < 65535 -> N.of_nat k < 65536 -> num t k = number_at t k.
Proof. intros H1 H2. unfold num, number_at. rewrite combine16_arith by lia. lia. Qed.

Lemma number_lt w n p : bytes p -> number w n p -> n < 256 ^ N.of_nat w.
Proof. intros Hb [<- <-]. by apply be_lt. Qed.
Lemma counted_inv {A} w (F : form A) xs p : bytes p -> counted w F xs p ->
  lenN xs < 256 ^ N.of_nat w /\ Forall (fun x => exists q, bytes q /\ F x q) xs.
Proof.
  intros Hb (count & parts & -> & Hc & Hf). apply Forall_app in Hb as [Hb1 Hb2]. split; [exact (number_lt _ _ _ Hb1 Hc)|].
  apply Forall_concat in Hb2. apply Forall_lookup. intros i x Hx. destruct (Forall2_lookup_l _ _ _ _ _ Hf Hx) as (q & Hq & HF).
  exists q. split; [|done]. exact (Forall_lookup_1 _ _ _ _ Hb2 Hq).
Qed.
Lemma file_shape bs ix rest : bytes bs -> index_read index_new bs = Ok (ix, rest) ->
  lenN (ix_cols ix) <= 255 /\ Forall (Forall (fun c => lenN c <= 255 /\ Forall (fun v => v < 4294967296) c)) (ix_cols ix) /\
  Forall (fun it => it_variants it < 4294967296) (its_list (ix_items ix)).
Proof.
  intros Hb H. destruct (proj1 (l_C67_reader index_new bs rest (content_of ix) Hb)) as (p & -> & p1 & p2 & p3 & p4 & -> & _ & _ & H3 & H4); [by exists ix|].
  unfold bytes in Hb. rewrite !Forall_app in Hb. destruct Hb as ((_ & _ & _ & _ & _ & Hb3 & _ & Hb4) & _).
  apply counted_inv in H3 as [L3 F3]; [|done]. apply counted_inv in H4 as [_ F4]; [|done].
  cbn [content_of c_cols c_nodes] in *. change (256 ^ N.of_nat 1) with 256 in L3. split; [lia|]. split.
  - eapply Forall_impl; [exact F3|]. cbn beta. intros t (q & Hq & Ht). apply counted_inv in Ht as [_ Ft]; [|done].
    eapply Forall_impl; [exact Ft|]. cbn beta. intros s (q' & Hq' & Hs). apply counted_inv in Hs as [Ls Fs]; [|done].
    change (256 ^ N.of_nat 1) with 256 in Ls. split; [lia|]. eapply Forall_impl; [exact Fs|]. cbn beta. intros v (q2 & Hq2 & Hv).
    apply number_lt in Hv; [|done]. exact Hv.
  - change (map node_quad ?l) with (node_quad <$> l) in F4. rewrite Forall_fmap in F4. eapply Forall_impl; [exact F4|].
    intros it (q & Hq & q1 & q2 & q3 & q4 & l & -> & _ & _ & _ & _ & Hv). unfold bytes in Hq. rewrite !Forall_app in Hq.
    apply number_lt in Hv; [|tauto]. change (256 ^ N.of_nat 4) with 4294967296 in Hv. exact Hv.
Qed.
Lemma nodes_lookup ix i it : its_list (ix_items ix) !! i = Some it ->
  c_nodes (content_of ix) !! i = Some (it_parent it, it_id it, it_letter it, it_variants it).
Proof. intros H. unfold content_of. cbn [c_nodes]. change (map node_quad ?l) with (node_quad <$> l). by rewrite list_lookup_fmap, H. Qed.
Lemma file_sane bs ix rest : bytes bs -> index_read index_new bs = Ok (ix, rest) ->
  well_numbered (content_of ix) -> room (content_of ix) -> sane ix.
Proof.
  intros Hb H Hw [R1 R2]. destruct (file_shape _ _ _ Hb H) as (H1 & H2 & H3). split; [|split; [|split]].
  - intros i it Hi Hz. destruct (Hw _ _ _ _ _ (nodes_lookup ix i it Hi) Hz) as [E1 E2]. eapply Forall_lookup_1 in H3; [|exact Hi]. cbn beta in H3.
    split; [done|]. split; [done|]. change (ix_cols ix) with (c_cols (content_of ix)). rewrite variants_of by done.
    by destruct (collection_of _ _).
  - split; [lia|exact R1].
  - eapply Forall_impl; [exact H2|]. intros t Ht. eapply Forall_impl; [exact Ht|]. cbn beta. intros s [Hs _]. lia.
  - exact R2.
Qed.
Lemma leftover_filter ix : capN 65535 65536 (ix_cols ix) ->
  leftover (content_of ix) <-> filter (fun v => used_map (its_list (ix_items ix)) !! v = None) (known_id (ix_cols ix)) <> [].
Proof.
  intros Hcap. pose proof Hcap as [Hc Ht].
  assert (Hu : forall v, v <> 0 -> used_map (its_list (ix_items ix)) !! v = None <-> forall x, x ∈ c_nodes (content_of ix) -> x.2 <> v).
  { intros v Hv. rewrite used_map_spec, decide_False by done. unfold users, content_of. cbn [c_nodes]. split.
    - intros E x Hx. apply elem_of_list_fmap in Hx as (it & -> & Hit). cbn. intros <-.
      assert (Hin : it_id it ∈ map it_id (filter (fun it' => it_variants it' = it_variants it) (its_list (ix_items ix)))).
      { apply elem_of_list_fmap. exists it. split; [done|]. by apply elem_of_list_filter. }
      destruct (map it_id _); [by apply elem_of_nil in Hin|done].
    - intros Hx. destruct (filter _ _) as [|it l] eqn:E; [done|]. exfalso.
      assert (Hin : it ∈ filter (fun it => it_variants it = v) (its_list (ix_items ix))) by (rewrite E; left).
      apply elem_of_list_filter in Hin as [Ev Hin]. apply (Hx (node_quad it)); [apply elem_of_list_fmap; by exists it|done]. }
  split.
  - intros (t & k & s & Hs & Hx) E. assert (Hin : number_at t k ∈ known_id (ix_cols ix)).
    { apply known_id_spec; [done|]. exists s. change (c_cols (content_of ix)) with (ix_cols ix) in Hs.
      destruct (ix_cols ix !! t) as [tt|] eqn:Et; [|done]. cbn in Hs.
      pose proof (lookup_lt_Some _ _ _ Et). pose proof (lookup_lt_Some _ _ _ Hs). eapply Forall_lookup_1 in Ht; [|exact Et]. cbn beta in Ht. unfold lenN in *.
      rewrite <- num_at by lia. unfold good_col, num. rewrite upper_combine16, lower_combine16 by lia. split; [apply combine16_lt; lia|]. split; [lia|].
      unfold at2. replace (N.to_nat (N.of_nat t + 1) - 1)%nat with t by lia. by rewrite Et, Nat2N.id. }
    assert (Hz : number_at t k <> 0) by (unfold number_at; lia).
    assert (Hin' : number_at t k ∈ filter (fun v => used_map (its_list (ix_items ix)) !! v = None) (known_id (ix_cols ix))).
    { apply elem_of_list_filter. split; [|done]. by apply Hu. }
    rewrite E in Hin'. by apply elem_of_nil in Hin'.
  - intros E. destruct (filter _ _) as [|v l] eqn:Ef; [done|].
    assert (Hin : v ∈ filter (fun v => used_map (its_list (ix_items ix)) !! v = None) (known_id (ix_cols ix))) by (rewrite Ef; left).
    apply elem_of_list_filter in Hin as [Hn Hin]. apply known_id_spec in Hin as (col & Hv & Hup & Hat); [|done].
    unfold at2 in Hat. set (t := (N.to_nat (id32_upper v) - 1)%nat) in *. set (k := N.to_nat (id32_lower v)) in *.
    destruct (ix_cols ix !! t) as [tt|] eqn:Et; [|done]. cbn in Hat.
    pose proof (lookup_lt_Some _ _ _ Et). pose proof (lookup_lt_Some _ _ _ Hat). eapply Forall_lookup_1 in Ht; [|exact Et]. cbn beta in Ht. unfold lenN in *.
    assert (Ev : number_at t k = v).
    { rewrite <- num_at by lia. unfold num. rewrite <- (combine16_upper_lower v) by done. f_equal; [|unfold k; lia]. unfold t. lia. }
    exists t, k, col. change (c_cols (content_of ix)) with (ix_cols ix). rewrite Et. split; [done|]. rewrite Ev. apply Hu; [|done]. unfold number_at in Ev. lia.
Qed.

(** ** C81 *)
Lemma tidied_nodes ix ix' : Forall (fun it => it_variants it < 4294967296) (its_list (ix_items ix)) ->
  tidied ix ix' ->
  Forall2 (same_node (content_of ix) (content_of ix')) (c_nodes (content_of ix)) (c_nodes (content_of ix')).
Proof.
  intros V T. unfold content_of at 3 4. cbn [c_nodes]. change (map node_quad ?l) with (node_quad <$> l).
  apply Forall2_fmap_2. apply Forall2_same_length_lookup_2; [by rewrite (t_count _ _ T)|].
  intros i it it' Hi Hi'. destruct (t_items _ _ T i it Hi) as (it2 & c & c' & E1 & E2 & E3 & E4 & E5 & E6 & E7 & V').
  rewrite E1 in Hi'. injection Hi' as ->. eapply Forall_lookup_1 in V; [|exact Hi]. cbn beta in V.
  split; [unfold node_quad; cbn; congruence|]. exists c, c'. change (node_quad ?x).2 with (it_variants x).
  change (ix_cols ix) with (c_cols (content_of ix)) in E5. change (ix_cols ix') with (c_cols (content_of ix')) in E6.
  rewrite variants_of in E5, E6 by done.
  split; [by destruct (collection_of _ (it_variants it)); simplify_eq|]. split; [by destruct (collection_of _ (it_variants it')); simplify_eq|].
  split; [destruct E7 as [->| ->]; [done|apply go_sort_perm]|]. intros S. destruct E7 as [->| ->]; [done|]. by apply go_sort_id.
Qed.

Lemma l_C81_nodes : forall bs ix rest, bytes bs -> index_read index_new bs = Ok (ix, rest) ->
  well_numbered (content_of ix) -> room (content_of ix) ->
  exists h', h_optimize (h_of ix) = Ok h' /\
    c_tags (content_of (view h')) = c_tags (content_of ix) /\ c_sets (content_of (view h')) = c_sets (content_of ix) /\
    Forall2 (same_node (content_of ix) (content_of (view h'))) (c_nodes (content_of ix)) (c_nodes (content_of (view h'))).
Proof.
  intros bs ix rest Hb H Hw Hr. pose proof (file_sane _ _ _ Hb H Hw Hr) as S. destruct (file_shape _ _ _ Hb H) as (_ & _ & V).
  destruct (tidy_spec (h_of ix) (h_of_fine ix)) as (h' & E & T & _); [by rewrite (proj2 (h_of_ok ix))|].
  rewrite (proj2 (h_of_ok ix)) in T. exists h'. split; [exact E|].
  split; [unfold content_of; cbn [c_tags]; by rewrite (t_tags _ _ T)|]. split; [exact (t_sets _ _ T)|]. by apply tidied_nodes.
Qed.
Lemma l_C81_answers : forall bs ix rest, bytes bs -> index_read index_new bs = Ok (ix, rest) ->
  well_numbered (content_of ix) -> room (content_of ix) ->
  exists h', h_optimize (h_of ix) = Ok h' /\
    nodes_count (view h') = nodes_count ix /\ words_count (view h') = words_count ix /\
    (forall w, (fetch_runes (view h') w).2 = (fetch_runes ix w).2) /\
    (forall id, node_word (view h') id = node_word ix id) /\
    (forall id, get_children_map (view h') id = get_children_map ix id) /\
    (forall id, node_tag_sets ix id = Panic <-> node_tag_sets (view h') id = Panic) /\
    (sets_known (content_of ix) -> forall id l, node_tag_sets ix id = Ok l -> exists l', node_tag_sets (view h') id = Ok l' /\ l' ≡ₚ l).
Proof.
  intros bs ix rest Hb H Hw Hr. pose proof (file_sane _ _ _ Hb H Hw Hr) as Sa. destruct (file_shape _ _ _ Hb H) as (_ & V2 & V).
  destruct (tidy_spec (h_of ix) (h_of_fine ix)) as (h' & E & T & _); [by rewrite (proj2 (h_of_ok ix))|].
  rewrite (proj2 (h_of_ok ix)) in T. exists h'. split; [exact E|]. clear E. set (ix' := view h') in *. clearbody ix'. clear h'.
  assert (Hget : forall id, match items_get (ix_items ix) id with
    | Ok (Some it) => exists it' c c', items_get (ix_items ix') id = Ok (Some it') /\
        it_parent it' = it_parent it /\ it_letter it' = it_letter it /\
        variants_get (ix_cols ix) (it_variants it) = Ok c /\ variants_get (ix_cols ix') (it_variants it') = Ok c' /\ c' ≡ₚ c /\
        (exists i, its_list (ix_items ix) !! i = Some it)
    | r => items_get (ix_items ix') id = r
    end).
  { intros id. unfold items_get. rewrite (t_next _ _ T). destruct (id =? 0); [done|].
    destruct (its_next (ix_items ix) <=? id); [done|]. unfold slice_get.
    destruct (its_list (ix_items ix) !! N.to_nat id) as [it|] eqn:Eit; cbn.
    - destruct (t_items _ _ T _ _ Eit) as (it' & c & c' & -> & H1 & H2 & H3 & H4 & H5 & H6 & _). cbn. exists it', c, c'. do 5 (split; [done|]).
      split; [destruct H6 as [->| ->]; [done|apply go_sort_perm]|by eexists].
    - apply lookup_ge_None in Eit. rewrite lookup_ge_None_2 by (rewrite (t_count _ _ T); lia). done. }
  assert (Hword : forall a b id, ix_items a = ix_items ix' -> ix_items b = ix_items ix -> node_word a id = node_word b id).
  { intros a b id Ea Eb. unfold node_word. rewrite Ea, Eb, (t_count _ _ T). generalize (S (length (its_list (ix_items ix)))) as fuel.
    intros fuel. revert id. induction fuel as [|fuel IH]; intros id; [done|]. cbn [word_fuel].
    destruct (id =? 0); [done|]. unfold get_item. rewrite Ea, Eb. specialize (Hget id).
    destruct (items_get (ix_items ix) id) as [[it|]|e|]; [|by rewrite Hget..].
    destruct Hget as (it' & c & c' & -> & Hp & Hl & _). unfold mbind, res_bind. rewrite Hp, Hl.
    destruct (it_parent it =? 0); [done|]. by rewrite IH. }
  split; [unfold nodes_count; by rewrite (t_next _ _ T)|]. split; [exact (t_words _ _ T)|].
  split; [|split; [intros id; by apply Hword|split; [|split]]].
  - intros w. unfold fetch_runes, fetch_from_item. destruct w as [|r w]; [done|].
    enough (G : forall rest r a b p, ix_items a = ix_items ix' -> ix_items b = ix_items ix -> ix_children a = ix_children b ->
      (fetch_loop a p (r :: rest)).2 = (fetch_loop b p (r :: rest)).2) by (apply G; [done|done|exact (t_children _ _ T)]).
    clear r w. induction rest0 as [|r' rest0 IH]; intros r a b p Ea Eb Ec; cbn [fetch_loop];
      (assert (Ec' : ix_children (ensure_children a p) = ix_children (ensure_children b p)) by (unfold ensure_children; cbn; by rewrite Ec)); rewrite Ec';
      destruct (child _ p r) as [n|].
    + cbn [snd]. unfold index_get. cbn [ensure_children set_children ix_items]. by rewrite Ea, Eb, (t_next _ _ T).
    + cbn [snd]. by rewrite (Hword (ensure_children a p) (ensure_children b p)).
    + by apply IH.
    + cbn [snd]. by rewrite (Hword (ensure_children a p) (ensure_children b p)).
  - intros id. unfold get_children_map. by rewrite (t_children _ _ T).
  - intros id. unfold node_tag_sets, get_item. specialize (Hget id). destruct (items_get (ix_items ix) id) as [[it|]|e|].
    + destruct Hget as (it' & c & c' & -> & _ & _ & E1 & E2 & _). cbn. rewrite E1, E2. done.
    + rewrite Hget. done.
    + rewrite Hget. done.
    + rewrite Hget. done.
  - intros Hs id l. unfold node_tag_sets, get_item. specialize (Hget id). destruct (items_get (ix_items ix) id) as [[it|]|e|]; [|done..].
    destruct Hget as (it' & c & c' & -> & _ & _ & E1 & E2 & Hp & i & Hi). cbn [mbind res_bind]. rewrite E1, E2. cbn [mbind res_bind]. intros [= <-].
    eexists. split; [done|].
    assert (F : Forall (fun s => is_Some (tagset_get (ix_sets ix) s)) c).
    { rewrite variants_get_at2 in E1. destruct (_ =? 0); [injection E1 as <-; constructor|]. unfold at2 in E1.
      destruct (ix_cols ix !! _) as [t|] eqn:Et; [|done]. cbn in E1. destruct (t !! _) as [c0|] eqn:Ec; [|done]. injection E1 as ->.
      pose proof (Forall_lookup_1 _ _ _ _ (Forall_lookup_1 _ _ _ _ Hs Et) Ec) as Hk. cbn beta in Hk.
      destruct (Forall_lookup_1 _ _ _ _ (Forall_lookup_1 _ _ _ _ V2 Et) Ec) as [_ Hlt].
      apply Forall_forall. intros s Hin. rewrite Forall_forall in Hk, Hlt. specialize (Hk s Hin). specialize (Hlt s Hin).
      rewrite tagset_get_at2, id32_upper_arith, id32_lower_arith by done. apply not_eq_None_Some. exact Hk. }
    assert (F' : Forall (fun s => is_Some (tagset_get (ix_sets ix') s)) c').
    { rewrite Hp. eapply Forall_impl; [exact F|]. intros s Hs'. by rewrite (t_sets _ _ T). }
    rewrite (resolve_map _ _ F), (resolve_map _ _ F'), (t_sets _ _ T), (t_tags _ _ T). by apply Permutation_map.
Qed.
Lemma compact_minimal ix : compact ix -> tidy (content_of ix) /\ ~ leftover (content_of ix).
Proof.
  intros C. destruct (c_cap _ C) as [C1 C2]. assert (U : forall t k s, ix_cols ix !! t ≫= (.!! k) = Some s -> exists x, x ∈ c_nodes (content_of ix) /\ x.2 = number_at t k).
  { intros t k s Hs. destruct (ix_cols ix !! t) as [tt|] eqn:Et; [|done]. cbn in Hs.
    assert (Ha : at2 (ix_cols ix) t k = Some s) by (unfold at2; by rewrite Et).
    destruct (c_used _ C t k s Ha) as (i & it & Hi & Ev). exists (node_quad it). split.
    - unfold content_of. cbn [c_nodes]. apply elem_of_list_fmap. exists it. split; [done|]. by eapply elem_of_list_lookup_2.
    - change (node_quad it).2 with (it_variants it). rewrite Ev. pose proof (lookup_lt_Some _ _ _ Et). pose proof (lookup_lt_Some _ _ _ Hs).
      eapply Forall_lookup_1 in C2; [|exact Et]. cbn beta in C2. unfold lenN in *. apply num_at; lia. }
  split.
  - intros t ss Hs. change (c_cols (content_of ix)) with (ix_cols ix) in Hs. destruct (c_sorted _ C t ss Hs) as [N F].
    split; [done|]. split; [exact F|]. intros k s Hk. apply (U t k s). rewrite Hs. exact Hk.
  - intros (t & k & s & Hs & Hx). destruct (U t k s Hs) as (x & Hin & E). by apply (Hx x).
Qed.
Lemma l_C81_tidy : forall bs ix rest h', bytes bs -> index_read index_new bs = Ok (ix, rest) ->
  well_numbered (content_of ix) -> room (content_of ix) -> h_optimize (h_of ix) = Ok h' ->
  leftover (content_of ix) -> tidy (content_of (view h')) /\ ~ leftover (content_of (view h')).
Proof.
  intros bs ix rest h' Hb H Hw Hr E L. pose proof (file_sane _ _ _ Hb H Hw Hr) as S.
  pose proof (proj2 (h_of_ok ix)) as Ev.
  destruct (tidy_spec (h_of ix) (h_of_fine ix)) as (h2 & E2 & _ & C & _); [by rewrite Ev|]. rewrite E in E2. injection E2 as <-.
  rewrite Ev in C. apply compact_minimal, C. apply leftover_filter; [apply S|done].
Qed.
Lemma h_optimize_idle h : filter (fun v => used_map (its_list (ix_items (view h))) !! v = None) (known_id (ix_cols (view h))) = [] ->
  h_optimize h = Ok h.
Proof.
  intros E. unfold h_optimize. cbv zeta.
  change (used_map (its_list (ix_items (hx_ix h)))) with (used_map (its_list (ix_items (view h)))).
  change (contents (hx_mem h) (hx_cols h)) with (ix_cols (view h)).
  match goal with |- match ?l with _ => _ end = _ => assert (El : l = []) by exact E; rewrite El end. done.
Qed.
Lemma l_C81_untouched : forall ix, Forall (fun t => N.of_nat (length t) <= 65536) (ix_cols ix) -> lenN (ix_cols ix) <= 65535 ->
  ~ leftover (content_of ix) -> h_optimize (h_of ix) = Ok (h_of ix).
Proof.
  intros ix H1 H2 L. apply h_optimize_idle. pose proof (proj2 (h_of_ok ix)) as Ev. rewrite Ev.
  destruct (filter _ _) eqn:E; [done|]. exfalso. apply L. apply leftover_filter; [by split|]. by rewrite E.
Qed.
Lemma l_C81_again : forall bs ix rest h', bytes bs -> index_read index_new bs = Ok (ix, rest) ->
  well_numbered (content_of ix) -> room (content_of ix) -> h_optimize (h_of ix) = Ok h' ->
  h_optimize h' = Ok h'.
Proof.
  intros bs ix rest h' Hb H Hw Hr E. pose proof (file_sane _ _ _ Hb H Hw Hr) as S.
  pose proof (proj2 (h_of_ok ix)) as Ev.
  destruct (tidy_spec (h_of ix) (h_of_fine ix)) as (h2 & E2 & _ & C & U); [by rewrite Ev|]. rewrite E in E2. injection E2 as <-.
  rewrite Ev in C, U. destruct (filter _ _) as [|x l] eqn:F.
  - specialize (U eq_refl) as ->. exact E.
  - assert (Cp : compact (view h')) by (by apply C). apply h_optimize_idle.
    destruct (compact_minimal _ Cp) as [_ NL]. destruct (filter _ (known_id (ix_cols (view h')))) eqn:E3; [done|]. exfalso. apply NL.
    apply leftover_filter; [apply Cp|]. by rewrite E3.
Qed.
