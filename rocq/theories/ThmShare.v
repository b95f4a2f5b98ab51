(** Proofs about shared slices (C66). *)
From Coq Require Import ZifyBool ZifyNat ZifyN.
From Verif Require Import Base Storage Bin Utf8 Tags TagSets Variants Items Index Spec Hist
  BaseFacts Intern SpecFacts TrieFacts NoteFacts OptFacts HistFacts QueryFacts Share.
From stdpp Require Import list gmap.
Open Scope N_scope.

(** ** Memory *)
Lemma deref_app m xs a : (a < length m)%nat -> deref (m ++ [xs]) a = deref m a.
Proof. intros H. unfold deref. by rewrite lookup_app_l. Qed.
Lemma deref_new m xs : deref (m ++ [xs]) (length m) = xs.
Proof. unfold deref. by rewrite list_lookup_middle. Qed.
Lemma deref_sort m a b : deref (h_sort m a) b = if decide (a = b) then go_sort (deref m b) else deref m b.
Proof.
  unfold deref, h_sort. destruct (decide (a = b)) as [->|Hn].
  - rewrite list_lookup_alter. by destruct (m !! b).
  - by rewrite list_lookup_alter_ne.
Qed.
Lemma h_sort_length m a : length (h_sort m a) = length m.
Proof. apply alter_length. Qed.
Lemma h_sort_id m a : sortedN (deref m a) -> h_sort m a = m.
Proof.
  intros H. apply list_eq. intros i. unfold h_sort. destruct (decide (a = i)) as [->|Hn]; [|by rewrite list_lookup_alter_ne].
  rewrite list_lookup_alter. unfold deref in H. destruct (m !! i) as [x|]; [|done]. cbn in *. f_equal. by apply go_sort_id.
Qed.
Lemma contents_ext m m' x : (forall t a, t ∈ x -> a ∈ t -> deref m' a = deref m a) -> contents m' x = contents m x.
Proof.
  intros H. unfold contents. apply map_ext_in. intros t Ht. apply map_ext_in. intros a Ha.
  apply (H t); by apply elem_of_list_In.
Qed.
Lemma addrs_ok_elem m x t a : addrs_ok m x -> t ∈ x -> a ∈ t -> (a < length m)%nat.
Proof. intros H Ht Ha. eapply Forall_forall in H; [|exact Ht]. by eapply Forall_forall in H. Qed.
Lemma addrs_ok_mono m m' x : (length m <= length m')%nat -> addrs_ok m x -> addrs_ok m' x.
Proof. intros Hl H. eapply Forall_impl; [exact H|]. intros t Ht. eapply Forall_impl; [exact Ht|]. intros a Ha. cbn in *. lia. Qed.
Lemma contents_app m xs x : addrs_ok m x -> contents (m ++ [xs]) x = contents m x.
Proof. intros H. apply contents_ext. intros t a Ht Ha. apply deref_app. by eapply addrs_ok_elem. Qed.
Lemma contents_lookup m x i : contents m x !! i = map (deref m) <$> x !! i.
Proof. apply list_lookup_fmap. Qed.
Lemma contents_length m x : length (contents m x) = length x.
Proof. apply map_length. Qed.
Lemma slice_contents m x i : slice_get (contents m x) i = (t ← slice_get x i; Ok (map (deref m) t)).
Proof. unfold slice_get. rewrite contents_lookup. by destruct (x !! N.to_nat i). Qed.
Lemma slice_deref m t i : slice_get (map (deref m) t) i = (a ← slice_get t i; Ok (deref m a)).
Proof. unfold slice_get. change (map (deref m) t) with (deref m <$> t). rewrite list_lookup_fmap. by destruct (t !! N.to_nat i). Qed.
Lemma extend_contents m x c : extend_to (contents m x) c = contents m (extend_to x c).
Proof.
  unfold extend_to. unfold lenN. rewrite contents_length. destruct (_ <=? _); [|done].
  unfold contents. rewrite map_app. f_equal. change (map (map (deref m))) with (fmap (M := list) (map (deref m))). by rewrite fmap_replicate.
Qed.
Lemma insert_contents m x i t : contents m (<[i := t]> x) = <[i := map (deref m) t]> (contents m x).
Proof. unfold contents. apply (list_fmap_insert (map (deref m))). Qed.
Lemma addrs_ok_extend m x c : addrs_ok m x -> addrs_ok m (extend_to x c).
Proof. intros H. unfold extend_to. destruct (_ <=? _); [|done]. apply Forall_app. split; [done|]. by apply Forall_replicate. Qed.
Lemma extend_elem (x : list (list nat)) c t a : t ∈ extend_to x c -> a ∈ t -> t ∈ x.
Proof.
  unfold extend_to. destruct (_ <=? _); [|done]. rewrite elem_of_app. intros [H|H] Ha; [done|].
  apply elem_of_replicate in H as [-> _]. by apply elem_of_nil in Ha.
Qed.
Lemma slice_get_elem {A} (l : list A) i x : slice_get l i = Ok x -> x ∈ l.
Proof. unfold slice_get. destruct (l !! N.to_nat i) eqn:E; [|done]. intros [= ->]. by eapply elem_of_list_lookup_2. Qed.

(** ** Interning through addresses *)

(** Sorting [a] in place touches no set that the table keeps, or changes nothing. *)
Lemma h_table_index_spec m t a m' t' i :
  (a < length m)%nat -> (sortedN (deref m a) \/ ~ a ∈ t) -> h_table_index m t a = (m', t', i) ->
  m' = h_sort m a /\ (map (deref m') t', i) = table_index wrap16 (map (deref m) t) (deref m a) /\
  (t' = t \/ t' = t ++ [a]).
Proof.
  intros Ha Hs. unfold h_table_index. cbv zeta. unfold table_index, table_find.
  assert (E1 : map (deref (h_sort m a)) t = map (deref m) t).
  { destruct Hs as [Hs|Hs]; [by rewrite h_sort_id|]. apply map_ext_in. intros b Hb. rewrite deref_sort. destruct (decide (a = b)) as [->|]; [|done].
    by apply elem_of_list_In in Hb. }
  assert (E2 : deref (h_sort m a) a = go_sort (deref m a)) by (rewrite deref_sort; by rewrite decide_True).
  rewrite E1, E2. destruct (find_pos _ _ 0) as [k|]; intros [= <- <- <-].
  - split; [done|]. split; [by rewrite E1|by left].
  - split; [done|]. split; [|by right]. rewrite map_app, E1. cbn [map]. rewrite E2. unfold lenN. by rewrite map_length.
Qed.
Lemma table_index_sort wrap t item : table_index wrap t (go_sort item) = table_index wrap t item.
Proof. unfold table_index. by rewrite go_sort_idem. Qed.

Lemma h_tagset_index_spec m x a :
  (a < length m)%nat -> addrs_ok m x -> (forall t, t ∈ x -> ~ a ∈ t) ->
  match h_tagset_index m x a with
  | Ok (m', x', i) => (m' = m \/ m' = h_sort m a) /\ addrs_ok m' x' /\ tagset_index_index (contents m x) (deref m a) = Ok (contents m' x', i)
  | Err e => False
  | Panic => tagset_index_index (contents m x) (deref m a) = Panic
  end.
Proof.
  intros Ha Hx Hn. unfold h_tagset_index, tagset_index_index. destruct (lenN (deref m a) =? 0) eqn:E0.
  { split; [by left|done]. }
  cbv zeta. rewrite extend_contents, slice_contents. set (c := lenN (deref m a) - 1).
  destruct (slice_get (extend_to x c) c) as [t| |] eqn:Et; cbn [mbind res_bind]; [|by unfold slice_get in Et; destruct (_ !! _)|done].
  destruct (h_table_index m t a) as [[m1 t'] i] eqn:Eh.
  assert (Hna : ~ a ∈ t).
  { intros Hin. apply (Hn t); [|done]. eapply extend_elem; [|exact Hin]. by eapply slice_get_elem. }
  destruct (h_table_index_spec _ _ _ _ _ _ Ha (or_intror Hna) Eh) as (-> & E & Ht').
  assert (Hext : contents (h_sort m a) (extend_to x c) = contents m (extend_to x c)).
  { apply contents_ext. intros t0 b H0 Hb. rewrite deref_sort. destruct (decide (a = b)) as [->|]; [|done].
    exfalso. apply (Hn t0); [|done]. by eapply extend_elem. }
  split; [by right|]. split.
  - apply (addrs_ok_mono m); [by rewrite h_sort_length|]. apply Forall_insert; [by apply addrs_ok_extend|].
    assert (Forall (fun b => (b < length m)%nat) t).
    { apply Forall_forall. intros b Hb. eapply (addrs_ok_elem m (extend_to x c)); [by apply addrs_ok_extend|by eapply slice_get_elem|done]. }
    destruct Ht' as [->| ->]; [done|]. apply Forall_app. split; [done|]. by apply Forall_singleton.
  - unfold tagset_table_index. rewrite E0. cbn [mbind res_bind]. rewrite <- E. rewrite insert_contents, Hext. done.
Qed.
Lemma h_variants_index_spec m x a :
  (a < length m)%nat -> addrs_ok m x -> sortedN (deref m a) ->
  match h_variants_index m x a with
  | Ok (m', x', i) => m' = m /\ addrs_ok m' x' /\ variants_index_index (contents m x) (deref m a) = Ok (contents m' x', i)
  | Err e => False
  | Panic => variants_index_index (contents m x) (deref m a) = Panic
  end.
Proof.
  intros Ha Hx Hs. unfold h_variants_index, variants_index_index. destruct (lenN (deref m a) =? 0) eqn:E0; [done|].
  cbv zeta. rewrite (h_sort_id m a Hs). rewrite go_sort_lenN. set (c := wrap16 (lenN (deref m a) - 1)).
  rewrite extend_contents, slice_contents.
  destruct (slice_get (extend_to x c) c) as [t| |] eqn:Et; cbn [mbind res_bind]; [|by unfold slice_get in Et; destruct (_ !! _)|done].
  destruct (h_table_index m t a) as [[m1 t'] i] eqn:Eh.
  destruct (h_table_index_spec _ _ _ _ _ _ Ha (or_introl Hs) Eh) as (E1 & E & Ht').
  rewrite (h_sort_id m a Hs) in E1. subst m1. split; [done|]. split.
  - apply Forall_insert; [by apply addrs_ok_extend|].
    assert (Forall (fun b => (b < length m)%nat) t).
    { apply Forall_forall. intros b Hb. eapply (addrs_ok_elem m (extend_to x c)); [by apply addrs_ok_extend|by eapply slice_get_elem|done]. }
    destruct Ht' as [->| ->]; [done|]. apply Forall_app. split; [done|]. by apply Forall_singleton.
  - unfold variants_table_index. rewrite go_sort_lenN, E0, table_index_sort. rewrite <- E. by rewrite insert_contents.
Qed.
Lemma h_variants_get_spec m x id :
  addrs_ok m x ->
  match h_variants_get m x id with
  | Ok (m', a) => (m' = m \/ m' = m ++ [[]]) /\ (a < length m')%nat /\ variants_get (contents m x) id = Ok (deref m' a) /\
      (deref m' a = [] \/ exists t, t ∈ x /\ a ∈ t)
  | Err e => False
  | Panic => variants_get (contents m x) id = Panic
  end.
Proof.
  intros Hx. unfold h_variants_get, variants_get, h_alloc, variants_table_get.
  assert (H0 : (m ++ [[]] = m \/ m ++ [[]] = m ++ [[]]) /\ (length m < length (m ++ [[]]))%nat /\ @Ok (list N) [] = Ok (deref (m ++ [[]]) (length m)) /\
    (deref (m ++ [[]]) (length m) = [] \/ exists t, t ∈ x /\ length m ∈ t)).
  { split; [by right|]. rewrite app_length, deref_new. cbn. split; [lia|]. split; [done|by left]. }
  destruct (id =? 0); [exact H0|]. destruct (_ <? 1); [exact H0|].
  rewrite slice_contents. destruct (slice_get x (id32_upper id - 1)) as [t| |] eqn:Et; cbn [mbind res_bind]; [|by unfold slice_get in Et; destruct (_ !! _)|done].
  rewrite slice_deref. destruct (slice_get t (id32_lower id)) as [a| |] eqn:Ea; cbn [mbind res_bind]; [|by unfold slice_get in Ea; destruct (_ !! _)|done].
  split; [by left|]. split; [|split; [done|]].
  - eapply addrs_ok_elem; [exact Hx|by eapply slice_get_elem|by eapply slice_get_elem].
  - right. exists t. split; by eapply slice_get_elem.
Qed.
Lemma sorted_contents m x t a : Forall (Forall sortedN) (contents m x) -> t ∈ x -> a ∈ t -> sortedN (deref m a).
Proof.
  intros H Ht Ha. unfold contents in H. change (map (map (deref m)) x) with (map (deref m) <$> x) in H.
  rewrite Forall_fmap in H. eapply Forall_forall in H; [|exact Ht]. cbn in H. change (map (deref m) t) with (deref m <$> t) in H.
  rewrite Forall_fmap in H. by eapply Forall_forall in H.
Qed.

(** ** Tagging *)
Lemma h_add_spec m a id m' b :
  (a < length m)%nat -> sortedN (deref m a) -> h_add m a id = (m', b) ->
  (b < length m')%nat /\ (length m <= length m')%nat /\ (forall c, (c < length m)%nat -> deref m' c = deref m c) /\
  deref m' b = collection_add (deref m a) id /\ sortedN (deref m' b).
Proof.
  intros Ha Hs. unfold h_add, collection_add. destruct (collection_has (deref m a) id).
  - intros [= <- <-]. done.
  - cbn [h_alloc]. unfold h_alloc. intros [= <- <-]. rewrite h_sort_length, app_length. cbn.
    split; [lia|]. split; [lia|]. split; [|split].
    + intros c Hc. rewrite deref_sort, decide_False by lia. by apply deref_app.
    + rewrite deref_sort, decide_True by done. by rewrite deref_new.
    + rewrite deref_sort, decide_True by done. apply go_sort_sorted.
Qed.
Lemma tables_sorted_intern x item x' v : variants_index_index x item = Ok (x', v) -> Forall (Forall sortedN) x -> Forall (Forall sortedN) x'.
Proof.
  unfold variants_index_index. destruct (lenN item =? 0); [by intros [= <- _]|]. cbv zeta.
  set (c := wrap16 _). intros E H.
  assert (H1 : Forall (Forall sortedN) (extend_to x c)).
  { unfold extend_to. destruct (_ <=? _); [|done]. apply Forall_app. split; [done|]. by apply Forall_replicate. }
  destruct (slice_get (extend_to x c) c) as [t| |] eqn:Et; cbn [mbind res_bind] in E; try done.
  assert (Ht : Forall sortedN t) by (eapply Forall_forall in H1; [exact H1|by eapply slice_get_elem]).
  unfold variants_table_index in E. destruct (lenN (go_sort item) =? 0).
  { injection E as <- _. by apply Forall_insert. }
  unfold table_index in E. destruct (table_find _ _ _); injection E as <- _; apply Forall_insert; try done.
  apply Forall_app. split; [done|]. apply Forall_singleton. apply go_sort_sorted.
Qed.
Lemma tag_refines h id names : h_ok h -> sorted_cols (view h) ->
  let '(h', r) := h_add_tag_set h id names in
  node_add_tag_set (view h) id names = (view h', r) /\ h_ok h' /\ sorted_cols (view h').
Proof.
  intros [O1 O2] Hs. unfold h_add_tag_set, node_add_tag_set. change (ix_tags (view h)) with (ix_tags (hx_ix h)).
  destruct (names_to_ids _ names) as [ids|e|]; [|done|done].
  change (get_item (view h) id) with (get_item (hx_ix h) id). destruct (get_item (hx_ix h) id) as [[it|]| |]; try done.
  unfold h_alloc. set (m0 := hx_mem h ++ [ids]). set (ts := length (hx_mem h)).
  assert (Hl0 : (length (hx_mem h) <= length m0)%nat) by (unfold m0; rewrite app_length; lia).
  assert (Hts : (ts < length m0)%nat) by (unfold m0, ts; rewrite app_length; cbn; lia).
  assert (C1 : contents m0 (hx_sets h) = ix_sets (view h)) by (by apply contents_app).
  assert (C2 : contents m0 (hx_cols h) = ix_cols (view h)) by (by apply contents_app).
  pose proof (addrs_ok_mono _ _ _ Hl0 O1) as P1. pose proof (addrs_ok_mono _ _ _ Hl0 O2) as P2.
  pose proof (h_variants_get_spec m0 (hx_cols h) (it_variants it) P2) as G. rewrite C2 in G.
  destruct (h_variants_get m0 (hx_cols h) (it_variants it)) as [[m1 old]| |]; cbn [mbind res_bind]; [|done|by rewrite G].
  destruct G as (M1 & Hold & -> & Hor). cbn [mbind res_bind].
  assert (Hm1 : (length m0 <= length m1)%nat /\ forall a, (a < length m0)%nat -> deref m1 a = deref m0 a).
  { destruct M1 as [->| ->]; [done|]. rewrite app_length. split; [lia|]. intros a Ha. by apply deref_app. }
  destruct Hm1 as [L1 D1].
  assert (C3 : contents m1 (hx_sets h) = ix_sets (view h)).
  { rewrite <- C1. apply contents_ext. intros t a Ht Ha. apply D1. exact (addrs_ok_elem _ _ _ _ P1 Ht Ha). }
  assert (C4 : contents m1 (hx_cols h) = ix_cols (view h)).
  { rewrite <- C2. apply contents_ext. intros t a Ht Ha. apply D1. exact (addrs_ok_elem _ _ _ _ P2 Ht Ha). }
  assert (Hso : sortedN (deref m1 old)).
  { destruct Hor as [->|(t & Ht & Ha)]; [constructor|]. eapply (sorted_contents m1 (hx_cols h)); [by rewrite C4|done..]. }
  pose proof (addrs_ok_mono _ _ _ L1 P1) as Q1. pose proof (addrs_ok_mono _ _ _ L1 P2) as Q2.
  assert (Hnts : forall t, t ∈ hx_sets h -> ~ ts ∈ t) by (intros t Ht Hin; pose proof (addrs_ok_elem _ _ _ _ O1 Ht Hin); unfold ts in *; lia).
  pose proof (h_tagset_index_spec m1 (hx_sets h) ts ltac:(lia) Q1 Hnts) as G. rewrite C3 in G. rewrite (D1 ts Hts) in G.
  assert (Dts : deref m0 ts = ids) by apply deref_new. rewrite Dts in G.
  destruct (h_tagset_index m1 (hx_sets h) ts) as [[[m2 sets] sid]| |]; cbn [mbind res_bind]; [|done|by rewrite G].
  destruct G as (M2 & R1 & ->). cbn [mbind res_bind].
  assert (Hm2 : length m2 = length m1 /\ forall a, a <> ts -> deref m2 a = deref m1 a).
  { destruct M2 as [->| ->]; [done|]. split; [apply h_sort_length|]. intros a Hne. rewrite deref_sort. by rewrite decide_False. }
  destruct Hm2 as [L2 D2].
  assert (Hne : forall t a, t ∈ hx_cols h -> a ∈ t -> a <> ts).
  { intros t a Ht Ha ->. pose proof (addrs_ok_elem _ _ _ _ O2 Ht Ha). unfold ts in *. lia. }
  assert (Hold2 : deref m2 old = deref m1 old).
  { destruct M2 as [->| ->]; [done|]. rewrite deref_sort. destruct (decide (ts = old)) as [<-|]; [|done]. by apply go_sort_id. }
  destruct (h_add m2 old sid) as [m3 col] eqn:Ea.
  destruct (h_add_spec m2 old sid m3 col ltac:(lia) ltac:(by rewrite Hold2) Ea) as (Hc & L3 & D3 & Dc & Sc). rewrite Hold2 in Dc.
  assert (C5 : contents m3 (hx_cols h) = ix_cols (view h)).
  { rewrite <- C4. apply contents_ext. intros t a Ht Ha. pose proof (addrs_ok_elem _ _ _ _ Q2 Ht Ha). rewrite D3 by lia. apply D2. by eapply Hne. }
  assert (C6 : contents m3 sets = contents m2 sets).
  { apply contents_ext. intros t a Ht Ha. pose proof (addrs_ok_elem _ _ _ _ R1 Ht Ha). by apply D3. }
  assert (Q3 : addrs_ok m3 (hx_cols h)) by (eapply addrs_ok_mono; [|exact Q2]; lia).
  pose proof (h_variants_index_spec m3 (hx_cols h) col Hc Q3 Sc) as G. rewrite C5, Dc in G.
  destruct (h_variants_index m3 (hx_cols h) col) as [[[m4 cols] vid]| |]; cbn [mbind res_bind]; [|done|by rewrite G].
  destruct G as (-> & R2 & EV). rewrite EV. cbn [mbind res_bind].
  split; [|split].
  - unfold view. cbn [hx_mem hx_sets hx_cols hx_ix]. rewrite C6. done.
  - split; [|exact R2]. cbn. eapply addrs_ok_mono; [|exact R1]. lia.
  - unfold sorted_cols. exact (tables_sorted_intern _ _ _ _ EV Hs).
Qed.

(** ** Optimising *)
Lemma known_id_contents m m' x : known_id (contents m x) = known_id (contents m' x).
Proof.
  unfold known_id. do 2 f_equal. unfold contents. apply list_eq. intros i. rewrite !list_lookup_imap.
  change (map (map (deref m)) x) with (map (deref m) <$> x). change (map (map (deref m')) x) with (map (deref m') <$> x).
  rewrite !list_lookup_fmap. destruct (x !! i) as [t|]; [|done]. cbn. f_equal. apply list_eq. intros j. rewrite !list_lookup_imap.
  change (map (deref m) t) with (deref m <$> t). change (map (deref m') t) with (deref m' <$> t).
  rewrite !list_lookup_fmap. by destruct (t !! j).
Qed.
Lemma opt_build_refines cols used known : forall m new repl,
  addrs_ok m cols -> addrs_ok m new -> Forall (Forall sortedN) (contents m cols) -> Forall (Forall sortedN) (contents m new) ->
  match h_opt_build m cols used known new repl with
  | Ok (m', new', repl') => (length m <= length m')%nat /\ (forall a, (a < length m)%nat -> deref m' a = deref m a) /\
      addrs_ok m' new' /\ Forall (Forall sortedN) (contents m' new') /\
      opt_build (contents m cols) used known (contents m new) repl = Ok (contents m' new', repl')
  | Err e => opt_build (contents m cols) used known (contents m new) repl = Err e
  | Panic => opt_build (contents m cols) used known (contents m new) repl = Panic
  end.
Proof.
  induction known as [|cid known IH]; intros m new repl O1 O2 S1 S2; cbn [h_opt_build opt_build]; [done|].
  destruct (used !! cid); [|by apply IH].
  pose proof (h_variants_get_spec m cols cid O1) as G.
  destruct (h_variants_get m cols cid) as [[m1 a]| |]; cbn [mbind res_bind]; [|done|by rewrite G].
  destruct G as (M1 & Ha & -> & Hor). cbn [mbind res_bind].
  assert (Hm1 : (length m <= length m1)%nat /\ forall a, (a < length m)%nat -> deref m1 a = deref m a).
  { destruct M1 as [->| ->]; [done|]. rewrite app_length. split; [lia|]. intros b Hb. by apply deref_app. }
  destruct Hm1 as [L1 D1].
  assert (C1 : contents m1 cols = contents m cols) by (apply contents_ext; intros t b Ht Hb; apply D1; exact (addrs_ok_elem _ _ _ _ O1 Ht Hb)).
  assert (C2 : contents m1 new = contents m new) by (apply contents_ext; intros t b Ht Hb; apply D1; exact (addrs_ok_elem _ _ _ _ O2 Ht Hb)).
  pose proof (addrs_ok_mono _ _ _ L1 O1) as P1. pose proof (addrs_ok_mono _ _ _ L1 O2) as P2.
  assert (Hsa : sortedN (deref m1 a)).
  { destruct Hor as [->|(t & Ht & Hat)]; [constructor|]. eapply (sorted_contents m1 cols); [by rewrite C1|done..]. }
  pose proof (h_variants_index_spec m1 new a Ha P2 Hsa) as G. rewrite C2 in G.
  destruct (h_variants_index m1 new a) as [[[m2 new1] nid]| |]; cbn [mbind res_bind]; [|done|by rewrite G].
  destruct G as (-> & P3 & EV). rewrite EV. cbn [mbind res_bind].
  pose proof (tables_sorted_intern _ _ _ _ EV S2) as S3.
  pose proof (h_variants_get_spec m1 new1 nid P3) as G.
  destruct (h_variants_get m1 new1 nid) as [[m3 b]| |]; cbn [mbind res_bind]; [|done|by rewrite G].
  destruct G as (M3 & Hb & -> & _). cbn [mbind res_bind].
  assert (Hm3 : (length m1 <= length m3)%nat /\ forall a, (a < length m1)%nat -> deref m3 a = deref m1 a).
  { destruct M3 as [->| ->]; [done|]. rewrite app_length. split; [lia|]. intros c Hc. by apply deref_app. }
  destruct Hm3 as [L3 D3]. rewrite (D3 a Ha).
  destruct (equal_to (deref m1 a) (deref m3 b)); [|done].
  assert (C3 : contents m3 cols = contents m cols).
  { rewrite <- C1. apply contents_ext; intros t c Ht Hc; apply D3; exact (addrs_ok_elem _ _ _ _ P1 Ht Hc). }
  assert (C4 : contents m3 new1 = contents m1 new1).
  { apply contents_ext; intros t c Ht Hc; apply D3; exact (addrs_ok_elem _ _ _ _ P3 Ht Hc). }
  specialize (IH m3 new1 (repl ++ [(cid, nid)]) (addrs_ok_mono _ _ _ L3 P1) (addrs_ok_mono _ _ _ L3 P3)).
  rewrite C3, C4 in IH. specialize (IH S1 S3).
  destruct (h_opt_build m3 cols used known new1 _) as [[[m' new'] repl']| |]; [|done|done].
  destruct IH as (L & D & A & S & E). split; [lia|]. split; [|done]. intros c Hc. rewrite D by lia. rewrite D3 by lia. by apply D1.
Qed.
Lemma optimize_refines h : h_ok h -> sorted_cols (view h) ->
  match h_optimize h with
  | Ok h' => optimize (view h) = Ok (view h') /\ h_ok h' /\ sorted_cols (view h')
  | Err e => optimize (view h) = Err e
  | Panic => optimize (view h) = Panic
  end.
Proof.
  intros [O1 O2] Hs. unfold h_optimize, optimize. cbv zeta.
  change (ix_items (view h)) with (ix_items (hx_ix h)). change (ix_cols (view h)) with (contents (hx_mem h) (hx_cols h)).
  set (used := used_map _). set (known := known_id _). destruct (filter _ known); [done|].
  pose proof (opt_build_refines (hx_cols h) used known (hx_mem h) [] [] O2 (Forall_nil_2 _) Hs (Forall_nil_2 _)) as G.
  change (contents (hx_mem h) []) with (@nil (list (list N))) in G.
  destruct (h_opt_build _ _ _ _ _ _) as [[[m new] repl]| |]; cbn [mbind res_bind]; [|by rewrite G|by rewrite G].
  destruct G as (L & D & A & S & E). rewrite E. cbn [mbind res_bind].
  assert (C1 : contents m (hx_cols h) = contents (hx_mem h) (hx_cols h)).
  { apply contents_ext. intros t a Ht Ha. apply D. exact (addrs_ok_elem _ _ _ _ O2 Ht Ha). }
  assert (C2 : contents m (hx_sets h) = contents (hx_mem h) (hx_sets h)).
  { apply contents_ext. intros t a Ht Ha. apply D. exact (addrs_ok_elem _ _ _ _ O1 Ht Ha). }
  rewrite C1. destruct (opt_replace _ _ _ _ _) as [its| |]; cbn [mbind res_bind]; [|done|done].
  split; [|split].
  - unfold view. cbn [hx_mem hx_sets hx_cols hx_ix]. rewrite C2. done.
  - split; [|exact A]. cbn [hx_mem hx_sets]. by eapply addrs_ok_mono.
  - exact S.
Qed.

(** ** Loading *)
Lemma place_spec (x : list (list (list N))) : forall pre post,
  contents (pre ++ concat x ++ post) (place (length pre) x) = x /\
  addrs_ok (pre ++ concat x ++ post) (place (length pre) x).
Proof.
  induction x as [|t x IH]; intros pre post; [split; [done|constructor]|]. cbn [place concat].
  destruct (IH (pre ++ t) post) as [E1 E2]. rewrite app_length in E1, E2.
  replace ((pre ++ t) ++ concat x ++ post) with (pre ++ (t ++ concat x) ++ post) in E1, E2 by (by rewrite <- !(assoc_L (++))).
  split.
  - change (contents ?m (?a :: ?b)) with (map (deref m) a :: contents m b). rewrite E1. f_equal.
    apply list_eq. intros i. change (map (deref ?m) ?l) with (deref m <$> l). rewrite list_lookup_fmap.
    destruct (decide (i < length t)%nat) as [Hi|Hi].
    + rewrite lookup_seq_lt by done. cbn. unfold deref. rewrite lookup_app_r by lia. replace (length pre + i - length pre)%nat with i by lia.
      rewrite lookup_app_l by (rewrite app_length; lia). rewrite lookup_app_l by done. by apply lookup_lt_is_Some_2 in Hi as [s ->].
    + rewrite lookup_seq_ge by lia. symmetry. apply lookup_ge_None_2. lia.
  - constructor; [|exact E2]. apply Forall_forall. intros a Ha. apply elem_of_seq in Ha. rewrite !app_length. lia.
Qed.
Lemma h_of_ok ix : h_ok (h_of ix) /\ view (h_of ix) = ix.
Proof.
  destruct (place_spec (ix_sets ix) [] (concat (ix_cols ix))) as [A1 A2]. cbn [app length] in A1, A2.
  destruct (place_spec (ix_cols ix) (concat (ix_sets ix)) []) as [B1 B2]. rewrite app_nil_r in B1, B2.
  split; [by split|]. unfold view, h_of. cbn [hx_mem hx_sets hx_cols hx_ix]. rewrite A1, B1. by destruct ix.
Qed.

(** ** Histories *)
Definition same_tables (a b : index) : Prop := ix_sets a = ix_sets b /\ ix_cols a = ix_cols b.
Lemma same_tables_trans a b c : same_tables a b -> same_tables b c -> same_tables a c.
Proof. intros [H1 H2] [H3 H4]. split; congruence. Qed.
Lemma add_loop_tables rest : forall ix p, same_tables (add_loop ix p rest).1 ix.
Proof.
  induction rest as [|r rest IH]; intros ix p; [done|]. cbn [add_loop].
  destruct (if p =? 0 then _ else _) as [[]| |]; try done.
  destruct (child _ p r) as [n|].
  - destruct rest; [done|]. eapply same_tables_trans; [apply IH|done].
  - destruct (items_new_child _ _ _) as [[its it]| |]; try done.
    destruct rest; [done|]. eapply same_tables_trans; [apply IH|done].
Qed.
Lemma fetch_loop_tables rest : forall ix p, same_tables (fetch_loop ix p rest).1 ix.
Proof.
  induction rest as [|r rest IH]; intros ix p; [done|]. cbn [fetch_loop].
  destruct (child _ p r) as [n|]; [|done]. destruct rest; [done|]. eapply same_tables_trans; [apply IH|done].
Qed.
Lemma add_runes_tables ix w : same_tables (add_runes ix w).1 ix.
Proof. unfold add_runes, add_to_node. destruct w; [done|]. apply add_loop_tables. Qed.
Lemma fetch_runes_tables ix w : same_tables (fetch_runes ix w).1 ix.
Proof. unfold fetch_runes, fetch_from_item. destruct w; [done|]. apply fetch_loop_tables. Qed.
Lemma tag_id_tables ix n p : same_tables (index_tag_id ix n p).1 ix.
Proof. unfold index_tag_id. by destruct (tags_index _ _ _). Qed.
Lemma h_with_ok h ix' : h_ok h -> same_tables ix' (view h) -> h_ok (h_with h ix') /\ view (h_with h ix') = ix'.
Proof.
  intros O [E1 E2]. split; [exact O|]. unfold view, h_with. cbn [hx_mem hx_sets hx_cols hx_ix].
  change (contents (hx_mem h) (hx_sets h)) with (ix_sets (view h)). change (contents (hx_mem h) (hx_cols h)) with (ix_cols (view h)).
  rewrite <- E1, <- E2. by destruct ix'.
Qed.
Lemma reload_cases ix : (exists ix', reload ix = (ix', Ok 0)) \/ (exists e, reload ix = (ix, Err e)) \/ reload ix = (ix, Panic).
Proof.
  unfold reload. destruct (index_write ix) as [[bs [e|]]| |]; eauto.
  destruct (index_read index_new bs) as [[ix' rest]| |]; eauto.
Qed.
(** One call: nothing of the sharing is seen, as long as the collections are sorted. *)
Lemma l_C66_step : forall h o,
  h_ok h -> sorted_cols (view h) ->
  view (h_step h o).1 = (step (view h) o).1 /\ (h_step h o).2 = (step (view h) o).2 /\ h_ok (h_step h o).1 /\
  (o <> OReload -> sorted_cols (step (view h) o).1).
Proof.
  intros h o O S. destruct o as [w|w|n p|w names| |]; cbn [h_step step].
  - pose proof (add_runes_tables (view h) w) as T. destruct (add_runes (view h) w) as [ix' r]. cbn [fst] in T.
    destruct (h_with_ok h ix' O T) as [O' V]. cbn [fst snd]. do 3 (split; [assumption || reflexivity|]). intros _. unfold sorted_cols. by rewrite (proj2 T).
  - pose proof (fetch_runes_tables (view h) w) as T. destruct (fetch_runes (view h) w) as [ix' r]. cbn [fst] in T.
    destruct (h_with_ok h ix' O T) as [O' V]. cbn [fst snd]. do 3 (split; [assumption || reflexivity|]). intros _. unfold sorted_cols. by rewrite (proj2 T).
  - pose proof (tag_id_tables (view h) n p) as T. destruct (index_tag_id (view h) n p) as [ix' r]. cbn [fst] in T.
    destruct (h_with_ok h ix' O T) as [O' V]. cbn [fst snd]. do 3 (split; [assumption || reflexivity|]). intros _. unfold sorted_cols. by rewrite (proj2 T).
  - pose proof (fetch_runes_tables (view h) w) as T. destruct (fetch_runes (view h) w) as [ix1 r]. cbn [fst] in T.
    destruct (h_with_ok h ix1 O T) as [O' V].
    assert (S1 : sorted_cols ix1) by (unfold sorted_cols; by rewrite (proj2 T)).
    destruct r as [id|e|]; cbn [fst snd]; [|by split_and!..].
    pose proof (tag_refines (h_with h ix1) id names O') as G. rewrite V in G. specialize (G S1).
    destruct (h_add_tag_set (h_with h ix1) id names) as [h2 r2]. destruct G as (G1 & G2 & G3). rewrite G1.
    cbn [fst snd]. by split_and!.
  - pose proof (optimize_refines h O S) as G. destruct (h_optimize h) as [h'|e|].
    + destruct G as (-> & G2 & G3). by split_and!.
    + rewrite G. by split_and!.
    + rewrite G. by split_and!.
  - destruct (reload_cases (view h)) as [[ix' E]|[[e E]|E]]; rewrite E; cbn [fst snd].
    + destruct (h_of_ok ix') as [O' V]. by split_and!.
    + by split_and!.
    + by split_and!.
Qed.

Lemma h_outs_snoc h os o : h_outs h (os ++ [o]) = ((h_step (h_outs h os).1 o).1, (h_outs h os).2 ++ [(h_step (h_outs h os).1 o).2]).
Proof. unfold h_outs. rewrite fold_left_app. cbn [fold_left]. by destruct (h_step _ o). Qed.
Lemma outs_snoc ix os o : outs ix (os ++ [o]) = ((step (outs ix os).1 o).1, (outs ix os).2 ++ [(step (outs ix os).1 o).2]).
Proof. unfold outs. rewrite fold_left_app. cbn [fold_left]. by destruct (step _ o). Qed.
Lemma runs_sorted h ix : runs h ix -> sorted_cols ix.
Proof.
  intros Hr. destruct (runs_refines _ _ Hr) as (ld & _ & T & A). unfold sorted_cols. apply Forall_lookup_2. intros c t Hc.
  apply Forall_lookup_2. intros i s Hi. assert (H2 : at2 (ix_cols ix) c i = Some s) by (unfold at2; by rewrite Hc). by eapply at2_ok in H2 as [H2 _]; [|exact (a_cols _ _ A)].
Qed.
Lemma l_C66_histories : forall h ix, runs h ix ->
  view (h_outs (h_of index_new) h).1 = ix /\ (h_outs (h_of index_new) h).2 = (outs index_new h).2.
Proof.
  intros h ix Hr.
  assert (G : h_ok (h_outs (h_of index_new) h).1 /\ view (h_outs (h_of index_new) h).1 = (outs index_new h).1 /\
              (h_outs (h_of index_new) h).2 = (outs index_new h).2 /\ (outs index_new h).1 = ix).
  { induction Hr as [|h o ix ix' r Hr IH Hok Hstep Hcaps].
    - destruct (h_of_ok index_new) as [O V]. by split_and!.
    - destruct IH as (O & V & E & Ei). rewrite h_outs_snoc, outs_snoc. cbn [fst snd]. rewrite Ei in V.
      destruct (l_C66_step (h_outs (h_of index_new) h).1 o O) as (V' & E' & O' & _). { rewrite V. by eapply runs_sorted. }
      rewrite Ei, V', E', E, V. split; [exact O'|]. by rewrite Hstep. }
  destruct G as (_ & -> & -> & ->). done.
Qed.
Lemma l_C66_no_guard : forall ix os, sorted_cols ix -> OReload ∉ os ->
  view (h_outs (h_of ix) os).1 = (outs ix os).1 /\ (h_outs (h_of ix) os).2 = (outs ix os).2.
Proof.
  intros ix os S. assert (G : OReload ∉ os -> h_ok (h_outs (h_of ix) os).1 /\ view (h_outs (h_of ix) os).1 = (outs ix os).1 /\
              (h_outs (h_of ix) os).2 = (outs ix os).2 /\ sorted_cols (outs ix os).1).
  { induction os as [|o os IH] using rev_ind; intros Hn.
    - destruct (h_of_ok ix) as [O V]. by split_and!.
    - destruct IH as (O & V & E & Es); [intros H; apply Hn, elem_of_app; by left|]. rewrite h_outs_snoc, outs_snoc. cbn [fst snd].
      destruct (l_C66_step (h_outs (h_of ix) os).1 o O) as (V' & E' & O' & S'). { by rewrite V. }
      rewrite V', E', E, V. split; [exact O'|]. split; [done|]. split; [done|]. rewrite V in S'. apply S'.
      intros ->. apply Hn, elem_of_app. right. by left. }
  intros Hn. by destruct (G Hn) as (_ & ? & ? & _).
Qed.

(** ** Any file *)
Definition atn (x : list (list nat)) (c k : nat) : option nat := x !! c ≫= (.!! k).
Definition within_n (x : list (list nat)) (b : nat) : Prop := exists t, t ∈ x /\ b ∈ t.
Lemma atn_within x c k b : atn x c k = Some b -> within_n x b.
Proof. unfold atn. destruct (x !! c) as [t|] eqn:E; [|done]. cbn. intros H. exists t. split; by eapply elem_of_list_lookup_2. Qed.
Lemma at2_contents m x c k : at2 (contents m x) c k = deref m <$> atn x c k.
Proof.
  unfold at2, atn. rewrite contents_lookup. destruct (x !! c) as [t|]; [|done]. cbn.
  change (map (deref m) t) with (deref m <$> t). apply list_lookup_fmap.
Qed.
Lemma extend_atn (x : list (list nat)) n c k b : atn x c k = Some b -> atn (extend_to x n) c k = Some b.
Proof.
  unfold extend_to, atn. destruct (_ <=? _); [|done]. destruct (x !! c) as [t|] eqn:E; [|done].
  erewrite lookup_app_l_Some by exact E. done.
Qed.
(** A table index after a call: old places keep their arrays, new ones hold [a]. *)
Definition grown (x x' : list (list nat)) (a : nat) : Prop :=
  (forall c k b, atn x c k = Some b -> atn x' c k = Some b) /\ (forall b, within_n x' b -> b = a \/ within_n x b).
Lemma insert_grown (x : list (list nat)) n t t' a :
  slice_get (extend_to x n) n = Ok t -> (t' = t \/ t' = t ++ [a]) -> grown x (<[N.to_nat n := t']> (extend_to x n)) a.
Proof.
  intros Ht Ht'. assert (El : extend_to x n !! N.to_nat n = Some t) by (unfold slice_get in Ht; by destruct (_ !! _); simplify_eq).
  pose proof (lookup_lt_Some _ _ _ El) as Hlt. split.
  - intros c k b H. apply (extend_atn x n) in H. unfold atn in *. destruct (decide (c = N.to_nat n)) as [->|Hne].
    + rewrite list_lookup_insert by done. rewrite El in H. cbn in *. destruct Ht' as [->| ->]; [done|]. by apply lookup_app_l_Some.
    + by rewrite list_lookup_insert_ne.
  - intros b (s & Hs & Hb). apply elem_of_list_lookup in Hs as [c Hc].
    assert (Hold : forall s, s ∈ extend_to x n -> b ∈ s -> within_n x b).
    { intros s0 H1 H2. exists s0. split; [by eapply extend_elem|done]. }
    destruct (decide (c = N.to_nat n)) as [->|Hne].
    + rewrite list_lookup_insert in Hc by done. injection Hc as <-. apply elem_of_list_lookup_2 in El.
      destruct Ht' as [->| ->]; [right; by eapply Hold|]. apply elem_of_app in Hb as [Hb|Hb%elem_of_list_singleton]; [right; by eapply Hold|by left].
    + rewrite list_lookup_insert_ne in Hc by done. right. eapply Hold; [by eapply elem_of_list_lookup_2|done].
Qed.
Lemma h_table_index_any m t a m' t' i : h_table_index m t a = (m', t', i) ->
  m' = h_sort m a /\ (t' = t \/ t' = t ++ [a]) /\
  exists k b, i = wrap16 (N.of_nat k) /\ t' !! k = Some b /\ deref m' b = go_sort (deref m a).
Proof.
  unfold h_table_index. cbv zeta.
  assert (E2 : deref (h_sort m a) a = go_sort (deref m a)) by (rewrite deref_sort; by rewrite decide_True).
  destruct (find_pos _ _ 0) as [k|] eqn:E; intros [= <- <- <-].
  - split; [done|]. split; [by left|]. apply find_pos_Some in E as [E _]. change (map ?f t) with (f <$> t) in E.
    rewrite list_lookup_fmap in E. rewrite E2 in E. destruct (t !! k) as [b|] eqn:Eb; [|done]. cbn in E.
    exists k, b. split; [done|]. split; [done|]. by injection E.
  - split; [done|]. split; [by right|]. exists (length t), a. split; [done|]. split; [|done]. by rewrite lookup_app_r, Nat.sub_diag by lia.
Qed.
Lemma insert_at (x : list (list nat)) n t t' k b :
  slice_get (extend_to x n) n = Ok t -> t' !! k = Some b -> atn (<[N.to_nat n := t']> (extend_to x n)) (N.to_nat n) k = Some b.
Proof.
  intros Ht Hk. assert (El : extend_to x n !! N.to_nat n = Some t) by (unfold slice_get in Ht; by destruct (_ !! _); simplify_eq).
  unfold atn. rewrite list_lookup_insert by (by eapply lookup_lt_Some). done.
Qed.
Lemma h_tagset_index_any m x a m' x' i : h_tagset_index m x a = Ok (m', x', i) ->
  (m' = m \/ m' = h_sort m a) /\ grown x x' a /\
  (deref m a <> [] -> exists c k b, i = combine16 (wrap16 (N.of_nat c)) (wrap16 (N.of_nat k)) /\ atn x' c k = Some b /\ deref m' b = go_sort (deref m a)).
Proof.
  unfold h_tagset_index. destruct (lenN (deref m a) =? 0) eqn:E0.
  { intros [= <- <- <-]. split; [by left|]. split; [split; [done|by right]|]. intros Hn. destruct (deref m a); [done|]. cbn in E0. lia. }
  cbv zeta. set (c := lenN (deref m a) - 1). destruct (slice_get (extend_to x c) c) as [t| |] eqn:Et; cbn [mbind res_bind]; try done.
  destruct (h_table_index m t a) as [[m1 t'] j] eqn:Eh. intros [= <- <- <-].
  destruct (h_table_index_any _ _ _ _ _ _ Eh) as (-> & Ht' & k & b & -> & Hk & Hb).
  split; [by right|]. split; [by eapply insert_grown|]. intros _. exists (N.to_nat c), k, b. rewrite N2Nat.id. split; [done|]. split; [by eapply insert_at|done].
Qed.
Lemma h_variants_index_any m x a m' x' i : h_variants_index m x a = Ok (m', x', i) ->
  (m' = m \/ m' = h_sort m a) /\ grown x x' a /\
  (deref m a <> [] -> exists c k b, N.of_nat c = wrap16 (lenN (deref m a) - 1) /\
     i = combine16 (wrap16 (N.of_nat c + 1)) (wrap16 (N.of_nat k)) /\ atn x' c k = Some b /\ deref m' b = go_sort (deref m a)).
Proof.
  unfold h_variants_index. destruct (lenN (deref m a) =? 0) eqn:E0.
  { intros [= <- <- <-]. split; [by left|]. split; [split; [done|by right]|]. intros Hn. destruct (deref m a); [done|]. cbn in E0. lia. }
  cbv zeta.
  assert (E2 : deref (h_sort m a) a = go_sort (deref m a)) by (rewrite deref_sort; by rewrite decide_True).
  assert (Ess : h_sort (h_sort m a) a = h_sort m a) by (apply h_sort_id; rewrite E2; apply go_sort_sorted).
  rewrite E2, go_sort_lenN. set (c := wrap16 (lenN (deref m a) - 1)).
  destruct (slice_get (extend_to x c) c) as [t| |] eqn:Et; cbn [mbind res_bind]; try done.
  destruct (h_table_index (h_sort m a) t a) as [[m1 t'] j] eqn:Eh. intros [= <- <- <-].
  destruct (h_table_index_any _ _ _ _ _ _ Eh) as (-> & Ht' & k & b & -> & Hk & Hb). rewrite Ess, E2, go_sort_idem in *.
  split; [by right|]. split; [by eapply insert_grown|]. intros _. exists (N.to_nat c), k, b. rewrite N2Nat.id. split; [done|]. split; [done|]. split; [by eapply insert_at|done].
Qed.
Lemma h_variants_get_any m x id m' a : h_variants_get m x id = Ok (m', a) ->
  (m' = m ++ [[]] /\ a = length m /\ id32_upper id = 0) \/ (m' = m /\ id32_upper id <> 0 /\ atn x (N.to_nat (id32_upper id) - 1) (N.to_nat (id32_lower id)) = Some a).
Proof.
  unfold h_variants_get, h_alloc. destruct (id =? 0) eqn:E0. { intros [= <- <-]. left. apply N.eqb_eq in E0 as ->. done. }
  destruct (_ <? 1) eqn:E1. { intros [= <- <-]. left. apply N.ltb_lt in E1. split; [done|]. split; [done|]. lia. }
  apply N.ltb_ge in E1. unfold slice_get, atn. replace (N.to_nat (id32_upper id) - 1)%nat with (N.to_nat (id32_upper id - 1)) by lia.
  destruct (x !! _) as [t|]; [|done]. cbn. destruct (t !! _) as [b|]; [|done]. cbn. intros [= <- <-]. right. split; [done|]. split; [lia|done].
Qed.
(** Tag sets and collections are different arrays. *)
Definition apart (h : hix) : Prop := forall b, within_n (hx_sets h) b -> ~ within_n (hx_cols h) b.
Definition fine (h : hix) : Prop := h_ok h /\ apart h.
Lemma within_ok m x b : addrs_ok m x -> within_n x b -> (b < length m)%nat.
Proof. intros H (t & H1 & H2). exact (addrs_ok_elem _ _ _ _ H H1 H2). Qed.
Lemma ok_within m x : (forall b, within_n x b -> (b < length m)%nat) -> addrs_ok m x.
Proof. intros H. apply Forall_forall. intros t Ht. apply Forall_forall. intros b Hb. apply H. by exists t. Qed.
Lemma slice_set_ne (l : list item) f i j : i <> j -> slice_get (alter f (N.to_nat i) l) j = slice_get l j.
Proof. intros H. unfold slice_get. rewrite list_lookup_alter_ne by lia. done. Qed.
Lemma tag_any h id names h' r : fine h -> h_add_tag_set h id names = (h', r) ->
  fine h' /\
  (forall b, (b < length (hx_mem h))%nat -> (b < length (hx_mem h'))%nat /\ (deref (hx_mem h') b = deref (hx_mem h) b \/
     within_n (hx_cols h) b /\ deref (hx_mem h') b = go_sort (deref (hx_mem h) b))) /\
  (forall c k b, atn (hx_sets h) c k = Some b -> atn (hx_sets h') c k = Some b /\ deref (hx_mem h') b = deref (hx_mem h) b) /\
  (forall c k b, atn (hx_cols h) c k = Some b -> atn (hx_cols h') c k = Some b /\
     (deref (hx_mem h') b = deref (hx_mem h) b \/ deref (hx_mem h') b = go_sort (deref (hx_mem h) b))) /\
  (forall n, n <> id -> get_item (hx_ix h') n = get_item (hx_ix h) n) /\ ix_tags (hx_ix h') = ix_tags (hx_ix h) /\
  (forall ids it, r = Ok tt -> names_to_ids (ix_tags (hx_ix h)) names = Ok ids -> ids <> [] ->
     get_item (hx_ix h) id = Ok (Some it) -> within 65536 65536 (contents (hx_mem h') (hx_sets h')) = true ->
     within 65535 65536 (contents (hx_mem h') (hx_cols h')) = true ->
     exists old sid v, variants_get (contents (hx_mem h) (hx_cols h)) (it_variants it) = Ok old /\
       (lenN old < 65535 ->
        tagset_get (contents (hx_mem h') (hx_sets h')) sid = Some (go_sort ids) /\
        get_item (hx_ix h') id = Ok (Some (mkItem (it_parent it) (it_id it) (it_letter it) v)) /\
        variants_get (contents (hx_mem h') (hx_cols h')) v = Ok (go_sort (if collection_has old sid then old else old ++ [sid])))).
Proof.
  intros [[O1 O2] Hap]. unfold h_add_tag_set.
  assert (Hsame : forall e : res unit, e <> Ok tt -> (h, e) = (h', r) -> fine h' /\
  (forall b, (b < length (hx_mem h))%nat -> (b < length (hx_mem h'))%nat /\ (deref (hx_mem h') b = deref (hx_mem h) b \/
     within_n (hx_cols h) b /\ deref (hx_mem h') b = go_sort (deref (hx_mem h) b))) /\
  (forall c k b, atn (hx_sets h) c k = Some b -> atn (hx_sets h') c k = Some b /\ deref (hx_mem h') b = deref (hx_mem h) b) /\
  (forall c k b, atn (hx_cols h) c k = Some b -> atn (hx_cols h') c k = Some b /\
     (deref (hx_mem h') b = deref (hx_mem h) b \/ deref (hx_mem h') b = go_sort (deref (hx_mem h) b))) /\
  (forall n, n <> id -> get_item (hx_ix h') n = get_item (hx_ix h) n) /\ ix_tags (hx_ix h') = ix_tags (hx_ix h) /\
  r <> Ok tt).
  { intros e He [= <- <-]. split; [done|]. split; [intros b Hb; split; [done|by left]|]. split; [done|]. split; [intros c k b H; split; [done|by left]|]. done. }
  assert (Hsame' : forall e : res unit, e <> Ok tt -> (h, e) = (h', r) -> fine h' /\
  (forall b, (b < length (hx_mem h))%nat -> (b < length (hx_mem h'))%nat /\ (deref (hx_mem h') b = deref (hx_mem h) b \/
     within_n (hx_cols h) b /\ deref (hx_mem h') b = go_sort (deref (hx_mem h) b))) /\
  (forall c k b, atn (hx_sets h) c k = Some b -> atn (hx_sets h') c k = Some b /\ deref (hx_mem h') b = deref (hx_mem h) b) /\
  (forall c k b, atn (hx_cols h) c k = Some b -> atn (hx_cols h') c k = Some b /\
     (deref (hx_mem h') b = deref (hx_mem h) b \/ deref (hx_mem h') b = go_sort (deref (hx_mem h) b))) /\
  (forall n, n <> id -> get_item (hx_ix h') n = get_item (hx_ix h) n) /\ ix_tags (hx_ix h') = ix_tags (hx_ix h) /\
  (forall ids it, r = Ok tt -> names_to_ids (ix_tags (hx_ix h)) names = Ok ids -> ids <> [] ->
     get_item (hx_ix h) id = Ok (Some it) -> within 65536 65536 (contents (hx_mem h') (hx_sets h')) = true ->
     within 65535 65536 (contents (hx_mem h') (hx_cols h')) = true ->
     exists old sid v, variants_get (contents (hx_mem h) (hx_cols h)) (it_variants it) = Ok old /\
       (lenN old < 65535 ->
        tagset_get (contents (hx_mem h') (hx_sets h')) sid = Some (go_sort ids) /\
        get_item (hx_ix h') id = Ok (Some (mkItem (it_parent it) (it_id it) (it_letter it) v)) /\
        variants_get (contents (hx_mem h') (hx_cols h')) v = Ok (go_sort (if collection_has old sid then old else old ++ [sid]))))).
  { intros e He E. destruct (Hsame e He E) as (? & ? & ? & ? & ? & ? & ?). do 6 (split; [assumption|]). intros ids it Hr. contradiction. }
  clear Hsame.
  destruct (names_to_ids _ names) as [ids|e|] eqn:En; [|by apply Hsame'|by apply Hsame'].
  destruct (get_item (hx_ix h) id) as [[it|]|e|] eqn:Eit; [|by apply Hsame'..].
  unfold h_alloc. set (m := hx_mem h) in *. set (ts := length m).
  destruct (h_variants_get (m ++ [ids]) (hx_cols h) (it_variants it)) as [[m1 old]|e|] eqn:E1; cbn [mbind res_bind]; [|by apply Hsame'..].
  destruct (h_tagset_index m1 (hx_sets h) ts) as [[[m2 sets] sid]|e|] eqn:E2; cbn [mbind res_bind]; [|by apply Hsame'..].
  destruct (h_add m2 old sid) as [m3 col] eqn:E3.
  destruct (h_variants_index m3 (hx_cols h) col) as [[[m4 cols] v]|e|] eqn:E4; cbn [mbind res_bind]; [|by apply Hsame'..].
  clear Hsame'. intros [= <- <-]. cbn [hx_mem hx_sets hx_cols hx_ix].
  (* the slice of the collection *)
  assert (A1 : (length m < length m1)%nat /\ (forall b, (b < S (length m))%nat -> deref m1 b = deref (m ++ [ids]) b) /\
     (old < length m1)%nat /\ (old < length m -> within_n (hx_cols h) old)%nat /\ (length m <= old -> length m < old)%nat).
  { apply h_variants_get_any in E1 as [(-> & -> & _)|(-> & _ & Ha)].
    - rewrite !app_length. cbn. split; [lia|]. split; [|lia]. intros b Hb. apply deref_app. rewrite app_length. cbn. lia.
    - pose proof (atn_within _ _ _ _ Ha) as Hw. pose proof (within_ok _ _ _ O2 Hw) as Hl. fold m in Hl. rewrite app_length. cbn.
      split; [lia|]. split; [done|]. split; [lia|]. split; [done|]. lia. }
  destruct A1 as (L1 & D1 & Ho1 & Ho2 & Ho3).
  destruct (h_tagset_index_any _ _ _ _ _ _ E2) as (M2 & Gs & Ps).
  assert (Ets : deref m1 ts = ids) by (rewrite D1 by (unfold ts; lia); apply deref_new).
  assert (A2 : length m2 = length m1 /\ forall b, b <> ts -> deref m2 b = deref m1 b).
  { destruct M2 as [->| ->]; [done|]. rewrite h_sort_length. split; [done|]. intros b Hb. rewrite deref_sort. by rewrite decide_False. }
  destruct A2 as [L2 D2].
  assert (Eold : deref m2 old = deref m1 old) by (apply D2; unfold ts; destruct (decide (old < length m)%nat); lia).
  assert (A3 : (length m2 <= length m3)%nat /\ (forall b, (b < length m2)%nat -> deref m3 b = deref m2 b) /\ (col < length m3)%nat /\
     (col = old \/ (length m2 <= col)%nat) /\
     go_sort (deref m3 col) = go_sort (if collection_has (deref m2 old) sid then deref m2 old else deref m2 old ++ [sid]) /\
     length (deref m3 col) = length (if collection_has (deref m2 old) sid then deref m2 old else deref m2 old ++ [sid])).
  { unfold h_add, h_alloc in E3. destruct (collection_has (deref m2 old) sid) eqn:Eh; injection E3 as <- <-.
    - split; [lia|]. split; [done|]. split; [lia|]. split; [by left|done].
    - rewrite h_sort_length, app_length. cbn. split; [lia|]. split; [|split; [lia|]].
      + intros b Hb. rewrite deref_sort, decide_False by lia. by apply deref_app.
      + split; [by right|]. rewrite deref_sort, decide_True, deref_new by done. by rewrite go_sort_idem, go_sort_length. }
  destruct A3 as (L3 & D3 & Hc1 & Hc2 & Ec & Ecl).
  destruct (h_variants_index_any _ _ _ _ _ _ E4) as (M4 & Gc & Pc).
  assert (A4 : length m4 = length m3 /\ (forall b, b <> col -> deref m4 b = deref m3 b) /\ (deref m4 col = deref m3 col \/ deref m4 col = go_sort (deref m3 col))).
  { destruct M4 as [->| ->]; [split; [done|]; split; [done|by left]|]. rewrite h_sort_length. split; [done|]. split.
    - intros b Hb. rewrite deref_sort. by rewrite decide_False.
    - right. rewrite deref_sort. by rewrite decide_True. }
  destruct A4 as (L4 & D4 & D4').
  assert (Dold : forall b, (b < length m)%nat -> deref m3 b = deref m b).
  { intros b Hb. rewrite D3 by lia. rewrite D2 by (unfold ts; lia). rewrite D1 by lia. by apply deref_app. }
  assert (Dm : forall b, (b < length m)%nat -> b <> col -> deref m4 b = deref m b).
  { intros b Hb Hn. rewrite D4 by done. by apply Dold. }
  assert (Wc : (col < length m)%nat -> within_n (hx_cols h) col).
  { intros Hl. destruct Hc2 as [->|Hc2]; [by apply Ho2|lia]. }
  (* sets keep their arrays *)
  assert (Ds : forall b, within_n (hx_sets h) b -> deref m4 b = deref m b).
  { intros b Hb. pose proof (within_ok _ _ _ O1 Hb) as Hl. apply Dm; [done|]. intros ->. by eapply Hap; [exact Hb|apply Wc]. }
  split; [|split; [|split; [|split; [|split; [|split]]]]].
  - split; [split|].
    + apply ok_within. intros b Hb. cbn [hx_mem hx_sets] in *. destruct (proj2 Gs b Hb) as [->|Hb']; [unfold ts; lia|].
      pose proof (within_ok _ _ _ O1 Hb') as Hl. fold m in Hl. lia.
    + apply ok_within. intros b Hb. cbn [hx_mem hx_cols] in *. destruct (proj2 Gc b Hb) as [->|Hb']; [lia|].
      pose proof (within_ok _ _ _ O2 Hb') as Hl. fold m in Hl. lia.
    + intros b Hb1 Hb2. cbn [hx_sets hx_cols] in *. apply (proj2 Gs) in Hb1. apply (proj2 Gc) in Hb2.
      destruct Hb1 as [->|Hb1], Hb2 as [Hb2|Hb2].
      * unfold ts in Hb2. destruct Hc2 as [->|Hc2]; [|lia]. destruct (decide (old < length m)%nat); lia.
      * pose proof (within_ok _ _ _ O2 Hb2) as Hl. fold m in Hl. unfold ts in Hl. lia.
      * subst b. pose proof (within_ok _ _ _ O1 Hb1) as Hl. by eapply Hap; [exact Hb1|apply Wc].
      * by eapply Hap.
  - intros b Hb. split; [lia|]. destruct (decide (b = col)) as [->|Hn]; [|left; by apply Dm].
    rewrite (Dold col Hb) in D4'. destruct D4' as [D4'|D4']; [by left|]. right. split; [by apply Wc|done].
  - intros c k b Hb. split; [by apply (proj1 Gs)|]. apply Ds. by eapply atn_within.
  - intros c k b Hb. split; [by apply (proj1 Gc)|]. pose proof (within_ok _ _ _ O2 (atn_within _ _ _ _ Hb)) as Hl. fold m in Hl.
    destruct (decide (b = col)) as [->|Hn]; [|left; by apply Dm]. rewrite (Dold col Hl) in D4'. done.
  - intros n Hn. unfold get_item, items_get. cbn [ix_items set_words set_items set_variants its_next its_list]. unfold set_variants. cbn [its_next its_list].
    by rewrite slice_set_ne.
  - done.
  - intros ids' it' _ [= <-] Hne [= <-] W1 W2.
    assert (Eo : variants_get (contents m (hx_cols h)) (it_variants it) = Ok (deref m1 old)).
    { rewrite variants_get_at2. apply h_variants_get_any in E1 as [(-> & -> & ->)|(-> & Hu & Ha)].
      - cbn. by rewrite deref_new.
      - destruct (N.eqb_spec (id32_upper (it_variants it)) 0); [done|]. rewrite at2_contents, Ha. cbn. f_equal.
        rewrite deref_app; [done|]. by eapply within_ok, atn_within. }
    exists (deref m1 old), sid, v. split; [exact Eo|]. intros Hlen.
    assert (Hbig : forall x tc c k b, within tc 65536 (contents m4 x) = true -> atn x c k = Some b -> N.of_nat c < tc /\ N.of_nat k < 65536).
    { intros x tc c k b Hw Hb. unfold within in Hw. apply andb_true_iff in Hw as [H1 H2]. apply N.leb_le in H1.
      unfold lenN in H1. rewrite contents_length in H1. unfold atn in Hb. destruct (x !! c) as [t|] eqn:Et; [|done]. cbn in Hb.
      apply lookup_lt_Some in Hb as Hk. pose proof (lookup_lt_Some _ _ _ Et) as Hc. split; [lia|].
      rewrite forallb_forall in H2. specialize (H2 (map (deref m4) t)). unfold lenN in H2. rewrite map_length in H2.
      assert (Hin : In (map (deref m4) t) (contents m4 x)) by (unfold contents; apply in_map; apply elem_of_list_In; by eapply elem_of_list_lookup_2).
      specialize (H2 Hin). apply N.leb_le in H2. lia. }
    destruct Ps as (c & k & b & -> & Hb & Hd); [by rewrite Ets|].
    destruct (Hbig _ _ _ _ _ W1 Hb) as [Hc Hk]. rewrite !wrap16_small in * by done. set (sid := combine16 _ _) in *.
    assert (Hbd : deref m4 b = go_sort ids).
    { rewrite <- Ets, <- Hd. destruct (proj2 Gs b (atn_within _ _ _ _ Hb)) as [->|Hw].
      - rewrite D4; [apply D3; unfold ts; lia|]. unfold ts. destruct Hc2 as [->|Hc2]; [|lia]. destruct (decide (old < length m)%nat); lia.
      - rewrite (Ds b Hw). pose proof (within_ok _ _ _ O1 Hw) as Hl. fold m in Hl. rewrite <- (Dold b Hl). apply D3. lia. }
    destruct Pc as (c' & k' & b' & Ec' & -> & Hb' & Hd').
    { intros E. rewrite E in Ecl. cbn in Ecl. destruct (collection_has (deref m2 old) sid) eqn:Eh; [|rewrite app_length in Ecl; cbn in Ecl; lia].
      destruct (deref m2 old); done. }
    assert (Hl3 : lenN (deref m3 col) - 1 < 65535).
    { unfold lenN in *. rewrite Ecl, Eold. destruct (collection_has (deref m1 old) sid); [lia|]. rewrite app_length. cbn [length]. lia. }
    rewrite wrap16_small in Ec' by lia.
    destruct (Hbig _ _ _ _ _ W2 Hb') as [Hc' Hk']. rewrite !wrap16_small by lia.
    split; [|split].
    + rewrite tagset_get_at2. unfold sid. rewrite upper_combine16, lower_combine16, !Nat2N.id by done. rewrite at2_contents, Hb. cbn. by rewrite Hbd.
    + unfold get_item, items_get in *. cbn [ix_items set_words set_items its_next its_list]. unfold set_variants. cbn [its_next its_list].
      destruct (id =? 0); [done|]. destruct (_ <=? id); [done|]. unfold slice_get in *. rewrite list_lookup_alter.
      destruct (its_list _ !! N.to_nat id) as [it2|]; [|done]. cbn in *. injection Eit as ->. done.
    + rewrite variants_get_at2, upper_combine16, lower_combine16 by lia. rewrite (proj2 (N.eqb_neq _ _)) by lia.
      replace (N.to_nat (N.of_nat c' + 1) - 1)%nat with c' by lia. rewrite Nat2N.id, at2_contents, Hb'. cbn. f_equal.
      rewrite Hd', Ec, Eold. done.
Qed.

Lemma opt_build_any cols used known : forall m new repl m' new' repl',
  addrs_ok m cols -> (forall b, within_n new b -> within_n cols b) ->
  h_opt_build m cols used known new repl = Ok (m', new', repl') ->
  (length m <= length m')%nat /\ (forall b, within_n new' b -> within_n cols b).
Proof.
  induction known as [|cid known IH]; intros m new repl m' new' repl' O1 Hn; cbn [h_opt_build]; [by intros [= <- <- _]|].
  destruct (used !! cid); [|by apply IH].
  destruct (h_variants_get m cols cid) as [[m1 a]| |] eqn:E1; cbn [mbind res_bind]; [|done..].
  destruct (h_variants_index m1 new a) as [[[m2 new1] nid]| |] eqn:E2; cbn [mbind res_bind]; [|done..].
  destruct (h_variants_get m2 new1 nid) as [[m3 b]| |] eqn:E3; cbn [mbind res_bind]; [|done..].
  destruct (equal_to _ _); [|done]. intros E.
  assert (A1 : (length m <= length m1)%nat /\ (within_n cols a \/ deref m1 a = [])).
  { apply h_variants_get_any in E1 as [(-> & -> & _)|(-> & _ & Ha)].
    - rewrite app_length. split; [lia|]. right. apply deref_new.
    - split; [done|]. left. by eapply atn_within. }
  destruct A1 as [L1 Wa].
  destruct (h_variants_index_any _ _ _ _ _ _ E2) as (M2 & G2 & _).
  assert (L2 : length m2 = length m1) by (destruct M2 as [->| ->]; [done|apply h_sort_length]).
  assert (Wn : forall c, within_n new1 c -> within_n cols c).
  { destruct Wa as [Wa|Wa].
    - intros c Hc. destruct (proj2 G2 c Hc) as [->|Hc']; [done|by apply Hn].
    - unfold h_variants_index in E2. rewrite Wa in E2. cbn in E2. injection E2 as <- <- _. done. }
  assert (L3 : (length m2 <= length m3)%nat).
  { apply h_variants_get_any in E3 as [(-> & _)|(-> & _)]; [rewrite app_length; lia|done]. }
  eapply IH in E as [L W]; [split; [lia|done]| |done]. eapply addrs_ok_mono; [|exact O1]. lia.
Qed.
Lemma optimize_fine h h' : fine h -> h_optimize h = Ok h' -> fine h'.
Proof.
  intros [[O1 O2] Hap]. unfold h_optimize. cbv zeta. destruct (filter _ _); [intros [= <-]; done|].
  destruct (h_opt_build _ _ _ _ _ _) as [[[m new] repl]| |] eqn:E; cbn [mbind res_bind]; [|done..].
  apply opt_build_any in E as [L W]; [|done|intros b (t & Ht & _); by apply elem_of_nil in Ht].
  destruct (opt_replace _ _ _ _ _) as [its| |]; cbn [mbind res_bind]; [|done..]. intros [= <-].
  split; [split|]; cbn [hx_mem hx_sets hx_cols].
  - by eapply addrs_ok_mono.
  - apply ok_within. intros b Hb. pose proof (within_ok _ _ _ O2 (W b Hb)). lia.
  - intros b H1 H2. by eapply Hap; [exact H1|apply W].
Qed.
Lemma place_within (x : list (list (list N))) : forall n b, within_n (place n x) b <-> (n <= b < n + length (concat x))%nat.
Proof.
  induction x as [|t x IH]; intros n b; cbn [place concat].
  - split; [intros (t & Ht & _); by apply elem_of_nil in Ht|cbn; lia].
  - rewrite app_length. split.
    + intros (s & [->|Hs]%elem_of_cons & Hb); [apply elem_of_seq in Hb; lia|].
      assert (H : within_n (place (n + length t) x) b) by (by exists s). apply IH in H. lia.
    + intros Hb. destruct (decide (b < n + length t)%nat) as [H|H].
      * exists (seq n (length t)). split; [by left|]. apply elem_of_seq. lia.
      * assert (H1 : within_n (place (n + length t) x) b) by (apply IH; lia). destruct H1 as (s & H1 & H2). exists s. split; [by right|done].
Qed.
Lemma h_of_fine ix : fine (h_of ix).
Proof.
  split; [apply h_of_ok|]. intros b. unfold h_of. cbn [hx_sets hx_cols]. rewrite !place_within. lia.
Qed.
Lemma step_fine h o : fine h -> fine (h_step h o).1.
Proof.
  intros F. assert (Fw : forall ix', fine (h_with h ix')) by (intros ix'; exact F).
  destruct o as [w|w|n p|w names| |]; cbn [h_step].
  - by destruct (add_runes _ _).
  - by destruct (fetch_runes _ _).
  - by destruct (index_tag_id _ _ _).
  - destruct (fetch_runes _ _) as [ix1 [id|e|]]; [|by apply Fw..].
    destruct (h_add_tag_set (h_with h ix1) id names) as [h2 r] eqn:E. cbn [fst]. by apply (tag_any _ _ _ _ _ (Fw ix1)) in E as [? _].
  - destruct (h_optimize h) as [h'|e|] eqn:E; [|done..]. by eapply optimize_fine.
  - destruct (reload (view h)) as [ix' [n|e|]]; [|done..]. apply h_of_fine.
Qed.
Lemma outs_fine ix os : fine (h_outs (h_of ix) os).1.
Proof. induction os as [|o os IH] using rev_ind; [apply h_of_fine|]. rewrite h_outs_snoc. by apply step_fine. Qed.

Lemma fetch_loop_rest rest : forall ix p, ix_items (fetch_loop ix p rest).1 = ix_items ix /\ ix_tags (fetch_loop ix p rest).1 = ix_tags ix.
Proof.
  induction rest as [|r rest IH]; intros ix p; [done|]. cbn [fetch_loop].
  destruct (child _ p r) as [n|]; [|done]. destruct rest; [done|]. destruct (IH (ensure_children ix p) n) as [-> ->]. done.
Qed.
Lemma fetch_runes_rest ix w : ix_items (fetch_runes ix w).1 = ix_items ix /\ ix_tags (fetch_runes ix w).1 = ix_tags ix.
Proof. unfold fetch_runes, fetch_from_item. destruct w; [done|]. apply fetch_loop_rest. Qed.

Lemma tag_step_any h w names : fine h ->
  let h' := (h_step h (OTag w names)).1 in
  (forall s ids, tagset_get (ix_sets (view h)) s = Some ids -> tagset_get (ix_sets (view h')) s = Some ids) /\
  (forall v c, variants_get (ix_cols (view h)) v = Ok c -> exists c', variants_get (ix_cols (view h')) v = Ok c' /\ (c' = c \/ c' = go_sort c)) /\
  (forall n, (fetch_runes (view h) w).2 <> Ok n -> get_item (view h') n = get_item (view h) n) /\ ix_tags (view h') = ix_tags (view h).
Proof.
  intros F h'. unfold h'. clear h'. cbn [h_step].
  pose proof (fetch_runes_rest (view h) w) as [Ei Et]. destruct (fetch_runes (view h) w) as [ix1 r] eqn:Ef. cbn [fst snd] in *.
  assert (Hno : let h' := h_with h ix1 in
    (forall s ids, tagset_get (ix_sets (view h)) s = Some ids -> tagset_get (ix_sets (view h')) s = Some ids) /\
    (forall v c, variants_get (ix_cols (view h)) v = Ok c -> exists c', variants_get (ix_cols (view h')) v = Ok c' /\ (c' = c \/ c' = go_sort c)) /\
    (forall n, get_item (view h') n = get_item (view h) n) /\ ix_tags (view h') = ix_tags (view h)).
  { cbv zeta. split; [done|]. split; [intros v c H; exists c; split; [exact H|by left]|]. split; [|exact Et].
    intros n. unfold get_item. change (ix_items (view (h_with h ix1))) with (ix_items ix1). by rewrite Ei. }
  destruct r as [id|e|]; cbn [fst].
  2,3: destruct Hno as (H1 & H2 & H3 & H4); split; [exact H1|]; split; [exact H2|]; split; [intros n _; apply H3|exact H4].
  destruct Hno as (H1 & H2 & H3 & H4).
  destruct (h_add_tag_set (h_with h ix1) id names) as [h2 r2] eqn:Ea. cbn [fst].
  apply (tag_any (h_with h ix1) _ _ _ _ F) in Ea as (_ & _ & Ds & Dc & Di & Dt & _).
  split; [|split; [|split]].
  - intros s ids Hs. rewrite tagset_get_at2 in *. cbn [view ix_sets] in *. rewrite at2_contents in *.
    destruct (atn (hx_sets h) _ _) as [b|] eqn:Eb; [|done]. cbn in Hs. destruct (Ds _ _ _ Eb) as [-> Hd]. cbn. rewrite Hd. exact Hs.
  - intros v c Hv. rewrite variants_get_at2 in *. cbn [view ix_cols] in *. rewrite at2_contents in *.
    destruct (id32_upper v =? 0); [exists c; split; [done|by left]|].
    destruct (atn (hx_cols h) _ _) as [b|] eqn:Eb; [|done]. cbn in Hv. injection Hv as <-. destruct (Dc _ _ _ Eb) as [-> Hd]. cbn.
    eexists. split; [done|]. exact Hd.
  - intros n Hn. etrans; [|apply H3]. apply Di. congruence.
  - etrans; [|exact H4]. exact Dt.
Qed.
Lemma l_C66_any_file : forall ix os w names n it c,
  let h := (h_outs (h_of ix) os).1 in
  let h' := (h_outs (h_of ix) (os ++ [OTag w names])).1 in
  get_item (view h) n = Ok (Some it) -> variants_get (ix_cols (view h)) (it_variants it) = Ok c ->
  (fetch_runes (view h) w).2 <> Ok n ->
  get_item (view h') n = Ok (Some it) /\
  (exists c', variants_get (ix_cols (view h')) (it_variants it) = Ok c' /\ c' ≡ₚ c /\ (Sorted N.le c -> c' = c)) /\
  forall s ids, tagset_get (ix_sets (view h)) s = Some ids -> tagset_get (ix_sets (view h')) s = Some ids.
Proof.
  intros ix os w names n it c h h' Hi Hc Hn. unfold h'. rewrite h_outs_snoc. cbn [fst]. fold h.
  destruct (tag_step_any h w names (outs_fine ix os)) as (H1 & H2 & H3 & _).
  split; [by rewrite H3|]. split; [|exact H1]. destruct (H2 _ _ Hc) as (c' & E & Hc'). exists c'. split; [exact E|]. split.
  - destruct Hc' as [->| ->]; [done|apply go_sort_perm].
  - intros S. destruct Hc' as [->| ->]; [done|]. by apply go_sort_id.
Qed.
Lemma resolve_map ix col : Forall (fun s => is_Some (tagset_get (ix_sets ix) s)) col ->
  resolve_sets ix col = map (fun s => map (fun t => default zero_tag (tags_get (ix_tags ix) t)) (default [] (tagset_get (ix_sets ix) s))) col.
Proof. induction 1 as [|s col [ids Hs] _ IH]; [done|]. cbn. rewrite Hs, IH. done. Qed.
Lemma l_C66_any_file_tags : forall ix os w names n it c l,
  let h := (h_outs (h_of ix) os).1 in
  let h' := (h_outs (h_of ix) (os ++ [OTag w names])).1 in
  get_item (view h) n = Ok (Some it) -> variants_get (ix_cols (view h)) (it_variants it) = Ok c ->
  (forall s, s ∈ c -> tagset_get (ix_sets (view h)) s <> None) ->
  (fetch_runes (view h) w).2 <> Ok n -> node_tag_sets (view h) n = Ok l ->
  exists l', node_tag_sets (view h') n = Ok l' /\ l' ≡ₚ l.
Proof.
  intros ix os w names n it c l h h' Hi Hc Hr Hn Hl.
  destruct (l_C66_any_file ix os w names n it c Hi Hc Hn) as (Hi' & (c' & Hc' & Hp & _) & Hs). fold h' in Hi', Hc', Hs. fold h in Hs.
  assert (Ht : ix_tags (view h') = ix_tags (view h)).
  { unfold h'. rewrite h_outs_snoc. cbn [fst]. fold h. by destruct (tag_step_any h w names (outs_fine ix os)) as (_ & _ & _ & ?). }
  unfold node_tag_sets in *. rewrite Hi in Hl. rewrite Hi'. cbn [mbind res_bind] in *. rewrite Hc in Hl. rewrite Hc'. cbn [mbind res_bind] in *.
  injection Hl as <-. eexists. split; [done|].
  assert (F : Forall (fun s => is_Some (tagset_get (ix_sets (view h)) s)) c).
  { apply Forall_forall. intros s H. apply not_eq_None_Some. by apply Hr. }
  assert (F' : Forall (fun s => is_Some (tagset_get (ix_sets (view h')) s)) c').
  { rewrite Hp. eapply Forall_impl; [exact F|]. intros s [ids H]. exists ids. by apply Hs. }
  rewrite (resolve_map _ _ F), (resolve_map _ _ F'), Ht.
  assert (E : map (fun s => map (fun t => default zero_tag (tags_get (ix_tags (view h)) t)) (default [] (tagset_get (ix_sets (view h')) s))) c' =
              map (fun s => map (fun t => default zero_tag (tags_get (ix_tags (view h)) t)) (default [] (tagset_get (ix_sets (view h)) s))) c').
  { apply map_ext_in. intros s Hin. apply elem_of_list_In in Hin. assert (Hin' : s ∈ c) by (by rewrite <- Hp).
    eapply Forall_forall in F as [ids H]; [|exact Hin']. by rewrite H, (Hs _ _ H). }
  rewrite E. by apply Permutation_map.
Qed.
Lemma l_C66_any_file_own : forall ix os w names id ids it,
  let h := (h_outs (h_of ix) os).1 in
  let h' := (h_outs (h_of ix) (os ++ [OTag w names])).1 in
  (fetch_runes (view h) w).2 = Ok id -> get_item (view h) id = Ok (Some it) ->
  names_to_ids (ix_tags (view h)) names = Ok ids -> ids <> [] ->
  (h_step h (OTag w names)).2 <> Panic -> caps (view h') = true ->
  exists old sid v, variants_get (ix_cols (view h)) (it_variants it) = Ok old /\
    (lenN old < 65535 ->
     tagset_get (ix_sets (view h')) sid = Some (go_sort ids) /\
     get_item (view h') id = Ok (Some (mkItem (it_parent it) (it_id it) (it_letter it) v)) /\
     variants_get (ix_cols (view h')) v = Ok (go_sort (if bool_decide (sid ∈ old) then old else sid :: old))).
Proof.
  intros ix os w names id ids it h h' Hf Hi Hn Hne Hp Hcap. unfold h' in *. clear h'. rewrite h_outs_snoc in *. cbn [fst] in *. fold h in Hcap |- *.
  cbn [h_step] in *.
  pose proof (fetch_runes_rest (view h) w) as [Ei Et]. destruct (fetch_runes (view h) w) as [ix1 r] eqn:Ef. cbn [fst snd] in *. subst r.
  destruct (h_add_tag_set (h_with h ix1) id names) as [h2 r2] eqn:Ea. cbn [fst snd] in *.
  assert (Hi1 : get_item (hx_ix (h_with h ix1)) id = Ok (Some it)) by (unfold get_item; cbn [hx_ix h_with]; rewrite Ei; exact Hi).
  assert (Hn1 : names_to_ids (ix_tags (hx_ix (h_with h ix1))) names = Ok ids) by (cbn [hx_ix h_with]; rewrite Et; exact Hn).
  assert (Hr : r2 = Ok tt).
  { revert Ea Hp. unfold h_add_tag_set. rewrite Hn1, Hi1. destruct (h_alloc _ _) as [m0 ts].
    destruct (h_variants_get m0 _ _) as [[m1 old]|e|] eqn:E1; cbn [mbind res_bind].
    2:{ exfalso. unfold h_variants_get in E1. destruct (_ =? 0); [done|]. destruct (_ <? 1); [done|].
        unfold slice_get in E1. destruct (_ !! _); [|done]. cbn in E1. by destruct (_ !! _). }
    2:{ intros [= _ <-]. done. }
    destruct (h_tagset_index m1 _ ts) as [[[m2 sets] sid]|e|] eqn:E2; cbn [mbind res_bind].
    2:{ exfalso. unfold h_tagset_index in E2. destruct (_ =? 0); [done|]. unfold slice_get in E2. destruct (_ !! _); [|done]. cbn in E2.
        by destruct (h_table_index _ _ _) as [[? ?] ?]. }
    2:{ intros [= _ <-]. done. }
    destruct (h_add m2 old sid) as [m3 col].
    destruct (h_variants_index m3 _ col) as [[[m4 cols] v]|e|] eqn:E4; cbn [mbind res_bind].
    - by intros [= _ <-].
    - exfalso. unfold h_variants_index in E4. destruct (_ =? 0); [done|]. unfold slice_get in E4. destruct (_ !! _); [|done]. cbn in E4.
      by destruct (h_table_index _ _ _) as [[? ?] ?].
    - intros [= _ <-]. done. }
  apply (tag_any (h_with h ix1) _ _ _ _ (outs_fine ix os)) in Ea as (_ & _ & _ & _ & _ & _ & Hown).
  unfold caps in Hcap. apply andb_true_iff in Hcap as [Hcap _]. apply andb_true_iff in Hcap as [Hcap Hc2]. apply andb_true_iff in Hcap as [_ Hc1].
  destruct (Hown ids it Hr Hn1 Hne Hi1 Hc1 Hc2) as (old & sid & v & H1 & H2). exists old, sid, v. split; [exact H1|]. intros Hl.
  destruct (H2 Hl) as (H3 & H4 & H5). split; [exact H3|]. split; [exact H4|].
  etrans; [exact H5|]. f_equal. unfold collection_has. case_bool_decide as Hin.
  - rewrite (proj2 (existsb_exists _ _)); [done|]. exists sid. split; [by apply elem_of_list_In|apply N.eqb_refl].
  - destruct (existsb _ _) eqn:Ex.
    + apply existsb_exists in Ex as (y & Hy & Hy'). apply N.eqb_eq in Hy' as <-. by apply elem_of_list_In in Hy.
    + apply go_sort_perm_eq. by rewrite Permutation_app_comm.
Qed.

(** Slices that callers hold. *)
Lemma step_frame h o a : fine h -> sorted_cols (view h) -> o <> OReload -> (a < length (hx_mem h))%nat ->
  (a < length (hx_mem (h_step h o).1))%nat /\ deref (hx_mem (h_step h o).1) a = deref (hx_mem h) a.
Proof.
  intros F S Hn Ha. destruct o as [w|w|n p|w names| |]; cbn [h_step].
  - by destruct (add_runes _ _).
  - by destruct (fetch_runes _ _).
  - by destruct (index_tag_id _ _ _).
  - destruct (fetch_runes _ _) as [ix1 [id|e|]]; [|done..].
    destruct (h_add_tag_set (h_with h ix1) id names) as [h2 r] eqn:E. cbn [fst].
    apply (tag_any (h_with h ix1) _ _ _ _ F) in E as (_ & D & _). destruct (D a Ha) as [Hl Hd]. split; [exact Hl|].
    destruct Hd as [Hd|[(t & Ht & Hat) Hd]]; [exact Hd|]. etrans; [exact Hd|]. apply go_sort_id. exact (sorted_contents _ _ _ _ S Ht Hat).
  - unfold h_optimize. cbv zeta. destruct (filter _ _); [done|].
    pose proof (opt_build_refines (hx_cols h) (used_map (its_list (ix_items (hx_ix h)))) (known_id (contents (hx_mem h) (hx_cols h)))
      (hx_mem h) [] [] (proj2 (proj1 F)) (Forall_nil_2 _) S (Forall_nil_2 _)) as G.
    destruct (h_opt_build _ _ _ _ _ _) as [[[m new] repl]| |]; cbn [mbind res_bind]; [|done..]. destruct G as (L & D & _).
    destruct (opt_replace _ _ _ _ _) as [its| |]; cbn [mbind res_bind fst hx_mem]; [|done..]. split; [lia|]. by apply D.
  - done.
Qed.
Lemma l_C66_held_slices : forall h ix os a, runs h ix -> OReload ∉ os ->
  (a < length (hx_mem (h_outs (h_of index_new) h).1))%nat ->
  deref (hx_mem (h_outs (h_of index_new) (h ++ os)).1) a = deref (hx_mem (h_outs (h_of index_new) h).1) a.
Proof.
  intros h ix os a Hr Hn Ha.
  enough (G : sorted_cols (view (h_outs (h_of index_new) (h ++ os)).1) /\ (a < length (hx_mem (h_outs (h_of index_new) (h ++ os)).1))%nat /\
    deref (hx_mem (h_outs (h_of index_new) (h ++ os)).1) a = deref (hx_mem (h_outs (h_of index_new) h).1) a) by (by destruct G as (_ & _ & G)).
  induction os as [|o os IH] using rev_ind.
  - rewrite app_nil_r. split; [|done]. destruct (l_C66_histories h ix Hr) as [-> _]. by eapply runs_sorted.
  - destruct IH as (S & Ha' & E); [intros H; apply Hn, elem_of_app; by left|]. rewrite app_assoc, h_outs_snoc. cbn [fst].
    set (x := (h_outs (h_of index_new) (h ++ os)).1) in *.
    assert (F : fine x) by apply outs_fine. assert (No : o <> OReload) by (intros ->; apply Hn, elem_of_app; right; by left).
    destruct (step_frame x o a F S No Ha') as [H1 H2]. destruct (l_C66_step x o (proj1 F) S) as (V & _ & _ & S').
    split; [rewrite V; by apply S'|]. split; [exact H1|]. by rewrite H2.
Qed.
