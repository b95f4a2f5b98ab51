(** Proofs about the slices that callers of pkg/storage keep (C68). *)
From Coq Require Import ZifyBool ZifyNat ZifyN.
From Verif Require Import Base Storage Share BaseFacts Intern ThmShare Lend.
From stdpp Require Import list.
Open Scope N_scope.

(** ** Widths *)
Lemma w_wrap_id w x : x < w_room w -> w_wrap w x = x.
Proof. destruct w; cbn; intros H; [unfold wrap8|unfold wrap16]; by apply N.mod_small. Qed.
Lemma w_up_comb w hi lo : hi < w_room w -> lo < w_room w -> w_up w (w_comb w hi lo) = hi.
Proof. destruct w; cbn; [apply upper_combine8|apply upper_combine16]. Qed.
Lemma w_lo_comb w hi lo : hi < w_room w -> lo < w_room w -> w_lo w (w_comb w hi lo) = lo.
Proof. destruct w; cbn; [apply lower_combine8|apply lower_combine16]. Qed.

(** ** Where an address lies *)
Definition sits (x : list (list nat)) (c i a : nat) : Prop := exists t, x !! c = Some t /\ t !! i = Some a.
Lemma sits_elem x a : a ∈ concat x <-> exists c i, sits x c i a.
Proof.
  rewrite elem_of_list_In, in_concat. split.
  - intros (t & Ht & Ha). apply elem_of_list_In, elem_of_list_lookup in Ht as [c Ht]. apply elem_of_list_In, elem_of_list_lookup in Ha as [i Ha].
    by exists c, i, t.
  - intros (c & i & t & Ht & Ha). exists t. split; apply elem_of_list_In; by eapply elem_of_list_lookup_2.
Qed.
Lemma extend_look (x : list (list nat)) c : exists t, slice_get (extend_to x c) c = Ok t /\ t = default [] (x !! N.to_nat c).
Proof.
  unfold slice_get, extend_to. destruct (N.leb_spec (lenN x) c) as [H|H]; unfold lenN in *.
  - rewrite lookup_app_r by lia. rewrite (lookup_ge_None_2 x) by lia. rewrite lookup_replicate_2 by lia. by exists [].
  - destruct (lookup_lt_is_Some_2 x (N.to_nat c)) as [t Ht]; [lia|]. rewrite Ht. by exists t.
Qed.
Lemma extend_sits x c k i a : sits (extend_to x c) k i a <-> sits x k i a.
Proof.
  unfold extend_to, sits. destruct (N.leb_spec (lenN x) c) as [H|H]; [|done]. split; intros (t & Ht & Ha).
  - apply lookup_app_Some in Ht as [Ht|[_ Ht]]; [by exists t|]. apply lookup_replicate in Ht as [-> _]. by rewrite lookup_nil in Ha.
  - exists t. split; [|done]. by apply lookup_app_l_Some.
Qed.
Lemma extend_long (x : list (list nat)) c : (N.to_nat c < length (extend_to x c))%nat.
Proof. unfold extend_to. destruct (N.leb_spec (lenN x) c) as [H|H]; unfold lenN in *; [rewrite app_length, replicate_length|]; lia. Qed.

(** What [Index] does, for any state. *)
Lemma l_index_cases w s a : deref (le_mem s) a <> [] ->
  let m1 := h_sort (le_mem s) a in
  let c := (length (deref (le_mem s) a) - 1)%nat in
  let t := default [] (le_col s !! c) in
  let x := extend_to (le_col s) (N.of_nat c) in
  match find_pos (map (deref m1) t) (go_sort (deref (le_mem s) a)) 0 with
  | Some i => l_index w s a = Ok (mkLent m1 (<[c := t]> x), w_comb w (w_wrap w (N.of_nat c)) (w_wrap w (N.of_nat i)))
  | None => l_index w s a = Ok (mkLent m1 (<[c := t ++ [a]]> x), w_comb w (w_wrap w (N.of_nat c)) (w_wrap w (lenN t)))
  end.
Proof.
  intros Hne. cbv zeta. unfold l_index. destruct (deref (le_mem s) a) as [|y l] eqn:E; [done|]. clear Hne.
  unfold lenN. destruct (N.eqb_spec (N.of_nat (length (y :: l))) 0) as [H|_]; [cbn [length] in H; lia|].
  set (n := (length (y :: l) - 1)%nat).
  replace (N.of_nat (length (y :: l)) - 1) with (N.of_nat n) by (subst n; cbn [length]; lia). cbv zeta.
  destruct (extend_look (le_col s) (N.of_nat n)) as (t & Ht & Et). rewrite Ht. cbn [mbind res_bind]. rewrite Nnat.Nat2N.id in *. subst t.
  unfold l_table_index, l_table_find. cbv zeta.
  assert (Es : deref (h_sort (le_mem s) a) a = go_sort (y :: l)) by (rewrite deref_sort; rewrite decide_True by done; by rewrite E).
  rewrite Es. by destruct (find_pos _ _ 0).
Qed.
Lemma l_index_empty w s a : deref (le_mem s) a = [] -> l_index w s a = Panic.
Proof. intros E. unfold l_index. by rewrite E. Qed.

(** ** What no caller can break *)
Definition lent_ok (s : lent) : Prop :=
  (forall c i a, sits (le_col s) c i a -> length (deref (le_mem s) a) = S c) /\
  (forall c i c' i' a, sits (le_col s) c i a -> sits (le_col s) c' i' a -> c = c' /\ i = i').
Lemma deref_sort_length m a b : length (deref (h_sort m a) b) = length (deref m b).
Proof. rewrite deref_sort. destruct (decide (a = b)); [|done]. apply go_sort_length. Qed.
Lemma deref_write m a i v b : deref (h_write m a i v) b = if decide (a = b) then <[i := v]> (deref m b) else deref m b.
Proof.
  unfold deref, h_write. destruct (decide (a = b)) as [->|Hn].
  - rewrite list_lookup_alter. by destruct (m !! b).
  - by rewrite list_lookup_alter_ne.
Qed.
Lemma deref_write_length m a i v b : length (deref (h_write m a i v) b) = length (deref m b).
Proof. rewrite deref_write. destruct (decide (a = b)); [|done]. apply insert_length. Qed.
Lemma deref_lt m a : deref m a <> [] -> (a < length m)%nat.
Proof. intros H. apply lookup_lt_is_Some. unfold deref in H. by destruct (m !! a). Qed.
Lemma col_insert_sits x c t k i a : (c < length x)%nat ->
  sits (<[c := t]> x) k i a <-> (k = c /\ t !! i = Some a) \/ (k <> c /\ sits x k i a).
Proof.
  intros Hc. unfold sits. destruct (decide (k = c)) as [->|Hn].
  - rewrite list_lookup_insert by done. split.
    + intros (t' & [= <-] & H). by left.
    + intros [[_ H]|[H _]]; [by exists t|done].
  - rewrite list_lookup_insert_ne by done. naive_solver.
Qed.
Lemma sits_col x c t i a : t = default [] (x !! c) -> t !! i = Some a <-> sits x c i a.
Proof.
  intros ->. unfold sits. destruct (x !! c) as [t|] eqn:E; cbn.
  - split; [by exists t|]. by intros (t' & [= <-] & H).
  - rewrite lookup_nil. split; [done|]. by intros (t' & H & _).
Qed.
Lemma find_map_Some m t x i : find_pos (map (deref m) t) x 0 = Some i -> exists b, t !! i = Some b /\ deref m b = x.
Proof.
  intros H. apply find_pos_Some in H as [H _]. change (map (deref m) t) with (deref m <$> t) in H. rewrite list_lookup_fmap in H.
  destruct (t !! i) as [b|]; [|done]. cbn in H. exists b. by injection H.
Qed.
Lemma find_map_None m t x a : find_pos (map (deref m) t) x 0 = None -> a ∈ t -> deref m a <> x.
Proof.
  intros H Ha E. apply find_pos_None in H. apply H. rewrite <- E. by apply (elem_of_list_fmap_1 (deref m)).
Qed.
(** After [Index]: the addresses that sit, and where the number points. *)
Lemma l_index_sits w s a s' id : lent_ok s -> l_index w s a = Ok (s', id) ->
  exists i, let c := (length (deref (le_mem s) a) - 1)%nat in
    le_mem s' = h_sort (le_mem s) a /\ deref (le_mem s) a <> [] /\
    id = w_comb w (w_wrap w (N.of_nat c)) (w_wrap w (N.of_nat i)) /\
    (forall k j b, sits (le_col s) k j b -> sits (le_col s') k j b) /\
    (forall k j b, sits (le_col s') k j b -> sits (le_col s) k j b \/ k = c /\ j = i /\ b = a /\ a ∉ concat (le_col s)) /\
    (exists b, sits (le_col s') c i b /\ deref (le_mem s') b = go_sort (deref (le_mem s) a)).
Proof.
  intros [Hlen Hinj] H. destruct (deref (le_mem s) a) as [|y l] eqn:E; [by rewrite l_index_empty in H|].
  pose proof (l_index_cases w s a) as HC. cbv zeta in HC. rewrite E in HC. specialize (HC ltac:(done)).
  set (c := (length (y :: l) - 1)%nat) in *. set (t := default [] (le_col s !! c)) in *.
  assert (Hlong : (c < length (extend_to (le_col s) (N.of_nat c)))%nat) by (pose proof (extend_long (le_col s) (N.of_nat c)); lia).
  assert (Hrest : forall k j b, (k <> c /\ sits (extend_to (le_col s) (N.of_nat c)) k j b) <-> (k <> c /\ sits (le_col s) k j b)).
  { intros k j b. by rewrite extend_sits. }
  destruct (find_pos _ _ 0) as [i|] eqn:Ef; rewrite H in HC; injection HC as -> ->; [exists i|exists (length t)]; cbv zeta; cbn [le_mem le_col].
  - apply find_map_Some in Ef as (b & Hb & Eb).
    assert (Hs : forall k j b0, sits (<[c := t]> (extend_to (le_col s) (N.of_nat c))) k j b0 <-> sits (le_col s) k j b0).
    { intros k j b0. rewrite col_insert_sits by done. rewrite Hrest. destruct (decide (k = c)) as [->|Hn].
      - split; [intros [[_ H0]|[H0 _]]; [by eapply sits_col|done]|]. intros H0. left. split; [done|]. by eapply sits_col.
      - naive_solver. }
    split; [done|]. split; [done|]. split; [done|]. split; [intros k j b0; apply Hs|]. split; [intros k j b0 H0; left; by apply Hs|].
    exists b. split; [|done]. apply Hs. by eapply sits_col.
  - assert (Hna : a ∉ concat (le_col s)).
    { intros Hin. apply sits_elem in Hin as (k & j & Hs). assert (k = c) as ->.
      { apply Hlen in Hs. rewrite E in Hs. subst c. lia. }
      eapply find_map_None; [exact Ef| |]; [|rewrite deref_sort, decide_True by done; by rewrite E].
      eapply elem_of_list_lookup_2. by eapply sits_col. }
    split; [done|]. split; [done|]. split; [by unfold lenN|]. split; [|split].
    + intros k j b Hs. rewrite col_insert_sits by done. rewrite Hrest. destruct (decide (k = c)) as [->|Hn]; [|naive_solver].
      left. split; [done|]. apply lookup_app_l_Some. by eapply sits_col.
    + intros k j b Hs. rewrite col_insert_sits in Hs by done. rewrite Hrest in Hs. destruct Hs as [[-> Hs]|[_ Hs]]; [|by left].
      apply lookup_app_Some in Hs as [Hs|[Hj Hs]]; [left; by eapply sits_col|]. right.
      assert (j = length t) as ->. { apply lookup_lt_Some in Hs. cbn in Hs. lia. }
      rewrite Nat.sub_diag in Hs. by injection Hs as <-.
    + exists a. split; [|rewrite deref_sort, decide_True by done; by rewrite E]. rewrite col_insert_sits by done. left. split; [done|].
      rewrite lookup_app_r by done. by rewrite Nat.sub_diag.
Qed.
Lemma lent_ok_mem s m : lent_ok s -> (forall a, a ∈ concat (le_col s) -> length (deref m a) = length (deref (le_mem s) a)) -> lent_ok (mkLent m (le_col s)).
Proof.
  intros [H1 H2] Hm. split; [|exact H2]. cbn [le_mem le_col]. intros c i a Hs. rewrite Hm; [by eapply H1|]. apply sits_elem. by exists c, i.
Qed.
Lemma l_do_ok w s o : lent_ok s -> lent_ok (l_do w s o).1.
Proof.
  intros Hok. destruct o as [xs|a i v|a|a|id|a]; cbn [l_do fst]; try done.
  - apply lent_ok_mem; [done|]. intros a Ha. cbn. f_equal. apply deref_app. apply sits_elem in Ha as (c & i & Hs).
    apply deref_lt. intros E. apply Hok in Hs. by rewrite E in Hs.
  - apply lent_ok_mem; [done|]. intros b _. apply deref_write_length.
  - destruct (l_index w s a) as [[s' id]| |] eqn:E; try done. cbn [fst].
    destruct (l_index_sits _ _ _ _ _ Hok E) as (i & Hm & Hne & _ & _ & Hnew & _). cbv zeta in *. destruct Hok as [Hlen Hinj].
    split.
    + intros c j b Hs. rewrite Hm, deref_sort_length. apply Hnew in Hs as [Hs|(-> & -> & -> & _)]; [by eapply Hlen|].
      destruct (deref (le_mem s) a); [done|]. cbn. lia.
    + intros c1 i1 c2 i2 b H1 H2. apply Hnew in H1 as [H1|(-> & -> & -> & Hn)]; apply Hnew in H2 as [H2|(-> & -> & E2 & Hn2)]; [by eapply Hinj| | |done].
      * subst b. exfalso. apply Hn2, sits_elem. by exists c1, i1.
      * exfalso. apply Hn, sits_elem. by exists c2, i2.
Qed.
Lemma lent_ok_new : lent_ok lent_new.
Proof. split; [intros c i a (t & H & _)|intros c i c' i' a (t & H & _)]; cbn in H; by rewrite lookup_nil in H. Qed.
Lemma l_after_ok w os s : lent_ok s -> lent_ok (l_after w s os).
Proof. revert s. induction os as [|o os IH]; intros s H; [done|]. cbn. apply IH. by apply l_do_ok. Qed.
Lemma l_do_grows w s o c i a : lent_ok s -> sits (le_col s) c i a -> sits (le_col (l_do w s o).1) c i a.
Proof.
  intros Hok Hs. destruct o as [xs|b j v|b|b|id|b]; cbn [l_do fst le_col]; try done.
  destruct (l_index w s b) as [[s' id]| |] eqn:E; try done. cbn [fst]. destruct (l_index_sits _ _ _ _ _ Hok E) as (k & _ & _ & _ & Hk & _). by apply Hk.
Qed.
Lemma l_get_sits w s id a : l_get w s id = Some a <-> sits (le_col s) (N.to_nat (w_up w id)) (N.to_nat (w_lo w id)) a.
Proof.
  unfold l_get, sits. destruct (N.leb_spec (lenN (le_col s)) (w_up w id)) as [H|H]; unfold lenN in H.
  - split; [done|]. intros (t & Ht & _). apply lookup_lt_Some in Ht. lia.
  - destruct (le_col s !! N.to_nat (w_up w id)) as [t|] eqn:Et; cbn [mbind option_bind].
    + destruct (N.leb_spec (lenN t) (w_lo w id)) as [H1|H1]; unfold lenN in H1.
      * split; [done|]. intros (t' & [= <-] & Ha). apply lookup_lt_Some in Ha. lia.
      * split; [by exists t|]. by intros (t' & [= <-] & Ha).
    + split; [done|]. by intros (t' & H1 & _).
Qed.

(** ** Whatever the caller does *)
Lemma l_C68_sizes : forall w os c i a, let s := l_after w lent_new os in
  le_col s !! c ≫= (.!! i) = Some a -> length (deref (le_mem s) a) = S c.
Proof.
  intros w os c i a s H. apply (proj1 (l_after_ok w os _ lent_ok_new) c i). apply bind_Some in H as (t & Ht & Ha). by exists t.
Qed.
Lemma l_C68_once : forall w os, NoDup (concat (le_col (l_after w lent_new os))).
Proof.
  intros w os. set (s := l_after w lent_new os). assert (Hi := proj2 (l_after_ok w os _ lent_ok_new)). fold s in Hi.
  revert Hi. generalize (le_col s). clear s. intros x. induction x as [|t x IH]; intros Hi; cbn; [constructor|].
  apply NoDup_app. split; [|split].
  - apply NoDup_alt. intros i j a H1 H2. apply (Hi 0%nat i 0%nat j a); by exists t.
  - intros a Ha Hin. apply elem_of_list_lookup in Ha as [i Ha]. apply sits_elem in Hin as (c & j & Hs).
    destruct (Hi 0%nat i (S c) j a) as [H _]; [by exists t|done|done].
  - apply IH. intros c i c' i' a H1 H2. destruct (Hi (S c) i (S c') i' a) as [H ->]; [done|done|]. split; [lia|done].
Qed.
Lemma l_C68_stable : forall w os os' id a,
  l_get w (l_after w lent_new os) id = Some a -> l_get w (l_after w lent_new (os ++ os')) id = Some a.
Proof.
  intros w os os' id a. assert (Happ : forall s, l_after w s (os ++ os') = l_after w (l_after w s os) os').
  { induction os as [|o os IH]; intros s; [done|]. cbn. apply IH. }
  rewrite Happ. generalize (l_after_ok w os _ lent_ok_new). generalize (l_after w lent_new os). clear os Happ.
  induction os' as [|o os' IH]; intros s Hok Hg; [done|]. cbn. apply IH; [by apply l_do_ok|].
  apply l_get_sits. apply l_get_sits in Hg. by apply l_do_grows.
Qed.
Lemma l_C68_found_now : forall w os a, let s := l_after w lent_new os in deref (le_mem s) a <> [] ->
  exists s' id, l_do w s (LIndex a) = (s', LId id) /\
    (l_room w s' -> (l_do w s' (LGet id)).2 = LSet (Some (go_sort (deref (le_mem s) a)))).
Proof.
  intros w os a s Hne. assert (Hok : lent_ok s) by (apply l_after_ok, lent_ok_new). clearbody s. cbn [l_do].
  pose proof (l_index_cases w s a Hne) as HC. cbv zeta in HC.
  assert (exists s' id, l_index w s a = Ok (s', id)) as (s' & id & E) by (destruct (find_pos _ _ 0); eauto). clear HC.
  rewrite E. exists s', id. split; [done|]. intros [Hr1 Hr2]. cbn [snd]. f_equal.
  destruct (l_index_sits _ _ _ _ _ Hok E) as (i & _ & _ & -> & _ & _ & b & Hb & Eb). cbv zeta in *. rewrite <- Eb.
  set (c := (length (deref (le_mem s) a) - 1)%nat) in *. destruct Hb as (t & Ht & Hi).
  assert (N.of_nat c < w_room w). { apply lookup_lt_Some in Ht. unfold lenN in Hr1. lia. }
  assert (N.of_nat i < w_room w). { eapply Forall_lookup_1 in Hr2; [|exact Ht]. apply lookup_lt_Some in Hi. unfold lenN in Hr2. lia. }
  rewrite (proj2 (l_get_sits w s' _ b)); [done|].
  rewrite !w_wrap_id by done. rewrite w_up_comb, w_lo_comb by done. rewrite !Nnat.Nat2N.id. by exists t.
Qed.

(** ** Callers that leave lent slices alone *)
Definition tidy (s : lent) : Prop := forall a, a ∈ concat (le_col s) -> sortedN (deref (le_mem s) a).
Lemma c_index_gen w x item : c_index w x item =
  if (lenN item =? 0) then Panic else
  let col := lenN item - 1 in
  t ← slice_get (extend_to x col) col;
  let '(t', i) := table_index (w_wrap w) t item in
  Ok (<[N.to_nat col := t']> (extend_to x col), w_comb w (w_wrap w col) i).
Proof.
  destruct w; cbn [c_index w_wrap w_comb]; [unfold collection8_index, table8_index|unfold collection16_index, table16_index];
  destruct (lenN item =? 0); try done; cbv zeta; by destruct (slice_get _ _) as [t| |].
Qed.
Lemma c_find_gen w x item : c_find w x item =
  if (lenN item =? 0) then Ok None else
  let col := lenN item - 1 in
  t ← slice_get x col;
  match table_find (w_wrap w) t item with None => Ok None | Some i => Ok (Some (w_comb w (w_wrap w col) i)) end.
Proof. by destruct w. Qed.
Lemma c_get_gen w x id : c_get w x id =
  if (lenN x <=? w_up w id) then None else t ← x !! N.to_nat (w_up w id); table_get t (w_lo w id).
Proof. by destruct w. Qed.
Lemma l_index_pure w s a : lent_ok s -> tidy s ->
  match l_index w s a with
  | Ok (s', id) => le_mem s' = h_sort (le_mem s) a /\ tidy s' /\ c_index w (contents (le_mem s) (le_col s)) (deref (le_mem s) a) = Ok (contents (le_mem s') (le_col s'), id)
  | Err _ => False
  | Panic => c_index w (contents (le_mem s) (le_col s)) (deref (le_mem s) a) = Panic
  end.
Proof.
  intros Hok Ht. rewrite c_index_gen. destruct (l_index w s a) as [[s' id]| |] eqn:E.
  - destruct (l_index_sits _ _ _ _ _ Hok E) as (i0 & Hm & Hne & _ & _ & Hnew & _). cbv zeta in *. split; [done|].
    assert (Htidy : tidy s').
    { intros b Hb. apply sits_elem in Hb as (c & j & Hs). rewrite Hm, deref_sort. apply Hnew in Hs as [Hs|(_ & _ & -> & _)].
      - assert (sortedN (deref (le_mem s) b)) by (apply Ht, sits_elem; by exists c, j). destruct (decide (a = b)) as [->|]; [|done]. apply go_sort_sorted.
      - rewrite decide_True by done. apply go_sort_sorted. }
    split; [done|].
    unfold l_index in E. destruct (lenN (deref (le_mem s) a) =? 0) eqn:E0; [done|]. cbv zeta in *. rewrite extend_contents, slice_contents.
    set (c := lenN (deref (le_mem s) a) - 1) in *.
    destruct (slice_get (extend_to (le_col s) c) c) as [t| |] eqn:Et; cbn [mbind res_bind] in *; [|done|done].
    assert (Hc : forall x, (forall b, b ∈ concat x -> b ∈ concat (le_col s)) -> contents (h_sort (le_mem s) a) x = contents (le_mem s) x).
    { intros x Hx. apply contents_ext. intros t0 b H0 Hb. rewrite deref_sort. destruct (decide (a = b)) as [->|]; [|done]. apply go_sort_id, Ht, Hx.
      apply elem_of_list_In, in_concat. exists t0. split; by apply elem_of_list_In. }
    assert (Htin : forall b, b ∈ t -> b ∈ concat (le_col s)).
    { intros b Hb. apply elem_of_list_lookup in Hb as [j Hj]. apply sits_elem. exists (N.to_nat c), j. apply (extend_sits _ c). exists t. split; [|done].
      unfold slice_get in Et. destruct (_ !! _); [by injection Et as ->|done]. }
    assert (Hxin : forall b, b ∈ concat (extend_to (le_col s) c) -> b ∈ concat (le_col s)).
    { intros b Hb. apply sits_elem in Hb as (k & j & Hs). apply (proj1 (extend_sits _ _ _ _ _)) in Hs. apply sits_elem. by exists k, j. }
    assert (Hmap : map (deref (h_sort (le_mem s) a)) t = map (deref (le_mem s)) t).
    { specialize (Hc [t]). cbn in Hc. rewrite app_nil_r in Hc. specialize (Hc Htin). by injection Hc. }
    unfold l_table_index, l_table_find, table_index, table_find in *. cbv zeta in *. rewrite Hmap in E.
    assert (Ea : deref (h_sort (le_mem s) a) a = go_sort (deref (le_mem s) a)) by (rewrite deref_sort; by rewrite decide_True).
    rewrite Ea in E. destruct (find_pos _ _ 0) as [i|]; injection E as <- <-; cbn [le_mem le_col].
    + rewrite insert_contents, (Hc _ Hxin), Hmap. done.
    + rewrite insert_contents, (Hc _ Hxin), map_app, Hmap. cbn [map]. rewrite Ea. unfold lenN. by rewrite map_length.
  - exfalso. unfold l_index in E. destruct (_ =? 0); [done|]. cbv zeta in E. destruct (extend_look (le_col s) (lenN (deref (le_mem s) a) - 1)) as (t & H & _).
    rewrite H in E. cbn in E. by destruct (l_table_index _ _ _ _) as [[? ?] ?].
  - unfold l_index in E. destruct (_ =? 0); [done|]. cbv zeta in E. destruct (extend_look (le_col s) (lenN (deref (le_mem s) a) - 1)) as (t & H & _).
    rewrite H in E. cbn in E. by destruct (l_table_index _ _ _ _) as [[? ?] ?].
Qed.
Lemma l_find_pure w s a : l_find w s a = c_find w (contents (le_mem s) (le_col s)) (deref (le_mem s) a).
Proof.
  rewrite c_find_gen. unfold l_find. destruct (_ =? 0); [done|]. cbv zeta. rewrite slice_contents. by destruct (slice_get _ _).
Qed.
Lemma l_get_pure w s id : deref (le_mem s) <$> l_get w s id = c_get w (contents (le_mem s) (le_col s)) id.
Proof.
  rewrite c_get_gen. unfold l_get. unfold lenN at 1 3. rewrite contents_length. destruct (_ <=? _); [done|]. rewrite contents_lookup.
  destruct (le_col s !! _) as [t|]; [|done]. cbn [fmap option_fmap option_map mbind option_bind]. unfold table_get, lenN. rewrite map_length.
  destruct (_ <=? _); [done|]. symmetry. apply (list_lookup_fmap (deref (le_mem s))).
Qed.
Lemma polite_do w s o : lent_ok s -> tidy s -> polite w s [o] = true ->
  tidy (l_do w s o).1 /\
  v_do w (le_mem s, contents (le_mem s) (le_col s)) o =
    (le_mem (l_do w s o).1, contents (le_mem (l_do w s o).1) (le_col (l_do w s o).1), (l_do w s o).2).
Proof.
  intros Hok Ht Hp. destruct o as [xs|a i v|a|a|id|a]; cbn [l_do v_do fst snd le_mem le_col].
  - assert (Hd : forall a, a ∈ concat (le_col s) -> deref (h_alloc (le_mem s) xs).1 a = deref (le_mem s) a).
    { intros a Ha. cbn. apply deref_app. apply sits_elem in Ha as (c & i & Hs). apply deref_lt. intros E. apply Hok in Hs. by rewrite E in Hs. }
    split; [intros a Ha; cbn [le_mem le_col] in *; rewrite Hd by done; by apply Ht|]. f_equal. f_equal. symmetry.
    apply contents_ext. intros t a H0 Ha. apply Hd. apply elem_of_list_In, in_concat. exists t. split; by apply elem_of_list_In.
  - cbn [polite] in Hp. rewrite andb_true_r in Hp. apply bool_decide_eq_true in Hp.
    assert (Hd : forall b, b ∈ concat (le_col s) -> deref (h_write (le_mem s) a i v) b = deref (le_mem s) b).
    { intros b Hb. rewrite deref_write. by destruct (decide (a = b)) as [->|]. }
    split; [intros b Hb; cbn [le_mem le_col] in *; rewrite Hd by done; by apply Ht|]. f_equal. f_equal. symmetry.
    apply contents_ext. intros t b H0 Hb. apply Hd. apply elem_of_list_In, in_concat. exists t. split; by apply elem_of_list_In.
  - pose proof (l_index_pure w s a Hok Ht) as H. destruct (l_index w s a) as [[s' id]| |]; [|done|].
    + destruct H as (Hm & Ht' & ->). cbn [fst snd]. split; [done|]. by rewrite Hm.
    + rewrite H. done.
  - rewrite <- l_find_pure. done.
  - rewrite <- l_get_pure. done.
  - done.
Qed.
Lemma l_C68_copies : forall w os, polite w lent_new os = true -> l_says w lent_new os = v_says w ([], []) os.
Proof.
  intros w os. change ([], []) with (le_mem lent_new, contents (le_mem lent_new) (le_col lent_new)).
  assert (Ht : tidy lent_new). { intros a Ha. cbn in Ha. by apply elem_of_nil in Ha. }
  generalize lent_ok_new Ht. generalize lent_new. clear Ht. induction os as [|o os IH]; intros s Hok Ht Hp; [done|].
  cbn [polite] in Hp. apply andb_prop in Hp as [Hp1 Hp2]. destruct (polite_do w s o Hok Ht) as [Ht' Hv].
  { cbn [polite]. by rewrite andb_true_r. }
  cbn [l_says v_says]. rewrite Hv. cbn [fst snd]. f_equal. apply IH; [by apply l_do_ok|done|done].
Qed.
(** The boundary: a write into a kept slice is seen by [Get], exactly if it changes the slice. *)
Lemma l_C68_write_seen : forall w os id a i v, let s := l_after w lent_new os in
  l_get w s id = Some a ->
  (l_do w (l_do w s (LWrite a i v)).1 (LGet id)).2 = LSet (Some (<[i := v]> (deref (le_mem s) a))).
Proof.
  intros w os id a i v s Hg. cbn [l_do fst snd]. rewrite (proj2 (l_get_sits w (mkLent _ _) id a)); [|by apply l_get_sits].
  cbn [fmap option_fmap option_map le_mem]. f_equal. f_equal. rewrite deref_write. by rewrite decide_True.
Qed.
