(** Proofs about shared slices (C44). *)
From Coq Require Import ZifyBool ZifyNat ZifyN.
From Verif Require Import Base Storage Tags Items Index DocSpec Parser Alias.
From stdpp Require Import list.

Definition vslice (h : heap) (s : slice) : Prop :=
  sl_arr s < length h /\ sl_len s <= length (array h (sl_arr s)).
Lemma array_app_old h x a : a < length h -> array (h ++ x) a = array h a.
Proof. intros H. unfold array. by rewrite lookup_app_l. Qed.
Lemma array_app_new h x : array (h ++ [x]) (length h) = x.
Proof. unfold array. by rewrite list_lookup_middle. Qed.
Lemma array_insert h a x : a < length h -> array (<[a := x]> h) a = x.
Proof. intros H. unfold array. by rewrite list_lookup_insert. Qed.
Lemma array_insert_ne h a b x : a <> b -> array (<[a := x]> h) b = array h b.
Proof. intros H. unfold array. by rewrite list_lookup_insert_ne. Qed.

Lemma append_spec grow h s vs h' s' : vslice h s -> append grow h s vs = (h', s') ->
  vslice h' s' /\ read h' s' = read h s ++ vs /\ vslice h' s /\ read h' s = read h s /\
  (sl_arr s' = sl_arr s \/ sl_arr s' = length h) /\ length h <= length h' /\
  (forall x, vslice h x -> sl_arr x <> sl_arr s -> vslice h' x /\ read h' x = read h x /\ sl_arr x <> sl_arr s').
Proof.
  intros [Ha Hl]. unfold append. destruct (_ <=? _)%nat eqn:E; intros [= <- <-].
  - assert (Hlen : length (take (sl_len s) (array h (sl_arr s)) ++ vs ++ drop (sl_len s + length vs) (array h (sl_arr s)))
       = length (array h (sl_arr s))).
    { rewrite !app_length, take_length, drop_length. lia. }
    unfold vslice, read. cbn [sl_arr sl_len]. rewrite insert_length, array_insert, Hlen by done.
    split; [lia|]. split.
    { rewrite app_assoc, take_app_alt; [done|]. rewrite app_length, take_length. lia. }
    split; [lia|]. split.
    { rewrite take_app_alt; [done|]. rewrite take_length. lia. }
    split; [by left|]. split; [done|]. intros x [Hx1 Hx2] Hne. rewrite array_insert_ne by done. done.
  - unfold vslice, read. cbn [sl_arr sl_len]. rewrite app_length, array_app_new. cbn [length].
    rewrite !app_length, take_length, replicate_length.
    split; [lia|]. split.
    { rewrite app_assoc, take_app_alt; [done|]. rewrite app_length, take_length. lia. }
    rewrite array_app_old by done. split; [lia|]. split; [done|]. split; [by right|]. split; [lia|].
    intros x [Hx1 Hx2] Hne. rewrite array_app_old by done. split; [lia|]. split; [done|]. lia.
Qed.
Lemma make_spec room h h' s' : make room h = (h', s') ->
  vslice h' s' /\ read h' s' = [] /\ sl_arr s' = length h /\ length h <= length h' /\
  (forall x, vslice h x -> vslice h' x /\ read h' x = read h x /\ sl_arr x <> sl_arr s').
Proof.
  intros [= <- <-]. unfold vslice, read. cbn [sl_arr sl_len]. rewrite app_length. cbn [length].
  rewrite array_app_new. split; [lia|]. split; [done|]. split; [done|]. split; [lia|].
  intros x [Hx1 Hx2]. rewrite array_app_old by done. split; [lia|]. split; [done|]. lia.
Qed.

(** The slices of a lemma being read are separate and hold what was read. *)
Definition cur_slices (st : lstate) : list slice := match ls_cur st with Some f => [f.2] | None => [] end.
Definition all_slices (st : lstate) : list slice := ls_lg st :: cur_slices st ++ map snd (ls_forms st).
Record linv (st : lstate) (lg : list (list N)) (cur : option (list N * list (list N)))
    (fs : list (list N * list (list N))) : Prop := {
  li_valid : Forall (vslice (ls_heap st)) (all_slices st);
  li_sep : NoDup (map sl_arr (all_slices st));
  li_lg : read (ls_heap st) (ls_lg st) = lg;
  li_cur : fmap (fun f => (f.1, read (ls_heap st) f.2)) (ls_cur st) = cur;
  li_forms : map (fun f => (f.1, read (ls_heap st) f.2)) (ls_forms st) = fs }.

Lemma keep_forms h h' (P : slice -> Prop) (fs : list (list N * slice)) :
  (forall x, x ∈ map snd fs -> vslice h' x /\ read h' x = read h x /\ P x) ->
  Forall (vslice h') (map snd fs) /\
  map (fun f => (f.1, read h' f.2)) fs = map (fun f => (f.1, read h f.2)) fs.
Proof.
  induction fs as [|[t g] fs IH]; intros H; [by split; [constructor|]|]. cbn [map fst snd].
  destruct (H g) as (H1 & H2 & _); [left|]. destruct IH as [I1 I2]; [intros x Hx; apply H; by right|].
  split; [by constructor|]. by rewrite H2, I2.
Qed.
Lemma arr_notin (l : list slice) a : (forall x, x ∈ l -> sl_arr x <> a) -> a ∉ map sl_arr l.
Proof. intros H Hin. apply elem_of_list_fmap in Hin as (x & -> & Hx). by apply (H x Hx). Qed.

Lemma l_step_spec grow room st e lg cur fs : linv st lg cur fs ->
  match l_step grow room st e with
  | Some st' => linv st'
      (match e with LG v => lg ++ [v] | _ => lg end)
      (match e with LG _ => cur | FStart t => Some (t, [])
       | FG v => match cur with Some (t, g) => Some (t, g ++ [v]) | None => None end | FEnd => None end)
      (match e with FEnd => match cur with Some f => fs ++ [f] | None => fs end | _ => fs end)
  | None => cur = None /\ match e with FG _ | FEnd => True | _ => False end
  end.
Proof.
  intros [Hv Hs Hlg Hcur Hfs]. destruct st as [h sl cu fo]. cbn [ls_heap ls_lg ls_cur ls_forms] in *.
  unfold all_slices, cur_slices in *. cbn [ls_heap ls_lg ls_cur ls_forms map] in *.
  apply Forall_cons in Hv as [Hv1 Hv]. apply NoDup_cons in Hs as [Hs1 Hs].
  assert (Hne : forall x, x ∈ match cu with Some f => [f.2] | None => [] end ++ map snd fo -> sl_arr x <> sl_arr sl).
  { intros x Hx E. apply Hs1. rewrite <- E. apply elem_of_list_fmap. by exists x. }
  rewrite Forall_forall in Hv. destruct e as [v|t|v|]; cbn [l_step ls_heap ls_lg ls_cur ls_forms].
  - destruct (append grow h sl [v]) as [h' s'] eqn:E.
    destruct (append_spec _ _ _ _ _ _ Hv1 E) as (A1 & A2 & A3 & A4 & A5 & A6 & A7).
    assert (A8 : forall x, x ∈ match cu with Some f => [f.2] | None => [] end ++ map snd fo ->
       vslice h' x /\ read h' x = read h x /\ sl_arr x <> sl_arr s').
    { intros x Hx. apply A7; [by apply Hv|by apply Hne]. }
    destruct (keep_forms h h' (fun x => sl_arr x <> sl_arr s') fo) as [K1 K2].
    { intros x Hx. apply A8, elem_of_app. by right. }
    split; cbn [ls_heap ls_lg ls_cur ls_forms all_slices cur_slices map].
    + unfold all_slices, cur_slices. cbn [ls_heap ls_lg ls_cur ls_forms]. constructor; [done|].
      apply Forall_forall. intros x Hx. by apply A8.
    + unfold all_slices, cur_slices. cbn [ls_heap ls_lg ls_cur ls_forms map]. constructor; [|done].
      apply arr_notin. intros x Hx. by apply A8.
    + by rewrite A2, Hlg.
    + rewrite <- Hcur. destruct cu as [[t g]|]; [|done]. cbn [fmap option_fmap option_map fst snd]. do 2 f_equal.
      apply A8. left.
    + by rewrite K2.
  - destruct (make room h) as [h' s'] eqn:E. destruct (make_spec _ _ _ _ E) as (A1 & A2 & A3 & A4 & A7).
    assert (A8 : forall x, x ∈ map snd fo -> vslice h' x /\ read h' x = read h x /\ sl_arr x <> sl_arr s').
    { intros x Hx. apply A7, Hv, elem_of_app. by right. }
    destruct (keep_forms h h' (fun x => sl_arr x <> sl_arr s') fo A8) as [K1 K2].
    destruct (A7 sl Hv1) as (B1 & B2 & B3).
    split; unfold all_slices, cur_slices; cbn [ls_heap ls_lg ls_cur ls_forms map app fst snd].
    + constructor; [done|]. by constructor.
    + constructor; [|constructor].
      * rewrite elem_of_cons. intros [E1|E1]; [done|]. apply Hs1. rewrite map_app. apply elem_of_app. by right.
      * apply arr_notin. intros x Hx. by apply A8.
      * rewrite map_app in Hs. by apply NoDup_app in Hs as (_ & _ & Hs).
    + by rewrite B2.
    + cbn. by rewrite A2.
    + by rewrite K2.
  - destruct cu as [[t g]|]; [|split; [by rewrite <- Hcur|done]].
    destruct (append grow h g [v]) as [h' s'] eqn:E. cbn [app snd fst map] in *.
    assert (Hg : vslice h g) by (apply Hv; left).
    destruct (append_spec _ _ _ _ _ _ Hg E) as (A1 & A2 & A3 & A4 & A5 & A6 & A7).
    apply NoDup_cons in Hs as [Hs2 Hs].
    assert (A8 : forall x, x ∈ map snd fo -> vslice h' x /\ read h' x = read h x /\ sl_arr x <> sl_arr s').
    { intros x Hx. apply A7; [apply Hv; by right|]. intros E1. apply Hs2. rewrite <- E1.
      apply elem_of_list_fmap. by exists x. }
    destruct (keep_forms h h' (fun x => sl_arr x <> sl_arr s') fo A8) as [K1 K2].
    destruct (A7 sl Hv1) as (B1 & B2 & B3).
    { intros E1. apply (Hne g); [left|]. by rewrite E1. }
    split; unfold all_slices, cur_slices; cbn [ls_heap ls_lg ls_cur ls_forms map app fst snd].
    + constructor; [done|]. by constructor.
    + constructor; [|constructor].
      * rewrite elem_of_cons. intros [E1|E1]; [done|]. apply Hs1. by right.
      * apply arr_notin. intros x Hx. by apply A8.
      * done.
    + by rewrite B2.
    + rewrite <- Hcur. cbn. by rewrite A2.
    + by rewrite K2.
  - destruct cu as [[t g]|]; [|split; [by rewrite <- Hcur|done]]. cbn [app snd fst map] in *.
    split; unfold all_slices, cur_slices; cbn [ls_heap ls_lg ls_cur ls_forms map app fst snd].
    + constructor; [done|]. rewrite map_app. apply Forall_app. split; [|constructor; [|done]].
      * apply Forall_forall. intros x Hx. apply Hv. by right.
      * apply Hv. left.
    + rewrite !map_app. cbn [map snd]. apply NoDup_cons in Hs as [Hs2 Hs]. constructor.
      * intros E. apply elem_of_app in E as [E|E]; apply Hs1; [by right|]. apply elem_of_list_singleton in E as ->. by left.
      * apply NoDup_app. split; [done|]. split; [|apply NoDup_singleton]. intros a Ha Hb.
        apply elem_of_list_singleton in Hb as ->. done.
    + done.
    + done.
    + rewrite map_app, Hfs, <- Hcur. done.
Qed.
Lemma l_step_cur grow room st e lg cur fs st' : linv st lg cur fs -> l_step grow room st e = Some st' ->
  match e with FG _ | FEnd => cur <> None | _ => True end.
Proof.
  intros [_ _ _ Hc _]. destruct e; cbn; try done; destruct (ls_cur st) as [[t g]|]; try done; intros _; by rewrite <- Hc.
Qed.
Lemma l_run_spec grow room es : forall st lg cur fs st', linv st lg cur fs ->
  l_run grow room st es = Some st' ->
  exists cur', linv st' (lg ++ lemma_cats es) cur' (fs ++ own_forms cur es).
Proof.
  induction es as [|e es IH]; intros st lg cur fs st' Hi; cbn [l_run].
  { intros [= <-]. exists cur. cbn. by rewrite !app_nil_r. }
  pose proof (l_step_spec grow room st e lg cur fs Hi) as Hs.
  destruct (l_step grow room st e) as [st1|]; [|done]. intros E.
  destruct (IH _ _ _ _ _ Hs E) as [cur' Hi']. exists cur'. destruct e as [v|t|v|]; cbn.
  - unfold lemma_cats in Hi'. rewrite <- app_assoc in Hi'. done.
  - done.
  - done.
  - destruct cur as [f|]; [|done]. rewrite <- app_assoc in Hi'. done.
Qed.
Lemma l_loop_spec {S} grow (call : S -> list N -> list (list N) -> S * bool) lg fs : forall h s,
  vslice h lg -> Forall (vslice h) (map snd fs) -> sl_arr lg ∉ map sl_arr (map snd fs) ->
  l_loop grow call h lg s fs = each call s (map (fun f => (f.1, read h lg ++ read h f.2)) fs).
Proof.
  induction fs as [|[t g] fs IH]; intros h s Hlg Hv Hn; [done|]. cbn [l_loop map each fst snd].
  apply Forall_cons in Hv as [Hg Hv]. cbn [map snd] in *.
  destruct (append grow h lg (read h g)) as [h' g'] eqn:E.
  destruct (append_spec _ _ _ _ _ _ Hlg E) as (A1 & A2 & A3 & A4 & A5 & A6 & A7).
  rewrite A2. destruct (call s t _) as [s1 go]. destruct go; [|done].
  assert (A8 : forall x, x ∈ map snd fs -> vslice h' x /\ read h' x = read h x /\ sl_arr x <> sl_arr g').
  { intros x Hx. apply A7; [by eapply Forall_forall in Hv|]. intros E1. apply Hn. right. rewrite <- E1.
    apply elem_of_list_fmap. by exists x. }
  rewrite IH.
  - rewrite A4. clear -A8. f_equal. induction fs as [|[t g] fs IH]; [done|]. cbn [map fst snd].
    destruct (A8 g) as (_ & -> & _); [left|]. f_equal. apply IH. intros x Hx. apply A8. by right.
  - done.
  - apply Forall_forall. intros x Hx. by apply A8.
  - intros Hin. apply Hn. by right.
Qed.
Lemma l_new_inv room h st : l_new room h = st -> linv st [] None [].
Proof.
  intros <-. unfold l_new. destruct (make room h) as [h1 s] eqn:E.
  destruct (make_spec _ _ _ _ E) as (A1 & A2 & _). split; try done.
  - unfold all_slices, cur_slices; cbn; constructor; [exact A1|constructor].
  - apply NoDup_singleton.
Qed.

Lemma l_C44_exact : forall S grow room0 room h0 es st (call : S -> list N -> list (list N) -> S * bool) s,
  l_run grow room (l_new room0 h0) es = Some st ->
  l_loop grow call (ls_heap st) (ls_lg st) s (ls_forms st) = each call s (wanted es).
Proof.
  intros S grow room0 room h0 es st call s E.
  destruct (l_run_spec grow room es _ [] None [] st (l_new_inv room0 h0 _ eq_refl) E) as [cur [Hv Hs Hlg Hc Hf]].
  unfold all_slices in *. apply Forall_cons in Hv as [Hv1 Hv]. apply Forall_app in Hv as [_ Hv].
  cbn [map] in Hs. apply NoDup_cons in Hs as [Hs _]. rewrite map_app in Hs.
  rewrite (l_loop_spec grow call _ _ _ s Hv1 Hv); [|intros Hin; apply Hs, elem_of_app; by right].
  rewrite Hlg. unfold wanted. cbn [app] in Hf. rewrite <- Hf, map_map. done.
Qed.

(** The parser of Parser.v does the same as the code with shared slices. *)
Definition on_lev (c : conv) (e : lev) (p : parser) : parser * outcome :=
  match e with
  | LG v => on_start c HLG [(bytes_of "v", v)] p
  | FStart t => on_start c HF [(bytes_of "t", t)] p
  | FG v => on_start c HFG [(bytes_of "v", v)] p
  | FEnd => on_end HF p
  end.
Fixpoint on_levs (c : conv) (p : parser) (es : list lev) : parser * outcome :=
  match es with
  | [] => (p, Done)
  | e :: es' => match on_lev c e p with (p1, Done) => on_levs c p1 es' | x => x end
  end.
(** One form of the loop on the index: AddString, AddTagSet. *)
Definition index_call (s : index * outcome) (t : list N) (g : list (list N)) : (index * outcome) * bool :=
  match add_string s.1 t with
  | (ix1, Err e) => ((ix1, Fail e), false)
  | (ix1, Panic) => ((ix1, IndexPanic), false)
  | (ix1, Ok id) =>
    match node_add_tag_set ix1 id g with
    | (ix2, Ok _) => ((ix2, Done), true)
    | (ix2, Err e) => ((ix2, Fail e), false)
    | (ix2, Panic) => ((ix2, IndexPanic), false)
    end
  end.
Lemma lemma_loop_each lg fs : forall ix,
  lemma_loop ix lg (map (fun f => Some (mkForm f.1 f.2)) fs) =
  each index_call (ix, Done) (map (fun f => (f.1, lg ++ f.2)) fs).
Proof.
  induction fs as [|[t g] fs IH]; intros ix; [done|]. cbn [map lemma_loop each fst snd f_text f_g].
  unfold index_call at 1. cbn [fst]. destruct (add_string ix t) as [ix1 [id|e|]]; [|done..].
  destruct (node_add_tag_set ix1 id _) as [ix2 [u|e|]]; [|done..]. apply IH.
Qed.
Lemma l_C44_parser_agrees : forall c grow room0 room h0 p es st,
  p_lemma p = Some (mkLemma [] []) -> p_form p = None ->
  l_run grow room (l_new room0 h0) es = Some st ->
  exists p1 l, on_levs c p es = (p1, Done) /\ p_lemma p1 = Some l /\ p_ix p1 = p_ix p /\
    lemma_loop (p_ix p1) (l_g l) (l_f l) =
    l_loop grow index_call (ls_heap st) (ls_lg st) (p_ix p, Done) (ls_forms st).
Proof.
  intros c grow room0 room h0 p es st Hl Hf E.
  rewrite (l_C44_exact _ grow room0 room h0 es st index_call (p_ix p, Done) E).
  enough (H : forall es p l cur fs st0 st, linv st0 (l_g l) cur fs ->
    p_lemma p = Some l -> p_form p = fmap (fun f => mkForm f.1 f.2) cur ->
    l_f l = map (fun f => Some (mkForm f.1 f.2)) fs ->
    l_run grow room st0 es = Some st ->
    exists p1, on_levs c p es = (p1, Done) /\ p_ix p1 = p_ix p /\
      p_lemma p1 = Some (mkLemma (l_g l ++ lemma_cats es) (map (fun f => Some (mkForm f.1 f.2)) (fs ++ own_forms cur es)))).
  { destruct (H es p (mkLemma [] []) None [] (l_new room0 h0) st) as (p1 & E1 & E2 & E3); [by eapply l_new_inv|done..|].
    exists p1. eexists. split; [done|]. split; [done|]. split; [done|]. cbn [l_g l_f app].
    rewrite E2, lemma_loop_each. done. }
  clear. intros es. induction es as [|e es IH]; intros p l cur fs st0 st Hi Hl Hf Hfs E; cbn [l_run on_levs] in *.
  { exists p. split; [done|]. split; [done|]. cbn. rewrite !app_nil_r, Hl. by destruct l; cbn in *; subst. }
  pose proof (l_step_spec grow room st0 e _ cur fs Hi) as Hs.
  destruct (l_step grow room st0 e) as [st1|] eqn:Est; [|done].
  pose proof (l_step_cur grow room st0 e _ cur fs st1 Hi Est) as Hcur. clear Est. destruct p as [path gr pl f ix m mx].
  cbn [p_lemma p_form p_ix] in *. subst pl f. destruct e as [v|t|v|]; cbn [on_lev on_start on_end] in *.
  - cbn [get_attr]. rewrite bool_decide_true by done. cbn [p_lemma set_lemma].
    destruct (IH (set_lemma (mkParser path gr (Some l) (fmap (fun f => mkForm f.1 f.2) cur) ix m mx) (Some (mkLemma (l_g l ++ [v]) (l_f l))))
       (mkLemma (l_g l ++ [v]) (l_f l)) cur fs st1 st Hs) as (p1 & E1 & E2 & E3); [done..|].
    exists p1. split; [done|]. split; [done|]. rewrite E3. cbn [l_g]. by rewrite <- app_assoc.
  - cbn [get_attr]. rewrite bool_decide_true by done.
    destruct (IH (set_form (mkParser path gr (Some l) (fmap (fun f => mkForm f.1 f.2) cur) ix m mx) (Some (mkForm t [])))
       l (Some (t, [])) fs st1 st Hs) as (p1 & E1 & E2 & E3); [done..|]. by exists p1.
  - cbn [get_attr]. rewrite bool_decide_true by done. cbn [p_form].
    destruct cur as [[t g]|]; cbn [fmap option_fmap option_map].
    + destruct (IH (set_form (mkParser path gr (Some l) (Some (mkForm t g)) ix m mx) (Some (mkForm t (g ++ [v]))))
         l (Some (t, g ++ [v])) fs st1 st Hs) as (p1 & E1 & E2 & E3); [done..|]. by exists p1.
    + done.
  - cbn [p_lemma p_form]. destruct cur as [[t g]|]; cbn [fmap option_fmap option_map].
    + destruct (IH (set_form (set_lemma (mkParser path gr (Some l) (Some (mkForm t g)) ix m mx) (Some (mkLemma (l_g l) (l_f l ++ [Some (mkForm t g)])))) None)
         (mkLemma (l_g l) (l_f l ++ [Some (mkForm t g)])) None (fs ++ [(t, g)]) st1 st Hs) as (p1 & E1 & E2 & E3); [done..| |done|].
      * cbn. by rewrite Hfs, map_app.
      * exists p1. split; [done|]. split; [done|]. rewrite E3. cbn. by rewrite <- app_assoc.
    + done.
Qed.
