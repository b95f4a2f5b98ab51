(** Proofs for C84: the file on disk. *)
From Coq Require Import ZifyBool ZifyNat ZifyN.
From Verif Require Import Base Storage Bin Utf8 Tags TagSets Variants Items Index DocSpec Parser Calls Spec Hist
  BaseFacts SpecFacts TrieFacts OptFacts BinFacts CodecFacts ReloadFacts HistFacts DictFacts QueryFacts Loader LoaderSpec ThmTrie ThmTags ThmDisk ThmParser ThmDoc
  ThmLoader Xml XmlSpec ThmXml.
From stdpp Require Import list.
Open Scope N_scope.

Lemma l_C84_a_part_is_not_compiled : forall first more e s x pre wpre n l kids p q,
  (forall w, e_tokens e w = tokenize first more w) -> fs_xml s = Some x -> f_bytes x = wpre ++ p ->
  written_all pre wpre -> written (Elem n l kids) (p ++ q) -> p <> [] -> q <> [] ->
  parse_file e s = None /\ parse_update e s = ([], Err EOpencorpora).
Proof.
  intros fr mr e s x pre wpre n l kids p q He Hx Hb H1 H2 H3 H4.
  assert (E : parse_file e s = None); [|split; [done|by apply l_C49_failed_parse]].
  apply l_C49_what_fails. right. right. exists x. split; [done|]. cbv zeta. rewrite He, Hb.
  rewrite (l_C84_a_part_is_refused fr mr pre wpre n l kids p q) by done.
  destruct ((parse _ _ _).2); try (by left); by right.
Qed.
Lemma l_C84_crash_in_unpack_refuted : forall first more e s body out pre wpre n l kids w post j, all_works e -> dir_ok e (after1 s UMkdir) = true ->
  fs_bz s = None -> e_get e = Some (200, body, true) -> e_unbz e body = (out, true) ->
  out = wpre ++ w ++ post -> written_all pre wpre -> written (Elem n l kids) w -> (length wpre < j < length wpre + length w)%nat ->
  let s' := after s (take (4 + length body + j) (u_upds (update e s false))) in
  fs_dat s' = fs_dat s /\ fs_bz s' = Some (mkFile body (e_now e)) /\ fs_xml s' = Some (mkFile (take j out) (e_now e)) /\
  forall e' m, e_stat1 e' = false -> e_head1 e' = HResp 200 m -> ~ newer (SFile (e_now e)) m ->
    (forall v, e_tokens e' v = tokenize first more v) -> stuck e' s'.
Proof.
  intros fr mr e s body out pre wpre n l kids w post j W Hdir Hb Hg Hz Eout Hpre Hw Hj s'.
  assert (Hdir2 : forall v, dir_ok e (after1 (fset (after1 s UMkdir) FBz v) UMkdir) = true) by (intros v; unfold dir_ok in *; by destruct (e_custom e)).
  assert (Hlen : (j <= length out)%nat) by (rewrite Eout, !app_length; lia).
  assert (E : s' = fset (after1 (fset (after1 s UMkdir) FBz (Some (mkFile body (e_now e)))) UMkdir) FXml (Some (mkFile (take j out) (e_now e)))).
  { unfold s', update. rewrite (w_stat1 e W). unfold stat_of. cbn [fget]. rewrite Hb. cbn [is_update_required].
    unfold do_download, download_update. rewrite (w_stat2 e W). unfold stat_of. cbn [fget]. rewrite Hb. cbn [is_update_required].
    rewrite (w_mkdir1 e W), Hg, (w_create_bz e W), Hdir, (w_room_bz e W). cbn [negb andb copy].
    rewrite after_cons, after_create. unfold do_unpack, unpack_update.
    rewrite (w_mkdir2 e W), (w_open_bz e W), (w_create_xml e W), (w_room_xml e W), Hdir2. cbn [negb andb fs_bz fset f_bytes].
    rewrite Hz. cbn [copy andb]. destruct (do_compile e _) as [us1 us2 r]. cbn [u_upds].
    change (4 + length body + j)%nat with (S (S (S (S (length body + j))))). cbn [app take].
    assert (Ek : forall B X R : list upd, length B = length body -> (j <= length X)%nat ->
      take (S (S (length body + j))) (B ++ UMkdir :: UCreate FXml (e_now e) :: X ++ R) = B ++ UMkdir :: UCreate FXml (e_now e) :: take j X).
    { intros B X R HB HX. rewrite firstn_app, HB. rewrite (take_ge B) by lia. replace (S (S (length body + j)) - length body)%nat with (S (S j)) by lia.
      cbn [take]. rewrite (take_app_le X) by done. done. }
    rewrite Ek by (rewrite map_length; lia). rewrite (firstn_map (UByte FXml (e_now e))).
    change (UMkdir :: UCreate FBz (e_now e) :: map (UByte FBz (e_now e)) body ++ UMkdir :: UCreate FXml (e_now e) :: map (UByte FXml (e_now e)) (take j out))
      with ((UMkdir :: UCreate FBz (e_now e) :: map (UByte FBz (e_now e)) body) ++ UMkdir :: UCreate FXml (e_now e) :: map (UByte FXml (e_now e)) (take j out)).
    by rewrite after_app, (after_cons s UMkdir), (after_create FBz), (after_cons _ UMkdir), (after_create FXml). }
  rewrite E. split; [done|]. split; [done|]. split; [done|]. intros e' m H1 H2 H3 He. split.
  - split; [done|]. eexists _, m. split; [done|]. split; [done|]. done.
  - set (p := take (j - length wpre) w). set (q := drop (j - length wpre) w).
    assert (Epq : w = p ++ q) by (symmetry; apply take_drop).
    assert (Lp : length p = (j - length wpre)%nat) by (unfold p; rewrite take_length; lia).
    assert (Lq : length q = (length w - (j - length wpre))%nat) by (unfold q; by rewrite drop_length).
    match goal with |- parse_file e' ?f = None => assert (Hp : parse_file e' f = None /\ parse_update e' f = ([], Err EOpencorpora)) end; [|exact (proj1 Hp)].
    apply (l_C84_a_part_is_not_compiled fr mr e' _ (mkFile (take j out) (e_now e)) pre wpre n l kids p q He); try done.
    + cbn [f_bytes]. rewrite Eout, Epq. rewrite firstn_app, (take_ge wpre) by lia. f_equal.
      rewrite <- app_assoc, firstn_app, (take_ge p) by lia. replace (j - length wpre - length p)%nat with 0%nat by lia. by rewrite app_nil_r.
    + by rewrite <- Epq.
    + intros Ep. rewrite Ep in Lp. cbn in Lp. lia.
    + intros Eq. rewrite Eq in Lq. cbn in Lq. lia.
Qed.
Lemma l_C84_end_to_end : forall first more e s doc body out ix1 force,
  (forall w, e_tokens e w = tokenize first more w) ->
  all_works e -> dir_ok e (after1 s UMkdir) = true -> fs_bz s = None ->
  e_get e = Some (200%N, body, true) -> e_unbz e body = (out, true) -> written_all doc out ->
  forallb (valid (e_conv e) []) doc = true -> good_acts [] (doc_acts doc) ->
  runs (acts_ops (doc_acts doc) ++ [OOptimize]) ix1 -> disk_caps ix1 = true ->
  all_storable (acts_ops (doc_acts doc)) ->
  u_res (update e s force) = Ok tt /\
  exists ix, load_index (after s (u_upds (update e s force))) = Ok ix /\
    (forall w, head w <> Some 0%Z -> (exists id, (fetch_runes ix w).2 = Ok id) <->
       w <> [] /\ exists t g, (t, g) ∈ forms (doc_acts doc) /\ w `prefix_of` runes_of_string t) /\
    (forall w id, head w <> Some 0%Z -> (fetch_runes ix w).2 = Ok id ->
       node_word ix id = Ok (string_of_runes w) /\
       exists sets, node_tag_sets ix id = Ok sets /\
         (forall t g, (t, g) ∈ forms (doc_acts doc) -> runes_of_string t = w ->
            exists x, x ∈ sets /\ map tag_name x ≡ₚ map name_norm g) /\
         (forall x, x ∈ sets -> exists t g, (t, g) ∈ forms (doc_acts doc) /\ runes_of_string t = w /\
            map tag_name x ≡ₚ map name_norm g)) /\
    (forall w, head w <> Some 0%Z -> (fetch_runes ix w).2 <> Panic).
Proof.
  intros fr mr e s doc body out ix1 force He W Hdir Hb Hg Hz Hw Hv Hgood H1 Hd Hst. apply (l_C57_end_to_end e s doc body out ix1); try done.
  rewrite He. by apply l_C84_every_writing_is_read.
Qed.
Lemma l_C84_compile : forall first more e s x doc ix1,
  (forall w, e_tokens e w = tokenize first more w) -> e_open_xml e = true -> fs_xml s = Some x -> written_all doc (f_bytes x) ->
  e_create_dat e = true -> dir_ok e s = true -> e_room_dat e = None -> e_flush e = None ->
  forallb (valid (e_conv e) []) doc = true -> good_acts [] (doc_acts doc) ->
  runs (acts_ops (doc_acts doc) ++ [OOptimize]) ix1 -> disk_caps ix1 = true ->
  all_storable (acts_ops (doc_acts doc)) ->
  (parse_update e s).2 = Ok tt /\
  exists ix, load_index (after s (parse_update e s).1) = Ok ix /\
    (forall w, head w <> Some 0%Z -> (exists id, (fetch_runes ix w).2 = Ok id) <->
       w <> [] /\ exists t g, (t, g) ∈ forms (doc_acts doc) /\ w `prefix_of` runes_of_string t) /\
    (forall w id, head w <> Some 0%Z -> (fetch_runes ix w).2 = Ok id ->
       node_word ix id = Ok (string_of_runes w) /\
       exists sets, node_tag_sets ix id = Ok sets /\
         (forall t g, (t, g) ∈ forms (doc_acts doc) -> runes_of_string t = w ->
            exists x, x ∈ sets /\ map tag_name x ≡ₚ map name_norm g) /\
         (forall x, x ∈ sets -> exists t g, (t, g) ∈ forms (doc_acts doc) /\ runes_of_string t = w /\
            map tag_name x ≡ₚ map name_norm g)) /\
    (forall w, head w <> Some 0%Z -> (fetch_runes ix w).2 <> Panic).
Proof.
  intros fr mr e s x doc ix1 Htok Hox Hfx Hwr Hc Hdir Hro Hfl Hv Hgood H1 Hd Hst.
  destruct (runs_app_inv _ _ _ H1) as [ix' H].
  destruct (l_C43_what_is_found (e_conv e) 0 doc ix' (Z.le_refl _) Hv H Hgood) as (p & Ep & Hfound & Hword).
  destruct (acts_history (doc_acts doc) index_new [] index_new ix') as (a2 & Ea & Sa); [done|constructor|done..|].
  pose proof (l_C43_same_as_calls _ _ _ doc p Done (Z.le_refl _) Hv Ep) as Ec. rewrite Ec in Ea. injection Ea as <-.
  pose proof (runs_optimize _ _ _ H H1) as Eo.
  pose proof (optimize_cong _ _ Sa) as So. rewrite Eo in So. destruct (optimize (p_ix p)) as [a1|?|] eqn:Eoa; [|done..].
  pose proof (index_write_cong _ _ So) as Sw.
  destruct (l_C23_save_load_same_answers _ ix1 H1 Hd (all_storable_snoc _ Hst)) as
    (bs & ix & Hw & Hr & _ & _ & N3 & _ & N5 & N6 & _).
  destruct (l_C21_optimize_invisible _ ix' H) as (ix1' & Eo' & _ & _ & O3 & _ & O5 & O6 & _).
  rewrite Eo in Eo'. injection Eo' as <-. rewrite Hw in Sw.
  assert (Eu : parse_update e s = (UCreate FDat (e_now e) :: map (UByte FDat (e_now e)) bs, Ok tt)).
  { unfold parse_update, parse_file. rewrite Hox, Hfx, Htok, (l_C84_every_writing_is_read fr mr doc) by done. rewrite Ep.
    unfold save_index. rewrite Hc, Hdir, Eoa, Sw, Hfl, Hro. done. }
  rewrite Eu. cbn [fst snd]. assert (Hdat : fs_dat (after s (UCreate FDat (e_now e) :: map (UByte FDat (e_now e)) bs)) = Some (mkFile bs (e_now e))) by (by rewrite after_create).
  split; [done|]. exists ix. split; [unfold load_index; rewrite Hdat; cbn [f_bytes]; by rewrite Hr|].
  assert (F : forall w, head w <> Some 0%Z -> (fetch_runes ix w).2 = (fetch_runes (p_ix p) w).2).
  { intros w Hw0. rewrite N3, O3 by done. symmetry. apply fetch_cong, Sa. }
  split; [|split].
  - intros w Hw0. rewrite F by done. apply Hfound.
  - intros w id Hw0. rewrite F by done. intros Hid. destruct (Hword w id Hid) as (Hn & sets & Hs & Hs1 & Hs2).
    split; [by rewrite N5, O5, <- (node_word_cong _ _ _ Sa)|].
    exists (map (map tag_norm) sets). split.
    { rewrite N6, O6. pose proof (q_tags _ _ (proj2 (same_core_indist _ _ Sa [])) id) as Q. unfold outs in Q. cbn [fold_left fst] in Q. rewrite <- Q, Hs. done. }
    assert (Hm : forall x, map tag_name (map tag_norm x) = map name_norm (map tag_name x)).
    { intros x0. rewrite !map_map. done. }
    split.
    + intros t g Hin Hrw. destruct (Hs1 t g Hin Hrw) as (x0 & Hx & Hp). exists (map tag_norm x0). split.
      * apply elem_of_list_fmap. by exists x0.
      * rewrite Hm. by apply Permutation_map.
    + intros x0 Hx. apply elem_of_list_fmap in Hx as (y & -> & Hy). destruct (Hs2 y Hy) as (t & g & Hin & Hrw & Hp).
      exists t, g. split; [done|]. split; [done|]. rewrite Hm. by apply Permutation_map.
  - intros w Hw0. rewrite F by done. intros Hp. rewrite (proj2 (fetch_cong _ _ w Sa)), (runs_fetch _ _ w H) in Hp by (by intros _).
    destruct w as [|r w]; [done|]. unfold d_find in Hp. by destruct (pos_from _ _ _).
Qed.
Lemma l_C84_no_root_is_an_empty_dictionary_refuted : forall first more e s x doc,
  (forall w, e_tokens e w = tokenize first more w) -> e_open_xml e = true -> fs_xml s = Some x -> written_all doc (f_bytes x) ->
  e_create_dat e = true -> dir_ok e s = true -> e_room_dat e = None -> e_flush e = None ->
  (forall n l kids, Elem n l kids ∉ doc) ->
  (parse_update e s).2 = Ok tt /\
  exists ix, load_index (after s (parse_update e s).1) = Ok ix /\
    forall w, head w <> Some 0%Z -> exists er, (fetch_runes ix w).2 = Err er.
Proof.
  intros fr mr e s x doc Htok Hox Hfx Hwr Hc Hdir Hro Hfl Hno.
  assert (Ea : doc_acts doc = [] /\ forallb (valid (e_conv e) []) doc = true).
  { clear -Hno. induction doc as [|n doc IH]; [done|]. destruct IH as [E1 E2]; [intros m l kids H; by apply (Hno m l kids), elem_of_list_further|].
    destruct n as [m l kids|v|]; [by destruct (Hno m l kids); left| |]; split; cbn; try done. }
  destruct Ea as [Ea Hv].
  assert (Hr : exists ix1, runs (acts_ops (doc_acts doc) ++ [OOptimize]) ix1 /\ disk_caps ix1 = true) by (rewrite Ea; apply run_case; by vm_compute).
  destruct Hr as (ix1 & H1 & Hd).
  destruct (l_C84_compile fr mr e s x doc ix1 Htok Hox Hfx Hwr Hc Hdir Hro Hfl Hv) as (H2 & ix & Hix & Hfound & _ & Hnp); try done.
  { by rewrite Ea. }
  { rewrite Ea. intros m q Hreg. exfalso. destruct Hreg as (h1 & h2 & Hreg & _). by destruct h1. }
  split; [done|]. exists ix. split; [done|]. intros w Hw. specialize (Hfound w Hw). specialize (Hnp w Hw).
  destruct ((fetch_runes ix w).2) as [id|er|] eqn:Ef; [|by exists er|done]. exfalso. rewrite Ea in Hfound. destruct (proj1 Hfound) as (_ & t & g & Hin & _); [by exists id|].
  by apply elem_of_nil in Hin.
Qed.
