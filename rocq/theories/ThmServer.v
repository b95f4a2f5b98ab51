(** Proofs about a machine that keeps up with a server: C74. *)
From Verif Require Import Base Index DocSpec Parser Loader LoaderSpec DateSpec Dates ThmLoader ThmDates ServerSpec.
From stdpp Require Import list.
Open Scope Z_scope.

(** ** Versions *)
Lemma current_spec ps t p : history ps -> current ps t = Some p <->
  p ∈ ps /\ p_time p <= t /\ forall q, q ∈ ps -> p_time q <= t -> p_time q <= p_time p.
Proof.
  intros [_ Hs]. unfold current. induction Hs as [|x ps Hs IH Hx]; [split; [done|]; intros [H _]; by apply elem_of_nil in H|].
  rewrite Forall_forall in Hx. rewrite filter_cons. destruct (decide (p_time x <= t)) as [E|E].
  - destruct (last (filter (fun p => p_time p <= t) ps)) as [y|] eqn:El.
    + assert (last (x :: filter (fun p => p_time p <= t) ps) = Some y) as ->.
      { rewrite last_cons, El. done. }
      split.
      * intros [= ->]. destruct (proj1 IH eq_refl) as (H1 & H2 & H3). split; [by right|]. split; [done|].
        intros q [-> | Hq]%elem_of_cons Hqt; [apply Hx in H1; lia|by apply H3].
      * intros (H1 & H2 & H3). f_equal. pose proof (last_Some_elem_of _ _ El) as [Hy1 Hy2]%elem_of_list_filter.
        apply elem_of_cons in H1 as [-> | H1]; [pose proof (Hx _ Hy2); pose proof (H3 y ltac:(by right) Hy1); lia|].
        assert (Some y = Some p) as [= ->]; [|done]. apply IH. split; [done|]. split; [done|]. intros q Hq. apply H3. by right.
    + rewrite last_cons, El. apply last_None in El. split.
      * intros [= ->]. split; [by left|]. split; [done|]. intros q [-> | Hq]%elem_of_cons Hqt; [done|].
        assert (q ∈ filter (fun p => p_time p <= t) ps) as Hin by (apply elem_of_list_filter; done). rewrite El in Hin. by apply elem_of_nil in Hin.
      * intros (H1 & H2 & _). apply elem_of_cons in H1 as [-> | H1]; [done|].
        assert (p ∈ filter (fun p => p_time p <= t) ps) as Hin by (apply elem_of_list_filter; done). rewrite El in Hin. by apply elem_of_nil in Hin.
  - rewrite IH. split.
    + intros (H1 & H2 & H3). split; [by right|]. split; [done|]. intros q [-> | Hq]%elem_of_cons Hqt; [done|by apply H3].
    + intros (H1 & H2 & H3). apply elem_of_cons in H1 as [-> | H1]; [done|]. split; [done|]. split; [done|]. intros q Hq. apply H3. by right.
Qed.
Lemma current_mono ps a b p : history ps -> a <= b -> current ps a = Some p -> exists q, current ps b = Some q /\ p_time p <= p_time q.
Proof.
  intros Hh Hab Hp. assert (exists q, current ps b = Some q) as [q Hq].
  { apply (current_spec _ _ _ Hh) in Hp as (H1 & H2 & _). unfold current. destruct (last _) as [q|] eqn:E; [by exists q|]. apply last_None in E.
    assert (p ∈ filter (fun p => p_time p <= b) ps) as Hin by (apply elem_of_list_filter; split; [lia|done]). rewrite E in Hin. by apply elem_of_nil in Hin. }
  exists q. split; [done|]. apply (current_spec _ _ _ Hh) in Hp as (H1 & H2 & _). apply (current_spec _ _ _ Hh) in Hq as (_ & _ & H3). apply H3; [done|lia].
Qed.

(** ** One call *)
Lemma compile_same k e s body out bs t : all_works e -> e_custom e = false -> fs_ddir s = true ->
  e_unbz e = k_unbz k /\ e_tokens e = k_tokens k /\ e_conv e = k_conv k ->
  compiles k body out bs -> fs_xml s = Some (mkFile out t) ->
  parse_update e s = (UCreate FDat (e_now e) :: map (UByte FDat (e_now e)) bs, Ok tt).
Proof.
  intros W Hc Hd (Eu & Et & Ec) (Hz & es & p & ix & Ht & Hp & Ho & Hw) Hx. unfold parse_update, parse_file.
  rewrite (w_open_xml e W), Hx. cbn [f_bytes]. rewrite Et, Ec, Ht, Hp. unfold save_index, dir_ok. rewrite (w_create_dat e W), Hc, Hd. cbn [negb andb].
  rewrite Ho, Hw, (w_flush e W), (w_room_dat e W). done.
Qed.
Lemma fetch_new k e s body out bs force : all_works e -> e_custom e = false ->
  e_unbz e = k_unbz k /\ e_tokens e = k_tokens k /\ e_conv e = k_conv k ->
  compiles k body out bs -> e_get e = Some (200%N, body, true) ->
  is_update_required (stat_of s FBz false) (e_head1 e) = Ok true ->
  is_update_required (stat_of s FBz false) (e_head2 e) = Ok true ->
  u_stages (update e s force) = [StDownload; StUnpack; StCompile] /\
  after s (u_upds (update e s force)) =
    mkFs (Some (mkFile body (e_now e))) (Some (mkFile out (e_now e))) (Some (mkFile bs (e_now e))) true (fs_cdir s).
Proof.
  intros W Hc Htools Hcomp Hg H1 H2. pose proof Hcomp as (Hz & _). pose proof Htools as (Eu & _).
  unfold update. rewrite (w_stat1 e W), H1. unfold do_download, download_update. rewrite (w_stat2 e W), H2.
  assert (Hdir : forall s, dir_ok e (after1 s UMkdir) = true) by (intros s'; unfold dir_ok; by rewrite Hc).
  rewrite (w_mkdir1 e W), Hg, (w_create_bz e W), Hdir, (w_room_bz e W). cbn [negb andb copy].
  rewrite after_cons, after_create. unfold do_unpack, unpack_update.
  rewrite (w_mkdir2 e W), (w_open_bz e W), (w_create_xml e W), (w_room_xml e W), Hdir. cbn [negb andb fs_bz fset f_bytes after1].
  rewrite Eu, Hz. cbn [copy andb]. rewrite after_cons, after_create. unfold do_compile.
  rewrite (compile_same k e _ body out bs (e_now e) W Hc) by done. cbn [u_stages u_upds]. split; [done|].
  rewrite !after_app, (after_create FDat), (after_cons _ UMkdir), (after_create FXml), (after_cons _ UMkdir), (after_create FBz). done.
Qed.

(** The archive of version [p] as the call [d] left it, with the files made of it. *)
Definition stored (k : tools) (s : fs) (d : visit) (p : pub) : Prop := exists out bs t t',
  compiles k (p_body p) out bs /\
  s = mkFs (Some (mkFile (p_body p) (e_now (v_env d)))) (Some (mkFile out t)) (Some (mkFile bs t')) true false.
Definition downs (s : fs) (v : visit) : bool :=
  existsb (fun st => match st with StDownload => true | _ => false end) (u_stages (update (v_env v) s (v_force v))).
Lemma check_current zone ps t q s f : history ps -> (forall t, zone (bytes_of "GMT") t = 0) -> current ps t = Some q ->
  fs_bz s = Some f -> is_update_required (stat_of s FBz false) (head_at zone ps t) = Ok (f_mtime f <? p_time q / second * second).
Proof.
  intros Hh Hz Hq Hb. unfold head_at, stat_of. rewrite Hq. cbn [fget]. rewrite Hb.
  apply (current_spec _ _ _ Hh) in Hq as (Hin & _). destruct Hh as [Hd _]. rewrite Forall_forall in Hd. destruct (Hd _ Hin) as [Hv He].
  rewrite l_C73_check by done. by rewrite He.
Qed.
Lemma floor_le t : t / second * second <= t < t / second * second + second.
Proof. unfold second. pose proof (Z_div_mod_eq_full t 1000000000). pose proof (Z.mod_pos_bound t 1000000000). lia. Qed.
Lemma floor_mono a b : a <= b -> a / second * second <= b / second * second.
Proof. intros H. unfold second. pose proof (Z.div_le_mono a b 1000000000). lia. Qed.
Section Step.
Context (k : tools) (zone : list N -> Z -> Z) (ps : list pub) (skew : Z).
Context (Hh : history ps) (Hz : forall t, zone (bytes_of "GMT") t = 0).
Context (Hk : forall p, p ∈ ps -> exists out bs, compiles k (p_body p) out bs).
Lemma step_first v made : honest k zone ps skew v ->
  downs (empty_dir made) v = true /\ exists p, current ps (v_get v) = Some p /\ stored k (go (empty_dir made) v) v p.
Proof.
  intros Hv. destruct (h_get _ _ _ _ _ Hv) as (p & Hp & Hg). pose proof Hp as (Hin & _)%(current_spec _ _ _ Hh).
  destruct (Hk _ Hin) as (out & bs & Hc).
  destruct (fetch_new k (v_env v) (empty_dir made) (p_body p) out bs (v_force v)) as [E1 E2]; try done; try apply Hv.
  unfold downs, go. rewrite E1, E2. split; [done|]. exists p. split; [done|]. by exists out, bs, (e_now (v_env v)), (e_now (v_env v)).
Qed.
Lemma step_next v s d p : honest k zone ps skew v -> stored k s d p -> current ps (v_get d) = Some p -> v_get d <= v_head1 v ->
  exists q, current ps (v_head1 v) = Some q /\
    ((p_time q / second * second <= e_now (v_env d) /\ downs s v = false /\ stored k (go s v) d p) \/
     (e_now (v_env d) < p_time q / second * second /\ downs s v = true /\
      exists p', current ps (v_get v) = Some p' /\ p_time q <= p_time p' /\ stored k (go s v) v p')).
Proof.
  intros Hv (out & bs & t & t' & Hc & ->) Hp Ht. set (s := mkFs _ _ _ _ _). destruct (current_mono ps _ _ _ Hh Ht Hp) as (q & Hq & _). exists q. split; [done|].
  destruct (h_times _ _ _ _ _ Hv) as (T1 & T2 & T3).
  destruct (current_mono ps _ _ _ Hh T1 Hq) as (q2 & Hq2 & L2).
  pose proof (check_current zone ps _ q s _ Hh Hz Hq eq_refl) as C1. pose proof (check_current zone ps _ q2 s _ Hh Hz Hq2 eq_refl) as C2.
  cbn [f_mtime] in C1, C2. pose proof (floor_mono _ _ L2) as F2.
  destruct (Z.ltb_spec (e_now (v_env d)) (p_time q / second * second)) as [E|E].
  - right. rewrite (proj2 (Z.ltb_lt _ _) (Z.lt_le_trans _ _ _ E F2)) in C2. rewrite <- (h_head1 _ _ _ _ _ Hv) in C1. rewrite <- (h_head2 _ _ _ _ _ Hv) in C2.
    destruct (h_get _ _ _ _ _ Hv) as (p' & Hp' & Hg). pose proof Hp' as (Hin & _)%(current_spec _ _ _ Hh).
    destruct (Hk _ Hin) as (out' & bs' & Hc').
    destruct (fetch_new k (v_env v) s (p_body p') out' bs' (v_force v)) as [E1 E2]; try done; try apply Hv.
    unfold downs, go. rewrite E1, E2. split; [done|]. split; [done|]. exists p'. split; [done|]. split.
    + destruct (current_mono ps (v_head1 v) (v_get v) _ Hh ltac:(lia) Hq) as (p'' & Hp'' & L). rewrite Hp' in Hp''. by injection Hp'' as ->.
    + by exists out', bs', (e_now (v_env v)), (e_now (v_env v)).
  - left. split; [done|]. rewrite <- (h_head1 _ _ _ _ _ Hv) in C1. unfold downs, go, update. rewrite (w_stat1 _ (h_works _ _ _ _ _ Hv)), C1.
    destruct (v_force v); [|split; [done|]; by exists out, bs, t, t'].
    unfold do_compile. rewrite (compile_same k (v_env v) s (p_body p) out bs t) by (done || apply Hv). cbn [u_stages u_upds]. split; [done|].
    rewrite after_create. by exists out, bs, t, (e_now (v_env v)).
Qed.
Lemma fetched_app s a b : fetched s (a ++ b) = fetched s a ++ fetched (fold_left go a s) b.
Proof. revert s. induction a as [|v a IH]; intros s; [done|]. cbn [fetched app fold_left]. by rewrite IH, app_assoc. Qed.
Lemma fetched_elem s vs v : v ∈ fetched s vs -> v ∈ vs.
Proof. revert s. induction vs as [|x vs IH]; intros s; [done|]. cbn [fetched]. intros [H|H]%elem_of_app; [|right; by eapply IH]. destruct (existsb _ _); [|by apply elem_of_nil in H]. apply elem_of_list_singleton in H as ->. by left. Qed.
Lemma fetched_snoc s vs v : fetched s (vs ++ [v]) = fetched s vs ++ (if downs (fold_left go vs s) v then [v] else []).
Proof. rewrite fetched_app. cbn [fetched]. by rewrite app_nil_r. Qed.
Lemma turn_snoc vs v : in_turn (vs ++ [v]) -> in_turn vs /\ forall d, d ∈ vs -> v_written d <= v_head1 v.
Proof.
  unfold in_turn. induction vs as [|x vs IH]; intros H; [split; [constructor|]; intros d Hd; by apply elem_of_nil in Hd|].
  cbn [app] in H. apply StronglySorted_inv in H as [H1 H2]. destruct (IH H1) as [I1 I2]. apply Forall_app in H2 as [F1 F2]. split; [by constructor|].
  intros d [-> | Hd]%elem_of_cons; [by apply Forall_cons in F2 as [? _]|by apply I2].
Qed.
Lemma stored_inv made vs : Forall (honest k zone ps skew) vs -> in_turn vs -> vs <> [] ->
  exists d p, last (fetched (empty_dir made) vs) = Some d /\ current ps (v_get d) = Some p /\ stored k (fold_left go vs (empty_dir made)) d p /\
    forall q v, last vs = Some v -> q ∈ ps -> p_time p < p_time q <= v_head1 v -> v_get d < p_time q < v_written d + skew + second.
Proof.
  induction vs as [|v vs IH] using rev_ind; [done|]. intros Hv Ht _. apply Forall_app in Hv as [Hvs Hv]. apply Forall_cons in Hv as [Hv _].
  destruct (turn_snoc _ _ Ht) as [Ht' Hd]. rewrite fold_left_app. cbn [fold_left]. rewrite fetched_snoc. 
  assert (V : forall v', last (vs ++ [v]) = Some v' -> v' = v) by (intros v'; rewrite last_snoc; by intros [= <-]).
  destruct (h_times _ _ _ _ _ Hv) as (T1 & T2 & T3).
  assert (N : forall p q, current ps (v_get v) = Some p -> q ∈ ps -> p_time p < p_time q -> v_head1 v < p_time q).
  { intros p q (_ & _ & H)%(current_spec _ _ _ Hh) Hq Hlt. destruct (Z.le_gt_cases (p_time q) (v_head1 v)) as [E|E]; [|lia]. pose proof (H q Hq ltac:(lia)). lia. }
  destruct vs as [|x vs'] eqn:Evs.
  - cbn [fold_left app fetched]. destruct (step_first v made Hv) as [E (p & Hp & Hs)]. rewrite E. exists v, p. split_and!; try done.
    intros q v' Hl Hq [L1 L2]. apply V in Hl as ->. pose proof (N p q Hp Hq L1). lia.
  - rewrite <- Evs in *. destruct (IH Hvs Ht' ltac:(by rewrite Evs)) as (d & p & Hl & Hp & Hs & _).
    assert (Hdin : d ∈ vs) by (eapply fetched_elem, last_Some_elem_of; eassumption).
    pose proof (Hd _ Hdin) as Td. pose proof (proj1 (Forall_forall _ _) Hvs _ Hdin) as Hdh. destruct (h_times _ _ _ _ _ Hdh) as (_ & _ & D3). pose proof (h_now _ _ _ _ _ Hdh) as Dn.
    destruct (step_next v _ d p Hv Hs Hp ltac:(lia)) as (q & Hq & [(E & -> & Hs') | (E & -> & p' & Hp' & L & Hs')]).
    + rewrite app_nil_r. exists d, p. split_and!; try done. intros q' v' Hl' Hq' [L1 L2]. apply V in Hl' as ->. split.
      * apply (current_spec _ _ _ Hh) in Hp as (_ & _ & H). destruct (Z.le_gt_cases (p_time q') (v_get d)) as [E'|E']; [|lia]. pose proof (H q' Hq' E'). lia.
      * apply (current_spec _ _ _ Hh) in Hq as (_ & _ & H). pose proof (H q' Hq' ltac:(lia)). pose proof (floor_le (p_time q)). lia.
    + rewrite last_snoc. exists v, p'. split_and!; try done. intros q' v' Hl' Hq' [L1 L2]. apply V in Hl' as ->. pose proof (N p' q' Hp' Hq' L1). lia.
Qed.
End Step.
Lemma l_C74_fresh : forall k zone ps skew made vs v,
  history ps -> (forall t, zone (bytes_of "GMT") t = 0) -> (forall p, p ∈ ps -> exists out bs, compiles k (p_body p) out bs) ->
  Forall (honest k zone ps skew) vs -> in_turn vs -> last vs = Some v ->
  let s := fold_left go vs (empty_dir made) in
  exists d p out bs, last (fetched (empty_dir made) vs) = Some d /\ current ps (v_get d) = Some p /\
    compiles k (p_body p) out bs /\
    f_bytes <$> fs_bz s = Some (p_body p) /\ f_bytes <$> fs_xml s = Some out /\ f_bytes <$> fs_dat s = Some bs /\
    forall q, q ∈ ps -> p_time p < p_time q <= v_head1 v -> v_get d < p_time q < v_written d + skew + second.
Proof.
  intros k zone ps skew made vs v Hh Hz Hk Hvs Ht Hl s.
  destruct (stored_inv k zone ps skew Hh Hz Hk made vs Hvs Ht) as (d & p & H1 & H2 & (out & bs & t & t' & Hc & Hs) & H3); [by intros ->|].
  exists d, p, out, bs. subst s. rewrite Hs. split_and!; try done. intros q. by apply H3.
Qed.
Lemma sorted_snoc {A} (R : A -> A -> Prop) l x : StronglySorted R (l ++ [x]) <-> StronglySorted R l /\ forall y, y ∈ l -> R y x.
Proof.
  induction l as [|a l IH]; cbn [app].
  - split; [intros _; split; [constructor|]; intros y Hy; by apply elem_of_nil in Hy|intros _; repeat constructor].
  - split.
    + intros [H1 H2]%StronglySorted_inv. apply IH in H1 as [H1 H3]. apply Forall_app in H2 as [H2 H4]. split; [by constructor|].
      intros y [-> | Hy]%elem_of_cons; [by apply Forall_cons in H4 as [? _]|by apply H3].
    + intros [[H1 H2]%StronglySorted_inv H3]. constructor; [apply IH; split; [done|]; intros y Hy; apply H3; by right|].
      apply Forall_app. split; [done|]. constructor; [apply H3; by left|constructor].
Qed.
Lemma l_C74_never_twice : forall k zone ps made vs,
  history ps -> (forall t, zone (bytes_of "GMT") t = 0) -> (forall p, p ∈ ps -> exists out bs, compiles k (p_body p) out bs) ->
  Forall (honest k zone ps 0) vs -> in_turn vs ->
  StronglySorted (fun a b => exists p q, current ps (v_get a) = Some p /\ current ps (v_get b) = Some q /\ p_time p < p_time q)
    (fetched (empty_dir made) vs).
Proof.
  intros k zone ps made vs Hh Hz Hk. induction vs as [|v vs IH] using rev_ind; [intros _ _; constructor|]. intros Hv Ht.
  apply Forall_app in Hv as [Hvs Hv]. apply Forall_cons in Hv as [Hv _]. destruct (turn_snoc _ _ Ht) as [Ht' Hd]. specialize (IH Hvs Ht'). rewrite fetched_snoc.
  destruct (downs _ v) eqn:E; [|by rewrite app_nil_r].
  apply sorted_snoc. split; [done|]. intros a Ha.
  destruct vs as [|x vs'] eqn:Evs; [by apply elem_of_nil in Ha|]. rewrite <- Evs in *.
  destruct (stored_inv k zone ps 0 Hh Hz Hk made vs Hvs Ht' ltac:(by rewrite Evs)) as (d & p & Hl & Hp & Hs & _).
  assert (Hdin : d ∈ vs) by (eapply fetched_elem, last_Some_elem_of; eassumption).
  pose proof (Hd _ Hdin) as Td. pose proof (proj1 (Forall_forall _ _) Hvs _ Hdin) as Hdh. destruct (h_times _ _ _ _ _ Hdh) as (D1 & D2 & D3). pose proof (h_now _ _ _ _ _ Hdh) as Dn.
  destruct (step_next k zone ps 0 Hh Hz Hk v _ d p Hv Hs Hp ltac:(lia)) as (q & Hq & [(_ & E' & _) | (F & _ & p' & Hp' & L & _)]); [congruence|].
  pose proof (floor_le (p_time q)).
  pose proof (proj1 (Forall_forall _ _) Hvs _ (fetched_elem _ _ _ Ha)) as Hah. destruct (h_get _ _ _ _ _ Hah) as (pa & Hpa & _).
  exists pa, p'. split; [done|]. split; [done|]. pose proof Hpa as (_ & Ta & _)%(current_spec _ _ _ Hh).
  destruct (h_times _ _ _ _ _ Hah) as (A1 & A2 & A3).
  apply last_Some in Hl as [l El]. rewrite El in IH, Ha. apply elem_of_app in Ha as [Ha | ->%elem_of_list_singleton]; [|lia].
  apply sorted_snoc in IH as (_ & IH). destruct (IH a Ha) as (p1 & p2 & E1 & E2 & Hlt).
  apply (current_spec _ _ _ Hh) in E2 as (_ & T2 & _). rewrite Hpa in E1. injection E1 as <-. lia.
Qed.
Lemma l_C74_count : forall k zone ps made vs,
  history ps -> (forall t, zone (bytes_of "GMT") t = 0) -> (forall p, p ∈ ps -> exists out bs, compiles k (p_body p) out bs) ->
  Forall (honest k zone ps 0) vs -> in_turn vs -> (length (fetched (empty_dir made) vs) <= length ps)%nat.
Proof.
  intros k zone ps made vs Hh Hz Hk Hvs Ht. pose proof (l_C74_never_twice k zone ps made vs Hh Hz Hk Hvs Ht) as Hs.
  assert (Hin : forall v, v ∈ fetched (empty_dir made) vs -> exists p, current ps (v_get v) = Some p /\ p ∈ ps).
  { intros v Hv%fetched_elem. rewrite Forall_forall in Hvs. destruct (h_get _ _ _ _ _ (Hvs _ Hv)) as (p & Hp & _). exists p. split; [done|].
    by apply (current_spec _ _ _ Hh) in Hp as (? & _). }
  rewrite <- (map_length (fun v => current ps (v_get v))), <- (map_length Some ps). apply submseteq_length, NoDup_submseteq.
  - clear Hin. induction Hs as [|v l Hs IH Hf]; [constructor|]. cbn [map]. apply NoDup_cons. split; [|done].
    intros (w & Ew & Hw)%elem_of_list_fmap. rewrite Forall_forall in Hf. destruct (Hf _ Hw) as (p & q & E1 & E2 & Hlt). rewrite E1, E2 in Ew. injection Ew as ->. lia.
  - intros x (v & -> & Hv)%elem_of_list_fmap. destruct (Hin _ Hv) as (p & -> & Hp). by apply elem_of_list_fmap_1.
Qed.
Lemma l_C74_unnoticed : forall k zone ps skew made a b d,
  history ps -> (forall t, zone (bytes_of "GMT") t = 0) -> (forall p, p ∈ ps -> exists out bs, compiles k (p_body p) out bs) ->
  Forall (honest k zone ps skew) (a ++ b) -> in_turn (a ++ b) -> last (fetched (empty_dir made) a) = Some d ->
  (forall q, q ∈ ps -> p_time q / second * second <= e_now (v_env d)) ->
  fetched (empty_dir made) (a ++ b) = fetched (empty_dir made) a.
Proof.
  intros k zone ps skew made a b d Hh Hz Hk. induction b as [|v b IH] using rev_ind; [by rewrite app_nil_r|]. rewrite app_assoc. intros Hv Ht Hl Hq.
  apply Forall_app in Hv as [Hvs Hv]. apply Forall_cons in Hv as [Hv _]. destruct (turn_snoc _ _ Ht) as [Ht' Hd]. specialize (IH Hvs Ht' Hl Hq).
  rewrite fetched_snoc, IH. assert (Hne : a ++ b <> []) by (intros [-> _]%app_eq_nil; done).
  destruct (stored_inv k zone ps skew Hh Hz Hk made _ Hvs Ht' Hne) as (d' & p & Hl' & Hp & Hs & _).
  rewrite IH, Hl in Hl'. injection Hl' as <-.
  assert (Hdin : d ∈ a ++ b) by (eapply fetched_elem, last_Some_elem_of; rewrite IH; eassumption).
  pose proof (Hd _ Hdin). pose proof (proj1 (Forall_forall _ _) Hvs _ Hdin) as Hdh. destruct (h_times _ _ _ _ _ Hdh) as (_ & _ & D3).
  destruct (step_next k zone ps skew Hh Hz Hk v _ d p Hv Hs Hp ltac:(lia)) as (q & Hqc & [(_ & -> & _) | (E & _)]); [by rewrite app_nil_r|].
  apply (current_spec _ _ _ Hh) in Hqc as (Hin & _). specialize (Hq _ Hin). lia.
Qed.
