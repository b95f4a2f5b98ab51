(** Tags, tag sets and collections represent the annotations of the abstract dictionary. *)
From Coq Require Import ZifyBool ZifyNat ZifyN.
From Verif Require Import Base Storage Bin Utf8 Tags TagSets Variants Items Index Spec Hist
  BaseFacts Intern SpecFacts TrieFacts.
From stdpp Require Import list.
Open Scope N_scope.

(** ** Capacity *)
Definition capN (tcap scap : N) (x : list (list (list N))) : Prop :=
  lenN x <= tcap /\ Forall (fun t => lenN t <= scap) x.
Lemma within_capN tcap scap x : within tcap scap x = true <-> capN tcap scap x.
Proof.
  unfold within, capN. rewrite andb_true_iff, N.leb_le.
  rewrite forallb_forall, Forall_forall. split; intros [? H]; (split; [done|]).
  - intros t Ht. apply elem_of_list_In in Ht. specialize (H t Ht). cbn in H. lia.
  - intros t Ht. apply elem_of_list_In in Ht. specialize (H t Ht). cbn in H. lia.
Qed.
Lemma capN_tables tcap scap x : capN tcap scap x <-> tables_cap (N.to_nat tcap) (N.to_nat scap) x.
Proof.
  unfold capN, tables_cap, lenN. rewrite !Forall_forall.
  split; intros [? H]; (split; [lia|]); intros t Ht; specialize (H t Ht); lia.
Qed.

(** ** Identifiers that resolve *)
Definition good_set (sets : list (list (list N))) (k : N) (s : list N) : Prop :=
  k < 4294967296 /\ tagset_get sets k = Some s.
Definition good_col (cols : list (list (list N))) (v : N) (col : list N) : Prop :=
  v < 4294967296 /\ id32_upper v <> 0 /\
  at2 cols (N.to_nat (id32_upper v) - 1) (N.to_nat (id32_lower v)) = Some col.

Lemma good_set_inj sets k k' s : tables_ok sets -> good_set sets k s -> good_set sets k' s -> k = k'.
Proof.
  intros Hok [Hk H] [Hk' H']. rewrite tagset_get_at2 in *.
  destruct (at2_inj _ _ _ _ _ _ Hok H H') as [E1 E2].
  rewrite <- (combine16_upper_lower k), <- (combine16_upper_lower k') by done. f_equal; lia.
Qed.
Lemma good_col_inj cols v v' c : tables_ok cols -> good_col cols v c -> good_col cols v' c -> v = v'.
Proof.
  intros Hok (Hk & Hu & H) (Hk' & Hu' & H').
  destruct (at2_inj _ _ _ _ _ _ Hok H H') as [E1 E2].
  rewrite <- (combine16_upper_lower v), <- (combine16_upper_lower v') by done. f_equal; lia.
Qed.
Lemma good_col_fun cols v c c' : good_col cols v c -> good_col cols v c' -> c = c'.
Proof. intros (_ & _ & H) (_ & _ & H'). congruence. Qed.
Lemma good_col_get cols v c : good_col cols v c -> variants_get cols v = Ok c.
Proof.
  intros (_ & Hu & H). rewrite variants_get_at2. destruct (N.eqb_spec (id32_upper v) 0); [done|].
  by rewrite H.
Qed.
Lemma good_col_nz cols v c : good_col cols v c -> v <> 0.
Proof. intros (_ & Hu & _) ->. by apply Hu. Qed.
Lemma good_col_len cols v c : tables_ok cols -> good_col cols v c -> lenN c = id32_upper v.
Proof.
  intros Hok (_ & Hu & H). apply at2_ok in H as [_ H]; [|done]. unfold lenN. lia.
Qed.
Lemma good_col_ne cols v c : tables_ok cols -> good_col cols v c -> c <> [].
Proof. intros Hok H ->. pose proof (good_col_len _ _ _ Hok H). by destruct H as (_ & Hu & _). Qed.

Record interned (get : list (list (list N)) -> N -> list N -> Prop)
    (x x' : list (list (list N))) (id : N) (item : list N) : Prop := {
  in_ok : tables_ok x';
  in_get : get x' id (go_sort item);
  in_mono : forall k s, get x k s -> get x' k s;
  in_at2 : forall c i s, at2 x c i = Some s -> at2 x' c i = Some s;
  in_new : forall c i s, at2 x' c i = Some s -> at2 x c i = Some s \/ s = go_sort item;
  in_hit : forall k, get x k (go_sort item) -> x' = x /\ id = k }.

Lemma sets_interned sets ids sets' sid :
  tables_ok sets -> ids <> [] -> tagset_index_index sets ids = Ok (sets', sid) ->
  capN 65536 65536 sets' -> interned good_set sets sets' sid ids.
Proof.
  intros Hok Hne. rewrite tagset_index_intern by done. intros [= <- <-] Hcap.
  pose proof Hcap as Hcap'. rewrite capN_tables in Hcap'.
  apply (intern2_cap sets ids) in Hcap' as (Hc & Hi & _).
  rewrite (wrap16_small (N.of_nat (length ids - 1))) by lia. rewrite wrap16_small by lia.
  pose proof (intern2_get sets ids) as G.
  assert (Hg : good_set (intern2 sets ids).1
     (combine16 (N.of_nat (length ids - 1)) (N.of_nat (intern2 sets ids).2)) (go_sort ids)).
  { split; [apply combine16_lt; lia|].
    rewrite tagset_get_at2, upper_combine16, lower_combine16, !Nat2N.id by lia. done. }
  assert (Hm : forall c i s, at2 sets c i = Some s -> at2 (intern2 sets ids).1 c i = Some s).
  { intros c i s. apply intern2_mono; done. }
  split; try done.
  - by apply intern2_ok.
  - intros k s [Hk H]. split; [done|]. rewrite tagset_get_at2 in *. by apply Hm.
  - intros c i s H. apply intern2_new in H as [H|(-> & -> & ->)]; [by left|by right|done..].
  - intros k Hk. split.
    + destruct Hk as [_ Hk]. rewrite tagset_get_at2 in Hk. by eapply intern2_hit.
    + eapply good_set_inj; [apply (intern2_ok sets ids); done|exact Hg|].
      destruct Hk as [Hk H]. split; [done|]. rewrite tagset_get_at2 in *. by apply Hm.
Qed.

Lemma cols_interned cols item cols' vid :
  tables_ok cols -> item <> [] -> lenN item <= 65536 ->
  variants_index_index cols item = Ok (cols', vid) ->
  capN 65535 65536 cols' -> interned good_col cols cols' vid item.
Proof.
  intros Hok Hne Hlen. rewrite variants_index_intern by done. intros [= <- <-] Hcap.
  pose proof Hcap as Hcap'. rewrite capN_tables in Hcap'.
  apply (intern2_cap cols item) in Hcap' as (Hc & Hi & _).
  assert (Hl0 : lenN item <> 0) by (rewrite lenN_0; done).
  assert (Hl : lenN item <= 65535) by (unfold lenN in *; lia).
  rewrite (wrap16_small (lenN item)) by lia. rewrite wrap16_small by lia.
  pose proof (intern2_get cols item) as G.
  assert (Hg : good_col (intern2 cols item).1
     (combine16 (lenN item) (N.of_nat (intern2 cols item).2)) (go_sort item)).
  { split; [apply combine16_lt; lia|].
    rewrite upper_combine16, lower_combine16, !Nat2N.id by lia. split; [done|].
    rewrite to_nat_lenN. done. }
  assert (Hm : forall c i s, at2 cols c i = Some s -> at2 (intern2 cols item).1 c i = Some s).
  { intros c i s. apply intern2_mono; done. }
  split; try done.
  - by apply intern2_ok.
  - intros k s (Hk & Hu & H). split; [done|]. split; [done|]. by apply Hm.
  - intros c i s H. apply intern2_new in H as [H|(-> & -> & ->)]; [by left|by right|done..].
  - intros k Hk. split.
    + destruct Hk as (_ & _ & Hk). by eapply intern2_hit.
    + eapply good_col_inj; [apply (intern2_ok cols item); done|exact Hg|].
      destruct Hk as (Hk & Hu & H). split; [done|]. split; [done|]. by apply Hm.
Qed.

(** ** Collections *)
Lemma collection_has_spec c id : collection_has c id = true <-> id ∈ c.
Proof.
  unfold collection_has. rewrite existsb_exists. split.
  - intros (x & Hx & ->%N.eqb_eq). by apply elem_of_list_In.
  - intros H. exists id. split; [by apply elem_of_list_In|]. apply N.eqb_refl.
Qed.
Lemma collection_add_elem c id x : x ∈ collection_add c id <-> x = id \/ x ∈ c.
Proof.
  unfold collection_add. destruct (collection_has c id) eqn:E.
  - apply collection_has_spec in E. naive_solver.
  - rewrite go_sort_elem, elem_of_app, elem_of_list_singleton. naive_solver.
Qed.
Lemma collection_add_ne c id : collection_add c id <> [].
Proof.
  intros E. assert (H : id ∈ collection_add c id) by (apply collection_add_elem; by left).
  rewrite E in H. by apply elem_of_nil in H.
Qed.
Lemma collection_add_NoDup c id : NoDup c -> NoDup (collection_add c id).
Proof.
  intros Hnd. unfold collection_add. destruct (collection_has c id) eqn:E; [done|].
  rewrite go_sort_NoDup. apply NoDup_app. split; [done|]. split; [|apply NoDup_singleton].
  intros x Hx ->%elem_of_list_singleton. apply collection_has_spec in Hx. congruence.
Qed.
Lemma collection_add_len c id : lenN (collection_add c id) <= lenN c + 1.
Proof.
  unfold collection_add. destruct (collection_has c id); [lia|].
  rewrite go_sort_lenN, lenN_app, lenN_cons, lenN_nil. lia.
Qed.

Definition resolved (sets : list (list (list N))) (col : list N) : gset (list N) :=
  list_to_set (omap (tagset_get sets) col).
Lemma elem_of_resolved sets col s :
  s ∈ resolved sets col <-> exists k, k ∈ col /\ tagset_get sets k = Some s.
Proof. unfold resolved. by rewrite elem_of_list_to_set, elem_of_list_omap. Qed.
Lemma resolved_mono sets sets' col :
  (forall k s, good_set sets k s -> good_set sets' k s) ->
  Forall (fun k => exists s, good_set sets k s) col -> resolved sets' col = resolved sets col.
Proof.
  intros Hm Hall. apply set_eq. intros s. rewrite !elem_of_resolved. rewrite Forall_forall in Hall.
  split; intros (k & Hk & Hs); exists k; (split; [done|]);
    destruct (Hall k Hk) as (s' & Hs'); pose proof (Hm _ _ Hs') as [_ Hs2]; destruct Hs' as [_ Hs1];
    congruence.
Qed.
Lemma resolved_perm sets col col' : (forall k, k ∈ col <-> k ∈ col') -> resolved sets col = resolved sets col'.
Proof. intros H. apply set_eq. intros s. rewrite !elem_of_resolved. setoid_rewrite H. done. Qed.

(** ** Tags *)
Definition tag_of (np : list N * list N) : tag := mkTag np.2 np.1.
Lemma str_eqb_eq a b : str_eqb a b = true <-> a = b.
Proof. apply bool_decide_eq_true. Qed.
Lemma str_eqb_neq a b : str_eqb a b = false <-> a <> b.
Proof. apply bool_decide_eq_false. Qed.
Lemma tag_pos_pos l n i :
  tag_pos (map tag_of l) n i = N.to_nat <$> pos_from (N.of_nat i) l.*1 n.
Proof.
  revert i. induction l as [|[a b] l IH]; intros i; cbn [map tag_pos pos_from fmap list_fmap]; [done|].
  cbn. unfold str_eqb.
  destruct (decide (a = n)) as [->|Hne].
  - rewrite bool_decide_true by done. cbn. f_equal. lia.
  - rewrite bool_decide_false by done. rewrite IH. f_equal. f_equal. lia.
Qed.
Lemma tags_find_pos l n : lenN l <= 256 -> tags_find (map tag_of l) n = pos_from 0 l.*1 n.
Proof.
  intros Hl. unfold tags_find. rewrite tag_pos_pos. cbn.
  destruct (pos_from 0 l.*1 n) as [k|] eqn:E; cbn; [|done]. f_equal. rewrite N2Nat.id.
  apply wrap8_small. apply pos_from_Some in E as (j & -> & Hj). apply lookup_lt_Some in Hj.
  rewrite fmap_length in Hj. unfold lenN in Hl. lia.
Qed.
Lemma tags_get_lookup ts id : tags_get ts id = ts !! N.to_nat id.
Proof.
  unfold tags_get. destruct (N.leb_spec (lenN ts) id) as [H|H]; [|done].
  symmetry. apply lookup_ge_None_2. unfold lenN in H. lia.
Qed.

(** ** The relation *)
Record annot (ix : index) (d : dict) : Prop := {
  a_tags : ix_tags ix = map tag_of (d_tags d);
  a_names : NoDup (d_tags d).*1;
  a_ntags : lenN (d_tags d) <= 256;
  a_parents : Forall (fun np => np.2 <> []) (d_tags d);
  a_bytes : Forall (fun np => Forall (fun b => b < 256) np.1 /\ Forall (fun b => b < 256) np.2) (d_tags d);
  a_sets : tables_ok (ix_sets ix);
  a_sets_cap : capN 65536 65536 (ix_sets ix);
  a_set_ids : forall c i s, at2 (ix_sets ix) c i = Some s ->
    Forall (fun t => t < lenN (d_tags d)) s;
  a_cols : tables_ok (ix_cols ix);
  a_cols_cap : capN 65535 65536 (ix_cols ix);
  a_col_ids : forall c i col, at2 (ix_cols ix) c i = Some col ->
    NoDup col /\ Forall (fun k => exists s, good_set (ix_sets ix) k s) col;
  a_items : forall i w it, d_words d !! i = Some w -> its_list (ix_items ix) !! S i = Some it ->
    (it_variants it = 0 /\ d_notes d !! w = None) \/
    (exists col, good_col (ix_cols ix) (it_variants it) col /\
                 d_notes d !! w = Some (resolved (ix_sets ix) col));
  a_dom : forall w s, d_notes d !! w = Some s -> w ∈ d_words d;
  a_words : ix_words ix = N.of_nat (size (d_notes d)) }.

Lemma annot_same a b d : same_core a b -> annot b d -> annot a d.
Proof.
  intros S A. destruct a as [ta sa ca ia ma wa], b as [tb sb cb ib mb wb].
  destruct S as [S1 S2 S3 S4 S5 _]. cbn in *. subst. destruct A. by split.
Qed.

(** adding nodes *)
Lemma annot_add ld a b d w :
  trie_of ld b (d_words d) -> trie_of ld a (add_prefixes (d_words d) [] w) -> add_frame a b ->
  annot b d -> annot a (d_add d w).
Proof.
  intros Tb Ta F A. destruct (add_prefixes_app (d_words d) [] w) as [new E].
  destruct F, A. split; cbn; rewrite ?af_tags, ?af_sets, ?af_cols, ?af_words; try done.
  - intros i w' it Hw Hit. rewrite E in Hw.
    pose proof (t_len _ _ _ _ Tb) as Lb. unfold lenN in Lb.
    destruct (decide (i < length (d_words d))%nat) as [Hi|Hi].
    + rewrite lookup_app_l in Hw by done. apply (a_items0 i w' it Hw).
      apply af_old; [lia|done].
    + left. split; [eapply af_new; [|exact Hit]; lia|].
      destruct (d_notes d !! w') as [s|] eqn:En; [|done]. exfalso.
      apply a_dom0 in En. apply elem_of_list_lookup in En as [j Hj].
      pose proof (trie_ws_NoDup Ta) as Hnd. rewrite E in Hnd.
      assert (j = i) by (eapply NoDup_lookup; [exact Hnd| |exact Hw]; by apply lookup_app_l_Some).
      apply lookup_lt_Some in Hj. lia.
  - intros w' s H. rewrite E. apply elem_of_app. left. by eapply a_dom0.
Qed.

(** registering a tag *)
Lemma caps_spec ix : caps ix = true ->
  lenN (ix_tags ix) <= 256 /\ capN 65536 65536 (ix_sets ix) /\ capN 65535 65536 (ix_cols ix) /\
  lenN (its_list (ix_items ix)) < 4294967296.
Proof.
  unfold caps. rewrite !andb_true_iff, N.leb_le, N.ltb_lt. rewrite !within_capN. tauto.
Qed.
Lemma tag_register ld ix d n p ix' id :
  trie_of ld ix (d_words d) -> annot ix d ->
  Forall (fun b => b < 256) n -> Forall (fun b => b < 256) p ->
  index_tag_id ix n p = (ix', id) -> lenN (ix_tags ix') <= 256 ->
  id = default (lenN (d_tags d)) (d_tag_pos d n) /\
  trie_of ld ix' (d_words (d_register d n p)) /\ annot ix' (d_register d n p).
Proof.
  intros T A Hbn Hbp E Hcap. unfold index_tag_id, tags_index in E.
  rewrite (a_tags _ _ A), tags_find_pos in E by apply A.
  unfold d_register, d_tag_pos. destruct (pos_from 0 (d_tags d).*1 n) as [k|] eqn:Ek.
  - injection E as <- <-. cbn. split; [done|]. split.
    + exact T.
    + eapply annot_same; [|exact A]. split; try done. cbn. symmetry. apply A.
  - injection E as <- <-. cbn in Hcap. rewrite lenN_app, lenN_map, lenN_cons, lenN_nil in Hcap.
    cbn [default]. rewrite lenN_map. split; [apply wrap8_small; lia|].
    split; [exact T|]. destruct A. split; try done; cbn [d_tags d_words d_notes set_tags ix_tags ix_sets ix_cols ix_items ix_words].
    + rewrite map_app. f_equal. cbn. unfold new_tag, tag_of. cbn.
      unfold str_eqb. destruct (decide (p = [])) as [->|Hp].
      * vm_compute. reflexivity.
      * rewrite !(bool_decide_eq_false_2 (p = [])) by done. done.
    + rewrite fmap_app. cbn. apply NoDup_app. split; [done|]. split; [|apply NoDup_singleton].
      intros x Hx ->%elem_of_list_singleton. apply pos_from_None in Ek. done.
    + rewrite lenN_app, lenN_cons, lenN_nil. lia.
    + apply Forall_app. split; [done|]. constructor; [|constructor]. cbn. by destruct (decide (p = [])).
    + apply Forall_app. split; [done|]. constructor; [|constructor]. cbn. split; [done|].
      destruct (decide (p = [])); [|done].
      cbn. repeat (constructor; [vm_compute; reflexivity|]). constructor.
    + intros c i s Hs. apply a_set_ids0 in Hs. eapply Forall_impl; [exact Hs|].
      intros t Ht. cbn in Ht. rewrite lenN_app. lia.
Qed.

(** ** Attaching a tag set *)
Lemma names_to_ids_spec ix d names : annot ix d ->
  names_to_ids (ix_tags ix) names =
  match d_ids d names with Some ids => Ok ids | None => Err EIndex end.
Proof.
  intros A. unfold d_ids. induction names as [|n names IH]; [done|].
  cbn [names_to_ids]. rewrite (a_tags _ _ A), tags_find_pos by apply A.
  cbn. change (pos_from 0 (d_tags d).*1 n) with (d_tag_pos d n). destruct (d_tag_pos d n) as [k|]; cbn; [|done].
  rewrite (a_tags _ _ A) in IH. rewrite IH. cbn.
  destruct (mapM (d_tag_pos d) names); done.
Qed.
Lemma d_ids_length d names ids : d_ids d names = Some ids -> length ids = length names.
Proof. unfold d_ids. intros H. symmetry. by apply mapM_length in H. Qed.
Lemma d_ids_lt d names ids : d_ids d names = Some ids -> Forall (fun t => t < lenN (d_tags d)) ids.
Proof.
  unfold d_ids. intros H%mapM_Some_1. induction H as [|n k names ids Hk _ IH]; constructor; [|done].
  apply pos_from_Some in Hk as (j & -> & Hj). apply lookup_lt_Some in Hj.
  rewrite fmap_length in Hj. unfold lenN. lia.
Qed.

(** changing only the annotations of some nodes *)
Record same_nodes (its' its : items) : Prop := {
  sn_next : its_next its' = its_next its;
  sn_len : lenN (its_list its') = lenN (its_list its);
  sn_item : forall i it', its_list its' !! i = Some it' ->
    exists it, its_list its !! i = Some it /\ it_parent it' = it_parent it /\
      it_id it' = it_id it /\ it_letter it' = it_letter it /\
      ((i = 0%nat \/ (N.to_nat (its_next its) <= i)%nat) -> it' = it) }.
Lemma trie_same_nodes ld its its' m ws :
  same_nodes its' its -> trie ld its m ws -> trie ld its' m ws.
Proof.
  intros S T. destruct S.
  assert (Hex : forall i it, its_list its !! i = Some it -> is_Some (its_list its' !! i)).
  { intros i it H. apply lookup_lt_Some in H. apply lookup_lt_is_Some. unfold lenN in sn_len0. lia. }
  destruct T. split; try done; try congruence; try lia.
  - destruct (Hex _ _ t_zero) as [it' Hit']. rewrite Hit'.
    destruct (sn_item0 _ _ Hit') as (it & Hit & _ & _ & _ & He).
    rewrite t_zero in Hit. injection Hit as <-. f_equal. apply He. by left.
  - intros i w Hw. destruct (t_items i w Hw) as (it & q & A & B & C & D & E & F).
    destruct (Hex _ _ A) as [it' Hit']. exists it', q.
    destruct (sn_item0 _ _ Hit') as (it2 & Hit & H1 & H2 & H3 & _).
    rewrite A in Hit. injection Hit as <-. rewrite H1, H2, H3. done.
  - intros i it' Hi Hit'. destruct (sn_item0 _ _ Hit') as (it & Hit & _ & _ & _ & He).
    rewrite sn_next0 in Hi. rewrite He by (by right). by eapply t_tail.
Qed.

Lemma alter_Some {A} (f : A -> A) i j (l : list A) x :
  alter f i l !! j = Some x <-> (exists y, j = i /\ l !! j = Some y /\ x = f y) \/ (j <> i /\ l !! j = Some x).
Proof.
  destruct (decide (j = i)) as [->|Hne].
  - rewrite list_lookup_alter. destruct (l !! i) as [y|]; cbn; naive_solver.
  - rewrite list_lookup_alter_ne by done. naive_solver.
Qed.
Lemma set_variants_same its id v :
  id <> 0 -> id < its_next its -> same_nodes (set_variants its id v) its.
Proof.
  intros H0 Hlt. split; [done|unfold lenN; cbn; by rewrite alter_length|].
  intros i it' H. cbn in H. rewrite alter_Some in H.
  destruct H as [(y & E & Hy & ->)|(Hne & H)].
  - exists y. split; [done|]. repeat (split; [done|]). intros [->|?]; lia.
  - exists it'. done.
Qed.

Section attach.
  Context {ld : bool} {ix : index} {d : dict}.
  Context (T : trie_of ld ix (d_words d)) (A : annot ix d).

  Lemma node_variants i w : d_words d !! i = Some w ->
    exists it, items_get (ix_items ix) (N.of_nat (S i)) = Ok (Some it) /\
      its_list (ix_items ix) !! S i = Some it /\
      ((it_variants it = 0 /\ d_notes d !! w = None) \/
       (exists col, good_col (ix_cols ix) (it_variants it) col /\
                    d_notes d !! w = Some (resolved (ix_sets ix) col))).
  Proof.
    intros Hw. destruct (trie_item T (N.of_nat (S i)) w) as (it & q & Hget & Hl & _);
      [lia|by rewrite Nat2N.id|].
    rewrite Nat2N.id in Hl. exists it. split; [done|]. split; [done|]. by eapply (a_items _ _ A).
  Qed.

  Lemma attach_tag_set i w names ix' r :
    d_words d !! i = Some w -> names <> [] ->
    node_add_tag_set ix (N.of_nat (S i)) names = (ix', r) -> caps ix' = true ->
    match d_ids d names with
    | Some ids => r = Ok tt /\ trie_of ld ix' (d_words d) /\ annot ix' (d_note d w ids)
    | None => r = Err EIndex /\ ix' = ix
    end.
  Proof.
    intros Hw Hne E Hcaps. unfold node_add_tag_set in E.
    rewrite (names_to_ids_spec ix d) in E by done.
    destruct (d_ids d names) as [ids|] eqn:Eids; [|by injection E as <- <-].
    assert (Hids : ids <> []).
    { apply d_ids_length in Eids. intros ->. by destruct names. }
    destruct (node_variants i w Hw) as (it & Hget & Hl & Hv).
    unfold get_item in E. rewrite Hget in E.
    assert (Hcol : exists col, variants_get (ix_cols ix) (it_variants it) = Ok col /\
       lenN col <= 65535 /\ NoDup col /\ Forall (fun k => exists s, good_set (ix_sets ix) k s) col /\
       default ∅ (d_notes d !! w) = resolved (ix_sets ix) col /\
       (it_variants it = 0 <-> d_notes d !! w = None)).
    { destruct Hv as [[-> Hn]|(col & Hg & Hn)].
      - exists []. rewrite Hn. repeat split; try done; constructor.
      - exists col. split; [by apply good_col_get|].
        rewrite (good_col_len _ _ _ (a_cols _ _ A) Hg).
        destruct (a_col_ids _ _ A _ _ _ (proj2 (proj2 Hg))) as [Hnd Hf].
        split; [pose proof (wrap16_lt (N.land (N.shiftr (it_variants it) 16) 65535)); unfold id32_upper; lia|].
        split; [done|]. split; [done|]. rewrite Hn. split; [done|].
        split; [|done]. intros H0. by apply good_col_nz in Hg. }
    destruct Hcol as (col & Hcg & Hcl & Hcnd & Hcf & Hcr & Hcv). rewrite Hcg in E.
    cbn [mbind res_bind] in E. unfold mbind in E. cbn in E.
    destruct (tagset_index_index (ix_sets ix) ids) as [[sets' sid]|e|] eqn:Es;
      [|rewrite tagset_index_intern in Es by done; discriminate..].
    assert (Hadd : lenN (collection_add col sid) <= 65536).
    { pose proof (collection_add_len col sid). lia. }
    destruct (variants_index_index (ix_cols ix) (collection_add col sid)) as [[cols' vid]|e|] eqn:Ec;
      [|rewrite variants_index_intern in Ec by (done || apply collection_add_ne); discriminate..].
    rewrite ?Es, ?Ec in E. cbn in E. rewrite ?Ec in E. cbn in E. injection E as <- <-.
    apply caps_spec in Hcaps as (_ & Hcs & Hcc & _). cbn in Hcs, Hcc.
    pose proof (sets_interned _ _ _ _ (a_sets _ _ A) Hids Es Hcs) as IS.
    pose proof (cols_interned _ _ _ _ (a_cols _ _ A) (collection_add_ne col sid) Hadd Ec Hcc) as IC.
    split; [done|].
    pose proof (lookup_lt_Some _ _ _ Hw) as Hi. pose proof (t_len _ _ _ _ T) as Hlen. unfold lenN in Hlen.
    assert (SN : same_nodes (set_variants (ix_items ix) (N.of_nat (S i)) vid) (ix_items ix))
      by (apply set_variants_same; lia).
    split; [by eapply trie_same_nodes|].
    assert (Hres : resolved sets' (go_sort (collection_add col sid))
                   = {[go_sort ids]} ∪ default ∅ (d_notes d !! w)).
    { rewrite Hcr. apply set_eq. intros s. rewrite elem_of_union, elem_of_singleton.
      rewrite <- (resolved_mono (ix_sets ix) sets' col (in_mono _ _ _ _ _ IS) Hcf).
      rewrite !elem_of_resolved. setoid_rewrite go_sort_elem. setoid_rewrite collection_add_elem.
      destruct (in_get _ _ _ _ _ IS) as [_ Hsid]. split.
      - intros (k & [->|Hk] & Hs); [left; congruence|right; by exists k].
      - intros [->|(k & Hk & Hs)]; [exists sid; by auto|exists k; by auto]. }
    split; cbn; try apply A.
    - apply IS.
    - done.
    - intros c k s Hs. apply (in_new _ _ _ _ _ IS) in Hs as [Hs| ->]; [by eapply (a_set_ids _ _ A)|].
      apply go_sort_Forall. by eapply d_ids_lt.
    - apply IC.
    - done.
    - intros c k col' Hc. apply (in_new _ _ _ _ _ IC) in Hc as [Hc| ->].
      + destruct (a_col_ids _ _ A _ _ _ Hc) as [Hnd Hf]. split; [done|].
        eapply Forall_impl; [exact Hf|]. intros k' [s Hs]. exists s. by apply (in_mono _ _ _ _ _ IS).
      + split; [apply go_sort_NoDup; by apply collection_add_NoDup|].
        apply Forall_forall. intros k'. rewrite go_sort_elem, collection_add_elem.
        intros [->|Hk]; [eexists; apply IS|].
        rewrite Forall_forall in Hcf. destruct (Hcf k' Hk) as [s Hs]. exists s. by apply IS.
    - intros j w' it' Hw' Hit'. rewrite alter_Some in Hit'.
      destruct Hit' as [(y & Ej & Hy & ->)|(Hnej & Hit')].
      + assert (j = i) by lia. subst j. assert (w' = w) by congruence. subst w'. right.
        exists (go_sort (collection_add col sid)). split; [apply IC|].
        rewrite lookup_insert. f_equal. symmetry. exact Hres.
      + assert (w' <> w).
        { intros ->. assert (j = i) by (eapply NoDup_lookup; [apply (trie_ws_NoDup T)|..]; done). lia. }
        rewrite lookup_insert_ne by done.
        destruct (a_items _ _ A j w' it' Hw' Hit') as [?|(col' & Hg & Hn)]; [by left|].
        right. exists col'. split; [by apply IC|]. rewrite Hn. f_equal. symmetry.
        apply resolved_mono; [apply IS|]. by destruct (a_col_ids _ _ A _ _ _ (proj2 (proj2 Hg))).
    - intros w' s H. destruct (decide (w' = w)) as [->|Hne'].
      + by eapply elem_of_list_lookup_2.
      + rewrite lookup_insert_ne in H by done. by eapply (a_dom _ _ A).
    - rewrite map_size_insert. destruct (N.eqb_spec (it_variants it) 0) as [Hz|Hz].
      + apply Hcv in Hz. rewrite Hz. rewrite (a_words _ _ A). cbn. lia.
      + destruct (d_notes d !! w) eqn:En; [apply A|]. exfalso. apply Hz. by apply Hcv.
  Qed.
End attach.
