(** The node storage and the children map represent the list of words. *)
From Coq Require Import ZifyBool ZifyNat ZifyN.
From Verif Require Import Base Storage Bin Utf8 Tags TagSets Variants Items Index Spec BaseFacts SpecFacts.
Open Scope N_scope.

Notation limit32 := 4294967296 (only parsing).

Record trie (ld : bool) (its : items) (m : gmap N (gmap Z N)) (ws : list (list Z)) : Prop := {
  t_len : its_next its = lenN ws + 1;
  t_room : its_next its <= lenN (its_list its);
  t_cap : lenN (its_list its) < 4294967296;
  t_nd : NoDup ([] :: ws);
  t_zero : its_list its !! 0%nat = Some zero_item;
  t_items : forall i w, ws !! i = Some w ->
    exists it q, its_list its !! S i = Some it /\ it_id it = N.of_nat (S i) /\
      (N.to_nat (it_parent it) <= i)%nat /\
      ([] :: ws) !! N.to_nat (it_parent it) = Some q /\ w = q ++ [it_letter it] /\
      int32 (it_letter it);
  t_tail : forall i it, (N.to_nat (its_next its) <= i)%nat -> its_list its !! i = Some it ->
    it = zero_item;
  t_child : forall p r c, child m p r = Some c <->
    (c <> 0 /\ exists q, ([] :: ws) !! N.to_nat p = Some q /\
                         ([] :: ws) !! N.to_nat c = Some (q ++ [r])) \/
    (ld = true /\ p = 0 /\ r = 0%Z /\ c = 0 /\ [0%Z] ∉ ws) }.

(** ** The children map *)
Lemma child_ensure m id p r : child (ensure_map m id) p r = child m p r.
Proof.
  unfold child, ensure_map. destruct (m !! id) as [m'|] eqn:E; [done|].
  destruct (decide (id = p)) as [->|Hne].
  - by rewrite lookup_insert, E, lookup_empty.
  - by rewrite lookup_insert_ne.
Qed.
Lemma child_set m p r c p' r' :
  child (set_child m p r c) p' r' = if decide (p' = p /\ r' = r) then Some c else child m p' r'.
Proof.
  unfold child, set_child. destruct (decide (p' = p)) as [->|Hp].
  - rewrite lookup_insert. destruct (decide (r' = r)) as [->|Hr].
    + rewrite lookup_insert. by rewrite decide_True.
    + rewrite lookup_insert_ne by done. rewrite decide_False by naive_solver.
      by destruct (m !! p).
  - rewrite lookup_insert_ne by done. by rewrite decide_False by naive_solver.
Qed.

Lemma trie_ext ld its m m' ws :
  (forall p r, child m' p r = child m p r) -> trie ld its m ws -> trie ld its m' ws.
Proof. intros E []. split; try done. intros p r c. rewrite E. done. Qed.

Lemma trie_ensure ld its m ws id : trie ld its m ws -> trie ld its (ensure_map m id) ws.
Proof. apply trie_ext. intros. apply child_ensure. Qed.

(** the word list starts with the root's empty word *)
Lemma P_0 (ws : list (list Z)) : ([] :: ws) !! N.to_nat 0 = Some [].
Proof. done. Qed.
Lemma P_pos (ws : list (list Z)) c : c <> 0 -> ([] :: ws) !! N.to_nat c = ws !! (N.to_nat c - 1)%nat.
Proof. intros H. destruct (N.to_nat c) eqn:E; [lia|]. cbn. f_equal. lia. Qed.

Section trie.
  Context {ld : bool} {its : items} {m : gmap N (gmap Z N)} {ws : list (list Z)}.
  Context (T : trie ld its m ws).

  Lemma trie_id_lt c w : ([] :: ws) !! N.to_nat c = Some w -> c < its_next its.
  Proof.
    intros H. apply lookup_lt_Some in H. rewrite (t_len _ _ _ _ T). unfold lenN. cbn in H. lia.
  Qed.
  Lemma trie_id_ex c : c < its_next its -> is_Some (([] :: ws) !! N.to_nat c).
  Proof.
    intros H. apply lookup_lt_is_Some. rewrite (t_len _ _ _ _ T) in H. unfold lenN in H. cbn. lia.
  Qed.
  Lemma trie_P_inj c c' w :
    ([] :: ws) !! N.to_nat c = Some w -> ([] :: ws) !! N.to_nat c' = Some w -> c = c'.
  Proof.
    intros H H'. assert (N.to_nat c = N.to_nat c') by (eapply NoDup_lookup; [apply (t_nd _ _ _ _ T)|..]; eauto).
    lia.
  Qed.
  Lemma trie_nil_notin : [] ∉ ws.
  Proof. pose proof (t_nd _ _ _ _ T) as H. by inversion H. Qed.
  Lemma trie_ws_NoDup : NoDup ws.
  Proof. pose proof (t_nd _ _ _ _ T) as H. by inversion H. Qed.

  Lemma trie_child_Some p q r c :
    ([] :: ws) !! N.to_nat p = Some q -> (ld = true -> q ++ [r] <> [0%Z]) ->
    child m p r = Some c <-> ([] :: ws) !! N.to_nat c = Some (q ++ [r]).
  Proof.
    intros Hp Hg. rewrite (t_child _ _ _ _ T). split.
    - intros [(Hc & q' & Hq' & H)|(-> & -> & -> & -> & _)]; [congruence|].
      rewrite P_0 in Hp. injection Hp as <-. by destruct Hg.
    - intros Hc. left. split; [|by exists q]. intros ->. rewrite P_0 in Hc.
      injection Hc. intros E. by destruct q.
  Qed.
  Lemma trie_child_None p q r :
    ([] :: ws) !! N.to_nat p = Some q -> (ld = true -> q ++ [r] <> [0%Z]) ->
    child m p r = None <-> q ++ [r] ∉ ws.
  Proof.
    intros Hp Hg. split.
    - intros Hn Hin. apply elem_of_list_lookup in Hin as [i Hi].
      assert (Hc : child m p r = Some (N.of_nat (S i))); [|congruence].
      apply (trie_child_Some p q); [done..|]. by rewrite Nat2N.id.
    - intros Hin. destruct (child m p r) as [c|] eqn:E; [|done]. exfalso. apply Hin.
      apply (trie_child_Some p q) in E; [|done..].
      assert (c <> 0). { intros ->. rewrite P_0 in E. injection E. by destruct q. }
      rewrite P_pos in E by done. by eapply elem_of_list_lookup_2.
  Qed.

  (** every node is stored with its parent and letter *)
  Lemma trie_item c w : c <> 0 -> ([] :: ws) !! N.to_nat c = Some w ->
    exists it q, items_get its c = Ok (Some it) /\ its_list its !! N.to_nat c = Some it /\
      it_id it = c /\ it_parent it < c /\
      ([] :: ws) !! N.to_nat (it_parent it) = Some q /\ w = q ++ [it_letter it] /\
      int32 (it_letter it).
  Proof.
    intros Hc Hw. pose proof (trie_id_lt _ _ Hw) as Hlt. rewrite P_pos in Hw by done.
    destruct (t_items _ _ _ _ T _ _ Hw) as (it & q & Hit & Hid & Hpar & Hq & -> & Hr).
    replace (S (N.to_nat c - 1)) with (N.to_nat c) in * by lia.
    exists it, q. split.
    { unfold items_get. destruct (N.eqb_spec c 0); [done|].
      destruct (N.leb_spec (its_next its) c); [lia|]. unfold slice_get. by rewrite Hit. }
    repeat split; try done; lia || apply Hr.
  Qed.

  Lemma trie_get_none c : its_next its <= c -> items_get its c = Ok None.
  Proof.
    intros H. unfold items_get. destruct (N.eqb_spec c 0); [done|].
    destruct (N.leb_spec (its_next its) c); [done|lia].
  Qed.

  (** the parent chain spells the word *)
  Lemma trie_word_fuel ix fuel c w :
    ix_items ix = its -> (N.to_nat c < fuel)%nat -> ([] :: ws) !! N.to_nat c = Some w ->
    word_fuel fuel ix c = Ok (string_of_runes w).
  Proof.
    intros Hix. revert c w. induction fuel as [|fuel IH]; intros c w Hf Hw; [lia|].
    cbn [word_fuel]. destruct (N.eqb_spec c 0) as [->|Hc].
    - rewrite P_0 in Hw. by injection Hw as <-.
    - destruct (trie_item c w Hc Hw) as (it & q & Hget & _ & _ & Hpar & Hq & -> & _).
      unfold get_item. rewrite Hix, Hget. cbn.
      unfold string_of_runes. rewrite map_app, concat_app. cbn. rewrite app_nil_r.
      destruct (N.eqb_spec (it_parent it) 0) as [E|E].
      + rewrite E, P_0 in Hq. by injection Hq as <-.
      + rewrite (IH (it_parent it) q) by (done || lia). done.
  Qed.
  Lemma trie_word ix c w :
    ix_items ix = its -> ([] :: ws) !! N.to_nat c = Some w ->
    node_word ix c = Ok (string_of_runes w).
  Proof.
    intros Hix Hw. unfold node_word. apply trie_word_fuel; [done| |done].
    pose proof (trie_id_lt _ _ Hw). pose proof (t_room _ _ _ _ T). rewrite Hix. unfold lenN in *. lia.
  Qed.

  (** the word list is prefix closed *)
  Lemma trie_prefix_closed q r : q ++ [r] ∈ ws -> q = [] \/ q ∈ ws.
  Proof.
    intros Hin. apply elem_of_list_lookup in Hin as [i Hi].
    destruct (t_items _ _ _ _ T _ _ Hi) as (it & q' & _ & _ & _ & Hq & E & _).
    apply app_inj_tail in E as [<- _].
    destruct (N.to_nat (it_parent it)) as [|k]; cbn in Hq; [left; congruence|].
    right. by eapply elem_of_list_lookup_2.
  Qed.
  Lemma trie_prefix_closed_app k w : k <> [] -> k ++ w ∈ ws -> k ∈ ws.
  Proof.
    intros Hk. induction w as [|r w IH] using rev_ind; [by rewrite app_nil_r|].
    rewrite app_assoc. intros H. apply trie_prefix_closed in H as [H|H]; [|by apply IH].
    by destruct k.
  Qed.
End trie.

(** ** Allocation *)
Lemma extend_count_pos n : 4 <= extend_count n.
Proof.
  unfold extend_count. destruct (find _ _) as [i|] eqn:E.
  - apply find_some in E as [Hin _].
    repeat (destruct Hin as [<-|Hin]; [vm_compute; discriminate|]). done.
  - vm_compute. discriminate.
Qed.

Lemma new_child_spec its p r :
  its_next its <= lenN (its_list its) ->
  exists l1, items_new_child its p r =
    Ok (mkItems (<[N.to_nat (its_next its) := mkItem p (its_next its) r 0]> l1)
                (wrap32 (its_next its + 1)), mkItem p (its_next its) r 0)
  /\ its_next its < lenN l1 /\ lenN (its_list its) <= lenN l1
  /\ exists k, l1 = its_list its ++ replicate k zero_item.
Proof.
  intros Hroom. unfold items_new_child.
  destruct (N.leb_spec (lenN (its_list its)) (its_next its)) as [H|H].
  - set (l1 := items_extend (its_list its) (extend_count (lenN (its_list its)))).
    exists l1. pose proof (extend_count_pos (lenN (its_list its))) as Hc.
    assert (Hl1 : lenN l1 = lenN (its_list its) + extend_count (lenN (its_list its))).
    { unfold l1, items_extend. rewrite lenN_app, lenN_replicate. lia. }
    destruct (N.ltb_spec (its_next its) (lenN l1)) as [G|G]; [|lia].
    split; [done|]. split; [lia|]. split; [lia|]. by eexists.
  - exists (its_list its). destruct (N.ltb_spec (its_next its) (lenN (its_list its))) as [G|G]; [|lia].
    split; [done|]. split; [lia|]. split; [lia|]. exists 0%nat. cbn. by rewrite app_nil_r.
Qed.

Lemma lookup_extended {A} (l : list A) k z i x :
  l !! i = Some x -> (l ++ replicate k z) !! i = Some x.
Proof. apply lookup_app_l_Some. Qed.

Section alloc.
  Context {ld : bool} {its : items} {m : gmap N (gmap Z N)} {ws : list (list Z)}.
  Context (T : trie ld its m ws).

  (** allocate the node for [q ++ [r]] below [p] *)
  Lemma trie_alloc p q r its' it :
    ([] :: ws) !! N.to_nat p = Some q -> q ++ [r] ∉ ws ->
    (ld = true -> q ++ [r] <> [0%Z]) -> int32 r ->
    items_new_child its p r = Ok (its', it) -> lenN (its_list its') < 4294967296 ->
    it = mkItem p (its_next its) r 0 /\
    trie ld its' (set_child m p r (it_id it)) (ws ++ [q ++ [r]]) /\
    (forall i x, (i < N.to_nat (its_next its))%nat ->
       its_list its' !! i = Some x <-> its_list its !! i = Some x).
  Proof.
    intros Hp Hnew Hg Hr Hnc Hcap.
    destruct (new_child_spec its p r (t_room _ _ _ _ T)) as (l1 & E & Hlt & Hge & k & Hl1).
    rewrite E in Hnc. injection Hnc as <- <-. cbn [its_list its_next it_id] in *.
    set (n := its_next its) in *. set (it := mkItem p n r 0).
    rewrite lenN_insert in Hcap.
    pose proof (t_len _ _ _ _ T) as Hlen. fold n in Hlen.
    pose proof (trie_id_lt T _ _ Hp) as Hpn. fold n in Hpn.
    pose proof (t_room _ _ _ _ T) as Hroom. fold n in Hroom.
    assert (Hn1 : wrap32 (n + 1) = n + 1) by (apply wrap32_small; lia).
    assert (HP : forall i, (i < N.to_nat n)%nat -> ([] :: ws ++ [q ++ [r]]) !! i = ([] :: ws) !! i).
    { intros i Hi. change ([] :: ws ++ [q ++ [r]]) with (([] :: ws) ++ [q ++ [r]]).
      apply lookup_app_l. cbn. unfold lenN in Hlen. lia. }
    assert (HPn : ([] :: ws ++ [q ++ [r]]) !! N.to_nat n = Some (q ++ [r])).
    { change ([] :: ws ++ [q ++ [r]]) with (([] :: ws) ++ [q ++ [r]]).
      rewrite lookup_app_r by (cbn; unfold lenN in Hlen; lia). cbn [length].
      replace (N.to_nat n - S (length ws))%nat with 0%nat; [done|]. unfold lenN in Hlen. lia. }
    assert (HPx : forall i w, ([] :: ws ++ [q ++ [r]]) !! i = Some w ->
               (i < N.to_nat n)%nat /\ ([] :: ws) !! i = Some w \/ i = N.to_nat n /\ w = q ++ [r]).
    { intros i w Hw. pose proof (lookup_lt_Some _ _ _ Hw) as Hi. cbn in Hi.
      rewrite app_length in Hi. cbn in Hi.
      destruct (decide (i = N.to_nat n)) as [->|Hne]; [right; split; congruence|].
      left. assert (i < N.to_nat n)%nat by (unfold lenN in Hlen; lia).
      split; [done|]. by rewrite <- HP. }
    assert (Hl : forall i, (i < N.to_nat n)%nat -> <[N.to_nat n := it]> l1 !! i = its_list its !! i).
    { intros i Hi. rewrite list_lookup_insert_ne by lia. rewrite Hl1.
      apply lookup_app_l. unfold lenN in Hroom. lia. }
    split; [done|]. split; [split|].
    - cbn. rewrite Hn1, lenN_app, lenN_cons, lenN_nil. lia.
    - cbn. rewrite Hn1, lenN_insert. lia.
    - cbn. by rewrite lenN_insert.
    - change ([] :: ws ++ [q ++ [r]]) with (([] :: ws) ++ [q ++ [r]]). apply NoDup_app.
      split; [apply (t_nd _ _ _ _ T)|]. split; [|apply NoDup_singleton].
      intros x Hx ->%elem_of_list_singleton.
      apply elem_of_cons in Hx as [Hx|Hx]; [by destruct q|done].
    - cbn. rewrite Hl by lia. apply (t_zero _ _ _ _ T).
    - intros i w Hw. cbn.
      change (ws ++ [q ++ [r]]) with (tail (([] :: ws ++ [q ++ [r]]))) in Hw.
      assert (Hw' : ([] :: ws ++ [q ++ [r]]) !! S i = Some w) by done.
      destruct (HPx _ _ Hw') as [[Hi Hold]|[Hi ->]].
      + destruct (t_items _ _ _ _ T i w Hold) as (it0 & q0 & A & B & C & D & F & G).
        exists it0, q0. rewrite Hl by lia. repeat split; try done; try apply G.
        rewrite HP; [done|lia].
      + exists it, q. rewrite Hi. rewrite list_lookup_insert by (unfold lenN in Hlt; lia).
        cbn. split; [done|]. split; [lia|]. split; [lia|]. split; [|done].
        rewrite HP by lia. done.
    - cbn. rewrite Hn1. intros i x Hi Hx. rewrite list_lookup_insert_ne in Hx by lia.
      rewrite Hl1 in Hx. apply lookup_app_Some in Hx as [Hx|[_ Hx]].
      + eapply (t_tail _ _ _ _ T); [|exact Hx]. fold n. lia.
      + by apply lookup_replicate in Hx as [-> _].
    - intros p' r' c'. rewrite child_set. cbn.
      destruct (decide (p' = p /\ r' = r)) as [[-> ->]|Hne].
      + split.
        * intros [= <-]. left. split; [lia|]. exists q. split; [|done].
          rewrite HP by lia. done.
        * intros [(Hc & q' & Hq' & Hc')|(-> & -> & -> & -> & Hx)].
          -- rewrite HP in Hq' by lia. rewrite Hp in Hq'. injection Hq' as <-.
             destruct (HPx _ _ Hc') as [[Hi Hold]|[Hi _]]; [|f_equal; lia].
             exfalso. apply Hnew. rewrite P_pos in Hold by done. by eapply elem_of_list_lookup_2.
          -- exfalso. rewrite P_0 in Hp. injection Hp as <-. by apply Hg.
      + rewrite (t_child _ _ _ _ T). split.
        * intros [(Hc & q' & Hq' & Hc')|(-> & -> & -> & -> & Hx)].
          -- left. split; [done|]. exists q'.
             pose proof (trie_id_lt T _ _ Hq'). pose proof (trie_id_lt T _ _ Hc').
             fold n in H, H0. rewrite !HP by lia. done.
          -- right. repeat split; try done. rewrite elem_of_app, elem_of_list_singleton.
             intros [?|E0]; [done|]. symmetry in E0. by apply Hg.
        * intros [(Hc & q' & Hq' & Hc')|(-> & -> & -> & -> & Hx)].
          -- left. split; [done|]. exists q'.
             destruct (HPx _ _ Hc') as [[Hi Hold]|[Hi Eq]].
             ++ split; [|done]. destruct (HPx _ _ Hq') as [[Hi' Hold']|[Hi' ->]]; [done|].
                exfalso. apply Hnew. rewrite P_pos in Hold by done.
                eapply elem_of_list_lookup_2 in Hold.
                apply (trie_prefix_closed T) in Hold as [E0|?]; [by destruct q|done].
             ++ exfalso. apply app_inj_tail in Eq as [-> ->].
                destruct (HPx _ _ Hq') as [[Hi' Hold']|[Hi' E0]].
                ** apply Hne. split; [|done]. by eapply (trie_P_inj T).
                ** by apply (f_equal length) in E0; rewrite app_length in E0; cbn in E0; lia.
          -- right. repeat split; try done. intros ?. apply Hx. apply elem_of_app. by left.
    - intros i x Hi. cbn. by rewrite Hl.
  Qed.
End alloc.

(** ** Index level *)
Definition trie_of (ld : bool) (ix : index) (ws : list (list Z)) : Prop :=
  trie ld (ix_items ix) (ix_children ix) ws.

(** everything but the children map is the same, and so are the children *)
Record same_core (a b : index) : Prop := {
  sc_tags : ix_tags a = ix_tags b;
  sc_sets : ix_sets a = ix_sets b;
  sc_cols : ix_cols a = ix_cols b;
  sc_items : ix_items a = ix_items b;
  sc_words : ix_words a = ix_words b;
  sc_child : forall p r, child (ix_children a) p r = child (ix_children b) p r }.
Global Instance same_core_refl : Reflexive same_core.
Proof. by split. Qed.
Global Instance same_core_sym : Symmetric same_core.
Proof. intros a b []. by split. Qed.
Global Instance same_core_trans : Transitive same_core.
Proof. intros a b c [] []. split; congruence. Qed.
Lemma same_core_ensure ix id : same_core (ensure_children ix id) ix.
Proof. split; try done. intros. apply child_ensure. Qed.
Lemma trie_of_same ld a b ws : same_core a b -> trie_of ld b ws -> trie_of ld a ws.
Proof.
  intros S T. unfold trie_of. rewrite (sc_items _ _ S). eapply trie_ext; [|exact T].
  apply (sc_child _ _ S).
Qed.

Lemma index_get_ok ld ix ws c w : trie_of ld ix ws -> ([] :: ws) !! N.to_nat c = Some w ->
  index_get ix c = Ok c.
Proof.
  intros T H. unfold index_get. pose proof (trie_id_lt T _ _ H).
  destruct (N.leb_spec (its_next (ix_items ix)) c); [lia|done].
Qed.

(** no leading U+0000 after a reload *)
Definition head_ok (ld : bool) (w : list Z) : Prop := ld = true -> head w <> Some 0%Z.
Lemma head_ok_step ld q r rest : head_ok ld (q ++ r :: rest) ->
  (ld = true -> q ++ [r] <> [0%Z]).
Proof. intros H Hld E. apply (H Hld). destruct q as [|a q]; cbn in *; [|]; congruence. Qed.

Lemma fetch_loop_spec ld ws rest : forall ix p q,
  trie_of ld ix ws -> ([] :: ws) !! N.to_nat p = Some q -> rest <> [] ->
  head_ok ld (q ++ rest) ->
  same_core (fetch_loop ix p rest).1 ix /\
  (fetch_loop ix p rest).2 =
    match pos_from 1 ws (q ++ rest) with Some i => Ok i | None => Err EIndex end.
Proof.
  induction rest as [|r rest IH]; intros ix p q T Hp Hne Hg; [done|].
  cbn [fetch_loop]. pose proof (same_core_ensure ix p) as S.
  set (ix1 := ensure_children ix p) in *.
  pose proof (trie_of_same _ _ _ _ S T) as T1.
  pose proof (head_ok_step _ _ _ _ Hg) as Hg1.
  destruct (child (ix_children ix1) p r) as [n|] eqn:E.
  - apply (trie_child_Some T1 p q) in E; [|done..].
    destruct rest as [|r2 rest].
    + cbn [fst snd]. split; [done|]. rewrite (index_get_ok _ _ _ _ _ T1 E).
      assert (n <> 0) by (intros ->; rewrite P_0 in E; injection E; by destruct q).
      rewrite P_pos in E by done.
      rewrite (pos_from_lookup _ _ _ _ (trie_ws_NoDup T1) E). f_equal. lia.
    + destruct (IH ix1 n (q ++ [r]) T1 E) as [S' ->]; [done|by rewrite <- app_assoc|].
      rewrite <- app_assoc. cbn. split; [|done]. by etrans.
  - apply (trie_child_None T1 p q) in E; [|done..]. cbn [fst snd]. split; [done|].
    rewrite (trie_word T1 ix1 p q) by done. cbn.
    assert (Hn : q ++ r :: rest ∉ ws).
    { intros Hin. apply E. apply (trie_prefix_closed_app T1 (q ++ [r]) rest); [by destruct q|].
      by rewrite <- app_assoc. }
    apply (pos_from_None 1) in Hn. by rewrite Hn.
Qed.

Lemma fetch_from_spec ld ws ix p q rest :
  trie_of ld ix ws -> ([] :: ws) !! N.to_nat p = Some q -> head_ok ld (q ++ rest) ->
  same_core (fetch_from_item ix p rest).1 ix /\
  (fetch_from_item ix p rest).2 =
    match rest with [] => Err EIndex | _ =>
      match pos_from 1 ws (q ++ rest) with Some i => Ok i | None => Err EIndex end end.
Proof.
  intros T Hp Hg. destruct rest as [|r rest]; [by cbn|]. by apply (fetch_loop_spec ld ws (r :: rest) ix p q).
Qed.

Lemma fetch_item_loop_eq rest : forall ld ws ix p q,
  trie_of ld ix ws -> ([] :: ws) !! N.to_nat p = Some q ->
  head_ok ld (q ++ rest) ->
  fetch_item_loop ix p rest = fetch_loop ix p rest.
Proof.
  induction rest as [|r rest IH]; intros ld ws ix p q T Hp Hg; [done|]. cbn.
  pose proof (trie_of_same _ _ _ _ (same_core_ensure ix p) T) as T1. unfold trie_of in T1.
  destruct (child _ p r) as [n|] eqn:E; [|done].
  assert (E' : ([] :: ws) !! N.to_nat n = Some (q ++ [r])).
  { apply (trie_child_Some T1 p q) in E; [done..|]. by apply (head_ok_step ld q r rest). }
  destruct rest as [|r2 rest].
  - by rewrite (index_get_ok ld _ ws _ _ T1 E').
  - eapply IH; [exact T1|exact E'|]. by rewrite <- app_assoc.
Qed.

(** ** Adding *)
Lemma new_child_mono its p r its' it :
  items_new_child its p r = Ok (its', it) -> lenN (its_list its) <= lenN (its_list its').
Proof.
  unfold items_new_child. intros H.
  destruct (_ <? _) eqn:E in H; [|done]. injection H as <- _. cbn. rewrite lenN_insert.
  destruct (_ <=? _); [|done]. unfold items_extend. rewrite lenN_app. lia.
Qed.
Lemma add_loop_mono rest : forall ix p,
  lenN (its_list (ix_items ix)) <= lenN (its_list (ix_items (add_loop ix p rest).1)).
Proof.
  induction rest as [|r rest IH]; intros ix p; cbn [add_loop]; [done|].
  destruct (if p =? 0 then _ else _) as [[]|e|]; try done.
  destruct (child _ p r) as [n|].
  - destruct rest as [|r2 rest]; [done|]. etrans; [|apply IH]. done.
  - destruct (items_new_child _ p r) as [[its it]|e|] eqn:E; try done.
    apply new_child_mono in E. cbn in E.
    destruct rest as [|r2 rest]; [done|]. etrans; [|apply IH]. done.
Qed.

(** what adding leaves alone *)
Record add_frame (a b : index) : Prop := {
  af_tags : ix_tags a = ix_tags b;
  af_sets : ix_sets a = ix_sets b;
  af_cols : ix_cols a = ix_cols b;
  af_words : ix_words a = ix_words b;
  af_next : its_next (ix_items b) <= its_next (ix_items a);
  af_old : forall i x, (i < N.to_nat (its_next (ix_items b)))%nat ->
    its_list (ix_items a) !! i = Some x <-> its_list (ix_items b) !! i = Some x;
  af_new : forall i x, (N.to_nat (its_next (ix_items b)) <= i)%nat ->
    its_list (ix_items a) !! i = Some x -> it_variants x = 0 }.
Lemma add_frame_same ld ws a b : trie_of ld b ws -> same_core a b -> add_frame a b.
Proof.
  intros T []. split; try done.
  - by rewrite sc_items0.
  - intros. by rewrite sc_items0.
  - intros i x Hi Hx. rewrite sc_items0 in Hx. by rewrite (t_tail _ _ _ _ T i x Hi Hx).
Qed.
Lemma add_frame_trans a b c : add_frame a b -> add_frame b c -> add_frame a c.
Proof.
  intros A B. destruct A, B. split; try congruence; try lia.
  - intros i x Hi. rewrite af_old0 by lia. by apply af_old1.
  - intros i x Hi Hx. destruct (decide (i < N.to_nat (its_next (ix_items b)))%nat) as [H|H].
    + apply af_old0 in Hx; [|done]. by eapply af_new1.
    + eapply af_new0; [|exact Hx]. lia.
Qed.

Lemma add_loop_spec ld rest : forall ws ix p q,
  trie_of ld ix ws -> ([] :: ws) !! N.to_nat p = Some q -> rest <> [] ->
  head_ok ld (q ++ rest) -> Forall int32 rest ->
  lenN (its_list (ix_items (add_loop ix p rest).1)) < 4294967296 ->
  trie_of ld (add_loop ix p rest).1 (add_prefixes ws q rest) /\
  add_frame (add_loop ix p rest).1 ix /\
  exists id, (add_loop ix p rest).2 = Ok id /\
    ([] :: add_prefixes ws q rest) !! N.to_nat id = Some (q ++ rest).
Proof.
  induction rest as [|r rest IH]; intros ws ix p q T Hp Hne Hg Hr Hcap; [done|].
  apply Forall_cons_1 in Hr as [Hr Hrest].
  pose proof (same_core_ensure ix p) as S.
  pose proof (head_ok_step _ _ _ _ Hg) as Hg1.
  cbn [add_loop] in *. set (ix1 := ensure_children ix p) in *.
  pose proof (trie_of_same _ _ _ _ S T) as T1.
  pose proof (add_frame_same _ _ _ _ T S) as F1.
  assert (Hguard : (if p =? 0 then Ok true
           else oit ← items_get (ix_items ix) p;
                Ok (match oit with Some _ => true | None => false end)) = Ok true).
  { destruct (N.eqb_spec p 0); [done|].
    destruct (trie_item T p q n Hp) as (it & ? & -> & _). done. }
  rewrite Hguard in *. clear Hguard.
  destruct (child (ix_children ix1) p r) as [n|] eqn:E.
  - apply (trie_child_Some T1 p q) in E; [|done..].
    assert (Hn0 : n <> 0) by (intros ->; rewrite P_0 in E; injection E; by destruct q).
    assert (Hin : q ++ [r] ∈ ws) by (rewrite P_pos in E by done; by eapply elem_of_list_lookup_2).
    cbn [add_prefixes]. rewrite decide_True by done.
    destruct rest as [|r2 rest].
    + cbn in *. split; [done|]. split; [done|]. exists n.
      rewrite (index_get_ok _ _ _ _ _ T1 E). done.
    + destruct (IH ws ix1 n (q ++ [r]) T1 E) as (A & B & id & C & D); try done.
      { by rewrite <- app_assoc. }
      split; [done|]. split; [by eapply add_frame_trans|]. exists id. split; [done|].
      by rewrite <- app_assoc in D.
  - apply (trie_child_None T1 p q) in E; [|done..].
    destruct (items_new_child (ix_items ix1) p r) as [[its' it]|e|] eqn:Enc;
      [|exfalso; destruct (new_child_spec (ix_items ix1) p r (t_room _ _ _ _ T1)) as (? & ? & _); congruence..].
    set (ix2 := set_children (set_items ix1 its') (set_child (ix_children ix1) p r (it_id it))) in *.
    assert (Hcap2 : lenN (its_list its') < 4294967296).
    { destruct rest as [|r2 rest]; [exact Hcap|].
      eapply N.le_lt_trans; [|exact Hcap]. apply (add_loop_mono (r2 :: rest) ix2). }
    destruct (trie_alloc T1 p q r its' it Hp E Hg1 Hr Enc Hcap2) as (-> & T2 & Hold).
    cbn [it_id] in *.
    assert (F2 : add_frame ix2 ix1).
    { split; try done.
      - cbn. pose proof (t_len _ _ _ _ T2) as L2. pose proof (t_len _ _ _ _ T1) as L1.
        rewrite lenN_app in L2. cbn in *. lia.
      - intros i x Hi Hx. cbn in *.
        destruct (decide (i = N.to_nat (its_next (ix_items ix)))) as [->|Hni].
        + destruct (new_child_spec (ix_items ix) p r (t_room _ _ _ _ T)) as (l1 & E1 & Hlt & _).
          cbn in Enc. rewrite E1 in Enc. injection Enc as <-. cbn in Hx.
          rewrite list_lookup_insert in Hx by (unfold lenN in Hlt; lia). by injection Hx as <-.
        + pose proof (t_len _ _ _ _ T2) as L2. pose proof (t_len _ _ _ _ T) as L1.
          rewrite lenN_app, lenN_cons, lenN_nil in L2.
          by rewrite (t_tail _ _ _ _ T2 i x ltac:(lia) Hx). }
    assert (Enew : ([] :: ws ++ [q ++ [r]]) !! N.to_nat (its_next (ix_items ix)) = Some (q ++ [r])).
    { pose proof (t_len _ _ _ _ T) as L. unfold lenN in L.
      rewrite P_pos by lia. rewrite lookup_app_r by lia.
      replace (_ - _)%nat with 0%nat by lia. done. }
    cbn [add_prefixes]. rewrite decide_False by done.
    destruct rest as [|r2 rest].
    + cbn [fst snd add_prefixes]. split; [exact T2|]. split; [by eapply add_frame_trans|].
      exists (its_next (ix_items ix)). split; [|done].
      exact (index_get_ok ld ix2 _ _ _ T2 Enew).
    + destruct (IH (ws ++ [q ++ [r]]) ix2 (its_next (ix_items ix)) (q ++ [r]) T2 Enew)
        as (A & B & id & C & D); try done.
      { by rewrite <- app_assoc. }
      split; [done|]. split.
      { eapply add_frame_trans; [exact B|]. by eapply add_frame_trans. }
      exists id. split; [done|]. by rewrite <- app_assoc in D.
Qed.

(** an unknown parent is rejected without any change *)
Lemma add_to_node_unknown ix p rest :
  its_next (ix_items ix) <= p -> p <> 0 -> add_to_node ix p rest = (ix, Err EIndex).
Proof.
  intros Hp Hp0. destruct rest as [|r rest]; [done|]. cbn.
  destruct (N.eqb_spec p 0); [done|]. unfold items_get.
  destruct (N.eqb_spec p 0); [done|]. destruct (N.leb_spec (its_next (ix_items ix)) p); [done|lia].
Qed.
