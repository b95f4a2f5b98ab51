(** Optimize keeps every node's annotations and drops exactly the unused collections. *)
From Coq Require Import ZifyBool ZifyNat ZifyN.
From Verif Require Import Base Storage Bin Utf8 Tags TagSets Variants Items Index Spec Hist
  BaseFacts Intern SpecFacts TrieFacts NoteFacts.
From stdpp Require Import list.
Open Scope N_scope.

(** ** KnownID lists exactly the identifiers that resolve *)
Lemma elem_of_concat_imap {A B} (f : nat -> A -> list B) l y :
  y ∈ concat (imap f l) <-> exists i x, l !! i = Some x /\ y ∈ f i x.
Proof.
  rewrite elem_of_list_In, in_concat. split.
  - intros (k & Hk & Hy). apply elem_of_list_In in Hk, Hy.
    apply elem_of_lookup_imap in Hk as (i & x & -> & Hx). eauto.
  - intros (i & x & Hx & Hy). exists (f i x). split; apply elem_of_list_In; [|done].
    apply elem_of_lookup_imap. eauto.
Qed.

Lemma known_id_spec cols v : capN 65535 65536 cols ->
  v ∈ known_id cols <-> exists col, good_col cols v col.
Proof.
  intros [Hc Ht]. unfold known_id. rewrite elem_of_list_filter, elem_of_concat_imap.
  assert (Hpos : forall ti t i s, cols !! ti = Some t -> t !! i = Some s ->
            N.of_nat ti < 65535 /\ N.of_nat i < 65536).
  { intros ti t i s H1 H2. eapply Forall_lookup_1 in Ht; [|exact H1]. cbn in Ht.
    apply lookup_lt_Some in H1, H2. unfold lenN in *. lia. }
  split.
  - intros (Hv & ti & t & Hti & Hin). apply elem_of_lookup_imap in Hin as (i & s & -> & Hi).
    destruct (Hpos _ _ _ _ Hti Hi) as [P1 P2].
    rewrite (wrap16_small (N.of_nat ti)) by lia. rewrite (wrap16_small (_ + 1)) by lia.
    rewrite (wrap16_small (N.of_nat i)) by lia.
    exists s. unfold good_col. rewrite upper_combine16, lower_combine16 by lia.
    split; [apply combine16_lt; lia|]. split; [lia|]. unfold at2.
    replace (N.to_nat (N.of_nat ti + 1) - 1)%nat with ti by lia. rewrite Hti, Nat2N.id. done.
  - intros (col & Hv & Hu & H). split; [intros ->; by apply Hu|].
    unfold at2 in H. destruct (cols !! _) as [t|] eqn:E; [|done]. cbn in H.
    eexists _, t. split; [exact E|]. apply elem_of_lookup_imap. eexists _, col. split; [|exact H].
    destruct (Hpos _ _ _ _ E H) as [P1 P2].
    rewrite (wrap16_small (N.of_nat _)) by lia. rewrite (wrap16_small (_ + 1)) by lia.
    rewrite wrap16_small by lia. rewrite <- (combine16_upper_lower v) at 1 by done. f_equal; lia.
Qed.

Lemma NoDup_concat_imap {A B} (f : nat -> A -> list B) l :
  (forall i x, l !! i = Some x -> NoDup (f i x)) ->
  (forall i x j y b, l !! i = Some x -> l !! j = Some y -> b ∈ f i x -> b ∈ f j y -> i = j) ->
  NoDup (concat (imap f l)).
Proof.
  revert f. induction l as [|x l IH]; intros f Hn Hd; [constructor|].
  cbn. apply NoDup_app. split; [by apply (Hn 0%nat)|]. split.
  - intros b Hb Hb'. apply (elem_of_concat_imap (f ∘ S)) in Hb' as (i & y & Hy & Hb').
    pose proof (Hd 0%nat x (S i) y b eq_refl Hy Hb Hb'). lia.
  - apply IH.
    + intros i y Hy. by apply (Hn (S i)).
    + intros i y j z b Hy Hz Hb Hb'. pose proof (Hd (S i) y (S j) z b Hy Hz Hb Hb'). lia.
Qed.
Lemma NoDup_imap_inj {A B} (f : nat -> A -> B) l :
  (forall i x j y, l !! i = Some x -> l !! j = Some y -> f i x = f j y -> i = j) -> NoDup (imap f l).
Proof.
  intros H. apply NoDup_alt. intros i j b Hi Hj. rewrite list_lookup_imap in Hi, Hj.
  destruct (l !! i) eqn:Ei; [|done]. destruct (l !! j) eqn:Ej; [|done].
  cbn in *. eapply H; [done..|congruence].
Qed.
Lemma known_id_NoDup cols : capN 65535 65536 cols -> NoDup (known_id cols).
Proof.
  intros [Hc Ht]. apply NoDup_filter.
  assert (Hpos : forall ti t i s, cols !! ti = Some t -> t !! i = Some s ->
            N.of_nat ti < 65535 /\ N.of_nat i < 65536).
  { intros ti t i s H1 H2. eapply Forall_lookup_1 in Ht; [|exact H1]. cbn in Ht.
    apply lookup_lt_Some in H1, H2. unfold lenN in *. lia. }
  assert (E : forall ti i, N.of_nat ti < 65535 -> N.of_nat i < 65536 ->
     combine16 (wrap16 (wrap16 (N.of_nat ti) + 1)) (wrap16 (N.of_nat i))
     = combine16 (N.of_nat (S ti)) (N.of_nat i)).
  { intros ti i P1 P2. rewrite (wrap16_small (N.of_nat ti)), (wrap16_small (_ + 1)), wrap16_small by lia.
    f_equal. lia. }
  apply NoDup_concat_imap.
  - intros ti t Hti. apply NoDup_imap_inj. intros i x j y Hi Hj H.
    destruct (Hpos _ _ _ _ Hti Hi), (Hpos _ _ _ _ Hti Hj). rewrite !E in H by done.
    apply combine16_inj in H as [_ H]; lia.
  - intros ti t tj t' b Hti Htj Hb Hb'.
    apply elem_of_lookup_imap in Hb as (i & x & -> & Hi).
    apply elem_of_lookup_imap in Hb' as (j & y & H & Hj).
    destruct (Hpos _ _ _ _ Hti Hi), (Hpos _ _ _ _ Htj Hj). rewrite !E in H by done.
    apply combine16_inj in H as [H _]; lia.
Qed.

(** ** The map of used collections *)
Definition users (l : list item) (v : N) : list N :=
  map it_id (filter (fun it => it_variants it = v) l).
Lemma users_snoc l it v :
  users (l ++ [it]) v = users l v ++ (if decide (it_variants it = v) then [it_id it] else []).
Proof.
  unfold users. rewrite filter_app, map_app. f_equal. rewrite filter_cons, filter_nil.
  by destruct (decide _).
Qed.
Lemma used_map_spec l v :
  used_map l !! v = if decide (v = 0) then None
                    else match users l v with [] => None | ids => Some ids end.
Proof.
  induction l as [|it l IH] using rev_ind.
  - cbn. rewrite lookup_empty. by destruct (decide _).
  - unfold used_map. rewrite fold_left_app. cbn. fold (used_map l). rewrite users_snoc.
    destruct (N.eqb_spec (it_variants it) 0) as [Hz|Hz].
    + rewrite IH. destruct (decide (v = 0)); [done|]. rewrite decide_False by congruence.
      by rewrite app_nil_r.
    + destruct (decide (it_variants it = v)) as [<-|Hne].
      * rewrite lookup_insert. rewrite decide_False by done. rewrite IH.
        rewrite decide_False by done. by destruct (users l (it_variants it)).
      * rewrite lookup_insert_ne by done. rewrite IH. by rewrite app_nil_r.
Qed.

(** annotated items carry their position as id *)
Definition placed (l : list item) : Prop :=
  forall i it, l !! i = Some it -> it_variants it <> 0 -> it_id it = N.of_nat i.
Lemma users_elem l v id : placed l -> v <> 0 ->
  id ∈ users l v <-> exists it, l !! N.to_nat id = Some it /\ it_variants it = v.
Proof.
  intros Hp Hv. unfold users. rewrite elem_of_list_fmap. split.
  - intros (it & -> & [Hit Hin]%elem_of_list_filter). apply elem_of_list_lookup in Hin as [i Hi].
    exists it. rewrite (Hp i it Hi) by congruence. by rewrite Nat2N.id.
  - intros (it & Hi & E). exists it. split.
    + rewrite (Hp _ _ Hi) by congruence. lia.
    + apply elem_of_list_filter. split; [done|]. by eapply elem_of_list_lookup_2.
Qed.
Lemma users_NoDup_aux l v k : v <> 0 ->
  (forall i it, l !! i = Some it -> it_variants it <> 0 -> it_id it = N.of_nat (k + i)) ->
  NoDup (users l v) /\ Forall (fun id => N.of_nat k <= id) (users l v).
Proof.
  revert k. induction l as [|it l IH]; intros k Hv Hp; [split; constructor|].
  unfold users. rewrite filter_cons.
  destruct (IH (S k) Hv) as [Hnd Hf].
  { intros i it' Hi Hz. rewrite (Hp (S i) it') by done. lia. }
  assert (Hf' : Forall (fun id => N.of_nat k <= id) (users l v)).
  { eapply Forall_impl; [exact Hf|]. cbn. lia. }
  destruct (decide _) as [E|E]; [|done]. cbn. fold (users l v).
  pose proof (Hp 0%nat it eq_refl ltac:(congruence)) as Hid.
  split; constructor; try done; [|lia].
  rewrite Hid. intros Hin. rewrite Forall_forall in Hf. specialize (Hf _ Hin). cbn in Hf. lia.
Qed.
Lemma users_NoDup l v : placed l -> v <> 0 -> NoDup (users l v).
Proof. intros Hp Hv. by destruct (users_NoDup_aux l v 0 Hv Hp). Qed.

(** ** Building the new collections *)
Section build.
  Context (cols : list (list (list N))) (Hok : tables_ok cols) (Hcap : capN 65535 65536 cols).
  Context (used : gmap N (list N)).

  Definition sub_tables (new : list (list (list N))) : Prop :=
    (length new <= length cols)%nat /\
    forall c i s, at2 new c i = Some s -> exists j, at2 cols c j = Some s.

  Lemma sub_cap new : tables_ok new -> sub_tables new -> capN 65535 65536 new.
  Proof.
    intros Hn [Hl Hs]. destruct Hcap as [H1 H2]. split; [unfold lenN in *; lia|].
    apply Forall_lookup. intros c t Ht.
    destruct (cols !! c) as [t'|] eqn:E.
    - eapply Forall_lookup_1 in H2; [|exact E]. cbn in H2.
      enough (length t <= length t')%nat by (unfold lenN in *; lia).
      apply submseteq_length. apply NoDup_submseteq; [by destruct (Hn _ _ Ht)|].
      intros s [i Hi]%elem_of_list_lookup. destruct (Hs c i s) as [j Hj].
      { unfold at2. by rewrite Ht. }
      unfold at2 in Hj. rewrite E in Hj. by eapply elem_of_list_lookup_2.
    - exfalso. apply lookup_lt_Some in Ht. apply lookup_ge_None in E. lia.
  Qed.

  Record built (new : list (list (list N))) (repl : list (N * N)) : Prop := {
    b_ok : tables_ok new;
    b_sub : sub_tables new;
    b_repl : forall o n, (o, n) ∈ repl -> is_Some (used !! o) /\
      exists col, good_col cols o col /\ good_col new n col;
    b_all : forall n col, good_col new n col -> exists o, (o, n) ∈ repl }.

  Lemma opt_build_spec known : forall new repl,
    built new repl -> NoDup known -> NoDup repl.*1 ->
    (forall o, o ∈ known -> o ∉ repl.*1) ->
    (forall o, o ∈ known -> exists col, good_col cols o col) ->
    exists new' repl', opt_build cols used known new repl = Ok (new', repl ++ repl') /\
      built new' (repl ++ repl') /\ NoDup (repl ++ repl').*1 /\
      (forall o, o ∈ known -> is_Some (used !! o) -> exists n, (o, n) ∈ repl').
  Proof.
    induction known as [|cid known IH]; intros new repl B Hnd Hndr Hdis Hgood.
    { exists new, []. rewrite app_nil_r. split; [done|]. split; [done|]. split; [done|].
      intros o Ho. by apply elem_of_nil in Ho. }
    apply NoDup_cons in Hnd as [Hcid Hnd]. cbn.
    destruct (used !! cid) as [us|] eqn:Eu.
    2:{ destruct (IH new repl) as (new' & repl' & E & B' & N' & A'); try done.
        { intros o Ho. apply Hdis. by right. } { intros o Ho. apply Hgood. by right. }
        exists new', repl'. split; [done|]. split; [done|]. split; [done|].
        intros o [->|Ho]%elem_of_cons Hs; [by rewrite Eu in Hs; destruct Hs|by apply A']. }
    destruct (Hgood cid ltac:(left)) as [col Hcol].
    rewrite (good_col_get _ _ _ Hcol). cbn.
    pose proof (good_col_ne _ _ _ Hok Hcol) as Hne.
    assert (Hsorted : go_sort col = col).
    { apply go_sort_id. destruct Hcol as (_ & _ & Hcol). by apply at2_ok in Hcol as [? _]. }
    assert (Hlen : lenN col <= 65535).
    { rewrite (good_col_len _ _ _ Hok Hcol). unfold id32_upper.
      pose proof (wrap16_lt (N.land (N.shiftr cid 16) 65535)). lia. }
    destruct (variants_index_index new col) as [[new1 nid]|e|] eqn:Ei;
      [|rewrite variants_index_intern in Ei by (done || lia); discriminate..].
    pose proof Ei as Ei'. rewrite variants_index_intern in Ei' by (done || lia).
    assert (En1 : new1 = (intern2 new col).1) by congruence. clear Ei'.
    assert (Hok1 : tables_ok new1) by (subst new1; apply intern2_ok; [apply B|done]).
    assert (Hsub1 : sub_tables new1).
    { destruct (b_sub _ _ B) as [Hl Hs]. split.
      - subst new1. rewrite intern2_length.
        destruct Hcol as (_ & Hu & Hcol). pose proof (at2_ok _ _ _ _ Hok Hcol) as [_ L].
        unfold at2 in Hcol. destruct (cols !! _) as [t|] eqn:E; [|done].
        apply lookup_lt_Some in E. lia.
      - intros c i s H. subst new1. apply intern2_new in H as [H|(-> & -> & ->)]; [by eapply Hs|].
        rewrite Hsorted. destruct Hcol as (_ & Hu & Hcol).
        pose proof (at2_ok _ _ _ _ Hok Hcol) as [_ L].
        exists (N.to_nat (id32_lower cid)).
        replace (length col - 1)%nat with (N.to_nat (id32_upper cid) - 1)%nat by lia. done. }
    pose proof (sub_cap _ Hok1 Hsub1) as Hcap1.
    pose proof (cols_interned new col new1 nid (b_ok _ _ B) Hne ltac:(lia) Ei Hcap1) as I.
    pose proof (in_get _ _ _ _ _ I) as Hg. rewrite Hsorted in Hg.
    rewrite ?Ei. cbn. rewrite (good_col_get _ _ _ Hg). cbn.
    rewrite (proj2 (equal_to_true col col) eq_refl).
    assert (B1 : built new1 (repl ++ [(cid, nid)])).
    { split; try done.
      - intros o n [H|H]%elem_of_app.
        + destruct (b_repl _ _ B _ _ H) as (? & c & ? & Hn). split; [done|]. exists c.
          split; [done|]. by apply I.
        + apply elem_of_list_singleton in H. injection H as -> ->. split; [by eexists|]. by exists col.
      - intros n c Hn. destruct Hn as (Hn & Hu & Hat).
        destruct (in_new _ _ _ _ _ I _ _ _ Hat) as [Hat'| ->].
        + destruct (b_all _ _ B n c) as [o Ho]; [done|]. exists o. apply elem_of_app. by left.
        + assert (n = nid).
          { eapply good_col_inj; [exact Hok1| |apply I]. done. }
          subst n. exists cid. apply elem_of_app. right. by left. }
    destruct (IH new1 (repl ++ [(cid, nid)])) as (new' & repl' & E & B' & N' & A'); try done.
    - rewrite fmap_app. cbn. apply NoDup_app. split; [done|]. split; [|apply NoDup_singleton].
      intros o Ho ->%elem_of_list_singleton. by apply (Hdis cid ltac:(left)).
    - intros o Ho. rewrite fmap_app. cbn. rewrite elem_of_app, elem_of_list_singleton.
      intros [H| ->]; [|done]. by eapply Hdis; [right|].
    - intros o Ho. apply Hgood. by right.
    - rewrite <- app_assoc in *. cbn in *. exists new', ((cid, nid) :: repl').
      split; [done|]. split; [done|]. split; [done|].
      intros o [->|Ho]%elem_of_cons Hs.
      + exists nid. left.
      + destruct (A' o Ho Hs) as [n Hn]. exists n. by right.
  Qed.
End build.

(** ** Rewriting the items *)
Definition with_variants (n : N) (it : item) : item :=
  mkItem (it_parent it) (it_id it) (it_letter it) n.

Lemma opt_items_spec cols new nid ids : forall l,
  NoDup ids -> is_ok (variants_get new nid) = true ->
  (forall id, id ∈ ids -> exists it, l !! N.to_nat id = Some it /\
     is_ok (variants_get cols (it_variants it)) = true) ->
  exists l', opt_items cols new nid ids l = Ok l' /\ length l' = length l /\
    forall i, l' !! i = if decide (N.of_nat i ∈ ids) then with_variants nid <$> (l !! i) else l !! i.
Proof.
  induction ids as [|id ids IH]; intros l Hnd Hnew Hids.
  { exists l. split; [done|]. split; [done|]. intros i. rewrite decide_False; [done|].
    intros H. by apply elem_of_nil in H. }
  apply NoDup_cons in Hnd as [Hid Hnd].
  destruct (Hids id ltac:(left)) as (it & Hit & Hcol). cbn. unfold slice_get at 1. rewrite Hit. cbn.
  destruct (variants_get cols (it_variants it)) as [c|e|]; try done. cbn.
  destruct (variants_get new nid) as [c'|e|] eqn:En; try done. cbn.
  set (l1 := <[N.to_nat id := _]> l).
  destruct (IH l1) as (l' & E & Hlen & Hl'); try done.
  { intros id' Hid'. destruct (Hids id' ltac:(by right)) as (it' & Hit' & Hc').
    exists it'. split; [|done]. unfold l1. rewrite list_lookup_insert_ne; [done|].
    intros H. assert (id = id') by lia. by subst. }
  exists l'. split; [done|]. split; [by rewrite Hlen; apply insert_length|].
  intros i. rewrite Hl'. unfold l1.
  destruct (decide (i = N.to_nat id)) as [->|Hne].
  - rewrite N2Nat.id. rewrite decide_False by done. rewrite decide_True by left.
    rewrite list_lookup_insert by (by eapply lookup_lt_Some). by rewrite Hit.
  - rewrite list_lookup_insert_ne by done.
    destruct (decide (N.of_nat i ∈ ids)) as [H|H].
    + by rewrite decide_True by (by right).
    + rewrite decide_False; [done|]. rewrite elem_of_cons. intros [H'|?]; [lia|done].
Qed.

Lemma opt_replace_spec cols new l0 repl : forall l dn,
  placed l0 -> NoDup (dn ++ repl).*1 ->
  (forall o n, (o, n) ∈ repl -> o <> 0 /\ is_Some (used_map l0 !! o) /\
     is_ok (variants_get cols o) = true /\ is_ok (variants_get new n) = true) ->
  length l = length l0 ->
  (forall i it, l0 !! i = Some it ->
     (exists n, (it_variants it, n) ∈ dn /\ l !! i = Some (with_variants n it)) \/
     (it_variants it ∉ dn.*1 /\ l !! i = Some it)) ->
  exists l', opt_replace cols new (used_map l0) repl l = Ok l' /\ length l' = length l0 /\
    (forall i it, l0 !! i = Some it ->
     (exists n, (it_variants it, n) ∈ dn ++ repl /\ l' !! i = Some (with_variants n it)) \/
     (it_variants it ∉ (dn ++ repl).*1 /\ l' !! i = Some it)).
Proof.
  induction repl as [|[o n] repl IH]; intros l dn Hpl Hnd Hr Hlen Hinv.
  { exists l. rewrite app_nil_r. done. }
  destruct (Hr o n ltac:(left)) as (Ho & Hu & Hc & Hn). cbn.
  pose proof Hu as Hu'. rewrite used_map_spec in Hu'. rewrite decide_False in Hu' by done.
  assert (Eu : used_map l0 !! o = Some (users l0 o)).
  { rewrite used_map_spec, decide_False by done. destruct (users l0 o); [by destruct Hu'|done]. }
  rewrite Eu.
  assert (Hodn : o ∉ dn.*1).
  { rewrite fmap_app in Hnd. apply NoDup_app in Hnd as (_ & Hd & _). intros H.
    apply (Hd o H). cbn. left. }
  destruct (opt_items_spec cols new n (users l0 o) l) as (l1 & E1 & Hlen1 & Hl1).
  - by apply users_NoDup.
  - done.
  - intros id Hid. apply users_elem in Hid as (it & Hit & Ev); [|done..].
    exists it. destruct (Hinv _ _ Hit) as [(n' & Hin & _)|[_ Hl]].
    + exfalso. apply Hodn. rewrite Ev in Hin. by apply (elem_of_list_fmap_1 fst) in Hin.
    + split; [done|]. by rewrite Ev.
  - rewrite E1. cbn. destruct (IH l1 (dn ++ [(o, n)])) as (l' & E & Hlen' & Hl').
    + done.
    + by rewrite <- app_assoc.
    + intros o' n' H. apply Hr. by right.
    + congruence.
    + intros i it Hit. rewrite Hl1.
      destruct (decide (N.of_nat i ∈ users l0 o)) as [Hin|Hin].
      * apply users_elem in Hin as (it' & Hit' & Ev); [|done..]. rewrite Nat2N.id in Hit'.
        rewrite Hit in Hit'. injection Hit' as <-. left. exists n. rewrite Ev. split.
        { apply elem_of_app. right. by left. }
        destruct (Hinv i it Hit) as [(n' & Hin' & _)|[_ ->]]; [|done].
        exfalso. apply Hodn. rewrite Ev in Hin'. by apply (elem_of_list_fmap_1 fst) in Hin'.
      * assert (Hv : it_variants it <> o).
        { intros Ev. apply Hin. apply users_elem; [done..|]. exists it. by rewrite Nat2N.id. }
        destruct (Hinv i it Hit) as [(n' & Hin' & Hl)|[Hnin Hl]].
        -- left. exists n'. split; [|done]. apply elem_of_app. by left.
        -- right. split; [|done]. rewrite fmap_app. cbn.
           rewrite elem_of_app, elem_of_list_singleton. naive_solver.
    + rewrite <- app_assoc in Hl'. cbn in Hl'. exists l'. done.
Qed.

Definition item_used (ix : index) (v : N) : Prop :=
  exists i it, its_list (ix_items ix) !! i = Some it /\ it_variants it = v /\ v <> 0.

Section optimize.
  Context {ld : bool} {ix : index} {d : dict}.
  Context (T : trie_of ld ix (d_words d)) (A : annot ix d).

  Lemma item_cases i it : its_list (ix_items ix) !! i = Some it ->
    it = zero_item /\ (i = 0%nat \/ (N.to_nat (its_next (ix_items ix)) <= i)%nat) \/
    exists j w, i = S j /\ d_words d !! j = Some w /\ it_id it = N.of_nat i.
  Proof.
    intros Hit. destruct i as [|j].
    - left. pose proof (t_zero _ _ _ _ T) as Hz. rewrite Hz in Hit. injection Hit as <-. by auto.
    - pose proof (t_len _ _ _ _ T) as Hlen. unfold lenN in Hlen.
      destruct (d_words d !! j) as [w|] eqn:E.
      + right. exists j, w. destruct (t_items _ _ _ _ T j w E) as (it' & q & H1 & H2 & _).
        rewrite Hit in H1. injection H1 as <-. done.
      + apply lookup_ge_None in E. left.
        assert (N.to_nat (its_next (ix_items ix)) <= S j)%nat by lia.
        split; [|by right]. by eapply (t_tail _ _ _ _ T).
  Qed.
  Lemma index_placed : placed (its_list (ix_items ix)).
  Proof. intros i it Hit Hv. destruct (item_cases i it Hit) as [[-> _]|(j & w & _ & _ & ?)]; done. Qed.
  Lemma used_is_known v : item_used ix v -> exists col, good_col (ix_cols ix) v col.
  Proof.
    intros (i & it & Hit & <- & Hz). destruct (item_cases i it Hit) as [[-> _]|(j & w & -> & Hw & _)]; [done|].
    destruct (a_items _ _ A j w it Hw Hit) as [[? _]|(col & Hg & _)]; [done|]. by exists col.
  Qed.
  Lemma used_map_used v : is_Some (used_map (its_list (ix_items ix)) !! v) <-> item_used ix v.
  Proof.
    rewrite used_map_spec. destruct (decide (v = 0)) as [->|Hv].
    - split; [by intros []|]. by intros (i & it & _ & _ & ?).
    - split.
      + intros H. destruct (users _ v) as [|id ids] eqn:E; [by destruct H|].
        assert (Hin : id ∈ users (its_list (ix_items ix)) v) by (rewrite E; left).
        apply users_elem in Hin as (it & Hit & Ev); [|apply index_placed|done]. by exists (N.to_nat id), it.
      + intros (i & it & Hit & Ev & _).
        assert (Hin : N.of_nat i ∈ users (its_list (ix_items ix)) v).
        { apply users_elem; [apply index_placed|done|]. exists it. by rewrite Nat2N.id. }
        destruct (users _ v); [by apply elem_of_nil in Hin|]. by eexists.
  Qed.

  Lemma optimize_spec :
    exists ix', optimize ix = Ok ix' /\ trie_of ld ix' (d_words d) /\ annot ix' d /\
      (forall v, v ∈ known_id (ix_cols ix') <-> item_used ix' v) /\
      ix_tags ix' = ix_tags ix /\ ix_sets ix' = ix_sets ix /\ ix_words ix' = ix_words ix /\
      ix_children ix' = ix_children ix /\ same_nodes (ix_items ix') (ix_items ix) /\
      forall i it', its_list (ix_items ix') !! i = Some it' ->
        exists it, its_list (ix_items ix) !! i = Some it /\
          variants_get (ix_cols ix') (it_variants it') = variants_get (ix_cols ix) (it_variants it).
  Proof.
    unfold optimize. set (l0 := its_list (ix_items ix)). set (cols := ix_cols ix).
    pose proof (known_id_spec cols) as Hk. specialize (fun v => Hk v (a_cols_cap _ _ A)).
    assert (Hself : same_nodes (ix_items ix) (ix_items ix)).
    { split; [done..|]. intros i it Hit. by exists it. }
    destruct (filter (fun id => used_map l0 !! id = None) (known_id cols)) as [|u0 us] eqn:Ef.
    { exists ix. split; [done|]. split; [done|]. split; [done|].
      split; [|do 5 (split; [done|]); intros i it' Hit'; by exists it'].
      intros v. split.
      - intros Hv. apply used_map_used. fold l0.
        destruct (used_map l0 !! v) as [ids|] eqn:Eu; [by eexists|].
        assert (H : v ∈ filter (fun id => used_map l0 !! id = None) (known_id cols))
          by (by apply elem_of_list_filter).
        rewrite Ef in H. by apply elem_of_nil in H.
      - intros Hv. apply Hk. by apply used_is_known. }
    destruct (opt_build_spec cols (a_cols _ _ A) (a_cols_cap _ _ A) (used_map l0) (known_id cols) [] [])
      as (new & repl & Eb & B & Hnd & Hall).
    - split.
      + apply tables_ok_nil.
      + split; [cbn; lia|]. intros c i s H. unfold at2 in H. by rewrite lookup_nil in H.
      + intros o n H. by apply elem_of_nil in H.
      + intros n col (_ & _ & H). unfold at2 in H. by rewrite lookup_nil in H.
    - apply known_id_NoDup. apply A.
    - constructor.
    - intros o _ H. by apply elem_of_nil in H.
    - intros o. apply Hk.
    - rewrite Eb. cbn [app] in *. cbn.
      destruct (opt_replace_spec cols new l0 repl l0 []) as (l' & Er & Hlen & Hl').
      + apply index_placed.
      + done.
      + intros o n H. destruct (b_repl _ _ _ _ B _ _ H) as (Hu & col & G1 & G2).
        split; [by eapply good_col_nz|]. split; [done|].
        by rewrite (good_col_get _ _ _ G1), (good_col_get _ _ _ G2).
      + done.
      + intros i it Hit. right. split; [|done]. intros H. by apply elem_of_nil in H.
      + cbn [app] in Hl'. rewrite Er. cbn. eexists. split; [reflexivity|].
        assert (Hrev : forall i it', l' !! i = Some it' -> exists it, l0 !! i = Some it /\
          ((it_variants it = 0 /\ it' = it) \/
           exists n, (it_variants it, n) ∈ repl /\ it' = with_variants n it)).
        { intros i it' Hit'. destruct (l0 !! i) as [it|] eqn:E.
          - exists it. split; [done|]. destruct (Hl' i it E) as [(n & Hn & H)|[Hn H]].
            + right. exists n. split; [done|congruence].
            + left. split; [|congruence].
              destruct (decide (it_variants it = 0)) as [|Hz]; [done|]. exfalso. apply Hn.
              assert (Hu : item_used ix (it_variants it)) by (by exists i, it).
              destruct (Hall (it_variants it)) as [n Hin].
              { apply Hk. by apply used_is_known. } { by apply used_map_used. }
              by apply (elem_of_list_fmap_1 fst) in Hin.
          - apply lookup_ge_None in E. apply lookup_lt_Some in Hit'. lia. }
        assert (Hz0 : forall o n, (o, n) ∈ repl -> o <> 0 /\ n <> 0).
        { intros o n H. destruct (b_repl _ _ _ _ B _ _ H) as (_ & col & G1 & G2).
          split; by eapply good_col_nz. }
        assert (Hsn : same_nodes (mkItems l' (its_next (ix_items ix))) (ix_items ix)).
        { split; [done|cbn; unfold lenN; by rewrite Hlen|].
          intros i it' Hit'. cbn in Hit'. destruct (Hrev i it' Hit') as (it & Hit & Hc).
          exists it. split; [done|].
          destruct Hc as [[_ ->]|(n & Hn & ->)]; [done|]. cbn. split; [done|]. split; [done|].
          split; [done|]. intros Hi. exfalso. destruct (Hz0 _ _ Hn) as [Hz _]. apply Hz.
          destruct (item_cases i it Hit) as [[-> _]|(j & w & -> & Hw & _)]; [done|].
          pose proof (t_len _ _ _ _ T) as L. unfold lenN in L. apply lookup_lt_Some in Hw.
          destruct Hi as [?|Hi]; [done|]. lia. }
        split; [eapply trie_same_nodes; [exact Hsn|exact T]|].
        assert (Hcapn : capN 65535 65536 new) by (eapply sub_cap; [apply A|apply B|apply B]).
        split; [|split; [|do 5 (split; [done|])]].
        3:{ intros i it' Hit'. destruct (Hrev _ _ Hit') as (it & Hit & Hc). exists it. split; [done|].
            cbn [ix_cols set_cols]. destruct Hc as [[Hv ->]|(n & Hin & ->)]; [by rewrite Hv|].
            destruct (b_repl _ _ _ _ B _ _ Hin) as (_ & col & G1 & G2). cbn.
            by rewrite (good_col_get _ _ _ G1), (good_col_get _ _ _ G2). }
        * split; cbn; try apply A.
          -- apply B.
          -- done.
          -- intros c i col H. destruct (b_sub _ _ _ _ B) as [_ Hs].
             destruct (Hs _ _ _ H) as [j Hj]. by apply (a_col_ids _ _ A) in Hj.
          -- intros i w it' Hw Hit'. destruct (Hrev _ _ Hit') as (it & Hit & Hc).
             destruct (a_items _ _ A i w it Hw Hit) as [[Hv Hn]|(col & Hg & Hn)].
             ++ left. split; [|done]. destruct Hc as [[_ ->]|(n & Hin & ->)]; [done|].
                by destruct (Hz0 _ _ Hin).
             ++ right. exists col. split; [|done]. destruct Hc as [[Hv _]|(n & Hin & ->)].
                { by apply good_col_nz in Hg. }
                cbn. destruct (b_repl _ _ _ _ B _ _ Hin) as (_ & col' & G1 & G2).
                by rewrite (good_col_fun _ _ _ _ Hg G1).
        * intros v. rewrite known_id_spec by done. split.
          -- intros (col & Hg). destruct (b_all _ _ _ _ B _ _ Hg) as [o Ho].
             destruct (b_repl _ _ _ _ B _ _ Ho) as (Hu & _).
             apply used_map_used in Hu as (i & it & Hit & Ev & Hz).
             destruct (Hl' i it Hit) as [(n & Hn & H)|[Hn _]].
             ++ exists i, (with_variants n it). split; [done|]. split; [|by eapply good_col_nz].
                cbn. rewrite Ev in Hn.
                apply elem_of_list_lookup in Hn as [a Ha]. apply elem_of_list_lookup in Ho as [b Hb].
                assert (a = b); [|congruence].
                eapply (NoDup_lookup repl.*1 a b o); [done|rewrite list_lookup_fmap..].
                { by rewrite Ha. } { by rewrite Hb. }
             ++ exfalso. apply Hn. rewrite Ev. by apply (elem_of_list_fmap_1 fst) in Ho.
          -- intros (i & it' & Hit' & Ev & Hz). destruct (Hrev _ _ Hit') as (it & Hit & Hc).
             destruct Hc as [[Hv ->]|(n & Hin & ->)]; [congruence|]. cbn in Ev. subst n.
             destruct (b_repl _ _ _ _ B _ _ Hin) as (_ & col & _ & G2). by exists col.
  Qed.
End optimize.

Lemma optimize_fix ix :
  (forall v, v ∈ known_id (ix_cols ix) -> is_Some (used_map (its_list (ix_items ix)) !! v)) ->
  optimize ix = Ok ix.
Proof.
  intros H. unfold optimize.
  destruct (filter _ (known_id (ix_cols ix))) as [|u us] eqn:E; [done|].
  assert (Hin : u ∈ filter (fun id => used_map (its_list (ix_items ix)) !! id = None) (known_id (ix_cols ix)))
    by (rewrite E; left).
  apply elem_of_list_filter in Hin as [Hu Hin]. apply H in Hin. rewrite Hu in Hin. by destruct Hin.
Qed.
