(** Proofs about what each call reads and writes: C88. *)
From Coq Require Import ZifyBool ZifyNat ZifyN.
From Verif Require Import Base Storage Bin Tags TagSets Variants Items Index BaseFacts Spec Hist Fill Minor Footprint ThmTrie.
From stdpp Require Import list gmap.
Open Scope N_scope.

(** ** Equal parts *)
Lemma items_ext (a b : items) : map node_part (its_list a) = map node_part (its_list b) -> its_next a = its_next b ->
  map it_variants (its_list a) = map it_variants (its_list b) -> a = b.
Proof.
  destruct a as [l n], b as [l' n']. cbn. intros H <- H'. f_equal. revert l' H H'.
  induction l as [|[p i c v] l IH]; intros [|[p' i' c' v'] l']; try done. cbn. intros [=] [=]. subst. f_equal. by apply IH.
Qed.
Lemma same_all a b : (forall p, same p a b) -> a = b.
Proof.
  intros H. destruct a as [t1 s1 c1 i1 m1 w1], b as [t2 s2 c2 i2 m2 w2].
  pose proof (H PTags) as H1. pose proof (H PSets) as H2. pose proof (H PCols) as H3. pose proof (H PNodes) as [H4 H4'].
  pose proof (H PVariants) as H5. pose proof (H PChildren) as H6. pose proof (H PWords) as H7. cbn in *. subst. f_equal. by apply items_ext.
Qed.
Lemma same_items a b : same PNodes a b -> same PVariants a b -> ix_items a = ix_items b.
Proof. intros [H1 H2] H3. by apply items_ext. Qed.
Lemma same_refl p a : same p a a.
Proof. by destruct p. Qed.
Lemma same_sym p a b : same p a b -> same p b a.
Proof. destruct p; cbn; try done. by intros [? ?]. Qed.
Lemma same_trans p a b c : same p a b -> same p b c -> same p a c.
Proof. destruct p; cbn; try congruence. intros [? ?] [? ?]. split; congruence. Qed.

(** ** Nodes *)
Lemma nodes_lookup a b (i : nat) : map node_part a = map node_part b ->
  match a !! i, b !! i with Some x, Some y => node_part x = node_part y | None, None => True | _, _ => False end.
Proof.
  intros H. assert (E : map node_part a !! i = map node_part b !! i) by (by rewrite H). rewrite !list_lookup_fmap in E.
  destruct (a !! i), (b !! i); cbn in E; try done. congruence.
Qed.
Lemma nodes_len a b : map node_part a = map node_part b -> length a = length b.
Proof. intros H. apply (f_equal length) in H. by rewrite !map_length in H. Qed.
Lemma get_item_part a b id : same PNodes a b ->
  match get_item a id, get_item b id with
  | Ok (Some x), Ok (Some y) => node_part x = node_part y
  | Ok None, Ok None => True
  | Panic, Panic => True
  | _, _ => False
  end.
Proof.
  intros [H1 H2]. unfold get_item, items_get. rewrite H2. destruct (id =? 0); [done|]. destruct (_ <=? id); [done|].
  unfold slice_get. pose proof (nodes_lookup _ _ (N.to_nat id) H1) as H. destruct (_ !! _), (_ !! _); done.
Qed.
Lemma word_part a b : same PNodes a b -> forall fuel id, word_fuel fuel a id = word_fuel fuel b id.
Proof.
  intros H. induction fuel as [|fuel IH]; intros id; [done|]. cbn [word_fuel]. destruct (id =? 0); [done|].
  pose proof (get_item_part a b id H) as Hg. destruct (get_item a id) as [[x|]|e|], (get_item b id) as [[y|]|e'|]; try done.
  cbn [mbind res_bind]. unfold node_part in Hg. injection Hg as H1 H2 H3. rewrite H1, H3. destruct (it_parent y =? 0); [done|]. by rewrite IH.
Qed.
Lemma node_word_part a b id : same PNodes a b -> node_word a id = node_word b id.
Proof. intros H. unfold node_word. rewrite (nodes_len _ _ (proj1 H)). by apply word_part. Qed.
Lemma index_get_part a b id : same PNodes a b -> index_get a id = index_get b id.
Proof. intros [_ H]. unfold index_get. by rewrite H. Qed.

(** ** Lookup *)
Lemma ensure_frame ix id p : p <> PChildren -> same p ix (ensure_children ix id).
Proof. by destruct p. Qed.
Lemma fetch_frame runes : forall ix parent p, p <> PChildren -> same p ix (fetch_loop ix parent runes).1.
Proof.
  induction runes as [|r runes IH]; intros ix parent p Hp; [apply same_refl|]. cbn [fetch_loop]. cbv zeta.
  destruct (child _ parent r) as [n|]; [|by apply ensure_frame]. destruct runes as [|r' runes]; [by apply ensure_frame|].
  eapply same_trans; [by apply ensure_frame|]. by apply IH.
Qed.
Lemma fetch_item_frame runes : forall ix parent p, p <> PChildren -> same p ix (fetch_item_loop ix parent runes).1.
Proof.
  induction runes as [|r runes IH]; intros ix parent p Hp; [apply same_refl|]. cbn [fetch_item_loop]. cbv zeta.
  destruct (child _ parent r) as [n|]; [|by apply ensure_frame]. destruct runes as [|r' runes]; [by apply ensure_frame|].
  eapply same_trans; [by apply ensure_frame|]. by apply IH.
Qed.
Lemma ensure_part a b id : same PNodes a b -> same PChildren a b -> same PNodes (ensure_children a id) (ensure_children b id) /\ same PChildren (ensure_children a id) (ensure_children b id).
Proof. intros H1 H2. split; [done|]. cbn in *. by rewrite H2. Qed.
Lemma fetch_part runes : forall a b parent, same PNodes a b -> same PChildren a b ->
  (fetch_loop a parent runes).2 = (fetch_loop b parent runes).2 /\ same PChildren (fetch_loop a parent runes).1 (fetch_loop b parent runes).1.
Proof.
  induction runes as [|r runes IH]; intros a b parent H1 H2; [done|]. cbn [fetch_loop]. cbv zeta.
  destruct (ensure_part a b parent H1 H2) as [H3 H4]. cbn [same] in H4. rewrite <- H4.
  destruct (child _ parent r) as [n|].
  - destruct runes as [|r' runes]; [|by apply IH]. split; [by apply index_get_part|done].
  - split; [|done]. cbn [snd]. by rewrite (node_word_part _ _ parent H3).
Qed.
Lemma fetch_item_part runes : forall a b parent, same PNodes a b -> same PChildren a b ->
  (fetch_item_loop a parent runes).2 = (fetch_item_loop b parent runes).2 /\ same PChildren (fetch_item_loop a parent runes).1 (fetch_item_loop b parent runes).1.
Proof.
  induction runes as [|r runes IH]; intros a b parent H1 H2; [done|]. cbn [fetch_item_loop]. cbv zeta.
  destruct (ensure_part a b parent H1 H2) as [H3 H4]. cbn [same] in H4. rewrite <- H4.
  destruct (child _ parent r) as [n|].
  - destruct runes as [|r' runes]; [|by apply IH]. done.
  - split; [|done]. cbn [snd]. by rewrite (node_word_part _ _ parent H3).
Qed.

(** ** Adding *)
Definition added (p : part) : Prop := p = PNodes \/ p = PVariants \/ p = PChildren.
Lemma add_frame runes : forall ix parent p, ~ added p -> same p ix (add_loop ix parent runes).1.
Proof.
  induction runes as [|r runes IH]; intros ix parent p Hp; [apply same_refl|]. cbn [add_loop]. cbv zeta.
  assert (p <> PChildren /\ p <> PNodes /\ p <> PVariants) as (Hn1 & Hn2 & Hn3) by (unfold added in Hp; naive_solver).
  match goal with |- context [match ?x with Ok _ => _ | Err _ => _ | Panic => _ end] => destruct x as [[]|e|] end; try apply same_refl.
  destruct (child _ parent r) as [n|].
  - destruct runes as [|r' runes]; [by apply ensure_frame|]. eapply same_trans; [by apply ensure_frame|]. by apply IH.
  - destruct (items_new_child _ parent r) as [[its it]|e|]; try by apply ensure_frame.
    set (ix2 := set_children _ _). assert (H2 : same p ix ix2) by (destruct p; naive_solver).
    destruct runes as [|r' runes]; [done|]. eapply same_trans; [exact H2|]. by apply IH.
Qed.
Lemma map_insert_part {B} (f : item -> B) l (i : nat) x : map f (<[i := x]> l) = <[i := f x]> (map f l).
Proof. by rewrite list_fmap_insert. Qed.
Lemma new_child_part (a b : items) parent r : map node_part (its_list a) = map node_part (its_list b) -> its_next a = its_next b ->
  match items_new_child a parent r, items_new_child b parent r with
  | Ok (x, it), Ok (y, it') => it = it' /\ map node_part (its_list x) = map node_part (its_list y) /\ its_next x = its_next y /\
      (map it_variants (its_list a) = map it_variants (its_list b) -> map it_variants (its_list x) = map it_variants (its_list y))
  | Panic, Panic => True
  | _, _ => False
  end.
Proof.
  intros H1 H2. unfold items_new_child. cbv zeta. rewrite H2. assert (Hl : lenN (its_list a) = lenN (its_list b)) by (unfold lenN; by rewrite (nodes_len _ _ H1)).
  rewrite Hl. set (ea := if lenN (its_list b) <=? its_next b then items_extend (its_list a) (extend_count (lenN (its_list b))) else its_list a).
  set (eb := if lenN (its_list b) <=? its_next b then items_extend (its_list b) (extend_count (lenN (its_list b))) else its_list b).
  assert (He : map node_part ea = map node_part eb) by (unfold ea, eb, items_extend; destruct (_ <=? _); [by rewrite !map_app, H1|done]).
  assert (Hv : map it_variants (its_list a) = map it_variants (its_list b) -> map it_variants ea = map it_variants eb).
  { intros H. unfold ea, eb, items_extend. destruct (_ <=? _); [by rewrite !map_app, H|done]. }
  replace (lenN eb) with (lenN ea) by (unfold lenN; by rewrite (nodes_len _ _ He)). destruct (_ <? lenN ea); [|done].
  cbn [its_list its_next]. split; [done|]. rewrite !map_insert_part, He. split; [done|]. split; [done|]. intros H. by rewrite (Hv H).
Qed.
Lemma add_part runes : forall a b parent, same PNodes a b -> same PChildren a b ->
  (add_loop a parent runes).2 = (add_loop b parent runes).2 /\ same PNodes (add_loop a parent runes).1 (add_loop b parent runes).1 /\
  same PChildren (add_loop a parent runes).1 (add_loop b parent runes).1 /\
  (same PVariants a b -> same PVariants (add_loop a parent runes).1 (add_loop b parent runes).1).
Proof.
  induction runes as [|r runes IH]; intros a b parent H1 H2; [done|]. cbn [add_loop]. cbv zeta.
  assert (Hg : (if parent =? 0 then Ok true else oit ← items_get (ix_items a) parent; Ok (match oit with Some _ => true | None => false end)) =
               (if parent =? 0 then Ok true else oit ← items_get (ix_items b) parent; Ok (match oit with Some _ => true | None => false end))).
  { destruct (parent =? 0); [done|]. pose proof (get_item_part a b parent H1) as Hg. unfold get_item in Hg.
    destruct (items_get (ix_items a) parent) as [[x|]|e|], (items_get (ix_items b) parent) as [[y|]|e'|]; done. }
  rewrite Hg. match goal with |- context [match ?x with Ok _ => _ | Err _ => _ | Panic => _ end] => destruct x as [[]|e|] end; try done.
  destruct (ensure_part a b parent H1 H2) as [H3 H4]. pose proof H4 as H4'. cbn [same] in H4'. rewrite <- H4'.
  destruct (child _ parent r) as [n|].
  - destruct runes as [|r' runes].
    + split; [by apply index_get_part|]. split; [done|]. split; [done|]. done.
    + destruct (IH (ensure_children a parent) (ensure_children b parent) n H3 H4) as (E1 & E2 & E3 & E4). split; [done|]. split; [done|]. split; [done|]. done.
  - pose proof (new_child_part (ix_items (ensure_children a parent)) (ix_items (ensure_children b parent)) parent r (proj1 H3) (proj2 H3)) as Hn.
    destruct (items_new_child (ix_items (ensure_children a parent)) parent r) as [[x it]|e|],
      (items_new_child (ix_items (ensure_children b parent)) parent r) as [[y it']|e'|]; try done.
    destruct Hn as (<- & Hx1 & Hx2 & Hx3).
    set (a2 := set_children (set_items (ensure_children a parent) x) _). set (b2 := set_children (set_items (ensure_children b parent) y) _).
    assert (G1 : same PNodes a2 b2) by done. assert (G2 : same PChildren a2 b2) by done.
    assert (G3 : same PVariants a b -> same PVariants a2 b2) by done.
    destruct runes as [|r' runes].
    + split; [by apply index_get_part|]. done.
    + destruct (IH a2 b2 (it_id it) G1 G2) as (E1 & E2 & E3 & E4). split; [done|]. split; [done|]. split; [done|]. auto.
Qed.

(** ** Tag sets *)
Lemma set_variants_nodes s id v : map node_part (its_list (set_variants s id v)) = map node_part (its_list s).
Proof.
  unfold set_variants. cbn [its_list]. apply list_eq. intros i. rewrite !list_lookup_fmap.
  destruct (decide (N.to_nat id = i)) as [<-|Hn].
  - rewrite list_lookup_alter. by destruct (its_list s !! N.to_nat id).
  - by rewrite list_lookup_alter_ne.
Qed.
Lemma add_tag_set_frame ix id names p : p ∉ writes KAddTagSet -> same p ix (node_add_tag_set ix id names).1.
Proof.
  intros Hp. assert (p = PTags \/ p = PNodes \/ p = PChildren) as Hq by (destruct p; first [by left|by right; left|by right; right|exfalso; apply Hp; cbn; set_solver]).
  clear Hp. unfold node_add_tag_set.
  destruct (names_to_ids _ names) as [ids|e|]; [|apply same_refl|apply same_refl].
  destruct (get_item ix id) as [[it|]|e|]; try apply same_refl.
  match goal with |- context [match ?x with Ok _ => _ | Err _ => _ | Panic => _ end] => destruct x as [[[sets cols] vid]|e|] end; try apply same_refl.
  cbn [fst]. destruct Hq as [-> | [-> | ->]]; [done| |done]. split; [|done]. cbn [ix_items]. by rewrite set_variants_nodes.
Qed.
Lemma add_tag_set_part a b id names : (forall p, p ∈ reads KAddTagSet -> same p a b) ->
  (node_add_tag_set a id names).2 = (node_add_tag_set b id names).2 /\
  forall p, same p a b -> same p (node_add_tag_set a id names).1 (node_add_tag_set b id names).1.
Proof.
  intros H. assert (H1 : ix_tags a = ix_tags b) by (apply (H PTags); cbn; set_solver). assert (H2 : ix_sets a = ix_sets b) by (apply (H PSets); cbn; set_solver).
  assert (H3 : ix_cols a = ix_cols b) by (apply (H PCols); cbn; set_solver).
  assert (H4 : ix_items a = ix_items b) by (apply same_items; [apply (H PNodes); cbn; set_solver|apply (H PVariants); cbn; set_solver]).
  unfold node_add_tag_set, get_item. rewrite H1, H2, H3, H4.
  destruct (names_to_ids _ names) as [ids|e|]; [|done|done].
  destruct (items_get (ix_items b) id) as [[it|]|e|]; try done.
  match goal with |- context [match ?x with Ok _ => _ | Err _ => _ | Panic => _ end] => destruct x as [[[sets cols] vid]|e|] end; try done.
  cbn [fst snd]. split; [done|]. intros p Hp. destruct p; cbn; try done; cbn in Hp; by rewrite ?Hp.
Qed.

(** ** Optimize *)
Lemma opt_items_nodes cols new nid ids : forall l l', opt_items cols new nid ids l = Ok l' -> map node_part l' = map node_part l.
Proof.
  induction ids as [|id ids IH]; intros l l'; cbn [opt_items]; [by intros [= <-]|]. unfold slice_get.
  destruct (l !! N.to_nat id) as [it|] eqn:E; cbn [mbind res_bind]; [|done].
  destruct (variants_get cols _); cbn; [|done|done]. destruct (variants_get new nid); cbn; [|done|done].
  intros H. rewrite (IH _ _ H). rewrite map_insert_part. apply list_insert_id. by rewrite list_lookup_fmap, E.
Qed.
Lemma opt_replace_nodes cols new used repl : forall l l', opt_replace cols new used repl l = Ok l' -> map node_part l' = map node_part l.
Proof.
  induction repl as [|[old nid] repl IH]; intros l l'; cbn [opt_replace]; [by intros [= <-]|].
  destruct (used !! old) as [ids|]; [|done]. destruct (opt_items cols new nid ids l) as [l1|e|] eqn:E; cbn [mbind res_bind]; try done.
  intros H. rewrite (IH _ _ H). by eapply opt_items_nodes.
Qed.
Lemma optimize_frame ix ix' p : optimize ix = Ok ix' -> p ∉ writes KOptimize -> same p ix ix'.
Proof.
  intros H Hp. unfold optimize in H. cbv zeta in H. destruct (filter _ (known_id _)) as [|u us]; [injection H as <-; apply same_refl|].
  destruct (opt_build _ _ _ _ _) as [[new repl]|e|]; cbn [mbind res_bind] in H; try done.
  destruct (opt_replace _ _ _ _ _) as [l|e|] eqn:E; cbn [mbind res_bind] in H; try done. injection H as <-.
  destruct p; cbn; try done; try (exfalso; apply Hp; cbn; set_solver). split; [|done]. symmetry. by eapply opt_replace_nodes.
Qed.
Lemma optimize_part a b : (forall p, p ∈ reads KOptimize -> same p a b) ->
  match optimize a, optimize b with
  | Ok x, Ok y => forall p, same p a b -> same p x y
  | Err e, Err e' => e = e'
  | Panic, Panic => True
  | _, _ => False
  end.
Proof.
  intros H. assert (H3 : ix_cols a = ix_cols b) by (apply (H PCols); cbn; set_solver).
  assert (H4 : ix_items a = ix_items b) by (apply same_items; [apply (H PNodes); cbn; set_solver|apply (H PVariants); cbn; set_solver]).
  unfold optimize. cbv zeta. rewrite H3, H4. destruct (filter _ (known_id _)) as [|u us]; [done|].
  destruct (opt_build _ _ _ _ _) as [[new repl]|e|]; cbn [mbind res_bind]; try done.
  destruct (opt_replace _ _ _ _ _) as [l|e|]; cbn [mbind res_bind]; try done. by destruct p.
Qed.

(** ** Reading *)
Lemma rebuild_part its m m' w w' : (rebuild its m w).1 = (rebuild its m w').1 /\ (rebuild its m w).2 = (rebuild its m' w).2.
Proof.
  unfold rebuild. generalize (ensure_map m 0) (ensure_map m' 0). generalize 0 as pos. revert w w'.
  induction (its_list its) as [|it l IH]; intros w w' pos x x'; [done|]. cbn [rebuild_loop]. cbv zeta. split; [apply IH; exact x|].
  destruct (it_variants it =? 0); eapply IH; exact 0.
Qed.
(** What is left of a list: the old one or something that does not depend on it. *)
Definition leaves {A} (old old' : A) (x y : A * res (list N)) : Prop :=
  x.2 = y.2 /\ (x.1 = y.1 \/ (x.1 = old /\ y.1 = old' /\ forall r, x.2 <> Ok r)).
Lemma leaves_list {A} e (old old' : list A) len z f bs : leaves old old' (fill_list e old len z f bs) (fill_list e old' len z f bs).
Proof. unfold fill_list. destruct (rwrap e len bs) as [[n rest]|x|]; [by split; [|left]|split; [done|right; done]|split; [done|right; done]]. Qed.
Lemma leaves_items old old' bs : leaves old old' (fill_items old bs) (fill_items old' bs).
Proof.
  unfold fill_items. destruct (get_u32 bs) as [[n rest]|x|]; [|split; [done|right; done]|split; [done|right; done]].
  destruct (fill_many _ _ n rest) as [l r]. by split; [|left].
Qed.
Lemma leaves_wrap {A} e (old old' : A) x y : leaves old old' x y -> leaves old old' (let '(v, r) := x in (v, wrap_err e r)) (let '(v, r) := y in (v, wrap_err e r)).
Proof.
  destruct x as [v r], y as [v' r']. unfold leaves. cbn. intros [<- H]. split; [done|]. destruct H as [H|(H1 & H2 & H3)]; [by left|right].
  split; [done|]. split; [done|]. intros r0. destruct r; cbn; try done.
Qed.
Lemma leaves_section {A} sec (old old' : A) f f' bs : (forall bs, leaves old old' (f bs) (f' bs)) ->
  leaves old old' (fill_section sec old f bs) (fill_section sec old' f' bs).
Proof.
  intros H. unfold fill_section. destruct (read_section sec bs) as [[u rest]|x|]; [|split; [done|right; done]|split; [done|right; done]].
  apply (leaves_wrap EIndex), H.
Qed.
Lemma leaves_step {A} sec (old old' : A) f f' bs : (forall bs, leaves old old' (f bs) (f' bs)) ->
  leaves old old' (fwrap EIndex (fill_section sec old f) bs) (fwrap EIndex (fill_section sec old' f') bs).
Proof. intros H. apply (leaves_wrap EIndex), leaves_section, H. Qed.
Lemma leaves_same {A B} (g : A -> B) (old old' : A) x y : leaves old old' x y -> g old = g old' -> g x.1 = g y.1.
Proof. intros [_ [H|(H1 & H2 & _)]] Hg; [by rewrite H|by rewrite H1, H2]. Qed.
Lemma leaves_ok {A} (old old' : A) x y r : leaves old old' x y -> x.2 = Ok r -> x.1 = y.1.
Proof. intros [_ [H|(_ & _ & H)]] Hr; [done|by destruct (H r)]. Qed.
Lemma read_part a b bs : (fill_index a bs).2 = (fill_index b bs).2 /\ forall p, same p a b -> same p (fill_index a bs).1 (fill_index b bs).1.
Proof.
  unfold fill_index.
  pose proof (leaves_step sec_tags (ix_tags a) (ix_tags b) (fill_tags (ix_tags a)) (fill_tags (ix_tags b)) bs ltac:(intros; apply leaves_list)) as L1.
  destruct (fwrap EIndex (fill_section sec_tags (ix_tags a) _) bs) as [t1 r1], (fwrap EIndex (fill_section sec_tags (ix_tags b) _) bs) as [t1' r1'].
  pose proof (proj1 L1) as R1. cbn in R1. subst r1'. pose proof (leaves_same (fun x => x) _ _ _ _ L1) as S1. cbn in S1.
  destruct r1 as [b1|e|].
  2-3: cbn [fst snd]; split; [done|]; intros p Hp; destruct p; cbn in *; auto.
  pose proof (leaves_step sec_sets (ix_sets a) (ix_sets b) (fill_sets (ix_sets a)) (fill_sets (ix_sets b)) b1 ltac:(intros; apply leaves_list)) as L2.
  destruct (fwrap EIndex (fill_section sec_sets (ix_sets a) _) b1) as [t2 r2], (fwrap EIndex (fill_section sec_sets (ix_sets b) _) b1) as [t2' r2'].
  pose proof (proj1 L2) as R2. cbn in R2. subst r2'. pose proof (leaves_same (fun x => x) _ _ _ _ L2) as S2. cbn in S2.
  destruct r2 as [b2|e|].
  2-3: cbn [fst snd]; split; [done|]; intros p Hp; destruct p; cbn in *; auto.
  pose proof (leaves_step sec_cols (ix_cols a) (ix_cols b) (fill_cols (ix_cols a)) (fill_cols (ix_cols b)) b2 ltac:(intros; apply leaves_list)) as L3.
  destruct (fwrap EIndex (fill_section sec_cols (ix_cols a) _) b2) as [t3 r3], (fwrap EIndex (fill_section sec_cols (ix_cols b) _) b2) as [t3' r3'].
  pose proof (proj1 L3) as R3. cbn in R3. subst r3'. pose proof (leaves_same (fun x => x) _ _ _ _ L3) as S3. cbn in S3.
  destruct r3 as [b3|e|].
  2-3: cbn [fst snd]; split; [done|]; intros p Hp; destruct p; cbn in *; auto.
  pose proof (leaves_section sec_items (ix_items a) (ix_items b) _ _ b3 (leaves_items (ix_items a) (ix_items b))) as L4.
  destruct (fill_section sec_items (ix_items a) _ b3) as [t4 r4], (fill_section sec_items (ix_items b) _ b3) as [t4' r4'].
  pose proof (proj1 L4) as R4. cbn in R4. subst r4'.
  pose proof (leaves_same (fun x => map node_part (its_list x)) _ _ _ _ L4) as S4. pose proof (leaves_same its_next _ _ _ _ L4) as S5.
  pose proof (leaves_same (fun x => map it_variants (its_list x)) _ _ _ _ L4) as S6. cbn in S4, S5, S6.
  destruct r4 as [b4|e|].
  2-3: cbn [fst snd]; split; [done|]; intros p Hp; destruct p; cbn in *; try (destruct Hp); auto.
  pose proof (leaves_ok _ _ _ _ b4 L4 eq_refl) as E4. cbn in E4. subst t4'.
  destruct (rebuild_part t4 (ix_children a) (ix_children b) (ix_words a) (ix_words b)) as [B1 B2].
  destruct (rebuild_part t4 (ix_children b) (ix_children a) (ix_words b) (ix_words a)) as [B3 B4].
  destruct (rebuild t4 (ix_children a) (ix_words a)) as [m w] eqn:Ea, (rebuild t4 (ix_children b) (ix_words b)) as [m' w'] eqn:Eb. cbn in B1, B2, B3, B4.
  cbn [fst snd]. split; [done|]. intros p Hp. destruct p; cbn in *; auto.
  - rewrite B1, Hp, Eb. done.
  - rewrite B2, Hp, Eb. done.
Qed.

(** ** The claims *)
Lemma l_C88_writes : forall c ix p, p ∉ writes (kind_of c) -> same p ix (exec c ix).1.
Proof.
  intros c ix p Hp. destruct c as [id|id|id|id|q w|q w|q w| | |n q|ids|id|id|id|id|id names| | |bs]; cbn [exec]; try apply same_refl.
  - apply ensure_frame. intros ->. apply Hp. cbn. set_solver.
  - unfold fetch_from_item. assert (p <> PChildren) by (intros ->; apply Hp; cbn; set_solver).
    destruct w as [|r w]; [apply same_refl|]. pose proof (fetch_frame (r :: w) ix q p ltac:(done)) as H'. by destruct (fetch_loop ix q (r :: w)).
  - unfold fetch_item_from_parent. assert (p <> PChildren) by (intros ->; apply Hp; cbn; set_solver).
    destruct w as [|r w]; [apply same_refl|]. pose proof (fetch_item_frame (r :: w) ix q p ltac:(done)) as H'. by destruct (fetch_item_loop ix q (r :: w)).
  - unfold add_to_node. assert (~ added p) by (intros [-> | [-> | ->]]; apply Hp; cbn; set_solver).
    destruct w as [|r w]; [apply same_refl|]. pose proof (add_frame (r :: w) ix q p ltac:(done)) as H'. by destruct (add_loop ix q (r :: w)).
  - unfold index_tag_id. destruct (tags_index (ix_tags ix) n q) as [ts id]. destruct p; cbn; try done. exfalso. apply Hp. cbn. set_solver.
  - pose proof (add_tag_set_frame ix id names p Hp) as H. by destruct (node_add_tag_set ix id names).
  - destruct (optimize ix) as [ix1|e|] eqn:E; [by eapply optimize_frame|apply same_refl|apply same_refl].
  - exfalso. apply Hp. destruct p; cbn; set_solver.
Qed.
Lemma l_C88_reads : forall c a b, (forall p, p ∈ reads (kind_of c) -> same p a b) ->
  (exec c a).2 = (exec c b).2 /\ forall p, same p a b -> same p (exec c a).1 (exec c b).1.
Proof.
  intros c a b H. destruct c as [id|id|id|id|q w|q w|q w| | |n q|ids|id|id|id|id|id names| | |bs]; cbn [exec kind_of] in *.
  - split; [|done]. cbn. f_equal. apply index_get_part. apply H. cbn. set_solver.
  - split; [|done]. cbn. f_equal. unfold node_item. rewrite (same_items a b); [done|apply H; cbn; set_solver|apply H; cbn; set_solver].
  - split; [|done]. cbn. f_equal. unfold get_children_map. assert (Hc : same PChildren a b) by (apply H; cbn; set_solver). cbn in Hc. by rewrite Hc.
  - assert (Hc : same PChildren a b) by (apply H; cbn; set_solver). cbn in Hc. cbn [fst snd]. unfold ensure_children. cbn [ix_children set_children].
    rewrite Hc. split; [done|]. intros p Hp. by destruct p.
  - assert (Hc : same PChildren a b) by (apply H; cbn; set_solver). assert (Hn : same PNodes a b) by (apply H; cbn; set_solver).
    unfold fetch_from_item. destruct w as [|r w]; [done|]. destruct (fetch_part (r :: w) a b q Hn Hc) as [H1 H2].
    pose proof (fetch_frame (r :: w) a q) as Fa. pose proof (fetch_frame (r :: w) b q) as Fb.
    destruct (fetch_loop a q (r :: w)) as [x rx], (fetch_loop b q (r :: w)) as [y ry]. cbn [fst snd] in *. split; [by rewrite H1|].
    intros p Hp. destruct (decide (p = PChildren)) as [->|Hd]; [done|]. eapply same_trans; [apply same_sym, Fa; done|]. eapply same_trans; [exact Hp|]. by apply Fb.
  - assert (Hc : same PChildren a b) by (apply H; cbn; set_solver). assert (Hn : same PNodes a b) by (apply H; cbn; set_solver).
    unfold fetch_item_from_parent. destruct w as [|r w]; [done|]. destruct (fetch_item_part (r :: w) a b q Hn Hc) as [H1 H2].
    pose proof (fetch_item_frame (r :: w) a q) as Fa. pose proof (fetch_item_frame (r :: w) b q) as Fb.
    destruct (fetch_item_loop a q (r :: w)) as [x rx], (fetch_item_loop b q (r :: w)) as [y ry]. cbn [fst snd] in *. split; [by rewrite H1|].
    intros p Hp. destruct (decide (p = PChildren)) as [->|Hd]; [done|]. eapply same_trans; [apply same_sym, Fa; done|]. eapply same_trans; [exact Hp|]. by apply Fb.
  - assert (Hc : same PChildren a b) by (apply H; cbn; set_solver). assert (Hn : same PNodes a b) by (apply H; cbn; set_solver).
    unfold add_to_node. destruct w as [|r w]; [done|]. destruct (add_part (r :: w) a b q Hn Hc) as (H1 & H2 & H3 & H4).
    pose proof (add_frame (r :: w) a q) as Fa. pose proof (add_frame (r :: w) b q) as Fb.
    destruct (add_loop a q (r :: w)) as [x rx], (add_loop b q (r :: w)) as [y ry]. cbn [fst snd] in *. split; [by rewrite H1|].
    intros p Hp. destruct p; auto; (eapply same_trans; [apply same_sym, Fa; unfold added; naive_solver|]; eapply same_trans; [exact Hp|]; apply Fb; unfold added; naive_solver).
  - split; [|done]. cbn. do 2 f_equal. assert (Hc : same PWords a b) by (apply H; cbn; set_solver). exact Hc.
  - split; [|done]. cbn. do 2 f_equal. assert (Hc : same PNodes a b) by (apply H; cbn; set_solver). unfold nodes_count. by rewrite (proj2 Hc).
  - assert (Hc : same PTags a b) by (apply H; cbn; set_solver). cbn in Hc. unfold index_tag_id. rewrite Hc.
    destruct (tags_index (ix_tags b) n q) as [ts id]. split; [done|]. intros p Hp. by destruct p.
  - split; [|done]. cbn. f_equal. assert (Hc : same PTags a b) by (apply H; cbn; set_solver). cbn in Hc. by rewrite Hc.
  - split; [|done]. cbn. f_equal. unfold index_variants. assert (Hc : same PCols a b) by (apply H; cbn; set_solver). cbn in Hc. by rewrite Hc.
  - split; [|done]. cbn. f_equal. apply node_word_part. apply H. cbn. set_solver.
  - split; [|done]. cbn. f_equal. unfold node_string, get_item. rewrite (node_word_part a b) by (apply H; cbn; set_solver).
    rewrite (same_items a b); [done|apply H; cbn; set_solver|apply H; cbn; set_solver].
  - split; [|done]. cbn. f_equal. unfold node_tag_sets, get_item. rewrite (same_items a b); [|apply H; cbn; set_solver|apply H; cbn; set_solver].
    assert (H1 : ix_tags a = ix_tags b) by (apply (H PTags); cbn; set_solver). assert (H2 : ix_sets a = ix_sets b) by (apply (H PSets); cbn; set_solver).
    assert (H3 : ix_cols a = ix_cols b) by (apply (H PCols); cbn; set_solver). rewrite H3.
    assert (Hr : forall col, resolve_sets a col = resolve_sets b col).
    { induction col as [|k col IH]; [done|]. cbn [resolve_sets]. rewrite H1, H2. destruct (tagset_get _ k); [by rewrite IH|done]. }
    destruct (items_get _ id) as [[it|]|e|]; try done. cbn [mbind res_bind]. destruct (variants_get _ _); cbn; [by rewrite Hr|done|done].
  - destruct (add_tag_set_part a b id names H) as [H1 H2]. destruct (node_add_tag_set a id names), (node_add_tag_set b id names). cbn [fst snd] in *. by subst.
  - pose proof (optimize_part a b H) as Ho. destruct (optimize a), (optimize b); cbn [fst snd]; try done. by subst.
  - split; [|done]. cbn. f_equal. unfold index_write. rewrite (same_items a b); [|apply H; cbn; set_solver|apply H; cbn; set_solver].
    assert (H1 : ix_tags a = ix_tags b) by (apply (H PTags); cbn; set_solver). assert (H2 : ix_sets a = ix_sets b) by (apply (H PSets); cbn; set_solver).
    assert (H3 : ix_cols a = ix_cols b) by (apply (H PCols); cbn; set_solver). by rewrite H1, H2, H3.
  - destruct (read_part a b bs) as [H1 H2]. destruct (fill_index a bs), (fill_index b bs). cbn [fst snd] in *. by subst.
Qed.
Lemma l_C88_exchange : forall c d ix, apart (kind_of c) (kind_of d) = true ->
  (exec d (exec c ix).1).1 = (exec c (exec d ix).1).1 /\
  (exec d (exec c ix).1).2 = (exec d ix).2 /\ (exec c (exec d ix).1).2 = (exec c ix).2.
Proof.
  intros c d ix H. unfold apart in H. apply andb_true_iff in H as [H1 H2]. rewrite forallb_forall in H1, H2.
  assert (G1 : forall p, p ∈ writes (kind_of c) -> p ∉ reads (kind_of d) /\ p ∉ writes (kind_of d)).
  { intros p Hp. apply elem_of_list_In, H1, negb_true_iff, bool_decide_eq_false in Hp. set_solver. }
  assert (G2 : forall p, p ∈ writes (kind_of d) -> p ∉ reads (kind_of c) /\ p ∉ writes (kind_of c)).
  { intros p Hp. apply elem_of_list_In, H2, negb_true_iff, bool_decide_eq_false in Hp. set_solver. }
  destruct (l_C88_reads d ix (exec c ix).1) as [D1 D2].
  { intros p Hp. apply l_C88_writes. intros Hc. by destruct (G1 p Hc). }
  destruct (l_C88_reads c ix (exec d ix).1) as [C1 C2].
  { intros p Hp. apply l_C88_writes. intros Hc. by destruct (G2 p Hc). }
  split; [|done]. apply same_all. intros p. destruct (decide (p ∈ writes (kind_of c))) as [Hc|Hc].
  - destruct (G1 p Hc) as [_ Hd]. eapply same_trans; [apply same_sym, l_C88_writes, Hd|]. apply C2. by apply l_C88_writes.
  - eapply same_trans; [apply same_sym, D2; by apply l_C88_writes|]. by apply l_C88_writes.
Qed.

Lemma apart_sym a b : apart a b = apart b a.
Proof. unfold apart. apply andb_comm. Qed.
Lemma calls_past c : forall l ix, (forall d, d ∈ l -> apart (kind_of c) (kind_of d) = true) ->
  calls l (exec c ix).1 = ((exec c (calls l ix).1).1, (calls l ix).2) /\ (exec c (calls l ix).1).2 = (exec c ix).2.
Proof.
  induction l as [|d l IH]; intros ix H; [done|]. cbn [calls].
  destruct (l_C88_exchange c d ix (H d ltac:(set_solver))) as (E1 & E2 & E3).
  destruct (IH (exec d ix).1 ltac:(intros; apply H; set_solver)) as [I1 I2]. rewrite <- E1 in I1.
  destruct (exec d (exec c ix).1) as [y ay]. destruct (exec d ix) as [x ax]. cbn [fst snd] in *.
  rewrite I1. destruct (calls l x) as [z az]. cbn [fst snd] in *. subst. split; [done|]. by rewrite I2.
Qed.
Lemma l_C88_callers : forall (l : list (bool * call)) ix,
  (forall c d, c ∈ of_caller true l -> d ∈ of_caller false l -> apart (kind_of c) (kind_of d) = true) ->
  (calls (map snd l) ix).1 = (calls (of_caller false l) (calls (of_caller true l) ix).1).1 /\
  forall b, of_caller b (zip (map fst l) (calls (map snd l) ix).2) = (calls (of_caller b l) ix).2.
Proof.
  induction l as [|[t c] l IH]; intros ix H; [split; [done|by intros []]|]. cbn [map fst snd calls].
  destruct t; cbn [of_caller eqb] in *.
  - destruct (IH (exec c ix).1 ltac:(intros; apply H; set_solver)) as [I1 I2].
    destruct (calls_past c (of_caller false l) ix ltac:(intros; apply H; set_solver)) as [P1 P2].
    cbn [calls]. destruct (exec c ix) as [y ay] eqn:Ex. cbn [fst snd] in *. destruct (calls (map snd l) y) as [z az]. cbn [fst snd zip zip_with of_caller eqb] in *.
    split; [destruct (calls (of_caller true l) y); done|]. intros [|]; cbn [eqb].
    + specialize (I2 true). rewrite I2. cbn [calls]. rewrite Ex. by destruct (calls (of_caller true l) y).
    + rewrite (I2 false), P1. done.
  - destruct (IH (exec c ix).1 ltac:(intros; apply H; set_solver)) as [I1 I2].
    destruct (calls_past c (of_caller true l) ix ltac:(intros; rewrite apart_sym; apply H; set_solver)) as [P1 P2].
    cbn [calls]. destruct (exec c ix) as [y ay] eqn:Ex. cbn [fst snd] in *. destruct (calls (map snd l) y) as [z az]. cbn [fst snd zip zip_with of_caller eqb] in *.
    split.
    + rewrite I1, P1. cbn [fst]. destruct (exec c (calls (of_caller true l) ix).1) as [u au]. cbn [fst]. by destruct (calls (of_caller false l) u).
    + intros [|]; cbn [eqb].
      * rewrite (I2 true), P1. done.
      * specialize (I2 false). rewrite I2. cbn [calls]. rewrite Ex. by destruct (calls (of_caller false l) y).
Qed.

(** ** Every entry of the tables is needed *)
Definition fp_noun : list N := [78; 79; 85; 78].
Definition fp_sing : list N := [115; 105; 110; 103].
(** Two tags and the word "ab" with the set of the first. *)
Definition fp_h : list op := [OTagID fp_noun []; OTagID fp_sing fp_noun; OAdd [97; 98]%Z; OTag [97; 98]%Z [fp_noun]].
(** Another word with another set, and then that set for the first word too: the list with the
    first set alone is not used any more. *)
Definition fp_h2 : list op := fp_h ++ [OAdd [99]%Z; OTag [99]%Z [fp_sing]; OTag [97; 98]%Z [fp_sing]].
Definition fp_ix (h : list op) : index := default index_new (run h).
Definition fp_bytes (h : list op) : list N := match index_write (fp_ix h) with Ok w => w.1 | _ => [] end.
Global Instance tag_eq_dec' : EqDecision tag.
Proof. solve_decision. Defined.
Global Instance same_dec p a b : Decision (same p a b).
Proof. destruct p; cbn; apply _. Defined.
Lemma same_false p a b : bool_decide (same p a b) = false -> ~ same p a b.
Proof. apply bool_decide_eq_false_1. Qed.
Definition fp_write (k : kind) (p : part) : list op * call :=
  match k with
  | KIdMap => (fp_h, CIdMap 2)
  | KFetch => (fp_h, CFetch 0 [97; 98; 99]%Z)
  | KFetchItem => (fp_h, CFetchItem 0 [97; 98; 99]%Z)
  | KAdd => ([], CAdd 0 [97; 98]%Z)
  | KTagID => ([], CTagID fp_noun [])
  | KAddTagSet => ([OTagID fp_noun []; OAdd [97; 98]%Z], CAddTagSet 2 [fp_noun])
  | KOptimize => (fp_h2, COptimize)
  | _ => ([], CRead (fp_bytes fp_h))
  end.
Lemma l_C88_writes_all : forall k p, p ∈ writes k ->
  exists h ix c, runs h ix /\ kind_of c = k /\ ~ same p ix (exec c ix).1.
Proof.
  intros k p Hp. exists (fp_write k p).1, (fp_ix (fp_write k p).1), (fp_write k p).2. split.
  - apply run_runs. destruct k; try done; try (exfalso; cbn in Hp; set_solver); vm_compute; reflexivity.
  - destruct k; cbn [writes] in Hp; repeat (apply elem_of_cons in Hp as [-> | Hp]); try (by apply elem_of_nil in Hp);
      (split; [reflexivity|]); apply same_false; vm_compute; reflexivity.
Qed.
Definition fp_node (f : item -> item) (id : nat) (next : N) (ix : index) : index :=
  set_items ix (mkItems (alter f id (its_list (ix_items ix))) next).
(** An index that differs in one part from that of [fp_h]; the nodes in three ways: fewer nodes,
    another letter, a node that is its own parent. *)
Definition fp_few : index := fp_node id 1 1 (fp_ix fp_h).
Definition fp_letter : index := fp_node (fun it => mkItem (it_parent it) (it_id it) 99%Z (it_variants it)) 1 3 (fp_ix fp_h).
Definition fp_ring : index := fp_node (fun it => mkItem 1 (it_id it) (it_letter it) (it_variants it)) 1 3 (fp_ix fp_h).
Definition fp_plain (h : list op) (v : N) : index := fp_node (fun it => mkItem (it_parent it) (it_id it) (it_letter it) v) 2 (its_next (ix_items (fp_ix h))) (fp_ix h).
Definition fp_far : index := fp_node (fun it => mkItem (it_parent it) 99 (it_letter it) (it_variants it)) 2 4 (fp_ix fp_h2).
Definition fp_other (p : part) (ix : index) : index :=
  match p with
  | PTags => mkIndex [] (ix_sets ix) (ix_cols ix) (ix_items ix) (ix_children ix) (ix_words ix)
  | PSets => mkIndex (ix_tags ix) [] (ix_cols ix) (ix_items ix) (ix_children ix) (ix_words ix)
  | PCols => mkIndex (ix_tags ix) (ix_sets ix) [] (ix_items ix) (ix_children ix) (ix_words ix)
  | PChildren => mkIndex (ix_tags ix) (ix_sets ix) (ix_cols ix) (ix_items ix) ∅ (ix_words ix)
  | PWords => mkIndex (ix_tags ix) (ix_sets ix) (ix_cols ix) (ix_items ix) (ix_children ix) 7
  | _ => ix
  end.
Definition fp_read (k : kind) (p : part) : call * list op * index :=
  let diff := match p with PNodes => fp_few | PVariants => fp_plain fp_h 0 | _ => fp_other p (fp_ix fp_h) end in
  match k with
  | KGet => (CGet 1, fp_h, diff)
  | KItem => (CItem (match p with PNodes => 1 | _ => 2 end), fp_h, match p with PNodes => fp_letter | _ => diff end)
  | KChildren => (CChildren 0, fp_h, diff)
  | KIdMap => (CIdMap 0, fp_h, diff)
  | KFetch => (CFetch 0 [97]%Z, fp_h, diff)
  | KFetchItem => match p with PNodes => (CFetchItem 1 [122]%Z, fp_h, fp_ring) | _ => (CFetchItem 0 [97]%Z, fp_h, diff) end
  | KAdd => match p with PNodes => (CAdd 0 [97; 122]%Z, fp_h, fp_few) | _ => (CAdd 0 [97]%Z, fp_h, diff) end
  | KWordsCount => (CWordsCount, fp_h, diff)
  | KNodesCount => (CNodesCount, fp_h, diff)
  | KTagID => (CTagID fp_sing fp_noun, fp_h, diff)
  | KTagSet => (CTagSet [1], fp_h, diff)
  | KVariants => (CVariants (match its_list (ix_items (fp_ix fp_h)) !! 2%nat with Some it => it_variants it | None => 0 end), fp_h, diff)
  | KWord => (CWord 1, fp_h, diff)
  | KString => (CString 2, fp_h, diff)
  | KTagSets => (CTagSets 2, fp_h, diff)
  | KAddTagSet => (CAddTagSet 2 [fp_sing], fp_h, diff)
  | KOptimize =>
    (COptimize, fp_h2, match p with PNodes => fp_far
                       | PVariants => fp_plain fp_h2 (match its_list (ix_items (fp_ix fp_h)) !! 2%nat with Some it => it_variants it | None => 0 end)
                       | _ => fp_other p (fp_ix fp_h2) end)
  | _ => (CWrite, fp_h, diff)
  end.
Ltac differ := let H := fresh "H" in
  first [left; intros H; apply (f_equal (fun x => match x with AMap m => m !! 97%Z | _ => None end)) in H; vm_compute in H; discriminate H
        |left; intros H; vm_compute in H; discriminate H
        |right; first [exists PCols; (split; [discriminate|apply same_false; vm_compute; reflexivity])|exists PVariants; (split; [discriminate|apply same_false; vm_compute; reflexivity])|exists PWords; (split; [discriminate|apply same_false; vm_compute; reflexivity])]].
Lemma l_C88_reads_all : forall k p, p ∈ reads k ->
  exists c h a b, runs h a /\ kind_of c = k /\ (forall q, q <> p -> same q a b) /\
  ((exec c a).2 <> (exec c b).2 \/ exists q, q <> p /\ ~ same q (exec c a).1 (exec c b).1).
Proof.
  intros k p Hp. exists (fp_read k p).1.1, (fp_read k p).1.2, (fp_ix (fp_read k p).1.2), (fp_read k p).2.
  split; [|split; [|split]].
  - assert ((fp_read k p).1.2 = fp_h \/ (fp_read k p).1.2 = fp_h2) as [-> | ->] by (destruct k, p; first [by left|by right]); apply run_runs; vm_compute; reflexivity.
  - by destruct k, p; try (exfalso; cbn in Hp; set_solver).
  - intros q Hq. destruct k, p; try (exfalso; cbn in Hp; set_solver); destruct q; try done; vm_compute; by try split.
  - destruct k; cbn [reads] in Hp; repeat (apply elem_of_cons in Hp as [-> | Hp]); try (by apply elem_of_nil in Hp); differ.
Qed.
