(** Proofs about the String methods (C70). *)
From Coq Require Import ZifyBool ZifyNat ZifyN.
From Verif Require Import Base Storage Utf8 Tags TagSets Variants Items Index Strconv Session Screen Render RenderSpec Spec BaseFacts Utf8Facts NumFacts ThmScreen.
From stdpp Require Import list gmap pretty.
Open Scope N_scope.

(** ** Lists in brackets *)
Definition stop (e x : N) : Prop := x = 44 \/ x = e.
Lemma join_cut {A} (P : A -> Prop) (R : nat -> A -> list N) (e : N) : e <> 44 ->
  (forall i a b x y s t, P a -> P b -> stop e x -> stop e y -> R i a ++ x :: s = R i b ++ y :: t -> a = b /\ x = y /\ s = t) ->
  (forall i a x s t, P a -> stop e x -> R i a ++ x :: s <> e :: t) ->
  forall l k j s t, Forall P l -> Forall P k ->
  join_with (bytes_of ",") (imap (fun i => R (j + i)%nat) l) ++ e :: s = join_with (bytes_of ",") (imap (fun i => R (j + i)%nat) k) ++ e :: t -> l = k /\ s = t.
Proof.
  intros He Hc H0 l. induction l as [|a l IH]; intros k j s t Hl Hk E.
  all: assert (Hs : forall S0 : list A, imap ((fun i => R (j + i)%nat) ∘ S) S0 = imap (fun i => R (S j + i)%nat) S0)
    by (intros S0; apply imap_ext; intros i x _; unfold compose; by rewrite <- Nat.add_succ_comm).
  all: assert (Hj : forall x (l0 : list A) u, exists c v, join_with (bytes_of ",") (x :: imap (fun i => R (S j + i)%nat) l0) ++ e :: u = x ++ c :: v /\ stop e c /\
        ((l0 = [] /\ c = e /\ v = u) \/ (l0 <> [] /\ c = 44 /\ v = join_with (bytes_of ",") (imap (fun i => R (S j + i)%nat) l0) ++ e :: u)))
    by (intros x l0 u; destruct l0 as [|c l0]; [exists e, u; split; [done|]; split; [by right|by left]|];
      exists 44, (join_with (bytes_of ",") (imap (fun i => R (S j + i)%nat) (c :: l0)) ++ e :: u);
      rewrite imap_cons; cbn [join_with]; rewrite <- !app_assoc; split; [done|]; split; [by left|by right]).
  - destruct Hk as [|b k Hb Hk]; [by injection E|]. exfalso. rewrite imap_cons, Hs in E.
    destruct (Hj (R (j + 0)%nat b) k t) as (c & v & E2 & St & _). rewrite E2 in E. symmetry in E. by apply H0 in E.
  - apply Forall_cons_1 in Hl as [Ha Hl]. rewrite imap_cons, Hs in E. destruct (Hj (R (j + 0)%nat a) l s) as (c1 & v1 & E1 & St1 & D1). rewrite E1 in E.
    destruct Hk as [|b k Hb Hk].
    { exfalso. by apply H0 in E. }
    rewrite imap_cons, Hs in E. destruct (Hj (R (j + 0)%nat b) k t) as (c2 & v2 & E2 & St2 & D2).
    rewrite E2 in E. apply Hc in E as (-> & Ec & Ev); [|done..].
    destruct D1 as [(-> & -> & ->)|(_ & -> & ->)], D2 as [(-> & -> & ->)|(_ & -> & ->)]; [by rewrite Ev|done|done|].
    apply (IH k (S j) s t Hl Hk) in Ev as [-> ->]. done.
Qed.
Lemma join_cut_map {A} (P : A -> Prop) (R : A -> list N) (e : N) : e <> 44 ->
  (forall a b x y s t, P a -> P b -> stop e x -> stop e y -> R a ++ x :: s = R b ++ y :: t -> a = b /\ x = y /\ s = t) ->
  (forall a x s t, P a -> stop e x -> R a ++ x :: s <> e :: t) ->
  forall l k s t, Forall P l -> Forall P k ->
  join_with (bytes_of ",") (map R l) ++ e :: s = join_with (bytes_of ",") (map R k) ++ e :: t -> l = k /\ s = t.
Proof.
  intros He Hc H0 l k s t Hl Hk E. apply (join_cut P (fun _ => R) e He (fun _ => Hc) (fun _ => H0) l k 0 s t Hl Hk).
  assert (H : forall l : list A, imap (fun _ => R) l = map R l).
  { clear. induction l as [|a l IH]; [done|]. rewrite imap_cons. cbn [map]. f_equal. exact IH. }
  by rewrite !H.
Qed.
Lemma all_true {A} (l : list A) : Forall (fun _ => True) l.
Proof. by apply Forall_true. Qed.
Lemma itoa_head n : exists d s, itoa n = d :: s /\ is_dig d.
Proof.
  destruct (decimal_digits _ _ (itoa_decimal n)) as [H Hn]. destruct (itoa n) as [|d s]; [done|].
  apply Forall_cons_1 in H as [H _]. by exists d, s.
Qed.

(** ** Tag sets, tables, collections *)
Lemma tagset_cut a b s t : tagset_string a ++ s = tagset_string b ++ t -> a = b /\ s = t.
Proof.
  unfold tagset_string. rewrite <- !app_assoc. intros E. apply app_inv_head in E.
  apply (join_cut_map (fun _ => True) itoa 41) in E; [done|done| | |apply all_true|apply all_true].
  - intros x y c d u v _ _ [-> | ->] [-> | ->] Ex; by apply itoa_cut in Ex; try (unfold is_dig; lia).
  - intros x c u v _ _ Ex. destruct (itoa_head x) as (d & w & Hx & Hd). rewrite Hx in Ex. injection Ex as -> _. unfold is_dig in Hd. lia.
Qed.
Lemma l_C70_tagset : forall a b, tagset_string a = tagset_string b <-> a = b.
Proof. intros a b. split; [|by intros ->]. intros E. apply (tagset_cut a b [] []). by rewrite E. Qed.
Lemma l_C70_table : forall a b, table_string a = table_string b <-> a = b.
Proof.
  intros a b. split; [|by intros ->]. unfold table_string. intros E. apply app_inv_head in E.
  eapply (join_cut (fun _ => True) (fun i s => itoa (N.of_nat i) ++ bytes_of ": " ++ tagset_string s) 41) with (j := 0%nat) (s := []) (t := []); [done| | |apply all_true|apply all_true|exact E].
  - intros i x y c d u v _ _ _ _ Ex. rewrite <- !app_assoc in Ex. do 2 apply app_inv_head in Ex. apply tagset_cut in Ex as [-> Ex]. by injection Ex.
  - intros i x c u v _ _ Ex. destruct (itoa_head (N.of_nat i)) as (d & w & Hx & Hd). rewrite Hx in Ex. injection Ex as -> _. unfold is_dig in Hd. lia.
Qed.
Definition is_lhex (c : N) : Prop := 48 <= c <= 57 \/ 97 <= c <= 102.
Lemma lhex_digit_ok d : d < 16 -> is_lhex (lhex_digit d).
Proof. unfold is_lhex, lhex_digit. destruct (N.ltb_spec d 10); lia. Qed.
Lemma lhex_digit_inj a b : a < 16 -> b < 16 -> lhex_digit a = lhex_digit b -> a = b.
Proof. unfold lhex_digit. destruct (N.ltb_spec a 10), (N.ltb_spec b 10); lia. Qed.
Lemma lhex_ok f n : Forall is_lhex (lhex_fuel f n).
Proof.
  revert n. induction f as [|f IH]; intros n; cbn [lhex_fuel]; [constructor|]. destruct (N.ltb_spec n 16) as [H|H].
  - apply Forall_singleton. by apply lhex_digit_ok.
  - apply Forall_app. split; [apply IH|]. apply Forall_singleton. apply lhex_digit_ok. by apply N.mod_lt.
Qed.
Lemma lhex_fuel_inj f : forall g n m, n < 16 ^ N.of_nat f -> m < 16 ^ N.of_nat g -> lhex_fuel f n = lhex_fuel g m -> n = m.
Proof.
  induction f as [|f IH]; intros g n m Hn Hm E.
  - destruct g as [|g]; [cbn in *; lia|]. cbn [lhex_fuel] in E. destruct (m <? 16); [done|]. by destruct (lhex_fuel g (m / 16)).
  - destruct g as [|g]; [cbn [lhex_fuel] in E; destruct (n <? 16); [done|]; by destruct (lhex_fuel f (n / 16))|].
    rewrite Nat2N.inj_succ, N.pow_succ_r' in Hn, Hm. cbn [lhex_fuel] in E.
    assert (Hlen : forall f n, n < 16 ^ N.of_nat f -> n <> 0 -> lhex_fuel f n <> []).
    { clear. intros [|f] n Hn Hz; [cbn in Hn; lia|]. cbn [lhex_fuel]. destruct (n <? 16); [done|]. by destruct (lhex_fuel f (n / 16)). }
    assert (Hd : forall n k, n < 16 * k -> n / 16 < k) by (intros; apply N.div_lt_upper_bound; lia).
    assert (Hz : forall n, 16 <= n -> n / 16 <> 0) by (intros q Hq Hq0; apply N.div_small_iff in Hq0; lia).
    destruct (N.ltb_spec n 16) as [H|H], (N.ltb_spec m 16) as [H'|H'].
    + injection E as E. by apply lhex_digit_inj.
    + exfalso. change ([] ++ [lhex_digit n] = lhex_fuel g (m / 16) ++ [lhex_digit (m mod 16)]) in E. apply app_inj_tail in E as [E _].
      symmetry in E. revert E. apply Hlen; auto.
    + exfalso. change (lhex_fuel f (n / 16) ++ [lhex_digit (n mod 16)] = [] ++ [lhex_digit m]) in E. apply app_inj_tail in E as [E _].
      revert E. apply Hlen; auto.
    + apply app_inj_tail in E as [E E']. apply IH in E; [|auto|auto].
      apply lhex_digit_inj in E'; [|by apply N.mod_lt|by apply N.mod_lt]. rewrite (N.div_mod' n 16), (N.div_mod' m 16). by rewrite E, E'.
Qed.
Lemma size_nat_bound n : n < 2 ^ N.of_nat (N.size_nat n).
Proof.
  destruct n as [|p]; [done|]. cbn [N.size_nat]. induction p as [p IH|p IH|]; cbn [Pos.size_nat]; [| |done].
  all: rewrite Nat2N.inj_succ, N.pow_succ_r'; lia.
Qed.
Lemma size_bound n : n < 16 ^ N.of_nat (S (N.size_nat n)).
Proof.
  rewrite Nat2N.inj_succ, N.pow_succ_r'. pose proof (size_nat_bound n).
  assert (2 ^ N.of_nat (N.size_nat n) <= 16 ^ N.of_nat (N.size_nat n)) by (apply N.pow_le_mono_l; lia). lia.
Qed.
Lemma lhex_cut n m x y s t : ~ is_lhex x -> ~ is_lhex y -> lhex n ++ x :: s = lhex m ++ y :: t -> n = m /\ x = y /\ s = t.
Proof.
  intros Hx Hy E. destruct (span_split is_lhex _ _ _ _ _ _ (lhex_ok _ n) (lhex_ok _ m) Hx Hy E) as (H & -> & ->).
  split; [|done]. eapply lhex_fuel_inj; [apply size_bound|apply size_bound|exact H].
Qed.
Lemma lhex_head n : exists d s, lhex n = d :: s /\ is_lhex d.
Proof.
  pose proof (lhex_ok (S (N.size_nat n)) n) as H. unfold lhex. destruct (lhex_fuel _ n) as [|d s] eqn:E.
  - cbn [lhex_fuel] in E. destruct (n <? 16); [done|]. by destruct (lhex_fuel _ (n / 16)).
  - apply Forall_cons_1 in H as [H _]. by exists d, s.
Qed.
Lemma l_C70_collection : forall a b, collection_string a = collection_string b <-> a = b.
Proof.
  intros a b. split; [|by intros ->]. unfold collection_string. intros E. apply app_inv_head in E.
  apply (join_cut_map (fun _ => True) lhex 93) in E; try apply all_true; [by destruct E|done| |].
  - intros x y c d u v _ _ [-> | ->] [-> | ->] Ex; by apply lhex_cut in Ex; try (unfold is_lhex; lia).
  - intros x c u v _ _ Ex. destruct (lhex_head x) as (d & w & Hx & Hd). rewrite Hx in Ex. injection Ex as -> _. unfold is_lhex in Hd. lia.
Qed.

(** ** Items *)
Lemma bytes_of_cons c s : bytes_of (String c s) = Ascii.N_of_ascii c :: bytes_of s.
Proof. done. Qed.
Lemma bytes_of_app (a b : string) : bytes_of (a +:+ b) = bytes_of a ++ bytes_of b.
Proof. induction a as [|c a IH]; [done|]. change (bytes_of (String c (a +:+ b)) = bytes_of (String c a) ++ bytes_of b). rewrite !bytes_of_cons, IH. done. Qed.
Lemma pretty_char d : d < 10 -> Ascii.N_of_ascii (pretty_N_char d) = 48 + d.
Proof. intros H. assert (d = 0 \/ d = 1 \/ d = 2 \/ d = 3 \/ d = 4 \/ d = 5 \/ d = 6 \/ d = 7 \/ d = 8 \/ d = 9) as Hd by lia. repeat destruct Hd as [->|Hd]; [done..|]. by subst. Qed.
Lemma pretty_go f : forall n s, 0 < n -> n < 10 ^ N.of_nat f -> bytes_of (pretty_N_go n s) = itoa_fuel f n ++ bytes_of s.
Proof.
  induction f as [|f IH]; intros n s H0 Hn; [cbn in Hn; lia|]. rewrite pretty_N_go_step by done. cbn [itoa_fuel].
  rewrite Nat2N.inj_succ, N.pow_succ_r' in Hn. destruct (N.ltb_spec n 10) as [H|H].
  - rewrite N.div_small, N.mod_small, pretty_N_go_0, bytes_of_cons, pretty_char by done. done.
  - assert (n / 10 <> 0) by (intros Hq; apply N.div_small_iff in Hq; lia).
    rewrite IH; [|lia|apply N.div_lt_upper_bound; lia]. rewrite <- app_assoc. cbn [app].
    rewrite bytes_of_cons, pretty_char by (by apply N.mod_lt). done.
Qed.
Lemma pretty_itoa (n : N) : bytes_of (pretty n) = itoa n.
Proof.
  unfold pretty, pretty_N. destruct (decide (n = 0)) as [->|H]; [done|]. unfold itoa.
  rewrite (pretty_go (S (N.size_nat n))); [by rewrite app_nil_r|lia|].
  rewrite Nat2N.inj_succ, N.pow_succ_r'. pose proof (size_nat_bound n).
  assert (2 ^ N.of_nat (N.size_nat n) <= 10 ^ N.of_nat (N.size_nat n)) by (apply N.pow_le_mono_l; lia). lia.
Qed.
Lemma item_string_itoa i : item_string i = string_of_rune (it_letter i) ++ itoa (it_id i) ++ 95 :: itoa (it_parent i) ++ 95 :: itoa (it_variants i).
Proof. unfold item_string. by rewrite !bytes_of_app, !pretty_itoa. Qed.
Lemma letter_cut a b s t : string_of_rune a ++ s = string_of_rune b ++ t -> shown_letter a = shown_letter b /\ s = t.
Proof.
  intros E. pose proof (rune_cut a b s t E) as [_ Hs]. apply (f_equal runes_of_string) in E. rewrite !rune_decode in E. by injection E.
Qed.
Lemma l_C70_item : forall i j, item_string i = item_string j <->
  shown_letter (it_letter i) = shown_letter (it_letter j) /\ it_id i = it_id j /\ it_parent i = it_parent j /\ it_variants i = it_variants j.
Proof.
  intros i j. rewrite !item_string_itoa. split.
  - intros E. apply letter_cut in E as [El E]. apply itoa_cut in E as (Ei & _ & E); [|unfold is_dig; lia..].
    apply itoa_cut in E as (Ep & _ & E); [|unfold is_dig; lia..]. by apply itoa_inj in E.
  - intros (El & -> & -> & ->). unfold string_of_rune. unfold shown_letter in El. by rewrite El.
Qed.

(** ** Maps *)
Definition entry (p : Z * N) : list N := bytes_of "`" ++ string_of_rune p.1 ++ bytes_of "`:" ++ itoa p.2.
Lemma shown_scalar a b : scalar a -> scalar b -> shown_letter a = shown_letter b -> a = b.
Proof. intros Ha Hb. unfold shown_letter. by rewrite !scalar_valid. Qed.
Lemma entries_cut l k : Forall (fun p => scalar p.1) l -> Forall (fun p => scalar p.1) k ->
  join_with (bytes_of ",") (map entry l) ++ [41] = join_with (bytes_of ",") (map entry k) ++ [41] -> l = k.
Proof.
  intros Hl Hk E. apply (join_cut_map (fun p => scalar p.1) entry 41) in E; [by destruct E|done| | |done|done].
  - intros [a n] [b m] x y s t Ha Hb Hx Hy. unfold entry. cbn [fst snd] in *. rewrite <- !app_assoc. intros Ex. apply app_inv_head in Ex.
    apply letter_cut in Ex as [El Ex]. apply shown_scalar in El; [|done..]. apply app_inv_head in Ex.
    destruct Hx as [-> | ->], Hy as [-> | ->]; apply itoa_cut in Ex as (-> & Ec & Ex); try (unfold is_dig; lia); subst; done.
  - intros p x s t _ _ Ex. done.
Qed.
Lemma l_C70_idmap : forall (m1 m2 : gmap Z N) o1 o2, o1 ≡ₚ map_to_list m1 -> o2 ≡ₚ map_to_list m2 ->
  (forall r id, m1 !! r = Some id -> scalar r) -> (forall r id, m2 !! r = Some id -> scalar r) ->
  (idmap_string o1 = idmap_string o2 <->
   o1 = o2 /\ (size m1 < 10)%nat \/ (10 <= size m1)%nat /\ size m1 = size m2).
Proof.
  intros m1 m2 o1 o2 H1 H2 S1 S2.
  assert (HF : forall (m : gmap Z N) o, o ≡ₚ map_to_list m -> (forall r id, m !! r = Some id -> scalar r) -> Forall (fun p => scalar p.1) o /\ length o = size m).
  { clear. intros m o H S. split; [|by rewrite H]. rewrite H. apply Forall_forall. intros [r id] Hin. apply elem_of_map_to_list in Hin. by apply S in Hin. }
  destruct (HF m1 o1 H1 S1) as [F1 L1], (HF m2 o2 H2 S2) as [F2 L2]. unfold idmap_string. rewrite L1, L2. split.
  - intros E. apply app_inv_head in E. destruct (Nat.ltb_spec (size m1) 10) as [C1|C1], (Nat.ltb_spec (size m2) 10) as [C2|C2].
    + left. split; [|done]. by apply entries_cut.
    + exfalso. destruct o1 as [|p [|q o1]]; discriminate E.
    + exfalso. destruct o2 as [|p [|q o2]]; discriminate E.
    + right. split; [done|]. rewrite <- !app_assoc in E. apply app_inv_head in E. change (bytes_of ")") with [41] in E. apply itoa_cut in E as (E & _); [|unfold is_dig; lia..].
      unfold lenN in E. lia.
  - intros [[-> Hs]|[Hs E]].
    + rewrite L2 in L1. by rewrite <- L1.
    + rewrite <- E. destruct (Nat.ltb_spec (size m1) 10) as [C1|_]; [lia|]. assert (lenN o1 = lenN o2) as -> by (unfold lenN; lia). done.
Qed.

(** ** pkg/opencorpora *)
Lemma ok_eq {A} (a b : A) : Ok a = Ok b -> a = b.
Proof. by intros [= ->]. Qed.
Lemma deref_ok {A B} (f : A -> res B) l bs : deref_all f l = Ok bs -> exists l', l = map Some l' /\ Forall2 (fun a b => f a = Ok b) l' bs.
Proof.
  revert bs. induction l as [|[a|] l IH]; intros bs E; cbn in E.
  - injection E as <-. by exists [].
  - destruct (f a) as [b| |] eqn:Ef; [|done|done]. cbn in E. destruct (deref_all f l) as [bs'| |]; [|done|done]. cbn in E. injection E as <-.
    destruct (IH bs' eq_refl) as (l' & -> & H). exists (a :: l'). split; [done|]. by constructor.
  - done.
Qed.
Lemma deref_some {A B} (f : A -> B) l : deref_all (fun a => Ok (f a)) (map Some l) = Ok (map f l).
Proof. induction l as [|a l IH]; [done|]. cbn. by rewrite IH. Qed.
Lemma deref_names l : deref_all Ok (map (@Some (list N)) l) = Ok l.
Proof. induction l as [|a l IH]; [done|]. cbn. by rewrite IH. Qed.
Lemma deref_panic {A B} (f : A -> res B) l : (forall a, a ∈ omap id l -> f a <> Panic /\ forall e, f a <> Err e) ->
  deref_all f l = Panic <-> None ∈ l.
Proof.
  induction l as [|[a|] l IH]; intros Hf; cbn.
  - split; [done|]. by intros H%elem_of_nil.
  - destruct (Hf a) as [Hp He]; [by left|]. destruct (f a) as [b|e|] eqn:Ef; [|by destruct (He e)|done]. cbn.
    rewrite elem_of_cons. rewrite <- IH by (intros x Hx; apply Hf; by right).
    destruct (deref_all f l) as [bs|e|]; cbn; (split; [intros H; by right|intros [H|H]; done]).
  - split; [by left|done].
Qed.
Lemma l_C70_nil : forall c, (categories_string c = Panic <-> None ∈ c) /\ (category_names c = Panic <-> None ∈ c) /\
  (forall w, word_form_string (mkWordForm w c) = Panic <-> None ∈ c) /\
  (forall ns, category_names c = Ok ns <-> c = map Some ns).
Proof.
  intros c. assert (H : deref_all Ok c = Panic <-> None ∈ c) by (apply deref_panic; done).
  split; [|split; [exact H|split]].
  - unfold categories_string. rewrite <- H. destruct (deref_all Ok c); cbn; done.
  - intros w. unfold word_form_string. cbn [wf_g wf_form]. rewrite <- H. destruct (deref_all Ok c); cbn; done.
  - intros ns. unfold category_names. split.
    + intros E. apply deref_ok in E as (l' & -> & Hl). f_equal. clear H. induction Hl as [|a b l k E Hl IH]; [done|]. injection E as ->. by rewrite IH.
    + intros ->. apply deref_names.
Qed.
(** A string without the byte [c]. *)
Lemma without c (s : list N) : c ∉ s -> Forall (fun d => d <> c) s.
Proof. intros H. apply Forall_forall. by intros d Hd ->. Qed.
Lemma byte_cut c (a b s t : list N) : c ∉ a -> c ∉ b -> a ++ c :: s = b ++ c :: t -> a = b /\ s = t.
Proof.
  intros Ha Hb E. apply (span_split (fun d => d <> c)) in E as (-> & _ & ->); [done|by apply without|by apply without|exact (fun H => H eq_refl)|exact (fun H => H eq_refl)].
Qed.
Lemma names_cut l k s t : Forall tidy l -> Forall tidy k -> join_with (bytes_of ",") l ++ 41 :: s = join_with (bytes_of ",") k ++ 41 :: t -> l = k /\ s = t.
Proof.
  intros Hl Hk E. apply (join_cut_map tidy (fun x => x) 41); [done| | |done|done|by rewrite !map_id].
  - intros a b x y u v (_ & A1 & A2) (_ & B1 & B2) Hx Hy Ex.
    apply (span_split (fun d => d <> 41 /\ d <> 44)) in Ex; [done| | | |].
    + apply Forall_forall. intros d Hd. by split; intros ->.
    + apply Forall_forall. intros d Hd. by split; intros ->.
    + destruct Hx as [-> | ->]; intros [H1 H2]; [exact (H2 eq_refl)|exact (H1 eq_refl)].
    + destruct Hy as [-> | ->]; intros [H1 H2]; [exact (H2 eq_refl)|exact (H1 eq_refl)].
  - intros [|d a] x u v (Hn & A1 & _) _ Ex; [done|]. injection Ex as -> _. apply A1. by left.
Qed.
Lemma l_C70_dag_tagset : forall s t, Forall (fun x => tidy (tag_name x)) s -> Forall (fun x => tidy (tag_name x)) t ->
  dag_tagset_string s = dag_tagset_string t <-> map tag_name s = map tag_name t.
Proof.
  intros s t Hs Ht. unfold dag_tagset_string. split; [|by intros ->]. intros E.
  apply (names_cut _ _ [] []); [by apply Forall_map|by apply Forall_map|by rewrite E].
Qed.
Lemma l_C70_categories : forall s t, Forall tidy s -> Forall tidy t ->
  categories_string (map Some s) = categories_string (map Some t) <-> s = t.
Proof.
  intros s t Hs Ht. unfold categories_string. rewrite !deref_names. cbn [mbind res_bind]. split; [|by intros ->]. intros E. apply ok_eq in E.
  apply (names_cut _ _ [] []); [done|done|by rewrite E].
Qed.
Lemma form_cut x y s t a b : tidy_form x -> tidy_form y -> word_form_string x = Ok a -> word_form_string y = Ok b -> a ++ s = b ++ t -> x = y /\ s = t.
Proof.
  intros (Hx & ns & Ex & Hns) (Hy & ms & Ey & Hms). unfold word_form_string. rewrite Ex, Ey, !deref_names. cbn [mbind res_bind].
  intros Ha Hb E. apply ok_eq in Ha as <-. apply ok_eq in Hb as <-. destruct x as [w1 g1], y as [w2 g2]. cbn [wf_form wf_g] in *. subst g1 g2.
  rewrite <- !app_assoc in E. apply app_inv_head in E. apply byte_cut in E as [-> E]; [|done..].
  apply names_cut in E as [-> ->]; [done|done|done].
Qed.
Lemma l_C70_form : forall x y, tidy_form x -> tidy_form y -> word_form_string x = word_form_string y <-> x = y.
Proof.
  intros x y Hx Hy. split; [|by intros ->]. intros E. destruct (word_form_string x) as [a| |] eqn:Ea.
  - by apply (form_cut x y [] [] a a).
  - destruct Hx as (_ & ns & Ex & _). unfold word_form_string in Ea. by rewrite Ex, deref_names in Ea.
  - destruct Hx as (_ & ns & Ex & _). unfold word_form_string in Ea. by rewrite Ex, deref_names in Ea.
Qed.
Lemma grammeme_cut g h s t : tidy_grammeme g -> tidy_grammeme h -> grammeme_string g ++ s = grammeme_string h ++ t -> g = h /\ s = t.
Proof.
  intros (A1 & A2 & A3 & A4) (B1 & B2 & B3 & B4). destruct g as [p n al d], h as [p' n' al' d']. unfold grammeme_string. cbn [gr_name gr_parent gr_alias gr_desc] in *.
  rewrite <- !app_assoc. intros E. apply app_inv_head in E. apply byte_cut in E as [-> E]; [|done..]. apply byte_cut in E as [-> E]; [|done..].
  apply byte_cut in E as [-> E]; [|done..]. by apply byte_cut in E as [-> ->].
Qed.
Lemma l_C70_grammemes : forall k l, Forall tidy_grammeme k -> Forall tidy_grammeme l ->
  grammemes_string (map Some k) = grammemes_string (map Some l) <-> k = l.
Proof.
  intros k l Hk Hl. unfold grammemes_string. rewrite !deref_some. cbn [mbind res_bind]. split; [|by intros ->]. intros E. apply ok_eq in E. apply app_inv_head in E.
  apply (join_cut_map tidy_grammeme grammeme_string 41) in E; [by destruct E|done| | |done|done].
  - intros a b x y s t Ha Hb _ _ Ex. apply grammeme_cut in Ex as [-> Ex]; [|done..]. by injection Ex.
  - intros a x s t _ _ Ex. done.
Qed.
Definition ftext (x : word_form) : list N := match word_form_string x with Ok s => s | _ => [] end.
Lemma tidy_text x : tidy_form x -> word_form_string x = Ok (ftext x).
Proof. intros (_ & ns & Ex & _). unfold ftext, word_form_string. rewrite Ex, deref_names. done. Qed.
Lemma tidy_texts fs : Forall tidy_form fs -> deref_all word_form_string (map Some fs) = Ok (map ftext fs).
Proof. induction 1 as [|x fs Hx Hf IH]; [done|]. cbn. rewrite (tidy_text x Hx). cbn. by rewrite IH. Qed.
Lemma l_C70_lemma : forall k l, tidy_lemma k -> tidy_lemma l -> lemma_string k = lemma_string l <-> k = l.
Proof.
  intros [i1 r1 b1 f1] [i2 r2 b2 f2] (B1 & fs1 & E1 & F1) (B2 & fs2 & E2 & F2). cbn [fl_l fl_f] in *. subst f1 f2. unfold lemma_string. cbn [fl_l fl_f fl_id fl_rev].
  rewrite !tidy_texts by done. rewrite !tidy_text by done. cbn [mbind res_bind]. split; [|intros E; injection E as -> -> -> E; by assert (fs1 = fs2) as -> by (by apply (inj (fmap Some)))]. intros E. apply ok_eq in E.
  apply app_inv_head in E. change (bytes_of ",") with [44] in E. cbn [app] in E. apply fmt_d_cut in E as (-> & _ & E); [|unfold is_dig; lia..]. apply fmt_d_cut in E as (-> & _ & E); [|unfold is_dig; lia..].
  apply (form_cut b1 b2 _ _ _ _ B1 B2 (tidy_text b1 B1) (tidy_text b2 B2)) in E as [-> E]. apply app_inv_head in E.
  destruct (join_cut_map tidy_form ftext 41) with (l := fs1) (k := fs2) (s := @nil N) (t := @nil N) as [-> _]; [done| | |done|done|change (bytes_of ",") with [44]; by rewrite E|done].
  - intros x y c d s t Hx Hy _ _ Ex. apply (form_cut x y _ _ _ _ Hx Hy (tidy_text x Hx) (tidy_text y Hy)) in Ex as [-> Ex]. by injection Ex.
  - intros x c s t (_ & ns & Ex & _) _. unfold ftext, word_form_string. rewrite Ex, deref_names. cbn [mbind res_bind]. done.
Qed.
