(** Proofs about the format of the index file (C67). *)
From Coq Require Import ZifyBool ZifyNat ZifyN.
From Verif Require Import Base Storage Bin Utf8 Tags TagSets Variants Items Index Spec Hist BaseFacts BinFacts CodecFacts
  Intern TrieFacts NoteFacts HistFacts ReloadFacts QueryFacts ThmConc ThmDisk Foreign ThmForeign FileSpec.
From stdpp Require Import list gmap.
Open Scope N_scope.
Ltac Zify.zify_post_hook ::= Z.div_mod_to_equations.

(** [r] accepts exactly the byte strings with a prefix in [F]. *)
Definition reads {A} (r : reader A) (F : form A) : Prop :=
  forall bs, bytes bs -> forall a rest, r bs = Ok (a, rest) <-> exists p, bs = p ++ rest /\ F a p.
Definition nonempty {A} (F : form A) : Prop := forall a p, F a p -> p <> [].

Lemma reads_wrap {A} e (r : reader A) F : reads r F -> reads (rwrap e r) F.
Proof. intros H bs Hb a rest. rewrite <- (H bs Hb). unfold rwrap, wrap_err. destruct (r bs) as [x| |]; done. Qed.
Lemma bytes_app a b : bytes (a ++ b) <-> bytes a /\ bytes b.
Proof. apply Forall_app. Qed.
(** Reading one thing after another. *)
Lemma reads_bind {A B} (r : reader A) (F : form A) (f : A -> reader B) (G : A -> form B) :
  reads r F -> (forall a p, F a p -> bytes p -> reads (f a) (G a)) -> reads (r ≫= f) (fun b p => exists a p1 p2, p = p1 ++ p2 /\ F a p1 /\ G a b p2).
Proof.
  intros Hr Hf bs Hb b rest. unfold mbind, reader_bind. split.
  - destruct (r bs) as [[a rest1]| |] eqn:E; try done. apply (Hr bs Hb) in E as (p1 & -> & H1). intros E.
    apply bytes_app in Hb as [B1 B2]. apply (Hf a p1 H1 B1 _ B2) in E as (p2 & -> & H2). exists (p1 ++ p2). rewrite <- app_assoc. split; [done|]. by exists a, p1, p2.
  - intros (p & -> & a & p1 & p2 & -> & H1 & H2). rewrite <- app_assoc in *. apply bytes_app in Hb as Hb'. destruct Hb' as [B1 B2].
    rewrite (proj2 (Hr _ Hb a (p2 ++ rest))) by (by exists p1). apply (Hf a p1 H1 B1 _ B2). by exists p2.
Qed.
Lemma reads_ret {A} (x : A) : reads (mret x) (fun a p => a = x /\ p = []).
Proof.
  intros bs _ a rest. unfold mret, reader_ret. split.
  - intros [= <- <-]. by exists [].
  - by intros (p & -> & -> & ->).
Qed.
Lemma reads_ext {A} (r : reader A) (F G : form A) : (forall a p, bytes p -> F a p <-> G a p) -> reads r F -> reads r G.
Proof.
  intros E H bs Hb a rest. rewrite (H bs Hb). split; intros (p & -> & Hp); exists p; (split; [done|]); apply bytes_app in Hb as [B _]; by apply E.
Qed.
Lemma reads_u8 : reads get_u8 (number 1).
Proof.
  intros bs Hb a rest. split.
  - destruct bs as [|b bs]; [done|]. intros [= <- <-]. exists [b]. split; [done|]. done.
  - intros (p & -> & Hl & Ha). destruct p as [|b [|? ?]]; try done. subst a. done.
Qed.
Lemma reads_u16 : reads get_u16 (number 2).
Proof.
  intros bs Hb a rest. unfold get_u16, get_u8, mbind, reader_bind, mret, reader_ret. split.
  - destruct bs as [|b [|c bs]]; try done. intros [= <- <-]. exists [b; c]. split; [done|]. split; [done|]. unfold be. cbn [fold_left]. lia.
  - intros (p & -> & Hl & Ha). destruct p as [|b [|c [|? ?]]]; try done. cbn [app]. f_equal. f_equal. unfold be in Ha. cbn [fold_left] in Ha. lia.
Qed.
Lemma reads_u32 : reads get_u32 (number 4).
Proof.
  intros bs Hb a rest. split.
  - intros (b & c & d & e & -> & ->)%get_u32_inv. by eexists.
  - intros (p & -> & Hl & Ha). destruct p as [|b [|c [|d [|e [|? ?]]]]]; try done.
    unfold get_u32, get_u8, mbind, reader_bind, mret, reader_ret. cbn [app]. f_equal. f_equal. unfold be in Ha. cbn [fold_left] in Ha. lia.
Qed.
Lemma reads_fuel {A} (r : reader A) F : reads r F -> nonempty F -> forall fuel n bs, bytes bs -> (length bs < fuel)%nat -> forall xs rest,
  read_fuel fuel r n bs = Ok (xs, rest) <-> n = lenN xs /\ exists parts, bs = concat parts ++ rest /\ Forall2 F xs parts.
Proof.
  intros Hr Hne. induction fuel as [|fuel IH]; intros n bs Hb Hl xs rest; [lia|]. cbn [read_fuel].
  destruct (N.eqb_spec n 0) as [->|Hn].
  - split.
    + intros [= <- <-]. split; [done|]. by exists [].
    + intros (E & parts & -> & H2). destruct H2; [done|]. rewrite lenN_cons in E. lia.
  - split.
    + destruct (r bs) as [[x rest1]| |] eqn:E; try done. destruct (read_fuel fuel r (n - 1) rest1) as [[ys rest2]| |] eqn:E2; try done. intros [= <- <-].
      apply (Hr bs Hb) in E as (p & -> & Hp). apply bytes_app in Hb as [_ B]. pose proof (Hne _ _ Hp) as Hp'.
      rewrite app_length in Hl. assert (length p <> 0%nat) by (by destruct p). apply IH in E2 as (En & parts & -> & H2); [|done|lia].
      rewrite lenN_cons. split; [lia|]. exists (p :: parts). cbn [concat]. rewrite <- app_assoc. split; [done|by constructor].
    + intros (E & parts & -> & H2). destruct H2 as [|x p xs parts Hx H2]; [done|]. cbn [concat] in *. rewrite <- app_assoc in *.
      rewrite (proj2 (Hr _ Hb x (concat parts ++ rest))) by (by exists p). apply bytes_app in Hb as [_ B]. pose proof (Hne _ _ Hx) as Hp'.
      rewrite app_length in Hl. assert (length p <> 0%nat) by (by destruct p). rewrite lenN_cons in E.
      assert (Hlt : (length (concat parts ++ rest) < fuel)%nat) by lia.
      assert (E3 : read_fuel fuel r (n - 1) (concat parts ++ rest) = Ok (xs, rest)) by (apply (IH _ _ B Hlt); split; [lia|by exists parts]).
      by rewrite E3.
Qed.
Lemma reads_counted {A} e1 e2 w (r0 : reader N) (r : reader A) F : reads r0 (number w) -> reads r F -> nonempty F ->
  reads (n ← rwrap e1 r0; rwrap e2 (read_many r n)) (counted w F).
Proof.
  intros H0 Hr Hne.
  apply (reads_ext _ (fun xs p => exists n p1 p2, p = p1 ++ p2 /\ number w n p1 /\ (n = lenN xs /\ exists parts, p2 = concat parts /\ Forall2 F xs parts))).
  { intros xs p _. unfold counted. split.
    - intros (n & p1 & p2 & -> & H1 & -> & parts & -> & H2). by exists p1, parts.
    - intros (p1 & parts & -> & H1 & H2). eexists _, p1, (concat parts). split; [done|]. split; [exact H1|]. split; [done|]. by exists parts. }
  apply (reads_bind (rwrap e1 r0) (number w) (fun n => rwrap e2 (read_many r n)) (fun n xs p2 => n = lenN xs /\ exists parts, p2 = concat parts /\ Forall2 F xs parts)).
  { by apply reads_wrap. }
  intros n p _ _. apply reads_wrap. intros bs Hb xs rest. unfold read_many. rewrite (reads_fuel r F Hr Hne) by (done || lia). split.
  - intros (-> & parts & -> & H2). exists (concat parts). split; [done|]. split; [done|]. by exists parts.
  - intros (p2 & -> & -> & parts & -> & H2). split; [done|]. by exists parts.
Qed.
Lemma nonempty_number w : nonempty (number (S w)).
Proof. intros a p [H _] ->. done. Qed.
Lemma nonempty_counted {A} w (F : form A) : nonempty (counted (S w) F).
Proof. intros a p (c & parts & -> & H & _). apply nonempty_number in H. by destruct c. Qed.
Lemma reads_name : reads name_read tag_name_form.
Proof.
  intros bs Hb g rest. unfold name_read, mbind, reader_bind, rlift. split.
  - destruct bs as [|b [|c [|d [|e bs]]]]; try done.
    change (rwrap EGrammar get_bytes4 (b :: c :: d :: e :: bs)) with (@Ok (list N * list N) ([b; c; d; e], bs)). cbv iota.
    rewrite name_unmarshal_spec, decide_True by done. intros H. injection H as <- <-. exists [b; c; d; e]. done.
  - intros (p & -> & Hl & ->). unfold rwrap. rewrite get_bytes4_app by done. cbn [wrap_err].
    rewrite name_unmarshal_spec, decide_True by done. done.
Qed.
Definition tag_pair (t : tag) : list N * list N := (tag_parent t, tag_name t).
Definition node_quad (i : item) : N * N * Z * N := (it_parent i, it_id i, it_letter i, it_variants i).
Lemma reads_tag : reads tag_read (fun t => tag_form (tag_pair t)).
Proof.
  apply (reads_ext _ (fun t p => exists a p1 p2, p = p1 ++ p2 /\ tag_name_form a p1 /\ exists b p3 p4, p2 = p3 ++ p4 /\ tag_name_form b p3 /\ (t = mkTag a b /\ p4 = []))).
  - intros t p _. unfold tag_form. split.
    + intros (a & p1 & p2 & -> & H1 & b & p3 & p4 & -> & H2 & -> & ->). exists p1, p3. by rewrite app_nil_r.
    + intros (p1 & p2 & -> & H1 & H2). destruct t as [a b]. exists a, p1, p2. split; [done|]. split; [done|]. exists b, p2, []. by rewrite app_nil_r.
  - unfold tag_read. apply (reads_bind (rwrap EGrammar name_read) tag_name_form _ (fun a t p2 => exists b p3 p4, p2 = p3 ++ p4 /\ tag_name_form b p3 /\ (t = mkTag a b /\ p4 = []))).
    { apply reads_wrap, reads_name. }
    intros a p _ _. apply (reads_bind (rwrap EGrammar name_read) tag_name_form _ (fun b t p4 => t = mkTag a b /\ p4 = [])).
    { apply reads_wrap, reads_name. }
    intros b p' _ _. apply reads_ret.
Qed.
Lemma signed_rune l : rune_of_u32 l = signed32 l.
Proof. done. Qed.
Lemma reads_node : reads item_read (fun i => node_form (node_quad i)).
Proof.
  intros bs Hb i rest. split.
  - unfold item_read. intros H.
    apply rbind_inv in H as (p & b1 & E1 & H). apply rbind_inv in H as (n & b2 & E2 & H).
    apply rbind_inv in H as (l & b3 & E3 & H). apply rbind_inv in H as (v & b4 & E4 & H).
    injection H as <- <-.
    apply (reads_u32 _ Hb) in E1 as (p1 & -> & H1). apply bytes_app in Hb as [_ Hb].
    apply (reads_u32 _ Hb) in E2 as (p2 & -> & H2). apply bytes_app in Hb as [_ Hb].
    apply (reads_u32 _ Hb) in E3 as (p3 & -> & H3). apply bytes_app in Hb as [_ Hb].
    apply (reads_u32 _ Hb) in E4 as (p4 & -> & H4). exists (p1 ++ p2 ++ p3 ++ p4). rewrite <- !app_assoc. split; [done|].
    by exists p1, p2, p3, p4, l.
  - intros (p & -> & p1 & p2 & p3 & p4 & l & -> & H1 & H2 & H3 & Hl & H4). rewrite <- !app_assoc in *. destruct i as [a b c d]. cbn in *.
    unfold item_read, mbind, reader_bind.
    rewrite (proj2 (reads_u32 _ Hb a (p2 ++ p3 ++ p4 ++ rest))) by (by exists p1). apply bytes_app in Hb as [_ Hb].
    rewrite (proj2 (reads_u32 _ Hb b (p3 ++ p4 ++ rest))) by (by exists p2). apply bytes_app in Hb as [_ Hb].
    rewrite (proj2 (reads_u32 _ Hb l (p4 ++ rest))) by (by exists p3). apply bytes_app in Hb as [_ Hb].
    rewrite (proj2 (reads_u32 _ Hb d rest)) by (by exists p4). unfold mret, reader_ret. by rewrite signed_rune, Hl.
Qed.
Lemma nonempty_tag : nonempty (fun t => tag_form (tag_pair t)).
Proof. intros t p (p1 & p2 & -> & [H _] & _) E. apply app_eq_nil in E as [-> _]. done. Qed.
Lemma nonempty_node : nonempty (fun t => node_form (node_quad t)).
Proof. intros t p (p1 & p2 & p3 & p4 & l & -> & [H _] & _) E. apply app_eq_nil in E as [-> _]. done. Qed.
Lemma reads_sets : reads tagset_index_read (counted 4 (counted 2 (counted 1 (number 1)))).
Proof.
  apply reads_counted; [apply reads_u32| |apply nonempty_counted].
  apply reads_counted; [apply reads_u16| |apply nonempty_counted].
  apply reads_counted; [apply reads_u8|apply reads_u8|apply nonempty_number].
Qed.
Lemma reads_cols : reads variants_read (counted 1 (counted 4 (counted 1 (number 4)))).
Proof.
  apply reads_counted; [apply reads_u8| |apply nonempty_counted].
  apply reads_counted; [apply reads_u32| |apply nonempty_counted].
  apply reads_counted; [apply reads_u8|apply reads_u32|apply nonempty_number].
Qed.
Lemma reads_tags : reads tags_read (counted 1 (fun t => tag_form (tag_pair t))).
Proof. apply reads_counted; [apply reads_u8|apply reads_tag|apply nonempty_tag]. Qed.
Lemma reads_section sec : Forall (fun b => b <> 0) sec -> reads (read_section sec) (fun _ p => p = put_stringz sec).
Proof.
  intros Hs bs Hb [] rest. split.
  - intros H. pose proof H as H'. unfold read_section in H. apply rbind_inv in H as (s & b1 & E & H). apply wrap_ok in E.
    unfold str_eqb in H. case_bool_decide as Es; [|done]. subst s. injection H as <-.
    exists (put_stringz sec). split; [|done]. clear Hb H' Hs. revert bs E. induction sec as [|c sec IH]; intros bs E.
    + destruct bs as [|b bs]; [done|]. cbn in E. destruct (N.eqb_spec b 0) as [->|]; [by injection E as ->|]. by destruct (get_stringz bs) as [[]| |].
    + destruct bs as [|b bs]; [done|]. cbn in E. destruct (N.eqb_spec b 0) as [->|]; [done|].
      destruct (get_stringz bs) as [[s r]| |] eqn:E2; try done. injection E as -> -> ->. cbn. f_equal. by apply IH.
  - intros (p & -> & ->). by apply section_round.
Qed.
Definition items_of_read (x : items) (p : list N) : Prop := counted 4 (fun t => node_form (node_quad t)) (its_list x) p /\ its_next x = lenN (its_list x).
Lemma reads_items : reads items_read items_of_read.
Proof.
  intros bs Hb x rest. unfold items_read. split.
  - intros H. apply rbind_inv in H as (n & b1 & E1 & H). apply rbind_inv in H as (l & b2 & E2 & H). injection H as <- <-.
    apply (reads_u32 _ Hb) in E1 as (p1 & -> & H1). apply bytes_app in Hb as [_ Hb].
    apply (reads_fuel _ _ reads_node nonempty_node) in E2 as (-> & parts & -> & H2); [|done|lia].
    exists (p1 ++ concat parts). rewrite <- app_assoc. split; [done|]. split; [|done]. by exists p1, parts.
  - intros (p & -> & (p1 & parts & -> & H1 & H2) & Hn). rewrite <- app_assoc in *. destruct x as [l n]. cbn [its_list its_next] in *. subst n.
    unfold mbind, reader_bind. rewrite (proj2 (reads_u32 _ Hb (lenN l) (concat parts ++ rest))) by (by exists p1). apply bytes_app in Hb as [_ Hb].
    unfold read_many.
    assert (E3 : read_fuel (S (length (concat parts ++ rest))) item_read (lenN l) (concat parts ++ rest) = Ok (l, rest)).
    { apply (reads_fuel _ _ reads_node nonempty_node); [done|lia|]. split; [done|by exists parts]. }
    by rewrite E3.
Qed.

Definition content_of (ix : Index.index) : content :=
  mkContent (map tag_pair (ix_tags ix)) (ix_sets ix) (ix_cols ix) (map node_quad (its_list (ix_items ix))).
Lemma counted_map {A B} w (f : A -> B) (F : form B) xs p : counted w (fun a => F (f a)) xs p <-> counted w F (map f xs) p.
Proof.
  unfold counted. rewrite map_length. split; intros (c & parts & -> & H1 & H2); exists c, parts; (split; [done|]); (split; [done|]).
  - change (map f xs) with (f <$> xs). by rewrite Forall2_fmap_l.
  - change (map f xs) with (f <$> xs) in H2. by rewrite Forall2_fmap_l in H2.
Qed.
(** The reader accepts exactly the files of the grammar. *)
Lemma l_C67_reader : forall ix0 bs rest c, bytes bs ->
  (exists ix, index_read ix0 bs = Ok (ix, rest) /\ content_of ix = c) <-> (exists p, bs = p ++ rest /\ file_form c p).
Proof.
  intros ix0 bs rest c Hb.
  assert (S1 : Forall (fun b => b <> 0) sec_tags) by nz. assert (S2 : Forall (fun b => b <> 0) sec_sets) by nz.
  assert (S3 : Forall (fun b => b <> 0) sec_cols) by nz. assert (S4 : Forall (fun b => b <> 0) sec_items) by nz.
  split.
  - intros (ix & H & <-). unfold index_read in H.
    apply rbind_inv in H as (tags & b1 & E1 & H). apply rbind_inv in H as (sets & b2 & E2 & H).
    apply rbind_inv in H as (cols & b3 & E3 & H). apply rbind_inv in H as (its & b4 & E4 & H).
    apply wrap_ok in E1, E2, E3.
    apply rbind_inv in E1 as ([] & c1 & F1 & E1). apply rbind_inv in E2 as ([] & c2 & F2 & E2).
    apply rbind_inv in E3 as ([] & c3 & F3 & E3). apply rbind_inv in E4 as ([] & c4 & F4 & E4). apply wrap_ok in E1, E2, E3, E4.
    apply (reads_section _ S1 _ Hb) in F1 as (? & -> & ->). apply bytes_app in Hb as [_ Hb].
    apply (reads_tags _ Hb) in E1 as (p1 & -> & P1). apply bytes_app in Hb as [_ Hb].
    apply (reads_section _ S2 _ Hb) in F2 as (? & -> & ->). apply bytes_app in Hb as [_ Hb].
    apply (reads_sets _ Hb) in E2 as (p2 & -> & P2). apply bytes_app in Hb as [_ Hb].
    apply (reads_section _ S3 _ Hb) in F3 as (? & -> & ->). apply bytes_app in Hb as [_ Hb].
    apply (reads_cols _ Hb) in E3 as (p3 & -> & P3). apply bytes_app in Hb as [_ Hb].
    apply (reads_section _ S4 _ Hb) in F4 as (? & -> & ->). apply bytes_app in Hb as [_ Hb].
    apply (reads_items _ Hb) in E4 as (p4 & -> & P4 & _). destruct (rebuild _ _ _) as [m wc]. injection H as <- <-.
    eexists. rewrite !app_assoc. split; [done|]. rewrite <- !app_assoc. exists p1, p2, p3, p4. split; [done|].
    cbn [content_of c_tags c_sets c_cols c_nodes ix_tags ix_sets ix_cols ix_items]. split; [exact (proj1 (counted_map 1 tag_pair tag_form _ _) P1)|]. split; [exact P2|]. split; [exact P3|]. exact (proj1 (counted_map 4 node_quad node_form _ _) P4).
  - intros (p & -> & p1 & p2 & p3 & p4 & -> & P1 & P2 & P3 & P4).
    assert (exists tags, map tag_pair tags = c_tags c) as [tags Et].
    { exists (map (fun x => mkTag x.1 x.2) (c_tags c)). rewrite map_map. erewrite map_ext; [apply map_id|]. by intros []. }
    assert (exists its, map node_quad its = c_nodes c) as [its Ei].
    { exists (map (fun x => mkItem x.1.1.1 x.1.1.2 x.1.2 x.2) (c_nodes c)). rewrite map_map. erewrite map_ext; [apply map_id|]. by intros [[[] ?] ?]. }
    rewrite <- Et in P1. rewrite <- Ei in P4. apply (proj2 (counted_map 1 tag_pair tag_form _ _)) in P1. apply (proj2 (counted_map 4 node_quad node_form _ _)) in P4.
    change [84; 68; 0] with (put_stringz sec_tags) in *. change [84; 73; 0] with (put_stringz sec_sets) in *.
    change [67; 68; 0] with (put_stringz sec_cols) in *. change [73; 68; 0] with (put_stringz sec_items) in *.
    rewrite <- !app_assoc in *.
    unfold index_read, mbind, reader_bind, rwrap.
    rewrite section_round by done. apply bytes_app in Hb as [_ Hb].
    rewrite (proj2 (reads_tags _ Hb tags _)) by (by exists p1). apply bytes_app in Hb as [_ Hb]. cbn [wrap_err].
    rewrite section_round by done. apply bytes_app in Hb as [_ Hb].
    rewrite (proj2 (reads_sets _ Hb (c_sets c) _)) by (by exists p2). apply bytes_app in Hb as [_ Hb]. cbn [wrap_err].
    rewrite section_round by done. apply bytes_app in Hb as [_ Hb].
    rewrite (proj2 (reads_cols _ Hb (c_cols c) _)) by (by exists p3). apply bytes_app in Hb as [_ Hb]. cbn [wrap_err].
    rewrite section_round by done. apply bytes_app in Hb as [_ Hb].
    rewrite (proj2 (reads_items _ Hb (mkItems its (lenN its)) _)) by (by exists p4). cbn [wrap_err].
    destruct (rebuild _ _ _) as [m wc]. eexists. split; [reflexivity|]. unfold content_of. cbn [ix_tags ix_sets ix_cols ix_items its_list].
    rewrite Et, Ei. by destruct c.
Qed.
Lemma l_C67_unambiguous : forall c c' p q, bytes (p ++ q) -> file_form c p -> file_form c' (p ++ q) -> c = c' /\ q = [].
Proof.
  intros c c' p q Hb H1 H2.
  destruct (proj2 (l_C67_reader index_new (p ++ q) q c Hb)) as (ix & E & <-); [by exists p|].
  destruct (proj2 (l_C67_reader index_new (p ++ q) [] c' Hb)) as (ix' & E' & <-); [exists (p ++ q); by rewrite app_nil_r|].
  rewrite E in E'. by injection E' as -> ->.
Qed.
Lemma sum_forall2 {A} (F : form A) (f : A -> nat) : (forall a p, F a p -> length p = f a) -> forall xs parts, Forall2 F xs parts -> length (concat parts) = sum (map f xs).
Proof. intros H xs parts. induction 1 as [|x p xs parts Hx _ IH]; [done|]. cbn [concat map]. rewrite app_length, (H _ _ Hx), IH. done. Qed.
Lemma counted_size {A} w (F : form A) (f : A -> nat) : (forall a p, F a p -> length p = f a) -> forall xs p, counted w F xs p -> length p = (w + sum (map f xs))%nat.
Proof. intros H xs p (c & parts & -> & [H1 _] & H2). rewrite app_length, H1. f_equal. by eapply sum_forall2. Qed.
Lemma sum_const {A} (k : nat) (xs : list A) : sum (map (fun _ => k) xs) = (k * length xs)%nat.
Proof. induction xs as [|x xs IH]; [cbn; lia|]. cbn [map]. change (sum (k :: ?l)) with (k + sum l)%nat. rewrite IH. cbn [length]. lia. Qed.
Lemma l_C67_size : forall c p, file_form c p -> length p = file_size c.
Proof.
  intros c p (p1 & p2 & p3 & p4 & -> & H1 & H2 & H3 & H4).
  apply (counted_size _ _ (fun _ => 8%nat)) in H1.
  2:{ intros t q (q1 & q2 & -> & [L1 _] & [L2 _]). rewrite app_length. lia. }
  apply (counted_size _ _ (fun t => 2 + sum (map (fun s => 1 + length s) t))%nat) in H2.
  2:{ intros t q H. apply (counted_size _ _ (fun s => 1 + length s)%nat) in H; [exact H|]. intros s r Hs.
      apply (counted_size _ _ (fun _ => 1%nat)) in Hs; [rewrite sum_const in Hs; lia|]. by intros ? ? [? _]. }
  apply (counted_size _ _ (fun t => 4 + sum (map (fun s => 1 + 4 * length s) t))%nat) in H3.
  2:{ intros t q H. apply (counted_size _ _ (fun s => 1 + 4 * length s)%nat) in H; [exact H|]. intros s r Hs.
      apply (counted_size _ _ (fun _ => 4%nat)) in Hs; [rewrite sum_const in Hs; lia|]. by intros ? ? [? _]. }
  apply (counted_size _ _ (fun _ => 16%nat)) in H4.
  2:{ intros t q (q1 & q2 & q3 & q4 & l & -> & [L1 _] & [L2 _] & [L3 _] & _ & [L4 _]). rewrite !app_length. lia. }
  rewrite sum_const in H1. rewrite sum_const in H4. rewrite !app_length, H1, H2, H3, H4. unfold file_size. cbn [length]. lia.
Qed.

(** ** Writing *)
Lemma bytes_u8 n : bytes (put_u8 n).
Proof. constructor; [|constructor]. unfold wrap8. apply N.mod_lt. done. Qed.
Lemma bytes_u16 n : bytes (put_u16 n).
Proof. unfold bytes, put_u16, wrap8. repeat (constructor; [by apply N.mod_lt|]). constructor. Qed.
Lemma bytes_u32 n : bytes (put_u32 n).
Proof. unfold bytes, put_u32, wrap8. repeat (constructor; [by apply N.mod_lt|]). constructor. Qed.
Lemma bytes_concat {A} (f : A -> list N) l : (forall a, a ∈ l -> bytes (f a)) -> bytes (concat (map f l)).
Proof.
  induction l as [|a l IH]; intros H; [constructor|]. cbn [map concat]. apply bytes_app. split; [apply H; by left|].
  apply IH. intros b Hb. apply H. by right.
Qed.
Lemma bytes_name n : storable_name n -> bytes n -> bytes (name_bytes n).
Proof.
  intros Hs Hb. destruct (proj1 (name_marshal_spec n) Hs) as (bs & E & _ & Eb). unfold name_bytes. rewrite E, Eb.
  destruct (decide _); [|done]. repeat (constructor; [done|]). constructor.
Qed.
Lemma write_bytes ix bs : Forall storable_tag (ix_tags ix) -> Forall (fun t => bytes (tag_parent t) /\ bytes (tag_name t)) (ix_tags ix) ->
  index_write ix = Ok (bs, None) -> bytes bs.
Proof.
  intros Hst Hb. unfold index_write. destruct (items_write (ix_items ix)) as [its| |] eqn:Ei; [|done..].
  unfold mbind, res_bind. rewrite tags_write_ok by done. unfold wthen, wwrap, wok. cbn [fst snd]. intros E.
  apply (f_equal (fun r => match r with Ok (b, _) => b | _ => [] end)) in E. cbv beta iota in E. rewrite <- E. clear E.
  assert (Hsec : forall s, Forall (fun b => b < 256) s -> bytes (put_stringz s)).
  { intros s Hs. apply bytes_app. split; [done|]. by constructor. }
  apply bytes_app. split; [apply bytes_app; split|].
  - apply Hsec. repeat (constructor; [done|]). constructor.
  - apply bytes_app. split; [apply bytes_u8|]. apply bytes_concat. intros t Ht. rewrite Forall_forall in Hst, Hb.
    destruct (Hst t Ht), (Hb t Ht). apply bytes_app. split; by apply bytes_name.
  - apply bytes_app. split; [apply bytes_app; split|apply bytes_app; split; [apply bytes_app; split|apply bytes_app; split]].
    + apply Hsec. repeat (constructor; [done|]). constructor.
    + apply bytes_app. split; [apply bytes_u32|]. apply bytes_concat. intros t _. apply bytes_app. split; [apply bytes_u16|].
      apply bytes_concat. intros s _. apply bytes_app. split; [apply bytes_u8|]. apply bytes_concat. intros x _. apply bytes_u8.
    + apply Hsec. repeat (constructor; [done|]). constructor.
    + apply bytes_app. split; [apply bytes_u8|]. apply bytes_concat. intros t _. apply bytes_app. split; [apply bytes_u32|].
      apply bytes_concat. intros s _. apply bytes_app. split; [apply bytes_u8|]. apply bytes_concat. intros x _. apply bytes_u32.
    + apply Hsec. repeat (constructor; [done|]). constructor.
    + unfold items_write in Ei. destruct (_ <? _); [done|]. apply (f_equal (fun r => match r with Ok b => b | _ => [] end)) in Ei. cbv beta iota in Ei. rewrite <- Ei. apply bytes_app. split; [apply bytes_u32|].
      apply bytes_concat. intros i _. unfold item_write. apply bytes_app; split; [|apply bytes_app; split; [|apply bytes_app; split]]; apply bytes_u32.
Qed.
(** What is in the file of an index. *)
Definition saved_content (ix : Index.index) : content :=
  mkContent (map (fun t => (kept_name (tag_parent t), kept_name (tag_name t))) (ix_tags ix)) (ix_sets ix) (ix_cols ix)
    (map node_quad (take (N.to_nat (its_next (ix_items ix))) (its_list (ix_items ix)))).
Lemma kept_norm n : kept_name n = name_norm n.
Proof.
  unfold kept_name, name_norm. destruct (decide (n = [])) as [->|H]; [done|].
  destruct (decide (n = bytes_of "    ")) as [->|H']; [done|]. rewrite decide_False; [done|]. by intros [?|?].
Qed.
Lemma l_C67_writer : forall h ix bs, runs h ix -> disk_caps ix = true -> index_write ix = Ok (bs, None) ->
  bytes bs /\ file_form (saved_content ix) bs.
Proof.
  intros h ix bs H Hd Hw. destruct (runs_refines h ix H) as (ld & Hld & T & A). pose proof (reload_disk T A Hd) as Hdi.
  assert (Hst : Forall storable_tag (ix_tags ix)).
  { assert (Dst : forall t, Decision (storable_tag t)) by (intros t; unfold storable_tag; apply _).
    destruct (decide (Forall storable_tag (ix_tags ix))) as [Hs|Hs]; [done|]. exfalso.
    destruct (index_write_fail ix) as [b E]; [apply Hdi|done|]. congruence. }
  destruct (index_round index_new ix Hdi Hst) as (bs' & Hw' & Hr). rewrite Hw in Hw'. injection Hw' as <-.
  assert (Hb : bytes bs).
  { eapply write_bytes; [exact Hst| |exact Hw]. rewrite (a_tags _ _ A). apply Forall_fmap.
    eapply Forall_impl; [exact (a_bytes _ _ A)|]. intros [n p] [H1 H2]. done. }
  split; [exact Hb|]. specialize (Hr []). rewrite app_nil_r in Hr.
  destruct (proj1 (l_C67_reader index_new bs [] (saved_content ix) Hb)) as (p & E & Hp).
  - eexists. split; [exact Hr|]. unfold content_of, saved_content, loaded. cbn [ix_tags ix_sets ix_cols ix_items its_list]. f_equal.
    rewrite map_map. apply map_ext. intros t. rewrite !kept_norm. done.
  - rewrite app_nil_r in E. by subst p.
Qed.
