(** The binary form of every component: round trip, stability, no panics. *)
From Coq Require Import ZifyBool ZifyNat ZifyN.
From Verif Require Import Base Storage Bin Utf8 Tags TagSets Variants Items Index Spec Hist
  BaseFacts BinFacts.
From stdpp Require Import list.
Open Scope N_scope.

Ltac smore := fail.
Ltac cmore := fail.
Ltac stab := repeat first
  [ smore | apply stable_u8 | apply stable_u16 | apply stable_u32 | apply stable_stringz
  | apply stable_ret | apply stable_fail | apply stable_lift | apply stable_wrap
  | apply stable_bind; [|intros ?] ].
Ltac calms := repeat first
  [ cmore | apply calm_u8 | apply calm_u16 | apply calm_u32 | apply calm_stringz
  | apply calm_ret | apply calm_fail | apply calm_wrap
  | apply calm_bind; [|intros ?] ].

(** ** Tag names *)
Lemma str_eqb_refl a : str_eqb a a = true.
Proof. by apply bool_decide_eq_true. Qed.

Lemma is_empty_loop_spec bs : length bs = 4%nat ->
  is_empty_loop bs four_spaces false || str_eqb bs four_spaces = bool_decide (bs = four_spaces).
Proof.
  intros H. destruct bs as [|a [|b [|c [|e [|]]]]]; try done. unfold four_spaces, str_eqb.
  cbn [is_empty_loop].
  destruct (N.eqb_spec a 32) as [->|Ha]; [|by rewrite orb_false_l].
  destruct (N.eqb_spec b 32) as [->|Hb]; [|by rewrite orb_false_l].
  destruct (N.eqb_spec c 32) as [->|Hc]; [|by rewrite orb_false_l].
  destruct (N.eqb_spec e 32) as [->|He]; [|by rewrite orb_false_l].
  done.
Qed.
Lemma name_marshal_spec n :
  (storable_name n -> exists bs, name_marshal n = Ok bs /\ length bs = 4%nat /\
     bs = if decide (n = [] \/ n = bytes_of "----") then bytes_of "    " else n) /\
  (~ storable_name n -> name_marshal n = Err EGrammar).
Proof.
  unfold name_marshal, storable_name, tag_name_len, lenN. split.
  - intros H. destruct (N.eqb_spec (N.of_nat (length n)) 0) as [E|E].
    { assert (n = []) as -> by (destruct n; [done|cbn in E; lia]).
      eexists. split; [done|]. split; [done|]. by rewrite decide_True by auto. }
    rewrite orb_false_l. unfold str_eqb. destruct (bool_decide_reflect (n = empty_tag_name)) as [->|E2].
    { exists four_spaces. split; [done|]. split; [done|].
      rewrite decide_True by auto. done. }
    destruct H as [->|H]; [done|]. rewrite H. exists n. split; [by vm_compute|]. split; [done|].
    rewrite decide_False; [done|]. intros [->|H']; done.
  - intros H. destruct (N.eqb_spec (N.of_nat (length n)) 0) as [E|E].
    { exfalso. apply H. left. destruct n; [done|cbn in E; lia]. }
    rewrite orb_false_l. unfold str_eqb. destruct (bool_decide_reflect (n = empty_tag_name)) as [->|E2].
    { exfalso. apply H. by right. }
    destruct (N.eqb_spec (N.of_nat (length n)) 4) as [E3|E3]; [|done].
    exfalso. apply H. right. lia.
Qed.
Lemma name_unmarshal_spec bs :
  name_unmarshal bs = if decide (length bs = 4%nat) then
    Ok (if decide (bs = bytes_of "    ") then bytes_of "----" else bs) else Err EGrammar.
Proof.
  unfold name_unmarshal, tag_name_len, lenN.
  destruct (decide (length bs = 4%nat)) as [E|E].
  - rewrite E. change (N.of_nat 4 =? 4) with true. cbn [negb]. rewrite is_empty_loop_spec by done.
    change four_spaces with (bytes_of "    ").
    destruct (decide (bs = bytes_of "    ")) as [->|Hne].
    + by rewrite bool_decide_true.
    + by rewrite bool_decide_false.
  - destruct (N.eqb_spec (N.of_nat (length bs)) 4) as [E'|E']; [lia|]. done.
Qed.
Lemma name_round_trip n : storable_name n ->
  (bs ← name_marshal n; name_unmarshal bs) = Ok (name_norm n).
Proof.
  intros H. destruct (proj1 (name_marshal_spec n) H) as (bs & -> & Hl & E). cbn.
  rewrite name_unmarshal_spec, decide_True by done. f_equal. unfold name_norm.
  destruct (decide (n = [] \/ n = bytes_of "----")) as [Hn|Hn]; subst bs.
  - rewrite decide_True by done. destruct Hn as [->| ->]; [done|].
    rewrite decide_False by done. by rewrite decide_False by done.
  - destruct (decide (n = [])); [by destruct Hn; left|]. done.
Qed.

Lemma get_bytes4_app bs rest : length bs = 4%nat -> get_bytes4 (bs ++ rest) = Ok (bs, rest).
Proof. intros H. destruct bs as [|a [|b [|c [|e [|]]]]]; done. Qed.

Definition name_bytes (n : list N) : list N := match name_marshal n with Ok bs => bs | _ => [] end.
Lemma name_write_ok n : storable_name n -> name_write n = wok (name_bytes n) /\ length (name_bytes n) = 4%nat.
Proof.
  intros H. destruct (proj1 (name_marshal_spec n) H) as (bs & E & Hl & _).
  unfold name_write, name_bytes. by rewrite E.
Qed.
Lemma name_write_fail n : ~ storable_name n -> name_write n = ([], Some EGrammar).
Proof. intros H. unfold name_write. by rewrite (proj2 (name_marshal_spec n) H). Qed.
Lemma name_read_round n rest : storable_name n -> name_read (name_bytes n ++ rest) = Ok (name_norm n, rest).
Proof.
  intros H. destruct (name_write_ok n H) as [_ Hl]. pose proof (name_round_trip n H) as E.
  unfold name_read, mbind, reader_bind, rwrap. rewrite get_bytes4_app by done. cbn.
  unfold name_bytes in *. destruct (name_marshal n) as [bs|e|]; try done. cbn in E.
  unfold rlift. by rewrite E.
Qed.

Lemma stable_bytes4 : stable get_bytes4.
Proof. unfold get_bytes4. stab. Qed.
Lemma calm_bytes4 : calm get_bytes4.
Proof. unfold get_bytes4. calms. Qed.
Lemma eats_bytes4 : eats get_bytes4.
Proof. unfold get_bytes4. apply eats_bind; [apply eats_u8|]. intros. stab. Qed.
Lemma stable_name : stable name_read.
Proof. unfold name_read. stab. Qed.
Lemma calm_name : calm name_read.
Proof.
  unfold name_read. apply calm_bind; [apply calm_wrap, calm_bytes4|]. intros bs.
  apply calm_lift. rewrite name_unmarshal_spec. by destruct (decide _).
Qed.
Lemma eats_name : eats name_read.
Proof. unfold name_read. apply eats_bind; [apply eats_wrap, eats_bytes4|]. intros. stab. Qed.

(** ** Tags *)
Definition storable_tag (t : tag) : Prop := storable_name (tag_parent t) /\ storable_name (tag_name t).
Definition plain_tag (t : tag) : Prop :=
  name_norm (tag_parent t) = tag_parent t /\ name_norm (tag_name t) = tag_name t.
Definition tag_bytes (t : tag) : list N := name_bytes (tag_parent t) ++ name_bytes (tag_name t).
Lemma tag_write_ok t : storable_tag t -> tag_write t = wok (tag_bytes t).
Proof.
  intros [H1 H2]. unfold tag_write. destruct (name_write_ok _ H1) as [-> _].
  destruct (name_write_ok _ H2) as [-> _]. done.
Qed.
Lemma tag_write_fail t : ~ storable_tag t -> exists e, (tag_write t).2 = Some e.
Proof.
  intros H. unfold tag_write. destruct (decide (storable_name (tag_parent t))) as [H1|H1].
  - destruct (name_write_ok _ H1) as [-> _].
    rewrite (name_write_fail (tag_name t)) by (intros ?; by apply H). by eexists.
  - rewrite (name_write_fail _ H1). by eexists.
Qed.
Lemma tag_bytes_ne t : storable_tag t -> tag_bytes t <> [].
Proof.
  intros [H _] E. apply name_write_ok in H as [_ H]. unfold tag_bytes in E.
  by apply app_eq_nil in E as [E _]; rewrite E in H.
Qed.
Lemma tag_read_round t rest : storable_tag t -> tag_read (tag_bytes t ++ rest) = Ok (tag_norm t, rest).
Proof.
  intros [H1 H2]. unfold tag_read, tag_bytes, mbind, reader_bind, rwrap.
  rewrite <- app_assoc, (name_read_round _ _ H1). cbn. by rewrite (name_read_round _ _ H2).
Qed.
Ltac smore ::= apply stable_name.
Ltac cmore ::= apply calm_name.
Lemma stable_tag : stable tag_read.
Proof. unfold tag_read. stab. Qed.
Lemma calm_tag : calm tag_read.
Proof. unfold tag_read. calms. Qed.
Lemma eats_tag : eats tag_read.
Proof. unfold tag_read. apply eats_bind; [apply eats_wrap, eats_name|]. intros. stab. Qed.

Definition tags_bytes (ts : list tag) : list N := put_u8 (lenN ts) ++ concat (map tag_bytes ts).
Lemma tags_write_ok ts : Forall storable_tag ts -> tags_write ts = wok (tags_bytes ts).
Proof.
  intros H. unfold tags_write. rewrite (wall_ok tag_write tag_bytes); [done|].
  eapply Forall_impl; [exact H|]. apply tag_write_ok.
Qed.
Lemma tags_write_fail ts : ~ Forall storable_tag ts -> (tags_write ts).2 = Some EMarshal.
Proof.
  intros H. assert (HE : Exists (fun t => exists e, (tag_write t).2 = Some e) ts).
  { apply not_Forall_Exists in H; [|intros t; unfold storable_tag; apply _].
    eapply Exists_impl; [exact H|]. apply tag_write_fail. }
  apply wall_fail in HE as [e He]. unfold tags_write.
  destruct (wall tag_write ts) as [b [e'|]]; [|done]. done.
Qed.
Lemma round_many_norm {A} (P : A -> Prop) (r : reader A) (w : A -> list N) (f : A -> A) :
  (forall a rest, P a -> r (w a ++ rest) = Ok (f a, rest)) -> (forall a, P a -> w a <> []) ->
  forall l rest, Forall P l -> read_many r (lenN l) (concat (map w l) ++ rest) = Ok (map f l, rest).
Proof.
  intros Hr Hw l rest HP. unfold read_many.
  assert (Hlen : (length l <= length (concat (map w l) ++ rest))%nat).
  { rewrite app_length. induction HP as [|x l Hx HP IH]; cbn; [lia|]. rewrite app_length.
    specialize (Hw x Hx). destruct (w x); [done|]. cbn. lia. }
  revert Hlen. generalize (length (concat (map w l) ++ rest)) as m. intros m Hm.
  assert (Hf : (length l < S m)%nat) by lia. revert Hf. generalize (S m) as fuel. clear m Hm.
  induction HP as [|x l Hx HP IH]; intros fuel Hf.
  - destruct fuel; done.
  - destruct fuel as [|fuel]; [cbn in Hf; lia|]. cbn [read_fuel map concat].
    destruct (N.eqb_spec (lenN (x :: l)) 0) as [E|E]; [rewrite lenN_cons in E; lia|].
    rewrite <- app_assoc, Hr by done. rewrite lenN_cons.
    replace (lenN l + 1 - 1) with (lenN l) by lia. rewrite IH by (cbn in Hf; lia). done.
Qed.
Lemma tags_read_round ts rest : Forall storable_tag ts -> lenN ts < 256 ->
  tags_read (tags_bytes ts ++ rest) = Ok (map tag_norm ts, rest).
Proof.
  intros H Hl. unfold tags_read, tags_bytes, mbind, reader_bind, rwrap.
  rewrite <- app_assoc, round_u8 by done. cbn [wrap_err].
  rewrite (round_many_norm storable_tag tag_read tag_bytes tag_norm); [done| | |done].
  - intros. by apply tag_read_round.
  - apply tag_bytes_ne.
Qed.
Lemma stable_tags : stable tags_read.
Proof. unfold tags_read. stab. apply stable_many; [apply stable_tag|apply eats_tag]. Qed.
Lemma calm_tags : calm tags_read.
Proof. unfold tags_read. calms. apply calm_many, calm_tag. Qed.

(** ** Tag sets *)
Definition small (m : N) (l : list N) : Prop := Forall (fun x => x < m) l.
Definition disk_set (s : list N) : Prop := lenN s < 256 /\ small 256 s.
Lemma tagset_read_round s rest : disk_set s -> tagset_read (tagset_write s ++ rest) = Ok (s, rest).
Proof.
  intros [Hl Hs]. unfold tagset_read, tagset_write, mbind, reader_bind, rwrap.
  rewrite <- app_assoc, round_u8 by done. cbn [wrap_err].
  rewrite (round_many (fun x => x < 256) get_u8 put_u8); [done| |done|done].
  intros a r Ha. by apply round_u8.
Qed.
Lemma stable_tagset : stable tagset_read.
Proof. unfold tagset_read. stab. apply stable_many; [apply stable_u8|apply eats_u8]. Qed.
Lemma calm_tagset : calm tagset_read.
Proof. unfold tagset_read. calms. apply calm_many, calm_u8. Qed.
Lemma eats_tagset : eats tagset_read.
Proof.
  unfold tagset_read. apply eats_bind; [apply eats_wrap, eats_u8|]. intros. stab.
  apply stable_many; [apply stable_u8|apply eats_u8].
Qed.
Definition disk_set_table (t : list (list N)) : Prop := lenN t < 65536 /\ Forall disk_set t.
Lemma tagset_table_read_round t rest : disk_set_table t ->
  tagset_table_read (tagset_table_write t ++ rest) = Ok (t, rest).
Proof.
  intros [Hl Hs]. unfold tagset_table_read, tagset_table_write, mbind, reader_bind, rwrap.
  rewrite <- app_assoc, round_u16 by done. cbn [wrap_err].
  rewrite (round_many disk_set tagset_read tagset_write); [done| |done|done].
  intros a r Ha. by apply tagset_read_round.
Qed.
Lemma stable_tagset_table : stable tagset_table_read.
Proof. unfold tagset_table_read. stab. apply stable_many; [apply stable_tagset|apply eats_tagset]. Qed.
Lemma calm_tagset_table : calm tagset_table_read.
Proof. unfold tagset_table_read. calms. apply calm_many, calm_tagset. Qed.
Lemma eats_tagset_table : eats tagset_table_read.
Proof.
  unfold tagset_table_read. apply eats_bind; [apply eats_wrap, eats_u16|]. intros. stab.
  apply stable_many; [apply stable_tagset|apply eats_tagset].
Qed.
Definition disk_sets (x : list (list (list N))) : Prop := lenN x < 4294967296 /\ Forall disk_set_table x.
Lemma tagset_index_read_round x rest : disk_sets x ->
  tagset_index_read (tagset_index_write x ++ rest) = Ok (x, rest).
Proof.
  intros [Hl Hs]. unfold tagset_index_read, tagset_index_write, mbind, reader_bind, rwrap.
  rewrite <- app_assoc, round_u32 by done. cbn [wrap_err].
  rewrite (round_many disk_set_table tagset_table_read tagset_table_write); [done| |done|done].
  intros a r Ha. by apply tagset_table_read_round.
Qed.
Lemma stable_tagset_index : stable tagset_index_read.
Proof. unfold tagset_index_read. stab. apply stable_many; [apply stable_tagset_table|apply eats_tagset_table]. Qed.
Lemma calm_tagset_index : calm tagset_index_read.
Proof. unfold tagset_index_read. calms. apply calm_many, calm_tagset_table. Qed.

(** ** Collections *)
Definition disk_col (c : list N) : Prop := lenN c < 256 /\ small 4294967296 c.
Lemma collection_read_round c rest : disk_col c ->
  collection_read (collection_write c ++ rest) = Ok (c, rest).
Proof.
  intros [Hl Hs]. unfold collection_read, collection_write, mbind, reader_bind, rwrap.
  rewrite <- app_assoc, round_u8 by done. cbn [wrap_err].
  rewrite (round_many (fun x => x < 4294967296) get_u32 put_u32); [done| |done|done].
  intros a r Ha. by apply round_u32.
Qed.
Lemma stable_collection : stable collection_read.
Proof. unfold collection_read. stab. apply stable_many; [apply stable_u32|apply eats_u32]. Qed.
Lemma calm_collection : calm collection_read.
Proof. unfold collection_read. calms. apply calm_many, calm_u32. Qed.
Lemma eats_collection : eats collection_read.
Proof.
  unfold collection_read. apply eats_bind; [apply eats_wrap, eats_u8|]. intros. stab.
  apply stable_many; [apply stable_u32|apply eats_u32].
Qed.
Definition disk_col_table (t : list (list N)) : Prop := lenN t < 4294967296 /\ Forall disk_col t.
Lemma variants_table_read_round t rest : disk_col_table t ->
  variants_table_read (variants_table_write t ++ rest) = Ok (t, rest).
Proof.
  intros [Hl Hs]. unfold variants_table_read, variants_table_write, mbind, reader_bind, rwrap.
  rewrite <- app_assoc, round_u32 by done. cbn [wrap_err].
  rewrite (round_many disk_col collection_read collection_write); [done| |done|done].
  intros a r Ha. by apply collection_read_round.
Qed.
Lemma stable_variants_table : stable variants_table_read.
Proof. unfold variants_table_read. stab. apply stable_many; [apply stable_collection|apply eats_collection]. Qed.
Lemma calm_variants_table : calm variants_table_read.
Proof. unfold variants_table_read. calms. apply calm_many, calm_collection. Qed.
Lemma eats_variants_table : eats variants_table_read.
Proof.
  unfold variants_table_read. apply eats_bind; [apply eats_wrap, eats_u32|]. intros. stab.
  apply stable_many; [apply stable_collection|apply eats_collection].
Qed.
Definition disk_cols (x : list (list (list N))) : Prop := lenN x < 256 /\ Forall disk_col_table x.
Lemma variants_read_round x rest : disk_cols x ->
  variants_read (variants_write x ++ rest) = Ok (x, rest).
Proof.
  intros [Hl Hs]. unfold variants_read, variants_write, mbind, reader_bind, rwrap.
  rewrite <- app_assoc, round_u8 by done. cbn [wrap_err].
  rewrite (round_many disk_col_table variants_table_read variants_table_write); [done| |done|done].
  intros a r Ha. by apply variants_table_read_round.
Qed.
Lemma stable_variants : stable variants_read.
Proof. unfold variants_read. stab. apply stable_many; [apply stable_variants_table|apply eats_variants_table]. Qed.
Lemma calm_variants : calm variants_read.
Proof. unfold variants_read. calms. apply calm_many, calm_variants_table. Qed.

(** ** Items *)
Definition disk_item (i : item) : Prop :=
  it_parent i < 4294967296 /\ it_id i < 4294967296 /\ int32 (it_letter i) /\ it_variants i < 4294967296.
Lemma item_read_round i rest : disk_item i -> item_read (item_write i ++ rest) = Ok (i, rest).
Proof.
  intros (H1 & H2 & H3 & H4). destruct (rune_round _ H3) as [E1 E2].
  unfold item_read, item_write, put_rune, mbind, reader_bind.
  rewrite <- !app_assoc. rewrite (round_u32 (it_parent i)) by done.
  rewrite (round_u32 (it_id i)) by done. rewrite (round_u32 (rune_to_u32 _)) by done.
  rewrite (round_u32 (it_variants i)) by done. unfold mret, reader_ret. rewrite E1. by destruct i.
Qed.
Lemma stable_item : stable item_read.
Proof. unfold item_read. stab. Qed.
Lemma calm_item : calm item_read.
Proof. unfold item_read. calms. Qed.
Lemma eats_item : eats item_read.
Proof. unfold item_read. apply eats_bind; [apply eats_u32|]. intros. stab. Qed.
Lemma items_read_round s bs rest :
  items_write s = Ok bs -> its_next s < 4294967296 ->
  Forall disk_item (take (N.to_nat (its_next s)) (its_list s)) ->
  items_read (bs ++ rest) = Ok (mkItems (take (N.to_nat (its_next s)) (its_list s)) (its_next s), rest).
Proof.
  unfold items_write. destruct (N.ltb_spec (lenN (its_list s)) (its_next s)) as [|Hle]; [done|].
  intros Ew Hn HP. assert (bs = put_u32 (its_next s) ++ concat (map item_write (take (N.to_nat (its_next s)) (its_list s)))) as -> by congruence. unfold items_read, mbind, reader_bind.
  rewrite <- app_assoc, round_u32 by done.
  set (l := take (N.to_nat (its_next s)) (its_list s)) in *.
  assert (El : lenN l = its_next s).
  { unfold lenN, l in *. rewrite take_length. lia. }
  rewrite <- El. rewrite (round_many disk_item item_read item_write); [done| |done|done].
  intros a r Ha. by apply item_read_round.
Qed.
Lemma stable_items : stable items_read.
Proof. unfold items_read. stab. apply stable_many; [apply stable_item|apply eats_item]. Qed.
Lemma calm_items : calm items_read.
Proof. unfold items_read. calms. apply calm_many, calm_item. Qed.

(** ** The whole index *)
Lemma stable_section sec : stable (read_section sec).
Proof. unfold read_section. stab. destruct (str_eqb _ _); stab. Qed.
Lemma calm_section sec : calm (read_section sec).
Proof. unfold read_section. calms. destruct (str_eqb _ _); calms. Qed.
Ltac smore ::= first [apply stable_section | apply stable_tags | apply stable_tagset_index
  | apply stable_variants | apply stable_items].
Ltac cmore ::= first [apply calm_section | apply calm_tags | apply calm_tagset_index
  | apply calm_variants | apply calm_items].
Lemma stable_index ix0 : stable (index_read ix0).
Proof.
  unfold index_read.
  stab.
  destruct (rebuild _ _ _). apply stable_ret.
Qed.
Lemma calm_index ix0 : calm (index_read ix0).
Proof.
  unfold index_read.
  calms.
  destruct (rebuild _ _ _). apply calm_ret.
Qed.

(** what the file format can hold *)
Record disk_index (ix : index) : Prop := {
  di_ntags : lenN (ix_tags ix) < 256;
  di_sets : disk_sets (ix_sets ix);
  di_cols : disk_cols (ix_cols ix);
  di_room : its_next (ix_items ix) <= lenN (its_list (ix_items ix));
  di_next : its_next (ix_items ix) < 4294967296;
  di_items : Forall disk_item (take (N.to_nat (its_next (ix_items ix))) (its_list (ix_items ix))) }.

Definition loaded (ix0 ix : index) : index :=
  let its := mkItems (take (N.to_nat (its_next (ix_items ix))) (its_list (ix_items ix)))
                     (its_next (ix_items ix)) in
  mkIndex (map tag_norm (ix_tags ix)) (ix_sets ix) (ix_cols ix) its
    (rebuild its (ix_children ix0) (ix_words ix0)).1 (rebuild its (ix_children ix0) (ix_words ix0)).2.

Lemma section_round sec rest :
  Forall (fun b => b <> 0) sec -> read_section sec (put_stringz sec ++ rest) = Ok (tt, rest).
Proof.
  intros H. unfold read_section, mbind, reader_bind, rwrap. rewrite round_stringz by done. cbn.
  by rewrite str_eqb_refl.
Qed.
Ltac nz := repeat (constructor; [discriminate|]); constructor.

Lemma index_round ix0 ix :
  disk_index ix -> Forall storable_tag (ix_tags ix) ->
  exists bs, index_write ix = Ok (bs, None) /\
    forall rest, index_read ix0 (bs ++ rest) = Ok (loaded ix0 ix, rest).
Proof.
  intros [H1 H2 H3 H4 H5 H6] Hst. unfold index_write.
  destruct (items_write (ix_items ix)) as [its|e|] eqn:Ei;
    [|unfold items_write in Ei; destruct (N.ltb_spec (lenN (its_list (ix_items ix))) (its_next (ix_items ix))); [lia|done]..].
  exists (put_stringz sec_tags ++ tags_bytes (ix_tags ix) ++
          put_stringz sec_sets ++ tagset_index_write (ix_sets ix) ++
          put_stringz sec_cols ++ variants_write (ix_cols ix) ++ put_stringz sec_items ++ its).
  split.
  { unfold mbind, res_bind. rewrite tags_write_ok by done. unfold wthen, wwrap, wok. cbn [fst snd].
    by rewrite <- !app_assoc. }
  intros rest. rewrite <- !app_assoc.
  unfold index_read, mbind, reader_bind, rwrap. rewrite (section_round sec_tags) by nz.
  rewrite (tags_read_round _ _ Hst H1). cbn [wrap_err].
  rewrite (section_round sec_sets) by nz.
  rewrite (tagset_index_read_round _ _ H2). cbn [wrap_err].
  rewrite (section_round sec_cols) by nz.
  rewrite (variants_read_round _ _ H3). cbn [wrap_err].
  rewrite (section_round sec_items) by nz.
  rewrite (items_read_round _ _ _ Ei H5 H6). cbn [wrap_err]. unfold loaded.
  destruct (rebuild _ _ _) as [m w]. done.
Qed.
Lemma index_write_fail ix :
  its_next (ix_items ix) <= lenN (its_list (ix_items ix)) ->
  ~ Forall storable_tag (ix_tags ix) ->
  exists bs, index_write ix = Ok (bs, Some EIndex).
Proof.
  intros H4 Hst. unfold index_write, items_write.
  destruct (N.ltb_spec (lenN (its_list (ix_items ix))) (its_next (ix_items ix))); [lia|].
  pose proof (tags_write_fail _ Hst) as E. destruct (tags_write (ix_tags ix)) as [b [e|]]; [|done].
  unfold mbind, res_bind, wthen, wwrap, wok. cbn [fst snd]. by eexists.
Qed.
