(** Proofs about reading an index in place: C80. *)
From Coq Require Import ZifyBool ZifyNat ZifyN.
From Verif Require Import Base Storage Bin Tags TagSets Variants Items Index BaseFacts BinFacts CodecFacts ThmDisk Fill.
From stdpp Require Import list.
Open Scope N_scope.

(** A filler and a reader do the same, except for what is left after a failure. *)
Definition agrees {A} (r : reader A) (f : filler A) : Prop :=
  forall bs, r bs = match f bs with (x, Ok rest) => Ok (x, rest) | (_, Err e) => Err e | (_, Panic) => Panic end.
Lemma agrees_wrap {A} e (r : reader A) f : agrees r f -> agrees (rwrap e r) (fwrap e f).
Proof. intros H bs. unfold rwrap, fwrap. rewrite H. destruct (f bs) as [x [rest|e'|]]; done. Qed.
Lemma agrees_field {A} (z : A) r : agrees r (field z r).
Proof. intros bs. unfold field. destruct (r bs) as [[x rest]|e|]; done. Qed.
Lemma agrees_fuel {A} (z : A) r f : agrees r f -> forall fuel n bs,
  read_fuel fuel r n bs = match fill_fuel fuel z f n bs with (x, Ok rest) => Ok (x, rest) | (_, Err e) => Err e | (_, Panic) => Panic end.
Proof.
  intros H. induction fuel as [|fuel IH]; intros n bs; cbn [read_fuel fill_fuel]; destruct (n =? 0); try done.
  rewrite H. destruct (f bs) as [x [rest|e'|]]; try done. rewrite IH. destruct (fill_fuel fuel z f (n - 1) rest) as [xs [rest'|e'|]]; done.
Qed.
Lemma agrees_many {A} (z : A) r f n : agrees r f -> agrees (read_many r n) (fill_many z f n).
Proof. intros H bs. unfold read_many, fill_many. by apply agrees_fuel. Qed.
Lemma agrees_list {A} e old len (z : A) r f : agrees r f -> agrees (n ← rwrap e len; rwrap e (read_many r n)) (fill_list e old len z f).
Proof.
  intros H bs. unfold fill_list, mbind, reader_bind. destruct (rwrap e len bs) as [[n rest]|x|]; try done.
  apply (agrees_wrap e _ _ (agrees_many z r f n H)).
Qed.
Lemma agrees_tag : agrees tag_read fill_tag.
Proof.
  intros bs. unfold tag_read, fill_tag, mbind, reader_bind. destruct (rwrap EGrammar name_read bs) as [[p rest]|x|]; try done.
  unfold field. destruct (rwrap EGrammar name_read rest) as [[n rest']|x|]; done.
Qed.
Lemma agrees_item : agrees item_read fill_item.
Proof.
  intros bs. unfold item_read, fill_item, field. unfold mbind, reader_bind.
  destruct (get_u32 bs) as [[p b1]|x|]; try done. destruct (get_u32 b1) as [[i b2]|x|]; try done.
  destruct (get_u32 b2) as [[l b3]|x|]; try done. destruct (get_u32 b3) as [[v b4]|x|]; done.
Qed.
Lemma agrees_tags old : agrees tags_read (fill_tags old).
Proof. apply agrees_list, agrees_tag. Qed.
Lemma agrees_sets old : agrees tagset_index_read (fill_sets old).
Proof. apply agrees_list, agrees_list, agrees_list, agrees_field. Qed.
Lemma agrees_cols old : agrees variants_read (fill_cols old).
Proof. apply agrees_list, agrees_list, agrees_list, agrees_field. Qed.
Lemma agrees_items old : agrees items_read (fill_items old).
Proof.
  intros bs. unfold items_read, fill_items. unfold mbind at 1, reader_bind at 1. destruct (get_u32 bs) as [[n rest]|x|]; try done.
  unfold mbind, reader_bind. rewrite (agrees_many zero_item item_read fill_item n agrees_item). destruct (fill_many zero_item fill_item n rest) as [l [b|x|]]; done.
Qed.
Lemma agrees_section {A} sec (old : A) r f : agrees r f -> agrees (_ ← read_section sec; rwrap EIndex r) (fill_section sec old f).
Proof.
  intros H bs. unfold fill_section, mbind, reader_bind. destruct (read_section sec bs) as [[u rest]|x|]; try done.
  by apply (agrees_wrap EIndex r f).
Qed.
Lemma agrees_index ix : agrees (index_read ix) (fill_index ix).
Proof.
  intros bs. unfold index_read, fill_index.
  unfold mbind at 1, reader_bind at 1. rewrite (agrees_wrap EIndex _ _ (agrees_section sec_tags (ix_tags ix) _ _ (agrees_tags (ix_tags ix))) bs).
  destruct (fwrap EIndex (fill_section sec_tags _ _) bs) as [tags [b1|x|]]; try done.
  unfold mbind at 1, reader_bind at 1. rewrite (agrees_wrap EIndex _ _ (agrees_section sec_sets (ix_sets ix) _ _ (agrees_sets (ix_sets ix))) b1).
  destruct (fwrap EIndex (fill_section sec_sets _ _) b1) as [sets [b2|x|]]; try done.
  unfold mbind at 1, reader_bind at 1. rewrite (agrees_wrap EIndex _ _ (agrees_section sec_cols (ix_cols ix) _ _ (agrees_cols (ix_cols ix))) b2).
  destruct (fwrap EIndex (fill_section sec_cols _ _) b2) as [cols [b3|x|]]; try done.
  unfold mbind at 1, reader_bind at 1. rewrite (agrees_section sec_items (ix_items ix) _ _ (agrees_items (ix_items ix)) b3).
  destruct (fill_section sec_items _ _ b3) as [its [b4|x|]]; try done.
  destruct (rebuild its (ix_children ix) (ix_words ix)). done.
Qed.
Lemma l_C80_same_result : forall ix bs,
  index_read ix bs = match fill_index ix bs with (ix', Ok rest) => Ok (ix', rest) | (_, Err e) => Err e | (_, Panic) => Panic end.
Proof. exact agrees_index. Qed.
(** ** What a failure leaves *)
Lemma l_C80_kept : forall ix bs ix' e, fill_index ix bs = (ix', Err e) ->
  ix_children ix' = ix_children ix /\ ix_words ix' = ix_words ix.
Proof.
  intros ix bs ix' e. unfold fill_index.
  destruct (fwrap EIndex (fill_section sec_tags _ _) bs) as [tags [b1|x|]]; [|by intros [= <- <-]|done].
  destruct (fwrap EIndex (fill_section sec_sets _ _) b1) as [sets [b2|x|]]; [|by intros [= <- <-]|done].
  destruct (fwrap EIndex (fill_section sec_cols _ _) b2) as [cols [b3|x|]]; [|by intros [= <- <-]|done].
  destruct (fill_section sec_items _ _ b3) as [its [b4|x|]]; [|by intros [= <- <-]|done].
  destruct (rebuild its _ _). done.
Qed.
Lemma fill_index_ext ix ix0 bs : ix_children ix = ix_children ix0 -> ix_words ix = ix_words ix0 -> index_read ix bs = index_read ix0 bs.
Proof. intros H1 H2. unfold index_read. by rewrite H1, H2. Qed.
Lemma l_C80_try_again : forall ix bs ix' e, fill_index ix bs = (ix', Err e) -> forall bs2, index_read ix' bs2 = index_read ix bs2.
Proof. intros ix bs ix' e H bs2. destruct (l_C80_kept _ _ _ _ H). by apply fill_index_ext. Qed.
Lemma fwrap_ok {A} e (f : filler A) bs x rest : fwrap e f bs = (x, Ok rest) <-> f bs = (x, Ok rest).
Proof. unfold fwrap. destruct (f bs) as [y [r|e'|]]; cbn; split; intros [=]; by subst. Qed.
Lemma fwrap_err {A} e (f : filler A) bs x e' : fwrap e f bs = (x, Err e') -> exists e'', f bs = (x, Err e'').
Proof. unfold fwrap. destruct (f bs) as [y [r|e''|]]; cbn; intros [=]; subst. by exists e''. Qed.
Lemma section_ok {A} sec (old : A) r f bs x rest : agrees r f -> fill_section sec old f bs = (x, Ok rest) -> whole_part sec r bs x rest.
Proof.
  intros H. unfold fill_section. destruct (read_section sec bs) as [[[] b]|e|] eqn:E0; try done. intros E%fwrap_ok. exists b. split; [done|]. by rewrite H, E.
Qed.
Lemma section_err {A} sec (old : A) f bs x e : fill_section sec old f bs = (x, Err e) ->
  ((exists e', read_section sec bs = Err e') /\ x = old) \/ exists rest e', read_section sec bs = Ok (tt, rest) /\ f rest = (x, Err e').
Proof.
  unfold fill_section. destruct (read_section sec bs) as [[[] b]|e'|]; try done.
  - intros H%fwrap_err. destruct H as [e'' H]. right. by exists b, e''.
  - intros [= <- <-]. left. split; [by exists e'|done].
Qed.
(** A list that could not be read to its end. *)
Lemma fuel_left {A} (z : A) r f (P : list N -> A -> Prop) : agrees r f -> eats r -> calm r -> (forall bs x e, f bs = (x, Err e) -> P bs x) -> forall fuel n bs xs e,
  (length bs < fuel)%nat -> fill_fuel fuel z f n bs = (xs, Err e) -> cut_list z r P n bs xs.
Proof.
  intros Ha He Hp HP. induction fuel as [|fuel IH]; intros n bs xs e Hl; [lia|]. cbn [fill_fuel]. destruct (N.eqb_spec n 0) as [->|Hn]; [done|].
  destruct (f bs) as [x [rest|e'|]] eqn:E.
  - destruct (fill_fuel fuel z f (n - 1) rest) as [ys ry] eqn:E1. intros [=]; subst.
    assert (Hr : r bs = Ok (x, rest)) by (by rewrite Ha, E). assert (Hlr := He _ _ _ Hr).
    destruct (IH (n - 1) rest ys e ltac:(lia) E1) as (k & zs & rest' & y & Hk & Hread & Hfail & Hy & ->).
    exists (k + 1), (x :: zs), rest', y. split; [lia|]. split; [|split; [done|split; [done|]]].
    + unfold read_many. cbn [read_fuel]. destruct (N.eqb_spec (k + 1) 0); [lia|]. rewrite Hr.
      replace (k + 1 - 1) with k by lia. rewrite (read_fuel_enough r He) by lia. by rewrite Hread.
    + cbn [app]. do 4 f_equal. lia.
  - intros [=]; subst. exists 0, [], bs, x. split; [lia|]. split; [done|]. split; [exists e; by rewrite Ha, E|]. split; [by eapply HP|]. cbn [app]. do 3 f_equal. lia.
  - exfalso. apply (Hp bs). by rewrite Ha, E.
Qed.
Lemma many_left {A} (z : A) r f (P : list N -> A -> Prop) n bs xs e : agrees r f -> eats r -> calm r -> (forall bs x e, f bs = (x, Err e) -> P bs x) ->
  fill_many z f n bs = (xs, Err e) -> cut_list z r P n bs xs.
Proof. intros Ha He Hp HP H. eapply fuel_left; try done. lia. Qed.
Lemma list_left {A} e0 sec old len (z : A) r f (P : list N -> A -> Prop) bs xs e : agrees r f -> eats r -> calm r -> calm len -> (forall bs x e, f bs = (x, Err e) -> P bs x) ->
  fill_section sec old (fill_list e0 old len z f) bs = (xs, Err e) -> cut_part sec len z r P bs old xs.
Proof.
  intros Ha He Hp Hl HP H. apply section_err in H as [[Hs ->] | (rest & e' & Hs & H)]; [left; split; [done|by left]|].
  unfold fill_list, rwrap in H. destruct (len rest) as [[n b]|x|] eqn:E; cbn [wrap_err] in H.
  - right. exists rest, n, b. split; [done|]. split; [done|]. apply fwrap_err in H as [e'' H]. by eapply many_left.
  - injection H as <- <-. left. split; [done|]. right. by exists rest, x.
  - by destruct (Hl rest).
Qed.
Lemma cut_list_length {A} (z : A) r P n bs xs : cut_list z r P n bs xs -> lenN xs = n.
Proof.
  intros (k & ys & rest & x & Hk & Hr & _ & _ & ->). unfold read_many in Hr.
  assert (Hy : forall fuel k bs ys rest, read_fuel fuel r k bs = Ok (ys, rest) -> lenN ys = k).
  { clear. induction fuel as [|fuel IH]; intros k bs ys rest; cbn [read_fuel]; destruct (N.eqb_spec k 0) as [->|Hn]; try (by intros [= <- <-]).
    destruct (r bs) as [[x b]|e|]; try done. destruct (read_fuel fuel r (k - 1) b) as [[zs b']|e|] eqn:E; try done. intros [= <- <-].
    apply IH in E. unfold lenN in *. cbn [length]. lia. }
  apply Hy in Hr. unfold lenN in *. rewrite app_length. cbn [length]. rewrite replicate_length. lia.
Qed.
Lemma inner_left {A} e0 len (z : A) r f (P : list N -> A -> Prop) bs xs e : agrees r f -> eats r -> calm r -> calm len ->
  (forall bs x e, f bs = (x, Err e) -> P bs x) -> fill_list e0 [] len z f bs = (xs, Err e) -> cut_inner len z r P bs xs.
Proof.
  intros Ha He Hp Hl HP H. unfold fill_list, rwrap in H. destruct (len bs) as [[n b]|x|] eqn:E; cbn [wrap_err] in H.
  - right. exists n, b. split; [done|]. apply fwrap_err in H as [e'' H]. by eapply many_left.
  - injection H as <- _. left. split; [done|]. by exists x.
  - by destruct (Hl bs).
Qed.
Lemma number_left r bs x e : field 0 r bs = (x, Err e) -> cut_number bs x.
Proof. unfold field. destruct (r bs) as [[y rest]|e'|]; try done. by intros [= <- _]. Qed.
Lemma set_left bs x e : fill_set [] bs = (x, Err e) -> cut_set bs x.
Proof. apply inner_left; [apply agrees_field|apply eats_u8|apply calm_u8|apply calm_u8|apply number_left]. Qed.
Lemma table_left bs x e : fill_table [] bs = (x, Err e) -> cut_table bs x.
Proof. apply inner_left; [apply agrees_list, agrees_field|apply eats_tagset|apply calm_tagset|apply calm_u16|apply set_left]. Qed.
Lemma col_left bs x e : fill_col [] bs = (x, Err e) -> cut_col bs x.
Proof. apply inner_left; [apply agrees_field|apply eats_u32|apply calm_u32|apply calm_u8|apply number_left]. Qed.
Lemma ctable_left bs x e : fill_ctable [] bs = (x, Err e) -> cut_ctable bs x.
Proof. apply inner_left; [apply agrees_list, agrees_field|apply eats_collection|apply calm_collection|apply calm_u32|apply col_left]. Qed.
Lemma name_short bs e : name_read bs = Err e -> (length bs < 4)%nat.
Proof.
  unfold name_read, mbind, reader_bind, rwrap. destruct bs as [|a [|b [|c [|d bs]]]]; try (intros _; cbn; lia).
  change (get_bytes4 (a :: b :: c :: d :: bs)) with (Ok ([a; b; c; d], bs)). cbn [wrap_err]. unfold rlift, name_unmarshal.
  change (negb (lenN [a; b; c; d] =? tag_name_len)) with false. cbv iota.
  match goal with |- context [if ?x then _ else _] => destruct x end; done.
Qed.
Lemma tag_left bs x e : fill_tag bs = (x, Err e) -> cut_tag bs x.
Proof.
  unfold fill_tag, field, rwrap. destruct (name_read bs) as [[p rest]|e'|] eqn:E; cbn [wrap_err].
  - destruct (name_read rest) as [[n b]|e'|] eqn:E2; cbn [wrap_err]; try done. intros [= <- _]. right. exists p, rest. split; [done|]. split; [by eapply name_short|done].
  - intros [= <- _]. left. split; [by eapply name_short|done].
  - done.
Qed.
Lemma item_left bs x e : fill_item bs = (x, Err e) -> cut_node bs x.
Proof.
  unfold cut_node. do 16 (destruct bs as [|? bs]; [by intros [= <- _]|]). done.
Qed.
Lemma l_C80_left_over : forall ix bs ix' e, fill_index ix bs = (ix', Err e) -> left_over ix bs ix'.
Proof.
  intros ix bs ix' e. unfold fill_index.
  destruct (fwrap EIndex (fill_section sec_tags _ _) bs) as [tags [b1|x|]] eqn:E1; [| |done].
  2: { intros [= <- <-]. apply fwrap_err in E1 as [e' E1]. apply left_tags. eapply list_left; [apply agrees_tag|apply eats_tag|apply calm_tag|apply calm_u8|apply tag_left|exact E1]. }
  apply fwrap_ok in E1. apply (section_ok _ _ tags_read) in E1; [|apply agrees_tags].
  destruct (fwrap EIndex (fill_section sec_sets _ _) b1) as [sets [b2|x|]] eqn:E2; [| |done].
  2: { intros [= <- <-]. apply fwrap_err in E2 as [e' E2]. eapply left_sets; [exact E1|].
       eapply list_left; [|apply eats_tagset_table|apply calm_tagset_table|apply calm_u32|apply table_left|exact E2]. apply agrees_list, agrees_list, agrees_field. }
  apply fwrap_ok in E2. apply (section_ok _ _ tagset_index_read) in E2; [|apply agrees_sets].
  destruct (fwrap EIndex (fill_section sec_cols _ _) b2) as [cols [b3|x|]] eqn:E3; [| |done].
  2: { intros [= <- <-]. apply fwrap_err in E3 as [e' E3]. eapply left_cols; [exact E1|exact E2|].
       eapply list_left; [|apply eats_variants_table|apply calm_variants_table|apply calm_u8|apply ctable_left|exact E3]. apply agrees_list, agrees_list, agrees_field. }
  apply fwrap_ok in E3. apply (section_ok _ _ variants_read) in E3; [|apply agrees_cols].
  destruct (fill_section sec_items _ _ b3) as [its [b4|x|]] eqn:E4; [| |done].
  { destruct (rebuild its _ _). done. }
  intros [= <- <-]. eapply left_items; [exact E1|exact E2|exact E3| |].
  - apply section_err in E4 as [[Hs ->] | (rest & e' & Hs & H)]; [left; split; [done|by left]|]. unfold fill_items in H.
    destruct (get_u32 rest) as [[n b]|y|] eqn:E; [|injection H as <- <-; left; split; [done|right; by exists rest, y]|done].
    destruct (fill_many zero_item fill_item n b) as [l r] eqn:E5. injection H as <- ->. right. exists rest, n, b. split; [done|]. split; [done|].
    eapply many_left; [apply agrees_item|apply eats_item|apply calm_item|apply item_left|exact E5].
  - apply section_err in E4 as [[Hs ->] | (rest & e' & Hs & H)]; [by left|]. unfold fill_items in H.
    destruct (get_u32 rest) as [[n b]|y|] eqn:E; [|injection H as <- <-; by left|done].
    destruct (fill_many zero_item fill_item n b) as [l r] eqn:E5. injection H as <- ->. right. cbn [its_next its_list]. symmetry.
    eapply cut_list_length, many_left; [apply agrees_item|apply eats_item|apply calm_item|apply item_left|exact E5].
Qed.
Lemma stringz_app bs s rest : get_stringz bs = Ok (s, rest) -> bs = s ++ 0 :: rest.
Proof.
  revert s. induction bs as [|b bs IH]; intros s; [done|]. cbn. destruct (N.eqb_spec b 0) as [->|Hb]; [by intros [= <- <-]|].
  destruct (get_stringz bs) as [[s' r]|e|]; try done. intros [= <- <-]. cbn. by rewrite (IH s').
Qed.
Lemma l_C80_other_file : forall ix bs, (forall rest, bs <> bytes_of "TD" ++ 0 :: rest) -> exists e, fill_index ix bs = (ix, Err e).
Proof.
  intros ix bs H. assert (Hs : read_section sec_tags bs = Err EIndex).
  { unfold read_section, mbind, reader_bind, rwrap. assert (Hc := calm_stringz bs). destruct (get_stringz bs) as [[s r]|e|] eqn:E; [|done|done]. cbn [wrap_err].
    apply stringz_app in E. unfold str_eqb. case_bool_decide as Hd; [|done]. subst s. by destruct (H r). }
  exists EIndex. unfold fill_index, fwrap at 1, fill_section. rewrite Hs. cbn. by destruct ix.
Qed.
