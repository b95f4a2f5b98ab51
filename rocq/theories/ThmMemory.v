(** Proofs about the memory asked for while loading (C72). *)
From Coq Require Import ZifyBool ZifyNat ZifyN.
From Verif Require Import Base Storage Bin Tags TagSets Variants Items Index BaseFacts BinFacts CodecFacts Memory.
From stdpp Require Import list.
Open Scope N_scope.

(** ** The results are those of the readers *)
Definition erases {A} (m : mem A) (r : reader A) : Prop := forall bs, (m bs).2 = r bs.
Lemma erase_free {A} (r : reader A) : erases (free r) r.
Proof. done. Qed.
Lemma erase_then {A B} (m : mem A) r (f : A -> mem B) g : erases m r -> (forall a, erases (f a) (g a)) -> erases (mthen m f) (r ≫= g).
Proof.
  intros Hm Hf bs. unfold mthen, mbind, reader_bind. specialize (Hm bs).
  destruct (m bs) as [c [[a rest]|e|]]; cbn in Hm; rewrite <- Hm; try done.
  specialize (Hf a rest). by destruct (f a rest).
Qed.
Lemma erase_wrap {A} e (m : mem A) r : erases m r -> erases (mwrap e m) (rwrap e r).
Proof. intros H bs. unfold mwrap, rwrap. rewrite <- (H bs). by destruct (m bs). Qed.
Lemma erase_make {A} s (m : mem A) r n : erases m r -> erases (mmake s m n) (read_many r n).
Proof.
  intros H bs. unfold mmake, read_many.
  assert (E : forall fuel n bs, (mfuel fuel m n bs).2 = read_fuel fuel r n bs).
  { clear n bs. induction fuel as [|fuel IH]; intros n bs; cbn; destruct (n =? 0); try done.
    rewrite <- (H bs). destruct (m bs) as [c [[a rest]|e|]]; try done. cbn.
    rewrite <- IH. by destruct (mfuel fuel m (n - 1) rest) as [d [[xs r']|e|]]. }
  rewrite <- E. by destruct (mfuel (S (length bs)) m n bs).
Qed.
Lemma erase_index ix : erases (m_index ix) (index_read ix).
Proof.
  unfold m_index, index_read.
  repeat first [ apply erase_then; [|intros ?] | apply erase_wrap | apply erase_make | apply erase_free | destruct (rebuild _ _ _) ].
Qed.

(** ** Costs.  [size]: what is asked for when the reader succeeds, [s]: the size of the slot its
    result goes to, [p]: what may be asked for in vain. *)
Definition costs {A} (size : A -> N) (s p : N) (m : mem A) : Prop := forall bs, bytes bs ->
  match m bs with
  | (c, Ok (a, rest)) => c = size a /\ bytes rest /\ c + s + 24 * lenN rest <= 24 * lenN bs
  | (c, _) => c <= 24 * lenN bs + p
  end.
Lemma costs_free {A} (r : reader A) s : stable r ->
  (forall bs a rest, r bs = Ok (a, rest) -> s + 24 * lenN rest <= 24 * lenN bs) -> costs none s 0 (free r).
Proof.
  intros Hst H bs Hb. unfold free. destruct (r bs) as [[a rest]|e|] eqn:E; [|lia|lia].
  destruct (Hst _ _ _ E) as (u & -> & _). apply Forall_app in Hb as [_ Hb]. specialize (H _ _ _ E). unfold none. split_and!; [done|done|lia].
Qed.
Lemma costs_wrap {A} e (m : mem A) size s p : costs size s p m -> costs size s p (mwrap e m).
Proof. intros H bs Hb. specialize (H bs Hb). unfold mwrap. by destruct (m bs) as [c [[a rest]|?|]]. Qed.
Lemma costs_fuel {A} (size : A -> N) s p m : costs size s p m -> forall fuel n bs, bytes bs ->
  match mfuel fuel m n bs with
  | (c, Ok (l, rest)) => lenN l = n /\ c = sum (map size l) /\ bytes rest /\ c + s * n + 24 * lenN rest <= 24 * lenN bs
  | (c, _) => c <= 24 * lenN bs + p
  end.
Proof.
  intros H. induction fuel as [|fuel IH]; intros n bs Hb; cbn [mfuel].
  - destruct (N.eqb_spec n 0) as [->|Hn]; [|lia]. split_and!; [done|done|done|lia].
  - destruct (N.eqb_spec n 0) as [->|Hn]; [split_and!; [done|done|done|lia]|].
    pose proof (H bs Hb) as H1. destruct (m bs) as [c [[a rest]|e|]]; [|lia|lia]. destruct H1 as (-> & Hr & H1).
    specialize (IH (n - 1) rest Hr). destruct (mfuel fuel m (n - 1) rest) as [d [[l r']|e|]]; [|lia|lia].
    destruct IH as (Hl & -> & Hr' & H2). split_and!; [unfold lenN in *; cbn; lia|done|done|].
    replace (s * n) with (s + s * (n - 1)); [lia|]. transitivity (s * (1 + (n - 1))); [lia|]. f_equal. lia.
Qed.
Lemma costs_make {A} (size : A -> N) s p m n : costs size s p m -> costs (slice s size) 0 (s * n + p) (mmake s m n).
Proof.
  intros H bs Hb. unfold mmake. pose proof (costs_fuel size s p m H (S (length bs)) n bs Hb) as H1.
  destruct (mfuel (S (length bs)) m n bs) as [c [[l rest]|e|]]; [|lia|lia].
  destruct H1 as (Hl & -> & Hr & H1). unfold slice. rewrite Hl. split_and!; [done|done|lia].
Qed.
(** A count of [h] bytes below [lim], then that many elements. *)
Lemma costs_counted {A} (g : reader N) h lim e (size : A -> N) s t p m :
  stable g -> (forall bs n rest, g bs = Ok (n, rest) -> lenN bs = h + lenN rest) ->
  (forall bs n rest, bytes bs -> g bs = Ok (n, rest) -> n <= lim) ->
  costs size s p m -> t <= 24 * h ->
  costs (slice s size) t (s * lim + p) (mthen (free (rwrap e g)) (fun n => mwrap e (mmake s m n))).
Proof.
  intros Hst Hlen Hlim H Ht bs Hb. unfold mthen, free, rwrap. destruct (g bs) as [[n rest]|e'|] eqn:E; cbn [wrap_err]; [|lia|lia].
  destruct (Hst _ _ _ E) as (u & Hu & _). pose proof (Hlen _ _ _ E) as Hl. pose proof (Hlim _ _ _ Hb E) as Hn.
  assert (Hr : bytes rest) by (rewrite Hu in Hb; by apply Forall_app in Hb as [_ Hb]).
  pose proof (costs_wrap e _ _ _ _ (costs_make size s p m n H) rest Hr) as H1.
  destruct (mwrap e (mmake s m n) rest) as [c [[l r']|e'|]]; rewrite ?N.add_0_l.
  - destruct H1 as (-> & Hr' & H1). split_and!; [done|done|lia].
  - assert (s * n <= s * lim) by (apply N.mul_le_mono_l; lia). lia.
  - assert (s * n <= s * lim) by (apply N.mul_le_mono_l; lia). lia.
Qed.

Lemma u8_len bs n rest : get_u8 bs = Ok (n, rest) -> lenN bs = 1 + lenN rest.
Proof. destruct bs; [done|]. intros [= <- <-]. unfold lenN; cbn; lia. Qed.
Lemma u8_lim bs n rest : bytes bs -> get_u8 bs = Ok (n, rest) -> n <= 255.
Proof. destruct bs; [done|]. intros H [= <- <-]. apply Forall_cons in H as [H _]. lia. Qed.
Ltac bits H := unfold mbind, reader_bind, mret, reader_ret, get_u8 in H; repeat match type of H with context [match ?b with [] => _ | _ => _ end] => destruct b as [|? ?]; [done|] end; injection H as <- <-.
Lemma u16_len bs n rest : get_u16 bs = Ok (n, rest) -> lenN bs = 2 + lenN rest.
Proof. intros H. unfold get_u16 in H. bits H. unfold lenN; cbn; lia. Qed.
Lemma u16_lim bs n rest : bytes bs -> get_u16 bs = Ok (n, rest) -> n <= 65535.
Proof. intros Hb H. unfold get_u16 in H. bits H. unfold bytes in Hb. rewrite !Forall_cons in Hb. lia. Qed.
Lemma u32_len bs n rest : get_u32 bs = Ok (n, rest) -> lenN bs = 4 + lenN rest.
Proof. intros H. unfold get_u32 in H. bits H. unfold lenN; cbn; lia. Qed.
Lemma u32_lim bs n rest : bytes bs -> get_u32 bs = Ok (n, rest) -> n <= 4294967295.
Proof. intros Hb H. unfold get_u32 in H. bits H. unfold bytes in Hb. rewrite !Forall_cons in Hb. lia. Qed.
Lemma name_len bs n rest : name_read bs = Ok (n, rest) -> lenN bs = 4 + lenN rest.
Proof.
  unfold name_read, mbind, reader_bind, rwrap. destruct (get_bytes4 bs) as [[x r]|e|] eqn:E; cbn [wrap_err]; try done.
  unfold rlift. destruct (name_unmarshal x); try done. intros [= <- <-]. unfold get_bytes4 in E. bits E. unfold lenN; cbn; lia.
Qed.
Lemma tag_len bs t rest : tag_read bs = Ok (t, rest) -> lenN bs = 8 + lenN rest.
Proof.
  unfold tag_read, mbind, reader_bind, rwrap. destruct (name_read bs) as [[x r]|e|] eqn:E; cbn [wrap_err]; try done.
  destruct (name_read r) as [[y r']|e|] eqn:E'; cbn [wrap_err]; try done. intros [= <- <-].
  apply name_len in E, E'. lia.
Qed.
Lemma item_len bs t rest : item_read bs = Ok (t, rest) -> lenN bs = 16 + lenN rest.
Proof.
  unfold item_read, mbind, reader_bind.
  destruct (get_u32 bs) as [[a r1]|e|] eqn:E1; try done. destruct (get_u32 r1) as [[b r2]|e|] eqn:E2; try done.
  destruct (get_u32 r2) as [[c r3]|e|] eqn:E3; try done. destruct (get_u32 r3) as [[d r4]|e|] eqn:E4; try done.
  intros [= <- <-]. apply u32_len in E1, E2, E3, E4. lia.
Qed.

Lemma costs_tags : costs (slice 32 none) 0 8160 m_tags.
Proof.
  apply (costs_counted get_u8 1 255 EUnmarshal none 32 0 0); [exact stable_u8|exact u8_len|exact u8_lim| |lia].
  apply costs_free; [exact stable_tag|]. intros bs a rest H. apply tag_len in H. lia.
Qed.
Lemma costs_sets : costs (slice 24 (slice 24 (slice 1 none))) 0 103080788175 m_tagset_index.
Proof.
  apply (costs_counted get_u32 4 4294967295 EIndex _ 24 0 1573095); [exact stable_u32|exact u32_len|exact u32_lim| |lia].
  apply (costs_counted get_u16 2 65535 EIndex _ 24 24 255); [exact stable_u16|exact u16_len|exact u16_lim| |lia].
  apply (costs_counted get_u8 1 255 EIndex _ 1 24 0); [exact stable_u8|exact u8_len|exact u8_lim| |lia].
  apply costs_free; [exact stable_u8|]. intros bs a rest H. apply u8_len in H. lia.
Qed.
Lemma costs_cols : costs (slice 24 (slice 24 (slice 4 none))) 0 103079222220 m_variants.
Proof.
  apply (costs_counted get_u8 1 255 EIndex _ 24 0 103079216100); [exact stable_u8|exact u8_len|exact u8_lim| |lia].
  apply (costs_counted get_u32 4 4294967295 EIndex _ 24 24 1020); [exact stable_u32|exact u32_len|exact u32_lim| |lia].
  apply (costs_counted get_u8 1 255 EIndex _ 4 24 0); [exact stable_u8|exact u8_len|exact u8_lim| |lia].
  apply costs_free; [exact stable_u32|]. intros bs a rest H. apply u32_len in H. lia.
Qed.
Lemma costs_weak {A} (size : A -> N) s s' p p' m : s' <= s -> p <= p' -> costs size s p m -> costs size s' p' m.
Proof. intros Hs Hp H bs Hb. specialize (H bs Hb). destruct (m bs) as [c [[a rest]|e|]]; [destruct H as (? & ? & ?); split_and!; [done|done|lia]|lia|lia]. Qed.
Lemma costs_bind {A B} (size : A -> N) (size2 : B -> N) p m (f : A -> mem B) :
  costs size 0 p m ->
  (forall a bs, bytes bs -> match f a bs with
     | (c, Ok (b, rest)) => size a + c = size2 b /\ bytes rest /\ c + 24 * lenN rest <= 24 * lenN bs
     | (c, _) => c <= 24 * lenN bs + p end) ->
  costs size2 0 p (mthen m f).
Proof.
  intros H Hf bs Hb. specialize (H bs Hb). unfold mthen. destruct (m bs) as [c [[a rest]|e|]]; [|lia|lia].
  destruct H as (-> & Hr & H). specialize (Hf a rest Hr). destruct (f a rest) as [d [[b r']|e|]]; [|lia|lia].
  destruct Hf as (? & ? & ?). split_and!; [lia|done|lia].
Qed.
Lemma costs_items : costs (fun i => slice 16 none (its_list i)) 0 68719476720 m_items.
Proof.
  intros bs Hb. unfold m_items, mthen at 1, free at 1. destruct (get_u32 bs) as [[n rest]|e|] eqn:E; [|lia|lia].
  destruct (stable_u32 _ _ _ E) as (u & Hu & _).
  assert (Hr : bytes rest) by (rewrite Hu in Hb; by apply Forall_app in Hb as [_ Hb]).
  pose proof (u32_lim _ _ _ Hb E) as Hn. apply u32_len in E.
  assert (H : costs none 16 0 (free item_read)).
  { apply costs_free; [exact stable_item|]. intros b a r H. apply item_len in H. lia. }
  pose proof (costs_make none 16 0 (free item_read) n H rest Hr) as H1.
  unfold mthen. destruct (mmake 16 (free item_read) n rest) as [c [[l r']|e|]]; [|lia|lia].
  destruct H1 as (-> & Hr' & H1). unfold free, mret, reader_ret. cbn [its_list]. split_and!; [lia|done|lia].
Qed.
Lemma costs_section {A} (size : A -> N) sec p m : costs size 0 p m ->
  costs size 0 p (mthen (free (read_section sec)) (fun _ => m)).
Proof.
  intros H. apply (costs_bind none); [apply (costs_weak _ 0 _ 0); [lia|lia|]; apply costs_free; [exact (stable_section sec)|]|].
  - intros bs a rest E. destruct (stable_section sec _ _ _ E) as (u & -> & _). unfold lenN. rewrite app_length. lia.
  - intros u bs Hb. specialize (H bs Hb). destruct (m bs) as [c [[b rest]|e|]]; [|lia|lia]. destruct H as (H1 & ? & ?). unfold none. split_and!; [lia|done|lia].
Qed.
Lemma costs_index ix : costs index_size 0 103080788175 (m_index ix).
Proof.
  unfold m_index.
  apply (costs_bind (slice 32 none)); [apply costs_wrap, costs_section, costs_wrap; by eapply costs_weak; [..|exact costs_tags]|].
  intros tags bs0 Hb0.
  pose proof (costs_wrap EIndex _ _ _ _ (costs_section _ sec_sets _ _ (costs_wrap EIndex _ _ _ _ costs_sets)) bs0 Hb0) as H.
  unfold mthen at 1. revert H. destruct (mwrap EIndex (mthen (free (read_section sec_sets)) (fun _ => mwrap EIndex m_tagset_index)) bs0) as [c0 [[sets r0]|e|]]; intros H; [|lia|lia].
  destruct H as (-> & Hb1 & H0).
  pose proof (costs_wrap EIndex _ _ _ _ (costs_section _ sec_cols _ _ (costs_wrap EIndex _ _ _ _ costs_cols)) r0 Hb1) as H.
  unfold mthen at 1. revert H. destruct (mwrap EIndex (mthen (free (read_section sec_cols)) (fun _ => mwrap EIndex m_variants)) r0) as [c1 [[cols r1]|e|]]; intros H; [|lia|lia].
  destruct H as (-> & Hb2 & H1).
  pose proof (costs_section _ sec_items _ _ (costs_wrap EIndex _ _ _ _ costs_items) r1 Hb2) as H.
  unfold mthen at 1. revert H. destruct (mthen (free (read_section sec_items)) (fun _ => mwrap EIndex m_items) r1) as [c2 [[its r2]|e|]]; intros H; [|lia|lia].
  destruct H as (-> & Hb3 & H2).
  destruct (rebuild its (ix_children ix) (ix_words ix)) as [m w]. unfold free, mret, reader_ret. unfold index_size. cbn [ix_tags ix_sets ix_cols ix_items].
  split_and!; [lia|done|lia].
Qed.

(** ** The theorems *)
Lemma l_C72_same_reader : forall ix bs, (m_index ix bs).2 = index_read ix bs.
Proof. exact erase_index. Qed.
Lemma l_C72_accepted : forall bs ix rest, Forall (fun b => b < 256) bs -> index_read index_new bs = Ok (ix, rest) ->
  asked bs = index_size ix /\ index_size ix + 24 * lenN rest <= 24 * lenN bs.
Proof.
  intros bs ix rest Hb H. unfold asked. pose proof (costs_index index_new bs Hb) as Hc. pose proof (erase_index index_new bs) as He.
  destruct (m_index index_new bs) as [c x]. cbn in He. subst x. rewrite H in Hc. destruct Hc as (-> & _ & ?). cbn [fst]. split; [done|lia].
Qed.
Lemma l_C72_any_file : forall bs, Forall (fun b => b < 256) bs -> asked bs <= 24 * lenN bs + 103080788175.
Proof.
  intros bs Hb. unfold asked. pose proof (costs_index index_new bs Hb) as Hc.
  destruct (m_index index_new bs) as [c [[a rest]|e|]]; cbn [fst]; [lia|lia|lia].
Qed.
