(** Any index file that loads, whatever wrote it: C62. *)
From Coq Require Import ZifyBool ZifyNat ZifyN.
From Verif Require Import Base Storage Bin Utf8 Tags TagSets Variants Items Index BaseFacts BinFacts CodecFacts
  Intern TrieFacts ReloadFacts QueryFacts ThmConc Foreign.
From stdpp Require Import list gmap.
Open Scope N_scope.

(** What the loaded index keeps of the records of the file. *)
Definition records (ix : Index.index) : list (N * Z * N) :=
  map (fun it => (it_parent it, it_letter it, it_variants it)) (its_list (ix_items ix)).

(** ** The bytes *)
Lemma get_u32_inv bs n rest : get_u32 bs = Ok (n, rest) ->
  exists a b c d, bs = [a; b; c; d] ++ rest /\ n = be [a; b; c; d].
Proof.
  unfold get_u32, get_u8, mbind, reader_bind, mret, reader_ret. intros H.
  destruct bs as [|a [|b [|c [|d bs]]]]; try done. injection H as <- <-. exists a, b, c, d.
  split; [done|]. unfold be. cbn [fold_left]. lia.
Qed.
Lemma item_read_inv bs it rest : item_read bs = Ok (it, rest) ->
  exists b, bs = b ++ rest /\ length b = 16%nat /\ record_of b = (it_parent it, it_letter it, it_variants it).
Proof.
  unfold item_read. intros H.
  apply rbind_inv in H as (p & b1 & E1 & H). apply rbind_inv in H as (i & b2 & E2 & H).
  apply rbind_inv in H as (l & b3 & E3 & H). apply rbind_inv in H as (v & b4 & E4 & H).
  injection H as <- <-. cbn [it_parent it_letter it_variants].
  apply get_u32_inv in E1 as (a1 & a2 & a3 & a4 & -> & ->). apply get_u32_inv in E2 as (a5 & a6 & a7 & a8 & -> & ->).
  apply get_u32_inv in E3 as (a9 & a10 & a11 & a12 & -> & ->). apply get_u32_inv in E4 as (a13 & a14 & a15 & a16 & -> & ->).
  exists [a1; a2; a3; a4; a5; a6; a7; a8; a9; a10; a11; a12; a13; a14; a15; a16]. done.
Qed.
Lemma read_fuel_inv fuel : forall n bs l rest, read_fuel fuel item_read n bs = Ok (l, rest) ->
  lenN l = n /\ exists blocks, bs = concat blocks ++ rest /\ Forall (fun b => length b = 16%nat) blocks /\
  map record_of blocks = map (fun it => (it_parent it, it_letter it, it_variants it)) l.
Proof.
  induction fuel as [|fuel IH]; intros n bs l rest H; cbn [read_fuel] in H.
  - destruct (N.eqb_spec n 0) as [->|?]; [|done]. injection H as <- <-. split; [done|]. by exists [].
  - destruct (N.eqb_spec n 0) as [->|Hn]; [injection H as <- <-; split; [done|]; by exists []|].
    destruct (item_read bs) as [[it b1]|?|] eqn:E; try done.
    destruct (read_fuel fuel item_read (n - 1) b1) as [[l' b2]|?|] eqn:E2; try done. injection H as <- <-.
    apply IH in E2 as (Hl & blocks & -> & Hf & Hm). apply item_read_inv in E as (b & -> & Hb & Hr).
    split; [rewrite lenN_cons; lia|]. exists (b :: blocks). cbn [concat map]. rewrite <- app_assoc, Hr, Hm.
    split; [done|]. split; [by constructor|done].
Qed.

Lemma wrap_ok {A} e (m : reader A) bs x : rwrap e m bs = Ok x -> m bs = Ok x.
Proof. unfold rwrap, wrap_err. by destruct (m bs). Qed.

(** What a successful load says about the index. *)
Lemma read_shape bs ix rest : bytes bs -> index_read index_new bs = Ok (ix, rest) ->
  (exists pre count blocks, bs = pre ++ count ++ concat blocks ++ rest /\ length count = 4%nat /\
     be count = N.of_nat (length blocks) /\ Forall (fun b => length b = 16%nat) blocks /\
     map record_of blocks = records ix) /\
  its_next (ix_items ix) = lenN (its_list (ix_items ix)) /\ its_next (ix_items ix) < 4294967296 /\
  forall p r c, child (ix_children ix) p r = Some c <->
    exists it, its_list (ix_items ix) !! N.to_nat c = Some it /\ at_edge p r it /\
      forall c' it', c < c' -> its_list (ix_items ix) !! N.to_nat c' = Some it' -> ~ at_edge p r it'.
Proof.
  unfold index_read. intros Hb H.
  apply rbind_inv in H as (tags & b1 & E1 & H). apply rbind_inv in H as (sets & b2 & E2 & H).
  apply rbind_inv in H as (cols & b3 & E3 & H). apply rbind_inv in H as (its & b4 & E4 & H).
  assert (Hpre : exists pre, bs = pre ++ b3).
  { apply (stable_wrap EIndex) in E1 as (u1 & -> & _);
      [|apply stable_bind; [apply stable_section|intros; apply stable_wrap, stable_tags]].
    apply (stable_wrap EIndex) in E2 as (u2 & -> & _);
      [|apply stable_bind; [apply stable_section|intros; apply stable_wrap, stable_tagset_index]].
    apply (stable_wrap EIndex) in E3 as (u3 & -> & _);
      [|apply stable_bind; [apply stable_section|intros; apply stable_wrap, stable_variants]].
    exists (u1 ++ u2 ++ u3). by rewrite <- !app_assoc. }
  destruct Hpre as [pre ->].
  apply rbind_inv in E4 as (u & b5 & E5 & E4). apply wrap_ok in E4.
  apply (stable_section sec_items) in E5 as (u5 & -> & _).
  unfold items_read in E4. apply rbind_inv in E4 as (n & b6 & E6 & E4). apply rbind_inv in E4 as (l & b7 & E7 & E4).
  injection E4 as <- <-. apply get_u32_inv in E6 as (a & b & c & d & -> & ->).
  apply read_fuel_inv in E7 as (Hl & blocks & -> & Hf & Hm).
  assert (Hlt : be [a; b; c; d] < 4294967296).
  { unfold bytes in Hb. rewrite !Forall_app in Hb. destruct Hb as (_ & _ & Hb & _).
    repeat (apply Forall_cons in Hb as [? Hb]). unfold be. cbn [fold_left]. lia. }
  assert (Hlen : length blocks = length l) by (rewrite <- (map_length record_of), Hm; by rewrite map_length).
  unfold rebuild in H. cbn [its_list ix_children ix_words index_new] in H.
  destruct (rebuild_loop 0 l (ensure_map ∅ 0) 0) as [m wc] eqn:Em. injection H as <- <-. cbn [ix_items its_list its_next ix_children].
  split; [|split; [done|split; [done|]]].
  - exists (pre ++ u5), [a; b; c; d], blocks. rewrite <- !app_assoc. split; [done|]. split; [done|].
    split; [rewrite <- Hl, Hlen; done|]. split; [done|exact Hm].
  - intros p r x. replace m with (rebuild_loop 0 l (ensure_map ∅ 0) 0).1 by by rewrite Em.
    rewrite rebuild_child by (rewrite Hl; lia). rewrite child_ensure. unfold child at 1. rewrite lookup_empty. split.
    + intros [(j & it & Hj & He & -> & Hlast)|[_ ?]]; [|done]. exists it. rewrite N.add_0_l, Nat2N.id.
      split; [done|]. split; [done|]. intros c' it' Hc' Hi. apply (Hlast (N.to_nat c')); [lia|done].
    + intros (it & Hi & He & Hlast). left. exists (N.to_nat x), it. split; [done|]. split; [done|]. split; [lia|].
      intros j' it' Hj' Hi'. apply (Hlast (N.of_nat j')); [lia|by rewrite Nat2N.id].
Qed.

Lemma records_lookup ix n p r v : records ix !! n = Some (p, r, v) <->
  exists it, its_list (ix_items ix) !! n = Some it /\ at_edge p r it /\ it_variants it = v.
Proof.
  unfold records. rewrite list_lookup_fmap_Some. split.
  - intros (it & Hi & H). injection H as -> -> ->. exists it. done.
  - intros (it & Hi & [<- <-] & <-). exists it. done.
Qed.

Section foreign.
  Context (ix : Index.index).
  Hypothesis Hnext : its_next (ix_items ix) = lenN (its_list (ix_items ix)).
  Hypothesis Hchild : forall p r c, child (ix_children ix) p r = Some c <->
    exists it, its_list (ix_items ix) !! N.to_nat c = Some it /\ at_edge p r it /\
      forall c' it', c < c' -> its_list (ix_items ix) !! N.to_nat c' = Some it' -> ~ at_edge p r it'.

  Lemma child_walk w p r c : walk (records ix) w p -> child (ix_children ix) p r = Some c -> walk (records ix) (w ++ [r]) c.
  Proof.
    intros Hw (it & Hi & He & Hl)%Hchild. apply (walk_letter _ w p r c (it_variants it)); [done| |].
    - apply records_lookup. by exists it.
    - intros n' v' Hn (it' & Hi' & He' & _)%records_lookup. by apply (Hl n' it').
  Qed.
  Lemma walk_child w r c : walk (records ix) (w ++ [r]) c <->
    exists p, walk (records ix) w p /\ child (ix_children ix) p r = Some c.
  Proof.
    split.
    - inversion 1 as [E|w' p r' n v Hw Hi Hl E]; [by destruct w|]. apply app_inj_tail in E as [-> ->].
      exists p. split; [done|]. apply Hchild. apply records_lookup in Hi as (it & Hi & He & _). exists it.
      split; [done|]. split; [done|]. intros c' it' Hc Hi' He'. apply (Hl c' (it_variants it') Hc). apply records_lookup.
      by exists it'.
    - intros (p & Hw & Hc). by apply child_walk with p.
  Qed.
  Lemma walk_fun w : forall a b, walk (records ix) w a -> walk (records ix) w b -> a = b.
  Proof.
    induction w as [|r w IH] using rev_ind; intros a b.
    - inversion 1 as [|? ? ? ? ? ? ? ? E]; [|by destruct w]. inversion 1 as [|? ? ? ? ? ? ? ? E']; [done|by destruct w].
    - rewrite !walk_child. intros (p & Hp & Ha) (q & Hq & Hb). rewrite (IH _ _ Hp Hq) in Ha. congruence.
  Qed.
  Lemma walk_app u v p c : walk (records ix) u p -> walk (records ix) (u ++ v) c ->
    forall r v', v = r :: v' -> exists n, child (ix_children ix) p r = Some n /\ walk (records ix) (u ++ [r]) n.
  Proof.
    revert c. induction v as [|x v IH] using rev_ind; intros c Hu Hc r v' E; [done|].
    rewrite app_assoc in Hc. apply walk_child in Hc as (q & Hq & Hqc). destruct v as [|y v].
    - injection E as -> <-. rewrite app_nil_r in Hq. rewrite (walk_fun _ _ _ Hu Hq). exists c. split; [done|].
      by apply child_walk with q.
    - injection E as -> E. by apply (IH q Hu Hq r v).
  Qed.

  (** ** Climbing *)
  Notation st := (fun n => n <> 0 /\ exists p r v, records ix !! N.to_nat n = Some (p, r, v) /\ p <> 0).
  Notation cl := (climbs (records ix)).
  Lemma item_at n : n <> 0 -> get_item ix n = match its_list (ix_items ix) !! N.to_nat n with
    | Some it => Ok (Some it) | None => Ok None end.
  Proof.
    intros H0. unfold get_item, items_get. rewrite (proj2 (N.eqb_neq n 0)) by done. rewrite Hnext.
    destruct (its_list (ix_items ix) !! N.to_nat n) as [it|] eqn:E.
    - apply lookup_lt_Some in E as Hlt. destruct (N.leb_spec (lenN (its_list (ix_items ix))) n) as [Hl|Hl]; [unfold lenN in Hl; lia|].
      unfold slice_get. by rewrite E.
    - apply lookup_ge_None in E. by rewrite (proj2 (N.leb_le _ _)) by (unfold lenN; lia).
  Qed.
  Lemma word_panic fuel : forall n, word_fuel fuel ix n = Panic <-> cl fuel n.
  Proof.
    induction fuel as [|f IH]; intros n; [done|]. cbn [word_fuel climbs].
    destruct (N.eqb_spec n 0) as [->|H0]; [split; [done|by intros []]|]. rewrite (item_at n H0).
    destruct (its_list (ix_items ix) !! N.to_nat n) as [it|] eqn:E; cbn [mbind res_bind].
    - assert (Hr : records ix !! N.to_nat n = Some (it_parent it, it_letter it, it_variants it))
        by (apply records_lookup; by exists it).
      destruct (N.eqb_spec (it_parent it) 0) as [Hp|Hp].
      + split; [done|]. intros [_ (p & r & v & E' & Hne & _)]. rewrite Hr in E'. by injection E' as <- <- <-.
      + split.
        * intros H. split; [done|]. exists (it_parent it), (it_letter it), (it_variants it). split; [done|]. split; [done|].
          apply IH. by destruct (word_fuel f ix (it_parent it)).
        * intros [_ (p & r & v & E' & Hne & Hc)]. rewrite Hr in E'. injection E' as <- <- <-. apply IH in Hc. by rewrite Hc.
    - split; [done|]. intros [_ (p & r & v & (it & E' & _)%records_lookup & _)]. congruence.
  Qed.
  (** j steps up *)
  Fixpoint up (j : nat) (n m : N) : Prop :=
    match j with
    | O => n = m
    | S j' => n <> 0 /\ exists p r v, records ix !! N.to_nat n = Some (p, r, v) /\ p <> 0 /\ up j' p m
    end.
  Lemma up_climb j : forall n m k, up j n m -> cl k m -> cl (j + k) n.
  Proof.
    induction j as [|j IH]; intros n m k; cbn [up]; [by intros ->|].
    intros [H0 (p & r & v & E & Hp & H)] Hk. split; [done|]. exists p, r, v. split; [done|]. split; [done|]. by apply IH with m.
  Qed.
  Lemma climb_le k : forall n j, cl k n -> (j <= k)%nat -> cl j n.
  Proof.
    induction k as [|k IH]; intros n [|j] H Hj; [done|lia|done|].
    destruct H as [H0 (p & r & v & E & Hp & H)]. split; [done|]. exists p, r, v. split; [done|]. split; [done|]. apply IH; [done|lia].
  Qed.
  Lemma loop_forever j n : up (S j) n n -> forall k, cl k n.
  Proof.
    intros H k. apply climb_le with (k * S j)%nat; [|lia]. induction k as [|k IH]; [done|].
    cbn [Nat.mul]. by apply up_climb with n.
  Qed.
  Fixpoint trace (k : nat) (n : N) : list N :=
    match k with
    | O => []
    | S k' => n :: match records ix !! N.to_nat n with Some (p, _, _) => trace k' p | None => [] end
    end.
  Lemma trace_up k : forall n m, cl k n -> m ∈ trace k n -> exists j, up j n m.
  Proof.
    induction k as [|k IH]; intros n m H Hm; cbn in Hm; [by apply elem_of_nil in Hm|].
    destruct H as [H0 (p & r & v & E & Hp & H)]. rewrite E in Hm. apply elem_of_cons in Hm as [->|Hm]; [by exists 0%nat|].
    destruct (IH p m H Hm) as [j Hj]. exists (S j). split; [done|]. by exists p, r, v.
  Qed.
  Lemma trace_length k : forall n, cl k n -> length (trace k n) = k.
  Proof.
    induction k as [|k IH]; intros n H; [done|]. destruct H as [H0 (p & r & v & E & Hp & H)]. cbn. rewrite E. cbn. f_equal. by apply IH.
  Qed.
  Lemma trace_in k : forall n m, cl k n -> m ∈ trace k n -> m ∈ map N.of_nat (seq 0 (length (records ix))).
  Proof.
    induction k as [|k IH]; intros n m H Hm; cbn in Hm; [by apply elem_of_nil in Hm|].
    destruct H as [H0 (p & r & v & E & Hp & H)]. rewrite E in Hm. apply elem_of_cons in Hm as [->|Hm]; [|by apply (IH p)].
    apply lookup_lt_Some in E. apply elem_of_list_fmap. exists (N.to_nat n). split; [lia|]. apply elem_of_seq. lia.
  Qed.
  Lemma trace_nodup k : forall n, cl k n -> NoDup (trace k n) \/ forall k', cl k' n.
  Proof.
    induction k as [|k IH]; intros n Hn; [left; constructor|].
    pose proof Hn as [H0 (p & r & v & E & Hp & H)]. destruct (IH p H) as [Hd|Hf].
    - destruct (decide (n ∈ trace k p)) as [Hin|Hnin].
      + right. destruct (trace_up k p n H Hin) as [j Hj]. apply (loop_forever j). split; [done|]. by exists p, r, v.
      + left. cbn. rewrite E. by constructor.
    - right. intros k'. apply climb_le with (S k'); [|lia]. split; [done|]. exists p, r, v. done.
  Qed.
  Lemma climb_all n : cl (S (length (records ix))) n -> forall k, cl k n.
  Proof.
    intros H. destruct (trace_nodup _ n H) as [Hd|]; [|done]. exfalso.
    pose proof (trace_length _ _ H) as Hl.
    assert (Hs : trace (S (length (records ix))) n ⊆+ map N.of_nat (seq 0 (length (records ix)))).
    { apply NoDup_submseteq; [done|]. intros m. by apply trace_in. }
    apply submseteq_length in Hs. rewrite Hl, map_length, seq_length in Hs. lia.
  Qed.
  Lemma node_word_panic n : node_word ix n = Panic <-> forall k, cl k n.
  Proof.
    unfold node_word. rewrite word_panic.
    replace (length (its_list (ix_items ix))) with (length (records ix)) by apply map_length.
    split; [apply climb_all|]. intros H. apply H.
  Qed.
  (** On a way from the start climbing ends. *)
  Lemma walk_ends w : forall n, walk (records ix) w n -> exists u v, w = u ++ v /\ walk (records ix) u 0 /\
    forall fuel, (length v < fuel)%nat -> word_fuel fuel ix n = Ok (string_of_runes v).
  Proof.
    induction w as [|r w IH] using rev_ind; intros n H.
    - inversion H as [|? ? ? ? ? ? ? ? E]; [subst|by destruct w]. exists [], []. split; [done|]. split; [done|].
      intros [|f] Hf; [cbn in Hf; lia|]. done.
    - destruct (N.eq_dec n 0) as [->|H0].
      { exists (w ++ [r]), []. split; [by rewrite app_nil_r|]. split; [done|]. intros [|f] Hf; [cbn in Hf; lia|]. done. }
      apply walk_child in H as (p & Hw & Hc). apply Hchild in Hc as (it & Hi & [<- <-] & _).
      destruct (IH _ Hw) as (u & v & -> & Hu & Hf). destruct (N.eq_dec (it_parent it) 0) as [Hp|Hp].
      + exists (u ++ v), [it_letter it]. split; [done|]. split; [by rewrite <- Hp|]. intros [|f] Hlt; [lia|]. cbn [word_fuel].
        rewrite (proj2 (N.eqb_neq n 0)) by done. rewrite (item_at n H0), Hi. cbn [mbind res_bind].
        rewrite (proj2 (N.eqb_eq _ _)) by done. unfold string_of_runes. cbn. by rewrite app_nil_r.
      + exists u, (v ++ [it_letter it]). split; [by rewrite app_assoc|]. split; [done|]. intros [|f] Hlt; [lia|]. cbn [word_fuel].
        rewrite (proj2 (N.eqb_neq n 0)) by done. rewrite (item_at n H0), Hi. cbn [mbind res_bind].
        rewrite (proj2 (N.eqb_neq _ _)) by done. rewrite app_length in Hlt. cbn in Hlt. rewrite Hf by lia.
        unfold string_of_runes. rewrite map_app, concat_app. cbn. by rewrite app_nil_r.
  Qed.
  Lemma word_more f : forall f' n, (f <= f')%nat -> word_fuel f ix n <> Panic -> word_fuel f' ix n = word_fuel f ix n.
  Proof.
    induction f as [|f IH]; intros [|f'] n Hle Hp; try done; [lia|]. cbn [word_fuel] in *.
    destruct (N.eqb_spec n 0) as [->|H0]; [done|]. destruct (get_item ix n) as [[it|]|?|]; cbn [mbind res_bind] in *; try done.
    destruct (N.eqb_spec (it_parent it) 0) as [?|?]; [done|]. rewrite (IH f'); [done|lia|]. by destruct (word_fuel f ix (it_parent it)).
  Qed.
  Lemma walk_word w n : walk (records ix) w n -> exists u v, w = u ++ v /\ walk (records ix) u 0 /\
    node_word ix n = Ok (string_of_runes v).
  Proof.
    intros H. destruct (walk_ends w n H) as (u & v & E & Hu & Hf). exists u, v. split; [done|]. split; [done|].
    assert (Hn : node_word ix n <> Panic).
    { intros Hp. pose proof (proj1 (node_word_panic n) Hp (S (length v))) as Hc. apply word_panic in Hc.
      rewrite Hf in Hc by lia. done. }
    unfold node_word in *. rewrite <- (word_more _ (S (length v) + S (length (its_list (ix_items ix)))) n); [|lia|done].
    apply Hf. lia.
  Qed.

  (** ** Lookup *)
  Lemma fetch_walk rest : forall u p r, walk (records ix) u p ->
    match (fetch_loop ix p (r :: rest)).2 with
    | Ok n => walk (records ix) (u ++ r :: rest) n
    | Err e => e = EIndex /\ forall n, ~ walk (records ix) (u ++ r :: rest) n
    | Panic => False
    end.
  Proof.
    induction rest as [|r2 rest IH]; intros u p r Hu; rewrite fetch_loop_eq; destruct (child (ix_children ix) p r) as [n|] eqn:E.
    - unfold index_get. apply (child_walk u) in E as Hw; [|done]. apply Hchild in E as (it & Hi & _). apply lookup_lt_Some in Hi.
      rewrite Hnext. rewrite (proj2 (N.leb_gt _ _)) by (unfold lenN; lia). done.
    - destruct (walk_word u p Hu) as (? & ? & _ & _ & ->). cbn. split; [done|]. intros n Hn.
      destruct (walk_app u [r] p n Hu Hn r [] eq_refl) as (m & Em & _). congruence.
    - apply (child_walk u) in E as Hw; [|done]. specialize (IH (u ++ [r]) n r2 Hw). rewrite <- app_assoc in IH. exact IH.
    - destruct (walk_word u p Hu) as (? & ? & _ & _ & ->). cbn. split; [done|]. intros n Hn.
      destruct (walk_app u (r :: r2 :: rest) p n Hu Hn r (r2 :: rest) eq_refl) as (m & Em & _). congruence.
  Qed.
End foreign.

(** ** The property *)
Lemma l_C62_records : forall bs ix rest, bytes bs -> index_read index_new bs = Ok (ix, rest) ->
  exists pre count blocks, bs = pre ++ count ++ concat blocks ++ rest /\ length count = 4%nat /\
    be count = N.of_nat (length blocks) /\ Forall (fun b => length b = 16%nat) blocks /\
    map record_of blocks = records ix.
Proof. intros bs ix rest Hb H. apply (read_shape bs ix rest Hb H). Qed.

Lemma l_C62_lookup : forall bs ix rest w, bytes bs -> index_read index_new bs = Ok (ix, rest) ->
  match (fetch_runes ix w).2 with
  | Ok n => w <> [] /\ walk (records ix) w n
  | Err e => e = EIndex /\ (w = [] \/ forall n, ~ walk (records ix) w n)
  | Panic => False
  end.
Proof.
  intros bs ix rest w Hb H. destruct (read_shape bs ix rest Hb H) as (_ & H1 & H2 & H3).
  destruct w as [|r w]; [by split; [|left]|]. unfold fetch_runes, fetch_from_item.
  pose proof (fetch_walk ix H1 H3 w [] 0 r (walk_start _)) as E.
  destruct ((fetch_loop ix 0 (r :: w)).2) as [n|e|]; [done| |done]. destruct E as [-> E]. split; [done|]. by right.
Qed.

Lemma l_C62_word_of_found : forall bs ix rest w n, bytes bs -> index_read index_new bs = Ok (ix, rest) ->
  walk (records ix) w n -> exists u v, w = u ++ v /\ walk (records ix) u 0 /\ node_word ix n = Ok (string_of_runes v).
Proof.
  intros bs ix rest w n Hb H Hw. destruct (read_shape bs ix rest Hb H) as (_ & H1 & H2 & H3). by apply walk_word.
Qed.

Lemma l_C62_word_of_any : forall bs ix rest n, bytes bs -> index_read index_new bs = Ok (ix, rest) ->
  (node_word ix n = Panic <-> forall k, climbs (records ix) k n).
Proof.
  intros bs ix rest n Hb H. destruct (read_shape bs ix rest Hb H) as (_ & H1 & H2 & H3). by apply node_word_panic.
Qed.

Lemma be_lt b : bytes b -> be b < 256 ^ lenN b.
Proof.
  unfold be. induction b as [|x b IH] using rev_ind; intros Hb; [done|]. rewrite fold_left_app. cbn [fold_left].
  apply Forall_app in Hb as [Hb Hx]. apply Forall_cons in Hx as [Hx _]. specialize (IH Hb).
  unfold lenN in *. rewrite app_length. cbn [length]. replace (N.of_nat (length b + 1)) with (N.succ (N.of_nat (length b))) by lia.
  rewrite N.pow_succ_r'. lia.
Qed.
Lemma field_lt k b : bytes b -> field k b < 4294967296.
Proof.
  intros Hb. unfold field. pose proof (be_lt (take 4 (drop (4 * k) b))) as H.
  assert (Hb' : bytes (take 4 (drop (4 * k) b))) by by apply Forall_take, Forall_drop.
  specialize (H Hb'). eapply N.lt_le_trans; [exact H|]. change 4294967296 with (256 ^ 4). apply N.pow_le_mono_r; [done|].
  unfold lenN. rewrite take_length. lia.
Qed.
Lemma records_variant bs ix rest n p r v : bytes bs -> index_read index_new bs = Ok (ix, rest) ->
  records ix !! n = Some (p, r, v) -> v < 4294967296.
Proof.
  intros Hb H E. destruct (l_C62_records bs ix rest Hb H) as (pre & count & blocks & -> & _ & _ & Hf & Hm).
  rewrite <- Hm in E. apply list_lookup_fmap_Some in E as (b & Hl & [= _ _ ->]). apply field_lt.
  unfold bytes in Hb. rewrite !Forall_app in Hb. destruct Hb as (_ & _ & Hb & _).
  apply Forall_concat in Hb. eapply Forall_lookup_1 in Hb; done.
Qed.
Lemma l_C62_tag_sets : forall bs ix rest n, bytes bs -> index_read index_new bs = Ok (ix, rest) ->
  (node_tag_sets ix n = Panic <->
   n = 0 \/ match records ix !! N.to_nat n with
            | None => True
            | Some (_, _, v) => 65536 <= v /\
                (ix_cols ix !! N.to_nat (v / 65536 - 1)) ≫= (fun t => t !! N.to_nat (v mod 65536)) = None
            end).
Proof.
  intros bs ix rest n Hb H. destruct (read_shape bs ix rest Hb H) as (_ & H1 & H2 & H3).
  unfold node_tag_sets. destruct (N.eq_dec n 0) as [->|H0]; [split; [by left|done]|].
  rewrite (item_at ix H1 H3 n H0). destruct (its_list (ix_items ix) !! N.to_nat n) as [it|] eqn:E; cbn [mbind res_bind].
  - assert (Hr : records ix !! N.to_nat n = Some (it_parent it, it_letter it, it_variants it))
      by (apply records_lookup; by exists it).
    pose proof (records_variant _ _ _ _ _ _ _ Hb H Hr) as Hv.
    rewrite Hr, variants_get_at2, id32_upper_arith, id32_lower_arith by done. unfold at2.
    replace (N.to_nat (it_variants it / 65536) - 1)%nat with (N.to_nat (it_variants it / 65536 - 1)) by lia.
    set (x := ix_cols ix !! _ ≫= _). destruct (N.eqb_spec (it_variants it / 65536) 0) as [Hz|Hz].
    + split; [done|]. intros [?|[Hle _]]; [done|]. exfalso. apply N.div_small_iff in Hz; [lia|done].
    + assert (Hle : 65536 <= it_variants it).
      { destruct (N.lt_ge_cases (it_variants it) 65536) as [Hlt|?]; [|done]. by rewrite N.div_small in Hz. }
      destruct x; cbn; (split; [|intros [?|[_ ?]]; done]); [done|]. intros _. by right.
  - split; [|done]. intros _. right. destruct (records ix !! N.to_nat n) as [[[p r] v]|] eqn:Er; [|done].
    apply records_lookup in Er as (? & ? & _). congruence.
Qed.
