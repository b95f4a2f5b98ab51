(** Proofs of C38. *)
From Coq Require Import ZifyBool ZifyNat ZifyN.
From Verif Require Import Base Storage Bin TagSets Streams BaseFacts BinFacts.
From stdpp Require Import list.
Open Scope N_scope.

Definition enc (put : N -> list N) (l : list N) : list N := concat (map put l).

Lemma sink_put_spec s bs s' ok : sink_put s bs = (s', ok) ->
  (ok = true /\ lenN bs <= sk_room s /\ s' = mkSink (sk_got s ++ bs) (sk_room s - lenN bs)) \/
  (ok = false /\ sk_room s < lenN bs /\ s' = mkSink (sk_got s ++ take (N.to_nat (sk_room s)) bs) 0).
Proof. unfold sink_put. destruct (N.leb_spec (lenN bs) (sk_room s)); intros [= <- <-]; auto. Qed.

Section gen.
  Context (put : N -> list N) (size : N).
  Context (put_len : forall x, lenN (put x) = size).
  Context (size_pos : 0 < size).

  Lemma enc_len l : lenN (enc put l) = size * lenN l.
  Proof.
    induction l as [|x l IH]; [unfold lenN; cbn; lia|].
    unfold enc in *. cbn [map concat]. rewrite lenN_app, lenN_cons, put_len, IH. lia.
  Qed.
  Lemma write_items_spec l : forall w s, let r := write_items put size l w s in
    sk_got (wr_sink r) = sk_got s ++ take (N.to_nat (sk_room s)) (enc put l) /\
    wr_count r = w + size * (N.min (sk_room s) (size * lenN l) / size) /\
    wr_err r = (if (size * lenN l <=? sk_room s) then None else Some EIO).
  Proof using put_len size_pos.
    induction l as [|x l IH]; intros w s r; subst r.
    { cbn. rewrite take_nil, app_nil_r, N.mul_0_r, N.min_0_r, N.div_0_l by lia.
      split; [done|]. split; [lia|]. by destruct (sk_room s). }
    cbn [write_items]. destruct (sink_put s (put x)) as [s' ok] eqn:E.
    apply sink_put_spec in E as [(-> & Hr & ->)|(-> & Hr & ->)]; rewrite ?put_len in *.
    - specialize (IH (w + size) (mkSink (sk_got s ++ put x) (sk_room s - size))).
      cbn in IH. destruct IH as (I1 & I2 & I3).
      rewrite I1, I2, I3. unfold enc at 2. cbn [map concat]. rewrite lenN_cons. fold (enc put l).
      split; [|split].
      + rewrite <- app_assoc. f_equal. pose proof (put_len x) as Hx. unfold lenN in Hx.
        rewrite take_app_ge by lia. do 2 f_equal. lia.
      + replace (N.min (sk_room s) (size * (lenN l + 1))) with
          (N.min (sk_room s - size) (size * lenN l) + 1 * size) by lia.
        rewrite N.div_add by lia. lia.
      + destruct (N.leb_spec (size * lenN l) (sk_room s - size));
          destruct (N.leb_spec (size * (lenN l + 1)) (sk_room s)); try done; lia.
    - cbn [wr_sink wr_count wr_err sk_got]. rewrite lenN_cons. split; [|split].
      + unfold enc. cbn [map concat]. f_equal. rewrite take_app_le; [done|].
        pose proof (put_len x) as Hx. unfold lenN in Hx. lia.
      + rewrite N.min_l by lia. rewrite N.div_small by lia. lia.
      + destruct (N.leb_spec (size * (lenN l + 1)) (sk_room s)); [lia|done].
  Qed.
  Lemma write_spec l s : let r := set_write_to put size l s in let all := put (lenN l) ++ enc put l in
    lenN all = size * (lenN l + 1) /\
    sk_got (wr_sink r) = sk_got s ++ take (N.to_nat (sk_room s)) all /\
    wr_count r = size * (N.min (sk_room s) (lenN all) / size) /\
    (wr_err r = None <-> lenN all <= sk_room s).
  Proof using put_len size_pos.
    cbv zeta.
    assert (Hall : lenN (put (lenN l) ++ enc put l) = size * (lenN l + 1))
      by (rewrite lenN_app, put_len, enc_len; lia).
    split; [done|]. rewrite Hall. unfold set_write_to.
    destruct (sink_put s (put (lenN l))) as [s' ok] eqn:E.
    pose proof (put_len (lenN l)) as Hx. unfold lenN at 1 in Hx.
    apply sink_put_spec in E as [(-> & Hr & ->)|(-> & Hr & ->)]; rewrite ?put_len in *.
    - destruct (write_items_spec l size (mkSink (sk_got s ++ put (lenN l)) (sk_room s - size))) as (I1 & I2 & I3).
      cbn [sk_got sk_room] in *. rewrite I1, I2, I3. split; [|split].
      + rewrite <- app_assoc. f_equal. rewrite take_app_ge by lia. do 2 f_equal. lia.
      + replace (N.min (sk_room s) (size * (lenN l + 1))) with
          (N.min (sk_room s - size) (size * lenN l) + 1 * size) by lia.
        rewrite N.div_add by lia. lia.
      + destruct (N.leb_spec (size * lenN l) (sk_room s - size)); split; try done; lia.
    - cbn [wr_sink wr_count wr_err sk_got]. split; [|split].
      + f_equal. rewrite take_app_le; [done|]. lia.
      + rewrite N.min_l by lia. rewrite N.div_small by lia. lia.
      + split; [done|lia].
  Qed.
End gen.

Section gen_read.
  Context (src : list N -> option N * list N) (size : N) (lay : N -> list N) (ok : N -> Prop).
  Context (lay_len : forall x, lenN (lay x) = size).
  Context (size_pos : 0 < size).
  (** a source gives a value of the type iff the input starts with its layout. *)
  Context (src_some : forall bs x rest, bytes bs -> src bs = (Some x, rest) -> bs = lay x ++ rest /\ ok x).
  Context (src_lay : forall x rest, ok x -> src (lay x ++ rest) = (Some x, rest)).
  Context (src_none : forall bs rest, src bs = (None, rest) -> rest = [] /\ lenN bs < size).

  Lemma read_items_ok l : forall taken acc rest, Forall ok l ->
    read_items src size (length l) taken acc (flat_map lay l ++ rest) =
    mkRd (taken + size * lenN l) (Some (acc ++ l)) None rest.
  Proof using src_lay.
    induction l as [|x l IH]; intros taken acc rest H; cbn [read_items length flat_map].
    { rewrite lenN_nil, N.mul_0_r, N.add_0_r, app_nil_r. done. }
    apply Forall_cons in H as [Hx H]. rewrite <- app_assoc, src_lay by done.
    rewrite IH by done. rewrite lenN_cons, <- app_assoc. cbn. f_equal. clear. lia.
  Qed.
  Lemma read_items_inv n : forall taken acc bs, bytes bs ->
    let r := read_items src size n taken acc bs in
    (rd_err r = None /\ exists l, length l = n /\ Forall ok l /\ bs = flat_map lay l ++ rd_rest r /\
       rd_set r = Some (acc ++ l) /\ rd_count r = taken + size * lenN l) \/
    (rd_err r = Some EEOF /\ rd_rest r = [] /\ lenN bs < size * N.of_nat n /\
       rd_count r = taken + size * (lenN bs / size)).
  Proof using lay_len size_pos src_some src_none src_lay.
    induction n as [|n IH]; intros taken acc bs Hb r; subst r; cbn [read_items].
    { left. split; [done|]. exists []. cbn. rewrite app_nil_r. repeat split; try done. lia. }
    destruct (src bs) as [[x|] rest] eqn:E.
    - destruct (src_some _ _ _ Hb E) as [-> Hx]. apply Forall_app in Hb as [_ Hb].
      destruct (IH (taken + size) (acc ++ [x]) rest Hb) as [(H1 & l & Hl & Hok & Hr & H2 & H3)|(H1 & H2 & H3 & H4)].
      + left. split; [done|]. exists (x :: l). cbn [length flat_map]. split; [by f_equal|]. split; [by constructor|].
        rewrite Hr at 1. rewrite app_assoc. split; [done|]. rewrite H2, H3, lenN_cons, <- app_assoc. cbn.
        split; [done|lia].
      + right. rewrite lenN_app, lay_len. split; [done|]. split; [done|]. split; [lia|].
        rewrite H4. replace (size + lenN rest) with (lenN rest + 1 * size) by lia.
        rewrite N.div_add by lia. lia.
    - apply src_none in E as [-> Hlt]. right. cbn. split; [done|]. split; [done|]. split; [lia|].
      rewrite N.div_small by lia. lia.
  Qed.
  (** What a failure leaves: the items that were read and zeros. *)
  Lemma read_items_left n : forall taken acc bs, bytes bs ->
    let r := read_items src size n taken acc bs in rd_err r <> None ->
    exists l tail, bs = flat_map lay l ++ tail /\ lenN tail < size /\ (length l < n)%nat /\
      rd_set r = Some (acc ++ l ++ replicate (n - length l) 0).
  Proof using lay_len size_pos src_some src_none src_lay.
    induction n as [|n IH]; intros taken acc bs Hb r; subst r; cbn [read_items]; [done|].
    destruct (src bs) as [[x|] rest] eqn:E.
    - destruct (src_some _ _ _ Hb E) as [-> Hx]. apply Forall_app in Hb as [_ Hb]. intros He.
      destruct (IH (taken + size) (acc ++ [x]) rest Hb He) as (l & tail & -> & Ht & Hl & Hs).
      exists (x :: l), tail. cbn [flat_map length]. rewrite <- app_assoc. split; [done|]. split; [done|]. split; [lia|].
      rewrite Hs, <- app_assoc. done.
    - intros _. exists [], bs. apply src_none in E as [-> Hlt]. cbn. repeat split; [done|lia].
  Qed.
  Lemma read_from_left bs : bytes bs -> let r := set_read_from src size bs in rd_err r <> None ->
    (lenN bs < size /\ rd_set r = None) \/
    exists n l tail, ok n /\ bs = lay n ++ flat_map lay l ++ tail /\ lenN tail < size /\ lenN l < n /\
      rd_set r = Some (l ++ replicate (N.to_nat (n - lenN l)) 0).
  Proof using lay_len size_pos src_some src_none src_lay.
    intros Hb. cbv zeta. unfold set_read_from. destruct (src bs) as [[n|] rest] eqn:E; intros He.
    - right. destruct (src_some _ _ _ Hb E) as [-> Hx]. apply Forall_app in Hb as [_ Hb].
      destruct (read_items_left (N.to_nat n) size [] rest Hb He) as (l & tail & -> & Ht & Hl & Hs).
      exists n, l, tail. split; [done|]. split; [done|]. split; [done|]. unfold lenN. split; [lia|]. rewrite Hs. cbn [app].
      do 3 f_equal. lia.
    - left. apply src_none in E as [-> Hlt]. done.
  Qed.
  Lemma read_from_ok l rest : Forall ok l -> ok (lenN l) ->
    set_read_from src size ((lay (lenN l) ++ flat_map lay l) ++ rest) =
    mkRd (size * (lenN l + 1)) (Some l) None rest.
  Proof using src_lay.
    intros H Hn. unfold set_read_from. rewrite <- app_assoc, src_lay by done.
    unfold lenN at 1. rewrite Nat2N.id. rewrite read_items_ok by done. cbn. f_equal. clear. lia.
  Qed.
  Lemma read_from_inv bs : bytes bs -> let r := set_read_from src size bs in
    (rd_err r = None /\ exists l, Forall ok l /\ ok (lenN l) /\ bs = (lay (lenN l) ++ flat_map lay l) ++ rd_rest r /\
       rd_set r = Some l /\ rd_count r = size * (lenN l + 1)) \/
    (rd_err r = Some EEOF /\ rd_rest r = [] /\ rd_count r = size * (lenN bs / size) /\
     forall l rest, Forall ok l -> ok (lenN l) -> bs <> (lay (lenN l) ++ flat_map lay l) ++ rest).
  Proof using lay_len size_pos src_some src_none src_lay.
    intros Hb. cbv zeta. destruct (rd_err (set_read_from src size bs)) as [e|] eqn:Ee.
    - right.
      assert (Hno : forall l rest, Forall ok l -> ok (lenN l) -> bs <> (lay (lenN l) ++ flat_map lay l) ++ rest).
      { intros l rest Hl Hn ->. rewrite read_from_ok in Ee by done. done. }
      unfold set_read_from in *. destruct (src bs) as [[n|] rest] eqn:E.
      + destruct (src_some _ _ _ Hb E) as [-> Hx]. apply Forall_app in Hb as [_ Hb'].
        destruct (read_items_inv (N.to_nat n) size [] rest Hb') as [(H1 & _)|(H1 & H2 & H3 & H4)]; [congruence|].
        rewrite H1 in Ee. injection Ee as <-. rewrite lenN_app, lay_len. split; [done|]. split; [done|]. split; [|done].
        rewrite H4. replace (size + lenN rest) with (lenN rest + 1 * size) by lia.
        rewrite N.div_add by lia. lia.
      + destruct (src_none _ _ E) as [-> Hlt]. cbn in *. injection Ee as <-. split; [done|]. split; [done|].
        split; [|done]. rewrite N.div_small by lia. lia.
    - left. split; [done|]. unfold set_read_from in *. destruct (src bs) as [[n|] rest] eqn:E; [|done].
      destruct (src_some _ _ _ Hb E) as [-> Hx]. apply Forall_app in Hb as [_ Hb'].
      destruct (read_items_inv (N.to_nat n) size [] rest Hb') as [(H1 & l & Hl & Hok & Hr & H2 & H3)|(H1 & H2 & H3 & H4)]; [|congruence].
      assert (Hn : lenN l = n) by (unfold lenN; lia).
      exists l. rewrite Hn. split; [done|]. split; [done|]. rewrite <- app_assoc, <- Hr. split; [done|].
      split; [done|]. lia.
  Qed.
End gen_read.

Lemma lay8_flat l : flat_map (fun x : N => [x]) l = l.
Proof. induction l as [|x l IH]; [done|]. cbn. by rewrite IH. Qed.
Lemma src_u8_some bs x rest : bytes bs -> src_u8 bs = (Some x, rest) -> bs = [x] ++ rest /\ x < 256.
Proof.
  unfold src_u8, get_u8. destruct bs as [|b bs]; [done|]. intros Hb [= <- <-].
  apply Forall_cons in Hb as [Hb _]. done.
Qed.
Lemma src_u8_none bs rest : src_u8 bs = (None, rest) -> rest = [] /\ lenN bs < 1.
Proof. unfold src_u8, get_u8. destruct bs as [|b bs]; [|done]. intros [= <-]. done. Qed.
Lemma src_u16_some bs x rest : bytes bs -> src_u16 bs = (Some x, rest) -> bs = be16 x ++ rest /\ x < 65536.
Proof.
  unfold src_u16, get_u16, get_u8, mbind, reader_bind, mret, reader_ret.
  destruct bs as [|a [|b bs]]; [done|done|]. intros Hb [= <- <-].
  apply Forall_cons in Hb as [Ha Hb]. apply Forall_cons in Hb as [Hb _]. unfold be16.
  rewrite N.div_add_l, (N.div_small b), N.add_0_r by lia.
  rewrite N.add_comm, N.mod_add, N.mod_small by lia. split; [done|lia].
Qed.
Lemma src_u16_none bs rest : src_u16 bs = (None, rest) -> rest = [] /\ lenN bs < 2.
Proof.
  unfold src_u16, get_u16, get_u8, mbind, reader_bind, mret, reader_ret.
  destruct bs as [|a [|b bs]]; [| |done]; intros [= <-]; done.
Qed.
Lemma src_u16_lay x rest : x < 65536 -> src_u16 (be16 x ++ rest) = (Some x, rest).
Proof.
  intros _. unfold src_u16, get_u16, get_u8, be16, mbind, reader_bind, mret, reader_ret. cbn [app].
  do 2 f_equal. pose proof (N.div_mod x 256). lia.
Qed.
Lemma put_u8_id x : x < 256 -> put_u8 x = [x].
Proof. intros H. unfold put_u8. by rewrite wrap8_small. Qed.
Lemma put_u16_be x : x < 65536 -> put_u16 x = be16 x.
Proof.
  intros H. unfold put_u16, be16. rewrite wrap8_small; [done|]. apply N.div_lt_upper_bound; lia.
Qed.
Lemma enc8 l : Forall (fun x => x < 256) l -> enc put_u8 l = l.
Proof.
  induction 1 as [|x l H Hl IH]; [done|]. unfold enc in *. cbn [map concat]. by rewrite put_u8_id, IH.
Qed.
Lemma enc16 l : Forall (fun x => x < 65536) l -> enc put_u16 l = flat_map be16 l.
Proof.
  induction 1 as [|x l H Hl IH]; [done|]. unfold enc in *. cbn [map concat flat_map]. by rewrite put_u16_be, IH.
Qed.

(** ** Writing *)
Lemma l_C38_set8_write : forall l room, Forall (fun x => x < 256) l -> lenN l <= 255 ->
  let w := set8_write_to l (mkSink [] room) in
  sk_got (wr_sink w) = take (N.to_nat room) (set8_layout l) /\
  wr_count w = lenN (sk_got (wr_sink w)) /\
  (wr_err w = None <-> sk_got (wr_sink w) = set8_layout l).
Proof.
  intros l room Hl Hn. cbv zeta.
  destruct (write_spec put_u8 1 (fun x => eq_refl) eq_refl l (mkSink [] room)) as (H0 & H1 & H2 & H3).
  fold set8_write_to in H1, H2, H3. rewrite put_u8_id, enc8 in * by (done || lia).
  change ([lenN l] ++ l) with (set8_layout l) in *. cbn [sk_got sk_room app] in *.
  rewrite H1, H2. split; [done|]. unfold lenN at 2. rewrite take_length.
  rewrite N.div_1_r. split; [unfold lenN; lia|]. rewrite H3. unfold lenN. split; intros H.
  - apply take_ge. lia.
  - apply (f_equal length) in H. rewrite take_length in H. lia.
Qed.
Lemma l_C38_set16_write : forall l room, Forall (fun x => x < 65536) l -> lenN l <= 65535 ->
  let w := set16_write_to l (mkSink [] room) in
  sk_got (wr_sink w) = take (N.to_nat room) (set16_layout l) /\
  wr_count w = 2 * (lenN (sk_got (wr_sink w)) / 2) /\
  (wr_err w = None <-> sk_got (wr_sink w) = set16_layout l) /\
  (wr_err w = None -> wr_count w = lenN (sk_got (wr_sink w))).
Proof.
  intros l room Hl Hn. cbv zeta.
  destruct (write_spec put_u16 2 (fun x => eq_refl) eq_refl l (mkSink [] room)) as (H0 & H1 & H2 & H3).
  fold set16_write_to in H1, H2, H3. rewrite put_u16_be, enc16 in * by (done || lia).
  change (be16 (lenN l) ++ flat_map be16 l) with (set16_layout l) in *. cbn [sk_got sk_room app] in *.
  assert (Hlen : lenN (take (N.to_nat room) (set16_layout l)) = N.min room (lenN (set16_layout l))).
  { unfold lenN. rewrite take_length. lia. }
  rewrite H1, H2, H3, Hlen. split; [done|]. split; [done|]. split; [split; intros H|].
  - apply take_ge. unfold lenN in H. lia.
  - apply (f_equal lenN) in H. rewrite Hlen in H. lia.
  - intros H. rewrite N.min_r by lia. rewrite H0, (N.mul_comm 2 (lenN l + 1)), N.div_mul by lia. lia.
Qed.
Lemma l_C38_tagset_write : forall l room, Forall (fun x => x < 256) l -> lenN l <= 255 ->
  let w := tagset_write_to l (mkSink [] room) in
  sk_got (wr_sink w) = take (N.to_nat room) (set8_layout l) /\
  wr_count w = lenN (sk_got (wr_sink w)) /\
  (wr_err w = None <-> sk_got (wr_sink w) = set8_layout l) /\
  (wr_err w = None -> sk_got (wr_sink w) = tagset_write l).
Proof.
  intros l room Hl Hn. cbv zeta. destruct (l_C38_set8_write l room Hl Hn) as (H1 & H2 & H3).
  unfold tagset_write_to. cbn [wr_sink wr_count wr_err]. split; [done|].
  split; [cbn [sk_got]; rewrite lenN_nil; lia|].
  assert (He : (match wr_err (set8_write_to l (mkSink [] room)) with Some _ => Some EIndex | None => None end) = None
     <-> wr_err (set8_write_to l (mkSink [] room)) = None) by (destruct (wr_err _); done).
  rewrite He. split; [done|]. intros ->%H3. unfold tagset_write. fold (enc put_u8 l).
  rewrite put_u8_id, enc8 by (done || lia). done.
Qed.
(** ** Reading *)
Lemma l_C38_set8_round : forall l rest, Forall (fun x => x < 256) l -> lenN l <= 255 ->
  set8_read_from (set8_layout l ++ rest) = mkRd (lenN (set8_layout l)) (Some l) None rest.
Proof.
  intros l rest Hl Hn.
  pose proof (read_from_ok src_u8 1 (fun x => [x]) (fun x => x < 256) (fun x r _ => eq_refl) l rest Hl) as H.
  cbv beta in H. rewrite lay8_flat in H. unfold set8_read_from, set8_layout. cbn [app] in H |- *.
  rewrite H by lia. f_equal. rewrite lenN_cons. lia.
Qed.
Lemma l_C38_set16_round : forall l rest, Forall (fun x => x < 65536) l -> lenN l <= 65535 ->
  set16_read_from (set16_layout l ++ rest) = mkRd (lenN (set16_layout l)) (Some l) None rest.
Proof.
  intros l rest Hl Hn. unfold set16_read_from, set16_layout.
  rewrite (read_from_ok src_u16 2 be16 (fun x => x < 65536) src_u16_lay l rest Hl) by lia. f_equal.
  rewrite lenN_app. clear. induction l as [|x l IH]; [done|]. cbn [flat_map].
  rewrite lenN_app, lenN_cons. change (lenN (be16 x)) with 2. change (lenN (be16 (lenN l + 1))) with 2.
  change (lenN (be16 (lenN l))) with 2 in IH. lia.
Qed.
Lemma l_C38_set8_read : forall bs, bytes bs -> let r := set8_read_from bs in
  rd_count r = lenN bs - lenN (rd_rest r) /\
  (rd_err r = None -> exists l, rd_set r = Some l /\ bs = set8_layout l ++ rd_rest r) /\
  (rd_err r <> None -> rd_rest r = [] /\
     forall l rest, Forall (fun x => x < 256) l -> lenN l <= 255 -> bs <> set8_layout l ++ rest).
Proof.
  intros bs Hb. cbv zeta. unfold set8_read_from.
  destruct (read_from_inv src_u8 1 (fun x => [x]) (fun x => x < 256) (fun x => eq_refl) eq_refl
    src_u8_some (fun x r _ => eq_refl) src_u8_none bs Hb) as [(He & l & Hl & Hn & E & Hs & Hc)|(He & Hr & Hc & Hno)].
  - rewrite lay8_flat in E. change ([lenN l] ++ l) with (set8_layout l) in E. split; [|split].
    + rewrite Hc, E at 1. rewrite lenN_app. unfold set8_layout. rewrite lenN_cons. lia.
    + intros _. by exists l.
    + by rewrite He.
  - rewrite He, Hr, Hc. split; [rewrite N.div_1_r, lenN_nil; lia|]. split; [done|]. intros _. split; [done|].
    intros l rest Hl Hn. specialize (Hno l rest Hl). rewrite lay8_flat in Hno. apply Hno. lia.
Qed.
Lemma l_C38_set16_read : forall bs, bytes bs -> let r := set16_read_from bs in
  rd_count r = 2 * ((lenN bs - lenN (rd_rest r)) / 2) /\
  (rd_err r = None -> rd_count r = lenN bs - lenN (rd_rest r) /\
     exists l, rd_set r = Some l /\ bs = set16_layout l ++ rd_rest r) /\
  (rd_err r <> None -> rd_rest r = [] /\
     forall l rest, Forall (fun x => x < 65536) l -> lenN l <= 65535 -> bs <> set16_layout l ++ rest).
Proof.
  intros bs Hb. cbv zeta. unfold set16_read_from.
  destruct (read_from_inv src_u16 2 be16 (fun x => x < 65536) (fun x => eq_refl) eq_refl
    src_u16_some src_u16_lay src_u16_none bs Hb) as [(He & l & Hl & Hn & E & Hs & Hc)|(He & Hr & Hc & Hno)].
  - fold (set16_layout l) in E.
    assert (Hlen : lenN (set16_layout l) = 2 * (lenN l + 1)).
    { pose proof (enc_len put_u16 2 (fun x => eq_refl) eq_refl l) as H. rewrite enc16 in H by done.
      unfold set16_layout. rewrite lenN_app, H. change (lenN (be16 (lenN l))) with 2. lia. }
    assert (Hd : lenN bs - lenN (rd_rest (set_read_from src_u16 2 bs)) = 2 * (lenN l + 1)).
    { rewrite E at 1. rewrite lenN_app. lia. }
    rewrite Hd, Hc. split; [|split].
    + rewrite (N.mul_comm 2 (lenN l + 1)) at 2. rewrite N.div_mul by lia. done.
    + intros _. split; [done|]. by exists l.
    + by rewrite He.
  - rewrite He, Hr, Hc. split; [rewrite lenN_nil, N.sub_0_r; done|]. split; [done|]. intros _. split; [done|].
    intros l rest Hl Hn. specialize (Hno l rest Hl). apply Hno. lia.
Qed.
(** ** What a failed read leaves in the receiver *)
Lemma l_C38_set8_left : forall bs, bytes bs -> let r := set8_read_from bs in rd_err r <> None ->
  (bs = [] /\ rd_set r = None) \/
  exists n l, bs = n :: l /\ lenN l < n /\ rd_set r = Some (l ++ replicate (N.to_nat (n - lenN l)) 0).
Proof.
  intros bs Hb r He.
  destruct (read_from_left src_u8 1 (fun x => [x]) (fun x => x < 256) (fun x => eq_refl) eq_refl
    src_u8_some (fun x r _ => eq_refl) src_u8_none bs Hb He) as [[H1 H2]|(n & l & tail & _ & E & Ht & Hl & Hs)].
  - left. split; [|done]. destruct bs; [done|]. rewrite lenN_cons in H1. lia.
  - right. destruct tail; [|rewrite lenN_cons in Ht; lia]. exists n, l. rewrite app_nil_r, lay8_flat in E. done.
Qed.
Lemma l_C38_set16_left : forall bs, bytes bs -> let r := set16_read_from bs in rd_err r <> None ->
  (lenN bs < 2 /\ rd_set r = None) \/
  exists n l tail, bs = be16 n ++ flat_map be16 l ++ tail /\ lenN tail < 2 /\ lenN l < n /\
    rd_set r = Some (l ++ replicate (N.to_nat (n - lenN l)) 0).
Proof.
  intros bs Hb r He.
  destruct (read_from_left src_u16 2 be16 (fun x => x < 65536) (fun x => eq_refl) eq_refl
    src_u16_some src_u16_lay src_u16_none bs Hb He) as [[H1 H2]|(n & l & tail & _ & H)].
  - by left.
  - right. by exists n, l, tail.
Qed.
(** The set of tags is read as [Set8] is. *)
Lemma l_C38_tagset_read : forall bs, bytes bs -> let r := tagset_read_from bs in
  rd_count r = lenN bs - lenN (rd_rest r) /\
  (rd_err r = None -> exists l, rd_set r = Some l /\ bs = set8_layout l ++ rd_rest r) /\
  (rd_err r <> None -> rd_rest r = [] /\
     (forall l rest, Forall (fun x => x < 256) l -> lenN l <= 255 -> bs <> set8_layout l ++ rest) /\
     ((bs = [] /\ rd_set r = None) \/
      exists n l, bs = n :: l /\ lenN l < n /\ rd_set r = Some (l ++ replicate (N.to_nat (n - lenN l)) 0))).
Proof.
  intros bs Hb r. destruct (l_C38_set8_read bs Hb) as (H1 & H2 & H3). split; [exact H1|]. split; [exact H2|].
  intros He. destruct (H3 He) as [H4 H5]. split; [exact H4|]. split; [exact H5|]. by apply l_C38_set8_left.
Qed.
(** ** Longer sets: what is read back is shorter. *)
Lemma l_C38_set8_long : forall l room, Forall (fun x => x < 256) l -> 256 <= lenN l -> 1 + lenN l <= room ->
  let w := set8_write_to l (mkSink [] room) in
  wr_err w = None /\ forall l', rd_set (set8_read_from (sk_got (wr_sink w))) = Some l' -> lenN l' < 256 /\ l' <> l.
Proof.
  intros l room Hl Hn Hr. cbv zeta.
  destruct (write_spec put_u8 1 (fun x => eq_refl) eq_refl l (mkSink [] room)) as (H0 & H1 & H2 & H3).
  fold set8_write_to in H1, H2, H3. cbn [sk_got sk_room app] in *. split; [apply H3; lia|].
  intros l'. rewrite H1. rewrite take_ge by (unfold lenN in *; lia). unfold put_u8 at 1. intros Hs.
  assert (Hlt : lenN l' < 256); [|split; [done|intros ->; lia]].
  revert Hs. unfold set8_read_from, set_read_from, src_u8 at 1, get_u8. cbn [app].
  assert (Hw : wrap8 (lenN l) < 256) by (unfold wrap8; apply N.mod_lt; lia).
  revert Hw. generalize (wrap8 (lenN l)), (enc put_u8 l). intros n bs Hw.
  assert (Hgen : forall m t acc bs, rd_set (read_items src_u8 1 m t acc bs) = Some l' -> length l' = (length acc + m)%nat).
  { induction m as [|m IH]; intros t acc bs' ; cbn [read_items].
    - cbn. intros [= <-]. lia.
    - destruct (src_u8 bs') as [[x|] rest].
      + intros ->%IH. rewrite app_length. cbn. lia.
      + cbn [rd_set]. intros [= <-]. rewrite app_length. cbn [length replicate]. rewrite replicate_length. lia. }
  intros H%Hgen. cbn in H. unfold lenN. lia.
Qed.
Lemma l_C38_set16_long : forall l room, Forall (fun x => x < 65536) l -> 65536 <= lenN l -> 2 + 2 * lenN l <= room ->
  let w := set16_write_to l (mkSink [] room) in
  wr_err w = None /\ forall l', rd_set (set16_read_from (sk_got (wr_sink w))) = Some l' -> lenN l' < 65536 /\ l' <> l.
Proof.
  intros l room Hl Hn Hr. cbv zeta.
  destruct (write_spec put_u16 2 (fun x => eq_refl) eq_refl l (mkSink [] room)) as (H0 & H1 & H2 & H3).
  fold set16_write_to in H1, H2, H3. cbn [sk_got sk_room app] in *. split; [apply H3; lia|].
  intros l'. rewrite H1. rewrite take_ge by (unfold lenN in *; lia). unfold put_u16 at 1. intros Hs.
  assert (Hlt : lenN l' < 65536); [|split; [done|intros ->; lia]].
  revert Hs. unfold set16_read_from, set_read_from, src_u16 at 1, get_u16, get_u8, mbind, reader_bind, mret, reader_ret.
  cbn [app].
  assert (Hw : wrap8 (lenN l / 256) * 256 + wrap8 (lenN l) < 65536).
  { unfold wrap8. pose proof (N.mod_lt (lenN l / 256) 256). pose proof (N.mod_lt (lenN l) 256). lia. }
  revert Hw. generalize (wrap8 (lenN l / 256) * 256 + wrap8 (lenN l)), (enc put_u16 l). intros n bs Hw.
  assert (Hgen : forall m t acc bs, rd_set (read_items src_u16 2 m t acc bs) = Some l' -> length l' = (length acc + m)%nat).
  { induction m as [|m IH]; intros t acc bs' ; cbn [read_items].
    - cbn. intros [= <-]. lia.
    - destruct (src_u16 bs') as [[x|] rest].
      + intros ->%IH. rewrite app_length. cbn. lia.
      + cbn [rd_set]. intros [= <-]. rewrite app_length. cbn [length replicate]. rewrite replicate_length. lia. }
  intros H%Hgen. cbn in H. unfold lenN. lia.
Qed.
