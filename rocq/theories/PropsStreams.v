(** Sets written to and read from streams: C38.  The proofs are in ThmStreams.v; the layout
    ([set8_layout], [set16_layout]) is defined at the end of Streams.v. *)
From Verif Require Import Base Storage Bin TagSets Streams BaseFacts BinFacts ThmStreams.
From stdpp Require Import list.
Open Scope N_scope.

(** C38.  For every set that fits the length field and every destination, however early it
    fails: what arrives is the beginning of the documented layout, all of it iff there is
    no error, and the reported count is the number of bytes that arrived (for [Set16]:
    rounded down to whole numbers).  For every input: the reported count is what was taken
    (for [Set16] rounded down), success means the input started with the layout of the
    result, failure means that it does not start with the layout of any set, and leaves the items
    that were read, followed by zeros up to the length the input promised.  Sets longer
    than the length field are written without an error and never read back. *)
Theorem C38_set8_write : forall l room, Forall (fun x => x < 256) l -> lenN l <= 255 ->
  let w := set8_write_to l (mkSink [] room) in
  sk_got (wr_sink w) = take (N.to_nat room) (set8_layout l) /\
  wr_count w = lenN (sk_got (wr_sink w)) /\
  (wr_err w = None <-> sk_got (wr_sink w) = set8_layout l).
Proof. exact l_C38_set8_write. Qed.
Print Assumptions C38_set8_write.
Theorem C38_set16_write : forall l room, Forall (fun x => x < 65536) l -> lenN l <= 65535 ->
  let w := set16_write_to l (mkSink [] room) in
  sk_got (wr_sink w) = take (N.to_nat room) (set16_layout l) /\
  wr_count w = 2 * (lenN (sk_got (wr_sink w)) / 2) /\
  (wr_err w = None <-> sk_got (wr_sink w) = set16_layout l) /\
  (wr_err w = None -> wr_count w = lenN (sk_got (wr_sink w))).
Proof. exact l_C38_set16_write. Qed.
Print Assumptions C38_set16_write.
Theorem C38_tagset_write : forall l room, Forall (fun x => x < 256) l -> lenN l <= 255 ->
  let w := tagset_write_to l (mkSink [] room) in
  sk_got (wr_sink w) = take (N.to_nat room) (set8_layout l) /\
  wr_count w = lenN (sk_got (wr_sink w)) /\
  (wr_err w = None <-> sk_got (wr_sink w) = set8_layout l) /\
  (wr_err w = None -> sk_got (wr_sink w) = tagset_write l).
Proof. exact l_C38_tagset_write. Qed.
Print Assumptions C38_tagset_write.
Theorem C38_set8_round : forall l rest, Forall (fun x => x < 256) l -> lenN l <= 255 ->
  set8_read_from (set8_layout l ++ rest) = mkRd (lenN (set8_layout l)) (Some l) None rest.
Proof. exact l_C38_set8_round. Qed.
Print Assumptions C38_set8_round.
Theorem C38_set16_round : forall l rest, Forall (fun x => x < 65536) l -> lenN l <= 65535 ->
  set16_read_from (set16_layout l ++ rest) = mkRd (lenN (set16_layout l)) (Some l) None rest.
Proof. exact l_C38_set16_round. Qed.
Print Assumptions C38_set16_round.
Theorem C38_set8_read : forall bs, bytes bs -> let r := set8_read_from bs in
  rd_count r = lenN bs - lenN (rd_rest r) /\
  (rd_err r = None -> exists l, rd_set r = Some l /\ bs = set8_layout l ++ rd_rest r) /\
  (rd_err r <> None -> rd_rest r = [] /\
     forall l rest, Forall (fun x => x < 256) l -> lenN l <= 255 -> bs <> set8_layout l ++ rest).
Proof. exact l_C38_set8_read. Qed.
Print Assumptions C38_set8_read.
Theorem C38_set16_read : forall bs, bytes bs -> let r := set16_read_from bs in
  rd_count r = 2 * ((lenN bs - lenN (rd_rest r)) / 2) /\
  (rd_err r = None -> rd_count r = lenN bs - lenN (rd_rest r) /\
     exists l, rd_set r = Some l /\ bs = set16_layout l ++ rd_rest r) /\
  (rd_err r <> None -> rd_rest r = [] /\
     forall l rest, Forall (fun x => x < 65536) l -> lenN l <= 65535 -> bs <> set16_layout l ++ rest).
Proof. exact l_C38_set16_read. Qed.
Print Assumptions C38_set16_read.
Theorem C38_set8_left : forall bs, bytes bs -> let r := set8_read_from bs in rd_err r <> None ->
  (bs = [] /\ rd_set r = None) \/
  exists n l, bs = n :: l /\ lenN l < n /\ rd_set r = Some (l ++ replicate (N.to_nat (n - lenN l)) 0).
Proof. exact l_C38_set8_left. Qed.
Print Assumptions C38_set8_left.
Theorem C38_set16_left : forall bs, bytes bs -> let r := set16_read_from bs in rd_err r <> None ->
  (lenN bs < 2 /\ rd_set r = None) \/
  exists n l tail, bs = be16 n ++ flat_map be16 l ++ tail /\ lenN tail < 2 /\ lenN l < n /\
    rd_set r = Some (l ++ replicate (N.to_nat (n - lenN l)) 0).
Proof. exact l_C38_set16_left. Qed.
Print Assumptions C38_set16_left.
Theorem C38_tagset_read : forall bs, bytes bs -> let r := tagset_read_from bs in
  rd_count r = lenN bs - lenN (rd_rest r) /\
  (rd_err r = None -> exists l, rd_set r = Some l /\ bs = set8_layout l ++ rd_rest r) /\
  (rd_err r <> None -> rd_rest r = [] /\
     (forall l rest, Forall (fun x => x < 256) l -> lenN l <= 255 -> bs <> set8_layout l ++ rest) /\
     ((bs = [] /\ rd_set r = None) \/
      exists n l, bs = n :: l /\ lenN l < n /\ rd_set r = Some (l ++ replicate (N.to_nat (n - lenN l)) 0))).
Proof. exact l_C38_tagset_read. Qed.
Print Assumptions C38_tagset_read.
Theorem C38_set8_long : forall l room, Forall (fun x => x < 256) l -> 256 <= lenN l -> 1 + lenN l <= room ->
  let w := set8_write_to l (mkSink [] room) in
  wr_err w = None /\ forall l', rd_set (set8_read_from (sk_got (wr_sink w))) = Some l' -> lenN l' < 256 /\ l' <> l.
Proof. exact l_C38_set8_long. Qed.
Print Assumptions C38_set8_long.
Theorem C38_set16_long : forall l room, Forall (fun x => x < 65536) l -> 65536 <= lenN l -> 2 + 2 * lenN l <= room ->
  let w := set16_write_to l (mkSink [] room) in
  wr_err w = None /\ forall l', rd_set (set16_read_from (sk_got (wr_sink w))) = Some l' -> lenN l' < 65536 /\ l' <> l.
Proof. exact l_C38_set16_long. Qed.
Print Assumptions C38_set16_long.
Example C38_case : set8_write_to [5; 2; 9] (mkSink [] 100) = mkWr 4 None (mkSink [3; 5; 2; 9] 96) /\
  set8_write_to [5; 2; 9] (mkSink [] 2) = mkWr 2 (Some EIO) (mkSink [3; 5] 0) /\
  set8_read_from [3; 5; 2; 9; 7] = mkRd 4 (Some [5; 2; 9]) None [7] /\
  set8_read_from [3; 5; 2] = mkRd 3 (Some [5; 2; 0]) (Some EEOF) [] /\
  tagset_read_from [3; 5; 2] = mkRd 3 (Some [5; 2; 0]) (Some EEOF) [] /\
  set16_read_from [0; 2; 1; 2; 9] = mkRd 4 (Some [258; 0]) (Some EEOF) [] /\
  set16_write_to [258; 7] (mkSink [] 6) = mkWr 6 None (mkSink [0; 2; 1; 2; 0; 7] 0) /\
  set16_read_from [0; 2; 1; 2; 0; 7] = mkRd 6 (Some [258; 7]) None [].
Proof. vm_compute. auto 10. Qed.
(** With 16-bit items an odd byte is transferred and not counted. *)
Theorem C38_set16_odd_refuted : exists l room bs,
  wr_count (set16_write_to l (mkSink [] room)) <> lenN (sk_got (wr_sink (set16_write_to l (mkSink [] room)))) /\
  rd_count (set16_read_from bs) <> lenN bs - lenN (rd_rest (set16_read_from bs)).
Proof. exists [258; 7], 5, [0; 2; 1; 2; 0]. vm_compute. split; discriminate. Qed.
Print Assumptions C38_set16_odd_refuted.
Example C38_long_case : let l := replicate 256 7 in let w := set8_write_to l (mkSink [] 1000) in
  wr_err w = None /\ wr_count w = 257 /\ set8_read_from (sk_got (wr_sink w)) = mkRd 1 (Some []) None l.
Proof. vm_compute. auto. Qed.
