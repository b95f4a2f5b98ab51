(** Any index file that loads, whatever wrote it: C62.  The proofs are in ThmForeign.v;
    Foreign.v is the specification. *)
From Verif Require Import Base Storage Bin Utf8 Tags TagSets Variants Items Index Hist ThmTrie BinFacts Foreign ThmForeign PropsDisk.
From stdpp Require Import list gmap.
Open Scope N_scope.

(** C62.  Take any bytes that load.  The nodes of the index are the 16-byte records of the last
    section, and a lookup finds exactly the record the letters lead to; it never crashes.  The
    word of a found record is what was looked up, from the last return to number 0 on.  Asking
    for the word of a record by number crashes exactly when its parents never end.  Asking for
    tag sets crashes exactly for number 0, a number without a record and a variant number that
    is not stored. *)
Theorem C62_records : forall bs ix rest, bytes bs -> index_read index_new bs = Ok (ix, rest) ->
  exists pre count blocks, bs = pre ++ count ++ concat blocks ++ rest /\ length count = 4%nat /\
    be count = N.of_nat (length blocks) /\ Forall (fun b => length b = 16%nat) blocks /\
    map record_of blocks = records ix.
Proof. exact l_C62_records. Qed.
Print Assumptions C62_records.
Theorem C62_lookup : forall bs ix rest w, bytes bs -> index_read index_new bs = Ok (ix, rest) ->
  match (fetch_runes ix w).2 with
  | Ok n => w <> [] /\ walk (records ix) w n
  | Err e => e = EIndex /\ (w = [] \/ forall n, ~ walk (records ix) w n)
  | Panic => False
  end.
Proof. exact l_C62_lookup. Qed.
Print Assumptions C62_lookup.
Theorem C62_word_of_found : forall bs ix rest w n, bytes bs -> index_read index_new bs = Ok (ix, rest) ->
  walk (records ix) w n -> exists u v, w = u ++ v /\ walk (records ix) u 0 /\ node_word ix n = Ok (string_of_runes v).
Proof. exact l_C62_word_of_found. Qed.
Print Assumptions C62_word_of_found.
Theorem C62_word_of_any : forall bs ix rest n, bytes bs -> index_read index_new bs = Ok (ix, rest) ->
  (node_word ix n = Panic <-> forall k, climbs (records ix) k n).
Proof. exact l_C62_word_of_any. Qed.
Print Assumptions C62_word_of_any.
Theorem C62_tag_sets : forall bs ix rest n, bytes bs -> index_read index_new bs = Ok (ix, rest) ->
  (node_tag_sets ix n = Panic <->
   n = 0 \/ match records ix !! N.to_nat n with
            | None => True
            | Some (_, _, v) => 65536 <= v /\
                (ix_cols ix !! N.to_nat (v / 65536 - 1)) ≫= (fun t => t !! N.to_nat (v mod 65536)) = None
            end).
Proof. exact l_C62_tag_sets. Qed.
Print Assumptions C62_tag_sets.
(** Four records by hand: the placeholder, "a" below the start, "b" below "a" with a variant
    number that is not stored, and a record that is its own parent. *)
Definition ex_records : list item :=
  [mkItem 0 0 0 0; mkItem 0 1 97 0; mkItem 1 2 98 65536; mkItem 3 3 99 0]%Z.
Definition ex_file : list N :=
  put_stringz sec_tags ++ put_u8 0 ++ put_stringz sec_sets ++ put_u32 0 ++ put_stringz sec_cols ++ put_u8 0
  ++ put_stringz sec_items ++ put_u32 4 ++ concat (map item_write ex_records).
Definition ex_loaded : index := match index_read index_new ex_file with Ok (ix, _) => ix | _ => index_new end.
Example C62_case :
  index_read index_new ex_file = Ok (ex_loaded, []) /\ bytes ex_file /\
  records ex_loaded = [(0, 0%Z, 0); (0, 97%Z, 0); (1, 98%Z, 65536); (3, 99%Z, 0)] /\
  (fetch_runes ex_loaded [97; 98]%Z).2 = Ok 2 /\ (fetch_runes ex_loaded [97; 99]%Z).2 = Err EIndex /\
  (fetch_runes ex_loaded [0; 0; 97]%Z).2 = Ok 1 /\ node_word ex_loaded 1 = Ok [97] /\ node_word ex_loaded 2 = Ok [97; 98] /\
  node_tag_sets ex_loaded 1 = Ok [].
Proof. split; [vm_compute; reflexivity|]. split; [repeat (constructor; [done|]); constructor|]. vm_compute. done. Qed.
(** A lookup that succeeds, followed by the question for the tag sets, crashes; so does the
    question for the word of record 3. *)
Example C62_tag_sets_refuted : exists bs ix w n, index_read index_new bs = Ok (ix, []) /\
  (fetch_runes ix w).2 = Ok n /\ node_tag_sets ix n = Panic.
Proof. exists ex_file, ex_loaded, [97; 98]%Z, 2. split; [vm_compute; reflexivity|]. split; vm_compute; reflexivity. Qed.
Example C62_word_refuted : exists bs ix n, index_read index_new bs = Ok (ix, []) /\
  index_get ix n = Ok n /\ node_word ix n = Panic.
Proof. exists ex_file, ex_loaded, 3. split; [vm_compute; reflexivity|]. split; vm_compute; reflexivity. Qed.
(** There is no checksum: with one byte of a saved file changed (the letter "b" of "ab") the
    file still loads, and "ab" is not in the dictionary any more. *)
Example C62_changed_byte_refuted : exists ix, runs ex_p ix /\
  let bs := saved ix in
  let bs' := <[(length bs - 5)%nat := 99]> bs in
  bs !! (length bs - 5)%nat = Some 98 /\
  look (index_read index_new bs) (fun ix' => ((fetch_runes ix' ex_ab).2, (fetch_runes ix' [97; 99]%Z).2)) = Some (Ok 5, Err EIndex) /\
  look (index_read index_new bs') (fun ix' => ((fetch_runes ix' ex_ab).2, (fetch_runes ix' [97; 99]%Z).2)) = Some (Err EIndex, Ok 5).
Proof. apply run_case. vm_compute. done. Qed.
