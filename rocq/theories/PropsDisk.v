(** The file format: C23-C30.  The proofs are in ThmDisk.v. *)
From Verif Require Import Base Storage Bin Utf8 Tags TagSets Variants Items Index Spec Hist ThmTrie ThmTags ThmDisk.
From stdpp Require Import list.
Open Scope N_scope.

(** A history used in the examples: Cyrillic and Latin words, tags with and without parents,
    one of them the empty name, sets shared by words. *)
Definition ex_cat : list Z := [0x43A; 0x43E; 0x442]%Z.
Definition ex_ab : list Z := [97; 98]%Z.
Definition ex_d : list op :=
  [OAdd ex_cat; OAdd ex_ab; OTagID (bytes_of "NOUN") []; OTagID [] (bytes_of "    ");
   OTagID (bytes_of "sing") (bytes_of "NMbr");
   OTag ex_cat [bytes_of "sing"; bytes_of "NOUN"]; OTag ex_cat [[]]; OTag ex_ab [bytes_of "NOUN"; bytes_of "sing"];
   OFetch ex_ab].
(** The same without the empty name. *)
Definition ex_p : list op :=
  [OAdd ex_cat; OAdd ex_ab; OTagID (bytes_of "NOUN") []; OTagID (bytes_of "sing") (bytes_of "NMbr");
   OTag ex_cat [bytes_of "sing"; bytes_of "NOUN"]; OTag ex_ab [bytes_of "NOUN"; bytes_of "sing"]].
(** What the examples look at in a saved and loaded index. *)
Definition saved (ix : index) : list N := match index_write ix with Ok (bs, None) => bs | _ => [] end.
Definition look {A} (r : res (index * list N)) (f : index -> A) : option A :=
  match r with Ok (ix, _) => Some (f ix) | _ => None end.
Definition names_at (id : N) (ix : index) : option (list (list (list N))) :=
  match node_tag_sets ix id with Ok s => Some (map (map tag_name) s) | _ => None end.

(** C23.  Within the limits of the file format, saving and loading into a fresh index
    succeeds; the loaded index has the same counts, finds the same words at the same nodes
    (U+0000 apart, see C24), spells them alike and carries the same tag sets, tags being
    renamed as C28 says.  If no tag is renamed the loaded index is again the result of a
    history, so that all other properties hold of it. *)
Theorem C23_save_load_same_answers : forall h ix,
  runs h ix -> disk_caps ix = true -> all_storable h ->
  exists bs ix', index_write ix = Ok (bs, None) /\ index_read index_new bs = Ok (ix', []) /\
    nodes_count ix' = nodes_count ix /\ words_count ix' = words_count ix /\
    (forall w, head w <> Some 0%Z -> (fetch_runes ix' w).2 = (fetch_runes ix w).2) /\
    (forall id, index_get ix' id = index_get ix id) /\
    (forall id, node_word ix' id = node_word ix id) /\
    (forall id, node_tag_sets ix' id = (s ← node_tag_sets ix id; Ok (map (map tag_norm) s))) /\
    (forall id r, id <> 0 -> get_children_map ix' id !! r = get_children_map ix id !! r).
Proof. exact l_C23_save_load_same_answers. Qed.
Print Assumptions C23_save_load_same_answers.
Theorem C23_history_goes_on : forall h ix,
  runs h ix -> disk_caps ix = true -> plain_tags ix = true -> all_storable h ->
  exists bs ix', index_write ix = Ok (bs, None) /\ index_read index_new bs = Ok (ix', []) /\
    runs (h ++ [OReload]) ix'.
Proof. exact l_C23_history_goes_on. Qed.
Print Assumptions C23_history_goes_on.
Example C23_case : exists ix, runs ex_d ix /\ disk_caps ix = true /\ lenN (saved ix) = 173 /\
  names_at 3 ix = Some [[[]]; [bytes_of "NOUN"; bytes_of "sing"]] /\
  look (index_read index_new (saved ix)) (names_at 3) = Some (Some [[bytes_of "----"]; [bytes_of "NOUN"; bytes_of "sing"]]) /\
  look (index_read index_new (saved ix)) (fun ix' => (fetch_runes ix' ex_ab).2) = Some (Ok 5).
Proof. apply run_case. vm_compute. auto 10. Qed.
Example C23_case_goes_on : exists ix, runs (ex_p ++ [OReload; OAdd [97; 99]%Z]) ix /\ nodes_count ix = 6 /\ words_count ix = 2.
Proof. apply run_case. vm_compute. auto. Qed.

(** C24, refuted.  A loaded index finds U+0000, any number of times, and ignores any number
    of leading U+0000; the node it gives cannot be used. *)
Theorem C24_null_words_refuted : forall h ix bs ix' rest,
  runs h ix -> disk_caps ix = true -> ~ present h [0%Z] ->
  index_write ix = Ok (bs, None) -> index_read index_new bs = Ok (ix', rest) ->
  (forall n, (fetch_runes ix' (replicate (S n) 0%Z)).2 = Ok 0) /\
  (forall n w, w <> [] -> (fetch_runes ix' (replicate n 0%Z ++ w)).2 = (fetch_runes ix' w).2) /\
  node_tag_sets ix' 0 = Panic.
Proof. exact l_C24_null_words_refuted. Qed.
Print Assumptions C24_null_words_refuted.
Example C24_case : (exists ix, runs ex_p ix /\ disk_caps ix = true /\ (fetch_runes ix [0; 0; 97]%Z).2 = Err EIndex /\
  look (index_read index_new (saved ix)) (fun ix' => (fetch_runes ix' [0; 0; 97]%Z).2) = Some (Ok 4) /\
  look (index_read index_new (saved ix)) (fun ix' => (fetch_runes ix' [0]%Z).2) = Some (Ok 0)) /\
  ~ present ex_p [0%Z].
Proof.
  split; [apply run_case; vm_compute; auto 10|].
  intros (_ & w & Hin & [k E]). cbn in Hin. rewrite !elem_of_cons in Hin.
  destruct Hin as [->|[->|Hin]]; [discriminate E|discriminate E|by apply elem_of_nil in Hin].
Qed.

(** C25.  No proper prefix of a saved file is accepted, nor of any accepted file; reading
    never panics, whatever the bytes are. *)
Theorem C25_truncated_file_rejected : forall h ix bs,
  runs h ix -> disk_caps ix = true -> index_write ix = Ok (bs, None) ->
  forall ix0 p, p `prefix_of` bs -> p <> bs -> exists e, index_read ix0 p = Err e.
Proof. exact l_C25_truncated_file_rejected. Qed.
Print Assumptions C25_truncated_file_rejected.
Theorem C25_any_accepted_file : forall ix0 ix bs,
  index_read ix0 bs = Ok (ix, []) ->
  forall p, p `prefix_of` bs -> p <> bs -> exists e, index_read ix0 p = Err e.
Proof. exact l_C25_any_accepted_file. Qed.
Print Assumptions C25_any_accepted_file.
Theorem C25_no_panic : forall ix0 bs, index_read ix0 bs <> Panic.
Proof. exact l_C25_no_panic. Qed.
Print Assumptions C25_no_panic.
Example C25_case : exists ix, runs ex_p ix /\ disk_caps ix = true /\ lenN (saved ix) = 150 /\
  look (index_read index_new (take 149 (saved ix))) nodes_count = None /\
  look (index_read index_new (take 11 (saved ix))) nodes_count = None /\
  look (index_read index_new (saved ix)) nodes_count = Some 5.
Proof. apply run_case. vm_compute. auto 10. Qed.

(** C26.  A saved index followed by anything is read as if it were alone, and exactly what
    follows is left unread. *)
Theorem C26_reads_exactly_what_was_written : forall h ix,
  runs h ix -> disk_caps ix = true -> all_storable h ->
  exists bs, index_write ix = Ok (bs, None) /\
  forall ix0, exists ix', forall rest, index_read ix0 (bs ++ rest) = Ok (ix', rest).
Proof. exact l_C26_reads_exactly_what_was_written. Qed.
Print Assumptions C26_reads_exactly_what_was_written.
Theorem C26_rest_does_not_matter : forall ix0 bs ix rest,
  index_read ix0 bs = Ok (ix, rest) ->
  exists used, bs = used ++ rest /\ forall more, index_read ix0 (used ++ more) = Ok (ix, more).
Proof. exact l_C26_rest_does_not_matter. Qed.
Print Assumptions C26_rest_does_not_matter.
Example C26_case : exists ix, runs ex_p ix /\ disk_caps ix = true /\
  match index_read index_new (saved ix ++ [1; 2; 3]) with Ok (_, rest) => rest | _ => [] end = [1; 2; 3].
Proof. apply run_case. vm_compute. auto. Qed.

(** C27.  Loading and saving again gives the same bytes, any number of times, also when tags
    are renamed by the load. *)
Theorem C27_bytes_stable : forall h ix bs,
  runs h ix -> disk_caps ix = true -> index_write ix = Ok (bs, None) ->
  forall n, Nat.iter n (fun o => o ≫= resave) (Some bs) = Some bs.
Proof. exact l_C27_bytes_stable. Qed.
Print Assumptions C27_bytes_stable.
Example C27_case : exists ix, runs ex_d ix /\ disk_caps ix = true /\ resave (saved ix) = Some (saved ix).
Proof. apply run_case. vm_compute. auto. Qed.

(** C28.  Names take exactly four bytes; only the empty name and names of four bytes can be
    written; reading gives the name back, but "----" for the empty name and four spaces.
    Saving succeeds iff all names and parents first registered can be written. *)
Theorem C28_marshal : forall n,
  (forall bs, name_marshal n = Ok bs -> length bs = 4%nat) /\
  ((n = [] \/ length n = 4%nat) <-> exists bs, name_marshal n = Ok bs) /\
  (~ (n = [] \/ length n = 4%nat) -> name_marshal n = Err EGrammar).
Proof. exact l_C28_marshal. Qed.
Print Assumptions C28_marshal.
Theorem C28_unmarshal : forall n bs, name_marshal n = Ok bs ->
  name_unmarshal bs = Ok (name_norm n) /\
  (n <> [] -> n <> bytes_of "    " -> name_unmarshal bs = Ok n).
Proof. exact l_C28_unmarshal. Qed.
Print Assumptions C28_unmarshal.
Theorem C28_saving_fails_iff : forall h ix, runs h ix ->
  (all_storable h <-> exists bs, index_write ix = Ok (bs, None)) /\
  (~ all_storable h -> exists bs, index_write ix = Ok (bs, Some EIndex)).
Proof. exact l_C28_saving_fails_iff. Qed.
Print Assumptions C28_saving_fails_iff.
Example C28_case : name_marshal (bytes_of "NOUN") = Ok (bytes_of "NOUN") /\ name_marshal (bytes_of "----") = Ok (bytes_of "    ") /\
  name_unmarshal (bytes_of "    ") = Ok (bytes_of "----") /\ name_marshal (bytes_of "Noun1") = Err EGrammar /\
  name_norm [] = bytes_of "----" /\ name_norm (bytes_of "    ") = bytes_of "----".
Proof. vm_compute. auto 10. Qed.
Example C28_case_fails : exists ix, runs [OTagID (bytes_of "NOUN") []; OTagID (bytes_of "Noun1") []] ix /\
  match index_write ix with Ok (_, e) => e | _ => None end = Some EIndex.
Proof. apply run_case. vm_compute. auto. Qed.

(** C29.  Every component is read back as written within the width of its length prefix; with
    one element more, the prefix is zero and all elements are left unread. *)
Theorem C29_tags : forall ts rest, lenN ts <= 255 ->
  Forall (fun t => storable_name (tag_parent t) /\ storable_name (tag_name t)) ts ->
  exists bs, tags_write ts = (bs, None) /\ tags_read (bs ++ rest) = Ok (map tag_norm ts, rest).
Proof. exact l_C29_tags. Qed.
Print Assumptions C29_tags.
Theorem C29_tag_set : forall s rest, lenN s <= 255 -> Forall (fun t => t <= 255) s ->
  tagset_read (tagset_write s ++ rest) = Ok (s, rest).
Proof. exact l_C29_tag_set. Qed.
Print Assumptions C29_tag_set.
Theorem C29_set_table : forall t rest, lenN t <= 65535 ->
  Forall (fun s => lenN s <= 255 /\ Forall (fun t => t <= 255) s) t ->
  tagset_table_read (tagset_table_write t ++ rest) = Ok (t, rest).
Proof. exact l_C29_set_table. Qed.
Print Assumptions C29_set_table.
Theorem C29_set_index : forall x rest, lenN x <= 4294967295 ->
  Forall (fun t => lenN t <= 65535 /\
    Forall (fun s => lenN s <= 255 /\ Forall (fun t => t <= 255) s) t) x ->
  tagset_index_read (tagset_index_write x ++ rest) = Ok (x, rest).
Proof. exact l_C29_set_index. Qed.
Print Assumptions C29_set_index.
Theorem C29_collection : forall c rest, lenN c <= 255 -> Forall (fun k => k <= 4294967295) c ->
  collection_read (collection_write c ++ rest) = Ok (c, rest).
Proof. exact l_C29_collection. Qed.
Print Assumptions C29_collection.
Theorem C29_collection_table : forall t rest, lenN t <= 4294967295 ->
  Forall (fun c => lenN c <= 255 /\ Forall (fun k => k <= 4294967295) c) t ->
  variants_table_read (variants_table_write t ++ rest) = Ok (t, rest).
Proof. exact l_C29_collection_table. Qed.
Print Assumptions C29_collection_table.
Theorem C29_collection_index : forall x rest, lenN x <= 255 ->
  Forall (fun t => lenN t <= 4294967295 /\
    Forall (fun c => lenN c <= 255 /\ Forall (fun k => k <= 4294967295) c) t) x ->
  variants_read (variants_write x ++ rest) = Ok (x, rest).
Proof. exact l_C29_collection_index. Qed.
Print Assumptions C29_collection_index.
Theorem C29_nodes : forall l rest, lenN l <= 4294967295 ->
  Forall (fun i => it_parent i <= 4294967295 /\ it_id i <= 4294967295 /\ int32 (it_letter i) /\
                   it_variants i <= 4294967295) l ->
  exists bs, items_write (mkItems l (lenN l)) = Ok bs /\
    items_read (bs ++ rest) = Ok (mkItems l (lenN l), rest).
Proof. exact l_C29_nodes. Qed.
Print Assumptions C29_nodes.
Theorem C29_tags_refuted : forall ts rest, lenN ts = 256 ->
  Forall (fun t => storable_name (tag_parent t) /\ storable_name (tag_name t)) ts ->
  exists data, tags_write ts = (0 :: data, None) /\ length data = 2048%nat /\
    tags_read (0 :: data ++ rest) = Ok ([], data ++ rest).
Proof. exact l_C29_tags_refuted. Qed.
Print Assumptions C29_tags_refuted.
Theorem C29_tag_set_refuted : forall s rest, lenN s = 256 ->
  tagset_read (tagset_write s ++ rest) = Ok ([], concat (map put_u8 s) ++ rest).
Proof. exact l_C29_tag_set_refuted. Qed.
Print Assumptions C29_tag_set_refuted.
Theorem C29_set_table_refuted : forall t rest, lenN t = 65536 ->
  tagset_table_read (tagset_table_write t ++ rest) = Ok ([], concat (map tagset_write t) ++ rest).
Proof. exact l_C29_set_table_refuted. Qed.
Print Assumptions C29_set_table_refuted.
Theorem C29_collection_refuted : forall c rest, lenN c = 256 ->
  collection_read (collection_write c ++ rest) = Ok ([], concat (map put_u32 c) ++ rest).
Proof. exact l_C29_collection_refuted. Qed.
Print Assumptions C29_collection_refuted.
Theorem C29_collection_index_refuted : forall x rest, lenN x = 256 ->
  variants_read (variants_write x ++ rest) = Ok ([], concat (map variants_table_write x) ++ rest).
Proof. exact l_C29_collection_index_refuted. Qed.
Print Assumptions C29_collection_index_refuted.
Example C29_case : tagset_read (tagset_write [3; 1; 255] ++ [9]) = Ok ([3; 1; 255], [9]) /\
  collection_read (collection_write [65536; 4294967295]) = Ok ([65536; 4294967295], []).
Proof. vm_compute. auto. Qed.
(** Dictionaries that can be built and saved without an error but not loaded: 256 tags; a
    word with a set of 256 tags; a word with 256 sets. *)
Definition ex_name (i : nat) : list N := [84; 65; 65 + N.of_nat i / 16; 65 + N.of_nat i mod 16].
Definition ex_256_tags : list op := map (fun i => OTagID (ex_name i) []) (seq 0 256).
Definition ex_256_in_set : list op :=
  [OAdd ex_ab; OTagID (ex_name 0) []; OTag ex_ab (replicate 256 (ex_name 0))].
Definition ex_256_sets : list op :=
  OAdd ex_ab :: map (fun i => OTagID (ex_name i) []) (seq 0 255)
  ++ OTag ex_ab [ex_name 0; ex_name 1] :: map (fun i => OTag ex_ab [ex_name i]) (seq 0 255).
Definition saves_not_loads (ix : index) : bool :=
  match index_write ix with
  | Ok (bs, None) => match index_read index_new bs with Err _ => true | _ => false end
  | _ => false
  end.
Theorem C29_256_tags_refuted : exists ix, runs ex_256_tags ix /\ saves_not_loads ix = true.
Proof. apply run_case. vm_compute. reflexivity. Qed.
Print Assumptions C29_256_tags_refuted.
Theorem C29_256_in_set_refuted : exists ix, runs ex_256_in_set ix /\ saves_not_loads ix = true.
Proof. apply run_case. vm_compute. reflexivity. Qed.
Print Assumptions C29_256_in_set_refuted.
Theorem C29_256_sets_refuted : exists ix, runs ex_256_sets ix /\ saves_not_loads ix = true.
Proof. apply run_case. vm_compute. reflexivity. Qed.
Print Assumptions C29_256_sets_refuted.

(** C30, refuted.  Reading over an index adds the word counts up, and letters that only the
    old index knew are still found, at the node of the old index.  Reading over an index
    without words is reading into a fresh one. *)
Theorem C30_counts_add_up_refuted : forall h ix bs, runs h ix -> disk_caps ix = true ->
  index_write ix = Ok (bs, None) ->
  forall ix0, exists ix', index_read ix0 bs = Ok (ix', []) /\
    words_count ix' = words_count ix0 + words_count ix.
Proof. exact l_C30_counts_add_up_refuted. Qed.
Print Assumptions C30_counts_add_up_refuted.
Theorem C30_old_letters_refuted : forall h ix bs h0 ix0 r c,
  runs h ix -> disk_caps ix = true -> index_write ix = Ok (bs, None) ->
  runs h0 ix0 -> r <> 0%Z -> (fetch_runes ix0 [r]).2 = Ok c -> ~ present h [r] ->
  exists ix', index_read ix0 bs = Ok (ix', []) /\
    (fetch_runes ix' [r]).2 = if c <=? nodes_count ix then Ok c else Err EIndex.
Proof. exact l_C30_old_letters_refuted. Qed.
Print Assumptions C30_old_letters_refuted.
Theorem C30_over_an_index_without_words : forall h ix bs h0 ix0,
  runs h ix -> disk_caps ix = true -> index_write ix = Ok (bs, None) ->
  runs h0 ix0 -> reloaded h0 = false -> (forall w, ~ present h0 w) ->
  exists a b, index_read ix0 bs = Ok (a, []) /\ index_read index_new bs = Ok (b, []) /\ indist a b.
Proof. exact l_C30_over_an_index_without_words. Qed.
Print Assumptions C30_over_an_index_without_words.
Example C30_case : exists ix ix0, runs ex_p ix /\ runs [OAdd [98]%Z; OAdd [99]%Z] ix0 /\
  disk_caps ix = true /\ (fetch_runes ix0 [99]%Z).2 = Ok 2 /\ (fetch_runes ix [99]%Z).2 = Err EIndex /\
  look (index_read ix0 (saved ix)) (fun x => (fetch_runes x [99]%Z).2) = Some (Ok 2) /\
  look (index_read ix0 (saved ix)) (fun x => node_word x 2) = Some (Ok [0xD0; 0xBA; 0xD0; 0xBE]).
Proof. apply run_case2. vm_compute. auto 10. Qed.
