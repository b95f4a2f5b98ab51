(** The remaining accessors: C86.  The proofs are in ThmRest.v. *)
From Verif Require Import Base Storage Tags TagSets Variants Items Index Spec Hist AnswerSpec Streams Paths PathSpec Screen ScreenSpec
  ThmTrie ThmRest PropsTrie.
From stdpp Require Import list gmap.
Open Scope N_scope.

(** C86.  The children of the root are the one letter prefixes, and getChild gives the node of the
    longer word.  Violated (the names end in _refuted): for a letter that does not follow the word
    getChild gives the root, node 0, when another letter does; and the filter of items leaves a next
    number one too large, so that reading the item before it panics.  A list of tag numbers is turned
    into tags or refused when a number is unknown, never for a set of the index.  Table numbers of
    the lists of sets start with 1, and 0 panics.  Size counts the different sets.  Numbers are shown
    in hexadecimal without zeros in front, and different numbers differently.  A tag set written in
    the documented layout is read back, and a file of a domain lies in the directory of the domain. *)
Theorem C86_root : forall h ix r c, runs h ix -> r <> 0%Z ->
  (root_node ix r = Some c <-> word_at (d_run h) c [r]) /\
  (children_of_root ix !! r = Some c <-> word_at (d_run h) c [r]).
Proof. exact l_C86_root. Qed.
Print Assumptions C86_root.
Theorem C86_child : forall h ix id w r, runs h ix -> word_at (d_run h) id w ->
  (forall c, c <> 0 -> get_child ix id r = Some c <-> word_at (d_run h) c (w ++ [r])) /\
  (get_child ix id r = None <-> forall r', w ++ [r'] ∉ d_words (d_run h)).
Proof. exact l_C86_child. Qed.
Print Assumptions C86_child.
Theorem C86_missing_child_is_the_root_refuted : forall h ix id w r, runs h ix -> word_at (d_run h) id w ->
  get_child ix id r = Some 0 <-> w ++ [r] ∉ d_words (d_run h) /\ exists r', w ++ [r'] ∈ d_words (d_run h).
Proof. exact l_C86_missing_child_is_the_root_refuted. Qed.
Print Assumptions C86_missing_child_is_the_root_refuted.
Theorem C86_tag_set : forall ts ids,
  match index_tag_set ts ids with
  | Ok l => Forall2 (fun k t => ts !! N.to_nat k = Some t) ids l
  | Err x => x = EOther /\ Exists (fun k => lenN ts <= k) ids
  | Panic => False
  end.
Proof. exact l_C86_tag_set. Qed.
Print Assumptions C86_tag_set.
Theorem C86_known_set : forall h ix k ids, runs h ix -> tagset_get (ix_sets ix) k = Some ids ->
  index_tag_set (ix_tags ix) ids = Ok (map (fun t => default zero_tag (tags_get (ix_tags ix) t)) ids).
Proof. exact l_C86_known_set. Qed.
Print Assumptions C86_known_set.
Theorem C86_table : forall x n, lenN x <= 65535 -> n <= 65535 ->
  variants_get_table x n =
  if decide (n = 0) then Panic else match x !! N.to_nat (n - 1) with Some t => Ok t | None => Panic end.
Proof. exact l_C86_table. Qed.
Print Assumptions C86_table.
Theorem C86_table_of : forall x id col, lenN x <= 65535 -> id < 2 ^ 32 -> 1 <= id32_upper id -> variants_get x id = Ok col ->
  exists t, variants_get_table x (id32_upper id) = Ok t /\ variants_table_get t (id32_lower id) = Ok col.
Proof. exact l_C86_table_of. Qed.
Print Assumptions C86_table_of.
Theorem C86_variants : forall h ix id w, runs h ix -> word_at (d_run h) id w ->
  exists it col, get_item ix id = Ok (Some it) /\ index_variants ix (it_variants it) = Ok col.
Proof. exact l_C86_variants. Qed.
Print Assumptions C86_variants.
Theorem C86_size : forall h ix, runs h ix ->
  tagset_index_size (ix_sets ix) = lenN (concat (ix_sets ix)) /\ NoDup (concat (ix_sets ix)) /\
  tagset_index_size (ix_sets ix) = lenN (tagset_table_ids (ix_sets ix)).
Proof. exact l_C86_size. Qed.
Print Assumptions C86_size.
Theorem C86_filter : forall f s, its_list (items_filter f s) =
  zero_item :: filter (fun it => f it = true /\ it_id it <> 0) (its_list s).
Proof. exact l_C86_filter. Qed.
Print Assumptions C86_filter.
Theorem C86_filter_next_refuted : forall f s, lenN (its_list s) < 2 ^ 32 - 2 ->
  let s' := items_filter f s in its_next s' = lenN (its_list s') + 1 /\ items_get s' (lenN (its_list s')) = Panic.
Proof. exact l_C86_filter_next_refuted. Qed.
Print Assumptions C86_filter_next_refuted.
Theorem C86_hex : forall n, hexadecimal (hex n) n.
Proof. exact l_C86_hex. Qed.
Print Assumptions C86_hex.
Theorem C86_hex_unique : forall s n m, hexadecimal s n -> (hexadecimal s m <-> m = n) /\ (hexadecimal (hex m) n <-> m = n).
Proof. exact l_C86_hex_unique. Qed.
Print Assumptions C86_hex_unique.
Theorem C86_tagset_stream : forall l rest, Forall (fun x => x < 256) l -> lenN l <= 255 ->
  tagset_read_from (lenN l :: l ++ rest) = mkRd (lenN l + 1) (Some l) None rest.
Proof. exact l_C86_tagset_stream. Qed.
Print Assumptions C86_tagset_stream.
Theorem C86_domain_file : forall cwd domain name, entry domain -> entry name ->
  walk cwd (domain_file_path domain name) = cwd ++ [bytes_of ".data"; domain; name].
Proof. exact l_C86_domain_file. Qed.
Print Assumptions C86_domain_file.
Example C86_children_case : exists ix, runs ex_h ix /\
  root_node ix 0x43A%Z = Some 1 /\ root_node ix 0x43E%Z = None /\
  get_child ix 1 0x43E%Z = Some 2 /\ get_child ix 2 0x442%Z = Some 3 /\ get_child ix 2 0x434%Z = Some 4 /\
  get_child ix 2 0x43A%Z = Some 0 /\ get_child ix 3 0x43A%Z = None.
Proof. apply run_case. vm_compute. repeat split; reflexivity. Qed.
Example C86_sets_case : exists ix, runs ex_h ix /\ tagset_index_size (ix_sets ix) = 1 /\
  index_tag_set (ix_tags ix) [1; 0] = Ok [mkTag (bytes_of "NMbr") (bytes_of "sing"); mkTag (bytes_of "----") (bytes_of "NOUN")] /\
  index_tag_set (ix_tags ix) [1; 2] = Err EOther /\
  variants_get_table (ix_cols ix) 0 = Panic /\ variants_get_table (ix_cols ix) 1 = Ok [[65536]] /\
  variants_get_table (ix_cols ix) 2 = Panic.
Proof. apply run_case. vm_compute. repeat split; reflexivity. Qed.
Example C86_filter_case :
  let s := mkItems [zero_item; mkItem 0 1 0x43A%Z 0; mkItem 1 2 0x43E%Z 0] 3 in
  items_get s 2 = Ok (Some (mkItem 1 2 0x43E%Z 0)) /\
  items_filter (fun it => it_id it =? 2) s = mkItems [zero_item; mkItem 1 2 0x43E%Z 0] 3 /\
  items_get (items_filter (fun it => it_id it =? 2) s) 2 = Panic.
Proof. vm_compute. repeat split; reflexivity. Qed.
Example C86_hex_case : map hex [0; 9; 10; 255; 256; 65535; 4294967295] =
  map bytes_of ["0"; "9"; "A"; "FF"; "100"; "FFFF"; "FFFFFFFF"]%string.
Proof. vm_compute. reflexivity. Qed.
Example C86_stream_case : tagset_read_from [3; 7; 8; 9; 200] = Streams.mkRd 4 (Some [7; 8; 9]) None [200].
Proof. vm_compute. reflexivity. Qed.
Example C86_domain_file_case :
  domain_file_path (bytes_of "opencorpora") (bytes_of "dict.xml") = bytes_of ".data/opencorpora/dict.xml" /\
  domain_file_path (bytes_of "..") (bytes_of "x") = bytes_of "x".
Proof. vm_compute. split; reflexivity. Qed.
