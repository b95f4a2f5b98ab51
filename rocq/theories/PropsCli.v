(** The index browser: C54.  The proofs are in ThmCli.v. *)
From Verif Require Import Base Storage Utf8 Tags TagSets Variants Items Index Spec Hist
  BaseFacts Intern ThmTrie Cli ThmCli.
From stdpp Require Import list gmap.
Open Scope N_scope.

(** C54.  A node number is answered iff, as an unsigned number, it is that of a node, and is
    below the number of nodes; the answer to the number of a word is that word, its tag sets,
    the number of the word without its last letter and those of the words one letter longer.
    So the last node is rejected, node 0 crashes the browser and some negative numbers are
    answered.  A word is answered iff it is found.  Tags and tables: every existing number is
    answered, larger ones are rejected, negative ones crash.  Sets: exactly the existing ones
    are answered, with names of tags; nothing crashes.  Variants: an unknown one is never
    rejected; it crashes, except those below 65536, which are answered as empty. *)
Theorem C54_node : forall h ix n, runs h ix ->
  match (cmd_node ix n).2 with
  | Ok i => (n < Z.of_N (nodes_count ix))%Z /\ 1 <= to_u32 n <= nodes_count ix /\ ni_id i = to_u32 n
  | Err _ => (Z.of_N (nodes_count ix) <= n)%Z \/ nodes_count ix < to_u32 n
  | Panic => (n < Z.of_N (nodes_count ix))%Z /\ to_u32 n = 0
  end.
Proof. exact l_C54_node. Qed.
Print Assumptions C54_node.
Theorem C54_node_numbers : forall h ix n, runs h ix -> (0 <= n < 4294967296)%Z ->
  (exists i, (cmd_node ix n).2 = Ok i) <-> (1 <= n < Z.of_N (nodes_count ix))%Z.
Proof. exact l_C54_node_numbers. Qed.
Print Assumptions C54_node_numbers.
Theorem C54_node_content : forall h ix w id, runs h ix -> hd_ok h w -> (fetch_runes ix w).2 = Ok id ->
  id < nodes_count ix ->
  exists i ts, (cmd_node ix (Z.of_N id)).2 = Ok i /\ ni_id i = id /\ ni_word i = string_of_runes w /\
    node_tag_sets ix id = Ok ts /\ ni_sets i = map (map tag_name) ts /\
    (match removelast w with [] => ni_parent i = 0 | q => (fetch_runes ix q).2 = Ok (ni_parent i) end) /\
    (forall r c, ni_children i !! r = Some c <-> (fetch_runes ix (w ++ [r])).2 = Ok c) /\
    cmd_var ix (ni_variants i) = Ok (map (fun s => Some (map Some s)) (ni_sets i)).
Proof. exact l_C54_node_content. Qed.
Print Assumptions C54_node_content.
Theorem C54_last_node_refuted : forall h ix, runs h ix -> nodes_count ix <> 0 ->
  (cmd_node ix (Z.of_N (nodes_count ix))).2 = Err EOther /\ index_get ix (nodes_count ix) = Ok (nodes_count ix).
Proof. exact l_C54_last_node_refuted. Qed.
Print Assumptions C54_last_node_refuted.
Theorem C54_node_zero_refuted : forall h ix, runs h ix -> nodes_count ix <> 0 -> (cmd_node ix 0).2 = Panic.
Proof. exact l_C54_node_zero_refuted. Qed.
Print Assumptions C54_node_zero_refuted.
Theorem C54_negative_node_refuted : forall h ix id, runs h ix -> 1 <= id <= nodes_count ix ->
  exists i, (cmd_node ix (Z.of_N id - 4294967296)).2 = Ok i /\ ni_id i = id.
Proof. exact l_C54_negative_node_refuted. Qed.
Print Assumptions C54_negative_node_refuted.
Theorem C54_word : forall h ix w, runs h ix -> hd_ok h w ->
  match (fetch_runes ix w).2 with
  | Ok id => exists i, (cmd_node_word ix w).2 = Ok i /\ ni_id i = id /\ ni_word i = string_of_runes w
  | _ => (cmd_node_word ix w).2 = Err EOther
  end.
Proof. exact l_C54_word. Qed.
Print Assumptions C54_word.
Theorem C54_search : forall h ix s, runs h ix -> hd_ok h (runes_of_string s) ->
  (cmd_search ix s).2 = (id ← (fetch_string ix s).2; node_tag_sets ix id) /\
  (cmd_search ix s).2 <> Panic.
Proof. exact l_C54_search. Qed.
Print Assumptions C54_search.
Theorem C54_tag_numbers : forall ix n,
  match cmd_tag ix n with
  | Ok t => (0 <= n)%Z /\ ix_tags ix !! Z.to_nat n = Some t
  | Err _ => (Z.of_N (lenN (ix_tags ix)) <= n)%Z
  | Panic => (n < 0)%Z
  end.
Proof. exact l_C54_tag_numbers. Qed.
Print Assumptions C54_tag_numbers.
Theorem C54_table_numbers : forall ix n,
  match cmd_table ix n with
  | Ok t => (0 <= n)%Z /\ ix_sets ix !! Z.to_nat n = Some t
  | Err _ => (Z.of_N (lenN (ix_sets ix)) <= n)%Z
  | Panic => (n < 0)%Z
  end.
Proof. exact l_C54_table_numbers. Qed.
Print Assumptions C54_table_numbers.
Theorem C54_set_numbers : forall h ix n, runs h ix ->
  match cmd_set ix n with
  | Ok names => exists ids ts, tagset_get (ix_sets ix) (to_u32 n) = Some ids /\
      Forall2 (fun k t => ix_tags ix !! N.to_nat k = Some t) ids ts /\ names = map (fun t => Some (tag_name t)) ts
  | Err _ => tagset_get (ix_sets ix) (to_u32 n) = None
  | Panic => False
  end.
Proof. exact l_C54_set_numbers. Qed.
Print Assumptions C54_set_numbers.
Theorem C54_var_numbers : forall ix id,
  match cmd_var ix id with
  | Ok l => id32_upper id = 0 /\ l = [] \/
      exists col, at2 (ix_cols ix) (N.to_nat (id32_upper id) - 1) (N.to_nat (id32_lower id)) = Some col /\ length l = length col
  | Err _ => False
  | Panic => id32_upper id <> 0 /\ at2 (ix_cols ix) (N.to_nat (id32_upper id) - 1) (N.to_nat (id32_lower id)) = None
  end.
Proof. exact l_C54_var_numbers. Qed.
Print Assumptions C54_var_numbers.
Theorem C54_unknown_variant_refuted : forall ix, lenN (ix_cols ix) < 65535 ->
  cmd_var ix (combine16 (lenN (ix_cols ix) + 1) 0) = Panic.
Proof. exact l_C54_unknown_variant_refuted. Qed.
Print Assumptions C54_unknown_variant_refuted.
Definition ex_browse : list op :=
  [OTagID (bytes_of "NOUN") []; OTagID (bytes_of "sing") (bytes_of "NMbr");
   OAdd [97; 98]%Z; OTag [97; 98]%Z [bytes_of "sing"; bytes_of "NOUN"]; OAdd [99]%Z; OOptimize; OReload].
Example C54_case : exists ix, runs ex_browse ix /\ nodes_count ix = 3 /\
  match (cmd_node ix 2).2 with
  | Ok i => ni_word i = bytes_of "ab" /\ ni_parent i = 1 /\ ni_sets i = [[bytes_of "NOUN"; bytes_of "sing"]] /\ ni_variants i = 65536
  | _ => False
  end /\
  (cmd_node ix 3).2 = Err EOther /\ (cmd_node ix 4).2 = Err EOther /\ (cmd_node ix 0).2 = Panic /\
  match (cmd_node ix (-4294967294)).2 with Ok i => ni_id i = 2 | _ => False end /\ (cmd_node ix (-1)).2 = Err EOther /\
  match (cmd_node_word ix [99%Z]).2 with Ok i => ni_id i = 3 /\ ni_sets i = [] | _ => False end /\
  (cmd_node_word ix [100%Z]).2 = Err EOther /\
  cmd_tag ix 1 = Ok (mkTag (bytes_of "NMbr") (bytes_of "sing")) /\ cmd_tag ix 2 = Err EOther /\ cmd_tag ix (-1) = Panic /\
  cmd_table ix 1 = Ok [[0; 1]] /\ cmd_table ix 2 = Err EOther /\ cmd_table ix (-1) = Panic /\
  cmd_set ix 65536 = Ok [Some (bytes_of "NOUN"); Some (bytes_of "sing")] /\ cmd_set ix 0 = Err EOther /\ cmd_set ix (-1) = Err EOther /\
  cmd_var ix 65536 = Ok [Some [Some (bytes_of "NOUN"); Some (bytes_of "sing")]] /\ cmd_var ix 65535 = Ok [] /\
  cmd_var ix 65537 = Panic /\ cmd_var ix 131072 = Panic /\
  (cmd_search ix (bytes_of "ab")).2 = Ok [[mkTag (bytes_of "----") (bytes_of "NOUN"); mkTag (bytes_of "NMbr") (bytes_of "sing")]].
Proof. apply run_case. vm_compute. repeat (split; [reflexivity || (repeat split)|]). reflexivity. Qed.
