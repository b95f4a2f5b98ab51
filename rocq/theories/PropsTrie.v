(** Words and nodes: C02-C08, C31, C36, C37.  The proofs are in ThmTrie.v. *)
From Verif Require Import Base Storage Bin Utf8 Tags TagSets Variants Items Index Spec Hist ThmTrie.
From stdpp Require Import list pretty.
Open Scope N_scope.

(** A history used in the examples: the Cyrillic words "кот" and "код", a tag, a lookup below
    a leaf, a save and load, another word. *)
Definition ex_cat : list Z := [0x43A; 0x43E; 0x442]%Z.
Definition ex_code : list Z := [0x43A; 0x43E; 0x434]%Z.
Definition ex_h : list op :=
  [OAdd ex_cat; OTagID (bytes_of "NOUN") []; OTagID (bytes_of "sing") (bytes_of "NMbr");
   OTag ex_cat [bytes_of "sing"; bytes_of "NOUN"]; OFetch (ex_cat ++ ex_cat); OOptimize; OReload;
   OAdd ex_code].
Example ex_h_runs : exists ix, runs ex_h ix /\ nodes_count ix = 4 /\ words_count ix = 1.
Proof. apply run_case. vm_compute. auto. Qed.

(** C02.  A word that was added is found at any later moment, as the node returned by the
    addition.  [runs h ix] says that the history [h] leads from a new index to [ix]. *)
Theorem C02_added_is_found : forall h h' w ix ix',
  runs h ix -> runs (h ++ OAdd w :: h') ix' -> w <> [] ->
  (reloaded h' = true -> head w <> Some 0%Z) ->
  exists id, (add_runes ix w).2 = Ok id /\ (fetch_runes ix' w).2 = Ok id.
Proof. exact l_C02_added_is_found. Qed.
Print Assumptions C02_added_is_found.
Theorem C02_added_string_is_found : forall h h' s ix ix',
  runs h ix -> runs (h ++ OAdd (runes_of_string s) :: h') ix' -> s <> [] ->
  (reloaded h' = true -> head s <> Some 0) ->
  exists id, (add_string ix s).2 = Ok id /\ (fetch_string ix' s).2 = Ok id.
Proof. exact l_C02_added_string_is_found. Qed.
Print Assumptions C02_added_string_is_found.
Example C02_case : exists ix ix', runs [OAdd ex_cat] ix /\ runs ([OAdd ex_cat] ++ OAdd ex_code :: [OFetch ex_cat; OReload]) ix' /\
  (add_runes ix ex_code).2 = Ok 4 /\ (fetch_runes ix' ex_code).2 = Ok 4.
Proof. apply run_case2. vm_compute. auto. Qed.

(** C03.  A word is found iff it is a non-empty prefix of an added word. *)
Theorem C03_found_iff : forall h ix w,
  runs h ix -> (reloaded h = true -> head w <> Some 0%Z) ->
  ((exists id, (fetch_runes ix w).2 = Ok id) <-> present h w) /\
  (~ present h w -> (fetch_runes ix w).2 = Err EIndex).
Proof. exact l_C03_found_iff. Qed.
Print Assumptions C03_found_iff.
Theorem C03_empty_word : forall ix, (fetch_runes ix []).2 = Err EIndex /\ (fetch_string ix []).2 = Err EIndex.
Proof. exact l_C03_empty_word. Qed.
Print Assumptions C03_empty_word.
Example C03_case : (exists ix, runs ex_h ix /\
  (fetch_runes ix [0x43A; 0x43E]%Z).2 = Ok 2 /\ (fetch_runes ix [0x43E]%Z).2 = Err EIndex) /\
  present ex_h [0x43A; 0x43E]%Z.
Proof.
  split; [apply run_case; vm_compute; auto|].
  split; [discriminate|]. exists ex_cat. split; [apply elem_of_list_here|]. by exists [0x442]%Z.
Qed.

(** C04.  Nodes are equal iff words are, also across time, and nodes never change. *)
Theorem C04_same_node_iff_same_word : forall h h' ix ix' w w' i j,
  runs h ix -> runs (h ++ h') ix' ->
  (reloaded h = true -> head w <> Some 0%Z) -> (reloaded (h ++ h') = true -> head w' <> Some 0%Z) ->
  (fetch_runes ix w).2 = Ok i -> (fetch_runes ix' w').2 = Ok j -> i = j <-> w = w'.
Proof. exact l_C04_same_node_iff_same_word. Qed.
Print Assumptions C04_same_node_iff_same_word.
Theorem C04_node_is_stable : forall h h' ix ix' w i,
  runs h ix -> runs (h ++ h') ix' -> (reloaded (h ++ h') = true -> head w <> Some 0%Z) ->
  (fetch_runes ix w).2 = Ok i -> (fetch_runes ix' w).2 = Ok i.
Proof. exact l_C04_node_is_stable. Qed.
Print Assumptions C04_node_is_stable.
Example C04_case : exists ix, runs ex_h ix /\ (fetch_runes ix ex_cat).2 = Ok 3 /\ (fetch_runes ix ex_code).2 = Ok 4.
Proof. apply run_case. vm_compute. auto. Qed.

(** C05.  [NodesCount] is the number of distinct non-empty prefixes of the added words. *)
Theorem C05_nodes_count : forall h ix, runs h ix ->
  exists l, NoDup l /\ (forall w, w ∈ l <-> present h w) /\ nodes_count ix = lenN l.
Proof. exact l_C05_nodes_count. Qed.
Print Assumptions C05_nodes_count.
Example C05_case : exists ix, runs ex_h ix /\ nodes_count ix = 4.
Proof. destruct ex_h_runs as (ix & H & E & _). exists ix. split; assumption. Qed.

(** C06.  Adding a present word returns its node and leaves an index that no sequence of
    calls and queries can tell from the old one. *)
Theorem C06_add_again : forall h ix w,
  runs h ix -> present h w -> (reloaded h = true -> head w <> Some 0%Z) ->
  exists id, (fetch_runes ix w).2 = Ok id /\ (add_runes ix w).2 = Ok id /\
             indist (add_runes ix w).1 ix.
Proof. exact l_C06_add_again. Qed.
Print Assumptions C06_add_again.
Example C06_case : (exists ix, runs ex_h ix /\ (add_runes ix [0x43A; 0x43E]%Z).2 = Ok 2) /\
  present ex_h [0x43A; 0x43E]%Z.
Proof.
  split; [apply run_case; vm_compute; auto|].
  split; [discriminate|]. exists ex_cat. split; [apply elem_of_list_here|]. by exists [0x442]%Z.
Qed.

(** C07.  Adding below a node is adding the concatenation; an unknown parent is rejected. *)
Theorem C07_add_below_node : forall h ix p r id,
  runs h ix -> (reloaded h = true -> head p <> Some 0%Z) -> r <> [] ->
  (fetch_runes ix p).2 = Ok id ->
  (add_to_node ix id r).2 = (add_runes ix (p ++ r)).2 /\
  indist (add_to_node ix id r).1 (add_runes ix (p ++ r)).1.
Proof. exact l_C07_add_below_node. Qed.
Print Assumptions C07_add_below_node.
Theorem C07_unknown_parent : forall h ix id r,
  runs h ix -> nodes_count ix < id -> add_to_node ix id r = (ix, Err EIndex).
Proof. exact l_C07_unknown_parent. Qed.
Print Assumptions C07_unknown_parent.
Example C07_case : exists ix, runs ex_h ix /\
  (add_to_node ix 2 [0x448; 0x43A; 0x430]%Z).2 = Ok 7 /\ (add_runes ix [0x43A; 0x43E; 0x448; 0x43A; 0x430]%Z).2 = Ok 7 /\
  (add_to_node ix 5 [0x448]%Z).2 = Err EIndex.
Proof. apply run_case. vm_compute. auto. Qed.

(** C08.  [Word] of a node is the word it was reached by. *)
Theorem C08_word : forall h ix w id,
  runs h ix -> (reloaded h = true -> head w <> Some 0%Z) -> (fetch_runes ix w).2 = Ok id ->
  node_word ix id = Ok (string_of_runes w).
Proof. exact l_C08_word. Qed.
Print Assumptions C08_word.
Theorem C08_string_word : forall h ix s id,
  runs h ix -> (reloaded h = true -> head (runes_of_string s) <> Some 0%Z) -> wf_utf8 s ->
  (fetch_string ix s).2 = Ok id -> node_word ix id = Ok s.
Proof. exact l_C08_string_word. Qed.
Print Assumptions C08_string_word.
Example C08_case : exists ix, runs ex_h ix /\
  node_word ix 3 = Ok [0xD0; 0xBA; 0xD0; 0xBE; 0xD1; 0x82] /\ (fetch_string ix [0xD0; 0xBA; 0xD0; 0xBE; 0xD1; 0x82]).2 = Ok 3.
Proof. apply run_case. vm_compute. auto. Qed.

(** C31.  A lookup changes no later result, on any index whatsoever. *)
Theorem C31_lookup_has_no_effect : forall ix w, indist (fetch_runes ix w).1 ix.
Proof. exact l_C31_lookup_has_no_effect. Qed.
Print Assumptions C31_lookup_has_no_effect.
(** The lookup does change memory: it records an empty child list (see C32). *)
Example C31_case : exists ix, runs [OAdd ex_cat] ix /\ ix_children ix !! 3 = None /\
  ix_children (fetch_runes ix (ex_cat ++ [1]%Z)).1 !! 3 <> None.
Proof. apply run_case. vm_compute. split; [reflexivity|discriminate]. Qed.

(** C36.  Every node other than number 0 is usable; [Get] answers exactly the existing
    numbers; node 0 is handed out by [Get] but panics. *)
Theorem C36_nodes_usable : forall h ix id,
  runs h ix -> id <> 0 -> index_get ix id = Ok id ->
  (exists s, node_word ix id = Ok s /\ wf_utf8 s) /\
  (exists ts, node_tag_sets ix id = Ok ts) /\
  (forall names, (node_add_tag_set ix id names).2 = Ok tt \/ (node_add_tag_set ix id names).2 = Err EIndex).
Proof. exact l_C36_nodes_usable. Qed.
Print Assumptions C36_nodes_usable.
Theorem C36_returned_nodes : forall h ix w id,
  runs h ix -> (reloaded h = true -> head w <> Some 0%Z) -> (fetch_runes ix w).2 = Ok id ->
  id <> 0 /\ index_get ix id = Ok id.
Proof. exact l_C36_returned_nodes. Qed.
Print Assumptions C36_returned_nodes.
Theorem C36_get_iff : forall h ix id, runs h ix ->
  (index_get ix id = Ok id <-> id <= nodes_count ix) /\ (nodes_count ix < id -> index_get ix id = Err EIndex).
Proof. exact l_C36_get_iff. Qed.
Print Assumptions C36_get_iff.
Theorem C36_root_panics : forall ix names ids,
  index_get index_new 0 = Ok 0 /\
  node_tag_sets ix 0 = Panic /\
  (names_to_ids (ix_tags ix) names = Ok ids -> (node_add_tag_set ix 0 names).2 = Panic).
Proof. exact l_C36_root_panics. Qed.
Print Assumptions C36_root_panics.
Theorem C36_get_zero_refuted : exists h ix, runs h ix /\ index_get ix 0 = Ok 0 /\ node_tag_sets ix 0 = Panic /\
  (node_add_tag_set ix 0 [bytes_of "NOUN"]).2 = Panic.
Proof.
  exists ex_h. apply run_case. vm_compute. auto.
Qed.
Print Assumptions C36_get_zero_refuted.
Example C36_case : exists ix, runs ex_h ix /\ index_get ix 4 = Ok 4 /\ index_get ix 5 = Err EIndex /\
  node_tag_sets ix 3 = Ok [[mkTag (bytes_of "----") (bytes_of "NOUN"); mkTag (bytes_of "NMbr") (bytes_of "sing")]].
Proof. apply run_case. vm_compute. auto. Qed.

(** C37.  [Node.String] for words ending in an ASCII letter; for other last letters the text
    is cut inside the letter. *)
Theorem C37_node_string : forall h ix w c id it,
  runs h ix -> (reloaded h = true -> head (w ++ [c]) <> Some 0%Z) -> (0 <= c < 128)%Z ->
  (fetch_runes ix (w ++ [c])).2 = Ok id -> get_item ix id = Ok (Some it) ->
  node_string ix id = Ok (bytes_of "Node(" ++ string_of_runes w ++ bytes_of "[" ++ [Z.to_N c] ++ bytes_of "]"
    ++ bytes_of (pretty id) ++ bytes_of "_" ++ bytes_of (pretty (it_parent it)) ++ bytes_of "_"
    ++ bytes_of (pretty (it_variants it)) ++ bytes_of ")").
Proof. exact l_C37_node_string. Qed.
Print Assumptions C37_node_string.
Example C37_case : exists ix, runs [OAdd [0x43A; 0x61]%Z] ix /\ node_string ix 2 = Ok (bytes_of "Node(к[a]2_1_0)").
Proof. apply run_case. vm_compute. reflexivity. Qed.
Theorem C37_node_string_refuted : exists h ix w id s, runs h ix /\ (fetch_runes ix w).2 = Ok id /\
  Forall scalar w /\ node_string ix id = Ok s /\ ~ wf_utf8 s.
Proof.
  assert (Hc : exists ix, runs [OAdd ex_cat] ix /\ (fetch_runes ix ex_cat).2 = Ok 3 /\
    node_string ix 3 = Ok (bytes_of "Node(" ++ [208; 186; 208; 190; 209; 91; 209; 130; 93; 130] ++ bytes_of "3_2_0)")).
  { apply run_case. vm_compute. auto. }
  destruct Hc as (ix & Hr & Hf & Hs).
  exists [OAdd ex_cat], ix, ex_cat, 3, (bytes_of "Node(" ++ [208; 186; 208; 190; 209; 91; 209; 130; 93; 130] ++ bytes_of "3_2_0)"). split; [exact Hr|]. split; [exact Hf|].
  split; [repeat constructor; unfold scalar; lia|]. split; [exact Hs|]. clear. vm_compute. intros H.
  repeat match goal with
  | H : wf_utf8 (_ :: _) |- _ => inversion H; clear H; subst; try lia
  end.
Qed.
Print Assumptions C37_node_string_refuted.
