(** Optimize on an index read from any file, whatever wrote it: C81.  The proofs are in
    ThmTidy.v; Tidy.v is the specification, over the contents of FileSpec.v. *)
From Verif Require Import Base Storage Bin Utf8 Tags TagSets Variants Items Index Hist BinFacts FileSpec ThmFile Share ThmShare Tidy ThmTidy PropsDisk.
From stdpp Require Import list gmap.
Open Scope N_scope.

(** C81.  Take any bytes that load in which the nodes that refer to a collection carry their own
    number and refer to a collection there is, and in which no more than 65536 collections have
    one size.  Optimize succeeds, leaves tags, sets and nodes as they were, except that a node
    refers to its collection under another number and its members may be put in order; lookups,
    words, children and counts do not change, and tag sets come in another order at most.  If
    some collection was referred to by no node the tables become as short as can be, else
    nothing changes at all, however untidy the tables are; doing it twice is doing it once. *)
Theorem C81_nodes : forall bs ix rest, bytes bs -> index_read index_new bs = Ok (ix, rest) ->
  well_numbered (content_of ix) -> room (content_of ix) ->
  exists h', h_optimize (h_of ix) = Ok h' /\
    c_tags (content_of (view h')) = c_tags (content_of ix) /\ c_sets (content_of (view h')) = c_sets (content_of ix) /\
    Forall2 (same_node (content_of ix) (content_of (view h'))) (c_nodes (content_of ix)) (c_nodes (content_of (view h'))).
Proof. exact l_C81_nodes. Qed.
Print Assumptions C81_nodes.
Theorem C81_answers : forall bs ix rest, bytes bs -> index_read index_new bs = Ok (ix, rest) ->
  well_numbered (content_of ix) -> room (content_of ix) ->
  exists h', h_optimize (h_of ix) = Ok h' /\
    nodes_count (view h') = nodes_count ix /\ words_count (view h') = words_count ix /\
    (forall w, (fetch_runes (view h') w).2 = (fetch_runes ix w).2) /\
    (forall id, node_word (view h') id = node_word ix id) /\
    (forall id, get_children_map (view h') id = get_children_map ix id) /\
    (forall id, node_tag_sets ix id = Panic <-> node_tag_sets (view h') id = Panic) /\
    (sets_known (content_of ix) -> forall id l, node_tag_sets ix id = Ok l -> exists l', node_tag_sets (view h') id = Ok l' /\ l' ≡ₚ l).
Proof. exact l_C81_answers. Qed.
Print Assumptions C81_answers.
Theorem C81_tidy : forall bs ix rest h', bytes bs -> index_read index_new bs = Ok (ix, rest) ->
  well_numbered (content_of ix) -> room (content_of ix) -> h_optimize (h_of ix) = Ok h' ->
  leftover (content_of ix) -> tidy (content_of (view h')) /\ ~ leftover (content_of (view h')).
Proof. exact l_C81_tidy. Qed.
Print Assumptions C81_tidy.
Theorem C81_untouched : forall ix, Forall (fun t => N.of_nat (length t) <= 65536) (ix_cols ix) -> lenN (ix_cols ix) <= 65535 ->
  ~ leftover (content_of ix) -> h_optimize (h_of ix) = Ok (h_of ix).
Proof. exact l_C81_untouched. Qed.
Print Assumptions C81_untouched.
Theorem C81_again : forall bs ix rest h', bytes bs -> index_read index_new bs = Ok (ix, rest) ->
  well_numbered (content_of ix) -> room (content_of ix) -> h_optimize (h_of ix) = Ok h' ->
  h_optimize h' = Ok h'.
Proof. exact l_C81_again. Qed.
Print Assumptions C81_again.
(** Three tags, three sets of one tag; four collections of one set, two of them equal, and two of
    two sets, one not in order.  Three records refer to three of the six. *)
Definition tA : list N := bytes_of "AAAA".
Definition tB : list N := bytes_of "BBBB".
Definition tC : list N := bytes_of "CCCC".
Definition hand (cols : list (list (list N))) (l : list item) : list N :=
  saved (mkIndex [mkTag [] tA; mkTag [] tB; mkTag [] tC] [[[0]; [1]; [2]]] cols (mkItems l (lenN l)) ∅ 0).
Definition loaded_of (bs : list N) : index := match index_read index_new bs with Ok (ix, _) => ix | _ => index_new end.
Definition tidied_of (ix : index) : index := match h_optimize (h_of ix) with Ok h => view h | _ => index_new end.
Definition hand_cols : list (list (list N)) := [[[1]; [0]; [0]; [2]]; [[1; 0]; [0; 2]]].
Definition hand_good : list N :=
  hand hand_cols [mkItem 0 0 0 0; mkItem 0 1 97 65537; mkItem 0 2 98 65538; mkItem 0 3 99 131072]%Z.
Example C81_case :
  let ix := loaded_of hand_good in let ix' := tidied_of ix in
  index_read index_new hand_good = Ok (ix, []) /\ bytes hand_good /\
  well_numbered (content_of ix) /\ room (content_of ix) /\ sets_known (content_of ix) /\ leftover (content_of ix) /\
  ix_cols ix = hand_cols /\ map it_variants (its_list (ix_items ix)) = [0; 65537; 65538; 131072] /\
  ix_cols ix' = [[[0]]; [[0; 1]]] /\ map it_variants (its_list (ix_items ix')) = [0; 65536; 65536; 131072] /\
  names_at 3 ix = Some [[tB]; [tA]] /\ names_at 3 ix' = Some [[tA]; [tB]] /\
  (fetch_runes ix' [99]%Z).2 = Ok 3.
Proof.
  split; [vm_compute; reflexivity|]. split; [by apply (bool_decide_unpack _); vm_compute|].
  set (ix := loaded_of hand_good).
  assert (E : content_of ix = mkContent [(bytes_of "----", tA); (bytes_of "----", tB); (bytes_of "----", tC)] [[[0]; [1]; [2]]] hand_cols
    [(0, 0, 0%Z, 0); (0, 1, 97%Z, 65537); (0, 2, 98%Z, 65538); (0, 3, 99%Z, 131072)]) by (vm_compute; reflexivity).
  split; [|split; [|split; [|split]]].
  - rewrite E. cbn [c_nodes]. intros i p n l v Hi Hv.
    destruct i as [|[|[|[|i]]]]; cbn in Hi; try (injection Hi as <- <- <- <-); try done.
  - rewrite E. split; [by repeat (constructor; [vm_compute; discriminate|])|]. cbn [c_cols hand_cols concat app]. intros k.
    pose proof (filter_length (fun s : list N => length s = k) [[1]; [0]; [0]; [2]; [1; 0]; [0; 2]]) as L. cbn [length] in L. lia.
  - rewrite E. unfold sets_known. repeat (constructor; [repeat (constructor; [repeat (constructor; [vm_compute; discriminate|]); constructor|]); constructor|]). constructor.
  - rewrite E. exists 0%nat, 0%nat, [1]. split; [done|]. cbn [c_nodes]. intros x Hx. repeat (apply elem_of_cons in Hx as [-> | Hx]; [done|]). by apply elem_of_nil in Hx.
  - vm_compute. repeat split; reflexivity.
Qed.
(** Without a collection to spare the same tables stay as they are: the equal collections and
    the one out of order with them. *)
Definition hand_full : list N :=
  hand [[[0]; [0]]; [[1; 0]]] [mkItem 0 0 0 0; mkItem 0 1 97 65536; mkItem 0 2 98 65537; mkItem 0 3 99 131072]%Z.
Example C81_untidy_refuted :
  let ix := loaded_of hand_full in
  index_read index_new hand_full = Ok (ix, []) /\ ix_cols ix = [[[0]; [0]]; [[1; 0]]] /\ ix_cols (tidied_of ix) = ix_cols ix.
Proof. vm_compute. repeat split; reflexivity. Qed.
(** If two records carry each other's number, Optimize exchanges the tags of the two words. *)
Definition hand_swapped : list N :=
  hand [[[0]; [1]; [2]]] [mkItem 0 0 0 0; mkItem 0 2 97 65536; mkItem 0 1 98 65537]%Z.
Theorem C81_swapped_refuted : exists bs ix, index_read index_new bs = Ok (ix, []) /\
  (fetch_runes ix [97]%Z).2 = Ok 1 /\ (fetch_runes ix [98]%Z).2 = Ok 2 /\
  names_at 1 ix = Some [[tA]] /\ names_at 2 ix = Some [[tB]] /\
  names_at 1 (tidied_of ix) = Some [[tB]] /\ names_at 2 (tidied_of ix) = Some [[tA]].
Proof. exists hand_swapped, (loaded_of hand_swapped). vm_compute. repeat split; reflexivity. Qed.
Print Assumptions C81_swapped_refuted.
(** If a record carries a number beyond the table, Optimize crashes, though every question about
    the index is answered before. *)
Definition hand_beyond : list N :=
  hand [[[0]; [1]]] [mkItem 0 0 0 0; mkItem 0 9 97 65536]%Z.
Theorem C81_beyond_refuted : exists bs ix, index_read index_new bs = Ok (ix, []) /\
  (fetch_runes ix [97]%Z).2 = Ok 1 /\ names_at 1 ix = Some [[tA]] /\ h_optimize (h_of ix) = Panic.
Proof. exists hand_beyond, (loaded_of hand_beyond). vm_compute. repeat split; reflexivity. Qed.
Print Assumptions C81_beyond_refuted.
(** If a record refers to a collection there is not, asking for its tags crashes; after Optimize
    it answers with the tags of another word. *)
Definition hand_unknown : list N :=
  hand [[[2]]; [[0; 1]]; [[0; 1; 2]; [0]]] [mkItem 0 0 0 0; mkItem 0 1 97 65537; mkItem 0 2 98 65536; mkItem 0 3 99 196609]%Z.
Theorem C81_unknown_refuted : exists bs ix, index_read index_new bs = Ok (ix, []) /\
  node_tag_sets ix 1 = Panic /\ names_at 3 ix = Some [[tA]] /\ names_at 1 (tidied_of ix) = Some [[tA]].
Proof. exists hand_unknown, (loaded_of hand_unknown). vm_compute. repeat split; reflexivity. Qed.
Print Assumptions C81_unknown_refuted.
