(** The methods of an index and of its nodes as one type of calls, and the parts of the index
    each of them reads and writes.  After a panic the state is not meaningful; the model leaves the
    index as it was. *)
From Verif Require Import Base Storage Bin Tags TagSets Variants Items Index Fill Minor.
From stdpp Require Import list gmap.
Open Scope N_scope.

(** A call.  AddRunes, AddString, FetchRunes and FetchString are calls with parent 0
    (idx.go:244-267), Children and rootNode (:270-272, :288-303) look at the children of 0. *)
Inductive call :=
| CGet (id : N)                                   (* idx.go:280-286 *)
| CItem (id : N)                                  (* node.go:19-21 *)
| CChildren (id : N)                              (* idx.go:442-451 *)
| CIdMap (id : N)                                 (* idx.go:314-321 *)
| CFetch (parent : N) (runes : list Z)            (* idx.go:357-388 *)
| CFetchItem (parent : N) (runes : list Z)        (* idx.go:323-355 *)
| CAdd (parent : N) (runes : list Z)              (* idx.go:390-424 *)
| CWordsCount                                     (* idx.go:427-429 *)
| CNodesCount                                     (* idx.go:432-434 *)
| CTagID (name parent : list N)                   (* idx.go:465-467 *)
| CTagSet (ids : list N)                          (* idx.go:469-480 *)
| CVariants (id : N)                              (* idx.go:577-579 *)
| CWord (id : N)                                  (* node.go:73-89 *)
| CString (id : N)                                (* node.go:92-97 *)
| CTagSets (id : N)                               (* node.go:24-50 *)
| CAddTagSet (id : N) (names : list (list N))     (* node.go:52-70 *)
| COptimize                                       (* idx.go:488-574 *)
| CWrite                                          (* idx.go:49-67 *)
| CRead (bs : list N).                            (* idx.go:220-240 *)

(** What a call returns. *)
Inductive answer :=
| ANumber (r : res N) | AItem (r : res item) | AMap (m : gmap Z N) | ATags (r : res (list tag))
| ANumbers (r : res (list N)) | ASets (r : res (list (list tag))) | ADone (r : res unit) | AWritten (r : res wres)
| ARest (r : res (list N)).

Definition exec (c : call) (ix : index) : index * answer :=
  match c with
  | CGet id => (ix, ANumber (index_get ix id))
  | CItem id => (ix, AItem (node_item ix id))
  | CChildren id => (ix, AMap (get_children_map ix id))
  | CIdMap id => let ix1 := ensure_children ix id in (ix1, AMap (default ∅ (ix_children ix1 !! id)))
  | CFetch p w => let '(ix1, r) := fetch_from_item ix p w in (ix1, ANumber r)
  | CFetchItem p w => let '(ix1, r) := fetch_item_from_parent ix p w in (ix1, ANumber r)
  | CAdd p w => let '(ix1, r) := add_to_node ix p w in (ix1, ANumber r)
  | CWordsCount => (ix, ANumber (Ok (words_count ix)))
  | CNodesCount => (ix, ANumber (Ok (nodes_count ix)))
  | CTagID n p => let '(ix1, id) := index_tag_id ix n p in (ix1, ANumber (Ok id))
  | CTagSet ids => (ix, ATags (index_tag_set (ix_tags ix) ids))
  | CVariants id => (ix, ANumbers (index_variants ix id))
  | CWord id => (ix, ANumbers (node_word ix id))
  | CString id => (ix, ANumbers (node_string ix id))
  | CTagSets id => (ix, ASets (node_tag_sets ix id))
  | CAddTagSet id names => let '(ix1, r) := node_add_tag_set ix id names in (ix1, ADone r)
  | COptimize =>
    match optimize ix with
    | Ok ix1 => (ix1, ADone (Ok tt))
    | Err e => (ix, ADone (Err e))
    | Panic => (ix, ADone Panic)
    end
  | CWrite => (ix, AWritten (index_write ix))
  | CRead bs => let '(ix1, r) := fill_index ix bs in (ix1, ARest r)
  end.

(** ** Specification *)

(** The parts of an index: tags, tag sets, lists of sets, the nodes without their lists of sets,
    the numbers of these lists, the map of children, and the word counter. *)
Inductive part := PTags | PSets | PCols | PNodes | PVariants | PChildren | PWords.
Global Instance part_eq_dec : EqDecision part.
Proof. solve_decision. Defined.
Definition node_part (it : item) : N * N * Z := (it_parent it, it_id it, it_letter it).
(** Two indexes with the same content in a part. *)
Definition same (p : part) (a b : index) : Prop :=
  match p with
  | PTags => ix_tags a = ix_tags b
  | PSets => ix_sets a = ix_sets b
  | PCols => ix_cols a = ix_cols b
  | PNodes => map node_part (its_list (ix_items a)) = map node_part (its_list (ix_items b)) /\ its_next (ix_items a) = its_next (ix_items b)
  | PVariants => map it_variants (its_list (ix_items a)) = map it_variants (its_list (ix_items b))
  | PChildren => ix_children a = ix_children b
  | PWords => ix_words a = ix_words b
  end.

Inductive kind :=
| KGet | KItem | KChildren | KIdMap | KFetch | KFetchItem | KAdd | KWordsCount | KNodesCount | KTagID | KTagSet
| KVariants | KWord | KString | KTagSets | KAddTagSet | KOptimize | KWrite | KRead.
Global Instance kind_eq_dec : EqDecision kind.
Proof. solve_decision. Defined.
Definition kind_of (c : call) : kind :=
  match c with
  | CGet _ => KGet | CItem _ => KItem | CChildren _ => KChildren | CIdMap _ => KIdMap | CFetch _ _ => KFetch
  | CFetchItem _ _ => KFetchItem | CAdd _ _ => KAdd | CWordsCount => KWordsCount | CNodesCount => KNodesCount
  | CTagID _ _ => KTagID | CTagSet _ => KTagSet | CVariants _ => KVariants | CWord _ => KWord | CString _ => KString
  | CTagSets _ => KTagSets | CAddTagSet _ _ => KAddTagSet | COptimize => KOptimize | CWrite => KWrite | CRead _ => KRead
  end.
Definition all_kinds : list kind :=
  [KGet; KItem; KChildren; KIdMap; KFetch; KFetchItem; KAdd; KWordsCount; KNodesCount; KTagID; KTagSet;
   KVariants; KWord; KString; KTagSets; KAddTagSet; KOptimize; KWrite; KRead].

(** The parts whose content matters for the answer or for the new content of another part. *)
Definition reads (k : kind) : list part :=
  match k with
  | KGet | KWord | KNodesCount => [PNodes]
  | KItem | KString => [PNodes; PVariants]
  | KChildren | KIdMap => [PChildren]
  | KFetch | KFetchItem | KAdd => [PChildren; PNodes]
  | KWordsCount => [PWords]
  | KTagID | KTagSet => [PTags]
  | KVariants => [PCols]
  | KTagSets | KAddTagSet => [PTags; PSets; PCols; PNodes; PVariants]
  | KOptimize => [PCols; PNodes; PVariants]
  | KWrite => [PTags; PSets; PCols; PNodes; PVariants]
  | KRead => []
  end.
(** The parts that may have another content afterwards. *)
Definition writes (k : kind) : list part :=
  match k with
  | KIdMap | KFetch | KFetchItem => [PChildren]
  | KAdd => [PNodes; PVariants; PChildren]
  | KTagID => [PTags]
  | KAddTagSet => [PSets; PCols; PVariants; PWords]
  | KOptimize => [PCols; PVariants]
  | KRead => [PTags; PSets; PCols; PNodes; PVariants; PChildren; PWords]
  | _ => []
  end.
(** Neither writes what the other reads or writes. *)
Definition apart (a b : kind) : bool :=
  forallb (fun p => negb (bool_decide (p ∈ reads b ++ writes b))) (writes a) &&
  forallb (fun p => negb (bool_decide (p ∈ reads a ++ writes a))) (writes b).
(** Calls one after another, with their answers. *)
Fixpoint calls (l : list call) (ix : index) : index * list answer :=
  match l with
  | [] => (ix, [])
  | c :: l => let '(ix1, a) := exec c ix in let '(ix2, r) := calls l ix1 in (ix2, a :: r)
  end.
(** Two callers whose calls are executed in some order; the calls and the answers of one of them. *)
Fixpoint of_caller {A} (b : bool) (l : list (bool * A)) : list A :=
  match l with
  | [] => []
  | (b', x) :: l => if eqb b' b then x :: of_caller b l else of_caller b l
  end.
