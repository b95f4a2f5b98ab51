(** Model of internal/index/idx.go and node.go (sequential use; the mutex of the index is
    only taken by BinaryWriteTo, BinaryReadFrom and rootNode). *)
From Verif Require Import Base Storage Bin Utf8 Tags TagSets Variants Items.
From stdpp Require Import pretty.
Open Scope N_scope.

(** internal/index/idx.go:21-29. *)
Record index := mkIndex {
  ix_tags : list tag;
  ix_sets : list (list (list N));
  ix_cols : list (list (list N));
  ix_items : items;
  ix_children : gmap N (gmap Z N);
  ix_words : N }.

(** internal/index/idx.go:37-47 [New]. *)
Definition index_new : index := mkIndex (tags_new []) [] [] items_new ∅ 0.

Definition set_tags (ix : index) v := mkIndex v (ix_sets ix) (ix_cols ix) (ix_items ix) (ix_children ix) (ix_words ix).
Definition set_sets (ix : index) v := mkIndex (ix_tags ix) v (ix_cols ix) (ix_items ix) (ix_children ix) (ix_words ix).
Definition set_cols (ix : index) v := mkIndex (ix_tags ix) (ix_sets ix) v (ix_items ix) (ix_children ix) (ix_words ix).
Definition set_items (ix : index) v := mkIndex (ix_tags ix) (ix_sets ix) (ix_cols ix) v (ix_children ix) (ix_words ix).
Definition set_children (ix : index) v := mkIndex (ix_tags ix) (ix_sets ix) (ix_cols ix) (ix_items ix) v (ix_words ix).
Definition set_words (ix : index) v := mkIndex (ix_tags ix) (ix_sets ix) (ix_cols ix) (ix_items ix) (ix_children ix) v.

(** ** Nodes and the children map *)

(** internal/index/idx.go:314-321 [GetChildrenIDMap], the write part: an absent inner map is
    created. *)
Definition ensure_map (m : gmap N (gmap Z N)) (id : N) : gmap N (gmap Z N) :=
  match m !! id with Some _ => m | None => <[id := ∅]> m end.
Definition ensure_children (ix : index) (id : N) : index :=
  set_children ix (ensure_map (ix_children ix) id).

(** [index.childrenMap[id][r]]: reading an absent inner map finds nothing. *)
Definition child (m : gmap N (gmap Z N)) (id : N) (r : Z) : option N :=
  match m !! id with Some m' => m' !! r | None => None end.

(** [index.childrenMap[id][r] = c]; the callers have just created the inner map. *)
Definition set_child (m : gmap N (gmap Z N)) (id : N) (r : Z) (c : N) : gmap N (gmap Z N) :=
  <[id := <[r := c]> (default ∅ (m !! id))]> m.

(** internal/index/idx.go:275-277 [getItem]. *)
Definition get_item (ix : index) (id : N) : res (option item) := items_get (ix_items ix) id.

(** internal/index/idx.go:280-286 [Get].  The node is its id (internal/index/node.go:10-13,
    :99-104; Id :15-17). *)
Definition index_get (ix : index) (id : N) : res N :=
  if (its_next (ix_items ix) <=? id) then Err EIndex else Ok id.

(** internal/index/node.go:73-89 [Word].  The recursion goes up the parents; [Panic] also
    stands for unbounded recursion (a fatal stack overflow in Go).  The fuel is one more than
    the number of items: a longer chain of parents has a cycle. *)
Fixpoint word_fuel (fuel : nat) (ix : index) (id : N) : res (list N) :=
  match fuel with
  | O => Panic
  | S fuel' =>
    if (id =? 0) then Ok [] else
    oit ← get_item ix id;
    match oit with
    | None => Ok (bytes_of ("no item: " +:+ pretty id))
    | Some it =>
      if (it_parent it =? 0) then Ok (string_of_rune (it_letter it)) else
      p ← word_fuel fuel' ix (it_parent it);
      Ok (p ++ string_of_rune (it_letter it))
    end
  end.
Definition node_word (ix : index) (id : N) : res (list N) :=
  word_fuel (S (length (its_list (ix_items ix)))) ix id.

(** ** Lookup *)

(** internal/index/idx.go:369-387, the loop of [FetchFromItem].  On a missing child the error
    message calls [Word()] on the parent, which is modelled because it may not terminate. *)
Fixpoint fetch_loop (ix : index) (parent : N) (runes : list Z) : index * res N :=
  match runes with
  | [] => (ix, Panic) (* index out of range; excluded by the check in the caller *)
  | r :: rest =>
    let ix1 := ensure_children ix parent in
    match child (ix_children ix1) parent r with
    | None => (ix1, _ ← node_word ix1 parent; Err EIndex)
    | Some n =>
      match rest with
      | [] => (ix1, index_get ix1 n)
      | _ => fetch_loop ix1 n rest
      end
    end
  end.
(** internal/index/idx.go:357-388 [FetchFromItem]. *)
Definition fetch_from_item (ix : index) (parent : N) (runes : list Z) : index * res N :=
  match runes with [] => (ix, Err EIndex) | _ => fetch_loop ix parent runes end.
(** internal/index/idx.go:323-355 [FetchItemFromParent]: the same loop without the final
    bounds check of [Get]. *)
Fixpoint fetch_item_loop (ix : index) (parent : N) (runes : list Z) : index * res N :=
  match runes with
  | [] => (ix, Panic)
  | r :: rest =>
    let ix1 := ensure_children ix parent in
    match child (ix_children ix1) parent r with
    | None => (ix1, _ ← node_word ix1 parent; Err EIndex)
    | Some n =>
      match rest with
      | [] => (ix1, Ok n)
      | _ => fetch_item_loop ix1 n rest
      end
    end
  end.
Definition fetch_item_from_parent (ix : index) (parent : N) (runes : list Z) : index * res N :=
  match runes with [] => (ix, Err EIndex) | _ => fetch_item_loop ix parent runes end.

(** internal/index/idx.go:259-261, :265-267. *)
Definition fetch_runes (ix : index) (w : list Z) : index * res N := fetch_from_item ix 0 w.
Definition fetch_string (ix : index) (s : list N) : index * res N :=
  fetch_runes ix (runes_of_string s).

(** internal/index/idx.go:442-451 [GetChildrenMap] (as ids), :270-272 [Children],
    :454-462 [getChild] (a missing letter reads as id 0 when there are other children),
    :288-303 [rootNode]. *)
Definition get_children_map (ix : index) (id : N) : gmap Z N :=
  default ∅ (ix_children ix !! id).
Definition children_of_root (ix : index) : gmap Z N := get_children_map ix 0.
Definition get_child (ix : index) (id : N) (r : Z) : option N :=
  let m := get_children_map ix id in
  if bool_decide (m = ∅) then None else Some (default 0 (m !! r)).
Definition root_node (ix : index) (r : Z) : option N := child (ix_children ix) 0 r.

(** ** Adding *)

(** internal/index/idx.go:402-423, the loop of [AddToNode]. *)
Fixpoint add_loop (ix : index) (parent : N) (runes : list Z) : index * res N :=
  match runes with
  | [] => (ix, Panic) (* excluded by the check in the caller *)
  | r :: rest =>
    match (if (parent =? 0) then Ok true
           else oit ← items_get (ix_items ix) parent;
                Ok (match oit with Some _ => true | None => false end)) with
    | Panic => (ix, Panic)
    | Err e => (ix, Err e)
    | Ok false => (ix, Err EIndex)
    | Ok true =>
      let ix1 := ensure_children ix parent in
      match child (ix_children ix1) parent r with
      | Some n =>
        match rest with [] => (ix1, index_get ix1 n) | _ => add_loop ix1 n rest end
      | None =>
        match items_new_child (ix_items ix1) parent r with
        | Ok (its, it) =>
          let ix2 := set_children (set_items ix1 its)
                       (set_child (ix_children ix1) parent r (it_id it)) in
          match rest with
          | [] => (ix2, index_get ix2 (it_id it))
          | _ => add_loop ix2 (it_id it) rest
          end
        | Err e => (ix1, Err e)
        | Panic => (ix1, Panic)
        end
      end
    end
  end.
(** internal/index/idx.go:390-424 [AddToNode]. *)
Definition add_to_node (ix : index) (parent : N) (runes : list Z) : index * res N :=
  match runes with [] => (ix, Err EIndex) | _ => add_loop ix parent runes end.
(** internal/index/idx.go:244-246 [AddRunes]. *)
Definition add_runes (ix : index) (w : list Z) : index * res N := add_to_node ix 0 w.
(** internal/index/idx.go:249-255 [AddString]. *)
Definition add_string (ix : index) (s : list N) : index * res N :=
  if (lenN s =? 0) then (ix, Err EIndex) else add_runes ix (runes_of_string s).

(** internal/index/idx.go:427-429, :432-434 ([uint32] subtraction, then [int]). *)
Definition words_count (ix : index) : N := ix_words ix.
Definition nodes_count (ix : index) : N := wrap32 (its_next (ix_items ix) + 4294967295).

(** ** Tags *)

(** internal/index/idx.go:465-467 [TagID]. *)
Definition index_tag_id (ix : index) (name parent : list N) : index * N :=
  let '(ts, id) := tags_index (ix_tags ix) name parent in (set_tags ix ts, id).

(** internal/index/idx.go:469-480 [TagSet]: on an unknown id the tags resolved so far are
    returned together with the error; the model keeps the error only. *)
Fixpoint index_tag_set (ts : list tag) (ids : list N) : res (list tag) :=
  match ids with
  | [] => Ok []
  | id :: ids' =>
    match tags_get ts id with
    | None => Err EOther
    | Some t => r ← index_tag_set ts ids'; Ok (t :: r)
    end
  end.

(** internal/index/node.go:37-47, the loop of [TagSets].  The result slice is allocated
    beforehand with nil entries: an unresolved tag set ends the loop and leaves the remaining
    entries nil (modelled as []); an unresolved tag leaves the zero tag. *)
Fixpoint resolve_sets (ix : index) (col : list N) : list (list tag) :=
  match col with
  | [] => []
  | id :: col' =>
    match tagset_get (ix_sets ix) id with
    | None => replicate (length col) []
    | Some ids =>
      map (fun t => default zero_tag (tags_get (ix_tags ix) t)) ids :: resolve_sets ix col'
    end
  end.
(** internal/index/node.go:24-50 [TagSets]; a nil item panics at [item.Variants]. *)
Definition node_tag_sets (ix : index) (id : N) : res (list (list tag)) :=
  oit ← get_item ix id;
  match oit with
  | None => Panic
  | Some it => col ← variants_get (ix_cols ix) (it_variants it); Ok (resolve_sets ix col)
  end.

(** internal/index/node.go:54-60: names to ids. *)
Fixpoint names_to_ids (ts : list tag) (names : list (list N)) : res (list N) :=
  match names with
  | [] => Ok []
  | n :: names' =>
    match tags_find ts n with
    | None => Err EIndex
    | Some id => r ← names_to_ids ts names'; Ok (id :: r)
    end
  end.

(** [item.Variants = v] through the pointer into the item storage. *)
Definition set_variants (s : items) (id v : N) : items :=
  mkItems (alter (fun it => mkItem (it_parent it) (it_id it) (it_letter it) v)
                 (N.to_nat id) (its_list s)) (its_next s).

(** internal/index/node.go:52-70 [AddTagSet].  On [Panic] the state is not meaningful. *)
Definition node_add_tag_set (ix : index) (id : N) (names : list (list N)) : index * res unit :=
  match names_to_ids (ix_tags ix) names with
  | Err e => (ix, Err e)
  | Panic => (ix, Panic)
  | Ok ids =>
    match get_item ix id with
    | Ok (Some it) =>
      match (col ← variants_get (ix_cols ix) (it_variants it);
             '(sets, sid) ← tagset_index_index (ix_sets ix) ids;
             '(cols, vid) ← variants_index_index (ix_cols ix) (collection_add col sid);
             Ok (sets, cols, vid)) with
      | Ok (sets, cols, vid) =>
        let words := if (it_variants it =? 0) then ix_words ix + 1 else ix_words ix in
        (mkIndex (ix_tags ix) sets cols (set_variants (ix_items ix) id vid)
                 (ix_children ix) words, Ok tt)
      | Err e => (ix, Err e)
      | Panic => (ix, Panic)
      end
    | _ => (ix, Panic)
    end
  end.

(** internal/index/idx.go:577-579 [Variants]. *)
Definition index_variants (ix : index) (id : N) : res (list N) := variants_get (ix_cols ix) id.

(** internal/index/item_def.go:73-79 [Item.String]. *)
Definition item_string (it : item) : list N :=
  string_of_rune (it_letter it)
  ++ bytes_of (pretty (it_id it) +:+ "_" +:+ pretty (it_parent it)
               +:+ "_" +:+ pretty (it_variants it)).
(** internal/index/node.go:92-97 [Node.String]; [w[:len(w)-1]] and [item.String()[1:]] are
    slices of bytes. *)
Definition node_string (ix : index) (id : N) : res (list N) :=
  oit ← get_item ix id;
  w ← node_word ix id;
  match w, oit with
  | [], _ => Panic
  | _, None => Panic
  | _, Some it =>
    Ok (bytes_of "Node(" ++ take (length w - 1) w ++ bytes_of "["
        ++ string_of_rune (it_letter it) ++ bytes_of "]"
        ++ drop 1 (item_string it) ++ bytes_of ")")
  end.

(** ** Optimize: internal/index/idx.go:488-574 *)

(** :493-501, the map from used collection ids to the ids of the items using them. *)
Definition used_map (l : list item) : gmap N (list N) :=
  fold_left (fun m it =>
    if (it_variants it =? 0) then m
    else <[it_variants it := default [] (m !! it_variants it) ++ [it_id it]]> m) l ∅.

(** :526-544, building the new collection index. *)
Fixpoint opt_build (cols : list (list (list N))) (used : gmap N (list N)) (known : list N)
    (new : list (list (list N))) (repl : list (N * N))
  : res (list (list (list N)) * list (N * N)) :=
  match known with
  | [] => Ok (new, repl)
  | cid :: known' =>
    match used !! cid with
    | None => opt_build cols used known' new repl
    | Some _ =>
      col ← variants_get cols cid;
      '(new1, nid) ← variants_index_index new col;
      ncol ← variants_get new1 nid;
      if equal_to col ncol then opt_build cols used known' new1 (repl ++ [(cid, nid)])
      else Panic
    end
  end.

(** :554-566, rewriting the items that use one collection.  Debug logging is enabled
    (:489 [WithLevel(LevelDebug)]), so its arguments are evaluated. *)
Fixpoint opt_items (cols new : list (list (list N))) (nid : N) (ids : list N) (l : list item)
  : res (list item) :=
  match ids with
  | [] => Ok l
  | id :: ids' =>
    it ← slice_get l id;
    _ ← variants_get cols (it_variants it);
    _ ← variants_get new nid;
    opt_items cols new nid ids'
      (<[N.to_nat id := mkItem (it_parent it) (it_id it) (it_letter it) nid]> l)
  end.
(** :548-567. *)
Fixpoint opt_replace (cols new : list (list (list N))) (used : gmap N (list N))
    (repl : list (N * N)) (l : list item) : res (list item) :=
  match repl with
  | [] => Ok l
  | (old, nid) :: repl' =>
    match used !! old with
    | None => Panic
    | Some ids => l1 ← opt_items cols new nid ids l; opt_replace cols new used repl' l1
    end
  end.

Definition optimize (ix : index) : res index :=
  let used := used_map (its_list (ix_items ix)) in
  let known := known_id (ix_cols ix) in
  let unused := filter (fun id => used !! id = None) known in
  match unused with
  | [] => Ok ix
  | _ =>
    '(new, repl) ← opt_build (ix_cols ix) used known [] [];
    l ← opt_replace (ix_cols ix) new used repl (its_list (ix_items ix));
    Ok (set_cols (set_items ix (mkItems l (its_next (ix_items ix)))) new)
  end.

(** ** Binary form *)

(** internal/index/idx.go:15-17, tagset_index.go:11. *)
Definition sec_tags : list N := bytes_of "TD".
Definition sec_sets : list N := bytes_of "TI".
Definition sec_cols : list N := bytes_of "CD".
Definition sec_items : list N := bytes_of "ID".

(** internal/index/idx.go:49-67 [BinaryWriteTo] with :72-81, :106-115, :140-149, :174-183.
    Errors of the underlying writer are modelled in Loader.v; the only error raised here is a
    tag name of a wrong length. *)
Definition index_write (ix : index) : res wres :=
  its ← items_write (ix_items ix);
  Ok (wthen (wwrap EIndex (wthen (wok (put_stringz sec_tags)) (tags_write (ix_tags ix))))
     (wthen (wok (put_stringz sec_sets ++ tagset_index_write (ix_sets ix)))
     (wthen (wok (put_stringz sec_cols ++ variants_write (ix_cols ix)))
            (wok (put_stringz sec_items ++ its))))).

(** The section headers: :89-94, :123-128, :157-162, :191-196. *)
Definition read_section (sec : list N) : reader unit :=
  s ← rwrap EIndex get_stringz;
  if str_eqb s sec then mret tt else rfail EIndex.

(** internal/index/idx.go:205-216 [rebuildChildrenIndex]; the loop visits all items including
    the placeholder at 0. *)
Fixpoint rebuild_loop (pos : N) (l : list item) (m : gmap N (gmap Z N)) (words : N)
  : gmap N (gmap Z N) * N :=
  match l with
  | [] => (m, words)
  | it :: l' =>
    let node_id := wrap32 pos in
    let m1 := ensure_map (ensure_map m (it_parent it)) node_id in
    let m2 := set_child m1 (it_parent it) (it_letter it) node_id in
    rebuild_loop (pos + 1) l' m2 (if (it_variants it =? 0) then words else words + 1)
  end.
Definition rebuild (its : items) (m : gmap N (gmap Z N)) (words : N) : gmap N (gmap Z N) * N :=
  rebuild_loop 0 (its_list its) (ensure_map m 0) words.

(** internal/index/idx.go:220-240 [BinaryReadFrom] into an existing index value: tags, sets,
    collections and items are replaced, the children map and the word counter are not
    cleared.  The half-overwritten index left behind by a failed read is
    described in Fill.v (the only caller in the repository, LoadIndex, drops it). *)
Definition index_read (ix : index) : reader index :=
  tags ← rwrap EIndex (_ ← read_section sec_tags; rwrap EIndex tags_read);
  sets ← rwrap EIndex (_ ← read_section sec_sets; rwrap EIndex tagset_index_read);
  cols ← rwrap EIndex (_ ← read_section sec_cols; rwrap EIndex variants_read);
  its ← (_ ← read_section sec_items; rwrap EIndex items_read);
  let '(m, words) := rebuild its (ix_children ix) (ix_words ix) in
  mret (mkIndex tags sets cols its m words).
