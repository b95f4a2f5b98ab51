(** Model of the index browser, cmd/opencorpora_test/main.go.  Arguments are taken after the
    conversion by strconv (an [int] in [Z]); logging, printing and the comparison of tag names
    up to case (:91-96) are not modelled: a command gives what it prints. *)
From Verif Require Import Base Storage Utf8 Tags TagSets Variants Items Index.
From stdpp Require Import list gmap.
Open Scope N_scope.

(** The conversion of an [int] to [uint32]. *)
Definition to_u32 (n : Z) : N := Z.to_N (n mod 4294967296)%Z.

(** Indexing a slice with an [int]. *)
Definition slice_at {A} (l : list A) (n : Z) : res A :=
  if (n <? 0)%Z then Panic else slice_get l (Z.to_N n).

(** :44-65 [processSearch]. *)
Definition cmd_search (ix : index) (line : list N) : index * res (list (list tag)) :=
  let '(ix1, r) := fetch_string ix line in
  (ix1, id ← r; node_tag_sets ix1 id).

(** :67-107 [processTag] with a number. *)
Definition cmd_tag (ix : index) (n : Z) : res tag :=
  if (Z.of_N (lenN (ix_tags ix)) <=? n)%Z then Err EOther else slice_at (ix_tags ix) n.

(** :135-153 [processSet], a table. *)
Definition cmd_table (ix : index) (n : Z) : res (list (list N)) :=
  if (Z.of_N (lenN (ix_sets ix)) <=? n)%Z then Err EOther else slice_at (ix_sets ix) n.

(** :155-185 [processSet], a set; [None]: the tag is not found. *)
Definition cmd_set (ix : index) (n : Z) : res (list (option (list N))) :=
  match tagset_get (ix_sets ix) (to_u32 n) with
  | None => Err EOther
  | Some ids => Ok (map (fun t => option_map tag_name (tags_get (ix_tags ix) t)) ids)
  end.

(** :189-236 [processVar]; the argument is in the range of [uint32].  [None]: the set is not
    found. *)
Definition cmd_var (ix : index) (id : N) : res (list (option (list (option (list N))))) :=
  col ← variants_get (ix_cols ix) id;
  Ok (map (fun k => option_map (map (fun t => option_map tag_name (tags_get (ix_tags ix) t)))
                      (tagset_get (ix_sets ix) k)) col).

(** What [processNode] prints. *)
Record node_info := mkInfo {
  ni_id : N; ni_word : list N; ni_parent : N;
  ni_variants : N; ni_sets : list (list (list N)); ni_children : gmap Z N }.
(** :279-326, for a node obtained one way or the other; [GetChildrenIDMap] (:309) creates the
    inner map. *)
Definition show_node (ix : index) (id : N) : index * res node_info :=
  let ix1 := ensure_children ix id in
  let r :=
    word ← node_word ix id;
    ts ← node_tag_sets ix id;
    it ← slice_get (its_list (ix_items ix)) id;
    Ok (mkInfo id word (it_parent it) (it_variants it) (map (map tag_name) ts) (get_children_map ix1 id)) in
  (match r with Ok _ => ix1 | _ => ix end, r).
(** :268-277: a number. *)
Definition cmd_node (ix : index) (n : Z) : index * res node_info :=
  if (Z.of_N (nodes_count ix) <=? n)%Z then (ix, Err EOther) else
  match index_get ix (to_u32 n) with
  | Ok id => show_node ix id
  | _ => (ix, Err EOther)
  end.
(** :255-267: a word. *)
Definition cmd_node_word (ix : index) (w : list Z) : index * res node_info :=
  match fetch_item_from_parent ix 0 w with
  | (ix1, Ok id) =>
    match index_get ix1 id with
    | Ok id => show_node ix1 id
    | _ => (ix1, Err EOther)
    end
  | (ix1, Err _) => (ix1, Err EOther)
  | (ix1, Panic) => (ix1, Panic)
  end.
