(** Model of pkg/dag: tag names, tags and the tag index. *)
From Verif Require Import Base Storage Bin.
Open Scope N_scope.

(** pkg/dag/name.go:14. *)
Definition empty_tag_name : list N := bytes_of "----".
(** pkg/dag/name.go:16. *)
Definition tag_name_len : N := 4.
(** pkg/dag/name.go:23 and the literal at :69. *)
Definition four_spaces : list N := [0x20; 0x20; 0x20; 0x20].

(** Equality of Go strings. *)
Definition str_eqb (a b : list N) : bool := bool_decide (a = b).

(** pkg/dag/name.go:67-79 [TagName.MarshalBinary]. *)
Definition name_marshal (g : list N) : res (list N) :=
  if (lenN g =? 0) || str_eqb g empty_tag_name then Ok four_spaces
  else if negb (lenN g =? tag_name_len) then Err EGrammar
  else Ok g.

(** pkg/dag/name.go:86-92: the byte-by-byte comparison with [emptyTagNameBytes]. *)
Fixpoint is_empty_loop (bs pat : list N) (acc : bool) : bool :=
  match pat, bs with
  | p :: pat', b :: bs' => if (b =? p) then is_empty_loop bs' pat' true else false
  | _, _ => acc
  end.

(** pkg/dag/name.go:81-101 [TagName.UnmarshalBinary]. *)
Definition name_unmarshal (bs : list N) : res (list N) :=
  if negb (lenN bs =? tag_name_len) then Err EGrammar
  else if is_empty_loop bs four_spaces false || str_eqb bs four_spaces
  then Ok empty_tag_name
  else Ok bs.

(** pkg/dag/name.go:46-58 [TagName.BinaryWriteTo]. *)
Definition name_write (g : list N) : wres :=
  match name_marshal g with
  | Ok bs => wok bs
  | Err e => ([], Some e)
  | Panic => ([], Some EOther) (* never: [name_marshal] does not panic *)
  end.

(** pkg/dag/name.go:30-41 [TagName.BinaryReadFrom]. *)
Definition name_read : reader (list N) :=
  bs ← rwrap EGrammar get_bytes4;
  rlift (name_unmarshal bs).

(** pkg/dag/tag.go:13-16. *)
Record tag := mkTag { tag_parent : list N; tag_name : list N }.
(** The zero value of [Tag]. *)
Definition zero_tag : tag := mkTag [] [].

(** pkg/dag/tag.go:49-58 [NewTag]. *)
Definition new_tag (parent name : list N) : tag :=
  mkTag (if str_eqb parent [] then empty_tag_name else parent) name.

(** pkg/dag/tag.go:21-31 [Tag.BinaryWriteTo]: parent first, then name. *)
Definition tag_write (t : tag) : wres :=
  wthen (wwrap EGrammar (name_write (tag_parent t)))
        (wwrap EGrammar (name_write (tag_name t))).

(** pkg/dag/tag.go:36-46 [Tag.BinaryReadFrom]. *)
Definition tag_read : reader tag :=
  p ← rwrap EGrammar name_read;
  n ← rwrap EGrammar name_read;
  mret (mkTag p n).

(** pkg/dag/idx.go:29-41 [NewIndex]. *)
Definition tags_new (known : list tag) : list tag :=
  map (fun t => mkTag (if str_eqb (tag_parent t) [] then empty_tag_name else tag_parent t)
                      (tag_name t)) known.

(** pkg/dag/idx.go:88-96 [Idx.Find]: position of the first tag with that name. *)
Fixpoint tag_pos (ts : list tag) (name : list N) (i : nat) : option nat :=
  match ts with
  | [] => None
  | t :: ts' => if str_eqb (tag_name t) name then Some i else tag_pos ts' name (S i)
  end.
Definition tags_find (ts : list tag) (name : list N) : option N :=
  match tag_pos ts name 0 with
  | Some i => Some (wrap8 (N.of_nat i))
  | None => None
  end.

(** pkg/dag/idx.go:100-115 [Idx.Index]. *)
Definition tags_index (ts : list tag) (name parent : list N) : list tag * N :=
  let parent := if str_eqb parent [] then empty_tag_name else parent in
  match tags_find ts name with
  | Some id => (ts, id)
  | None => (ts ++ [new_tag parent name], wrap8 (lenN ts))
  end.

(** pkg/dag/idx.go:119-125 [Idx.Get]. *)
Definition tags_get (ts : list tag) (id : N) : option tag :=
  if (lenN ts <=? id) then None else ts !! N.to_nat id.

(** pkg/dag/idx.go:67-79 [Idx.BinaryWriteTo]: the length as a single byte. *)
Definition tags_write (ts : list tag) : wres :=
  wthen (wok (put_u8 (lenN ts))) (wwrap EMarshal (wall tag_write ts)).

(** pkg/dag/idx.go:46-62 [Idx.BinaryReadFrom]. *)
Definition tags_read : reader (list tag) :=
  n ← rwrap EUnmarshal get_u8;
  rwrap EUnmarshal (read_many tag_read n).
