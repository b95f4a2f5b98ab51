(** Small functions no other file models: the errors of package grammemes, and accessors that
    return a field or a length. *)
From Verif Require Import Base Tags TagSets Variants Items Index.
From stdpp Require Import list.
Open Scope N_scope.

(** ** Errors of package grammemes *)

(** An error value as an interface: nil; a nil pointer to a grammemes.Error; a pointer to a
    grammemes.Error at an address (internal/grammemes/errors.go:13-16: the formatted text and the
    wrapped error); an error of another package with its identity, its text and what its method
    Unwrap returns ([ENil] without such a method).  The formatting of fmt.Sprintf is not modelled,
    the text is given. *)
Inductive gerror :=
| ENil
| ENilPointer
| EPointer (address : N) (text : list N) (wrapped : gerror)
| EForeign (identity : N) (text : list N) (inner : gerror).

(** internal/grammemes/errors.go:19-25.  The method has a value receiver, so a nil pointer
    panics; so does a method of a nil interface. *)
Fixpoint gerror_text (e : gerror) : res (list N) :=
  match e with
  | ENil | ENilPointer => Panic
  | EPointer _ t ENil => Ok t
  | EPointer _ t w => x ← gerror_text w; Ok (t ++ bytes_of ": " ++ x)
  | EForeign _ t _ => Ok t
  end.
(** internal/grammemes/errors.go:28-30. *)
Definition gerror_go_string (e : gerror) : res (list N) :=
  x ← gerror_text e; Ok (bytes_of "grammemes.Error:" ++ x).
(** internal/grammemes/errors.go:34-36 and :40-42.  The state is the next free address. *)
Definition new_errorf (next : N) (text : list N) : N * gerror := (next + 1, EPointer next text ENil).
Definition wrap_errorf (next : N) (wrap : gerror) (text : list N) : N * gerror := (next + 1, EPointer next text wrap).

(** Comparison of two interface values: pointers by address, foreign errors by identity. *)
Definition same_gerror (a b : gerror) : bool :=
  match a, b with
  | ENil, ENil => true
  | ENilPointer, ENilPointer => true
  | EPointer x _ _, EPointer y _ _ => x =? y
  | EForeign x _ _, EForeign y _ _ => x =? y
  | _, _ => false
  end.
(** errors.Is: nil is found only in nil; otherwise compare, unwrap and try again.
    grammemes.Error has no method Unwrap. *)
Fixpoint is_gerror (e target : gerror) : bool :=
  same_gerror e target ||
  match e with
  | EForeign _ _ inner => match inner, target with ENil, _ | _, ENil => false | _, _ => is_gerror inner target end
  | _ => false
  end.

(** ** Accessors *)

(** internal/index/items.go:65-67. *)
Definition items_next_id (s : items) : N := its_next s.
(** internal/index/node.go:19-21: the item is read from the slice without the checks of Get. *)
Definition node_item (ix : index) (id : N) : res item := slice_get (its_list (ix_items ix)) id.
(** internal/index/tagset_table.go:119-121, pkg/dag/idx.go:82-84. *)
Definition tagset_table_len (t : tagset_table) : N := lenN t.
Definition tags_len (ts : list tag) : N := lenN ts.
(** internal/index/variant_idx.go:130-132.  In the same way [TagSetIndex], internal/index/idx.go:483-485,
    returns the field [ix_sets], about which C15 and C86 speak. *)
Definition variants_tables (x : variants_index) : list variants_table := x.
(** internal/index/idx.go:437-439: a node is its identifier, without any check. *)
Definition index_get_item (ix : index) (id : N) : N := id.
(** pkg/dag/tag.go:61-63 and name.go:61-63. *)
Definition tag_string (t : tag) : list N := tag_name t.
(** pkg/dag/map.go:14-17. *)
Definition node_map_write (m : list (Z * N)) : res (list N) := Panic.
