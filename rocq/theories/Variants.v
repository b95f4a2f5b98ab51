(** Model of internal/index/variant_{def,id,table,idx}.go. *)
From Verif Require Import Base Storage Bin.
Open Scope N_scope.

(** A [TagSetIDCollection] is a list of tag set ids, a [VariantsTable] a list of them, a
    [VariantsIndex] a list of tables. *)
Notation variants_table := (list (list N)) (only parsing).
Notation variants_index := (list (list (list N))) (only parsing).

(** ** Binary form *)

(** internal/index/variant_def.go:29-41. *)
Definition collection_write (c : list N) : list N :=
  put_u8 (lenN c) ++ concat (map put_u32 c).
(** internal/index/variant_def.go:46-65. *)
Definition collection_read : reader (list N) :=
  n ← rwrap EIndex get_u8;
  rwrap EIndex (read_many get_u32 n).
(** internal/index/variant_table.go:16-28. [writer.WriteObject] calls [BinaryWriteTo]. *)
Definition variants_table_write (t : variants_table) : list N :=
  put_u32 (lenN t) ++ concat (map collection_write t).
(** internal/index/variant_table.go:33-48. *)
Definition variants_table_read : reader variants_table :=
  n ← rwrap EIndex get_u32;
  rwrap EIndex (read_many collection_read n).
(** internal/index/variant_idx.go:16-28. *)
Definition variants_write (x : variants_index) : list N :=
  put_u8 (lenN x) ++ concat (map variants_table_write x).
(** internal/index/variant_idx.go:33-48. *)
Definition variants_read : reader variants_index :=
  n ← rwrap EIndex get_u8;
  rwrap EIndex (read_many variants_table_read n).

(** ** Collections *)

(** internal/index/variant_def.go:100-108 [Has]. *)
Definition collection_has (c : list N) (id : N) : bool := existsb (N.eqb id) c.
(** internal/index/variant_def.go:114-125 [Add]. *)
Definition collection_add (c : list N) (id : N) : list N :=
  if collection_has c id then c else go_sort (c ++ [id]).

(** ** Table *)

(** internal/index/variant_table.go:52-60. *)
Definition variants_table_find (t : variants_table) (item : list N) : option N :=
  table_find wrap16 t item.
(** internal/index/variant_table.go:65-83: the empty collection is not stored. *)
Definition variants_table_index (t : variants_table) (item : list N) : variants_table * N :=
  if (lenN item =? 0) then (t, 0) else table_index wrap16 t item.
(** internal/index/variant_table.go:86-88: no bounds check. *)
Definition variants_table_get (t : variants_table) (id : N) : res (list N) := slice_get t id.
(** internal/index/variant_table.go:91-98 [Following]. *)
Definition variants_table_following (t : variants_table) (id : N) : list N :=
  map (fun i => wrap16 (id + 1 + N.of_nat i)) (seq 0 (N.to_nat (lenN t - (id + 1)))).

(** ** Index *)

(** internal/index/variant_idx.go:52-70 [Find]. *)
Definition variants_find (x : variants_index) (item : list N) : res (option N) :=
  if (lenN item =? 0) then Ok (Some 0) else
  let tbl := wrap16 (lenN item - 1) in
  if (lenN x <? lenN item) then Ok None else
  t ← slice_get x tbl;
  match variants_table_find t item with
  | None => Ok None
  | Some i => Ok (Some (combine16 (wrap16 (tbl + 1)) i))
  end.

(** internal/index/variant_idx.go:73-92 [Index]; CollectionTableNumber.Add
    (internal/index/variant_id.go:23-25, like tagset_id.go:26-28 and variant_id.go:16-18) wraps. *)
Definition variants_index_index (x : variants_index) (item : list N)
  : res (variants_index * N) :=
  if (lenN item =? 0) then Ok (x, 0) else
  let item := go_sort item in
  let tbl := wrap16 (lenN item - 1) in
  let x1 := extend_to x tbl in
  t ← slice_get x1 tbl;
  let '(t', i) := variants_table_index t item in
  Ok (<[N.to_nat tbl := t']> x1, combine16 (wrap16 (tbl + 1)) i).

(** internal/index/variant_idx.go:95-106 [Get]. *)
Definition variants_get (x : variants_index) (id : N) : res (list N) :=
  if (id =? 0) then Ok [] else
  if (id32_upper id <? 1) then Ok [] else
  t ← slice_get x (id32_upper id - 1);
  variants_table_get t (id32_lower id).

(** internal/index/variant_idx.go:109-111 [Table]: [tableID.Add(-1)] wraps at 0. *)
Definition variants_get_table (x : variants_index) (n : N) : res variants_table :=
  slice_get x (wrap16 (n + 65535)).

(** internal/index/variant_idx.go:113-127 [KnownID]. *)
Definition known_id (x : variants_index) : list N :=
  filter (fun id => id <> 0)
    (concat (imap (fun ti t =>
      imap (fun i _ => combine16 (wrap16 (wrap16 (N.of_nat ti) + 1)) (wrap16 (N.of_nat i))) t) x)).
