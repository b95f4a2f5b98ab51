(** Model of pkg/storage: identifiers, sets, tables and collections. *)
From Verif Require Import Base.
Open Scope N_scope.

(** ** Identifiers *)

(** pkg/storage/id16.go:12-14 — [ID8(id16value >> 8 & 0x00ff)]. *)
Definition id16_upper (x : N) : N := wrap8 (N.land (N.shiftr x 8) 0xff).
(** pkg/storage/id16.go:17-19. *)
Definition id16_lower (x : N) : N := wrap8 (N.land 0xff x).
(** pkg/storage/id16.go:22-24 — shift and or in [uint16] arithmetic. *)
Definition combine8 (hi lo : N) : N := N.lor (wrap16 (N.shiftl hi 8)) lo.
(** pkg/storage/id32.go:12-14; also TagSetID.TagSetTableNumber (internal/index/tagset_id.go:54-56)
    and VariantID.TableNum (internal/index/variant_id.go:39-41).  The conversions between the id
    types (tagset_id.go:12-19, :31-38, variant_id.go:12-14, :27-29, id8.go:7-9, id32.go:22-24) do
    not change the number. *)
Definition id32_upper (x : N) : N := wrap16 (N.land (N.shiftr x 16) 0xffff).
(** pkg/storage/id32.go:17-19; also TagSetID.TagSetSubID (internal/index/tagset_id.go:49-51) and
    VariantID.CollectionTableID (internal/index/variant_id.go:43-45). *)
Definition id32_lower (x : N) : N := wrap16 (N.land 0xffff x).
(** pkg/storage/id32.go:27-29 — shift and or in [uint32] arithmetic; also
    TagSetTableNumber.TagSetID (internal/index/tagset_id.go:41-43) and
    CollectionTableNumber.VariantID (internal/index/variant_id.go:32-34). *)
Definition combine16 (up lo : N) : N := N.lor (wrap32 (N.shiftl up 16)) lo.

(** ** Tables of equal-sized sets *)

(** The search loop shared by [Table8.Find] (pkg/storage/table8.go:9-17),
    [Table16.Find] (pkg/storage/table16.go:10-18), [TagSetTable.Find]
    (internal/index/tagset_table.go:76-84) and [VariantsTable.Find]
    (internal/index/variant_table.go:52-60): position of the first stored set
    that is [EqualTo] the item, before the conversion to the id type. *)
Fixpoint find_pos (t : list (list N)) (item : list N) (i : nat) : option nat :=
  match t with
  | [] => None
  | x :: t' => if equal_to x item then Some i else find_pos t' item (S i)
  end.

(** [Find] with the conversion of the position to the id type; [None] models the
    pair (0, false). *)
Definition table_find (wrap : N -> N) (t : list (list N)) (item : list N) : option N :=
  match find_pos t item 0 with
  | Some i => Some (wrap (N.of_nat i))
  | None => None
  end.

(** The non-panicking part of [Table8.Index] (pkg/storage/table8.go:29-39),
    [Table16.Index] (pkg/storage/table16.go:30-40), [TagSetTable.Index]
    (internal/index/tagset_table.go:96-106) and [VariantsTable.Index]
    (internal/index/variant_table.go:72-82): sort, find, otherwise append.
    Returns the new table and the id.  Simplification: the sort is done on a copy,
    while Go sorts the caller's slice in place and stores that very slice; the
    aliasing this creates is modelled in Share.v. *)
Definition table_index (wrap : N -> N) (t : list (list N)) (item : list N)
  : list (list N) * N :=
  let item := go_sort item in
  match table_find wrap t item with
  | Some id => (t, id)
  | None => (t ++ [item], wrap (lenN t))
  end.

(** [Get] with bounds check: [Table8.Get] (pkg/storage/table8.go:43-49),
    [Table16.Get] (pkg/storage/table16.go:44-50), [TagSetTable.Get]
    (internal/index/tagset_table.go:110-116).  [None] models (nil, false). *)
Definition table_get (t : list (list N)) (id : N) : option (list N) :=
  if (lenN t <=? id) then None else t !! N.to_nat id.

(** pkg/storage/table8.go:9-17, :22-40, :43-49. *)
Definition table8_find (t : list (list N)) (item : list N) : option N := table_find wrap8 t item.
Definition table8_index (t : list (list N)) (item : list N) : res (list (list N) * N) :=
  if (lenN item =? 0) then Panic else Ok (table_index wrap8 t item).
Definition table8_get := table_get.
(** pkg/storage/table16.go:10-18, :23-41, :44-50. *)
Definition table16_find (t : list (list N)) (item : list N) : option N := table_find wrap16 t item.
Definition table16_index (t : list (list N)) (item : list N) : res (list (list N) * N) :=
  if (lenN item =? 0) then Panic else Ok (table_index wrap16 t item).
Definition table16_get := table_get.

(** The column-extension loop shared by the four [Index] methods of the two-level
    structures (pkg/storage/collection8.go:31-38, pkg/storage/collection16.go:32-39,
    internal/index/tagset_index.go:112-119, internal/index/variant_idx.go:80-87):
    append empty tables until column [col] exists. *)
Definition extend_to {A} (c : list (list A)) (col : N) : list (list A) :=
  if (lenN c <=? col) then c ++ replicate (N.to_nat (col + 1 - lenN c)) [] else c.

(** ** Two-level collections *)

(** pkg/storage/collection8.go:9-23.  [collection8x8[columnIdx]] is not guarded. *)
Definition collection8_find (c : list (list (list N))) (item : list N) : res (option N) :=
  if (lenN item =? 0) then Ok None else
  let col := lenN item - 1 in
  t ← slice_get c col;
  match table8_find t item with
  | None => Ok None
  | Some i => Ok (Some (combine8 (wrap8 col) i))
  end.
(** pkg/storage/collection8.go:26-43. *)
Definition collection8_index (c : list (list (list N))) (item : list N)
  : res (list (list (list N)) * N) :=
  if (lenN item =? 0) then Panic else
  let col := lenN item - 1 in
  let c1 := extend_to c col in
  t ← slice_get c1 col;
  '(t', i) ← table8_index t item;
  Ok (<[N.to_nat col := t']> c1, combine8 (wrap8 col) i).
(** pkg/storage/collection8.go:46-52. *)
Definition collection8_get (c : list (list (list N))) (id : N) : option (list N) :=
  if (lenN c <=? id16_upper id) then None else
  t ← c !! N.to_nat (id16_upper id); table8_get t (id16_lower id).

(** pkg/storage/collection16.go:10-24. *)
Definition collection16_find (c : list (list (list N))) (item : list N) : res (option N) :=
  if (lenN item =? 0) then Ok None else
  let col := lenN item - 1 in
  t ← slice_get c col;
  match table16_find t item with
  | None => Ok None
  | Some i => Ok (Some (combine16 (wrap16 col) i))
  end.
(** pkg/storage/collection16.go:27-44. *)
Definition collection16_index (c : list (list (list N))) (item : list N)
  : res (list (list (list N)) * N) :=
  if (lenN item =? 0) then Panic else
  let col := lenN item - 1 in
  let c1 := extend_to c col in
  t ← slice_get c1 col;
  '(t', i) ← table16_index t item;
  Ok (<[N.to_nat col := t']> c1, combine16 (wrap16 col) i).
(** pkg/storage/collection16.go:47-53. *)
Definition collection16_get (c : list (list (list N))) (id : N) : option (list N) :=
  if (lenN c <=? id32_upper id) then None else
  t ← c !! N.to_nat (id32_upper id); table16_get t (id32_lower id).
