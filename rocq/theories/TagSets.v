(** Model of internal/index/tagset_{def,id,table,index}.go. *)
From Verif Require Import Base Storage Bin.
Open Scope N_scope.

(** A [TagSet] is a list of tag ids, a [TagSetTable] a list of them, a [TagSetIndex] a
    list of tables. *)
Notation tagset_table := (list (list N)) (only parsing).
Notation tagset_index := (list (list (list N))) (only parsing).

(** ** Binary form *)

(** internal/index/tagset_def.go:58-70. *)
Definition tagset_write (ts : list N) : list N :=
  put_u8 (lenN ts) ++ concat (map put_u8 ts).
(** internal/index/tagset_def.go:34-53. *)
Definition tagset_read : reader (list N) :=
  n ← rwrap EIndex get_u8;
  rwrap EIndex (read_many get_u8 n).
(** internal/index/tagset_table.go:56-71. *)
Definition tagset_table_write (t : tagset_table) : list N :=
  put_u16 (lenN t) ++ concat (map tagset_write t).
(** internal/index/tagset_table.go:32-51. *)
Definition tagset_table_read : reader tagset_table :=
  n ← rwrap EIndex get_u16;
  rwrap EIndex (read_many tagset_read n).
(** internal/index/tagset_index.go:42-58. *)
Definition tagset_index_write (x : tagset_index) : list N :=
  put_u32 (lenN x) ++ concat (map tagset_table_write x).
(** internal/index/tagset_index.go:63-82. *)
Definition tagset_index_read : reader tagset_index :=
  n ← rwrap EIndex get_u32;
  rwrap EIndex (read_many tagset_table_read n).

(** ** Table: internal/index/tagset_table.go:76-116 *)
Definition tagset_table_find (t : tagset_table) (item : list N) : option N :=
  table_find wrap16 t item.
Definition tagset_table_index (t : tagset_table) (item : list N) : res (tagset_table * N) :=
  if (lenN item =? 0) then Panic else Ok (table_index wrap16 t item).
Definition tagset_table_get (t : tagset_table) (id : N) : option (list N) := table_get t id.

(** ** Index *)

(** internal/index/tagset_index.go:31-37 [Size]. *)
Definition tagset_index_size (x : tagset_index) : N := foldr (fun t n => lenN t + n) 0 x.

(** internal/index/tagset_index.go:140-146 [getTable]. *)
Definition tagset_get_table (x : tagset_index) (n : N) : option tagset_table :=
  if (lenN x <=? n) then None else x !! N.to_nat n.

(** internal/index/tagset_index.go:86-102 [Find] (the argument is not sorted first). *)
Definition tagset_find (x : tagset_index) (item : list N) : option N :=
  if (lenN item =? 0) then None else
  let tbl := wrap16 (lenN item - 1) in
  match tagset_get_table x tbl with
  | Some t =>
    match tagset_table_find t item with
    | Some lower => Some (combine16 tbl lower)
    | None => None
    end
  | None => None
  end.

(** internal/index/tagset_index.go:107-124 [Index]. *)
Definition tagset_index_index (x : tagset_index) (item : list N) : res (tagset_index * N) :=
  if (lenN item =? 0) then Ok (x, 0) else
  let col := lenN item - 1 in
  let x1 := extend_to x col in
  t ← slice_get x1 col;
  '(t', i) ← tagset_table_index t item;
  Ok (<[N.to_nat col := t']> x1, combine16 (wrap16 col) i).

(** internal/index/tagset_index.go:159-165 [Get] with [getTagSet] (:149-155). *)
Definition tagset_get (x : tagset_index) (id : N) : option (list N) :=
  if (lenN x <=? id32_upper id) then None else
  match tagset_get_table x (id32_upper id) with
  | Some t => tagset_table_get t (id32_lower id)
  | None => None
  end.

(** internal/index/tagset_index.go:127-137 [TableIDs]: note the [Add(1)]. *)
Definition tagset_table_ids (x : tagset_index) : list N :=
  concat (imap (fun ti t =>
    imap (fun i _ => combine16 (wrap16 (wrap16 (N.of_nat ti) + 1)) (wrap16 (N.of_nat i))) t) x).
