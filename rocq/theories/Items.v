(** Model of internal/index/item_def.go and items.go. *)
From Verif Require Import Base Storage Bin.
Open Scope N_scope.

(** internal/index/item_def.go:16-21. *)
Record item := mkItem {
  it_parent : N; it_id : N; it_letter : Z; it_variants : N }.
(** The zero value. *)
Definition zero_item : item := mkItem 0 0 0 0.

(** internal/index/item_def.go:52-70. *)
Definition item_write (i : item) : list N :=
  put_u32 (it_parent i) ++ put_u32 (it_id i) ++ put_rune (it_letter i) ++ put_u32 (it_variants i).
(** internal/index/item_def.go:25-49. *)
Definition item_read : reader item :=
  p ← get_u32; i ← get_u32; l ← get_u32; v ← get_u32;
  mret (mkItem p i (rune_of_u32 l) v).

(** internal/index/items.go:13-17; the mutex only matters for concurrent use (Conc.v). *)
Record items := mkItems { its_list : list item; its_next : N }.

(** internal/index/items.go:19-25. *)
Definition items_new : items := mkItems [zero_item] 1.

(** internal/index/items.go:49-62: writes [nextID] and the items below it; slicing above
    the capacity panics (the model uses the length instead of the capacity). *)
Definition items_write (s : items) : res (list N) :=
  if (lenN (its_list s) <? its_next s) then Panic
  else Ok (put_u32 (its_next s)
           ++ concat (map item_write (take (N.to_nat (its_next s)) (its_list s)))).
(** internal/index/items.go:29-45. *)
Definition items_read : reader items :=
  n ← get_u32;
  l ← read_many item_read n;
  mret (mkItems l n).

(** internal/index/items.go:70-72 [Extend]. *)
Definition items_extend (l : list item) (count : N) : list item :=
  l ++ replicate (N.to_nat count) zero_item.

(** internal/index/items.go:80-94: how many items to add.  [2 ^ i] is exclusive or in Go,
    so the limits tried for i = 13 .. 5 are 15 14 9 8 11 10 5 4 7. *)
Definition extend_count (current_len : N) : N :=
  match find (fun i => N.ltb (N.lxor 2 i) current_len) [13; 12; 11; 10; 9; 8; 7; 6; 5] with
  | Some i => N.lxor 2 i
  | None => N.lxor 2 5
  end.

(** internal/index/items.go:74-105 [NewChild], sequential use. *)
Definition items_new_child (s : items) (parent : N) (letter : Z) : res (items * item) :=
  let next := its_next s in
  let l1 := if (lenN (its_list s) <=? next)
            then items_extend (its_list s) (extend_count (lenN (its_list s)))
            else its_list s in
  if (next <? lenN l1) then
    let it := mkItem parent next letter 0 in
    Ok (mkItems (<[N.to_nat next := it]> l1) (wrap32 (next + 1)), it)
  else Panic.

(** internal/index/items.go:108-119 [Get]; [Ok None] is a nil pointer. *)
Definition items_get (s : items) (id : N) : res (option item) :=
  if (id =? 0) then Ok None else
  if (its_next s <=? id) then Ok None else
  it ← slice_get (its_list s) id; Ok (Some it).

(** internal/index/items.go:121-132 [filter] (not called anywhere in the repository):
    keeps the order but not the positions, and sets [nextID] one past the length. *)
Definition items_filter (f : item -> bool) (s : items) : items :=
  let l := zero_item :: List.filter (fun it => f it && negb (it_id it =? 0)) (its_list s) in
  mkItems l (wrap32 (lenN l + 1)).
