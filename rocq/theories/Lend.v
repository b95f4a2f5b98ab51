(** The collections of pkg/storage and the slices their callers keep.

    [Collection8x8.Index] and [Collection16.Index] sort the slice they are given and keep that very
    slice; [Get] hands it out.  Storage.v treats sets as values; here a set is the address of an
    array ([deref], [h_alloc], [h_sort], [h_write] of Share.v), and the caller of the package is any
    list of calls, with writes of its own between them. *)
From Verif Require Import Base Storage Share.
Open Scope N_scope.

(** pkg/storage/collection8.go:6 and pkg/storage/collection16.go:7. *)
Inductive width := W8 | W16.
Definition w_wrap (w : width) : N -> N := match w with W8 => wrap8 | W16 => wrap16 end.
Definition w_comb (w : width) : N -> N -> N := match w with W8 => combine8 | W16 => combine16 end.
Definition w_up (w : width) : N -> N := match w with W8 => id16_upper | W16 => id32_upper end.
Definition w_lo (w : width) : N -> N := match w with W8 => id16_lower | W16 => id32_lower end.
Definition w_room (w : width) : N := match w with W8 => 256 | W16 => 65536 end.

(** Arrays, and the addresses the collection keeps, by column. *)
Record lent := mkLent { le_mem : list (list N); le_col : list (list nat) }.
Definition lent_new : lent := mkLent [] [].

(** pkg/storage/table8.go:9-17 and pkg/storage/table16.go:10-18. *)
Definition l_table_find (w : width) (m : list (list N)) (t : list nat) (item : list N) : option N :=
  match find_pos (map (deref m) t) item 0 with Some i => Some (w_wrap w (N.of_nat i)) | None => None end.
(** pkg/storage/table8.go:22-40 and pkg/storage/table16.go:23-41 (item not empty): sort the
    caller's slice, find, otherwise keep the slice. *)
Definition l_table_index (w : width) (m : list (list N)) (t : list nat) (a : nat) : list (list N) * list nat * N :=
  let m1 := h_sort m a in
  match l_table_find w m1 t (deref m1 a) with
  | Some i => (m1, t, i)
  | None => (m1, t ++ [a], w_wrap w (lenN t))
  end.
(** pkg/storage/collection8.go:26-43 and pkg/storage/collection16.go:27-44. *)
Definition l_index (w : width) (s : lent) (a : nat) : res (lent * N) :=
  if (lenN (deref (le_mem s) a) =? 0) then Panic else
  let col := lenN (deref (le_mem s) a) - 1 in
  let c1 := extend_to (le_col s) col in
  t ← slice_get c1 col;
  let '(m1, t', i) := l_table_index w (le_mem s) t a in
  Ok (mkLent m1 (<[N.to_nat col := t']> c1), w_comb w (w_wrap w col) i).
(** pkg/storage/collection8.go:9-23 and pkg/storage/collection16.go:10-24. *)
Definition l_find (w : width) (s : lent) (a : nat) : res (option N) :=
  if (lenN (deref (le_mem s) a) =? 0) then Ok None else
  let col := lenN (deref (le_mem s) a) - 1 in
  t ← slice_get (le_col s) col;
  match l_table_find w (le_mem s) t (deref (le_mem s) a) with
  | None => Ok None
  | Some i => Ok (Some (w_comb w (w_wrap w col) i))
  end.
(** pkg/storage/collection8.go:46-52 and pkg/storage/collection16.go:47-53 with
    pkg/storage/table8.go:43-49 and pkg/storage/table16.go:44-50: the slice that was kept. *)
Definition l_get (w : width) (s : lent) (id : N) : option nat :=
  if (lenN (le_col s) <=? w_up w id) then None else
  t ← le_col s !! N.to_nat (w_up w id);
  if (lenN t <=? w_lo w id) then None else t !! N.to_nat (w_lo w id).

(** What a caller may do: make a slice, write an element of a slice (inside its length; beyond it
    nothing happens here, the program would panic), call the three methods, read a slice.  After a
    panic the caller may recover; the panics here come before any change. *)
Inductive lop := LMake (xs : list N) | LWrite (a i : nat) (v : N) | LIndex (a : nat) | LFind (a : nat) | LGet (id : N) | LRead (a : nat).
Inductive lout := LDone | LId (id : N) | LFound (r : option N) | LSet (r : option (list N)) | LPanic.
Definition l_do (w : width) (s : lent) (o : lop) : lent * lout :=
  match o with
  | LMake xs => (mkLent (h_alloc (le_mem s) xs).1 (le_col s), LDone)
  | LWrite a i v => (mkLent (h_write (le_mem s) a i v) (le_col s), LDone)
  | LIndex a => match l_index w s a with Ok (s', id) => (s', LId id) | _ => (s, LPanic) end
  | LFind a => (s, match l_find w s a with Ok r => LFound r | _ => LPanic end)
  | LGet id => (s, LSet (deref (le_mem s) <$> l_get w s id))
  | LRead a => (s, LSet (Some (deref (le_mem s) a)))
  end.
Fixpoint l_after (w : width) (s : lent) (os : list lop) : lent :=
  match os with [] => s | o :: os' => l_after w (l_do w s o).1 os' end.
Fixpoint l_says (w : width) (s : lent) (os : list lop) : list lout :=
  match os with [] => [] | o :: os' => (l_do w s o).2 :: l_says w (l_do w s o).1 os' end.

(** The same calls when the collection has copies: Storage.v.  Only the sorting of the caller's
    slice remains. *)
Definition c_index (w : width) := match w with W8 => collection8_index | W16 => collection16_index end.
Definition c_find (w : width) := match w with W8 => collection8_find | W16 => collection16_find end.
Definition c_get (w : width) := match w with W8 => collection8_get | W16 => collection16_get end.
Definition v_do (w : width) (s : list (list N) * list (list (list N))) (o : lop) : list (list N) * list (list (list N)) * lout :=
  match o with
  | LMake xs => ((h_alloc s.1 xs).1, s.2, LDone)
  | LWrite a i v => (h_write s.1 a i v, s.2, LDone)
  | LIndex a => match c_index w s.2 (deref s.1 a) with Ok (c, id) => (h_sort s.1 a, c, LId id) | _ => (s, LPanic) end
  | LFind a => (s, match c_find w s.2 (deref s.1 a) with Ok r => LFound r | _ => LPanic end)
  | LGet id => (s, LSet (c_get w s.2 id))
  | LRead a => (s, LSet (Some (deref s.1 a)))
  end.
Fixpoint v_says (w : width) (s : list (list N) * list (list (list N))) (os : list lop) : list lout :=
  match os with [] => [] | o :: os' => (v_do w s o).2 :: v_says w (v_do w s o).1 os' end.

(** A caller that never writes into a slice after the collection has kept it. *)
Fixpoint polite (w : width) (s : lent) (os : list lop) : bool :=
  match os with
  | [] => true
  | o :: os' =>
    match o with LWrite a _ _ => bool_decide (a ∉ concat (le_col s)) | _ => true end && polite w (l_do w s o).1 os'
  end.
(** Nothing wraps around: at most as many columns, and sets in a column, as identifiers. *)
Definition l_room (w : width) (s : lent) : Prop :=
  lenN (le_col s) <= w_room w /\ Forall (fun t => lenN t <= w_room w) (le_col s).
