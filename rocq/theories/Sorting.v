(** Sorting through [sort.Interface]: the methods Len, Less and Swap of the slices of this
    repository, and what a sorting function can do with them. *)
From Verif Require Import Base Corpus.
From stdpp Require Import list.
Open Scope N_scope.

Section slices.
  Context {A : Type} (key : A -> N).

  (** [s[i]] for an [int] index. *)
  Definition at_int (l : list A) (i : Z) : option A := if (i <? 0)%Z then None else l !! Z.to_nat i.
  (** The method Less of
      pkg/storage/set8.go:25-27, pkg/storage/set16.go:25-27, internal/index/tagset_def.go:79-81,
      internal/index/variant_def.go:73-75, internal/index/variant_idx.go:140-142 ([key] is the
      identity) and internal/index/relation.go:24-26 ([key] is the field Parent). *)
  Definition m_less (l : list A) (i j : Z) : res bool :=
    match at_int l i, at_int l j with Some x, Some y => Ok (key x <? key y) | _, _ => Panic end.
  (** The method Swap of pkg/storage/set8.go:31-33, pkg/storage/set16.go:31-33,
      internal/index/tagset_def.go:85-87, internal/index/variant_def.go:78-80,
      internal/index/variant_idx.go:144-146 and internal/index/relation.go:29-31: both elements
      are read, then the left one is written, then the right one. *)
  Definition m_swap (l : list A) (i j : Z) : res (list A) :=
    match at_int l i, at_int l j with
    | Some x, Some y => Ok (<[Z.to_nat j := x]> (<[Z.to_nat i := y]> l))
    | _, _ => Panic
    end.

  (** A function with a [sort.Interface] and the result of Len in its hands: it asks Less and,
      depending on the answers, calls Swap; it does not see anything else. *)
  Inductive caller :=
  | Stop
  | AskLess (i j : Z) (k : bool -> caller)
  | DoSwap (i j : Z) (k : caller).
  Fixpoint drive (c : caller) (l : list A) : res (list A) :=
    match c with
    | Stop => Ok l
    | AskLess i j k => match m_less l i j with Ok b => drive (k b) l | Err e => Err e | Panic => Panic end
    | DoSwap i j k => match m_swap l i j with Ok l' => drive k l' | Err e => Err e | Panic => Panic end
    end.
End slices.
(** Len: pkg/storage/set8.go:19-21, pkg/storage/set16.go:19-21, internal/index/tagset_def.go:73-75,
    internal/index/variant_def.go:68-70, internal/index/variant_idx.go:136-138,
    internal/index/relation.go:19-21. *)
Definition m_len {A} (l : list A) : nat := length l.

(** [insertionSort] of package sort (go 1.18): the inner loop for one [i], then the rest. *)
Fixpoint insert_at (i : nat) (k : caller) : caller :=
  match i with
  | O => k
  | S i' => AskLess (Z.of_nat i) (Z.of_nat i') (fun b => if b then DoSwap (Z.of_nat i) (Z.of_nat i') (insert_at i' k) else k)
  end.
Fixpoint insert_all (is : list nat) : caller :=
  match is with [] => Stop | i :: is' => insert_at i (insert_all is') end.
(** [quickSort] of package sort (go 1.18) on at most 12 elements: one pass with gap 6, then
    [insertionSort].  Later versions of Go leave the pass out. *)
Fixpoint gap_pass (is : list nat) (k : caller) : caller :=
  match is with
  | [] => k
  | i :: is' => AskLess (Z.of_nat i) (Z.of_nat i - 6) (fun b => if b then DoSwap (Z.of_nat i) (Z.of_nat i - 6) (gap_pass is' k) else gap_pass is' k)
  end.
Definition small_sort (n : nat) : caller := gap_pass (seq 6 (n - 6)) (insert_all (seq 1 (n - 1))).
(** sort.Sort as called by Set8.Sort (pkg/storage/set8.go:36), Set16.Sort (pkg/storage/set16.go:36),
    TagSet.Sort (internal/index/tagset_def.go:90) and directly at internal/index/idx.go:517,
    variant_idx.go:78, relation.go:39, variant_def.go:122, variant_table.go:72, on a slice of up to
    12 elements.  For longer ones only the contract is known: the result of some caller in which
    no element is Less than the one before it. *)
Definition sort_small {A} (key : A -> N) (l : list A) : res (list A) := drive key (small_sort (m_len l)) l.

(** internal/index/variant_idx.go:148-156 [CollectionIDList.Has]. *)
Fixpoint id_list_has (c : list N) (id : N) : bool :=
  match c with [] => false | x :: c' => if id =? x then true else id_list_has c' id end.
