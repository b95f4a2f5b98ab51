(** Sorting through sort.Interface: C83.  The proofs are in ThmSorting.v. *)
From Verif Require Import Base BaseFacts Corpus Sorting ThmSorting.
From stdpp Require Import list.
Open Scope N_scope.

(** C83.  Less and Swap panic exactly outside of the slice; Less compares the two elements, Swap
    exchanges them and keeps the rest.  A sorting function that only asks Less and calls Swap, in
    whatever order, and ends with no element Less than its predecessor, has turned a slice of
    numbers into the one [go_sort] gives; so the other properties do not depend on the algorithm
    of package sort.  What package sort does with up to 12 elements does end like this.  The
    algorithm cannot see more than the answers: it does the same with any other slice in the same
    order.  A list of children is sorted by parent; the order of children with equal parents does
    depend on the algorithm. *)
Theorem C83_methods : forall (A : Type) (key : A -> N) l i j,
  let inside k := (0 <= k < Z.of_nat (length l))%Z in
  (inside i /\ inside j -> exists x y l', at_int l i = Some x /\ at_int l j = Some y /\
      (m_less key l i j = Ok true <-> key x < key y) /\ (m_less key l i j = Ok false <-> key y <= key x) /\
      m_swap l i j = Ok l' /\ length l' = length l /\ forall k, at_int l' k = at_int l (exchanged i j k)) /\
  (~ (inside i /\ inside j) -> m_less key l i j = Panic /\ m_swap l i j = Panic).
Proof. exact l_C83_methods. Qed.
Print Assumptions C83_methods.
Theorem C83_any_algorithm : forall (c : caller) (l l' : list N),
  drive id c l = Ok l' -> (forall i : nat, (S i < length l')%nat -> m_less id l' (Z.of_nat (S i)) (Z.of_nat i) = Ok false) -> l' = go_sort l.
Proof. exact l_C83_any_algorithm. Qed.
Print Assumptions C83_any_algorithm.
Theorem C83_children : forall (c : caller) (l l' : list child),
  drive ch_parent c l = Ok l' -> (forall i : nat, (S i < length l')%nat -> m_less ch_parent l' (Z.of_nat (S i)) (Z.of_nat i) = Ok false) -> sorts_to l l'.
Proof. exact l_C83_children. Qed.
Print Assumptions C83_children.
Theorem C83_small : forall l : list N, sort_small id l = Ok (go_sort l).
Proof. exact l_C83_small. Qed.
Print Assumptions C83_small.
Theorem C83_small_children : forall l : list child, exists l', sort_small ch_parent l = Ok l' /\ sorts_to l l'.
Proof. exact l_C83_small_children. Qed.
Print Assumptions C83_small_children.
Theorem C83_blind : forall (A B : Type) (key : A -> N) (key' : B -> N) (f : A -> B) (c : caller) (l : list A),
  (forall x y, x ∈ l -> y ∈ l -> key x < key y <-> key' (f x) < key' (f y)) ->
  drive key' c (map f l) = match drive key c l with Ok l' => Ok (map f l') | Err e => Err e | Panic => Panic end.
Proof. exact l_C83_blind. Qed.
Print Assumptions C83_blind.
Theorem C83_has : forall c id, id_list_has c id = true <-> id ∈ c.
Proof. exact l_C83_has. Qed.
Print Assumptions C83_has.
Example C83_case :
  sort_small id [7; 3; 3; 250; 0; 9; 1; 12; 5] = Ok [0; 1; 3; 3; 5; 7; 9; 12; 250] /\
  go_sort [7; 3; 3; 250; 0; 9; 1; 12; 5] = [0; 1; 3; 3; 5; 7; 9; 12; 250] /\
  sort_small id [] = Ok [] /\
  m_swap [1; 2; 3] 0 2 = Ok [3; 2; 1] /\ m_swap [1; 2; 3] 0 3 = Panic /\ m_less id [1; 2; 3] (-1) 0 = Panic /\
  m_less id [1; 2; 3] 1 1 = Ok false /\
  sort_small ch_parent [mkChild 2 0; mkChild 1 1; mkChild 2 2] = Ok [mkChild 1 1; mkChild 2 0; mkChild 2 2] /\
  id_list_has [4; 8] 8 = true /\ id_list_has [4; 8] 5 = false.
Proof. vm_compute. repeat split; reflexivity. Qed.
(** Two functions that both sort and differ on children of one parent: the result of ChildList.Sort
    is not determined by the contract of sort.Sort. *)
Theorem C83_children_order_refuted : exists c1 c2 l l1 l2,
  drive ch_parent c1 l = Ok l1 /\ drive ch_parent c2 l = Ok l2 /\ sorts_to l l1 /\ sorts_to l l2 /\ l1 <> l2.
Proof.
  exists Stop, (DoSwap 0 1 Stop), [mkChild 5 0; mkChild 5 1], [mkChild 5 0; mkChild 5 1], [mkChild 5 1; mkChild 5 0].
  split; [done|]. split; [done|]. split; [|split; [|done]].
  - split; [done|]. cbn. repeat constructor; lia.
  - split; [apply Permutation_swap|]. cbn. repeat constructor; lia.
Qed.
Print Assumptions C83_children_order_refuted.
(** In the gap pass of go 1.18 two children of one parent change places. *)
Example C83_unstable_case :
  sort_small ch_parent [mkChild 2 0; mkChild 1 1; mkChild 1 2; mkChild 2 3; mkChild 2 4; mkChild 2 5; mkChild 1 6] =
  Ok [mkChild 1 6; mkChild 1 1; mkChild 1 2; mkChild 2 3; mkChild 2 4; mkChild 2 5; mkChild 2 0].
Proof. vm_compute. reflexivity. Qed.
