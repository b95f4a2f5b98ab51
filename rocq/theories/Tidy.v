(** Specification of what Optimize may do to the content of an index file, whatever wrote it.
    Nothing here refers to the model of the code; [content] is that of FileSpec.v. *)
From Verif Require Import Base Foreign FileSpec.
From stdpp Require Import list.
Open Scope N_scope.

(** The collection a number stands for: the upper half is the table, counted from 1, the lower
    half the place in it; numbers below 65536 stand for the empty collection. *)
Definition collection_of (c : content) (v : N) : option (list N) :=
  if v <? 65536 then Some []
  else (c_cols c !! N.to_nat (v / 65536 - 1)) ≫= (fun t => t !! N.to_nat (v mod 65536)).
(** Nodes that refer to a collection carry their own number and refer to one there is. *)
Definition well_numbered (c : content) : Prop :=
  forall i p n l v, c_nodes c !! i = Some (p, n, l, v) -> v <> 0 -> n = N.of_nat i /\ collection_of c v <> None.
(** The tag set a number stands for (the tables of sets are counted from 0), and that every
    collection consists of such numbers. *)
Definition set_of (c : content) (v : N) : option (list N) :=
  (c_sets c !! N.to_nat (v / 65536)) ≫= (fun t => t !! N.to_nat (v mod 65536)).
Definition sets_known (c : content) : Prop := Forall (Forall (Forall (fun v => set_of c v <> None))) (c_cols c).
(** No table has more collections than can be numbered, and neither would a table of all the
    collections of one size. *)
Definition room (c : content) : Prop :=
  Forall (fun t => N.of_nat (length t) <= 65536) (c_cols c) /\
  forall k : nat, N.of_nat (length (filter (fun s => length s = k) (concat (c_cols c)))) <= 65536.
(** The same node, up to the number of its collection: the collection has the same members, and
    is the same if it was in order. *)
Definition same_node (c c' : content) (x x' : N * N * Z * N) : Prop :=
  x'.1 = x.1 /\ exists s s', collection_of c x.2 = Some s /\ collection_of c' x'.2 = Some s' /\ s' ≡ₚ s /\ (Sorted N.le s -> s' = s).
(** The number of the [k]-th collection of the [t]-th table (from 0). *)
Definition number_at (t k : nat) : N := 65536 * N.of_nat (S t) + N.of_nat k.
(** Some collection is referred to by no node. *)
Definition leftover (c : content) : Prop :=
  exists t k s, c_cols c !! t ≫= (.!! k) = Some s /\ forall x, x ∈ c_nodes c -> x.2 <> number_at t k.
(** The tables are as short as can be: by size, each collection in order, once, and referred to. *)
Definition tidy (c : content) : Prop :=
  forall t ss, c_cols c !! t = Some ss ->
    NoDup ss /\ Forall (fun s => Sorted N.le s /\ length s = S t) ss /\
    forall k s, ss !! k = Some s -> exists x, x ∈ c_nodes c /\ x.2 = number_at t k.
