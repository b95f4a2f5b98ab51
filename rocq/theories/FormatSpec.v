(** Specification of printed numbers (C93). *)
From Verif Require Import Base.
From stdpp Require Import list.
Open Scope N_scope.

(** The shortest numeral of a number in a base up to 16: no zero in front, except for zero. *)
Inductive numeral (b : N) : list N -> N -> Prop :=
| num_one d c : d < b -> bytes_of "0123456789ABCDEF" !! N.to_nat d = Some c -> numeral b [c] d
| num_snoc s n d c : numeral b s n -> n <> 0 -> d < b -> bytes_of "0123456789ABCDEF" !! N.to_nat d = Some c -> numeral b (s ++ [c]) (n * b + d).
(** With a minus sign before a number below zero, and no sign otherwise. *)
Inductive signed (b : N) : list N -> Z -> Prop :=
| sgn_none s n : numeral b s n -> signed b s (Z.of_N n)
| sgn_minus s n : numeral b s n -> n <> 0 -> signed b (bytes_of "-" ++ s) (- Z.of_N n).
(** With as many zeros in front as are needed for a width. *)
Inductive padded (b : N) (width : nat) : list N -> N -> Prop :=
| pad_long s n : numeral b s n -> (width <= length s)%nat -> padded b width s n
| pad_short k s n : numeral b s n -> (k + length s)%nat = width -> padded b width (replicate k 48 ++ s) n.
