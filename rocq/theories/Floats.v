(** Specification: how numbers may be written in the attributes of a dictionary.  Nothing here
    refers to the model of the code; digits with underscores are those of Numerals.v. *)
From Verif Require Import Base Numerals.
From stdpp Require Import list.
Open Scope N_scope.

(** Digits of which the first has no underscore before it. *)
Definition some_digits (b n : N) (s : list N) (m : N) : Prop :=
  exists c d s', s = c :: s' /\ digit b c d /\ digits b (n * b + d) s' m.
(** How many digits there are. *)
Definition places (s : list N) : N := N.of_nat (length (filter (fun c => c <> 95) s)).
(** [mantissa b P s m k]: [s] is written with digits of base [b] and at most one point, its
    digits give [m] and [k] of them are after the point; [P] says how its whole part is
    written. *)
Inductive mantissa (b : N) (P : list N -> N -> Prop) : list N -> N -> N -> Prop :=
| man_whole s m : P s m -> mantissa b P s m 0
| man_point s m : P s m -> mantissa b P (s ++ [46]) m 0
| man_both s m t k : P s m -> some_digits b m t k -> mantissa b P (s ++ 46 :: t) k (places t)
| man_part t k : some_digits b 0 t k -> mantissa b P (46 :: t) k (places t).
(** What follows the letter of the exponent. *)
Inductive exponent : list N -> Z -> Prop :=
| exp_bare s e : some_digits 10 0 s e -> exponent s (Z.of_N e)
| exp_plus s e : some_digits 10 0 s e -> exponent (43 :: s) (Z.of_N e)
| exp_minus s e : some_digits 10 0 s e -> exponent (45 :: s) (- Z.of_N e).
(** [numeral s b m e]: [s] stands for [m * b^e]. *)
Inductive numeral : list N -> N -> N -> Z -> Prop :=
| num_plain s m k : mantissa 10 (some_digits 10 0) s m k -> numeral s 10 m (- Z.of_N k)
| num_exp s m k x t e : mantissa 10 (some_digits 10 0) s m k -> x = 101 \/ x = 69 -> exponent t e ->
    numeral (s ++ x :: t) 10 m (e - Z.of_N k)
| num_hex h s m k x t e : h = 120 \/ h = 88 -> mantissa 16 (fun s m => s <> [] /\ digits 16 0 s m) s m k ->
    x = 112 \/ x = 80 -> exponent t e -> numeral (48 :: h :: s ++ x :: t) 2 m (e - 4 * Z.of_N k).
(** [m * b^e < t]. *)
Definition value_below (b m : N) (e : Z) (t : N) : Prop :=
  if decide (0 <= e)%Z then m * b ^ Z.to_N e < t else m < t * b ^ Z.to_N (- e).
(** The same word, large or small letters. *)
Definition same_letter (c d : N) : Prop := c = d \/ (97 <= d <= 122 /\ c = d - 32).
Definition spelled (s : list N) (w : string) : Prop := Forall2 same_letter s (bytes_of w).
Inductive signs : list N -> list N -> Prop :=
| signs_none s : signs s s
| signs_plus s : signs (43 :: s) s
| signs_minus s : signs (45 :: s) s.
(** What can be read as a 32-bit floating point number: numbers that do not round to more than
    the largest one, infinity with or without a sign, and "nan". *)
Definition float_text (s : list N) : Prop :=
  spelled s "nan" \/
  exists t, signs s t /\ (spelled t "inf" \/ spelled t "infinity" \/
                          exists b m e, numeral t b m e /\ value_below b m e (2 ^ 128 - 2 ^ 103)).
(** What can be read as a 64-bit integer. *)
Definition int_text (s : list N) : Prop := exists z, with_sign decimal s z.
