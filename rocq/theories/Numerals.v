(** Specification: how Go writes integers (The Go Programming Language Specification, Integer
    literals), as character strings.  Nothing here refers to the model of the code. *)
From stdpp Require Import base numbers list.
Open Scope N_scope.

(** [digit b c d]: the character [c] is the digit [d] of base [b]. *)
Inductive digit (b : N) : N -> N -> Prop :=
| digit_dec d : d < 10 -> d < b -> digit b (48 + d) d
| digit_low d : d < 6 -> 10 + d < b -> digit b (97 + d) (10 + d)
| digit_up d : d < 6 -> 10 + d < b -> digit b (65 + d) (10 + d).
(** [digits b n s m]: the digits [s], each possibly after one underscore, appended to a numeral
    of value [n] give one of value [m]. *)
Inductive digits (b : N) : N -> list N -> N -> Prop :=
| digits_nil n : digits b n [] n
| digits_cons n c d s m : digit b c d -> digits b (n * b + d) s m -> digits b n (c :: s) m
| digits_under n c d s m : digit b c d -> digits b (n * b + d) s m -> digits b n (95 :: c :: s) m.
(** Integer literals and their values. *)
Inductive int_lit : list N -> N -> Prop :=
| lit_zero : int_lit [48] 0
| lit_dec c d s m : digit 10 c d -> d <> 0 -> digits 10 d s m -> int_lit (c :: s) m
| lit_bin x s m : x = 98 \/ x = 66 -> s <> [] -> digits 2 0 s m -> int_lit (48 :: x :: s) m
| lit_oct s m : s <> [] -> digits 8 0 s m -> int_lit (48 :: s) m
| lit_octo x s m : x = 111 \/ x = 79 -> s <> [] -> digits 8 0 s m -> int_lit (48 :: x :: s) m
| lit_hex x s m : x = 120 \/ x = 88 -> s <> [] -> digits 16 0 s m -> int_lit (48 :: x :: s) m.

(** A non-empty sequence of decimal digits and its value. *)
Inductive decimal : list N -> N -> Prop :=
| dec_one d : d < 10 -> decimal [48 + d] d
| dec_snoc s n d : decimal s n -> d < 10 -> decimal (s ++ [48 + d]) (n * 10 + d).
(** An optional sign before something unsigned, within the range of a 64-bit integer. *)
Inductive with_sign (U : list N -> N -> Prop) : list N -> Z -> Prop :=
| sign_none s n : U s n -> n < 2 ^ 63 -> with_sign U s (Z.of_N n)
| sign_plus s n : U s n -> n < 2 ^ 63 -> with_sign U (43 :: s) (Z.of_N n)
| sign_minus s n : U s n -> n <= 2 ^ 63 -> with_sign U (45 :: s) (- Z.of_N n).
