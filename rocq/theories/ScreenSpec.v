(** Specification of printed text (C69).  The formats of numbers and letters are those of Screen.v
    and Utf8.v. *)
From Verif Require Import Base Utf8 Strconv Screen.
From stdpp Require Import list.
Open Scope N_scope.

(** A name without commas and line feeds. *)
Definition clear_name (n : list N) : Prop := n <> [] /\ 10 ∉ n /\ 44 ∉ n.
(** The lines of the children: a dash, the letter, its code in decimal and the node. *)
Definition child_lines (L : list (Z * N)) : list N :=
  concat (map (fun p => bytes_of "- " ++ string_of_rune p.1 ++ bytes_of "[" ++ fmt_d p.1 ++ bytes_of "]: " ++ itoa p.2 ++ [10]) L).

(** Hexadecimal numbers: the digits, and numerals without superfluous zeros in front with their value. *)
Definition digit16 (d c : N) : Prop := bytes_of "0123456789ABCDEF" !! N.to_nat d = Some c.
Inductive hexadecimal : list N -> N -> Prop :=
| hex_one d c : digit16 d c -> hexadecimal [c] d
| hex_snoc s n d c : hexadecimal s n -> n <> 0 -> digit16 d c -> hexadecimal (s ++ [c]) (n * 16 + d).
