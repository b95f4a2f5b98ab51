(** What the index browser writes to standard output, cmd/opencorpora_test/main.go, byte by byte.
    The log, where searches, tags, tables, counts and errors are shown, is another stream and is
    not modelled. *)
From Verif Require Import Base Storage Utf8 Tags TagSets Variants Items Index Cli Strconv Session.
From stdpp Require Import list gmap.
Open Scope N_scope.

(** strings.Join. *)
Fixpoint join_with (sep : list N) (l : list (list N)) : list N :=
  match l with
  | [] => []
  | [x] => x
  | x :: l' => x ++ sep ++ join_with sep l'
  end.
(** fmt's [%d], and [%v] of an integer. *)
Definition fmt_d (z : Z) : list N := if (z <? 0)%Z then 45 :: itoa (Z.to_N (- z)) else itoa (Z.to_N z).
(** fmt's [%X]; a flag 0 without a width changes nothing. *)
Definition hex_digit (d : N) : N := if d <? 10 then 48 + d else 55 + d.
Fixpoint hex_fuel (fuel : nat) (n : N) : list N :=
  match fuel with
  | O => []
  | S fuel => if n <? 16 then [hex_digit n] else hex_fuel fuel (n / 16) ++ [hex_digit (n mod 16)]
  end.
Definition hex (n : N) : list N := hex_fuel (S (N.size_nat n)) n.
Definition fmt_X (z : Z) : list N := if (z <? 0)%Z then 45 :: hex (Z.to_N (- z)) else hex (Z.to_N z).
(** fmt's [%02d] and [%03d] of a number that is not negative. *)
Definition fmt_0d (width : nat) (n : N) : list N := replicate (width - length (itoa n)) 48 ++ itoa n.
(** fmt's [%v] of a slice of numbers. *)
Definition fmt_slice (l : list N) : list N := bytes_of "[" ++ join_with (bytes_of " ") (map itoa l) ++ bytes_of "]".

(** Byte-wise comparison of strings, and sort.Strings: any correct algorithm gives the same result
    (ThmScreen.v, [sort_strings_unique]). *)
Fixpoint str_leb (a b : list N) : bool :=
  match a, b with
  | [], _ => true
  | _ :: _, [] => false
  | x :: a', y :: b' => (x <? y) || ((x =? y) && str_leb a' b')
  end.
Definition str_le (a b : list N) : Prop := str_leb a b = true.
Global Instance str_le_dec : RelDecision str_le := fun a b => decide (str_leb a b = true).
Definition sort_strings (l : list (list N)) : list (list N) := merge_sort str_le l.

(** ** [node]: :287-328 *)

(** :291-297. *)
Definition set_entry (i : nat) (names : list (list N)) : list N :=
  bytes_of "
- " ++ fmt_0d 2 (N.of_nat i) ++ bytes_of ": (" ++ join_with (bytes_of ",") names ++ bytes_of ")".
(** :317. *)
Definition child_string (p : Z * N) : list N :=
  string_of_rune p.1 ++ bytes_of "[" ++ fmt_d p.1 ++ bytes_of "]: " ++ itoa p.2.
(** :311-327; [order] is the order in which Go walks the map of children, which it may choose. *)
Definition children_text (order : list (Z * N)) : list N :=
  if bool_decide (order = []) then bytes_of "Children: --------" ++ [10]
  else bytes_of "Children: " ++ itoa (lenN order) ++ bytes_of " items:" ++ [10] ++
       concat (map (fun s => bytes_of "- " ++ s ++ [10]) (sort_strings (map child_string order))).
(** :299-327. *)
Definition node_text (order : list (Z * N)) (i : node_info) : list N :=
  bytes_of "Node:     " ++ itoa (ni_id i) ++ [10] ++
  bytes_of "Prefix:   " ++ ni_word i ++ [10] ++
  bytes_of "Parent:   " ++ itoa (ni_parent i) ++ [10] ++
  (if ni_variants i =? 0 then bytes_of "Variants: --------" ++ [10]
   else bytes_of "Variants: " ++ itoa (ni_variants i) ++ bytes_of "(0x" ++ hex (ni_variants i) ++ bytes_of "), " ++
        itoa (id32_upper (ni_variants i)) ++ bytes_of " item(s): " ++ concat (imap set_entry (ni_sets i)) ++ [10]) ++
  children_text order.

(** ** [set]: :169-178, a set that was found; [ids] are its tags *)
Definition set_text (tags : list tag) (n : Z) (ids : list N) : list N :=
  bytes_of "set." ++ fmt_d n ++ bytes_of "(0x" ++ fmt_X n ++ bytes_of "): " ++
  join_with (bytes_of ", ")
    (map (fun t => match tags_get tags t with
                   | Some x => tag_name x
                   | None => bytes_of "[" ++ itoa t ++ bytes_of "]!!!NOT_FOUND!!!"
                   end) ids).
(** ** [var]: :207-228 *)
Definition var_entry (tags : list tag) (sets : list (list (list N))) (i : nat) (k : N) : list N :=
  bytes_of "
- " ++ fmt_0d 2 (N.of_nat i) ++ bytes_of ": " ++ fmt_0d 3 k ++ bytes_of ": " ++
  match tagset_get sets k with
  | None => bytes_of "!!!NOT FOUND!!!"
  | Some ids =>
    bytes_of "TS" ++ fmt_0d 3 k ++ bytes_of ": " ++
    join_with (bytes_of ",")
      (map (fun t => match tags_get tags t with Some x => tag_name x | None => bytes_of "!!!NOT FOUND!!!" end) ids)
  end.
Definition var_text (tags : list tag) (sets : list (list (list N))) (id : N) (col : list N) : list N :=
  bytes_of "variant: " ++ itoa id ++ bytes_of ": " ++ fmt_slice col ++ concat (imap (var_entry tags sets) col) ++ [10].

(** ** A line: :344-372.  [ix] is the index before the line, [r] the reply to it. *)
Definition line_text (order : list (Z * N)) (ix : index) (r : reply) : list N :=
  match r with
  | RSet n _ => match tagset_get (ix_sets ix) (to_u32 n) with Some ids => set_text (ix_tags ix) n ids | None => [] end
  | RVar id _ => match variants_get (ix_cols ix) id with Ok col => var_text (ix_tags ix) (ix_sets ix) id col | _ => [] end
  | RNode i => node_text order i
  | _ => []
  end ++ [10].
(** The orders Go may choose. *)
Definition walks (order : list (Z * N)) (r : reply) : Prop :=
  match r with RNode i => order ≡ₚ map_to_list (ni_children i) | _ => True end.
