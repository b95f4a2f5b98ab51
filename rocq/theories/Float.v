(** Whether strconv.ParseFloat(s, 32) and strconv.Atoi(s) report an error, written after the
    sources of the package (Go 1.13 and later).  They decide which attributes the parser accepts:
    pkg/opencorpora/dictionary.go:34-41 and pkg/opencorpora/xmlutils.go:47-58.  The value itself
    is stored in a field nobody reads.  The conversion is taken to be correctly rounded, as the
    package promises: a number is out of range if it is at least halfway between the largest
    float32 and 2^128. *)
From Verif Require Import Base Strconv DocSpec.
From stdpp Require Import list.
Open Scope N_scope.

(** strconv [commonPrefixLenIgnoreCase]. *)
Definition to_lower (c : N) : N := if (65 <=? c) && (c <=? 90) then c + 32 else c.
Fixpoint common_prefix (s p : list N) : nat :=
  match s, p with
  | c :: s', d :: p' => if to_lower c =? d then S (common_prefix s' p') else O
  | _, _ => O
  end.
Definition w_infinity : list N := bytes_of "infinity".
Definition w_nan : list N := bytes_of "nan".
(** strconv [special]: how many characters are taken. *)
Definition inf_len (s : list N) : option nat :=
  let n := common_prefix s w_infinity in
  let n := if (3 <? n)%nat && (n <? 8)%nat then 3%nat else n in
  if (n =? 3)%nat || (n =? 8)%nat then Some n else None.
Definition special (s : list N) : option nat :=
  match s with
  | [] => None
  | c :: s' =>
    if (c =? 43) || (c =? 45) then S <$> inf_len s'
    else if (c =? 105) || (c =? 73) then inf_len s
    else if (c =? 110) || (c =? 78) then if (common_prefix s w_nan =? 3)%nat then Some 3%nat else None
    else None
  end.

(** The variables of the loop over the digits in strconv [readFloat].  [rf_m] is the number made
    of all digits: the package cuts it after 19 or 16 digits and goes back to the text, or keeps
    one more bit, if that is not enough. *)
Record rf := mkRf { rf_under : bool; rf_dot : bool; rf_digits : bool; rf_nd : Z; rf_dp : Z; rf_m : N }.
Fixpoint mant_loop (hex : bool) (st : rf) (s : list N) : rf * list N :=
  match s with
  | [] => (st, [])
  | c :: s' =>
    if c =? 95 then mant_loop hex (mkRf true (rf_dot st) (rf_digits st) (rf_nd st) (rf_dp st) (rf_m st)) s'
    else if c =? 46 then
      if rf_dot st then (st, s)
      else mant_loop hex (mkRf (rf_under st) true (rf_digits st) (rf_nd st) (rf_nd st) (rf_m st)) s'
    else if (48 <=? c) && (c <=? 57) then
      if (c =? 48) && (rf_nd st =? 0)%Z
      then mant_loop hex (mkRf (rf_under st) (rf_dot st) true (rf_nd st) (rf_dp st - 1) (rf_m st)) s'
      else mant_loop hex (mkRf (rf_under st) (rf_dot st) true (rf_nd st + 1) (rf_dp st)
                            (rf_m st * (if hex then 16 else 10) + (c - 48))) s'
    else if hex && (97 <=? lower c) && (lower c <=? 102)
    then mant_loop hex (mkRf (rf_under st) (rf_dot st) true (rf_nd st + 1) (rf_dp st) (rf_m st * 16 + (lower c - 97 + 10))) s'
    else (st, s)
  end.
(** The loop over the digits of the exponent. *)
Fixpoint exp_loop (under : bool) (e : N) (s : list N) : bool * N * list N :=
  match s with
  | [] => (under, e, [])
  | c :: s' =>
    if c =? 95 then exp_loop true e s'
    else if (48 <=? c) && (c <=? 57) then exp_loop under (if e <? 10000 then e * 10 + (c - 48) else e) s'
    else (under, e, s)
  end.
(** The exponent: whether there was an underscore, its value and what follows; [None] if it is
    malformed. *)
Definition read_exp (hex under : bool) (s : list N) : option (bool * Z * list N) :=
  match s with
  | c :: s' =>
    if lower c =? (if hex then 112 else 101) then
      let '(neg, s2) := match s' with
                        | d :: s2 => if d =? 43 then (false, s2) else if d =? 45 then (true, s2) else (false, s')
                        | [] => (false, s')
                        end in
      match s2 with
      | d :: _ =>
        if (48 <=? d) && (d <=? 57) then
          let '(under, e, rest) := exp_loop under 0 s2 in
          Some (under, if neg : bool then (- Z.of_N e)%Z else Z.of_N e, rest)
        else None
      | [] => None
      end
    else if hex then None else Some (under, 0%Z, s)
  | [] => if hex then None else Some (under, 0%Z, s)
  end.
(** strconv [readFloat]: base 16, the digits, the exponent (of 2 or 10), where the digits begin
    to count, and what was not read. *)
Definition read_float (s : list N) : option (bool * N * Z * list N) :=
  let s1 := match s with c :: s' => if (c =? 43) || (c =? 45) then s' else s | [] => s end in
  let '(hex, s2) := match s1 with
                    | z :: x :: d :: s' => if (z =? 48) && (lower x =? 120) then (true, d :: s') else (false, s1)
                    | _ => (false, s1)
                    end in
  let '(st, s3) := mant_loop hex (mkRf false false false 0 0 0) s2 in
  if rf_digits st then
    let dp := if rf_dot st then rf_dp st else rf_nd st in
    let '(dp, nd) := if hex then (dp * 4, rf_nd st * 4)%Z else (dp, rf_nd st) in
    match read_exp hex (rf_under st) s3 with
    | Some (under, e, rest) =>
      if under && negb (under_ok (take (length s - length rest) s)) then None
      else Some (hex, rf_m st, (dp + e - nd)%Z, rest)
    | None => None
    end
  else None.

(** 2^128 - 2^103. *)
Definition float32_limit : N := 340282356779733661637539395458142568448.
(** [m * base^e] is below the limit.  Very large and very small numbers are told by the number of
    their digits: strconv [floatBits] ([d.dp > 310], [d.dp < -330]) and [atofHex]. *)
Definition below_limit (base m : N) (e : Z) : bool :=
  if (0 <=? e)%Z then m * base ^ Z.to_N e <? float32_limit else m <? float32_limit * base ^ Z.to_N (- e).
Definition in_range (hex : bool) (m : N) (e : Z) : bool :=
  if m =? 0 then true else
  let bits := Z.of_N (N.size m) in
  if hex then
    if (128 <? bits + e)%Z then false else if (bits + e <? 128)%Z then true else below_limit 2 m e
  else
    if (310 <? e + bits / 4)%Z then false else if (e + bits / 3 + 1 <? -330)%Z then true else below_limit 10 m e.

(** strconv.ParseFloat(s, 32) reports no error. *)
Definition parse_float32_ok (s : list N) : bool :=
  match special s with
  | Some n => (n =? length s)%nat
  | None =>
    match read_float s with
    | Some (hex, m, e, []) => in_range hex m e
    | _ => false
    end
  end.
(** The conversions of Go. *)
Definition go_conv : conv :=
  mkConv (fun s => match atoi s with Some _ => true | None => false end) parse_float32_ok.
