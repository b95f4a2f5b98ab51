(** The parts of the Go standard library the index browser converts its input with:
    [strings.Split] at a space, [strconv.Itoa], [Atoi], [ParseInt] and [ParseUint], written
    after the sources of the packages (Go 1.13 and later, 64-bit [int]).  Every error is
    [None]: the callers (cmd/opencorpora_test/main.go:88, :139, :157, :195, :254) only look at
    whether there is one. *)
From Verif Require Import Base.
From stdpp Require Import list.
Open Scope N_scope.

(** strings.Split(s, " "): the pieces between the spaces; one more than there are spaces. *)
Fixpoint split_space (s : list N) : list (list N) :=
  match s with
  | [] => [[]]
  | c :: s' =>
    if c =? 32 then [] :: split_space s' else
    match split_space s' with
    | [] => [[c]]
    | p :: ps => (c :: p) :: ps
    end
  end.

(** strconv: [lower(c) = c | ('x' - 'X')]. *)
Definition lower (c : N) : N := N.lor c 32.
(** The value of a digit or letter in the loop of [ParseUint]. *)
Definition digit_of (c : N) : option N :=
  if (48 <=? c) && (c <=? 57) then Some (c - 48)
  else if (97 <=? lower c) && (lower c <=? 122) then Some (lower c - 97 + 10)
  else None.
(** The loop of [ParseUint].  The checks for overflow ([n >= cutoff], [n1 < n || n1 > maxVal])
    are one comparison in unbounded numbers; [sep]: underscores are skipped (base 0). *)
Fixpoint digits_loop (sep : bool) (base max n : N) (s : list N) : option N :=
  match s with
  | [] => Some n
  | c :: s' =>
    if sep && (c =? 95) then digits_loop sep base max n s' else
    match digit_of c with
    | None => None
    | Some d =>
      if base <=? d then None
      else if max <? n * base + d then None
      else digits_loop sep base max (n * base + d) s'
    end
  end.
(** strconv [underscoreOK], the last character seen. *)
Inductive saw := SBegin | SDigit | SUnder | SOther.
Fixpoint under_loop (hex : bool) (w : saw) (s : list N) : bool :=
  match s with
  | [] => match w with SUnder => false | _ => true end
  | c :: s' =>
    if ((48 <=? c) && (c <=? 57)) || (hex && (97 <=? lower c) && (lower c <=? 102)) then under_loop hex SDigit s'
    else if c =? 95 then match w with SDigit => under_loop hex SUnder s' | _ => false end
    else match w with SUnder => false | _ => under_loop hex SOther s' end
  end.
Definition under_ok (s : list N) : bool :=
  let s := match s with c :: s' => if (c =? 45) || (c =? 43) then s' else s | [] => s end in
  match s with
  | z :: c :: s' =>
    if (z =? 48) && ((lower c =? 98) || (lower c =? 111) || (lower c =? 120)) then under_loop (lower c =? 120) SDigit s'
    else under_loop false SBegin s
  | _ => under_loop false SBegin s
  end.
(** strconv.ParseUint(s, 10, _) and ParseUint(s, 0, _); [max] is the largest value of the
    size asked for. *)
Definition parse_uint10 (max : N) (s : list N) : option N :=
  match s with [] => None | _ => digits_loop false 10 max 0 s end.
Definition base_of (s : list N) : N * list N :=
  match s with
  | z :: c :: x :: s' =>
    if z =? 48 then
      if lower c =? 98 then (2, x :: s') else if lower c =? 111 then (8, x :: s')
      else if lower c =? 120 then (16, x :: s') else (8, c :: x :: s')
    else (10, s)
  | z :: s' => if z =? 48 then (8, s') else (10, s)
  | [] => (10, s)
  end.
Definition parse_uint0 (max : N) (s : list N) : option N :=
  match s with
  | [] => None
  | _ =>
    let '(base, ds) := base_of s in
    match digits_loop true base max 0 ds with
    | None => None
    | Some n => if bool_decide (95 ∈ ds) && negb (under_ok s) then None else Some n
    end
  end.
(** The sign in [Atoi] and [ParseInt], and the range of [int]. *)
Definition signed (parse : list N -> option N) (s : list N) : option Z :=
  let '(neg, s') :=
    match s with
    | c :: s' => if c =? 45 then (true, s') else if c =? 43 then (false, s') else (false, s)
    | [] => (false, s)
    end in
  match parse s' with
  | None => None
  | Some n =>
    if neg then if n <=? 9223372036854775808 then Some (- Z.of_N n)%Z else None
    else if n <? 9223372036854775808 then Some (Z.of_N n) else None
  end.
Definition max_u64 : N := 18446744073709551615.
(** strconv.Atoi; the fast path for short strings accepts and returns the same. *)
Definition atoi (s : list N) : option Z := signed (parse_uint10 max_u64) s.
(** strconv.ParseInt(s, 0, 0) and strconv.ParseUint(s, 0, 32). *)
Definition parse_int0 (s : list N) : option Z := signed (parse_uint0 max_u64) s.
Definition parse_u32 (s : list N) : option N := parse_uint0 4294967295 s.

(** strconv.Itoa for a non-negative number; the fuel is more than its number of digits. *)
Fixpoint itoa_fuel (fuel : nat) (n : N) : list N :=
  match fuel with
  | O => []
  | S fuel => if n <? 10 then [48 + n] else itoa_fuel fuel (n / 10) ++ [48 + n mod 10]
  end.
Definition itoa (n : N) : list N := itoa_fuel (S (N.size_nat n)) n.
