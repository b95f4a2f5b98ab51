(** Model of [time.Parse(time.RFC1123, s)] (package time of Go 1.18 and later, format.go and
    time.go; not in the repository), used at pkg/opencorpora/loader.go:147 for the
    Last-Modified header, and of :144-157 with it.  Time is counted in nanoseconds since 1970.
    The data base of time zones is an arbitrary function [zone] from an abbreviation and a
    local time to an offset in seconds (0 for an abbreviation that is not known). *)
From Verif Require Import Base Loader.
From stdpp Require Import list.
Open Scope N_scope.

Definition is_digit (c : N) : bool := (48 <=? c) && (c <=? 57).
(** [cutspace]. *)
Fixpoint cutspace (s : list N) : list N :=
  match s with c :: s' => if c =? 32 then cutspace s' else s | [] => [] end.
(** [skip]: the text between two fields of the layout, here a space, a colon, or a comma and a
    space. *)
Definition skip_space (s : list N) : option (list N) :=
  match s with c :: _ => if c =? 32 then Some (cutspace s) else None | [] => Some [] end.
Definition skip_byte (b : N) (s : list N) : option (list N) :=
  match s with c :: s' => if c =? b then Some s' else None | [] => None end.
(** [match]: letters compared without regard to case. *)
Fixpoint match_fold (a b : list N) : bool :=
  match a, b with
  | x :: a', y :: b' =>
    ((x =? y) || ((N.lor x 32 =? N.lor y 32) && (97 <=? N.lor x 32) && (N.lor x 32 <=? 122))) && match_fold a' b'
  | _, _ => true
  end.
(** [lookup] of a name in a table. *)
Fixpoint tab_lookup (tab : list (list N)) (val : list N) (i : N) : option (N * list N) :=
  match tab with
  | [] => None
  | v :: tab' =>
    if (length v <=? length val)%nat && match_fold (take (length v) val) v then Some (i, drop (length v) val)
    else tab_lookup tab' val (i + 1)
  end.
Definition short_days : list (list N) := map bytes_of ["Sun"; "Mon"; "Tue"; "Wed"; "Thu"; "Fri"; "Sat"]%string.
Definition short_months : list (list N) :=
  map bytes_of ["Jan"; "Feb"; "Mar"; "Apr"; "May"; "Jun"; "Jul"; "Aug"; "Sep"; "Oct"; "Nov"; "Dec"]%string.
(** [getnum]: one or two digits, two if [fixed]. *)
Definition getnum (s : list N) (fixed : bool) : option (N * list N) :=
  match s with
  | a :: s1 =>
    if negb (is_digit a) then None else
    match s1 with
    | b :: s2 => if is_digit b then Some ((a - 48) * 10 + (b - 48), s2)
                 else if fixed then None else Some (a - 48, s1)
    | [] => if fixed then None else Some (a - 48, s1)
    end
  | [] => None
  end.
(** The case stdLongYear: four digits. *)
Definition getyear (s : list N) : option (N * list N) :=
  match s with
  | a :: b :: c :: d :: s' =>
    if is_digit a && is_digit b && is_digit c && is_digit d
    then Some ((a - 48) * 1000 + (b - 48) * 100 + (c - 48) * 10 + (d - 48), s') else None
  | _ => None
  end.
(** The leading digits, and their number. *)
Fixpoint span_digits (s : list N) : list N * list N :=
  match s with
  | c :: s' => if is_digit c then let '(d, r) := span_digits s' in (c :: d, r) else ([], s)
  | [] => ([], [])
  end.
Fixpoint digits_num (acc : N) (s : list N) : N :=
  match s with [] => acc | c :: s' => digits_num (acc * 10 + (c - 48)) s' end.
(** The case stdZeroSecond, after the seconds: a fraction that the layout does not have;
    [parseNanoseconds] takes nine digits at most. *)
Definition getfrac (s : list N) : N * list N :=
  match s with
  | p :: d :: _ =>
    if ((p =? 46) || (p =? 44)) && is_digit d then
      let '(ds, r) := span_digits (tail s) in
      let used := take 9 ds in
      (digits_num 0 used * 10 ^ (9 - lenN used), r)
    else (0, s)
  | _ => (0, s)
  end.
(** [parseSignedOffset]: the length of a sign and a number of hours, or 0.  A number too large
    for an int64 is above 23 all the same. *)
Definition signed_offset (s : list N) : nat :=
  match s with
  | c :: s' =>
    if negb ((c =? 45) || (c =? 43)) then 0%nat else
    let '(ds, _) := span_digits s' in
    match ds with
    | [] => 0%nat
    | _ => if 23 <? digits_num 0 ds then 0%nat else S (length ds)
    end
  | [] => 0%nat
  end.
(** The number of capitals at the beginning, at most [max]. *)
Fixpoint count_upper (max : nat) (s : list N) : nat :=
  match max, s with
  | S m, c :: s' => if (65 <=? c) && (c <=? 90) then S (count_upper m s') else 0%nat
  | _, _ => 0%nat
  end.
(** [parseTimeZone] and [parseGMT]: the length of the abbreviation. *)
Definition parse_zone (s : list N) : option nat :=
  if (length s <? 3)%nat then None
  else if bool_decide (take 4 s = bytes_of "ChST" \/ take 4 s = bytes_of "MeST") then Some 4%nat
  else if bool_decide (take 3 s = bytes_of "GMT") then Some (3 + signed_offset (drop 3 s))%nat
  else if (nth 0 s 0 =? 43) || (nth 0 s 0 =? 45) then
    match signed_offset s with O => None | n => Some n end
  else match count_upper 6 s with
       | 5%nat => if nth 4 s 0 =? 84 then Some 5%nat else None
       | 4%nat => if (nth 3 s 0 =? 84) || bool_decide (take 4 s = bytes_of "WITA") then Some 4%nat else None
       | 3%nat => Some 3%nat
       | _ => None
       end.
(** The case stdTZ: [None] is UTC. *)
Definition getzone (s : list N) : option (option (list N) * list N) :=
  if bool_decide (take 3 s = bytes_of "UTC") then Some (None, drop 3 s)
  else n ← parse_zone s; Some (Some (take n s), drop n s).

(** [isLeap], [daysIn], [daysBefore] and [daysSinceEpoch]: counted from the year
    absoluteZeroYear = -292277022399. *)
Definition is_leap (y : Z) : bool := ((y mod 4 =? 0) && (negb (y mod 100 =? 0) || (y mod 400 =? 0)))%Z.
Definition days_before : list Z := [0; 31; 59; 90; 120; 151; 181; 212; 243; 273; 304; 334; 365]%Z.
Definition days_in (m : N) (y : Z) : Z :=
  if (m =? 2) && is_leap y then 29%Z
  else (nth (N.to_nat m) days_before 0 - nth (N.to_nat (m - 1)) days_before 0)%Z.
Definition days_since_epoch (year : Z) : Z :=
  (let y := year + 292277022399 in
   let n := y / 400 in let y := y - 400 * n in let d := 146097 * n in
   let n := y / 100 in let y := y - 100 * n in let d := d + 36524 * n in
   let n := y / 4 in let y := y - 4 * n in let d := d + 1461 * n in
   d + 365 * y)%Z.
(** [Date] in UTC for fields in range, as seconds since 1970: the constants
    absoluteToInternal and internalToUnix are days times 86400. *)
Definition unix_date (year : Z) (month day hour min sec : N) : Z :=
  (let d := days_since_epoch year + nth (N.to_nat (month - 1)) days_before 0 in
   let d := if is_leap year && (3 <=? month)%N then d + 1 else d in
   let d := d + (Z.of_N day - 1) in
   d * 86400 + (Z.of_N hour * 3600 + Z.of_N min * 60 + Z.of_N sec)
   + (- (292277022400 * 146097 / 400) * 86400 - (1969 * 365 + 1969 / 4 - 1969 / 100 + 1969 / 400) * 86400))%Z.

(** [parse] for the layout "Mon, 02 Jan 2006 15:04:05 MST". *)
Definition parse_rfc1123 (zone : list N -> Z -> Z) (s : list N) : option Z :=
  '(_, s) ← tab_lookup short_days s 0;
  s ← skip_byte 44 s; s ← skip_space s;
  '(day, s) ← getnum s true; s ← skip_space s;
  '(month, s) ← tab_lookup short_months s 1; s ← skip_space s;
  '(year, s) ← getyear s; s ← skip_space s;
  '(hour, s) ← getnum s false; if 24 <=? hour then None else s ← skip_byte 58 s;
  '(min, s) ← getnum s true; if 60 <=? min then None else s ← skip_byte 58 s;
  '(sec, s) ← getnum s true; if 60 <=? sec then None else
  let '(ns, s) := getfrac s in
  s ← skip_space s;
  '(z, s) ← getzone s;
  match s with _ :: _ => None | [] =>
    if (day <? 1) || (days_in month (Z.of_N year) <? Z.of_N day)%Z then None else
    let t := unix_date (Z.of_N year) month day hour min sec in
    Some ((t - match z with None => 0 | Some n => zone n t end) * 1000000000 + Z.of_N ns)%Z
  end.

(** pkg/opencorpora/loader.go:144-157: the values of the Last-Modified header, if any; the first
    counts. *)
Definition last_modified (zone : list N -> Z -> Z) (values : option (list (list N))) : lastmod :=
  match values with
  | Some (v :: _) => match parse_rfc1123 zone v with Some t => LTime t | None => LBad end
  | _ => LMissing
  end.
