(** The calendar, apart from any program: civil dates, the number of seconds since 1970, and
    three ways to write a date (RFC 7231, section 7.1.1.1).  Nothing here refers to the code's
    model. *)
From Verif Require Import Base.
From stdpp Require Import list.
Open Scope N_scope.

(** Year, month 1-12, day 1-31, hour, minute, second of the Gregorian calendar, also before its
    introduction. *)
Record civil := mkCivil { cv_year : N; cv_month : N; cv_day : N; cv_hour : N; cv_min : N; cv_sec : N }.
Definition leap (y : N) : bool := (y mod 4 =? 0) && (negb (y mod 100 =? 0) || (y mod 400 =? 0)).
Definition month_lengths (y : N) : list N :=
  [31; if leap y then 29 else 28; 31; 30; 31; 30; 31; 31; 30; 31; 30; 31].
Definition month_length (y m : N) : N := nth (N.to_nat (m - 1)) (month_lengths y) 0.
Definition year_length (y : N) : N := if leap y then 366 else 365.
Definition valid (c : civil) : Prop :=
  cv_year c < 10000 /\ 1 <= cv_month c <= 12 /\ 1 <= cv_day c <= month_length (cv_year c) (cv_month c) /\
  cv_hour c < 24 /\ cv_min c < 60 /\ cv_sec c < 60.

Definition sum_days (l : list N) : N := foldr N.add 0 l.
(** Days of the first [n] years, counted from the year 0. *)
Fixpoint years (n : nat) : N := match n with O => 0 | S k => years k + year_length (N.of_nat k) end.
Definition day_number (c : civil) : N :=
  years (N.to_nat (cv_year c)) + sum_days (take (N.to_nat (cv_month c - 1)) (month_lengths (cv_year c))) + (cv_day c - 1).
Definition epoch : civil := mkCivil 1970 1 1 0 0 0.
Definition seconds (c : civil) : Z :=
  (86400 * (Z.of_N (day_number c) - Z.of_N (day_number epoch)) +
   3600 * Z.of_N (cv_hour c) + 60 * Z.of_N (cv_min c) + Z.of_N (cv_sec c))%Z.

(** One second later. *)
Definition tomorrow (c : civil) : civil :=
  let '(mkCivil y m d _ _ _) := c in
  if d <? month_length y m then mkCivil y m (d + 1) 0 0 0
  else if m <? 12 then mkCivil y (m + 1) 1 0 0 0 else mkCivil (y + 1) 1 1 0 0 0.
Definition next_second (c : civil) : civil :=
  let '(mkCivil y m d h n s) := c in
  if s <? 59 then mkCivil y m d h n (s + 1)
  else if n <? 59 then mkCivil y m d h (n + 1) 0
  else if h <? 23 then mkCivil y m d (h + 1) 0 0 else tomorrow c.
(** Earlier, by the year, then the month and so on. *)
Definition before (a b : civil) : Prop :=
  let k c := [cv_year c; cv_month c; cv_day c; cv_hour c; cv_min c; cv_sec c] in
  exists i, take i (k a) = take i (k b) /\
    match k a !! i, k b !! i with Some x, Some y => x < y | _, _ => False end.

(** ** Names and digits *)
Definition weekdays : list (list N) := map bytes_of ["Sun"; "Mon"; "Tue"; "Wed"; "Thu"; "Fri"; "Sat"]%string.
Definition long_weekdays : list (list N) :=
  map bytes_of ["Sunday"; "Monday"; "Tuesday"; "Wednesday"; "Thursday"; "Friday"; "Saturday"]%string.
Definition months : list (list N) :=
  map bytes_of ["Jan"; "Feb"; "Mar"; "Apr"; "May"; "Jun"; "Jul"; "Aug"; "Sep"; "Oct"; "Nov"; "Dec"]%string.
(** The first of January of the year 0 was a Saturday. *)
Definition weekday (c : civil) : N := (day_number c + 6) mod 7.
Definition name (tab : list (list N)) (i : N) : list N := nth (N.to_nat i) tab [].
Definition two (n : N) : list N := [48 + n / 10; 48 + n mod 10].
Definition four (n : N) : list N := two (n / 100) ++ two (n mod 100).
Definition clock (c : civil) : list N := two (cv_hour c) ++ [58] ++ two (cv_min c) ++ [58] ++ two (cv_sec c).

(** IMF-fixdate: Sun, 06 Nov 1994 08:49:37 GMT.  What every server has to send. *)
Definition imf (c : civil) : list N :=
  name weekdays (weekday c) ++ bytes_of ", " ++ two (cv_day c) ++ [32] ++ name months (cv_month c - 1) ++ [32] ++
  four (cv_year c) ++ [32] ++ clock c ++ bytes_of " GMT".
(** RFC 850: Sunday, 06-Nov-94 08:49:37 GMT.  Every client has to accept it. *)
Definition rfc850 (c : civil) : list N :=
  name long_weekdays (weekday c) ++ bytes_of ", " ++ two (cv_day c) ++ [45] ++ name months (cv_month c - 1) ++ [45] ++
  two (cv_year c mod 100) ++ [32] ++ clock c ++ bytes_of " GMT".
(** asctime: Sun Nov  6 08:49:37 1994.  This one too. *)
Definition asctime (c : civil) : list N :=
  name weekdays (weekday c) ++ [32] ++ name months (cv_month c - 1) ++ [32] ++
  (if cv_day c <? 10 then [32; 48 + cv_day c] else two (cv_day c)) ++ [32] ++ clock c ++ [32] ++ four (cv_year c).

(** ** The language accepted *)
Definition lower (c : N) : N := if (65 <=? c) && (c <=? 90) then c + 32 else c.
(** [w] is the name number [i], in capitals or not. *)
Definition named (tab : list (list N)) (i : N) (w : list N) : Prop :=
  exists n, tab !! N.to_nat i = Some n /\ map lower w = map lower n.
Definition digits (ds : list N) : Prop := Forall (fun d => 48 <= d <= 57) ds.
Definition num (ds : list N) : N := fold_left (fun a d => a * 10 + (d - 48)) ds 0.
(** The first nine digits of a fraction of a second. *)
Definition nanos (ds : list N) : N := num (take 9 (ds ++ replicate 9 48)).
(** One space or more. *)
Definition gap (l : list N) : Prop := l <> [] /\ Forall (fun c => c = 32) l.
Definition capitals (z : list N) : Prop := Forall (fun c => 65 <= c <= 90) z.
(** A number of hours with a sign. *)
Definition signed_hours (z : list N) : Prop :=
  exists c ds, z = c :: ds /\ (c = 43 \/ c = 45) /\ ds <> [] /\ digits ds /\ num ds <= 23.
Definition zone_name (z : list N) : Prop :=
  z = bytes_of "ChST" \/ z = bytes_of "MeST" \/
  (exists h, z = bytes_of "GMT" ++ h /\ signed_hours h) \/
  (signed_hours z /\ (3 <= length z)%nat) \/
  (capitals z /\ length z = 3%nat) \/
  (capitals z /\ ~ (bytes_of "GMT" `prefix_of` z) /\ ~ (bytes_of "UTC" `prefix_of` z) /\
   ((length z = 4%nat /\ z !! 3%nat = Some 84) \/ z = bytes_of "WITA" \/ (length z = 5%nat /\ z !! 4%nat = Some 84))).
(** [s] is a date: the day of the week is any of the seven. *)
Definition written (s : list N) (c : civil) (fraction zone : list N) : Prop :=
  exists wd w m h f g1 g2 g3 g4 g5,
    s = w ++ [44] ++ g1 ++ two (cv_day c) ++ g2 ++ m ++ g3 ++ four (cv_year c) ++ g4 ++
        h ++ [58] ++ two (cv_min c) ++ [58] ++ two (cv_sec c) ++ f ++ g5 ++ zone /\
    named weekdays wd w /\ named months (cv_month c - 1) m /\ 
    (h = two (cv_hour c) \/ h = [48 + cv_hour c] /\ cv_hour c < 10) /\
    (f = [] /\ fraction = [] \/ exists p, (p = 44 \/ p = 46) /\ f = p :: fraction /\ fraction <> [] /\ digits fraction) /\
    Forall gap [g1; g2; g3; g4; g5] /\ zone_name zone /\ valid c.
