(** The report of the parsing speed, pkg/opencorpora/parser.go:72-75 and :308-311, around the parser
    of Parser.v, which leaves it out.  The readings of the clock are an arbitrary sequence, in
    nanoseconds; [secs] is [int(d.Seconds())], which goes through a float64. *)
From Verif Require Import Base Index DocSpec Parser.
From stdpp Require Import list.
Open Scope Z_scope.

(** A report: the reading that caused it, the reading the average is taken at, the reading that
    sets the next one, the lemmas so far and the average. *)
Record report := mkReport { r_check : Z; r_since : Z; r_done : Z; r_lemmas : N; r_avg : Z }.
(** The parser with [parserStarted] and [reportAfter], the number of readings taken and the
    reports given. *)
Record timed := mkTimed { t_p : parser; t_started : Z; t_after : Z; t_k : nat; t_reports : list report }.
Section report.
  Context (clock : nat -> Z) (secs : Z -> Z) (c : conv).
  (** :17 in nanoseconds. *)
  Definition each : Z := 10 * 10 ^ 9.
  (** :62-76. *)
  Definition timed_new (ix : index) (max : Z) : timed := mkTimed (parser_new ix max) (clock 0) (clock 1 + each) 2 [].
  (** :308-311, at the end of a lemma; [None] is a division by zero, which panics. *)
  Definition report_speed (count : N) (t : timed) : option timed :=
    let now := clock (t_k t) in
    if t_after t <? now then
      let since := clock (t_k t + 1) in
      let s := secs (since - t_started t) in
      if s =? 0 then None else
      let now2 := clock (t_k t + 2) in
      Some (mkTimed (t_p t) (t_started t) (now2 + each) (t_k t + 3)
        (t_reports t ++ [mkReport now since now2 count (Z.quot (Z.of_N count) s)]))
    else Some (mkTimed (t_p t) (t_started t) (t_after t) (t_k t + 1) (t_reports t)).
  Definition set_p (t : timed) (p : parser) : timed := mkTimed p (t_started t) (t_after t) (t_k t) (t_reports t).
  (** Whether a token ends a lemma with success: then the report comes before the path is cut. *)
  Definition ends_lemma (p : parser) (e : ev) : option N :=
    match e with
    | EEnd _ =>
      match handler_at (p_path p) with
      | Some HLemma => match on_end HLemma p with (p1, Done) => Some (p_count p1) | _ => None end
      | _ => None
      end
    | _ => None
    end.
  Definition timed_process (t : timed) (e : ev) : option (timed * outcome) :=
    t1 ← match ends_lemma (t_p t) e with Some n => report_speed n t | None => Some t end;
    let '(p, o) := process c (t_p t) e in Some (set_p t1 p, o).
  Fixpoint timed_parse (t : timed) (es : list ev) : option (timed * outcome) :=
    match es with
    | [] => Some (t, Done)
    | e :: es' =>
      x ← timed_process t e;
      match x with
      | (t1, Done) => timed_parse t1 es'
      | _ => Some x
      end
    end.
End report.

(** ** Specification *)
(** A clock that does not go back. *)
Definition monotone (clock : nat -> Z) : Prop := forall i j, (i <= j)%nat -> clock i <= clock j.
(** Seconds rounded down, or up when a float64 has no room for the fraction. *)
Definition whole_seconds (secs : Z -> Z) : Prop := forall d, 0 <= d -> d / 10 ^ 9 <= secs d <= d / 10 ^ 9 + 1.
(** Reports that follow each other: each more than ten seconds after the one before, the first
    after [prev]; the averages are over the time since [start]. *)
Inductive paced (secs : Z -> Z) (start : Z) : Z -> list report -> Prop :=
| paced_nil prev : paced secs start prev []
| paced_cons prev r rs : prev + 10 * 10 ^ 9 < r_check r -> r_check r <= r_since r -> r_since r <= r_done r ->
    r_avg r = Z.of_N (r_lemmas r) / secs (r_since r - start) -> 10 <= secs (r_since r - start) ->
    paced secs start (r_done r) rs -> paced secs start prev (r :: rs).
(** The reading taken at the end of the [m]-th lemma when [i] reports have been given: two
    readings before the first lemma, one for each lemma, two more for each report. *)
Definition reading (m : N) (i : nat) : nat := 1 + N.to_nat m + 2 * i.
(** The reports given before the [m]-th lemma. *)
Definition before (m : N) (rs : list report) : list report := filter (fun r => (r_lemmas r < m)%N) rs.
(** The end of the [m]-th lemma passed in silence: it was at most ten seconds after the last report
    before it, or after [start]. *)
Definition silent (clock : nat -> Z) (rs : list report) (m : N) : Prop :=
  clock (reading m (length (before m rs))) <= match last (before m rs) with Some r => r_done r | None => clock 1%nat end + 10 * 10 ^ 9.
