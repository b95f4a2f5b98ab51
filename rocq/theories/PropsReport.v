(** The report of the parsing speed: C77.  The proofs are in ThmReport.v; the clock and the pace of
    the reports are specified at the end of Report.v. *)
From Verif Require Import Base Index DocSpec Parser Report ThmReport.
From stdpp Require Import list.
Open Scope Z_scope.

(** C77.  With a clock that does not go back the report changes nothing about the parse and never
    divides by zero.  The reports are more than ten seconds apart, the first more than ten seconds
    after the parser was made, each with the lemmas so far divided by the seconds since then; a
    lemma whose end is not reported ended at most ten seconds after the report before. *)
Theorem C77_never_stops : forall clock secs c ix max es, monotone clock -> whole_seconds secs ->
  exists t, timed_parse clock secs c (timed_new clock ix max) es = Some (t, (parse c (parser_new ix max) es).2) /\
    t_p t = (parse c (parser_new ix max) es).1.
Proof. exact l_C77_never_stops. Qed.
Print Assumptions C77_never_stops.
Theorem C77_reports : forall clock secs c ix max es t o, monotone clock -> whole_seconds secs ->
  timed_parse clock secs c (timed_new clock ix max) es = Some (t, o) -> paced secs (clock 0%nat) (clock 1%nat) (t_reports t).
Proof. exact l_C77_reports. Qed.
Print Assumptions C77_reports.
Theorem C77_how_many : forall clock secs c ix max es t o x, monotone clock -> whole_seconds secs ->
  timed_parse clock secs c (timed_new clock ix max) es = Some (t, o) -> last (t_reports t) = Some x ->
  Z.of_nat (length (t_reports t)) * (10 * 10 ^ 9) < r_done x - clock 1%nat.
Proof. exact l_C77_how_many. Qed.
Print Assumptions C77_how_many.
Theorem C77_which : forall clock secs c ix max es t i r,
  timed_parse clock secs c (timed_new clock ix max) es = Some (t, Done) -> t_reports t !! i = Some r ->
  (1 <= r_lemmas r <= p_count (t_p t))%N /\ length (before (r_lemmas r) (t_reports t)) = i /\
  r_check r = clock (reading (r_lemmas r) i) /\ r_since r = clock (reading (r_lemmas r) i + 1)%nat /\ r_done r = clock (reading (r_lemmas r) i + 2)%nat.
Proof. exact l_C77_which. Qed.
Print Assumptions C77_which.
Theorem C77_silent : forall clock secs c ix max es t m,
  timed_parse clock secs c (timed_new clock ix max) es = Some (t, Done) -> (1 <= m <= p_count (t_p t))%N ->
  (exists r, r ∈ t_reports t /\ r_lemmas r = m) \/ silent clock (t_reports t) m.
Proof. exact l_C77_silent. Qed.
Print Assumptions C77_silent.
(** Four lemmas; the readings are 7 s apart, so the second and the third are reported. *)
Definition ex_secs (d : Z) : Z := d / 10 ^ 9.
Definition ex_c : conv := mkConv (fun _ => true) (fun _ => true).
Definition ex_l : list ev :=
  [EStart (bytes_of "lemma") [(bytes_of "id", bytes_of "1"); (bytes_of "rev", bytes_of "1")]; EEnd (bytes_of "lemma")].
Definition ex_es : list ev := [EStart (bytes_of "dictionary") []; EStart (bytes_of "lemmata") []] ++ ex_l ++ ex_l ++ ex_l ++ ex_l.
Definition ex_clock (k : nat) : Z := Z.of_nat k * (7 * 10 ^ 9).
Example C77_case : monotone ex_clock /\ whole_seconds ex_secs /\
  match timed_parse ex_clock ex_secs ex_c (timed_new ex_clock index_new 0) ex_es with
  | Some (t, o) => o = Done /\ p_count (t_p t) = 4%N /\
      map (fun r => (r_check r / 10 ^ 9, r_lemmas r, r_avg r)) (t_reports t) = [(21, 2%N, 0); (49, 4%N, 0)]
  | None => False
  end.
Proof.
  split; [intros i j H; unfold ex_clock; lia|]. split; [intros d Hd; unfold ex_secs; lia|]. vm_compute. auto.
Qed.
(** Forty lemmas, the last one at the end of the eleventh second: four in a second. *)
Definition ex_burst (k : nat) : Z := if (k <? 41)%nat then 0 else 10 * 10 ^ 9 + 1.
Example C77_burst_case :
  match timed_parse ex_burst ex_secs ex_c (timed_new ex_burst index_new 0) (ex_es ++ concat (repeat ex_l 36)) with
  | Some (t, o) => o = Done /\ map (fun r => (r_lemmas r, r_avg r)) (t_reports t) = [(40%N, 4)]
  | None => False
  end.
Proof. vm_compute. auto. Qed.
(** Without a clock that only goes forward the report can stop the parse of a good document: set
    back by forty seconds after the parser was made, and forward again. *)
Definition ex_back (k : nat) : Z := match k with O => 20 * 10 ^ 9 | S O => - 20 * 10 ^ 9 | _ => 20 * 10 ^ 9 + 5 * 10 ^ 8 end.
Theorem C77_clock_set_back_refuted : exists (clock : nat -> Z) (secs : Z -> Z) (c : conv) (es : list ev), whole_seconds secs /\ (parse c (parser_new index_new 0) es).2 = Done /\ timed_parse clock secs c (timed_new clock index_new 0) es = None.
Proof.
  exists ex_back, ex_secs, ex_c, ex_es. split; [intros d Hd; unfold ex_secs; lia|]. split; vm_compute; reflexivity.
Qed.
Print Assumptions C77_clock_set_back_refuted.
