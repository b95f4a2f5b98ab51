(** What it means that an error can be recognised, stated without the code of errors.Is. *)
From Verif Require Import Base Errors.
From stdpp Require Import list relations.

(** One error is directly inside another. *)
Definition inside (e x : error) : Prop := unwrap e = Some x.
(** [t] is somewhere in the chain of [e]. *)
Definition contains (e t : error) : Prop := rtc inside e t.
(** A function returns errors, and all of them, or some, or none contain a declared one. *)
Definition always (f : func) (s : sentinel) : Prop :=
  (exists e, gives f e) /\ forall e, gives f e -> contains e (Declared s).
Definition sometimes (f : func) (s : sentinel) : Prop := exists e, gives f e /\ contains e (Declared s).
(** An error of another package can come out of the function in a way that errors.Is finds it. *)
Definition shows_cause (f : func) : Prop := exists e n, gives f e /\ contains e (Foreign n).
