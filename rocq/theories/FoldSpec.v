(** Specification of names up to case, for names of ASCII characters. *)
From Verif Require Import Base Utf8.
From stdpp Require Import list.
Open Scope N_scope.

(** A name of ASCII characters. *)
Definition ascii (s : list N) : Prop := Forall (fun b => b < 128) s.
(** The small letter a character stands for, and itself if it stands for none: a capital letter
    stands for its small one, the kelvin sign for k, the long s for s. *)
Definition small (c : Z) : Z :=
  if bool_decide (65 <= c <= 90)%Z then (c + 32)%Z
  else if bool_decide (c = 0x212A%Z) then 107%Z
  else if bool_decide (c = 0x17F%Z) then 115%Z
  else c.
(** A string in small letters. *)
Definition in_small (s : list N) : list Z := map small (runes_of_string s).
