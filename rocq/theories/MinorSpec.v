(** Specification of the errors of package grammemes (C87). *)
From Verif Require Import Base Minor.
From stdpp Require Import list.

(** The texts of an error and of what it wraps, from the outside. *)
Inductive tells : gerror -> list (list N) -> Prop :=
| tells_foreign n t i : tells (EForeign n t i) [t]
| tells_last a t : tells (EPointer a t ENil) [t]
| tells_wrap a t w l : tells w l -> tells (EPointer a t w) (t :: l).
(** A nil pointer below pointers. *)
Inductive dangling : gerror -> Prop :=
| dangling_nil : dangling ENilPointer
| dangling_wrap a t w : dangling w -> dangling (EPointer a t w).
(** What Unwrap reaches. *)
Inductive reaches : gerror -> gerror -> Prop :=
| reaches_self e : reaches e e
| reaches_inner n t i e : i <> ENil -> reaches i e -> reaches (EForeign n t i) e.
(** The same error value: pointers to the same object, or the same foreign error. *)
Inductive identical : gerror -> gerror -> Prop :=
| identical_nil_pointer : identical ENilPointer ENilPointer
| identical_pointer a t w t' w' : identical (EPointer a t w) (EPointer a t' w')
| identical_foreign n t i t' i' : identical (EForeign n t i) (EForeign n t' i').
(** All errors of the package in it were made before the address. *)
Fixpoint older (next : N) (e : gerror) : Prop :=
  match e with
  | EPointer a _ w => (a < next)%N /\ older next w
  | EForeign _ _ i => older next i
  | _ => True
  end.
