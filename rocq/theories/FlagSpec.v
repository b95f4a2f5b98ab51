(** Specification: what the arguments of the updater mean, as the documentation of the package
    flag and the usage text say it.  Nothing here refers to the model of the code. *)
From Verif Require Import Base.
From stdpp Require Import list.
Open Scope N_scope.

(** The three switches. *)
Inductive switch := Force | Debug | Help.
Definition letter (x : switch) : list N := bytes_of match x with Force => "f" | Debug => "d" | Help => "h" end.
Definition truths : list (list N) := map bytes_of ["1"; "t"; "T"; "true"; "TRUE"; "True"]%string.
Definition falses : list (list N) := map bytes_of ["0"; "f"; "F"; "false"; "FALSE"; "False"]%string.
Definition dash (d : list N) : Prop := d = bytes_of "-" \/ d = bytes_of "--".

(** An argument that sets a switch: -f, --f, -f=true, -f=0 and so on. *)
Definition sets (a : list N) (x : switch) (b : bool) : Prop := exists d, dash d /\
  (a = d ++ letter x /\ b = true \/
   exists v, a = d ++ letter x ++ bytes_of "=" ++ v /\ v ∈ if b then truths else falses).
(** An argument that asks for help under its long name, with any value. *)
Definition asks_help (a : list N) : Prop := exists d v, dash d /\
  a = d ++ bytes_of "help" ++ v /\ (v = [] \/ exists v', v = bytes_of "=" ++ v').
(** An argument where the switches end. *)
Definition operand (a : list N) : Prop := (length a < 2)%nat \/ head a <> Some 45.
(** What follows the switches: nothing, an operand, or "--". *)
Definition operands (tail rest : list (list N)) : Prop :=
  tail = [] /\ rest = [] \/ (exists a, head tail = Some a /\ operand a) /\ rest = tail \/ tail = bytes_of "--" :: rest.

(** A switch given several times: the last one counts; force is on by itself. *)
Fixpoint given (l : list (switch * bool)) (x : switch) : option bool :=
  match l with
  | [] => None
  | (y, b) :: l' => match given l' x with Some c => Some c | None => if (match x, y with Force, Force | Debug, Debug | Help, Help => true | _, _ => false end) then Some b else None end
  end.
Definition value (l : list (switch * bool)) (x : switch) : bool :=
  match given l x with Some b => b | None => match x with Force => true | _ => false end end.

(** A list of arguments starts with switches. *)
Definition leading (args : list (list N)) (l : list (switch * bool)) (tail : list (list N)) : Prop :=
  exists pre, args = pre ++ tail /\ Forall2 (fun a xb => sets a xb.1 xb.2) pre l.
