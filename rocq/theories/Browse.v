(** Specification of what is typed into the index browser.  Nothing here refers to the model
    of the code. *)
From Verif Require Import Base.
From stdpp Require Import list.
Open Scope N_scope.

(** A line made of fields separated by single spaces. *)
Fixpoint spaced (p : list N) (ps : list (list N)) : list N :=
  match ps with
  | [] => p
  | q :: ps' => p ++ 32 :: spaced q ps'
  end.
(** The words that are commands when they stand at the beginning of a line. *)
Definition commands : list (list N) :=
  map bytes_of ["tag"; "t"; "set"; "s"; "node"; "n"; "var"; "v"; "reload"; "r"; "exit"; "e"]%string.
(** What is seen of one line after another, from what is seen of each: replies until a line
    that gives none, which ends the session with an exit code ([None]: a crash). *)
Fixpoint glue {R} (l : list (list R * option N)) : list R * option N :=
  match l with
  | [] => ([], Some 0)
  | ([], e) :: _ => ([], e)
  | (rs, _) :: l' => let '(rs', e) := glue l' in (rs ++ rs', e)
  end.
