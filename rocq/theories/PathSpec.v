(** Specification: where a path leads, in a file system without symbolic links in which all
    directories on the way exist.  Nothing here refers to the model of the code. *)
From Verif Require Import Base.
From stdpp Require Import list.

(** The pieces between the separators. *)
Fixpoint pieces (p : list N) : list (list N) :=
  match p with
  | [] => [[]]
  | c :: p' =>
    if decide (c = 47%N) then [] :: pieces p'
    else match pieces p' with [] => [[c]] | x :: xs => (c :: x) :: xs end
  end.
(** One piece: stay, go up (the root is its own parent), or go down. *)
Definition move (dir : list (list N)) (x : list N) : list (list N) :=
  if decide (x = [] \/ x = bytes_of ".") then dir
  else if decide (x = bytes_of "..") then removelast dir
  else dir ++ [x].
(** The place reached from the directory [cwd]; a place is the list of names from the root. *)
Definition walk (cwd : list (list N)) (p : list N) : list (list N) :=
  fold_left move (pieces p) (if decide (head p = Some 47%N) then [] else cwd).
(** A name a directory entry can have. *)
Definition entry (x : list N) : Prop := x <> [] /\ x <> bytes_of "." /\ x <> bytes_of ".." /\ 47%N ∉ x.
(** The path of a place. *)
Definition absolute (dir : list (list N)) : list N :=
  match dir with [] => [47%N] | _ => concat (map (cons 47%N) dir) end.
