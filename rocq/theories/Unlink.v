(** Several processes in SaveIndex at once, with the removal of an incomplete file
    (pkg/opencorpora/loader.go:272-305): the file is created (binutils.CreateFile, which truncates
    the file when it is there), written from the beginning, and after an error removed by its name
    (os.Remove, :291).  What is removed is the name; a process that has the file open goes on with
    the file it has.  Every byte is a step; a process may stop anywhere.  Overlap.v has the same
    without errors, and with a reader. *)
From Verif Require Import Base.
From Verif Require Import Overlap.
From stdpp Require Import list.

(** Where a process is: not begun; the file [n] open at a position; after an error, with the
    removal still to do; at the end, with or without success. *)
Inductive place := Ready | Open (n k : nat) | Broken | Ended (ok : bool).
Record process := mkProcess { r_bytes : list N; r_place : place }.
(** The files there are and have been, which of them has the name, and the processes. *)
Record disk := mkDisk { d_files : list (list N); d_name : option nat; d_procs : list process }.
Inductive deed := DCreate | DWrite | DFinish | DFail | DRemove | DStay.
Definition place_to (i : nat) (bs : list N) (p : place) (ps : list process) : list process := <[i := mkProcess bs p]> ps.

Inductive does (i : nat) : deed -> disk -> disk -> Prop :=
| do_truncate fs n ps bs f : ps !! i = Some (mkProcess bs Ready) -> fs !! n = Some f ->
    does i DCreate (mkDisk fs (Some n) ps) (mkDisk (<[n := []]> fs) (Some n) (place_to i bs (Open n 0) ps))
| do_create fs ps bs : ps !! i = Some (mkProcess bs Ready) ->
    does i DCreate (mkDisk fs None ps) (mkDisk (fs ++ [[]]) (Some (length fs)) (place_to i bs (Open (length fs) 0) ps))
| do_write fs m ps bs n k b f : ps !! i = Some (mkProcess bs (Open n k)) -> bs !! k = Some b -> fs !! n = Some f ->
    does i DWrite (mkDisk fs m ps) (mkDisk (<[n := put f k b]> fs) m (place_to i bs (Open n (S k)) ps))
| do_finish fs m ps bs n k : ps !! i = Some (mkProcess bs (Open n k)) -> k = length bs ->
    does i DFinish (mkDisk fs m ps) (mkDisk fs m (place_to i bs (Ended true) ps))
| do_fail fs m ps bs n k : ps !! i = Some (mkProcess bs (Open n k)) ->
    does i DFail (mkDisk fs m ps) (mkDisk fs m (place_to i bs Broken ps))
| do_remove fs m ps bs : ps !! i = Some (mkProcess bs Broken) ->
    does i DRemove (mkDisk fs m ps) (mkDisk fs None (place_to i bs (Ended false) ps))
| do_stay fs m ps bs : ps !! i = Some (mkProcess bs Broken) ->
    does i DStay (mkDisk fs m ps) (mkDisk fs m (place_to i bs (Ended false) ps)).

(** Some deeds in any order. *)
Definition some_deed (s s' : disk) : Prop := exists i d, does i d s s'.
Definition deeds := rtc some_deed.
(** Deeds none of which is an error. *)
Definition good_deed (s s' : disk) : Prop := exists i d, d <> DFail /\ does i d s s'.
(** Deeds where no process but [j] creates or removes the file. *)
Definition left_to (j : nat) (s s' : disk) : Prop := exists i d, does i d s s' /\ (i <> j -> d <> DCreate /\ d <> DRemove).
(** Nobody has begun; there may be a file already. *)
Definition before_all (old : option (list N)) (bss : list (list N)) : disk :=
  mkDisk (match old with Some f => [f] | None => [] end) (match old with Some _ => Some 0 | None => None end) (map (fun bs => mkProcess bs Ready) bss).
(** What is found under the name. *)
Definition found (s : disk) : option (list N) := match d_name s with Some n => d_files s !! n | None => None end.
Definition at_place (s : disk) (i : nat) (bs : list N) (p : place) : Prop := d_procs s !! i = Some (mkProcess bs p).
