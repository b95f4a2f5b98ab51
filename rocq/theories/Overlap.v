(** Several processes on one file of the data directory: SaveIndex, DownloadUpdate and UnpackUpdate
    (pkg/opencorpora/loader.go:183-201, :222-233, :272-305) create the file, which truncates it when
    it is there, and write it from the beginning; LoadIndex (:238-270) opens it and reads it from
    the beginning.  Each process has its own position in the file; there is no lock and no
    renaming.  A process may stop anywhere (a crash, or the scheduler).  Buffers only make
    several steps of a process follow each other, so every byte is a step here.  Not modelled: the
    removal of an incomplete file. *)
From Verif Require Import Base.
From stdpp Require Import list.

(** Writing a byte at a position: a gap is filled with zeros. *)
Definition put (f : list N) (k : nat) (b : N) : list N :=
  take k f ++ replicate (k - length f) 0%N ++ b :: drop (S k) f.
(** A writer: what it has to write, and its position once it has created the file. *)
Record writer := mkWriter { w_bytes : list N; w_pos : option nat }.
(** The file, the writers, and what a reader has seen once it has opened the file. *)
Record shared := mkShared { s_file : list N; s_writers : list writer; s_seen : option (list N) }.
Inductive turn : shared -> shared -> Prop :=
| t_create f ws i bs seen : ws !! i = Some (mkWriter bs None) ->
    turn (mkShared f ws seen) (mkShared [] (<[i := mkWriter bs (Some O)]> ws) seen)
| t_write f ws i bs k b seen : ws !! i = Some (mkWriter bs (Some k)) -> bs !! k = Some b ->
    turn (mkShared f ws seen) (mkShared (put f k b) (<[i := mkWriter bs (Some (S k))]> ws) seen)
| t_open f ws : turn (mkShared f ws None) (mkShared f ws (Some []))
| t_read f ws l b : f !! length l = Some b -> turn (mkShared f ws (Some l)) (mkShared f ws (Some (l ++ [b]))).
(** Some turns of the processes, in any order. *)
Definition turns := rtc turn.
(** Nobody has begun; the file has a content already. *)
Definition waiting (old : list N) (bss : list (list N)) : shared := mkShared old (map (fun bs => mkWriter bs None) bss) None.
(** A writer that has written everything. *)
Definition finished (w : writer) : Prop := w_pos w = Some (length (w_bytes w)).
(** A turn in which no writer but [i] does anything. *)
Definition turn_of (i : nat) (s s' : shared) : Prop := turn s s' /\ forall j, j <> i -> s_writers s' !! j = s_writers s !! j.
(** The bytes that writers of [bss] write at a position. *)
Definition offered (bss : list (list N)) (i : nat) (b : N) : Prop := exists bs, bs ∈ bss /\ bs !! i = Some b.
