(** Specification of what an index file says, whatever wrote it: the last section read as a
    list of 16-byte records, and the words they spell.  Nothing here refers to the model of
    the code. *)
From Verif Require Import Base.
From stdpp Require Import list.
Open Scope N_scope.

(** Bytes as a number, the most significant first; the k-th 4-byte field of a record. *)
Definition be (b : list N) : N := fold_left (fun a x => a * 256 + x) b 0.
Definition field (k : nat) (b : list N) : N := be (take 4 (drop (4 * k) b)).
(** A 32-bit number as a signed one. *)
Definition signed32 (n : N) : Z := if (n <? 2147483648) then Z.of_N n else (Z.of_N n - 4294967296)%Z.
(** What a record says: its parent, its letter and its variant number. *)
Definition record_of (b : list N) : N * Z * N := (field 0 b, signed32 (field 2 b), field 3 b).

(** The word [w] leads to the record number [n]: each letter leads from a record to the last
    one that names it as the parent and carries the letter; number 0 is the start. *)
Inductive walk (rs : list (N * Z * N)) : list Z -> N -> Prop :=
| walk_start : walk rs [] 0
| walk_letter w p r n v : walk rs w p -> rs !! N.to_nat n = Some (p, r, v) ->
    (forall n' v', n < n' -> rs !! N.to_nat n' <> Some (p, r, v')) -> walk rs (w ++ [r]) n.

(** From the record [n] one can go to the parent [k] times without meeting the number 0 or a
    number without a record. *)
Fixpoint climbs (rs : list (N * Z * N)) (k : nat) (n : N) : Prop :=
  match k with
  | O => True
  | S k' => n <> 0 /\ exists p r v, rs !! N.to_nat n = Some (p, r, v) /\ p <> 0 /\ climbs rs k' p
  end.
