(** Specification of the index file as a grammar of bytes.  Nothing here refers to the model of
    the code; the numbers are those of the format: internal/index/idx.go:14-17 and the
    [BinaryWriteTo] functions of internal/index and pkg/dag. *)
From Verif Require Import Base Foreign.
From stdpp Require Import list.
Open Scope N_scope.

(** What the bytes [p] stand for is a relation between values and byte strings. *)
Definition form (A : Type) : Type := A -> list N -> Prop.
(** A number of [w] bytes, the most significant first. *)
Definition number (w : nat) : form N := fun n p => length p = w /\ be p = n.
(** Elements behind their count. *)
Definition counted {A} (w : nat) (F : form A) : form (list A) := fun xs p =>
  exists count parts, p = count ++ concat parts /\ number w (N.of_nat (length xs)) count /\ Forall2 F xs parts.
(** A name of a tag: four bytes; four spaces stand for the name of four hyphens. *)
Definition tag_name_form : form (list N) := fun g p =>
  length p = 4%nat /\ g = if decide (p = [32; 32; 32; 32]) then [45; 45; 45; 45] else p.
(** A tag: the name of its parent and its own. *)
Definition tag_form : form (list N * list N) := fun t p =>
  exists p1 p2, p = p1 ++ p2 /\ tag_name_form t.1 p1 /\ tag_name_form t.2 p2.
(** A node: the number of its parent, its own number, its letter, the number of its collection. *)
Definition node_form : form (N * N * Z * N) := fun x p =>
  exists p1 p2 p3 p4 l, p = p1 ++ p2 ++ p3 ++ p4 /\ number 4 x.1.1.1 p1 /\ number 4 x.1.1.2 p2 /\
    number 4 l p3 /\ signed32 l = x.1.2 /\ number 4 x.2 p4.
(** What is in an index file: the tags, the tag sets by size, the collections of sets by size, the
    nodes. *)
Record content := mkContent { c_tags : list (list N * list N); c_sets : list (list (list N));
  c_cols : list (list (list N)); c_nodes : list (N * N * Z * N) }.
(** The sections begin with "TD", "TI", "CD" and "ID", each with a zero byte. *)
Definition file_form : form content := fun c p =>
  exists p1 p2 p3 p4,
    p = [84; 68; 0] ++ p1 ++ [84; 73; 0] ++ p2 ++ [67; 68; 0] ++ p3 ++ [73; 68; 0] ++ p4 /\
    counted 1 tag_form (c_tags c) p1 /\
    counted 4 (counted 2 (counted 1 (number 1))) (c_sets c) p2 /\
    counted 1 (counted 4 (counted 1 (number 4))) (c_cols c) p3 /\
    counted 4 node_form (c_nodes c) p4.

Definition sum (l : list nat) : nat := fold_right Nat.add 0%nat l.
(** How long the file is. *)
Definition file_size (c : content) : nat :=
  (12 + (1 + 8 * length (c_tags c))
   + (4 + sum (map (fun t => 2 + sum (map (fun s => 1 + length s) t)) (c_sets c)))
   + (1 + sum (map (fun t => 4 + sum (map (fun s => 1 + 4 * length s) t)) (c_cols c)))
   + (4 + 16 * length (c_nodes c)))%nat.
(** The name a file keeps for a name. *)
Definition kept_name (n : list N) : list N :=
  if decide (n = [] \/ n = [32; 32; 32; 32]) then [45; 45; 45; 45] else n.
