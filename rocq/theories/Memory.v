(** The memory asked for while an index file is read: the [make] calls of the BinaryReadFrom
    functions (which ask for all elements before the first is read), in bytes, beside the
    results of Tags.v, TagSets.v, Variants.v, Items.v and Index.v.  Sizes are those of a
    64-bit machine: a slice header 24 bytes, a string header 16, an [Item] 16.  Not counted:
    the four bytes of a name, the text of section headers, and the children map, which is made
    when the file is accepted. *)
From Verif Require Import Base Bin Tags TagSets Variants Items Index.
From stdpp Require Import list.
Open Scope N_scope.

(** A reader that also tells how many bytes of memory it has asked for. *)
Definition mem (A : Type) : Type := list N -> N * res (A * list N).
(** A reader that asks for none. *)
Definition free {A} (r : reader A) : mem A := fun bs => (0, r bs).
Definition mthen {A B} (m : mem A) (f : A -> mem B) : mem B := fun bs =>
  match m bs with
  | (c, Ok (a, rest)) => let '(d, x) := f a rest in (c + d, x)
  | (c, Err e) => (c, Err e)
  | (c, Panic) => (c, Panic)
  end.
Definition mwrap {A} (e : err) (m : mem A) : mem A := fun bs => let '(c, x) := m bs in (c, wrap_err e x).
(** The loop over the elements, see [read_fuel] in Bin.v. *)
Fixpoint mfuel {A} (fuel : nat) (m : mem A) (n : N) (bs : list N) : N * res (list A * list N) :=
  if (n =? 0) then (0, Ok ([], bs)) else
  match fuel with
  | O => (0, Err EEOF)
  | S fuel' =>
    match m bs with
    | (c, Err e) => (c, Err e)
    | (c, Panic) => (c, Panic)
    | (c, Ok (x, rest)) =>
      match mfuel fuel' m (n - 1) rest with
      | (d, Err e) => (c + d, Err e)
      | (d, Panic) => (c + d, Panic)
      | (d, Ok (xs, rest')) => (c + d, Ok (x :: xs, rest'))
      end
    end
  end.
(** [make([]T, n)] with elements of [size] bytes, then the loop that reads them. *)
Definition mmake {A} (size : N) (m : mem A) (n : N) : mem (list A) := fun bs =>
  let '(c, x) := mfuel (S (length bs)) m n bs in (size * n + c, x).

(** pkg/dag/idx.go:46-62; the [make] is at :53.  A [Tag] is two strings. *)
Definition m_tags : mem (list tag) :=
  mthen (free (rwrap EUnmarshal get_u8)) (fun n => mwrap EUnmarshal (mmake 32 (free tag_read) n)).
(** internal/index/tagset_def.go:34-53; :44. *)
Definition m_tagset : mem (list N) :=
  mthen (free (rwrap EIndex get_u8)) (fun n => mwrap EIndex (mmake 1 (free get_u8) n)).
(** internal/index/tagset_table.go:32-51; :43. *)
Definition m_tagset_table : mem tagset_table :=
  mthen (free (rwrap EIndex get_u16)) (fun n => mwrap EIndex (mmake 24 m_tagset n)).
(** internal/index/tagset_index.go:63-82; :74. *)
Definition m_tagset_index : mem tagset_index :=
  mthen (free (rwrap EIndex get_u32)) (fun n => mwrap EIndex (mmake 24 m_tagset_table n)).
(** internal/index/variant_def.go:46-65; :56. *)
Definition m_collection : mem (list N) :=
  mthen (free (rwrap EIndex get_u8)) (fun n => mwrap EIndex (mmake 4 (free get_u32) n)).
(** internal/index/variant_table.go:33-48; :40. *)
Definition m_variants_table : mem variants_table :=
  mthen (free (rwrap EIndex get_u32)) (fun n => mwrap EIndex (mmake 24 m_collection n)).
(** internal/index/variant_idx.go:33-48; :40. *)
Definition m_variants : mem variants_index :=
  mthen (free (rwrap EIndex get_u8)) (fun n => mwrap EIndex (mmake 24 m_variants_table n)).
(** internal/index/items.go:29-45; :37. *)
Definition m_items : mem items :=
  mthen (free get_u32) (fun n => mthen (mmake 16 (free item_read) n) (fun l => free (mret (mkItems l n)))).
(** internal/index/idx.go:220-240. *)
Definition m_index (ix : index) : mem index :=
  mthen (mwrap EIndex (mthen (free (read_section sec_tags)) (fun _ => mwrap EIndex m_tags))) (fun tags =>
  mthen (mwrap EIndex (mthen (free (read_section sec_sets)) (fun _ => mwrap EIndex m_tagset_index))) (fun sets =>
  mthen (mwrap EIndex (mthen (free (read_section sec_cols)) (fun _ => mwrap EIndex m_variants))) (fun cols =>
  mthen (mthen (free (read_section sec_items)) (fun _ => mwrap EIndex m_items)) (fun its =>
  let '(m, words) := rebuild its (ix_children ix) (ix_words ix) in
  free (mret (mkIndex tags sets cols its m words)))))).

(** The memory asked for to load a file, pkg/opencorpora/loader.go:262-265. *)
Definition asked (bs : list N) : N := (m_index index_new bs).1.

(** ** Specification: the memory of an index, slices filled exactly *)
Definition sum (l : list N) : N := foldr N.add 0 l.
Definition slice {A} (size : N) (inner : A -> N) (l : list A) : N := size * lenN l + sum (map inner l).
Definition none {A} (_ : A) : N := 0.
Definition index_size (ix : index) : N :=
  slice 32 none (ix_tags ix) +
  slice 24 (slice 24 (slice 1 none)) (ix_sets ix) +
  slice 24 (slice 24 (slice 4 none)) (ix_cols ix) +
  slice 16 none (its_list (ix_items ix)).
