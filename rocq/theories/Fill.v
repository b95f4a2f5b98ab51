(** Reading an index in place: internal/index/idx.go:220-240 with the readers of its parts, as in
    Index.v, but with what they leave behind when they fail.  A filler gives the value as it is when
    the function returns and the rest of the input, or the error. *)
From Verif Require Import Base Storage Bin Tags TagSets Variants Items Index.
From stdpp Require Import list.
Open Scope N_scope.

Definition filler (A : Type) : Type := list N -> A * res (list N).
(** The error of a filler replaced, see [wrap_err]. *)
Definition fwrap {A} (e : err) (f : filler A) : filler A := fun bs => let '(x, r) := f bs in (x, wrap_err e r).
(** A read of one field; [z] is what was there. *)
Definition field {A} (z : A) (r : reader A) : filler A := fun bs =>
  match r bs with Ok (x, rest) => (x, Ok rest) | Err e => (z, Err e) | Panic => (z, Panic) end.
(** [x = make(.., n); for idx := 0; idx < n; idx++ { if err = x[idx].BinaryReadFrom(..); .. }]: every
    element is filled from its zero value [z]; after a failure the rest are zero values.  The fuel is
    as in [read_many]. *)
Fixpoint fill_fuel {A} (fuel : nat) (z : A) (f : filler A) (n : N) (bs : list N) : list A * res (list N) :=
  if (n =? 0) then ([], Ok bs) else
  match fuel with
  | O => (replicate (N.to_nat n) z, Err EEOF)
  | S fuel' =>
    match f bs with
    | (x, Ok rest) => let '(xs, r) := fill_fuel fuel' z f (n - 1) rest in (x :: xs, r)
    | (x, r) => (x :: replicate (N.to_nat (n - 1)) z, r)
    end
  end.
Definition fill_many {A} (z : A) (f : filler A) (n : N) : filler (list A) := fun bs => fill_fuel (S (length bs)) z f n bs.
(** A list after its length; if the length cannot be read the list is as it was. *)
Definition fill_list {A} (e : err) (old : list A) (len : reader N) (z : A) (f : filler A) : filler (list A) := fun bs =>
  match rwrap e len bs with
  | Ok (n, rest) => fwrap e (fill_many z f n) rest
  | Err x => (old, Err x)
  | Panic => (old, Panic)
  end.
(** pkg/dag/tag.go:36-46, from the zero value. *)
Definition fill_tag : filler tag := fun bs =>
  match rwrap EGrammar name_read bs with
  | Ok (p, rest) => let '(n, r) := field [] (rwrap EGrammar name_read) rest in (mkTag p n, r)
  | Err x => (zero_tag, Err x)
  | Panic => (zero_tag, Panic)
  end.
(** pkg/dag/idx.go:46-62. *)
Definition fill_tags (old : list tag) : filler (list tag) := fill_list EUnmarshal old get_u8 zero_tag fill_tag.
(** internal/index/tagset_def.go:34-53, tagset_table.go:32-51, tagset_index.go:63-82. *)
Definition fill_set (old : list N) : filler (list N) := fill_list EIndex old get_u8 0 (field 0 get_u8).
Definition fill_table (old : list (list N)) : filler (list (list N)) := fill_list EIndex old get_u16 [] (fill_set []).
Definition fill_sets (old : list (list (list N))) : filler (list (list (list N))) := fill_list EIndex old get_u32 [] (fill_table []).
(** internal/index/variant_def.go:46-65, variant_table.go:33-48, variant_idx.go:33-48. *)
Definition fill_col (old : list N) : filler (list N) := fill_list EIndex old get_u8 0 (field 0 get_u32).
Definition fill_ctable (old : list (list N)) : filler (list (list N)) := fill_list EIndex old get_u32 [] (fill_col []).
Definition fill_cols (old : list (list (list N))) : filler (list (list (list N))) := fill_list EIndex old get_u8 [] (fill_ctable []).
(** internal/index/item_def.go:25-49, field by field from the zero value. *)
Definition fill_item : filler item := fun bs =>
  match get_u32 bs with
  | Ok (p, b1) =>
    match get_u32 b1 with
    | Ok (i, b2) =>
      match get_u32 b2 with
      | Ok (l, b3) => let '(v, r) := field 0 get_u32 b3 in (mkItem p i (rune_of_u32 l) v, r)
      | Err x => (mkItem p i 0 0, Err x)
      | Panic => (mkItem p i 0 0, Panic)
      end
    | Err x => (mkItem p 0 0 0, Err x)
    | Panic => (mkItem p 0 0 0, Panic)
    end
  | Err x => (zero_item, Err x)
  | Panic => (zero_item, Panic)
  end.
(** internal/index/items.go:29-45. *)
Definition fill_items (old : items) : filler items := fun bs =>
  match get_u32 bs with
  | Ok (n, rest) => let '(l, r) := fill_many zero_item fill_item n rest in (mkItems l n, r)
  | Err x => (old, Err x)
  | Panic => (old, Panic)
  end.
(** A section header and then a part of the index. *)
Definition fill_section {A} (sec : list N) (old : A) (f : filler A) : filler A := fun bs =>
  match read_section sec bs with
  | Ok (_, rest) => fwrap EIndex f rest
  | Err x => (old, Err x)
  | Panic => (old, Panic)
  end.
(** internal/index/idx.go:220-240. *)
Definition fill_index (ix : index) : filler index := fun bs =>
  let '(tags, r1) := fwrap EIndex (fill_section sec_tags (ix_tags ix) (fill_tags (ix_tags ix))) bs in
  match r1 with
  | Ok b1 =>
    let '(sets, r2) := fwrap EIndex (fill_section sec_sets (ix_sets ix) (fill_sets (ix_sets ix))) b1 in
    match r2 with
    | Ok b2 =>
      let '(cols, r3) := fwrap EIndex (fill_section sec_cols (ix_cols ix) (fill_cols (ix_cols ix))) b2 in
      match r3 with
      | Ok b3 =>
        let '(its, r4) := fill_section sec_items (ix_items ix) (fill_items (ix_items ix)) b3 in
        match r4 with
        | Ok b4 => let '(m, words) := rebuild its (ix_children ix) (ix_words ix) in (mkIndex tags sets cols its m words, Ok b4)
        | x => (mkIndex tags sets cols its (ix_children ix) (ix_words ix), x)
        end
      | x => (mkIndex tags sets cols (ix_items ix) (ix_children ix) (ix_words ix), x)
      end
    | x => (mkIndex tags sets (ix_cols ix) (ix_items ix) (ix_children ix) (ix_words ix), x)
    end
  | x => (mkIndex tags (ix_sets ix) (ix_cols ix) (ix_items ix) (ix_children ix) (ix_words ix), x)
  end.

(** ** Specification: what a failed read leaves *)
(** A list announced with [n] elements of which [k] could be read: these, one that was read in part
    ([P] says how), and zero values. *)
Definition cut_list {A} (z : A) (r : reader A) (P : list N -> A -> Prop) (n : N) (bs : list N) (xs : list A) : Prop :=
  exists k ys rest x, k < n /\ read_many r k bs = Ok (ys, rest) /\ (exists e, r rest = Err e) /\ P rest x /\
    xs = ys ++ x :: replicate (N.to_nat (n - k - 1)) z.
(** A node read in part: as if after the last complete field there were only zeros. *)
Definition cut_node (bs : list N) (x : item) : Prop :=
  let m := (length bs / 4 * 4)%nat in item_read (take m bs ++ replicate (16 - m) 0) = Ok (x, []).
(** A tag read in part: nothing, or its parent only. *)
Definition cut_tag (bs : list N) (x : tag) : Prop :=
  ((length bs < 4)%nat /\ x = mkTag [] []) \/ exists p rest, name_read bs = Ok (p, rest) /\ (length rest < 4)%nat /\ x = mkTag p [].
(** A list inside a list read in part: nothing if its length is missing, else as above.  Below the
    lists are the numbers, which are zero if they could not be read. *)
Definition cut_inner {A} (len : reader N) (z : A) (r : reader A) (P : list N -> A -> Prop) (bs : list N) (x : list A) : Prop :=
  (x = [] /\ exists e, len bs = Err e) \/ exists n b, len bs = Ok (n, b) /\ cut_list z r P n b x.
Definition cut_number (bs : list N) (x : N) : Prop := x = 0.
Definition cut_set : list N -> list N -> Prop := cut_inner get_u8 0 get_u8 cut_number.
Definition cut_table : list N -> list (list N) -> Prop := cut_inner get_u16 [] tagset_read cut_set.
Definition cut_col : list N -> list N -> Prop := cut_inner get_u8 0 get_u32 cut_number.
Definition cut_ctable : list N -> list (list N) -> Prop := cut_inner get_u32 [] collection_read cut_col.
(** A part of the index that could not be read: untouched if its header or its length is missing. *)
Definition cut_part {A} (sec : list N) (len : reader N) (z : A) (r : reader A) (P : list N -> A -> Prop) (bs : list N) (old new : list A) : Prop :=
  (new = old /\ ((exists e, read_section sec bs = Err e) \/ exists b e, read_section sec bs = Ok (tt, b) /\ len b = Err e)) \/
  exists b n b', read_section sec bs = Ok (tt, b) /\ len b = Ok (n, b') /\ cut_list z r P n b' new.
(** A part with its header that could be read. *)
Definition whole_part {A} (sec : list N) (r : reader A) (bs : list N) (x : A) (rest : list N) : Prop :=
  exists b, read_section sec bs = Ok (tt, b) /\ r b = Ok (x, rest).
(** The parts before the failure are those of the file, those after it the old ones; the children
    map and the word counter stay. *)
Inductive left_over (ix : index) (bs : list N) : index -> Prop :=
| left_tags tags : cut_part sec_tags get_u8 zero_tag tag_read cut_tag bs (ix_tags ix) tags ->
    left_over ix bs (mkIndex tags (ix_sets ix) (ix_cols ix) (ix_items ix) (ix_children ix) (ix_words ix))
| left_sets tags b1 sets : whole_part sec_tags tags_read bs tags b1 ->
    cut_part sec_sets get_u32 [] tagset_table_read cut_table b1 (ix_sets ix) sets ->
    left_over ix bs (mkIndex tags sets (ix_cols ix) (ix_items ix) (ix_children ix) (ix_words ix))
| left_cols tags b1 sets b2 cols : whole_part sec_tags tags_read bs tags b1 -> whole_part sec_sets tagset_index_read b1 sets b2 ->
    cut_part sec_cols get_u8 [] variants_table_read cut_ctable b2 (ix_cols ix) cols ->
    left_over ix bs (mkIndex tags sets cols (ix_items ix) (ix_children ix) (ix_words ix))
| left_items tags b1 sets b2 cols b3 its : whole_part sec_tags tags_read bs tags b1 -> whole_part sec_sets tagset_index_read b1 sets b2 ->
    whole_part sec_cols variants_read b2 cols b3 ->
    cut_part sec_items get_u32 zero_item item_read cut_node b3 (its_list (ix_items ix)) (its_list its) ->
    its = ix_items ix \/ its_next its = lenN (its_list its) ->
    left_over ix bs (mkIndex tags sets cols its (ix_children ix) (ix_words ix)).
