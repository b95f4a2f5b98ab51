(** The [String] and [GoString] methods of internal/index, pkg/dag and pkg/opencorpora.  A nil
    pointer is [None]; a method with a value receiver called on it panics.  Item.String
    and Node.String are [item_string] and [node_string] in Index.v. *)
From Verif Require Import Base Storage Utf8 Tags TagSets Variants Items Strconv Screen.
From stdpp Require Import list.
Open Scope N_scope.

(** strconv.FormatUint(n, 16). *)
Definition lhex_digit (d : N) : N := if d <? 10 then 48 + d else 87 + d.
Fixpoint lhex_fuel (fuel : nat) (n : N) : list N :=
  match fuel with
  | O => []
  | S fuel => if n <? 16 then [lhex_digit n] else lhex_fuel fuel (n / 16) ++ [lhex_digit (n mod 16)]
  end.
Definition lhex (n : N) : list N := lhex_fuel (S (N.size_nat n)) n.

(** internal/index/tagset_def.go:22-29. *)
Definition tagset_string (s : list N) : list N :=
  bytes_of "TS(" ++ join_with (bytes_of ",") (map itoa s) ++ bytes_of ")".
(** internal/index/tagset_table.go:20-27. *)
Definition table_string (t : list (list N)) : list N :=
  bytes_of "TT(" ++ join_with (bytes_of ",") (imap (fun i s => itoa (N.of_nat i) ++ bytes_of ": " ++ tagset_string s) t) ++ bytes_of ")".
(** internal/index/variant_def.go:17-24. *)
Definition collection_string (c : list N) : list N :=
  bytes_of "[" ++ join_with (bytes_of ",") (map lhex c) ++ bytes_of "]".
(** pkg/dag/map.go:38-56; [order] is the order in which Go walks the map. *)
Definition idmap_string (order : list (Z * N)) : list N :=
  bytes_of "IDMap(" ++
  (if (length order <? 10)%nat
   then join_with (bytes_of ",") (map (fun p => bytes_of "`" ++ string_of_rune p.1 ++ bytes_of "`:" ++ itoa p.2) order)
   else bytes_of "len()=" ++ itoa (lenN order)) ++ bytes_of ")".
(** pkg/dag/map.go:19-34; a node is given by what its String gives. *)
Definition nodemap_string (order : list (Z * list N)) : list N :=
  bytes_of "NodeMap(" ++
  (if (length order <? 10)%nat
   then join_with (bytes_of ",") (map (fun p => bytes_of "`" ++ string_of_rune p.1 ++ bytes_of "`:" ++ p.2) order)
   else bytes_of "len()=" ++ itoa (lenN order)) ++ bytes_of ")".
(** pkg/dag/tagset.go:11-18; pkg/dag/tag.go:68-70 and name.go:61-63 give the name itself. *)
Definition dag_tagset_string (s : list tag) : list N := join_with (bytes_of ",") (map tag_name s).

(** ** pkg/opencorpora *)

(** A value for each entry of a list of pointers, or a panic. *)
Fixpoint deref_all {A B} (f : A -> res B) (l : list (option A)) : res (list B) :=
  match l with
  | [] => Ok []
  | None :: _ => Panic
  | Some a :: l' => b ← f a; bs ← deref_all f l'; Ok (b :: bs)
  end.
(** category_item.go:8-15: a category is its name. *)
Definition category := option (list N).
(** category_list.go:12-19. *)
Definition categories_string (c : list category) : res (list N) :=
  ns ← deref_all Ok c; Ok (join_with (bytes_of ",") ns).
(** category_list.go:22-29 [GrammemeNames]; form_item.go:32-40 [GetTagsFromSet] is the same: its
    test for nil guards nothing. *)
Definition category_names (c : list category) : res (list (list N)) := deref_all Ok c.
(** form_item.go:10-29. *)
Record word_form := mkWordForm { wf_form : list N; wf_g : list category }.
Definition word_form_string (x : word_form) : res (list N) :=
  ns ← deref_all Ok (wf_g x);
  Ok (bytes_of "WordForm(" ++ wf_form x ++ bytes_of "," ++ join_with (bytes_of ",") ns ++ bytes_of ")").
(** grammeme_item.go:8-20. *)
Record grammeme := mkGrammeme { gr_parent : list N; gr_name : list N; gr_alias : list N; gr_desc : list N }.
Definition grammeme_string (g : grammeme) : list N :=
  bytes_of "Tag(" ++ gr_name g ++ bytes_of "/" ++ gr_parent g ++ bytes_of "," ++ gr_alias g ++ bytes_of "," ++ gr_desc g ++ bytes_of ")".
(** grammeme_dict.go:12-18. *)
Definition grammemes_string (l : list (option grammeme)) : res (list N) :=
  ss ← deref_all (fun g => Ok (grammeme_string g)) l;
  Ok (bytes_of "Grammemes(" ++ join_with (bytes_of ",") ss ++ bytes_of ")").
(** lemma_item.go:11-38; there is no closing bracket. *)
Record full_lemma := mkFullLemma { fl_id : Z; fl_rev : Z; fl_l : word_form; fl_f : list (option word_form) }.
Definition lemma_string (l : full_lemma) : res (list N) :=
  fs ← deref_all word_form_string (fl_f l);
  base ← word_form_string (fl_l l);
  Ok (bytes_of "Lemma(" ++ fmt_d (fl_id l) ++ bytes_of "," ++ fmt_d (fl_rev l) ++ bytes_of "," ++ base ++ bytes_of ", " ++
      join_with (bytes_of ",") fs).
