(** Specification for the String methods (C70): what is shown of a letter, and texts without the
    bytes that the methods put between them. *)
From Verif Require Import Base Utf8 Render.
From stdpp Require Import list.
Open Scope N_scope.

(** What is shown of a letter. *)
Definition shown_letter (r : Z) : Z := if valid_rune r then r else rune_error.
(** A name that is not empty, without closing brackets and commas. *)
Definition tidy (n : list N) : Prop := n <> [] /\ 41 ∉ n /\ 44 ∉ n.
(** Forms: the word has no comma, the names are tidy. *)
Definition tidy_form (x : word_form) : Prop := 44 ∉ wf_form x /\ exists ns, wf_g x = map Some ns /\ Forall tidy ns.
(** A grammeme without the byte that ends each of its parts. *)
Definition tidy_grammeme (g : grammeme) : Prop := 47 ∉ gr_name g /\ 44 ∉ gr_parent g /\ 44 ∉ gr_alias g /\ 41 ∉ gr_desc g.
(** No nil forms, all tidy. *)
Definition tidy_lemma (l : full_lemma) : Prop := tidy_form (fl_l l) /\ exists fs, fl_f l = map Some fs /\ Forall tidy_form fs.
