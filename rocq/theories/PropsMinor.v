(** Small functions: C87.  The proofs are in ThmMinor.v. *)
From Verif Require Import Base Storage Tags TagSets Variants Items Index Spec Hist AnswerSpec Screen Minor MinorSpec ThmTrie ThmMinor PropsTrie.
From stdpp Require Import list gmap.
Open Scope N_scope.

(** C87.  The text of an error of package grammemes is the texts of the chain with colons between,
    and it panics exactly for a nil error and when a nil pointer is wrapped; errors.Is finds what
    Unwrap reaches and tells errors with the same text apart.  NextID is the number of nodes and one
    more; Item reads the item of a node; Len and Tables say which numbers are answered; GetItem gives
    what Get gives; within an index the text of a tag determines it.  Violated (the names end in
    _refuted): what WrapErrorf wraps is in the text but is never found by errors.Is; for a number
    that is no node Item gives the zero item or panics where getItem gives nil; the text of a tag
    hides its parent; a map of nodes cannot be written. *)
Theorem C87_text : forall e x,
  gerror_text e = Ok x <-> exists l, tells e l /\ x = join_with (bytes_of ": ") l.
Proof. exact l_C87_text. Qed.
Print Assumptions C87_text.
Theorem C87_panic : forall e,
  (gerror_text e = Panic <-> e = ENil \/ dangling e) /\ forall y, gerror_text e <> Err y.
Proof. exact l_C87_panic. Qed.
Print Assumptions C87_panic.
Theorem C87_go_string : forall e x,
  gerror_go_string e = Ok x <-> exists y, gerror_text e = Ok y /\ x = bytes_of "grammemes.Error:" ++ y.
Proof. exact l_C87_go_string. Qed.
Print Assumptions C87_go_string.
Theorem C87_is : forall e x,
  (x <> ENil -> is_gerror e x = true <-> exists y, reaches e y /\ identical y x) /\
  (is_gerror e ENil = true <-> e = ENil).
Proof. exact l_C87_is. Qed.
Print Assumptions C87_is.
Theorem C87_wrapped_is_lost_refuted : forall next w text x, older next w -> w <> ENil -> older next x ->
  (exists z, gerror_text w = Ok z) ->
  (exists z, gerror_text (wrap_errorf next w text).2 = Ok (text ++ bytes_of ": " ++ z) /\ gerror_text w = Ok z) /\
  is_gerror (wrap_errorf next w text).2 x = false.
Proof. exact l_C87_wrapped_is_lost_refuted. Qed.
Print Assumptions C87_wrapped_is_lost_refuted.
Theorem C87_new : forall next text text',
  let '(next1, a) := new_errorf next text in let '(next2, b) := new_errorf next1 text' in
  gerror_text a = Ok text /\ gerror_text b = Ok text' /\
  is_gerror a a = true /\ is_gerror a b = false /\ is_gerror b a = false /\ older next1 a /\ older next2 b.
Proof. exact l_C87_new. Qed.
Print Assumptions C87_new.
Theorem C87_next_id : forall h ix, runs h ix ->
  items_next_id (ix_items ix) = lenN (d_words (d_run h)) + 1 /\ nodes_count ix = items_next_id (ix_items ix) - 1.
Proof. exact l_C87_next_id. Qed.
Print Assumptions C87_next_id.
Theorem C87_item : forall h ix id w, runs h ix -> word_at (d_run h) id w ->
  exists it, node_item ix id = Ok it /\ get_item ix id = Ok (Some it).
Proof. exact l_C87_item. Qed.
Print Assumptions C87_item.
Theorem C87_item_of_no_node_refuted : forall h ix id, runs h ix -> (forall w, ~ word_at (d_run h) id w) ->
  get_item ix id = Ok None /\
  node_item ix id = (if lenN (its_list (ix_items ix)) <=? id then Panic else Ok zero_item) /\
  node_item ix 0 = Ok zero_item.
Proof. exact l_C87_item_of_no_node_refuted. Qed.
Print Assumptions C87_item_of_no_node_refuted.
Theorem C87_lengths : forall ts (t : tagset_table) k,
  (is_Some (tags_get ts k) <-> k < tags_len ts) /\ (is_Some (tagset_table_get t k) <-> k < tagset_table_len t).
Proof. exact l_C87_lengths. Qed.
Print Assumptions C87_lengths.
Theorem C87_tables : forall x n t, lenN x <= 65535 -> 1 <= n <= 65535 ->
  variants_get_table x n = Ok t <-> variants_tables x !! N.to_nat (n - 1) = Some t.
Proof. exact l_C87_tables. Qed.
Print Assumptions C87_tables.
Theorem C87_node_map_cannot_be_written_refuted : forall m, node_map_write m = Panic.
Proof. exact l_C87_node_map_cannot_be_written_refuted. Qed.
Print Assumptions C87_node_map_cannot_be_written_refuted.
Theorem C87_tag_string : forall h ix i j a b, runs h ix -> ix_tags ix !! i = Some a -> ix_tags ix !! j = Some b ->
  tag_string a = tag_string b -> i = j.
Proof. exact l_C87_tag_string. Qed.
Print Assumptions C87_tag_string.
Theorem C87_tag_string_hides_the_parent_refuted : forall t, exists t', t' <> t /\ tag_string t' = tag_string t.
Proof. exact l_C87_tag_string_hides_the_parent_refuted. Qed.
Print Assumptions C87_tag_string_hides_the_parent_refuted.
Theorem C87_get_item : forall h ix id, runs h ix ->
  index_get ix id = Ok (index_get_item ix id) <-> id = 0 \/ exists w, word_at (d_run h) id w.
Proof. exact l_C87_get_item. Qed.
Print Assumptions C87_get_item.
(** A foreign error 7 around 8, wrapped by the package. *)
Definition ex_foreign : gerror := EForeign 7 (bytes_of "outer: inner") (EForeign 8 (bytes_of "inner") ENil).
Example C87_errors_case :
  let e := (wrap_errorf 5 ex_foreign (bytes_of "load")).2 in
  gerror_text e = Ok (bytes_of "load: outer: inner") /\
  gerror_go_string e = Ok (bytes_of "grammemes.Error:load: outer: inner") /\
  is_gerror ex_foreign (EForeign 8 [] ENil) = true /\ is_gerror ex_foreign (EForeign 9 [] ENil) = false /\
  is_gerror e ex_foreign = false /\ is_gerror e e = true /\
  is_gerror (EForeign 1 [] e) e = true /\ older 5 ex_foreign /\ older 6 e /\
  gerror_text (EPointer 3 (bytes_of "x") ENilPointer) = Panic /\
  gerror_text (EPointer 3 (bytes_of "x") (EPointer 2 (bytes_of "y") ENil)) = Ok (bytes_of "x: y").
Proof. vm_compute. repeat split; reflexivity. Qed.
(** Four nodes in a storage with more room. *)
Example C87_accessors_case : exists ix, runs ex_h ix /\
  items_next_id (ix_items ix) = 5 /\ tags_len (ix_tags ix) = 2 /\
  node_item ix 2 = Ok (mkItem 1 2 0x43E%Z 0) /\ get_item ix 2 = Ok (Some (mkItem 1 2 0x43E%Z 0)) /\
  node_item ix 0 = Ok zero_item /\ get_item ix 0 = Ok None /\ get_item ix 5 = Ok None /\
  map tag_string (ix_tags ix) = [bytes_of "NOUN"; bytes_of "sing"] /\
  map (fun t => lenN t) (variants_tables (ix_cols ix)) = [1] /\ map tagset_table_len (ix_sets ix) = [0; 1] /\
  index_get ix 4 = Ok 4 /\ index_get ix 5 = Err EIndex /\ index_get_item ix 5 = 5.
Proof. apply run_case. vm_compute. repeat split; reflexivity. Qed.
