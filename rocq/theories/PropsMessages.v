(** The texts of errors: C94.  The model is in Messages.v, the specification in MessageSpec.v and
    Spec.v; the proofs are in ThmMessages.v. *)
From Verif Require Import Base Storage Utf8 Tags TagSets Variants Items Index DocSpec Parser Calls Spec Hist Strconv
  Messages MessageSpec ThmTrie ThmMessages.
From stdpp Require Import list.
Open Scope N_scope.

(** Two words and a tag. *)
Definition ex_said : list op := [OAdd (runes_of_string (bytes_of "cat")); OTagID (bytes_of "NOUN") []; OAdd (runes_of_string (bytes_of "cod"))].

(** C94.  The text of the error of a lookup splits the word at the first letter that is not there,
    and determines both parts.  The text of the error of a tagging names the first tag that was not
    registered, and the parser says of the first bad form of a lemma what is wrong with it.  In
    everything but the text these functions are those of the other theorems. *)
Theorem C94_same : forall ix p w s id names lg fs,
  ((fetch_said ix p w).1, erase (fetch_said ix p w).2) = fetch_from_item ix p w /\
  ((add_said ix p w).1, erase (add_said ix p w).2) = add_to_node ix p w /\
  ((add_string_said ix s).1, erase (add_string_said ix s).2) = add_string ix s /\
  ((tag_said ix id names).1, erase (tag_said ix id names).2) = node_add_tag_set ix id names /\
  (lemma_said ix lg fs).1 = (lemma_loop ix lg fs).1 /\
  same_outcome (lemma_said ix lg fs).2 (lemma_loop ix lg fs).2.
Proof. exact l_C94_same. Qed.
Print Assumptions C94_same.
Theorem C94_lookup : forall h ix w, runs h ix -> (reloaded h = true -> head w <> Some 0%Z) -> w <> [] -> ~ present h w ->
  exists p r s, w = p ++ r :: s /\ (p = [] \/ present h p) /\ ~ present h (p ++ [r]) /\
    (fetch_said ix 0 w).2 = Failed (not_found_text p r).
Proof. exact l_C94_lookup. Qed.
Print Assumptions C94_lookup.
Theorem C94_lookup_tells : forall p r p' r', Forall scalar (r :: p) -> Forall scalar (r' :: p') ->
  not_found_text p r = not_found_text p' r' -> p = p' /\ r = r'.
Proof. exact l_C94_lookup_tells. Qed.
Print Assumptions C94_lookup_tells.
Theorem C94_unknown_tag : forall h ix id names t, runs h ix ->
  (tag_said ix id names).2 = Failed t <->
  exists a n b, names = a ++ n :: b /\ (forall x, x ∈ a -> x ∈ registered h) /\ n ∉ registered h /\ t = unknown_tag_text n.
Proof. exact l_C94_unknown_tag. Qed.
Print Assumptions C94_unknown_tag.
Theorem C94_no_parent : forall ix p w, w <> [] -> p <> 0 -> its_next (ix_items ix) <= p ->
  (add_said ix p w) = (ix, Failed (bytes_of "index: add: no parent: " ++ itoa p)).
Proof. exact l_C94_no_parent. Qed.
Print Assumptions C94_no_parent.
Theorem C94_lemma : forall h ix lg fs t g fs' ix', runs h ix ->
  Forall (fun f => f.1 <> [] /\ forall n, n ∈ lg ++ f.2 -> n ∈ registered h) fs ->
  runs (h ++ flat_map form_ops (map (with_lemma lg) fs) ++ [OAdd (runes_of_string t)]) ix' ->
  (t = [] -> (lemma_said ix lg (map some_form (fs ++ (t, g) :: fs'))).2 = Failed (bytes_of "index: index: empty word")) /\
  (forall a n b, t <> [] -> lg ++ g = a ++ n :: b -> (forall x, x ∈ a -> x ∈ registered h) -> n ∉ registered h ->
    (lemma_said ix lg (map some_form (fs ++ (t, g) :: fs'))).2 = Failed (bytes_of "add lemma variant: " ++ unknown_tag_text n)).
Proof. exact l_C94_lemma. Qed.
Print Assumptions C94_lemma.
Example C94_case : exists ix, runs ex_said ix /\
  (fetch_said ix 0 (runes_of_string (bytes_of "cart"))).2 = Failed (bytes_of "index: fetch: not found: `ca[r]`") /\
  (fetch_said ix 0 (runes_of_string (bytes_of "dog"))).2 = Failed (bytes_of "index: fetch: not found: `[d]`") /\
  (fetch_said ix 0 (runes_of_string (bytes_of "cats"))).2 = Failed (bytes_of "index: fetch: not found: `cat[s]`") /\
  (fetch_said ix 0 (runes_of_string (bytes_of "cod"))).2 = Fine 5 /\
  (add_said ix 9 [97%Z]).2 = Failed (bytes_of "index: add: no parent: 9") /\
  (tag_said ix 3 [bytes_of "NOUN"; bytes_of "x"; bytes_of "y"]).2 = Failed (bytes_of "index: add tag set: unknown tag: x") /\
  (tag_said ix 3 [bytes_of "NOUN"]).2 = Fine tt.
Proof. apply run_case. vm_compute. auto 10. Qed.
(** A lemma with a good form, then an empty one, or one with an unknown tag. *)
Example C94_lemma_case : exists ix, runs ex_said ix /\
  (lemma_said ix [bytes_of "NOUN"] (map some_form [(bytes_of "cat", []); ([], [])])).2 = Failed (bytes_of "index: index: empty word") /\
  (lemma_said ix [bytes_of "NOUN"] (map some_form [(bytes_of "cat", []); (bytes_of "cats", [bytes_of "plur"]); ([], [])])).2
    = Failed (bytes_of "add lemma variant: index: add tag set: unknown tag: plur").
Proof. apply run_case. vm_compute. auto. Qed.
(** The word of [C94_lemma] can be added. *)
Example C94_lemma_runs : exists ix, runs (ex_said ++
  flat_map form_ops (map (with_lemma [bytes_of "NOUN"]) [(bytes_of "cat", [])]) ++ [OAdd (runes_of_string (bytes_of "cats"))]) ix /\
  nodes_count ix = 6.
Proof. apply run_case. vm_compute. auto. Qed.
