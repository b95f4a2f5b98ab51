(** An index after a read that failed: C80.  The proofs are in ThmFill.v; what is left is specified at
    the end of Fill.v. *)
From Verif Require Import Base Storage Bin Tags TagSets Variants Items Index Spec Hist ThmTrie Fill ThmFill.
From stdpp Require Import list.
Open Scope N_scope.

(** C80.  Reading in place succeeds and fails exactly as described by [index_read].  After a failure
    the parts before the failing one are those of the file, those after it are the old ones, and
    the failing one is untouched or announced, read in part and zero for the rest; the letters and
    the word counter are the old ones.  A file that does not begin as an index changes nothing.
    Another read gives the same as without the failed one. *)
Theorem C80_same_result : forall ix bs,
  index_read ix bs = match fill_index ix bs with (ix', Ok rest) => Ok (ix', rest) | (_, Err e) => Err e | (_, Panic) => Panic end.
Proof. exact l_C80_same_result. Qed.
Print Assumptions C80_same_result.
Theorem C80_kept : forall ix bs ix' e, fill_index ix bs = (ix', Err e) ->
  ix_children ix' = ix_children ix /\ ix_words ix' = ix_words ix.
Proof. exact l_C80_kept. Qed.
Print Assumptions C80_kept.
Theorem C80_try_again : forall ix bs ix' e, fill_index ix bs = (ix', Err e) -> forall bs2, index_read ix' bs2 = index_read ix bs2.
Proof. exact l_C80_try_again. Qed.
Print Assumptions C80_try_again.
Theorem C80_left_over : forall ix bs ix' e, fill_index ix bs = (ix', Err e) -> left_over ix bs ix'.
Proof. exact l_C80_left_over. Qed.
Print Assumptions C80_left_over.
Theorem C80_other_file : forall ix bs, (forall rest, bs <> bytes_of "TD" ++ 0 :: rest) -> exists e, fill_index ix bs = (ix, Err e).
Proof. exact l_C80_other_file. Qed.
Print Assumptions C80_other_file.
(** The dictionaries of the examples, and the second one's file. *)
Definition ex_old : list op := [OTagID (bytes_of "NOUN") []; OAdd [97; 98]%Z; OTag [97; 98]%Z [bytes_of "NOUN"]].
Definition ex_new : list op := [OTagID (bytes_of "VERB") []; OAdd [99; 100; 101]%Z; OTag [99; 100; 101]%Z [bytes_of "VERB"]].
Definition ex_file : list N :=
  match run ex_new with Some ix => match index_write ix with Ok (bs, None) => bs | _ => [] end | None => [] end.
Example C80_case : exists ix, runs ex_old ix /\ length ex_file = 107%nat /\
  is_err (fill_index ix (take 3 ex_file)).2 = true /\ map tag_name (ix_tags (fill_index ix (take 3 ex_file)).1) = [bytes_of "NOUN"] /\
  map tag_name (ix_tags (fill_index ix (take 4 ex_file)).1) = [[]] /\
  map tag_name (ix_tags (fill_index ix (take 40 ex_file)).1) = [bytes_of "VERB"] /\
  take 3 (map it_letter (its_list (ix_items (fill_index ix (take 40 ex_file)).1))) = [0; 97; 98]%Z /\
  length (its_list (ix_items (fill_index ix (take 60 ex_file)).1)) = 4%nat /\
  is_ok (fill_index ix ex_file).2 = true.
Proof. apply run_case. vm_compute. auto 20. Qed.
(** After a failed read a known word can be found and be spelled differently, and asking for its tags
    can panic. *)
Theorem C80_spelled_differently_refuted : exists ix bs ix', runs ex_old ix /\ fill_index ix bs = (ix', Err EIndex) /\
  (fetch_runes ix' [97; 98]%Z).2 = Ok 2 /\ node_word ix' 2 = Ok [99; 100].
Proof.
  assert (H : exists ix, runs ex_old ix /\ (fill_index ix (take 90 ex_file)).2 = Err EIndex /\
    (fetch_runes (fill_index ix (take 90 ex_file)).1 [97; 98]%Z).2 = Ok 2 /\ node_word (fill_index ix (take 90 ex_file)).1 2 = Ok [99; 100])
    by (apply run_case; vm_compute; auto).
  destruct H as (ix & R & H1 & H2 & H3). exists ix, (take 90 ex_file), (fill_index ix (take 90 ex_file)).1.
  split; [exact R|]. split; [|exact (conj H2 H3)]. rewrite <- H1. apply surjective_pairing.
Qed.
Print Assumptions C80_spelled_differently_refuted.
Theorem C80_tags_panic_refuted : exists ix bs ix', runs ex_old ix /\ fill_index ix bs = (ix', Err EIndex) /\
  (fetch_runes ix' [97; 98]%Z).2 = Ok 2 /\ node_tag_sets ix' 2 = Panic.
Proof.
  assert (H : exists ix, runs ex_old ix /\ (fill_index ix (take 30 ex_file)).2 = Err EIndex /\
    (fetch_runes (fill_index ix (take 30 ex_file)).1 [97; 98]%Z).2 = Ok 2 /\ node_tag_sets (fill_index ix (take 30 ex_file)).1 2 = Panic)
    by (apply run_case; vm_compute; auto).
  destruct H as (ix & R & H1 & H2 & H3). exists ix, (take 30 ex_file), (fill_index ix (take 30 ex_file)).1.
  split; [exact R|]. split; [|exact (conj H2 H3)]. rewrite <- H1. apply surjective_pairing.
Qed.
Print Assumptions C80_tags_panic_refuted.
