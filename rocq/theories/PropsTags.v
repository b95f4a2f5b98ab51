(** Tag sets and optimisation: C16-C22.  The proofs are in ThmTags.v. *)
From Verif Require Import Base Storage Bin Utf8 Tags TagSets Variants Items Index Spec Hist ThmTrie ThmTags.
From stdpp Require Import list.
Open Scope N_scope.

(** A history used in the examples: two words sharing tag sets, one tagged three times (twice
    with the same tags in another order), tags under parents. *)
Definition ex_a : list Z := [97]%Z.
Definition ex_ab : list Z := [97; 98]%Z.
Definition ex_noun := bytes_of "NOUN".
Definition ex_sing := bytes_of "sing".
Definition ex_masc := bytes_of "masc".
Definition ex_t : list op :=
  [OAdd ex_ab; OTagID ex_noun []; OTagID ex_sing (bytes_of "NMbr"); OTagID ex_masc (bytes_of "GNdr");
   OTag ex_ab [ex_sing; ex_noun]; OTag ex_a [ex_noun; ex_sing]; OTag ex_ab [ex_masc];
   OTag ex_ab [ex_noun; ex_sing]].
Definition rmap {A B} (f : A -> B) (r : res A) : res B := a ← r; Ok (f a).

(** C16.  The tag sets of a word are exactly those attached to it: each returned set is an
    attached list up to order, each attached list is returned, none twice; tags come in the
    order of their identifiers and carry the parent of their first registration. *)
Theorem C16_tag_sets_exact : forall h ix w id,
  runs h ix -> (reloaded h = true -> head w <> Some 0%Z) -> (fetch_runes ix w).2 = Ok id ->
  exists sets, node_tag_sets ix id = Ok sets /\
    (forall s, s ∈ sets -> exists names, attached h w names /\ map tag_name s ≡ₚ names) /\
    (forall names, attached h w names -> exists s, s ∈ sets /\ map tag_name s ≡ₚ names) /\
    (forall i j s s', sets !! i = Some s -> sets !! j = Some s' ->
       map tag_name s ≡ₚ map tag_name s' -> i = j) /\
    (forall s, s ∈ sets -> Sorted N.le (map (fun t => (index_tag_id ix (tag_name t) []).2) s)) /\
    (forall s t, s ∈ sets -> t ∈ s -> exists p, first_registered h (tag_name t) p /\
       tag_parent t = or_dashes p).
Proof. exact l_C16_tag_sets_exact. Qed.
Print Assumptions C16_tag_sets_exact.
Example C16_case : exists ix, runs ex_t ix /\ (fetch_runes ix ex_ab).2 = Ok 2 /\
  rmap (map (map tag_name)) (node_tag_sets ix 2) = Ok [[ex_masc]; [ex_noun; ex_sing]] /\
  rmap (map (map tag_parent)) (node_tag_sets ix 2) = Ok [[bytes_of "GNdr"]; [bytes_of "----"; bytes_of "NMbr"]].
Proof. apply run_case. vm_compute. auto. Qed.

(** C17.  [AddTagSet] on one word leaves every other word as it was. *)
Theorem C17_other_words_untouched : forall h w names ix ix',
  runs h ix -> runs (h ++ [OTag w names]) ix' ->
  nodes_count ix' = nodes_count ix /\
  (forall w', (reloaded h = true -> head w' <> Some 0%Z) -> (fetch_runes ix' w').2 = (fetch_runes ix w').2) /\
  (forall w' id, (reloaded h = true -> head w' <> Some 0%Z) -> w' <> w -> (fetch_runes ix w').2 = Ok id ->
     node_tag_sets ix' id = node_tag_sets ix id /\ node_word ix' id = node_word ix id).
Proof. exact l_C17_other_words_untouched. Qed.
Print Assumptions C17_other_words_untouched.
Example C17_case : exists ix ix', runs ex_t ix /\ runs (ex_t ++ [OTag ex_a [ex_masc]]) ix' /\
  rmap (map (map tag_name)) (node_tag_sets ix 1) = Ok [[ex_noun; ex_sing]] /\
  rmap (map (map tag_name)) (node_tag_sets ix' 1) = Ok [[ex_masc]; [ex_noun; ex_sing]] /\
  rmap (map (map tag_name)) (node_tag_sets ix' 2) = rmap (map (map tag_name)) (node_tag_sets ix 2).
Proof. apply run_case2. vm_compute. auto. Qed.

(** C18.  A name that was never registered makes [AddTagSet] fail and leave the index as it
    was; if all are registered it succeeds. *)
Theorem C18_unregistered : forall h ix id names n,
  runs h ix -> n ∈ names -> n ∉ registered h -> node_add_tag_set ix id names = (ix, Err EIndex).
Proof. exact l_C18_unregistered. Qed.
Print Assumptions C18_unregistered.
Theorem C18_registered : forall h ix id names,
  runs h ix -> id <> 0 -> id <= nodes_count ix -> (forall n, n ∈ names -> n ∈ registered h) ->
  (node_add_tag_set ix id names).2 = Ok tt.
Proof. exact l_C18_registered. Qed.
Print Assumptions C18_registered.
Example C18_case : (exists ix, runs ex_t ix /\ (node_add_tag_set ix 2 [ex_noun; bytes_of "VERB"]).2 = Err EIndex /\
  (node_add_tag_set ix 2 [ex_noun; ex_masc]).2 = Ok tt) /\ bytes_of "VERB" ∉ registered ex_t.
Proof.
  split; [apply run_case; vm_compute; auto|]. cbn. rewrite !not_elem_of_cons. repeat split; try discriminate.
  apply not_elem_of_nil.
Qed.

(** C19, refuted.  Once any word carries a set of one tag, attaching the empty list to any
    word whatsoever gives that word a set of one tag, which nobody attached to it. *)
Theorem C19_empty_list_attaches_refuted : forall h ix w id w0 n ix' r,
  runs h ix -> (reloaded h = true -> head w <> Some 0%Z) -> (fetch_runes ix w).2 = Ok id ->
  attached h w0 [n] ->
  node_add_tag_set ix id [] = (ix', r) -> caps ix' = true ->
  r = Ok tt /\
  exists sets t, node_tag_sets ix' id = Ok sets /\ [t] ∈ sets /\ tag_name t ∈ registered h.
Proof. exact l_C19_empty_list_attaches_refuted. Qed.
Print Assumptions C19_empty_list_attaches_refuted.
Example C19_case : exists ix, runs ex_t ix /\
  rmap (map (map tag_name)) (node_tag_sets ix 1) = Ok [[ex_noun; ex_sing]] /\
  (node_add_tag_set ix 1 []).2 = Ok tt /\ caps (node_add_tag_set ix 1 []).1 = true /\
  rmap (map (map tag_name)) (node_tag_sets (node_add_tag_set ix 1 []).1 1) = Ok [[ex_masc]; [ex_noun; ex_sing]].
Proof. apply run_case. vm_compute. auto. Qed.

(** C20.  [WordsCount] is the number of distinct words that a tag list was attached to. *)
Theorem C20_words_count : forall h ix, runs h ix ->
  exists l, NoDup l /\ (forall w, w ∈ l <-> exists names, attached h w names) /\ words_count ix = lenN l.
Proof. exact l_C20_words_count. Qed.
Print Assumptions C20_words_count.
Example C20_case : exists ix, runs ex_t ix /\ words_count ix = 2 /\ nodes_count ix = 2.
Proof. apply run_case. vm_compute. auto. Qed.

(** C21.  [Optimize] succeeds and answers no query differently. *)
Theorem C21_optimize_invisible : forall h ix, runs h ix ->
  exists ix', optimize ix = Ok ix' /\
    nodes_count ix' = nodes_count ix /\ words_count ix' = words_count ix /\
    (forall w, (fetch_runes ix' w).2 = (fetch_runes ix w).2) /\
    (forall id, index_get ix' id = index_get ix id) /\
    (forall id, node_word ix' id = node_word ix id) /\
    (forall id, node_tag_sets ix' id = node_tag_sets ix id) /\
    (forall id, get_children_map ix' id = get_children_map ix id).
Proof. exact l_C21_optimize_invisible. Qed.
Print Assumptions C21_optimize_invisible.
(** It does drop a collection here: the collection of one set that both words had at first is
    used by nobody at the end. *)
Example C21_case : exists ix, runs (ex_t ++ [OTag ex_a [ex_masc]]) ix /\ lenN (known_id (ix_cols ix)) = 2 /\
  rmap (fun ix' => lenN (known_id (ix_cols ix'))) (optimize ix) = Ok 1.
Proof. apply run_case. vm_compute. auto. Qed.

(** C22.  After [Optimize] the stored collections are exactly those used by words, each used
    one is found and non-empty, and a second [Optimize] changes nothing at all. *)
Theorem C22_optimize_exact : forall h ix, runs h ix ->
  exists ix', optimize ix = Ok ix' /\
    (forall v, v ∈ known_id (ix_cols ix') <-> used_by_a_word ix' v) /\
    (forall v, used_by_a_word ix' v -> exists c, variants_get (ix_cols ix') v = Ok c /\ c <> []) /\
    optimize ix' = Ok ix'.
Proof. exact l_C22_optimize_exact. Qed.
Print Assumptions C22_optimize_exact.
Example C22_case : exists ix, runs (ex_t ++ [OTag ex_a [ex_masc]; OOptimize]) ix /\ lenN (known_id (ix_cols ix)) = 1.
Proof. apply run_case. vm_compute. auto. Qed.
