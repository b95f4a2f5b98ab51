(** Who shares memory with the index: C66.  The proofs are in ThmShare.v; Share.v is the model with
    arrays and addresses. *)
From Verif Require Import Base Storage Bin Utf8 Tags TagSets Variants Items Index Spec Hist ThmTrie Share ThmShare.
From stdpp Require Import list gmap.
Open Scope N_scope.

(** C66.  Sets and collections are slices that the tables, the calls and the callers share, and they
    are sorted in place.  An index that this program made does not show it: every call answers and
    changes what it would if slices were values, and no array ever changes that a caller may hold.
    With an index file from elsewhere the collections may be unsorted.  Then tagging a word may put
    the sets of other words in another order, but it never takes a set away from them or adds one,
    and the tagged word has the sets it had and the new one, in order of their numbers. *)
Theorem C66_step : forall h o,
  h_ok h -> sorted_cols (view h) ->
  view (h_step h o).1 = (step (view h) o).1 /\ (h_step h o).2 = (step (view h) o).2 /\ h_ok (h_step h o).1 /\
  (o <> OReload -> sorted_cols (step (view h) o).1).
Proof. exact l_C66_step. Qed.
Print Assumptions C66_step.
Theorem C66_histories : forall h ix, runs h ix ->
  view (h_outs (h_of index_new) h).1 = ix /\ (h_outs (h_of index_new) h).2 = (outs index_new h).2.
Proof. exact l_C66_histories. Qed.
Print Assumptions C66_histories.
Theorem C66_no_guard : forall ix os, sorted_cols ix -> OReload ∉ os ->
  view (h_outs (h_of ix) os).1 = (outs ix os).1 /\ (h_outs (h_of ix) os).2 = (outs ix os).2.
Proof. exact l_C66_no_guard. Qed.
Print Assumptions C66_no_guard.
Theorem C66_any_file : forall ix os w names n it c,
  let h := (h_outs (h_of ix) os).1 in
  let h' := (h_outs (h_of ix) (os ++ [OTag w names])).1 in
  get_item (view h) n = Ok (Some it) -> variants_get (ix_cols (view h)) (it_variants it) = Ok c ->
  (fetch_runes (view h) w).2 <> Ok n ->
  get_item (view h') n = Ok (Some it) /\
  (exists c', variants_get (ix_cols (view h')) (it_variants it) = Ok c' /\ c' ≡ₚ c /\ (Sorted N.le c -> c' = c)) /\
  forall s ids, tagset_get (ix_sets (view h)) s = Some ids -> tagset_get (ix_sets (view h')) s = Some ids.
Proof. exact l_C66_any_file. Qed.
Print Assumptions C66_any_file.
Theorem C66_any_file_tags : forall ix os w names n it c l,
  let h := (h_outs (h_of ix) os).1 in
  let h' := (h_outs (h_of ix) (os ++ [OTag w names])).1 in
  get_item (view h) n = Ok (Some it) -> variants_get (ix_cols (view h)) (it_variants it) = Ok c ->
  (forall s, s ∈ c -> tagset_get (ix_sets (view h)) s <> None) ->
  (fetch_runes (view h) w).2 <> Ok n -> node_tag_sets (view h) n = Ok l ->
  exists l', node_tag_sets (view h') n = Ok l' /\ l' ≡ₚ l.
Proof. exact l_C66_any_file_tags. Qed.
Print Assumptions C66_any_file_tags.
Theorem C66_any_file_own : forall ix os w names id ids it,
  let h := (h_outs (h_of ix) os).1 in
  let h' := (h_outs (h_of ix) (os ++ [OTag w names])).1 in
  (fetch_runes (view h) w).2 = Ok id -> get_item (view h) id = Ok (Some it) ->
  names_to_ids (ix_tags (view h)) names = Ok ids -> ids <> [] ->
  (h_step h (OTag w names)).2 <> Panic -> caps (view h') = true ->
  exists old sid v, variants_get (ix_cols (view h)) (it_variants it) = Ok old /\
    (lenN old < 65535 ->
     tagset_get (ix_sets (view h')) sid = Some (go_sort ids) /\
     get_item (view h') id = Ok (Some (mkItem (it_parent it) (it_id it) (it_letter it) v)) /\
     variants_get (ix_cols (view h')) v = Ok (go_sort (if bool_decide (sid ∈ old) then old else sid :: old))).
Proof. exact l_C66_any_file_own. Qed.
Print Assumptions C66_any_file_own.
Theorem C66_held_slices : forall h ix os a, runs h ix -> OReload ∉ os ->
  (a < length (hx_mem (h_outs (h_of index_new) h).1))%nat ->
  deref (hx_mem (h_outs (h_of index_new) (h ++ os)).1) a = deref (hx_mem (h_outs (h_of index_new) h).1) a.
Proof. exact l_C66_held_slices. Qed.
Print Assumptions C66_held_slices.
Definition nm (k : N) : list N := [65; 65; 65; 48 + k].
Definition tg (k : N) : tag := mkTag (nm 9) (nm k).
(** Two words share a collection, one of them is tagged again, and unused collections go. *)
Definition ex_shared : list op :=
  [OTagID (nm 1) (nm 9); OTagID (nm 2) (nm 9); OAdd [97]%Z; OAdd [98]%Z; OTag [97]%Z [nm 2]; OTag [98]%Z [nm 2];
   OTag [98]%Z [nm 1]; OTag [97]%Z [nm 1]].
Example C66_case : exists ix, runs (ex_shared ++ [OTag [98]%Z [nm 1; nm 2]; OOptimize]) ix /\
  let x := (h_outs (h_of index_new) ex_shared).1 in
  let y := (h_outs (h_of index_new) (ex_shared ++ [OTag [98]%Z [nm 1; nm 2]; OOptimize])).1 in
  hx_cols x = [[2]; [7]]%nat /\ deref (hx_mem x) 7 = [0; 1] /\ deref (hx_mem y) 7 = [0; 1] /\
  node_tag_sets (view y) 1 = Ok [[tg 2]; [tg 1]] /\ node_tag_sets (view y) 2 = Ok [[tg 2]; [tg 1]; [tg 1; tg 2]] /\
  OReload ∉ [OTag [98]%Z [nm 1; nm 2]; OOptimize] /\ length (ix_cols ix) = 3%nat.
Proof. apply run_case. vm_compute. repeat (split; [done|]). split; [|done]. intros H. repeat (apply elem_of_cons in H as [H|H]; [done|]). by apply elem_of_nil in H. Qed.
(** A file with the collection 1, 0, which the words "a" and "b" have. *)
Definition ex_unsorted : index :=
  mkIndex [tg 1; tg 2] [[[0]; [1]]] [[]; [[1; 0]]]
    (mkItems [mkItem 0 0 0 0; mkItem 0 1 97 131072; mkItem 0 2 98 131072]%Z 3) ∅ 0.
Definition ex_file : list N := match index_write ex_unsorted with Ok (bs, None) => bs | _ => [] end.
Definition ex_loaded : index := match index_read index_new ex_file with Ok (ix, _) => ix | _ => index_new end.
Example C66_file_case :
  index_read index_new ex_file = Ok (ex_loaded, []) /\ ix_cols ex_loaded = [[]; [[1; 0]]] /\
  let x := (h_outs (h_of ex_loaded) [OTagID (nm 3) (nm 9)]).1 in
  let y := (h_outs (h_of ex_loaded) ([OTagID (nm 3) (nm 9)] ++ [OTag [97]%Z [nm 3; nm 1]])).1 in
  (fetch_runes (view x) [97]%Z).2 = Ok 1 /\ names_to_ids (ix_tags (view x)) [nm 3; nm 1] = Ok [2; 0] /\ caps (view y) = true /\
  (h_step x (OTag [97]%Z [nm 3; nm 1])).2 = Ok 0 /\
  node_tag_sets (view y) 1 = Ok [[tg 1]; [tg 2]; [tg 1; tg 3]] /\ node_tag_sets (view y) 2 = Ok [[tg 2]; [tg 1]].
Proof. vm_compute. repeat (split; [done|]). done. Qed.
(** "a" is tagged with a set it has, which looks like nothing; the sets of "b" change their order. *)
Theorem C66_others_order_refuted : exists bs ix,
  index_read index_new bs = Ok (ix, []) /\ (fetch_runes ix [98]%Z).2 = Ok 2 /\
  node_tag_sets (view (h_of ix)) 2 = Ok [[tg 2]; [tg 1]] /\
  (h_step (h_of ix) (OTag [97]%Z [nm 1])).2 = Ok 0 /\
  node_tag_sets (view (h_step (h_of ix) (OTag [97]%Z [nm 1])).1) 2 = Ok [[tg 1]; [tg 2]].
Proof. exists ex_file, ex_loaded. split; [vm_compute; reflexivity|]. vm_compute. repeat (split; [done|]). done. Qed.
Print Assumptions C66_others_order_refuted.
(** What is handed out is the memory of the index: a caller that writes into the slice that
    [Variants] returned for "a" changes the tags of "b". *)
Theorem C66_caller_writes_refuted : exists h ix, runs h ix /\
  let x := (h_outs (h_of index_new) h).1 in
  h_variants_get (hx_mem x) (hx_cols x) 131072 = Ok (hx_mem x, 7%nat) /\
  node_tag_sets (view x) 2 = Ok [[tg 2]; [tg 1]] /\
  node_tag_sets (view (mkHix (h_write (hx_mem x) 7 0 1) (hx_sets x) (hx_cols x) (hx_ix x))) 2 = Ok [[tg 1]; [tg 1]].
Proof. exists ex_shared. apply run_case. vm_compute. repeat (split; [done|]). done. Qed.
Print Assumptions C66_caller_writes_refuted.
