(** Slices that callers of pkg/storage keep: C68.  The proofs are in ThmLend.v; Lend.v is the model
    with arrays and addresses, Storage.v the model with values. *)
From Verif Require Import Base Storage Share Lend ThmLend.
From stdpp Require Import list.
Open Scope N_scope.

(** C68.  [Collection8x8] and [Collection16] keep the slices they are given.  As long as the caller
    does not write into a slice that was kept, every call answers as if the collection had copies.
    Whatever the caller writes: a slice is kept once, under the number it was given; sets never
    change their size; [Index] never fails on a set with elements, and its number gives that set
    back, sorted.  A write into a kept slice shows in [Get]. *)
Theorem C68_sizes : forall w os c i a, let s := l_after w lent_new os in
  le_col s !! c ≫= (.!! i) = Some a -> length (deref (le_mem s) a) = S c.
Proof. exact l_C68_sizes. Qed.
Print Assumptions C68_sizes.
Theorem C68_once : forall w os, NoDup (concat (le_col (l_after w lent_new os))).
Proof. exact l_C68_once. Qed.
Print Assumptions C68_once.
Theorem C68_stable : forall w os os' id a,
  l_get w (l_after w lent_new os) id = Some a -> l_get w (l_after w lent_new (os ++ os')) id = Some a.
Proof. exact l_C68_stable. Qed.
Print Assumptions C68_stable.
Theorem C68_found_now : forall w os a, let s := l_after w lent_new os in deref (le_mem s) a <> [] ->
  exists s' id, l_do w s (LIndex a) = (s', LId id) /\
    (l_room w s' -> (l_do w s' (LGet id)).2 = LSet (Some (go_sort (deref (le_mem s) a)))).
Proof. exact l_C68_found_now. Qed.
Print Assumptions C68_found_now.
Theorem C68_copies : forall w os, polite w lent_new os = true -> l_says w lent_new os = v_says w ([], []) os.
Proof. exact l_C68_copies. Qed.
Print Assumptions C68_copies.
Theorem C68_write_seen : forall w os id a i v, let s := l_after w lent_new os in
  l_get w s id = Some a ->
  (l_do w (l_do w s (LWrite a i v)).1 (LGet id)).2 = LSet (Some (<[i := v]> (deref (le_mem s) a))).
Proof. exact l_C68_write_seen. Qed.
Print Assumptions C68_write_seen.
(** Three slices, one written to before it is given away, one a permutation of another. *)
Definition ex_polite : list lop :=
  [LMake [7; 3]; LMake [1; 1]; LWrite 1 0 3; LWrite 1 1 7; LIndex 1; LRead 1; LIndex 0; LWrite 0 0 5; LMake [5]; LIndex 0; LIndex 2;
   LGet 256; LGet 257; LGet 0; LGet 2; LFind 0; LMake [9; 9]; LFind 3].
Example C68_case : polite W8 lent_new ex_polite = true /\
  l_says W8 lent_new ex_polite =
    [LDone; LDone; LDone; LDone; LId 256; LSet (Some [3; 7]); LId 256; LDone; LDone; LId 257; LId 0;
     LSet (Some [3; 7]); LSet (Some [5; 7]); LSet (Some [5]); LSet None; LFound (Some 257); LDone; LFound None] /\
  le_col (l_after W8 lent_new ex_polite) = [[2]; [1; 0]]%nat /\ l_room W8 (l_after W8 lent_new ex_polite).
Proof. split; [vm_compute; reflexivity|]. split; [vm_compute; reflexivity|]. split; [vm_compute; reflexivity|]. split; [vm_compute; discriminate|]. vm_compute. repeat constructor; discriminate. Qed.
Example C68_case16 : polite W16 lent_new ex_polite = true /\
  firstn 11 (l_says W16 lent_new ex_polite) =
    [LDone; LDone; LDone; LDone; LId 65536; LSet (Some [3; 7]); LId 65536; LDone; LDone; LId 65537; LId 0].
Proof. vm_compute. done. Qed.
(** The number 256 after a write into the slice that was kept: the set is not found any more, it is
    given a second number, and then two numbers stand for one set. *)
Definition ex_rude : list lop :=
  [LMake [3; 7]; LMake [3; 7]; LIndex 0; LWrite 0 1 8; LFind 1; LGet 256; LIndex 1; LWrite 0 1 7; LGet 256; LGet 257].
Theorem C68_writes_refuted : exists os, polite W8 lent_new os = false /\
  l_says W8 lent_new os =
    [LDone; LDone; LId 256; LDone; LFound None; LSet (Some [3; 8]); LId 257; LDone; LSet (Some [3; 7]); LSet (Some [3; 7])] /\
  v_says W8 ([], []) os =
    [LDone; LDone; LId 256; LDone; LFound (Some 256); LSet (Some [3; 7]); LId 256; LDone; LSet (Some [3; 7]); LSet None].
Proof. exists ex_rude. vm_compute. done. Qed.
Print Assumptions C68_writes_refuted.
(** What a caller gave away changes under its hands too: [Index] sorts it. *)
Theorem C68_argument_sorted_refuted : exists os, l_says W8 lent_new os = [LDone; LSet (Some [7; 3]); LId 256; LSet (Some [3; 7])].
Proof. exists [LMake [7; 3]; LRead 0; LIndex 0; LRead 0]. vm_compute. done. Qed.
Print Assumptions C68_argument_sorted_refuted.
