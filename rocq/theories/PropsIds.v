(** Identifier packing (C01) and set comparison (C41). *)
From Verif Require Import Base Storage BaseFacts.
Open Scope N_scope.

(** C01.  Splitting undoes combining and combining undoes splitting. *)
Theorem C01_combine16_split hi lo : hi < 65536 -> lo < 65536 ->
  id32_upper (combine16 hi lo) = hi /\ id32_lower (combine16 hi lo) = lo /\
  combine16 hi lo < 4294967296.
Proof. exact (fun Hh Hl => conj (upper_combine16 hi lo Hh Hl) (conj (lower_combine16 hi lo Hh Hl) (combine16_lt hi lo Hh Hl))). Qed.
Print Assumptions C01_combine16_split.
Theorem C01_split16_combine x : x < 4294967296 -> combine16 (id32_upper x) (id32_lower x) = x.
Proof. exact (combine16_upper_lower x). Qed.
Print Assumptions C01_split16_combine.
Theorem C01_combine16_injective h1 l1 h2 l2 :
  h1 < 65536 -> l1 < 65536 -> h2 < 65536 -> l2 < 65536 ->
  combine16 h1 l1 = combine16 h2 l2 -> h1 = h2 /\ l1 = l2.
Proof. exact (combine16_inj h1 l1 h2 l2). Qed.
Print Assumptions C01_combine16_injective.
Theorem C01_combine8_split hi lo : hi < 256 -> lo < 256 ->
  id16_upper (combine8 hi lo) = hi /\ id16_lower (combine8 hi lo) = lo /\ combine8 hi lo < 65536.
Proof. exact (fun Hh Hl => conj (upper_combine8 hi lo Hh Hl) (conj (lower_combine8 hi lo Hh Hl) (combine8_lt hi lo Hh Hl))). Qed.
Print Assumptions C01_combine8_split.
Theorem C01_split8_combine x : x < 65536 -> combine8 (id16_upper x) (id16_lower x) = x.
Proof. exact (combine8_upper_lower x). Qed.
Print Assumptions C01_split8_combine.
Theorem C01_combine8_injective h1 l1 h2 l2 :
  h1 < 256 -> l1 < 256 -> h2 < 256 -> l2 < 256 ->
  combine8 h1 l1 = combine8 h2 l2 -> h1 = h2 /\ l1 = l2.
Proof. exact (combine8_inj h1 l1 h2 l2). Qed.
Print Assumptions C01_combine8_injective.
Example C01_case : combine16 65535 3 = 4294901763 /\ id32_upper 4294901763 = 65535 /\
  combine8 255 254 = 65534 /\ id16_lower 65534 = 254.
Proof. vm_compute. auto. Qed.

(** C41.  [EqualTo] is equality of sequences; on sorted ones equality as multisets. *)
Theorem C41_equal_to a b : equal_to a b = true <-> a = b.
Proof. exact (equal_to_true a b). Qed.
Print Assumptions C41_equal_to.
Theorem C41_equal_to_sorted a b :
  Sorted N.le a -> Sorted N.le b -> equal_to a b = true <-> a ≡ₚ b.
Proof. exact (equal_to_sorted a b). Qed.
Print Assumptions C41_equal_to_sorted.
Example C41_case : Sorted N.le [1; 2; 2] /\ equal_to [1; 2; 2] [1; 2; 2] = true /\
  equal_to [1; 2; 2] [1; 1; 2] = false /\ equal_to [1; 2] [1; 2; 3] = false.
Proof. split; [repeat constructor; discriminate|]. vm_compute. auto. Qed.
