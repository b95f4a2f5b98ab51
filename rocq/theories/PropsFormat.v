(** How numbers are printed: C93.  The formats are in Strconv.v and Screen.v, the specification in
    FormatSpec.v; the proofs are in ThmFormat.v. *)
From Verif Require Import Base Strconv Screen FormatSpec ThmFormat.
From stdpp Require Import list.
Open Scope N_scope.

(** C93.  The numbers in the output of the browser and in the String methods are written as the
    shortest numerals in base 10 or 16, with a minus sign exactly below zero, and with as many zeros
    in front as the width asks for.  Nothing is lost: the printed text determines the number. *)
Theorem C93_naturals : forall n s, (s = itoa n <-> numeral 10 s n) /\ (s = hex n <-> numeral 16 s n).
Proof. exact l_C93_naturals. Qed.
Print Assumptions C93_naturals.
Theorem C93_integers : forall z s, (s = fmt_d z <-> signed 10 s z) /\ (s = fmt_X z <-> signed 16 s z).
Proof. exact l_C93_integers. Qed.
Print Assumptions C93_integers.
Theorem C93_padded : forall width n s, s = fmt_0d width n <-> padded 10 width s n.
Proof. exact l_C93_padded. Qed.
Print Assumptions C93_padded.
Theorem C93_one_number : forall b s, 0 < b -> (forall y z, signed b s y -> signed b s z -> y = z) /\
  (forall w m n, padded b w s m -> padded b w s n -> m = n).
Proof. exact l_C93_one_number. Qed.
Print Assumptions C93_one_number.
Example C93_case :
  map itoa [0; 7; 10; 4294967295] = map bytes_of ["0"; "7"; "10"; "4294967295"]%string /\
  map fmt_d [0; -1; 42]%Z = map bytes_of ["0"; "-1"; "42"]%string /\
  map fmt_X [0; -255; 65536]%Z = map bytes_of ["0"; "-FF"; "10000"]%string /\
  map (fmt_0d 3) [0; 42; 1000] = map bytes_of ["000"; "042"; "1000"]%string.
Proof. vm_compute. repeat split; reflexivity. Qed.
(** The numeral of 31 in base 16; 0F is not one. *)
Example C93_numeral_case : numeral 16 (bytes_of "1F") 31 /\ forall n, ~ numeral 16 (bytes_of "0F") n.
Proof.
  split.
  - apply (num_snoc 16 (bytes_of "1") 1 15 70); [by apply (num_one 16 1 49)|done|done|done].
  - intros n H. apply num_head in H as [_ H]; [|done]. by specialize (H eq_refl).
Qed.
