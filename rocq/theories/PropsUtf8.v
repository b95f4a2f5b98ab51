(** UTF-8 conversion: C09.  The proofs are in ThmUtf8.v. *)
From Verif Require Import Base Utf8 Spec ThmUtf8.
From stdpp Require Import list.
Open Scope N_scope.

(** C09.  [wf_utf8] is table 3-7 of the Unicode Standard, [scalar] are the Unicode scalar
    values (Spec.v). *)
Theorem C09_runes_round_trip : forall rs, Forall scalar rs ->
  wf_utf8 (string_of_runes rs) /\ runes_of_string (string_of_runes rs) = rs.
Proof. exact l_C09_runes_round_trip. Qed.
Print Assumptions C09_runes_round_trip.
Theorem C09_string_round_trip : forall s, string_of_runes (runes_of_string s) = s <-> wf_utf8 s.
Proof. exact l_C09_string_round_trip. Qed.
Print Assumptions C09_string_round_trip.
Theorem C09_distinct : forall s t, wf_utf8 s -> wf_utf8 t -> runes_of_string s = runes_of_string t -> s = t.
Proof. exact l_C09_distinct. Qed.
Print Assumptions C09_distinct.
Theorem C09_ill_formed : forall s, ~ wf_utf8 s -> 0xFFFD%Z ∈ runes_of_string s.
Proof. exact l_C09_ill_formed. Qed.
Print Assumptions C09_ill_formed.
Theorem C09_ill_formed_collide_refuted : exists s t, s <> t /\ runes_of_string s = runes_of_string t.
Proof. exists [0xFF], [0xFE]. split; [discriminate|reflexivity]. Qed.
Print Assumptions C09_ill_formed_collide_refuted.
Example C09_case :
  runes_of_string [0xF0; 0x9F; 0x90; 0x88; 0xD1; 0x8B; 0xE2; 0x82; 0xAC] = [0x1F408; 0x44B; 0x20AC]%Z /\
  string_of_runes [0x1F408; 0x44B; 0x20AC]%Z = [0xF0; 0x9F; 0x90; 0x88; 0xD1; 0x8B; 0xE2; 0x82; 0xAC] /\
  runes_of_string [0x61; 0xC0; 0x80; 0xE2; 0x82] = [0x61; 0xFFFD; 0xFFFD; 0xFFFD; 0xFFFD]%Z.
Proof. vm_compute. auto. Qed.
