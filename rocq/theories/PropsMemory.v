(** Memory while loading: C72.  The proofs are in ThmMemory.v. *)
From Verif Require Import Base Storage Bin Utf8 Tags TagSets Variants Items Index Spec Hist ThmTrie BinFacts Memory ThmMemory.
From stdpp Require Import list gmap.
Open Scope N_scope.

(** C72.  Loading a file that is accepted asks for exactly the memory of the index it describes, and
    that is at most 24 bytes for every byte read.  For a file that is rejected there is no such
    bound, because every slice is made before its first element is read: 11 bytes are enough to
    ask for 96 GiB.  What is asked for in vain is at most 103080788175 bytes, and 14 bytes are
    enough for that. *)
Theorem C72_same_reader : forall ix bs, (m_index ix bs).2 = index_read ix bs.
Proof. exact l_C72_same_reader. Qed.
Print Assumptions C72_same_reader.
Theorem C72_accepted : forall bs ix rest, Forall (fun b => b < 256) bs -> index_read index_new bs = Ok (ix, rest) ->
  asked bs = index_size ix /\ index_size ix + 24 * lenN rest <= 24 * lenN bs.
Proof. exact l_C72_accepted. Qed.
Print Assumptions C72_accepted.
Theorem C72_any_file : forall bs, Forall (fun b => b < 256) bs -> asked bs <= 24 * lenN bs + 103080788175.
Proof. exact l_C72_any_file. Qed.
Print Assumptions C72_any_file.
(** The word "aж" with two tags: 2 tags, a set of 2, a collection of 1, 3 nodes. *)
Definition ex_words : list op :=
  [OTagID (bytes_of "NOUN") []; OTagID (bytes_of "sing") (bytes_of "NMbr");
   OAdd [97; 1078]%Z; OTag [97; 1078]%Z [bytes_of "NOUN"; bytes_of "sing"]].
Definition ex_file : list N :=
  match run ex_words with Some ix => match index_write ix with Ok (bs, None) => bs | _ => [] end | None => [] end.
Example C72_case :
  lenN ex_file = 102 /\ asked ex_file = 238 /\
  match index_read index_new ex_file with Ok (ix, []) => index_size ix = 238 /\ lenN (ix_tags ix) = 2 | _ => False end.
Proof. vm_compute. done. Qed.
(** The last byte is missing: the same memory was asked for before this was noticed. *)
Example C72_truncated_case : asked (take 101 ex_file) = 238 /\ index_read index_new (take 101 ex_file) = Err EIndex.
Proof. by vm_compute. Qed.
(** "TD", no tags, "TI", and the count of set tables. *)
Definition ex_greedy : list N := bytes_of "TD" ++ [0; 0] ++ bytes_of "TI" ++ [0; 255; 255; 255; 255].
Theorem C72_short_file_refuted :
  lenN ex_greedy = 11 /\ asked ex_greedy = 24 * (2 ^ 32 - 1) /\ index_read index_new ex_greedy = Err EIndex.
Proof. by vm_compute. Qed.
Print Assumptions C72_short_file_refuted.
(** The bound of C72_any_file is reached. *)
Theorem C72_bound_reached :
  lenN (ex_greedy ++ [255; 255; 255]) = 14 /\ asked (ex_greedy ++ [255; 255; 255]) = 103080788175.
Proof. by vm_compute. Qed.
Print Assumptions C72_bound_reached.
