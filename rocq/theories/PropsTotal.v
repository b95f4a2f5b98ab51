(** Histories within the limits: C59.  The proofs are in ThmTotal.v. *)
From Verif Require Import Base Storage Utf8 Tags TagSets Variants Items Index Spec Hist
  BaseFacts Limits ThmTotal.
From stdpp Require Import list gmap.
Open Scope N_scope.

(** C59.  A history within the limits of Limits.v runs: no call leaves the range in which the
    index is known to follow the abstract dictionary, every call answers what the abstract
    dictionary answers, and no call panics. *)
Theorem C59_runs : forall h, modest (reloaded h) h -> runs h (outs index_new h).1.
Proof. exact l_C59_runs. Qed.
Print Assumptions C59_runs.
Theorem C59_answers : forall h, modest (reloaded h) h -> (outs index_new h).2 = d_outs d_empty h.
Proof. exact l_C59_answers. Qed.
Print Assumptions C59_answers.
Theorem C59_no_panic : forall h, modest (reloaded h) h -> Panic ∉ (outs index_new h).2.
Proof. exact l_C59_no_panic. Qed.
Print Assumptions C59_no_panic.
Theorem C59_no_limit_on_calls : forall b h w names n, modest b (h ++ [OTag w names]) ->
  modest b (h ++ replicate n (OTag w names)).
Proof. exact l_C59_no_limit_on_calls. Qed.
Print Assumptions C59_no_limit_on_calls.
Definition ex_total : list op :=
  [OTagID (bytes_of "NOUN") []; OTagID (bytes_of "sing") (bytes_of "NMbr"); OTagID (bytes_of "NOUN") [];
   OTag [97]%Z [bytes_of "NOUN"]; OAdd [97; 98]%Z; OAdd []; OTag [97; 98]%Z [bytes_of "sing"; bytes_of "NOUN"];
   OTag [97; 98]%Z [bytes_of "plur"]; OOptimize; OReload; OFetch [97; 98]%Z; OFetch [98]%Z; OTag [97]%Z [bytes_of "sing"];
   OAdd [98; 1078]%Z; OReload; OFetch [97]%Z; OFetch [98; 1078]%Z].
Example C59_within : modest (reloaded ex_total) ex_total.
Proof. apply modestb_modest. vm_compute. reflexivity. Qed.
Example C59_case : (outs index_new ex_total).2 =
  [Ok 0; Ok 1; Ok 0; Err EIndex; Ok 2; Err EIndex; Ok 0; Err EIndex; Ok 0; Ok 0; Ok 2; Err EIndex; Ok 0; Ok 4; Ok 0; Ok 1; Ok 4] /\
  d_outs d_empty ex_total = (outs index_new ex_total).2.
Proof. vm_compute. split; reflexivity. Qed.
(** The number of AddTagSet calls is not limited: only what they attach counts. *)
Definition ex_before : list op := [OTagID (bytes_of "NOUN") []; OAdd [97; 98]%Z].
Example C59_million : modest true (ex_before ++ replicate (N.to_nat 1000000) (OTag [97; 98]%Z [bytes_of "NOUN"])).
Proof. apply C59_no_limit_on_calls, modestb_modest. vm_compute. reflexivity. Qed.
