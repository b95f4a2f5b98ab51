(** The format of the index file: C67.  The proofs are in ThmFile.v; FileSpec.v is the grammar. *)
From Verif Require Import Base Storage Bin Utf8 Tags TagSets Variants Items Index Spec Hist ThmTrie BinFacts Foreign FileSpec ThmFile.
From stdpp Require Import list gmap.
Open Scope N_scope.

(** C67.  The index file as a grammar of bytes, apart from any program: four sections with their
    headers, counts of fixed widths, numbers with the most significant byte first.  The reader
    accepts exactly the byte strings that begin with a file of the grammar, takes that file and no
    byte more, and its tables are what the grammar says.  The writer produces a file of the grammar
    with the content of the index.  No file stands for two contents, and no file is the beginning
    of another. *)
Theorem C67_reader : forall ix0 bs rest c, bytes bs ->
  (exists ix, index_read ix0 bs = Ok (ix, rest) /\ content_of ix = c) <-> (exists p, bs = p ++ rest /\ file_form c p).
Proof. exact l_C67_reader. Qed.
Print Assumptions C67_reader.
Theorem C67_unambiguous : forall c c' p q, bytes (p ++ q) -> file_form c p -> file_form c' (p ++ q) -> c = c' /\ q = [].
Proof. exact l_C67_unambiguous. Qed.
Print Assumptions C67_unambiguous.
Theorem C67_size : forall c p, file_form c p -> length p = file_size c.
Proof. exact l_C67_size. Qed.
Print Assumptions C67_size.
Theorem C67_writer : forall h ix bs, runs h ix -> disk_caps ix = true -> index_write ix = Ok (bs, None) ->
  bytes bs /\ file_form (saved_content ix) bs.
Proof. exact l_C67_writer. Qed.
Print Assumptions C67_writer.
(** The word "aж" with the tags NOUN, without a parent, and sing of NMbr: all 102 bytes. *)
Definition ex_tagged : list op :=
  [OTagID (bytes_of "NOUN") []; OTagID (bytes_of "sing") (bytes_of "NMbr"); OAdd [97; 1078]%Z;
   OTag [97; 1078]%Z [bytes_of "sing"; bytes_of "NOUN"]].
Definition ex_bytes : list N :=
  [84; 68; 0; (* tags *) 2; 32; 32; 32; 32; 78; 79; 85; 78; 78; 77; 98; 114; 115; 105; 110; 103;
   84; 73; 0; (* sets: none of one tag, one of two *) 0; 0; 0; 2; 0; 0; 0; 1; 2; 0; 1;
   67; 68; 0; (* collections: one of one set *) 1; 0; 0; 0; 1; 1; 0; 1; 0; 0;
   73; 68; 0; (* nodes *) 0; 0; 0; 3;
   0; 0; 0; 0; 0; 0; 0; 0; 0; 0; 0; 0; 0; 0; 0; 0;
   0; 0; 0; 0; 0; 0; 0; 1; 0; 0; 0; 97; 0; 0; 0; 0;
   0; 0; 0; 1; 0; 0; 0; 2; 0; 0; 4; 54; 0; 1; 0; 0].
Definition ex_content : content :=
  mkContent [(bytes_of "----", bytes_of "NOUN"); (bytes_of "NMbr", bytes_of "sing")] [[]; [[0; 1]]] [[[65536]]]
    [(0, 0, 0%Z, 0); (0, 1, 97%Z, 0); (1, 2, 1078%Z, 65536)].
Example C67_case : exists ix, runs ex_tagged ix /\ disk_caps ix = true /\ index_write ix = Ok (ex_bytes, None) /\
  saved_content ix = ex_content /\ file_size ex_content = 102%nat /\
  match index_read index_new (ex_bytes ++ [7; 7]) with Ok (ix', rest) => content_of ix' = ex_content /\ rest = [7; 7] | _ => False end.
Proof. apply run_case. vm_compute. repeat (split; [done|]). done. Qed.
(** The four bytes of a number can be anything: a count too large for the file is refused. *)
Example C67_refused_case :
  match index_read index_new (<[26%nat := 3]> ex_bytes) with Ok _ => False | Err e => True | Panic => False end.
Proof. vm_compute. done. Qed.
