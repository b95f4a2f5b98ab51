(** What each call reads and writes: C88.  The proofs are in ThmFootprint.v. *)
From Verif Require Import Base Storage Tags TagSets Variants Items Index Spec Hist Fill Minor Footprint ThmTrie ThmFootprint.
From stdpp Require Import list gmap.
Open Scope N_scope.

(** C88.  For every method of an index and of its nodes a table says which of the seven parts of the
    index (tags, sets, lists of sets, nodes, numbers of lists, map of children, word counter) it may
    change and which it depends on, for every index and not only for reachable ones.  The tables are
    tight: for every entry there is a reachable index where it is needed.  Two calls neither of which
    writes what the other reads or writes can be exchanged; two callers with only such calls get the
    answers they would get alone, in whatever order the calls are executed.  Looking a word up
    writes: it can only be exchanged freely with calls that leave the map of children alone.  Each
    call is one step here; C32 has the steps of goroutines. *)
Theorem C88_writes : forall c ix p, p ∉ writes (kind_of c) -> same p ix (exec c ix).1.
Proof. exact l_C88_writes. Qed.
Print Assumptions C88_writes.
Theorem C88_reads : forall c a b, (forall p, p ∈ reads (kind_of c) -> same p a b) ->
  (exec c a).2 = (exec c b).2 /\ forall p, same p a b -> same p (exec c a).1 (exec c b).1.
Proof. exact l_C88_reads. Qed.
Print Assumptions C88_reads.
Theorem C88_exchange : forall c d ix, apart (kind_of c) (kind_of d) = true ->
  (exec d (exec c ix).1).1 = (exec c (exec d ix).1).1 /\
  (exec d (exec c ix).1).2 = (exec d ix).2 /\ (exec c (exec d ix).1).2 = (exec c ix).2.
Proof. exact l_C88_exchange. Qed.
Print Assumptions C88_exchange.
Theorem C88_callers : forall (l : list (bool * call)) ix,
  (forall c d, c ∈ of_caller true l -> d ∈ of_caller false l -> apart (kind_of c) (kind_of d) = true) ->
  (calls (map snd l) ix).1 = (calls (of_caller false l) (calls (of_caller true l) ix).1).1 /\
  forall b, of_caller b (zip (map fst l) (calls (map snd l) ix).2) = (calls (of_caller b l) ix).2.
Proof. exact l_C88_callers. Qed.
Print Assumptions C88_callers.
Theorem C88_writes_all : forall k p, p ∈ writes k ->
  exists h ix c, runs h ix /\ kind_of c = k /\ ~ same p ix (exec c ix).1.
Proof. exact l_C88_writes_all. Qed.
Print Assumptions C88_writes_all.
Theorem C88_reads_all : forall k p, p ∈ reads k ->
  exists c h a b, runs h a /\ kind_of c = k /\ (forall q, q <> p -> same q a b) /\
  ((exec c a).2 <> (exec c b).2 \/ exists q, q <> p /\ ~ same q (exec c a).1 (exec c b).1).
Proof. exact l_C88_reads_all. Qed.
Print Assumptions C88_reads_all.
Example C88_writes_case :
  writes KFetch = [PChildren] /\ writes KTagSets = [] /\ writes KWrite = [] /\ writes KAdd = [PNodes; PVariants; PChildren] /\
  reads KRead = [] /\ reads KWord = [PNodes].
Proof. done. Qed.
(** The kinds of calls that can be exchanged with a lookup, with adding a word, with tagging a
    word, with saving, and with a lookup of a tag. *)
Example C88_exchange_case :
  filter (fun k => apart KFetch k = true) all_kinds =
    [KGet; KItem; KWordsCount; KNodesCount; KTagID; KTagSet; KVariants; KWord; KString; KTagSets; KAddTagSet; KOptimize; KWrite] /\
  filter (fun k => apart KAdd k = true) all_kinds = [KWordsCount; KTagID; KTagSet; KVariants] /\
  filter (fun k => apart KAddTagSet k = true) all_kinds = [KGet; KChildren; KIdMap; KFetch; KFetchItem; KNodesCount; KTagSet; KWord] /\
  filter (fun k => apart KWrite k = true) all_kinds =
    [KGet; KItem; KChildren; KIdMap; KFetch; KFetchItem; KWordsCount; KNodesCount; KTagSet; KVariants; KWord; KString; KTagSets; KWrite] /\
  filter (fun k => apart KTagID k = true) all_kinds =
    [KGet; KItem; KChildren; KIdMap; KFetch; KFetchItem; KAdd; KWordsCount; KNodesCount; KVariants; KWord; KString; KOptimize] /\
  filter (fun k => apart KRead k = true) all_kinds = [].
Proof. vm_compute. repeat split; reflexivity. Qed.
(** A lookup that fails inserts an empty map for the last node it reached, so the index afterwards
    is another one and a second lookup is not apart from the first. *)
Example C88_writes_all_case :
  let ix := fp_ix fp_h in
  runs fp_h ix /\ (exec (CFetch 0 [97; 98; 99]%Z) ix).2 = ANumber (Err EIndex) /\
  ix_children ix !! 2 = None /\ ix_children (exec (CFetch 0 [97; 98; 99]%Z) ix).1 !! 2 = Some ∅ /\
  apart KFetch KFetch = false.
Proof. split; [apply run_runs; vm_compute; reflexivity|]. vm_compute. repeat split; reflexivity. Qed.
(** One caller looks words up, the other defines tags and asks for words. *)
Example C88_callers_case :
  let l := [(true, CFetch 0 [97]%Z); (false, CTagID [86] []); (true, CFetch 0 [97; 98; 99]%Z); (false, CWord 2);
            (true, CFetch 0 [97; 98]%Z); (false, CTagID [87] [86])] in
  let ix := fp_ix fp_h in
  (forall c d, c ∈ of_caller true l -> d ∈ of_caller false l -> apart (kind_of c) (kind_of d) = true) /\
  (calls (map snd l) ix).2 =
    [ANumber (Ok 1); ANumber (Ok 2); ANumber (Err EIndex); ANumbers (Ok [97; 98]); ANumber (Ok 2); ANumber (Ok 3)] /\
  (calls (of_caller true l) ix).2 = [ANumber (Ok 1); ANumber (Err EIndex); ANumber (Ok 2)] /\
  (calls (of_caller false l) ix).2 = [ANumber (Ok 2); ANumbers (Ok [97; 98]); ANumber (Ok 3)].
Proof.
  split; [|vm_compute; repeat split; reflexivity]. cbn [of_caller eqb]. intros c d Hc Hd.
  repeat (apply elem_of_cons in Hc as [-> | Hc]); try (by apply elem_of_nil in Hc);
  repeat (apply elem_of_cons in Hd as [-> | Hd]); try (by apply elem_of_nil in Hd); reflexivity.
Qed.
(** Two calls that are not apart and cannot be exchanged: the number of a tag depends on the order. *)
Example C88_order_case : apart KTagID KTagID = false /\
  (exec (CTagID [86] []) (exec (CTagID [87] []) index_new).1).2 <> (exec (CTagID [86] []) index_new).2.
Proof. split; [reflexivity|]. vm_compute. discriminate. Qed.
