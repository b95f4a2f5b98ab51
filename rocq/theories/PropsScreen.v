(** What the index browser prints: C69.  The proofs are in ThmScreen.v. *)
From Verif Require Import Base Storage Utf8 Tags TagSets Variants Items Index Spec Hist ThmTrie Cli Strconv Session Screen ScreenSpec ThmScreen.
From stdpp Require Import list gmap.
Open Scope N_scope.

(** C69.  The text does not depend on the order in which Go walks the map of children.  With tag
    names and words without line feeds, and tag names that are not empty and have no comma, the
    printed node determines everything that is shown: number, word, parent, variants, sets and
    children.  The number before "item(s)" is the number of sets listed.  Children come in the
    order of their code points.  The lines for a set and for a variant list the names of the reply;
    "NOT FOUND" is never printed. *)
Theorem C69_order : forall ix r o o', walks o r -> walks o' r -> line_text o ix r = line_text o' ix r.
Proof. exact l_C69_order. Qed.
Print Assumptions C69_order.
Theorem C69_items : forall f load h ix line ix' i, runs h ix -> process_input f load ix line = Reply ix' (RNode i) ->
  ni_variants i <> 0 -> id32_upper (ni_variants i) = lenN (ni_sets i).
Proof. exact l_C69_items. Qed.
Print Assumptions C69_items.
Theorem C69_unique : forall f1 load1 h1 ix1 line1 ix1' i1 o1 f2 load2 h2 ix2 line2 ix2' i2 o2,
  runs h1 ix1 -> process_input f1 load1 ix1 line1 = Reply ix1' (RNode i1) -> walks o1 (RNode i1) ->
  runs h2 ix2 -> process_input f2 load2 ix2 line2 = Reply ix2' (RNode i2) -> walks o2 (RNode i2) ->
  Forall (fun t => clear_name (tag_name t)) (ix_tags ix1) -> Forall (fun t => clear_name (tag_name t)) (ix_tags ix2) ->
  10 ∉ ni_word i1 -> 10 ∉ ni_word i2 ->
  line_text o1 ix1 (RNode i1) = line_text o2 ix2 (RNode i2) -> i1 = i2.
Proof. exact l_C69_unique. Qed.
Print Assumptions C69_unique.
Theorem C69_children : forall i order, order ≡ₚ map_to_list (ni_children i) -> ni_children i <> ∅ ->
  (forall r id, ni_children i !! r = Some id -> scalar r) ->
  exists L pre, L ≡ₚ map_to_list (ni_children i) /\ StronglySorted Z.lt L.*1 /\
    node_text order i = pre ++ bytes_of "Children: " ++ itoa (lenN L) ++ bytes_of " items:" ++ [10] ++ child_lines L.
Proof. exact l_C69_children. Qed.
Print Assumptions C69_children.
Theorem C69_set : forall f load h ix line ix' n names order, runs h ix -> process_input f load ix line = Reply ix' (RSet n names) ->
  exists ns, names = map Some ns /\
    line_text order ix (RSet n names) = bytes_of "set." ++ fmt_d n ++ bytes_of "(0x" ++ fmt_X n ++ bytes_of "): " ++ join_with (bytes_of ", ") ns ++ [10].
Proof. exact l_C69_set. Qed.
Print Assumptions C69_set.
Theorem C69_var : forall f load h ix line ix' id sets order, runs h ix -> process_input f load ix line = Reply ix' (RVar id sets) ->
  exists col nss, sets = map (fun ns => Some (map Some ns)) nss /\ length col = length nss /\
    line_text order ix (RVar id sets) = bytes_of "variant: " ++ itoa id ++ bytes_of ": [" ++ join_with (bytes_of " ") (map itoa col) ++ bytes_of "]" ++
      concat (imap (fun i (p : N * list (list N)) => [10] ++ bytes_of "- " ++ fmt_0d 2 (N.of_nat i) ++ bytes_of ": " ++ fmt_0d 3 p.1 ++
                      bytes_of ": TS" ++ fmt_0d 3 p.1 ++ bytes_of ": " ++ join_with (bytes_of ",") p.2) (zip col nss)) ++ [10; 10].
Proof. exact l_C69_var. Qed.
Print Assumptions C69_var.
Definition ex_screen : list op :=
  [OTagID (bytes_of "NOUN") []; OTagID (bytes_of "sing") (bytes_of "NMbr");
   OAdd [97]%Z; OAdd [97; 98]%Z; OAdd [97; 1103]%Z; OAdd [97; 66]%Z; OTag [97; 98]%Z [bytes_of "sing"; bytes_of "NOUN"]; OTag [97; 98]%Z [bytes_of "NOUN"]].
Definition printed (ix : index) (line : string) : list N :=
  match process_input (fun a b => bool_decide (a = b)) (Ok ix) ix (bytes_of line) with
  | Reply _ r => line_text (match r with RNode i => map_to_list (ni_children i) | _ => [] end) ix r
  | _ => [0]
  end.
Example C69_case : exists ix, runs ex_screen ix /\
  printed ix "node 1" = bytes_of "Node:     1
Prefix:   a
Parent:   0
Variants: --------
Children: 3 items:
- B[66]: 4
- b[98]: 2
- я[1103]: 3

" /\
  printed ix "n ab" = bytes_of "Node:     2
Prefix:   ab
Parent:   1
Variants: 131072(0x20000), 2 item(s): 
- 00: (NOUN)
- 01: (NOUN,sing)
Children: --------

" /\
  printed ix "set 0x10000" = bytes_of "set.65536(0x10000): NOUN, sing
" /\
  printed ix "set 65536" = printed ix "set 0x10000" /\
  printed ix "var 131072" = bytes_of "variant: 131072: [0 65536]
- 00: 000: TS000: NOUN
- 01: 65536: TS65536: NOUN,sing

" /\
  printed ix "ab" = [10] /\ printed ix "tag 1" = [10] /\ printed ix "node 9" = [10] /\
  Forall (fun t => clear_name (tag_name t)) (ix_tags ix).
Proof.
  apply run_case. vm_compute. repeat (split; [reflexivity|]).
  repeat constructor; try discriminate; intros H; repeat (apply elem_of_cons in H as [H|H]; [discriminate|]); by apply elem_of_nil in H.
Qed.
(** A comma in a tag name: two nodes with different sets are printed alike. *)
Definition ex_comma1 : list op := [OTagID (bytes_of "a,b") []; OTagID (bytes_of "c") []; OAdd [97]%Z; OTag [97]%Z [bytes_of "a,b"; bytes_of "c"]].
Definition ex_comma2 : list op := [OTagID (bytes_of "a") []; OTagID (bytes_of "b,c") []; OAdd [97]%Z; OTag [97]%Z [bytes_of "a"; bytes_of "b,c"]].
Theorem C69_commas_refuted : exists ix1 ix2 i1 i2, runs ex_comma1 ix1 /\ runs ex_comma2 ix2 /\
  (cmd_node_word ix1 [97%Z]).2 = Ok i1 /\ (cmd_node_word ix2 [97%Z]).2 = Ok i2 /\ ni_sets i1 <> ni_sets i2 /\ node_text [] i1 = node_text [] i2.
Proof.
  destruct (run_case ex_comma1 (fun ix => exists i, (cmd_node_word ix [97%Z]).2 = Ok i /\ ni_sets i = [[bytes_of "a,b"; bytes_of "c"]] /\
     node_text [] i = node_text [] (mkInfo 1 [97] 0 65536 [[bytes_of "a,b"; bytes_of "c"]] ∅))) as (ix1 & H1 & i1 & E1 & S1 & T1).
  { vm_compute. eexists. split; [reflexivity|]. split; reflexivity. }
  destruct (run_case ex_comma2 (fun ix => exists i, (cmd_node_word ix [97%Z]).2 = Ok i /\ ni_sets i = [[bytes_of "a"; bytes_of "b,c"]] /\
     node_text [] i = node_text [] (mkInfo 1 [97] 0 65536 [[bytes_of "a,b"; bytes_of "c"]] ∅))) as (ix2 & H2 & i2 & E2 & S2 & T2).
  { vm_compute. eexists. split; [reflexivity|]. split; reflexivity. }
  exists ix1, ix2, i1, i2. split; [done|]. split; [done|]. split; [done|]. split; [done|]. split; [rewrite S1, S2; discriminate|]. by rewrite T1, T2.
Qed.
Print Assumptions C69_commas_refuted.
(** A letter that is no code point is shown as U+FFFD and sorted as such: 0x110000 before 0x10000. *)
Example C69_letters_refuted : exists i, ni_children i = {[ 0x110000%Z := 1; 0x10000%Z := 2 ]} /\
  children_text (map_to_list (ni_children i)) = bytes_of "Children: 2 items:
- �[1114112]: 1
- 𐀀[65536]: 2
".
Proof. exists (mkInfo 0 [] 0 0 [] {[ 0x110000%Z := 1; 0x10000%Z := 2 ]}). vm_compute. done. Qed.
