(** The dictionary parser: C42-C47.  The proofs are in ThmParser.v, ThmDoc.v and ThmAlias.v.
    The structure of a dictionary and what it says ([doc_acts]) is specified in DocSpec.v, the
    calls it stands for in Calls.v. *)
From Verif Require Import Base Storage Utf8 Tags TagSets Variants Items Index DocSpec Parser Calls Spec Hist
  BaseFacts ParserFacts Alias ThmAlias ThmTrie ThmParser ThmDoc.
From stdpp Require Import list.
Open Scope N_scope.

(** A document for the examples: two grammemes, a lemma with two forms, another one. *)
Definition ex_conv : conv := mkConv (fun v => bool_decide (v = bytes_of "7")) (fun v => bool_decide (v = bytes_of "0.92")).
Definition at' (n v : string) : list N * list N := (bytes_of n, bytes_of v).
Definition el (n : string) := Elem (bytes_of n).
Definition ex_form (t : string) (g : list string) : node :=
  el "f" [at' "t" t] (map (fun v => el "g" [at' "v" v] []) g).
Definition ex_lemma (t : string) (g : list string) (fs : list node) : node :=
  el "lemma" [at' "id" "7"; at' "rev" "7"] (el "l" [at' "t" t] (map (fun v => el "g" [at' "v" v] []) g) :: Text [10] :: fs).
Definition ex_gram (n p : string) : node :=
  el "grammeme" [at' "parent" p] [el "name" [] [Text (bytes_of n)]; el "alias" [] []].
Definition ex_doc : list node :=
  [Note; el "dictionary" [at' "version" "0.92"; at' "revision" "7"]
    [el "grammemes" [] [ex_gram "NOUN" ""; Text [10]; ex_gram "sing" "NMbr"; ex_gram "plur" "NMbr"];
     el "lemmata" [] [ex_lemma "cat" ["NOUN"] [ex_form "cat" ["sing"]; Note; ex_form "cats" ["plur"]];
                      ex_lemma "ox" ["NOUN"] [ex_form "oxen" ["plur"]]];
     el "links" [] [el "link" [] []]]]%string.

(** C42.  Whatever well-nested beginning of a document the parser has accepted: its path is
    the open elements, outermost first, each after a dot; no other position has that path;
    the position is a known one.  With nothing open the parser is back in the state it
    started from.  The next element is accepted iff it is known there and has the attributes
    it needs. *)
Theorem C42_position : forall c ix mx es st p, Forall ev_no_dot es -> opens [] es = Some st ->
  parse c (parser_new ix mx) es = (p, Done) ->
  known (rev st) = true /\ p_path p = flat_map (fun n => dot :: n) (rev st) /\
  (forall pos, Forall no_dot pos -> p_path p = flat_map (fun n => dot :: n) pos -> pos = rev st).
Proof. exact l_C42_position. Qed.
Print Assumptions C42_position.
Theorem C42_back_at_start : forall c ix mx es p, Forall ev_no_dot es -> opens [] es = Some [] ->
  parse c (parser_new ix mx) es = (p, Done) ->
  p_path p = [] /\ p_gram p = None /\ p_lemma p = None /\ p_form p = None.
Proof. exact l_C42_back_at_start. Qed.
Print Assumptions C42_back_at_start.
Theorem C42_next_element : forall c ix mx es st p n a, Forall ev_no_dot es -> opens [] es = Some st ->
  parse c (parser_new ix mx) es = (p, Done) -> no_dot n ->
  (process c p (EStart n a)).2 =
  (if known (rev (n :: st)) && attrs_ok c (rev (n :: st)) a then Done else Fail EOpencorpora).
Proof. exact l_C42_next_element. Qed.
Print Assumptions C42_next_element.
Example C42_case :
  let es := [EStart (bytes_of "dictionary") []; EStart (bytes_of "lemmata") []; EText [10]] in
  opens [] es = Some [bytes_of "lemmata"; bytes_of "dictionary"] /\
  (parse ex_conv (parser_new index_new 0) es).2 = Done /\
  p_path (parse ex_conv (parser_new index_new 0) es).1 = bytes_of ".dictionary.lemmata" /\
  (parse ex_conv (parser_new index_new 0) (es ++ [EStart (bytes_of "lemma") [at' "id" "7"; at' "rev" "7"]])).2 = Done /\
  (parse ex_conv (parser_new index_new 0) (es ++ [EStart (bytes_of "lemma") [at' "id" "x"; at' "rev" "7"]])).2 = Fail EOpencorpora /\
  (parse ex_conv (parser_new index_new 0) (es ++ [EStart (bytes_of "f") []])).2 = Fail EOpencorpora.
Proof. vm_compute. auto 10. Qed.
(** A name with a dot is taken for several elements. *)
Theorem C42_dotted_refuted : exists es st p, opens [] es = Some st /\
  parse ex_conv (parser_new index_new 0) es = (p, Done) /\ known (rev st) = false.
Proof.
  exists [EStart (bytes_of "dictionary.lemmata") []], [bytes_of "dictionary.lemmata"].
  eexists. split; [reflexivity|]. split; [vm_compute; reflexivity|]. reflexivity.
Qed.
Print Assumptions C42_dotted_refuted.

(** C43.  For every document tree of the known structure the parser does exactly the calls
    [doc_acts] says, and ends as they end ([l_C43_same_as_calls]); a document without dotted
    names that is accepted has the known structure.  In terms of histories: within the limits,
    if every form is a word with registered grammemes, the parse succeeds and the index
    cannot be told from the one after the history; otherwise it fails at the first form that
    is not, with everything before it done.  [C43_what_is_found] is the whole chain: the
    words found after the parse are the prefixes of the forms, and the tag sets of a word are
    those of the forms that spell it. *)
Theorem C43_same_as_calls : forall c ix mx doc p o, (mx <= 0)%Z -> forallb (valid c []) doc = true ->
  parse c (parser_new ix mx) (flat_map events doc) = (p, o) ->
  call_acts ix (doc_acts doc) = (p_ix p, o).
Proof. exact l_C43_same_as_calls. Qed.
Print Assumptions C43_same_as_calls.
Theorem C43_only_known : forall c ix mx doc p, Forall ev_no_dot (flat_map events doc) ->
  parse c (parser_new ix mx) (flat_map events doc) = (p, Done) -> forallb (valid c []) doc = true.
Proof. exact l_C43_only_known. Qed.
Print Assumptions C43_only_known.
Theorem C43_history : forall c h ix mx doc ix', (mx <= 0)%Z -> forallb (valid c []) doc = true ->
  runs h ix -> runs (h ++ acts_ops (doc_acts doc)) ix' -> good_acts (registered h) (doc_acts doc) ->
  exists p, parse c (parser_new ix mx) (flat_map events doc) = (p, Done) /\ indist (p_ix p) ix'.
Proof. exact l_C43_history. Qed.
Print Assumptions C43_history.
Theorem C43_first_bad_form : forall c h ix mx doc pre fs t g fs' post ix', (mx <= 0)%Z ->
  forallb (valid c []) doc = true -> runs h ix ->
  doc_acts doc = pre ++ ALemma (fs ++ (t, g) :: fs') :: post ->
  good_acts (registered h) (pre ++ [ALemma fs]) ->
  (t = [] /\ runs (h ++ acts_ops (pre ++ [ALemma fs])) ix') \/
  (t <> [] /\ (exists n, n ∈ g /\ n ∉ registered (h ++ acts_ops pre)) /\
   runs (h ++ acts_ops (pre ++ [ALemma (fs ++ [(t, g)])])) ix') ->
  exists p, parse c (parser_new ix mx) (flat_map events doc) = (p, Fail EIndex) /\ indist (p_ix p) ix'.
Proof. exact l_C43_first_bad_form. Qed.
Print Assumptions C43_first_bad_form.
Theorem C43_what_is_found : forall c mx doc ix', (mx <= 0)%Z -> forallb (valid c []) doc = true ->
  runs (acts_ops (doc_acts doc)) ix' -> good_acts [] (doc_acts doc) ->
  exists p, parse c (parser_new index_new mx) (flat_map events doc) = (p, Done) /\
    (forall w, (exists id, (fetch_runes (p_ix p) w).2 = Ok id) <->
       w <> [] /\ exists t g, (t, g) ∈ forms (doc_acts doc) /\ w `prefix_of` runes_of_string t) /\
    (forall w id, (fetch_runes (p_ix p) w).2 = Ok id ->
       node_word (p_ix p) id = Ok (string_of_runes w) /\
       exists sets, node_tag_sets (p_ix p) id = Ok sets /\
         (forall t g, (t, g) ∈ forms (doc_acts doc) -> runes_of_string t = w ->
            exists s, s ∈ sets /\ map tag_name s ≡ₚ g) /\
         (forall s, s ∈ sets -> exists t g, (t, g) ∈ forms (doc_acts doc) /\ runes_of_string t = w /\
            map tag_name s ≡ₚ g)).
Proof. exact l_C43_what_is_found. Qed.
Print Assumptions C43_what_is_found.
Example C43_case :
  forallb (valid ex_conv []) ex_doc = true /\
  doc_acts ex_doc =
    [AGram (bytes_of "NOUN") []; AGram (bytes_of "sing") (bytes_of "NMbr"); AGram (bytes_of "plur") (bytes_of "NMbr");
     ALemma [(bytes_of "cat", [bytes_of "NOUN"; bytes_of "sing"]); (bytes_of "cats", [bytes_of "NOUN"; bytes_of "plur"])];
     ALemma [(bytes_of "oxen", [bytes_of "NOUN"; bytes_of "plur"])]] /\
  (exists ix, runs (acts_ops (doc_acts ex_doc)) ix /\ words_count ix = 3 /\ nodes_count ix = 8).
Proof.
  split; [vm_compute; reflexivity|]. split; [vm_compute; reflexivity|].
  apply run_case. vm_compute. auto.
Qed.
Example C43_good_case : good_acts [] (doc_acts ex_doc).
Proof.
  assert (E := proj1 (proj2 C43_case)). rewrite E. cbn [good_acts app].
  assert (H : forall names f, f.1 <> [] -> forallb (fun n => bool_decide (n ∈ names)) f.2 = true -> form_good names f).
  { intros names f H1 H2. split; [done|]. intros n Hn. rewrite forallb_forall in H2.
    apply elem_of_list_In in Hn. specialize (H2 n Hn). by apply bool_decide_eq_true in H2. }
  split; [|split; [|done]]; repeat (apply List.Forall_cons || apply List.Forall_nil);
    apply H; try done; vm_compute; reflexivity.
Qed.
(** The parse of the example, and of one with a form that uses an unregistered grammeme. *)
Example C43_parse_case :
  let r := parse ex_conv (parser_new index_new 0) (flat_map events ex_doc) in
  r.2 = Done /\ words_count (p_ix r.1) = 3 /\ (fetch_string (p_ix r.1) (bytes_of "oxen")).2 = Ok 8 /\
  node_tag_sets (p_ix r.1) 3 = Ok [[mkTag (bytes_of "----") (bytes_of "NOUN"); mkTag (bytes_of "NMbr") (bytes_of "sing")]] /\
  let bad := [el "dictionary" [] [el "grammemes" [] [ex_gram "NOUN" ""];
     el "lemmata" [] [ex_lemma "a" ["NOUN"] [ex_form "a" []; ex_form "b" ["none"]; ex_form "c" []]]]]%string in
  let r := parse ex_conv (parser_new index_new 0) (flat_map events bad) in
  r.2 = Fail EIndex /\ words_count (p_ix r.1) = 1 /\ nodes_count (p_ix r.1) = 2.
Proof. vm_compute. auto 10. Qed.

(** C44.  With slices that share memory and [append] writing in place when there is room, for
    every growth policy, initial capacities and memory contents: whatever is done with the
    tags of each form in turn, it is done with the lemma's categories followed by the form's
    own.  So the list-based parser of Parser.v makes the same calls. *)
Theorem C44_exact : forall S grow room0 room h0 es st (call : S -> list N -> list (list N) -> S * bool) s,
  l_run grow room (l_new room0 h0) es = Some st ->
  l_loop grow call (ls_heap st) (ls_lg st) s (ls_forms st) = each call s (wanted es).
Proof. exact l_C44_exact. Qed.
Print Assumptions C44_exact.
Theorem C44_parser_agrees : forall c grow room0 room h0 p es st,
  p_lemma p = Some (mkLemma [] []) -> p_form p = None ->
  l_run grow room (l_new room0 h0) es = Some st ->
  exists p1 l, on_levs c p es = (p1, Done) /\ p_lemma p1 = Some l /\ p_ix p1 = p_ix p /\
    lemma_loop (p_ix p1) (l_g l) (l_f l) =
    l_loop grow index_call (ls_heap st) (ls_lg st) (p_ix p, Done) (ls_forms st).
Proof. exact l_C44_parser_agrees. Qed.
Print Assumptions C44_parser_agrees.
Definition ex_lemma_events : list lev :=
  [LG [1]; LG [2]; FStart [65]; FG [3]; FEnd; FStart [66]; FG [4]; FG [5]; FEnd].
Definition collect (s : list (list N * list (list N))) (t : list N) (g : list (list N)) := (s ++ [(t, g)], true).
Definition roomy : policy := fun _ _ n => n.
Example C44_case :
  match l_run roomy 0 (l_new 1 []) ex_lemma_events with
  | Some st => l_loop roomy collect (ls_heap st) (ls_lg st) [] (ls_forms st) =
                 [([65], [[1]; [2]; [3]]); ([66], [[1]; [2]; [4]; [5]])]
  | None => False
  end.
Proof. vm_compute. reflexivity. Qed.
(** Extending all forms first and reading their tags later would not do: with room in the
    lemma's array both forms end up with the tags of the last one. *)
Theorem C44_order_matters : exists st, l_run roomy 0 (l_new 1 []) ex_lemma_events = Some st /\
  let '(h, fs) := extend_all roomy (ls_heap st) (ls_lg st) (ls_forms st) in
  map (fun f => (f.1, read h f.2)) fs = [([65], [[1]; [2]; [4]]); ([66], [[1]; [2]; [4]; [5]])] /\
  wanted ex_lemma_events = [([65], [[1]; [2]; [3]]); ([66], [[1]; [2]; [4]; [5]])].
Proof. eexists. split; [vm_compute; reflexivity|]. vm_compute. auto. Qed.
Print Assumptions C44_order_matters.

(** C45.  A positive limit of [mx] lemmas: the parse stops with the controlled stop right after
    lemma number [mx], the index being the one after the actions up to it; with fewer lemmas,
    or a failure before, it is the parse without a limit.  Without a limit no stream of
    events at all ends in a controlled stop. *)
Theorem C45_stops_after_limit : forall c ix mx doc pre fs post ix', (0 < mx)%Z ->
  forallb (valid c []) doc = true ->
  doc_acts doc = pre ++ ALemma fs :: post -> Z.of_nat (lemmas pre) = (mx - 1)%Z ->
  call_acts ix (pre ++ [ALemma fs]) = (ix', Done) ->
  exists p, parse c (parser_new ix mx) (flat_map events doc) = (p, Fail EControlledStop) /\ p_ix p = ix'.
Proof. exact l_C45_stops_after_limit. Qed.
Print Assumptions C45_stops_after_limit.
Theorem C45_limit_not_reached : forall c ix mx doc, (0 < mx)%Z -> forallb (valid c []) doc = true ->
  (Z.of_nat (lemmas (doc_acts doc)) < mx)%Z ->
  exists p o, parse c (parser_new ix mx) (flat_map events doc) = (p, o) /\
              call_acts ix (doc_acts doc) = (p_ix p, o).
Proof. exact l_C45_limit_not_reached. Qed.
Print Assumptions C45_limit_not_reached.
Theorem C45_earlier_failure : forall c ix mx doc pre s post ix' o, (0 < mx)%Z ->
  forallb (valid c []) doc = true ->
  doc_acts doc = pre ++ s :: post -> (Z.of_nat (lemmas pre) < mx)%Z ->
  call_acts ix (pre ++ [s]) = (ix', o) -> o <> Done ->
  exists p, parse c (parser_new ix mx) (flat_map events doc) = (p, o) /\ p_ix p = ix'.
Proof. exact l_C45_earlier_failure. Qed.
Print Assumptions C45_earlier_failure.
Theorem C45_never_without_limit : forall c ix mx es, (mx <= 0)%Z ->
  (parse c (parser_new ix mx) es).2 <> Fail EControlledStop.
Proof. exact l_C45_never_without_limit. Qed.
Print Assumptions C45_never_without_limit.
Example C45_case :
  (parse ex_conv (parser_new index_new 1) (flat_map events ex_doc)).2 = Fail EControlledStop /\
  nodes_count (p_ix (parse ex_conv (parser_new index_new 1) (flat_map events ex_doc)).1) = 4 /\
  (parse ex_conv (parser_new index_new 2) (flat_map events ex_doc)).2 = Fail EControlledStop /\
  (parse ex_conv (parser_new index_new 3) (flat_map events ex_doc)).2 = Done /\
  (parse ex_conv (parser_new index_new (-1)) (flat_map events ex_doc)).2 = Done.
Proof. vm_compute. auto 10. Qed.

(** C46.  A grammeme whose name text arrives in one piece is registered under it; in general
    the last piece is the name. *)
Theorem C46_one_piece : forall c ix mx da ga pa kids text parent,
  forallb (valid c []) (one_grammeme da ga pa kids) = true ->
  attr "parent" pa = Some parent -> name_pieces kids = [text] ->
  exists p, parse c (parser_new ix mx) (flat_map events (one_grammeme da ga pa kids)) = (p, Done) /\
    p_ix p = (index_tag_id ix text parent).1.
Proof. exact l_C46_one_piece. Qed.
Print Assumptions C46_one_piece.
Theorem C46_last_piece : forall c ix mx da ga pa kids pieces text parent,
  forallb (valid c []) (one_grammeme da ga pa kids) = true ->
  attr "parent" pa = Some parent -> name_pieces kids = pieces ++ [text] ->
  exists p, parse c (parser_new ix mx) (flat_map events (one_grammeme da ga pa kids)) = (p, Done) /\
    p_ix p = (index_tag_id ix text parent).1.
Proof. exact l_C46_last_piece. Qed.
Print Assumptions C46_last_piece.
Theorem C46_split_name_refuted : exists kids,
  forallb (valid ex_conv []) (one_grammeme [] [] [at' "parent" ""] kids) = true /\
  concat (name_pieces kids) = bytes_of "NOUN" /\
  forall p, p = (parse ex_conv (parser_new index_new 0) (flat_map events (one_grammeme [] [] [at' "parent" ""] kids))).1 ->
    ix_tags (p_ix p) = [mkTag (bytes_of "----") (bytes_of "UN")].
Proof.
  exists [el "name" [] [Text (bytes_of "NO"); Note; Text (bytes_of "UN")]].
  split; [vm_compute; reflexivity|]. split; [reflexivity|]. intros p ->. vm_compute. reflexivity.
Qed.
Print Assumptions C46_split_name_refuted.
Example C46_case : name_pieces [el "name" [] [Text (bytes_of "NOUN")]; Text [10]; el "alias" [] [Text [65]]] = [bytes_of "NOUN"] /\
  forallb (valid ex_conv []) (one_grammeme [] [] [at' "parent" ""]
    [el "name" [] [Text (bytes_of "NOUN")]; Text [10]; el "alias" [] [Text [65]]]) = true.
Proof. vm_compute. auto. Qed.

(** C47.  No well-nested beginning of a document without dotted names makes the parser use a
    nil pointer or cut its path below the beginning.  (A panic inside the index is excluded
    separately by C18 and C31.) *)
Theorem C47_no_nil_pointer : forall c ix mx es st, Forall ev_no_dot es -> opens [] es = Some st ->
  (parse c (parser_new ix mx) es).2 <> NilDeref /\ (parse c (parser_new ix mx) es).2 <> CutPath.
Proof. exact l_C47_no_nil_pointer. Qed.
Print Assumptions C47_no_nil_pointer.
Theorem C47_dotted_refuted : exists es st, opens [] es = Some st /\
  (parse ex_conv (parser_new index_new 0) es).2 = NilDeref.
Proof.
  exists [EStart (bytes_of "dictionary") []; EStart (bytes_of "grammemes.grammeme.name") []; EText [65]].
  eexists. split; [vm_compute; reflexivity|]. vm_compute. reflexivity.
Qed.
Print Assumptions C47_dotted_refuted.
(** Without the nesting of a tokenizer the path can be cut below its beginning. *)
Example C47_unnested_case :
  (parse ex_conv (parser_new index_new 0) [EEnd (bytes_of "dictionary")]).2 = CutPath /\
  (parse ex_conv (parser_new index_new 0) [EStart (bytes_of "dictionary") []; EStart (bytes_of "lemmata") [];
     EStart (bytes_of "lemma") [at' "id" "7"; at' "rev" "7"]; EStart (bytes_of "f") []; EEnd (bytes_of "f")]).2 = Fail EOpencorpora.
Proof. vm_compute. auto. Qed.
