(** The String methods: C70.  The proofs are in ThmRender.v. *)
From Verif Require Import Base Storage Utf8 Tags TagSets Variants Items Index Spec Strconv Screen Render RenderSpec ThmRender.
From stdpp Require Import list gmap.
Open Scope N_scope.

(** C70.  The texts of tag sets, tables, collections and items determine what they show, for all
    values (of the letter of an item what string conversion keeps of it).  The text of a map of
    children with fewer than ten entries shows them in the order of the walk; with ten or more it
    shows their number only.  The texts of package opencorpora and of [dag.TagSet] determine what
    they show if the parts do not contain the bytes put between them; a nil entry makes the
    methods panic, in [GetTagsFromSet] too. *)
Theorem C70_tagset : forall a b, tagset_string a = tagset_string b <-> a = b.
Proof. exact l_C70_tagset. Qed.
Print Assumptions C70_tagset.
Theorem C70_table : forall a b, table_string a = table_string b <-> a = b.
Proof. exact l_C70_table. Qed.
Print Assumptions C70_table.
Theorem C70_collection : forall a b, collection_string a = collection_string b <-> a = b.
Proof. exact l_C70_collection. Qed.
Print Assumptions C70_collection.
Theorem C70_item : forall i j, item_string i = item_string j <->
  shown_letter (it_letter i) = shown_letter (it_letter j) /\ it_id i = it_id j /\ it_parent i = it_parent j /\ it_variants i = it_variants j.
Proof. exact l_C70_item. Qed.
Print Assumptions C70_item.
Theorem C70_idmap : forall (m1 m2 : gmap Z N) o1 o2, o1 ≡ₚ map_to_list m1 -> o2 ≡ₚ map_to_list m2 ->
  (forall r id, m1 !! r = Some id -> scalar r) -> (forall r id, m2 !! r = Some id -> scalar r) ->
  (idmap_string o1 = idmap_string o2 <->
   o1 = o2 /\ (size m1 < 10)%nat \/ (10 <= size m1)%nat /\ size m1 = size m2).
Proof. exact l_C70_idmap. Qed.
Print Assumptions C70_idmap.
Theorem C70_nil : forall c, (categories_string c = Panic <-> None ∈ c) /\ (category_names c = Panic <-> None ∈ c) /\
  (forall w, word_form_string (mkWordForm w c) = Panic <-> None ∈ c) /\
  (forall ns, category_names c = Ok ns <-> c = map Some ns).
Proof. exact l_C70_nil. Qed.
Print Assumptions C70_nil.
Theorem C70_dag_tagset : forall s t, Forall (fun x => tidy (tag_name x)) s -> Forall (fun x => tidy (tag_name x)) t ->
  dag_tagset_string s = dag_tagset_string t <-> map tag_name s = map tag_name t.
Proof. exact l_C70_dag_tagset. Qed.
Print Assumptions C70_dag_tagset.
Theorem C70_categories : forall s t, Forall tidy s -> Forall tidy t ->
  categories_string (map Some s) = categories_string (map Some t) <-> s = t.
Proof. exact l_C70_categories. Qed.
Print Assumptions C70_categories.
Theorem C70_form : forall x y, tidy_form x -> tidy_form y -> word_form_string x = word_form_string y <-> x = y.
Proof. exact l_C70_form. Qed.
Print Assumptions C70_form.
Theorem C70_grammemes : forall k l, Forall tidy_grammeme k -> Forall tidy_grammeme l ->
  grammemes_string (map Some k) = grammemes_string (map Some l) <-> k = l.
Proof. exact l_C70_grammemes. Qed.
Print Assumptions C70_grammemes.
Theorem C70_lemma : forall k l, tidy_lemma k -> tidy_lemma l -> lemma_string k = lemma_string l <-> k = l.
Proof. exact l_C70_lemma. Qed.
Print Assumptions C70_lemma.
Example C70_case :
  tagset_string [3; 12] = bytes_of "TS(3,12)" /\ tagset_string [] = bytes_of "TS()" /\
  table_string [[3; 12]; []; [255]] = bytes_of "TT(0: TS(3,12),1: TS(),2: TS(255))" /\
  collection_string [0; 65536; 0xABCDEF] = bytes_of "[0,10000,abcdef]" /\
  item_string (mkItem 7 12 1103%Z 65536) = bytes_of "я12_7_65536" /\
  item_string (mkItem 7 12 49%Z 0) = bytes_of "112_7_0" /\
  idmap_string [(1103%Z, 4); (44%Z, 5)] = bytes_of "IDMap(`я`:4,`,`:5)" /\
  idmap_string (map (fun n => (Z.of_nat n, 1)) (seq 65 10)) = bytes_of "IDMap(len()=10)" /\
  dag_tagset_string [mkTag (bytes_of "POST") (bytes_of "NOUN"); mkTag (bytes_of "NMbr") (bytes_of "sing")] = bytes_of "NOUN,sing".
Proof. vm_compute. repeat (split; [reflexivity|]). reflexivity. Qed.
Definition ex_form : word_form := mkWordForm (bytes_of "ёж") [Some (bytes_of "NOUN"); Some (bytes_of "sing")].
Definition ex_lemma : full_lemma := mkFullLemma 1 (-2) ex_form [Some ex_form; Some (mkWordForm (bytes_of "ежа") [])].
Example C70_corpora_case :
  word_form_string ex_form = Ok (bytes_of "WordForm(ёж,NOUN,sing)") /\
  lemma_string ex_lemma = Ok (bytes_of "Lemma(1,-2,WordForm(ёж,NOUN,sing), WordForm(ёж,NOUN,sing),WordForm(ежа,)") /\
  grammemes_string [Some (mkGrammeme [] (bytes_of "POST") (bytes_of "ЧР") (bytes_of "часть речи"));
                    Some (mkGrammeme (bytes_of "POST") (bytes_of "NOUN") (bytes_of "СУЩ") (bytes_of "имя"))] =
    Ok (bytes_of "Grammemes(Tag(POST/,ЧР,часть речи),Tag(NOUN/POST,СУЩ,имя))") /\
  category_names [Some (bytes_of "NOUN"); None] = Panic /\ category_names (wf_g ex_form) = Ok [bytes_of "NOUN"; bytes_of "sing"] /\
  lemma_string (mkFullLemma 1 2 ex_form [None]) = Panic.
Proof. vm_compute. repeat (split; [reflexivity|]). reflexivity. Qed.
Example C70_tidy_case : tidy_lemma ex_lemma.
Proof.
  assert (Hn : forall s : list N, forallb (fun c => negb (c =? 41) && negb (c =? 44)) s = true -> 41 ∉ s /\ 44 ∉ s).
  { intros s H. rewrite forallb_forall in H. split; intros Hi; apply elem_of_list_In in Hi; by apply H in Hi. }
  assert (Hf : tidy_form ex_form).
  { split; [apply Hn; vm_compute; reflexivity|]. exists [bytes_of "NOUN"; bytes_of "sing"]. split; [done|].
    repeat constructor; try discriminate; apply Hn; vm_compute; reflexivity. }
  split; [exact Hf|]. exists [ex_form; mkWordForm (bytes_of "ежа") []]. split; [done|].
  constructor; [exact Hf|]. constructor; [|constructor]. split; [apply Hn; vm_compute; reflexivity|]. exists []. split; [done|]. constructor.
Qed.
(** Two walks of one map give two texts. *)
Theorem C70_order_refuted : exists (m : gmap Z N) o1 o2, o1 ≡ₚ map_to_list m /\ o2 ≡ₚ map_to_list m /\ idmap_string o1 <> idmap_string o2.
Proof.
  exists {[ 97%Z := 1; 98%Z := 2 ]}, (map_to_list {[ 97%Z := 1; 98%Z := 2 ]}), (rev (map_to_list {[ 97%Z := 1; 98%Z := 2 ]})).
  split; [done|]. split; [symmetry; apply Permutation_rev|]. vm_compute. discriminate.
Qed.
Print Assumptions C70_order_refuted.
(** An empty list and a list with an empty name; a comma in a word; a letter that is no code
    point; nodes whose texts have commas. *)
Theorem C70_ambiguous_refuted :
  (exists s t : list tag, map tag_name s <> map tag_name t /\ dag_tagset_string s = dag_tagset_string t) /\
  (exists x y, x <> y /\ word_form_string x = word_form_string y /\ word_form_string x <> Panic) /\
  (exists i j : item, it_letter i <> it_letter j /\ item_string i = item_string j) /\
  (exists g h, g <> h /\ grammeme_string g = grammeme_string h) /\
  (exists o1 o2, length o1 <> length o2 /\ nodemap_string o1 = nodemap_string o2).
Proof.
  split; [exists [], [mkTag [] []]; vm_compute; split; [discriminate|reflexivity]|].
  split; [exists (mkWordForm (bytes_of "a,b") [Some (bytes_of "c")]), (mkWordForm (bytes_of "a") [Some (bytes_of "b"); Some (bytes_of "c")]);
          vm_compute; split; [discriminate|]; split; [reflexivity|discriminate]|].
  split; [exists (mkItem 1 2 (-1)%Z 3), (mkItem 1 2 0x110000%Z 3); vm_compute; split; [discriminate|reflexivity]|].
  split; [exists (mkGrammeme (bytes_of "a") (bytes_of "b/") [] []), (mkGrammeme (bytes_of "/a") (bytes_of "b") [] []); vm_compute; split; [discriminate|reflexivity]|].
  exists [(97%Z, bytes_of "x,`b`:y")], [(97%Z, bytes_of "x"); (98%Z, bytes_of "y")]. vm_compute. split; [discriminate|reflexivity].
Qed.
Print Assumptions C70_ambiguous_refuted.
