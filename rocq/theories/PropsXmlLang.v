(** Exactly which texts the decoder accepts: C89.  The language is specified in XmlLang.v; the
    proofs are in ThmXmlLang.v and ThmXmlLangFile.v. *)
From Verif Require Import Base Storage Utf8 Tags TagSets Variants Items Index DocSpec Parser Calls Spec Hist
  BaseFacts Loader LoaderSpec PropsParser PropsLoader Xml XmlSpec XmlLang PropsXml ThmXmlLang ThmXmlLangFile.
From stdpp Require Import list.
Open Scope N_scope.

(** No rune above 127 is a letter here but U+0436. *)
Definition zhe (r : Z) : bool := (r =? 0x436)%Z.
Definition none (r : Z) : bool := false.

(** C89.  The decoder accepts a text exactly if it is in the language of XmlLang.v, and then gives
    the events of the document that it is a text of; there is only one.  The language contains
    every way to write a document (C84) and more, which is not XML: attributes without a space
    between them, several roots or none, declarations anywhere.  A dictionary file outside the
    language is refused and nothing is written; one inside it compiles exactly if all its elements
    are known with the attributes needed and the calls it stands for succeed, and the index is
    what these calls make. *)
Theorem C89_accepts_exactly : forall first more w es,
  tokenize first more w = (es, true) <-> exists doc, es = flat_map events doc /\ accepts_all first more doc w.
Proof. exact l_C89_accepts_exactly. Qed.
Print Assumptions C89_accepts_exactly.
Theorem C89_one_reading : forall first more doc doc' w, accepts_all first more doc w -> accepts_all first more doc' w -> doc = doc'.
Proof. exact l_C89_one_reading. Qed.
Print Assumptions C89_one_reading.
Theorem C89_wider_than_XML : forall first more doc w, written_all doc w -> accepts_all first more doc w.
Proof. exact l_C89_wider_than_XML. Qed.
Print Assumptions C89_wider_than_XML.
Theorem C89_refused_files : forall first more e s x,
  (forall w, e_tokens e w = tokenize first more w) -> fs_xml s = Some x ->
  (forall doc, ~ accepts_all first more doc (f_bytes x)) -> parse_update e s = ([], Err EOpencorpora).
Proof. exact l_C89_refused_files. Qed.
Print Assumptions C89_refused_files.
Theorem C89_which_files_compile : forall first more e s x doc ix,
  (forall w, e_tokens e w = tokenize first more w) -> e_open_xml e = true -> fs_xml s = Some x ->
  accepts_all first more doc (f_bytes x) -> Forall ev_no_dot (flat_map events doc) ->
  parse_file e s = Some ix <-> forallb (valid (e_conv e) []) doc = true /\ call_acts index_new (doc_acts doc) = (ix, Done).
Proof. exact l_C89_which_files_compile. Qed.
Print Assumptions C89_which_files_compile.
(** Accepted, though not XML. *)
Example C89_accepted_case :
  accepts_all zhe none
    [Elem (bytes_of "a") [(bytes_of "b", bytes_of "1"); (bytes_of "c", bytes_of "2")] [Elem [208; 182] [] []]; Note; Text (bytes_of "x"); Note; Elem (bytes_of "c") [] []]
    (bytes_of "<a b='1'c='2'><" ++ [208; 182] ++ bytes_of "/></a><?a!?>x<?xml?><c></c >").
Proof.
  destruct (proj1 (l_C89_accepts_exactly zhe none (bytes_of "<a b='1'c='2'><" ++ [208; 182] ++ bytes_of "/></a><?a!?>x<?xml?><c></c >")
    (flat_map events [Elem (bytes_of "a") [(bytes_of "b", bytes_of "1"); (bytes_of "c", bytes_of "2")] [Elem [208; 182] [] []]; Note; Text (bytes_of "x"); Note; Elem (bytes_of "c") [] []])))
    as (doc & E & H); [vm_compute; reflexivity|].
  destruct (events_inj _ doc [] [] (or_introl eq_refl) (or_introl eq_refl) (f_equal (fun l => l ++ []) E)) as [-> _]. exact H.
Qed.
Print Assumptions C89_accepted_case.
(** The same built by hand from the rules, for a shorter text. *)
Example C89_rules_case :
  accepts_all none none [Elem (bytes_of "b") [(bytes_of "c", bytes_of "<")] [Text (bytes_of "t")]] (bytes_of "<a:b c='&lt;' >t</a:b>").
Proof.
  assert (N1 : forall b, letter b -> any_name none none [b]).
  { intros b Hb. exists (Z.of_N b), []. split; [|split; [|split; [left; exists b; split; [done|by left]|done]]].
    - unfold letter in Hb. assert (H : forall k, (k < 128)%nat -> string_of_runes [Z.of_nat k] = [N.of_nat k]).
      { intros k Hk. do 128 (destruct k as [|k]; [reflexivity|]). lia. }
      specialize (H (N.to_nat b)). rewrite N2Nat.id, N_nat_Z in H. symmetry. apply H. lia.
    - constructor; [|done]. unfold letter in Hb. unfold scalar. lia. }
  assert (L : forall v, text_ok v = true -> legal v) by (intros v; apply legal_iff).
  change (bytes_of "<a:b c='&lt;' >t</a:b>") with (((60 :: [97; 58; 98] ++ [32; 99; 61; 39; 38; 108; 116; 59; 39] ++ [32] ++ [62]) ++ [116] ++ (60 :: 47 :: [97; 58; 98] ++ [] ++ [62])) ++ []).
  apply aa_cons; [|constructor|by left]. apply (ac_element none none (bytes_of "a") (bytes_of "b")).
  - exists 97%Z, [58; 98]%Z. split; [reflexivity|]. split; [repeat constructor; unfold scalar; lia|]. split; [left; exists 97; split; [done|left; unfold letter; lia]|].
    constructor; [|constructor; [|done]]; left; [exists 58; split; [done|by right; right; right; left]|exists 98; split; [done|left; unfold letter; lia]].
  - apply (p_both (bytes_of "a") (bytes_of "b")); [done..| |]; by intros H%elem_of_list_singleton.
  - apply (ar_cons none none [] (bytes_of "c") (bytes_of "<") [] [32] (bytes_of "c") [] [] 39 (bytes_of "&lt;") []).
    + by constructor; [left|].
    + apply (N1 99). unfold letter. lia.
    + apply p_whole. by intros H%elem_of_list_singleton.
    + constructor.
    + constructor.
    + by right.
    + apply (c_ref (Some 39) (bytes_of "lt") [60] [] []); [exact r_lt|constructor].
    + by apply L.
    + intros a b E. do 4 (destruct a as [|? a]; [discriminate E|injection E as <- E]). by destruct a.
    + constructor.
  - right. exists 32, [99; 61; 39; 38; 108; 116; 59; 39]. split; [done|]. by constructor; [left|].
  - by constructor; [left|].
  - change [116] with ([116] ++ []). apply aa_cons; [|constructor|by right; left]. apply ac_text; [done|by repeat constructor|by apply L|].
    intros a b E. do 1 (destruct a as [|? a]; [discriminate E|injection E as <- E]). by destruct a.
  - constructor.
Qed.
Print Assumptions C89_rules_case.
(** Refused, whatever the letters are. *)
Example C89_refused_case : forall w first more doc,
  w ∈ map bytes_of ["<a>&nbsp;</a>"; "a]]>"; "<a></b>"; "<x:a></y:a>"; "<a>"; "<a b=1/>"; "<a:b:c/>"; "<?xml version=""1.1""?>"; "<!--a--b-->"; "<?1?>"]%string ->
  ~ accepts_all first more doc w.
Proof.
  intros w fr mr doc Hw H. assert (E := proj2 (l_C89_accepts_exactly fr mr w _) (ex_intro _ doc (conj eq_refl H))).
  repeat (apply elem_of_cons in Hw as [-> |Hw]; [vm_compute in E; discriminate E|]). by apply elem_of_nil in Hw.
Qed.
Print Assumptions C89_refused_case.
(** A dictionary that is not XML compiles; with a reference that does not exist it is refused. *)
Example C89_dictionary_case :
  let s t := fset PropsLoader.fresh FXml (Some (mkFile (bytes_of t) 1%Z)) in
  (if parse_file (xml_env []) (s "<dictionary revision='7'version='0.92'><grammemes/></dictionary><!x>")%string then true else false) = true /\
  parse_update (xml_env []) (s "<dictionary revision='7' version='0.92'><grammemes/>&nbsp;</dictionary>")%string = ([], Err EOpencorpora) /\
  parse_update (xml_env []) (s "<dictionary revision='7' version='0.92'><unknown/></dictionary>")%string = ([], Err EOpencorpora).
Proof. vm_compute. repeat (split; [reflexivity|]). reflexivity. Qed.
Print Assumptions C89_dictionary_case.
