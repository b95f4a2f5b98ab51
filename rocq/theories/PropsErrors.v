(** Errors and errors.Is: C85.  The proofs are in ThmErrors.v. *)
From Verif Require Import Base Index DocSpec Parser Loader Errors ErrorSpec ThmErrors PropsLoader PropsXml.
From stdpp Require Import list.
Open Scope N_scope.

(** C85.  errors.Is finds exactly what is in the chain.  Every error of the functions of package
    index that work on a whole index, of LoadIndex and of SaveIndex is recognised as the error of
    its package, and its cause is forgotten; the functions that let the cause out are exactly those
    listed.  Only the controlled stop itself is recognised as such, and ParseUpdate never returns
    it.  Violated (the names end in _refuted): ParseUpdate and Update return errors that are not
    the error of the package, and most errors of the sets of package storage are not recognised as
    such.  The error of ParseUpdate tells whether the file could not be opened and whether the
    index refused a word. *)
Theorem C85_is : forall e t, is_err e t = true <-> contains e t.
Proof. exact l_C85_is. Qed.
Print Assumptions C85_is.
Theorem C85_index : forall f, always f SIndex <-> f ∈
  [FTagSetRead; FTagSetWrite; FTagSetWriteTo; FTableRead; FTableWrite; FSetsRead; FSetsWrite;
   FCollectionRead; FCollectionWrite; FColTableRead; FColTableWrite; FColsRead; FColsWrite;
   FSecTagsRead; FSecTagsWrite; FSecSetsRead; FSecSetsWrite; FSecColsRead; FSecColsWrite; FSecItemsRead; FSecItemsWrite;
   FIndexRead; FIndexWrite; FGet; FAddToNode; FAddRunes; FAddString;
   FFetchFromItem; FFetchItemFromParent; FFetchRunes; FFetchString; FAddTagSet].
Proof. exact l_C85_index. Qed.
Print Assumptions C85_index.
Theorem C85_index_outside : forall f, sometimes f SIndex /\ ~ always f SIndex <-> f ∈
  [FItemsWrite; FHandlerEnd; FEnd; FParseXML; FParseUpdate; FUpdate].
Proof. exact l_C85_index_outside. Qed.
Print Assumptions C85_index_outside.
Theorem C85_opencorpora : forall f, always f SOpencorpora <-> f ∈
  [FProcessElem; FHandlerStart; FStart; FChars; FLoad; FSave].
Proof. exact l_C85_opencorpora. Qed.
Print Assumptions C85_opencorpora.
Theorem C85_opencorpora_not_always_refuted : forall f, sometimes f SOpencorpora /\ ~ always f SOpencorpora <-> f ∈
  [FHandlerEnd; FEnd; FParseXML; FParseUpdate; FUpdate].
Proof. exact l_C85_opencorpora_not_always_refuted. Qed.
Print Assumptions C85_opencorpora_not_always_refuted.
Theorem C85_cause : forall f, shows_cause f <-> f ∈
  [FItemRead; FItemWrite; FItemsRead; FItemsWrite; FTagSetReadFrom; FMakePath; FParseXML;
   FIsRequired; FDownload; FUnpack; FParseUpdate; FUpdate; FSet8Read; FSet8Write; FSet16Read; FSet16Write].
Proof. exact l_C85_cause. Qed.
Print Assumptions C85_cause.
Theorem C85_stop : forall f e, gives f e ->
  (contains e (Declared SStop) <-> e = Declared SStop) /\
  (contains e (Declared SStop) -> f = FHandlerEnd \/ f = FEnd \/ f = FParseXML).
Proof. exact l_C85_stop. Qed.
Print Assumptions C85_stop.
Theorem C85_stays_inside : forall f,
  (sometimes f SNilWriter <-> f = FSetsWrite) /\ (sometimes f SNilReader <-> f = FSetsRead) /\
  (sometimes f SGrammar <-> f ∈ [FNameMarshal; FNameUnmarshal; FNameRead; FNameWrite; FTagRead; FTagWrite]) /\
  (sometimes f SUnmarshal <-> f = FTagsRead) /\ (sometimes f SMarshal <-> f = FTagsWrite).
Proof. exact l_C85_stays_inside. Qed.
Print Assumptions C85_stays_inside.
Theorem C85_storage_refuted : forall f,
  (sometimes f SStorage <-> f = FSet8Write \/ f = FSet16Write) /\ ~ always f SStorage /\
  (sometimes f SSet8 <-> f = FSet8Write) /\ (sometimes f SSet16 <-> f = FSet16Write).
Proof. exact l_C85_storage_refuted. Qed.
Print Assumptions C85_storage_refuted.
Theorem C85_parser : forall c ix mx es p x, parse c (parser_new ix mx) es = (p, Fail x) ->
  gives FParseXML (parser_error x) /\
  (contains (parser_error x) (Declared SStop) <-> x = EControlledStop) /\
  (contains (parser_error x) (Declared SIndex) <-> x = EIndex) /\
  (contains (parser_error x) (Declared SOpencorpora) <-> x = EOpencorpora \/ x = EControlledStop).
Proof. exact l_C85_parser. Qed.
Print Assumptions C85_parser.
Theorem C85_parse_update : forall e s,
  (parse_update_error e s = None <-> (parse_update e s).2 = Ok tt) /\
  (forall x, parse_update_error e s = Some x -> gives FParseUpdate x /\ (parse_update e s).2 = Err EOpencorpora).
Proof. exact l_C85_parse_update. Qed.
Print Assumptions C85_parse_update.
Theorem C85_compile_cause : forall e s x, parse_update_error e s = Some x ->
  (contains x (Declared SOpencorpora) <-> ~ contains x (Declared SIndex) /\ ~ exists n, contains x (Foreign n)) /\
  ~ contains x (Declared SStop) /\
  (contains x (Foreign 0) <-> e_open_xml e = false \/ fs_xml s = None) /\
  (contains x (Declared SIndex) <-> exists f, e_open_xml e = true /\ fs_xml s = Some f /\
     (parse (e_conv e) (parser_new index_new 0) (e_tokens e (f_bytes f)).1).2 = Fail EIndex).
Proof. exact l_C85_compile_cause. Qed.
Print Assumptions C85_compile_cause.
(** All the ways out of the set of 8 bit numbers. *)
Example C85_table_case :
  is_err (Around (Declared SSet8)) (Declared SStorage) = true /\
  is_err (Around (Foreign 7)) (Declared SStorage) = false /\
  is_err (Around (Foreign 7)) (Foreign 7) = true /\
  is_err (Declared SDagIndex) (Declared SIndex) = false /\
  all_errors FSet8Write = [Around (Declared SSet8); Around (Foreign 0)] /\
  all_errors FUpdate = [Foreign 0; Text; Foreign 0; Text; Foreign 0; Foreign 0; Foreign 0; Foreign 0;
    Around (Declared SOpencorpora); Around (Foreign 0); Around (Around (Declared SOpencorpora));
    Around (Around (Declared SOpencorpora)); Around (Around (Declared SOpencorpora)); Around (Around (Declared SOpencorpora));
    Around (Around (Declared SOpencorpora)); Around (Around (Around (Declared SIndex)));
    Around (Around (Around (Declared SIndex))); Around (Around (Around (Declared SIndex))); Around (Around (Around (Declared SIndex)));
    Around (Declared SOpencorpora)].
Proof. vm_compute. repeat split; reflexivity. Qed.
(** Four dictionaries: an unknown grammeme and an empty form are errors of the index and not of
    package opencorpora, an unknown element is an error of the package, a file that ends too early
    is one of the XML decoder. *)
Definition in_file (t : string) : fs := mkFs None (Some (mkFile (bytes_of t) 5%Z)) None true false.
Definition error_of (t : string) : option error := parse_update_error (xml_env []) (in_file t).
Example C85_unknown_grammeme_refuted :
  let x := error_of "<dictionary><lemmata><lemma id='7' rev='7'><f t='a'><g v='NOUN'/></f></lemma></lemmata></dictionary>" in
  let y := error_of "<dictionary><lemmata><lemma id='7' rev='7'><f t=''/></lemma></lemmata></dictionary>" in
  x = Some (Around (Around (Around (Declared SIndex)))) /\ y = x /\
  match x with Some v => is_err v (Declared SOpencorpora) = false /\ is_err v (Declared SIndex) = true | None => False end.
Proof. vm_compute. repeat split; reflexivity. Qed.
Example C85_other_case :
  error_of "<dictionary><new/></dictionary>" = Some (Around (Around (Declared SOpencorpora))) /\
  error_of "<dictionary><lemmata>" = Some (Around (Foreign 1)) /\
  parse_update_error (xml_env []) PropsLoader.fresh = Some (Around (Foreign 0)) /\
  error_of "<dictionary/>" = None.
Proof. vm_compute. repeat split; reflexivity. Qed.
