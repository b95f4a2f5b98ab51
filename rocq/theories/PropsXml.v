(** From XML text to the tokens of the parser: C84.  The decoder of encoding/xml is modelled in
    Xml.v; how documents are written is specified in XmlSpec.v; the proofs are in ThmXml.v and
    ThmXmlFile.v. *)
From Verif Require Import Base Storage Utf8 Tags TagSets Variants Items Index DocSpec Parser Calls Spec Hist
  BaseFacts ThmTrie Loader LoaderSpec ThmLoader PropsParser PropsLoader Xml XmlSpec ThmXml ThmXmlFile.
From stdpp Require Import list.
Open Scope N_scope.

(** Any tables of letters will do for these examples. *)
Definition read_text (w : string) : list ev * bool := tokenize (fun _ => true) (fun _ => true) (bytes_of w).
Definition accepted (w : string) : bool := (read_text w).2.
(** The environment of PropsLoader.v, with an archive of one byte that unpacks to [out] and with
    the decoder. *)
Definition xml_env (out : list N) : env :=
  mkEnv false 100%Z false (HResp 200 (LTime 50%Z)) false false false (HResp 200 (LTime 50%Z)) true true (Some (200, [66], true)) true None true
    (fun _ => (out, true)) true None true (tokenize (fun _ => true) (fun _ => true)) ex_conv true None None true.

(** C84.  The decoder reads every way to write a document and gives the document: with
    references, CDATA sections, comments, instructions, declarations, both kinds of quotes, every
    kind of line end, prefixes, and white space where XML allows it.  Every document with proper
    names and texts can be written.  Whatever is accepted is the events of a document, so end tags
    match.  A file that ends inside an element, wherever it is cut, is refused, and the index is
    not touched.  So the chain from the server to the answers (C57) holds for the text of the
    dictionary.  Two things go wrong.  A crash while the dictionary is being unpacked leaves a part
    of the file that is never unpacked again.  And a file without root element, such as an empty
    one, is not refused: it is a dictionary without words, and replaces the index. *)
Theorem C84_every_writing_is_read : forall first more doc w, written_all doc w -> tokenize first more w = (flat_map events doc, true).
Proof. exact l_C84_every_writing_is_read. Qed.
Print Assumptions C84_every_writing_is_read.
Theorem C84_every_document_can_be_written : forall doc, Forall printable doc -> no_neighbours doc -> written_all doc (concat (map print doc)).
Proof. exact l_C84_every_document_can_be_written. Qed.
Print Assumptions C84_every_document_can_be_written.
Theorem C84_what_is_read_is_a_document : forall first more w es, tokenize first more w = (es, true) -> exists doc, es = flat_map events doc.
Proof. exact l_C84_what_is_read_is_a_document. Qed.
Print Assumptions C84_what_is_read_is_a_document.
Theorem C84_a_part_is_refused : forall first more pre wpre n l kids p q,
  written_all pre wpre -> written (Elem n l kids) (p ++ q) -> p <> [] -> q <> [] -> (tokenize first more (wpre ++ p)).2 = false.
Proof. exact l_C84_a_part_is_refused. Qed.
Print Assumptions C84_a_part_is_refused.
Theorem C84_a_part_is_not_compiled : forall first more e s x pre wpre n l kids p q,
  (forall w, e_tokens e w = tokenize first more w) -> fs_xml s = Some x -> f_bytes x = wpre ++ p ->
  written_all pre wpre -> written (Elem n l kids) (p ++ q) -> p <> [] -> q <> [] ->
  parse_file e s = None /\ parse_update e s = ([], Err EOpencorpora).
Proof. exact l_C84_a_part_is_not_compiled. Qed.
Print Assumptions C84_a_part_is_not_compiled.
Theorem C84_crash_in_unpack_refuted : forall first more e s body out pre wpre n l kids w post j, all_works e -> dir_ok e (after1 s UMkdir) = true ->
  fs_bz s = None -> e_get e = Some (200, body, true) -> e_unbz e body = (out, true) ->
  out = wpre ++ w ++ post -> written_all pre wpre -> written (Elem n l kids) w -> (length wpre < j < length wpre + length w)%nat ->
  let s' := after s (take (4 + length body + j) (u_upds (update e s false))) in
  fs_dat s' = fs_dat s /\ fs_bz s' = Some (mkFile body (e_now e)) /\ fs_xml s' = Some (mkFile (take j out) (e_now e)) /\
  forall e' m, e_stat1 e' = false -> e_head1 e' = HResp 200 m -> ~ newer (SFile (e_now e)) m ->
    (forall v, e_tokens e' v = tokenize first more v) -> stuck e' s'.
Proof. exact l_C84_crash_in_unpack_refuted. Qed.
Print Assumptions C84_crash_in_unpack_refuted.
Theorem C84_end_to_end : forall first more e s doc body out ix1 force,
  (forall w, e_tokens e w = tokenize first more w) ->
  all_works e -> dir_ok e (after1 s UMkdir) = true -> fs_bz s = None ->
  e_get e = Some (200%N, body, true) -> e_unbz e body = (out, true) -> written_all doc out ->
  forallb (valid (e_conv e) []) doc = true -> good_acts [] (doc_acts doc) ->
  runs (acts_ops (doc_acts doc) ++ [OOptimize]) ix1 -> disk_caps ix1 = true ->
  all_storable (acts_ops (doc_acts doc)) ->
  u_res (update e s force) = Ok tt /\
  exists ix, load_index (after s (u_upds (update e s force))) = Ok ix /\
    (forall w, head w <> Some 0%Z -> (exists id, (fetch_runes ix w).2 = Ok id) <->
       w <> [] /\ exists t g, (t, g) ∈ forms (doc_acts doc) /\ w `prefix_of` runes_of_string t) /\
    (forall w id, head w <> Some 0%Z -> (fetch_runes ix w).2 = Ok id ->
       node_word ix id = Ok (string_of_runes w) /\
       exists sets, node_tag_sets ix id = Ok sets /\
         (forall t g, (t, g) ∈ forms (doc_acts doc) -> runes_of_string t = w ->
            exists x, x ∈ sets /\ map tag_name x ≡ₚ map name_norm g) /\
         (forall x, x ∈ sets -> exists t g, (t, g) ∈ forms (doc_acts doc) /\ runes_of_string t = w /\
            map tag_name x ≡ₚ map name_norm g)) /\
    (forall w, head w <> Some 0%Z -> (fetch_runes ix w).2 <> Panic).
Proof. exact l_C84_end_to_end. Qed.
Print Assumptions C84_end_to_end.
Theorem C84_compile : forall first more e s x doc ix1,
  (forall w, e_tokens e w = tokenize first more w) -> e_open_xml e = true -> fs_xml s = Some x -> written_all doc (f_bytes x) ->
  e_create_dat e = true -> dir_ok e s = true -> e_room_dat e = None -> e_flush e = None ->
  forallb (valid (e_conv e) []) doc = true -> good_acts [] (doc_acts doc) ->
  runs (acts_ops (doc_acts doc) ++ [OOptimize]) ix1 -> disk_caps ix1 = true ->
  all_storable (acts_ops (doc_acts doc)) ->
  (parse_update e s).2 = Ok tt /\
  exists ix, load_index (after s (parse_update e s).1) = Ok ix /\
    (forall w, head w <> Some 0%Z -> (exists id, (fetch_runes ix w).2 = Ok id) <->
       w <> [] /\ exists t g, (t, g) ∈ forms (doc_acts doc) /\ w `prefix_of` runes_of_string t) /\
    (forall w id, head w <> Some 0%Z -> (fetch_runes ix w).2 = Ok id ->
       node_word ix id = Ok (string_of_runes w) /\
       exists sets, node_tag_sets ix id = Ok sets /\
         (forall t g, (t, g) ∈ forms (doc_acts doc) -> runes_of_string t = w ->
            exists x, x ∈ sets /\ map tag_name x ≡ₚ map name_norm g) /\
         (forall x, x ∈ sets -> exists t g, (t, g) ∈ forms (doc_acts doc) /\ runes_of_string t = w /\
            map tag_name x ≡ₚ map name_norm g)) /\
    (forall w, head w <> Some 0%Z -> (fetch_runes ix w).2 <> Panic).
Proof. exact l_C84_compile. Qed.
Print Assumptions C84_compile.
Theorem C84_no_root_is_an_empty_dictionary_refuted : forall first more e s x doc,
  (forall w, e_tokens e w = tokenize first more w) -> e_open_xml e = true -> fs_xml s = Some x -> written_all doc (f_bytes x) ->
  e_create_dat e = true -> dir_ok e s = true -> e_room_dat e = None -> e_flush e = None ->
  (forall n l kids, Elem n l kids ∉ doc) ->
  (parse_update e s).2 = Ok tt /\
  exists ix, load_index (after s (parse_update e s).1) = Ok ix /\
    forall w, head w <> Some 0%Z -> exists er, (fetch_runes ix w).2 = Err er.
Proof. exact l_C84_no_root_is_an_empty_dictionary_refuted. Qed.
Print Assumptions C84_no_root_is_an_empty_dictionary_refuted.
Example C84_case :
  read_text "<?xml version=""1.0"" encoding=""utf-8"" standalone=""yes""?><!DOCTYPE a [<!ELEMENT b (c)> <!-- > -->]><d v='0.92' r = ""4&#49;&#x31;""><a:b x:y='&lt;""&amp;'/>te&gt;xt<![CDATA[ <&]] ]]><!-- no - --><q></q ></d>"
  = ([ENote; ENote; EStart (bytes_of "d") [(bytes_of "v", bytes_of "0.92"); (bytes_of "r", bytes_of "411")];
      EStart (bytes_of "b") [(bytes_of "y", bytes_of "<""&")]; EEnd (bytes_of "b"); EText (bytes_of "te>xt"); EText (bytes_of " <&]] "); ENote;
      EStart (bytes_of "q") []; EEnd (bytes_of "q"); EEnd (bytes_of "d")], true).
Proof. vm_compute. reflexivity. Qed.
Print Assumptions C84_case.
(** What is refused: wrong nesting, a wrong prefix, text that is not closed, a bad reference, a
    bare <, two hyphens in a comment, ]]> in text, another encoding or version. *)
Example C84_refused_case :
  map accepted ["<a></b>"; "<a></x:a>"; "<a>"; "</a>"; "<a/"; "<a b=c/>"; "<a b/>"; "<a b='<'/>"; "<a>&nbsp;</a>"; "<a>&#x110000;</a>"; "<a>& </a>";
    "<a>< </a>"; "<!-- -- -->"; "a]]>"; "<![CDATA[ ]]"; "<?xml version=""1.1""?>"; "<?xml version=""1.0"" encoding=""koi8-r""?>"; "<1a/>"; "a&lt"; "<a::b/>"; "<a:b:c/>"]%string
  = repeat false 21 /\
  map accepted ["<a></a>"; "<x:a></x:a>"; "<a/> <a/>"; "a]]&gt;"; ""; "text"; "<?xml version='1.0' encoding='UTF-8'?>"]%string = repeat true 7.
Proof. vm_compute. split; reflexivity. Qed.
Print Assumptions C84_refused_case.
(** Characters that XML does not allow, and bytes that are no characters. *)
Example C84_characters_case :
  forallb (fun w => negb (tokenize (fun _ => true) (fun _ => true) w).2)
    [[1]; [0]; [65; 31]; [255]; [195]; [237; 160; 128]; [239; 191; 190]; bytes_of "<a b='" ++ [8] ++ bytes_of "'/>"; bytes_of "&#1;"; bytes_of "<![CDATA[" ++ [1] ++ bytes_of "]]>"] = true /\
  forallb (fun w => (tokenize (fun _ => true) (fun _ => true) w).2) [[9]; [13]; [32]; [127]; [195; 169]; [237; 159; 191]; [240; 144; 128; 128]; bytes_of "&#9;"] = true /\
  read_text "<:a b:='1'/>" = ([EStart (bytes_of ":a") [(bytes_of "b:", bytes_of "1")]; EEnd (bytes_of ":a")], true) /\
  tokenize (fun r => (r =? 233)%Z) (fun _ => false) [60; 195; 169; 47; 62] = ([EStart [195; 169] []; EEnd [195; 169]], true) /\
  (tokenize (fun _ => false) (fun _ => true) [60; 195; 169; 47; 62]).2 = false /\
  (tokenize (fun _ => false) (fun _ => true) [60; 97; 195; 169; 47; 62]).2 = true /\
  (tokenize (fun _ => false) (fun _ => false) [60; 97; 195; 169; 47; 62]).2 = false.
Proof. vm_compute. repeat (split; [reflexivity|]). reflexivity. Qed.
Print Assumptions C84_characters_case.
(** A written document that is not the printed one. *)
Example C84_written_case :
  written_all [Note; Text [10]; Elem (bytes_of "b") [(bytes_of "y", bytes_of "<1")] [Text (bytes_of "A&"); Elem (bytes_of "c") [] []; Text (bytes_of "<")]]
    (bytes_of "<?xml version='1.0'?>" ++ [13; 10] ++ bytes_of "<a:b  y = '&lt;1'>&#65;&amp;<c /><![CDATA[<]]></a:b >").
Proof.
  assert (F : forall v, 62 ∉ v -> free_of [93; 93; 62] v) by (intros v Hv a b ->; apply Hv; set_solver).
  assert (L : forall v, text_ok v = true -> legal v) by (intros v Hv; by apply (legal_text_ok (fun _ => true) (fun _ => true))).
  assert (P : forall b, (97 <=? b) && (b <=? 122) = true -> plain_name [b]).
  { intros b [H1%N.leb_le H2%N.leb_le]%andb_true_iff. exists b, []. repeat split; [|constructor]. unfold letter. lia. }
  assert (Hq : white [32]) by (repeat constructor; by left).
  eapply (wa_cons _ _ (bytes_of "<?xml version='1.0'?>")); [| |left; reflexivity].
  { apply (w_declaration [32] (bytes_of "version='1.0'")); [done|done|]. apply (x_version 39 [] [] [] [] []); try constructor; try done; by right. }
  eapply (wa_cons _ _ [13; 10]); [| |right; right; reflexivity].
  { apply w_text; [done|by apply c_crlf; constructor|apply L; by vm_compute|apply F; set_solver]. }
  eapply (wa_cons _ _ (bytes_of "<a:b  y = '&lt;1'>&#65;&amp;<c /><![CDATA[<]]></a:b >") []); [|constructor|by right; left].
  apply (w_element _ _ _ (bytes_of "a:b") (bytes_of "  y = '&lt;1'") [] (bytes_of "&#65;&amp;<c /><![CDATA[<]]>") [32]).
  - apply (q_prefix _ [97]); by apply P.
  - apply (a_cons (bytes_of "y") (bytes_of "<1") [] [32; 32] (bytes_of "y") [32] [32] 39 (bytes_of "&lt;1") []); try done.
    + repeat constructor; by left.
    + by apply q_plain, P.
    + by right.
    + exact (c_ref (Some 39) _ _ (bytes_of "1") _ r_lt (c_byte (Some 39) 49 [] [] ltac:(done) ltac:(done) ltac:(done) ltac:(done) (c_nil _))).
    + apply L; by vm_compute.
    + apply F. vm_compute. set_solver.
    + constructor.
  - constructor.
  - eapply (wa_cons _ _ (bytes_of "&#65;&amp;")); [| |right; right; reflexivity].
    { apply w_text; [done| |apply L; by vm_compute|apply F; vm_compute; set_solver].
      assert (R : refers (35 :: [54; 53]) (string_of_rune (Z.of_N 65))) by (apply r_dec; [done|repeat constructor; unfold digit; lia|done|lia]).
      exact (c_ref None _ _ (bytes_of "&") _ R (c_ref None _ _ [] _ r_amp (c_nil _))). }
    eapply (wa_cons _ _ (bytes_of "<c />")); [| |left; reflexivity].
    { apply (w_empty _ _ (bytes_of "c") [] [32]); [by apply q_plain, P|constructor|done]. }
    eapply (wa_cons _ _ (bytes_of "<![CDATA[<]]>") []); [|constructor|by right; left].
    apply (w_cdata _ (bytes_of "<")); [apply d_byte; [done|constructor]|apply L; by vm_compute|apply F; vm_compute; set_solver].
  - done.
Qed.
Print Assumptions C84_written_case.
(** The document of PropsParser.v, written and sent by the server.  All its parts are refused
    except those that end before the root element. *)
Definition ex_text : list N := concat (map print ex_doc).
Example C84_end_to_end_case :
  written_all ex_doc ex_text /\
  let s := after PropsLoader.fresh (u_upds (update (xml_env ex_text) PropsLoader.fresh false)) in
  finds s "cats" = Ok [[bytes_of "NOUN"; bytes_of "plur"]] /\ finds s "dog" = Err EIndex /\
  forallb (fun j => negb (tokenize (fun _ => true) (fun _ => true) (take j ex_text)).2) (seq 8 (length ex_text - 8)) = true.
Proof.
  split.
  - apply l_C84_every_document_can_be_written; [|vm_compute; naive_solver].
    assert (P : forall b n, forallb (fun c => (97 <=? c) && (c <=? 122)) (b :: n) = true -> plain_name (b :: n)).
    { intros b n H. rewrite forallb_forall in H. assert (Q : forall c, c ∈ b :: n -> letter c).
      { intros c Hc. apply elem_of_list_In in Hc. specialize (H c Hc). unfold letter. apply andb_true_iff in H as [H1%N.leb_le H2%N.leb_le]. lia. }
      exists b, n. split; [done|]. split; [left; apply Q; by left|]. apply Forall_forall. intros c Hc. left. apply Q. by right. }
    assert (L : forall v, text_ok v = true -> legal v) by (intros v Hv; by apply (legal_text_ok (fun _ => true) (fun _ => true))).
    repeat first [ apply Forall_cons_2 | apply Forall_nil_2 | exact I | split | (apply P; reflexivity) | (apply L; reflexivity) | discriminate | (intros [? ?]; discriminate) ].
  - vm_compute. repeat (split; [reflexivity|]). reflexivity.
Qed.
Print Assumptions C84_end_to_end_case.
(** The index that knows cats is replaced by one that knows nothing, after a crash at the
    beginning of unpacking. *)
Example C84_emptied_case :
  let s := after PropsLoader.fresh (u_upds (update (xml_env ex_text) PropsLoader.fresh false)) in
  let cut := after (fset s FBz None) (take 5 (u_upds (update (xml_env ex_text) (fset s FBz None) false))) in
  finds cut "cats" = Ok [[bytes_of "NOUN"; bytes_of "plur"]] /\ fs_xml cut = Some (mkFile [] 100%Z) /\
  let u := update (xml_env ex_text) cut true in
  u_res u = Ok tt /\ finds (after cut (u_upds u)) "cats" = Err EIndex /\ loads (after cut (u_upds u)) = true.
Proof. vm_compute. repeat (split; [reflexivity|]). reflexivity. Qed.
Print Assumptions C84_emptied_case.
