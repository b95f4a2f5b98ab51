(** Model of pkg/opencorpora/parser.go with xmlutils.go, form_item.go, lemma_item.go and
    dictionary.go:31-46.  Not modelled: logging, the speed report (it is added in Report.v), and the fields
    that are only written ([collectedData], [parsedForms], the dictionary's attributes, the
    lemma's identifiers and base form). *)
From Verif Require Import Base Storage Tags Items Index DocSpec.
From stdpp Require Import list.
Open Scope N_scope.

(** pkg/opencorpora/form_item.go:10-13: the word and the [VAttr] of its categories. *)
Record form := mkForm { f_text : list N; f_g : list (list N) }.
(** pkg/opencorpora/lemma_item.go:11-20: the categories of [L], and the forms, which are
    pointers.  The slices are lists here; that sharing of their backing arrays does not
    matter is proved in ThmAlias.v (property C44). *)
Record lemma := mkLemma { l_g : list (list N); l_f : list (option form) }.

(** pkg/opencorpora/parser.go:34-53. *)
Record parser := mkParser {
  p_path : list N;
  p_gram : option tag;      (* currentGrammeme *)
  p_lemma : option lemma;   (* currentLemma *)
  p_form : option form;     (* currentForm *)
  p_ix : index;
  p_count : N;              (* parsedLemmas *)
  p_max : Z }.              (* maxLemmas *)

(** The processors a path can have: :179-349. *)
Inductive handler := HMute | HDictionary | HGrammeme | HGrammemeName | HLemma | HL | HLG | HF | HFG.

(** pkg/opencorpora/parser.go:78-98. *)
Definition parsers : list (list N * handler) :=
  [ (bytes_of "", HMute);
    (bytes_of ".dictionary", HDictionary);
    (bytes_of ".dictionary.grammemes", HMute);
    (bytes_of ".dictionary.grammemes.grammeme", HGrammeme);
    (bytes_of ".dictionary.grammemes.grammeme.name", HGrammemeName);
    (bytes_of ".dictionary.grammemes.grammeme.alias", HMute);
    (bytes_of ".dictionary.grammemes.grammeme.description", HMute);
    (bytes_of ".dictionary.restrictions", HMute);
    (bytes_of ".dictionary.restrictions.restr", HMute);
    (bytes_of ".dictionary.restrictions.restr.left", HMute);
    (bytes_of ".dictionary.restrictions.restr.right", HMute);
    (bytes_of ".dictionary.lemmata", HMute);
    (bytes_of ".dictionary.lemmata.lemma", HLemma);
    (bytes_of ".dictionary.lemmata.lemma.l", HL);
    (bytes_of ".dictionary.lemmata.lemma.l.g", HLG);
    (bytes_of ".dictionary.lemmata.lemma.f", HF);
    (bytes_of ".dictionary.lemmata.lemma.f.g", HFG);
    (bytes_of ".dictionary.link_types", HMute);
    (bytes_of ".dictionary.link_types.type", HMute);
    (bytes_of ".dictionary.links", HMute);
    (bytes_of ".dictionary.links.link", HMute) ].
(** [parser.parsers[path]]. *)
Fixpoint handler_in (t : list (list N * handler)) (path : list N) : option handler :=
  match t with
  | [] => None
  | (q, h) :: t' => if decide (q = path) then Some h else handler_in t' path
  end.
Definition handler_at := handler_in parsers.

(** :55-76 and :103-105. *)
Definition parser_new (ix : index) (max : Z) : parser := mkParser [] None None None ix 0 max.

Definition set_path (p : parser) v := mkParser v (p_gram p) (p_lemma p) (p_form p) (p_ix p) (p_count p) (p_max p).
Definition set_gram (p : parser) v := mkParser (p_path p) v (p_lemma p) (p_form p) (p_ix p) (p_count p) (p_max p).
Definition set_lemma (p : parser) v := mkParser (p_path p) (p_gram p) v (p_form p) (p_ix p) (p_count p) (p_max p).
Definition set_form (p : parser) v := mkParser (p_path p) (p_gram p) (p_lemma p) v (p_ix p) (p_count p) (p_max p).
Definition set_ix (p : parser) v := mkParser (p_path p) (p_gram p) (p_lemma p) (p_form p) v (p_count p) (p_max p).
Definition set_count (p : parser) v := mkParser (p_path p) (p_gram p) (p_lemma p) (p_form p) (p_ix p) v (p_max p).

(** pkg/opencorpora/xmlutils.go:11-19 and :37-45 (two copies of the same lookup). *)
Fixpoint get_attr (n : list N) (attrs : list (list N * list N)) : option (list N) :=
  match attrs with
  | [] => None
  | (m, v) :: attrs' => if bool_decide (m = n) then Some v else get_attr n attrs'
  end.
(** pkg/opencorpora/xmlutils.go:47-58: whether an integer attribute is accepted. *)
Definition get_int_attr (c : conv) (n : list N) (attrs : list (list N * list N)) : bool :=
  match get_attr n attrs with Some v => is_int c v | None => false end.
(** pkg/opencorpora/dictionary.go:31-46: whether the attributes are accepted. *)
Fixpoint process_elem (c : conv) (attrs : list (list N * list N)) : bool :=
  match attrs with
  | [] => true
  | (n, v) :: attrs' =>
    if bool_decide (n = bytes_of "version") then
      if is_float c v then process_elem c attrs' else false
    else if bool_decide (n = bytes_of "revision") then
      if is_int c v then process_elem c attrs' else false
    else process_elem c attrs'
  end.

(** The processStart functions. *)
Definition on_start (c : conv) (h : handler) (attrs : list (list N * list N)) (p : parser)
  : parser * outcome :=
  match h with
  | HMute | HGrammemeName => (p, Done)
  | HDictionary => (* :185-187 *)
    (p, if process_elem c attrs then Done else Fail EOpencorpora)
  | HGrammeme => (* :195-205 *)
    match get_attr (bytes_of "parent") attrs with
    | None => (set_gram p (Some (mkTag [] [])), Fail EOpencorpora)
    | Some v => (set_gram p (Some (mkTag v [])), Done)
    end
  | HLemma => (* :265-274 *)
    (set_lemma p (Some (mkLemma [] [])),
     if get_int_attr c (bytes_of "id") attrs then
       if get_int_attr c (bytes_of "rev") attrs then Done else Fail EOpencorpora
     else Fail EOpencorpora)
  | HL => (* :320-327 *)
    match p_lemma p with
    | None => (p, NilDeref)
    | Some _ => (p, match get_attr (bytes_of "t") attrs with Some _ => Done | None => Fail EOpencorpora end)
    end
  | HLG => (* :335-345 *)
    match get_attr (bytes_of "v") attrs with
    | None => (p, Fail EOpencorpora)
    | Some v =>
      match p_lemma p with
      | None => (p, NilDeref)
      | Some l => (set_lemma p (Some (mkLemma (l_g l ++ [v]) (l_f l))), Done)
      end
    end
  | HF => (* :245-251 *)
    match get_attr (bytes_of "t") attrs with
    | None => (set_form p (Some (mkForm [] [])), Fail EOpencorpora)
    | Some v => (set_form p (Some (mkForm v [])), Done)
    end
  | HFG => (* :228-237 *)
    match get_attr (bytes_of "v") attrs with
    | None => (p, Fail EOpencorpora)
    | Some v =>
      match p_form p with
      | None => (p, NilDeref)
      | Some f => (set_form p (Some (mkForm (f_text f) (f_g f ++ [v]))), Done)
      end
    end
  end.

(** The processData functions: only :218-221 does anything. *)
Definition on_chars (h : handler) (data : list N) (p : parser) : parser * outcome :=
  match h with
  | HGrammemeName =>
    match p_gram p with
    | None => (p, NilDeref)
    | Some t => (set_gram p (Some (mkTag (tag_parent t) data)), Done)
    end
  | _ => (p, Done)
  end.

(** The loop :278-299 over the forms of a lemma; form_item.go:32-40 takes the names. *)
Fixpoint lemma_loop (ix : index) (lg : list (list N)) (fs : list (option form)) : index * outcome :=
  match fs with
  | [] => (ix, Done)
  | None :: _ => (ix, NilDeref)
  | Some f :: fs' =>
    match add_string ix (f_text f) with
    | (ix1, Err e) => (ix1, Fail e)
    | (ix1, Panic) => (ix1, IndexPanic)
    | (ix1, Ok id) =>
      match node_add_tag_set ix1 id (lg ++ f_g f) with
      | (ix2, Ok _) => lemma_loop ix2 lg fs'
      | (ix2, Err e) => (ix2, Fail e)
      | (ix2, Panic) => (ix2, IndexPanic)
      end
    end
  end.

(** The processEnd functions. *)
Definition on_end (h : handler) (p : parser) : parser * outcome :=
  match h with
  | HMute | HDictionary | HGrammemeName | HL | HLG | HFG => (p, Done)
  | HGrammeme => (* :207-211 *)
    match p_gram p with
    | None => (p, NilDeref)
    | Some t =>
      (set_gram (set_ix p (index_tag_id (p_ix p) (tag_name t) (tag_parent t)).1) None, Done)
    end
  | HF => (* :253-259 *)
    match p_lemma p with
    | None => (p, NilDeref)
    | Some l => (set_form (set_lemma p (Some (mkLemma (l_g l) (l_f l ++ [p_form p])))) None, Done)
    end
  | HLemma => (* :276-314 *)
    match p_lemma p with
    | None => (p, NilDeref)
    | Some l =>
      match lemma_loop (p_ix p) (l_g l) (l_f l) with
      | (ix, Done) =>
        let p1 := set_count (set_lemma (set_ix p ix) None) (p_count p + 1) in
        (p1, if (0 <? p_max p)%Z && (p_max p <=? Z.of_N (p_count p1))%Z then Fail EControlledStop else Done)
      | (ix, o) => (set_ix p ix, o)
      end
    end
  end.

(** pkg/opencorpora/parser.go:107-123.  An element whose processor has no start function is
    accepted. *)
Definition process_start (c : conv) (p : parser) (name : list N) (attrs : list (list N * list N))
  : parser * outcome :=
  let p1 := set_path p (p_path p ++ dot :: name) in
  match handler_at (p_path p1) with
  | None => (p1, Fail EOpencorpora)
  | Some h => on_start c h attrs p1
  end.
(** :125-139. *)
Definition process_chars (p : parser) (data : list N) : parser * outcome :=
  match handler_at (p_path p) with
  | None => (p, Fail EOpencorpora)
  | Some h => on_chars h data p
  end.
(** :141-160; the deferred function cuts the path also when the processor fails. *)
Definition process_end (p : parser) (name : list N) : parser * outcome :=
  match handler_at (p_path p) with
  | None => (p, Fail EOpencorpora)
  | Some h =>
    let '(p1, o) := on_end h p in
    if (length (p_path p1) <? length name + 1)%nat then (p1, CutPath)
    else (set_path p1 (take (length (p_path p1) - length name - 1) (p_path p1)), o)
  end.
Definition process (c : conv) (p : parser) (e : ev) : parser * outcome :=
  match e with
  | EStart n a => process_start c p n a
  | EEnd n => process_end p n
  | EText s => process_chars p s
  | ENote => (p, Done) (* :162-172 *)
  end.

(** libxml.ParseXMLFile (not in the repository): gives the tokens to the parser one after
    another and stops at the first error. *)
Fixpoint parse (c : conv) (p : parser) (es : list ev) : parser * outcome :=
  match es with
  | [] => (p, Done)
  | e :: es' =>
    match process c p e with
    | (p1, Done) => parse c p1 es'
    | x => x
    end
  end.
