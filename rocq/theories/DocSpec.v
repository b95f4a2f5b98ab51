(** Dictionary documents: XML events and trees, the structure of an OpenCorpora dictionary
    and what it says.  Specification of the parser properties; nothing here refers to the
    model of the parser. *)
From Verif Require Import Base.
From stdpp Require Import list.

(** ** XML *)

(** The tokens of encoding/xml the parser is given.  Names are local names; comments,
    processing instructions and directives are [ENote]. *)
Inductive ev :=
| EStart (name : list N) (attrs : list (list N * list N))
| EEnd (name : list N)
| EText (s : list N)
| ENote.

(** The elements open after the events, innermost first; [None] if an end tag does not match. *)
Fixpoint opens (st : list (list N)) (es : list ev) : option (list (list N)) :=
  match es with
  | [] => Some st
  | EStart n _ :: es' => opens (n :: st) es'
  | EEnd n :: es' =>
    match st with
    | m :: st' => if decide (m = n) then opens st' es' else None
    | [] => None
    end
  | _ :: es' => opens st es'
  end.

Inductive node :=
| Elem (name : list N) (attrs : list (list N * list N)) (kids : list node)
| Text (s : list N)
| Note.
Fixpoint events (n : node) : list ev :=
  match n with
  | Elem name attrs kids => EStart name attrs :: flat_map events kids ++ [EEnd name]
  | Text s => [EText s]
  | Note => [ENote]
  end.

(** The value of the first attribute with the given name. *)
Fixpoint attr (n : string) (attrs : list (list N * list N)) : option (list N) :=
  match attrs with
  | [] => None
  | (m, v) :: attrs' => if decide (m = bytes_of n) then Some v else attr n attrs'
  end.

(** Name characters include the dot (XML 1.0, production [4a]). *)
Definition dot : N := 46%N.
Definition no_dot (n : list N) : Prop := dot ∉ n.
Definition ev_no_dot (e : ev) : Prop :=
  match e with EStart n _ => no_dot n | _ => True end.

(** ** The known structure *)

(** The conversions of package strconv: only whether they succeed matters. *)
Record conv := mkConv { is_int : list N -> bool; is_float : list N -> bool }.

(** The positions an element may have, outermost name first. *)
Definition known_positions : list (list string) :=
  [ [];
    ["dictionary"];
    ["dictionary"; "grammemes"];
    ["dictionary"; "grammemes"; "grammeme"];
    ["dictionary"; "grammemes"; "grammeme"; "name"];
    ["dictionary"; "grammemes"; "grammeme"; "alias"];
    ["dictionary"; "grammemes"; "grammeme"; "description"];
    ["dictionary"; "restrictions"];
    ["dictionary"; "restrictions"; "restr"];
    ["dictionary"; "restrictions"; "restr"; "left"];
    ["dictionary"; "restrictions"; "restr"; "right"];
    ["dictionary"; "lemmata"];
    ["dictionary"; "lemmata"; "lemma"];
    ["dictionary"; "lemmata"; "lemma"; "l"];
    ["dictionary"; "lemmata"; "lemma"; "l"; "g"];
    ["dictionary"; "lemmata"; "lemma"; "f"];
    ["dictionary"; "lemmata"; "lemma"; "f"; "g"];
    ["dictionary"; "link_types"];
    ["dictionary"; "link_types"; "type"];
    ["dictionary"; "links"];
    ["dictionary"; "links"; "link"] ]%string.
Definition known (pos : list (list N)) : bool :=
  bool_decide (pos ∈ map (map bytes_of) known_positions).

Definition has_attr (n : string) (attrs : list (list N * list N)) : bool :=
  match attr n attrs with Some _ => true | None => false end.
Definition has_int (c : conv) (n : string) (attrs : list (list N * list N)) : bool :=
  match attr n attrs with Some v => is_int c v | None => false end.
(** The attributes an element must have, by its position. *)
Definition attrs_ok (c : conv) (pos : list (list N)) (attrs : list (list N * list N)) : bool :=
  let at_pos p := bool_decide (pos = map bytes_of p) in
  if at_pos ["dictionary"]%string then
    forallb (fun '(n, v) =>
      if bool_decide (n = bytes_of "version") then is_float c v
      else if bool_decide (n = bytes_of "revision") then is_int c v else true) attrs
  else if at_pos ["dictionary"; "grammemes"; "grammeme"]%string then has_attr "parent" attrs
  else if at_pos ["dictionary"; "lemmata"; "lemma"]%string then has_int c "id" attrs && has_int c "rev" attrs
  else if at_pos ["dictionary"; "lemmata"; "lemma"; "l"]%string then has_attr "t" attrs
  else if at_pos ["dictionary"; "lemmata"; "lemma"; "f"]%string then has_attr "t" attrs
  else if at_pos ["dictionary"; "lemmata"; "lemma"; "l"; "g"]%string then has_attr "v" attrs
  else if at_pos ["dictionary"; "lemmata"; "lemma"; "f"; "g"]%string then has_attr "v" attrs
  else true.
(** Every element has a known position and the attributes it needs.  [pos] is the position of
    the surrounding element. *)
Fixpoint valid (c : conv) (pos : list (list N)) (n : node) : bool :=
  match n with
  | Elem name attrs kids =>
    known (pos ++ [name]) && attrs_ok c (pos ++ [name]) attrs
    && forallb (valid c (pos ++ [name])) kids
  | Text _ | Note => true
  end.

(** ** What a document says *)

(** The child elements with a given name, in order. *)
Definition elems (n : string) (kids : list node) : list (list (list N * list N) * list node) :=
  omap (fun k => match k with
                 | Elem m a ks => if decide (m = bytes_of n) then Some (a, ks) else None
                 | _ => None
                 end) kids.
Definition texts (kids : list node) : list (list N) :=
  omap (fun k => match k with Text s => Some s | _ => None end) kids.
Definition attr_or_empty (n : string) (attrs : list (list N * list N)) : list N := default [] (attr n attrs).

(** The pieces of text inside the name elements of a grammeme. *)
Definition name_pieces (kids : list node) : list (list N) :=
  flat_map (fun '(_, ks) => texts ks) (elems "name" kids).
(** The [v] attributes of the g elements. *)
Definition g_values (kids : list node) : list (list N) :=
  map (fun '(a, _) => attr_or_empty "v" a) (elems "g" kids).
(** The grammemes of a lemma. *)
Definition lemma_tags (kids : list node) : list (list N) :=
  flat_map (fun '(_, ks) => g_values ks) (elems "l" kids).
(** The forms of a lemma: word and grammemes, the lemma's first. *)
Definition lemma_forms (kids : list node) : list (list N * list (list N)) :=
  map (fun '(a, ks) => (attr_or_empty "t" a, lemma_tags kids ++ g_values ks)) (elems "f" kids).

(** What has to be done for a document, in order. *)
Inductive act :=
| AGram (name parent : list N)
| ALemma (forms : list (list N * list (list N))).
Definition last_or_empty (l : list (list N)) : list N := default [] (last l).
Definition gram_act (g : list (list N * list N) * list node) : act :=
  AGram (last_or_empty (name_pieces g.2)) (attr_or_empty "parent" g.1).
Definition lemma_act (l : list (list N * list N) * list node) : act := ALemma (lemma_forms l.2).
Definition section_acts (k : node) : list act :=
  match k with
  | Elem n _ ks =>
    if decide (n = bytes_of "grammemes") then map gram_act (elems "grammeme" ks)
    else if decide (n = bytes_of "lemmata") then map lemma_act (elems "lemma" ks)
    else []
  | _ => []
  end.
Definition top_acts (k : node) : list act :=
  match k with Elem _ _ ks => flat_map section_acts ks | _ => [] end.
Definition doc_acts (doc : list node) : list act := flat_map top_acts doc.

(** How a parse ends.  The last three are run-time panics: a nil pointer used, the path cut
    below its beginning, and a panic inside a call of the index. *)
Inductive outcome := Done | Fail (e : err) | NilDeref | CutPath | IndexPanic.
