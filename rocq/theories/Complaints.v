(** Model of the texts of the errors of pkg/opencorpora/parser.go (with xmlutils.go and
    dictionary.go:31-46).  The functions are those of Parser.v with the text in place of the kind
    of the error; those of the index are in Messages.v. *)
From Verif Require Import Base Storage Tags Items Index DocSpec Parser Messages.
From stdpp Require Import list.
Open Scope N_scope.

(** What other packages say: [%v] of a list of attributes (package fmt), and the errors of
    [strconv.Atoi] and [strconv.ParseFloat] for a text. *)
Record voice := mkVoice {
  v_attrs : list (list N * list N) -> list N;
  v_int : list N -> list N;
  v_float : list N -> list N }.

(** pkg/opencorpora/errors.go:7 [Error], and [fmt.Errorf("%w: ...", Error, ...)]. *)
Definition corpora_error (text : list N) : list N := bytes_of "opencorpora: " ++ text.
(** A text between backquotes. *)
Definition quoted (s : list N) : list N := bytes_of "`" ++ s ++ bytes_of "`".
(** pkg/opencorpora/xmlutils.go:11-19, :37-45. *)
Definition attr_said (n : list N) (attrs : list (list N * list N)) : said (list N) :=
  match get_attr n attrs with Some x => Fine x | None => Failed (bytes_of "missed attr " ++ quoted n) end.
(** :47-58. *)
Definition int_attr_said (v : voice) (c : conv) (n : list N) (attrs : list (list N * list N)) : said unit :=
  match attr_said n attrs with
  | Fine x => if is_int c x then Fine tt else Failed (bytes_of "attr " ++ quoted n ++ bytes_of " value: " ++ v_int v x)
  | Failed t => Failed t
  | Crashed => Crashed
  end.
(** pkg/opencorpora/parser.go:232, :248, :268, :271, :322, :339. *)
Definition of_attrs (v : voice) (attrs : list (list N * list N)) (t : list N) : list N :=
  corpora_error (v_attrs v attrs ++ bytes_of ": " ++ t).
(** pkg/opencorpora/dictionary.go:31-46. *)
Fixpoint elem_said (v : voice) (c : conv) (attrs : list (list N * list N)) : said unit :=
  match attrs with
  | [] => Fine tt
  | (n, x) :: attrs' =>
    if bool_decide (n = bytes_of "version") then
      if is_float c x then elem_said v c attrs'
      else Failed (corpora_error (bytes_of "parse: dictionary.version: " ++ quoted x ++ bytes_of ": " ++ v_float v x))
    else if bool_decide (n = bytes_of "revision") then
      if is_int c x then elem_said v c attrs'
      else Failed (corpora_error (bytes_of "parse: dictionary.revision: " ++ quoted x ++ bytes_of ": " ++ v_int v x))
    else elem_said v c attrs'
  end.

(** The processStart functions, as [on_start] of Parser.v. *)
Definition on_start_said (v : voice) (c : conv) (h : handler) (attrs : list (list N * list N)) (p : parser)
  : parser * said unit :=
  match h with
  | HMute | HGrammemeName => (p, Fine tt)
  | HDictionary => (p, elem_said v c attrs)
  | HGrammeme => (* :195-205 *)
    match get_attr (bytes_of "parent") attrs with
    | None => (set_gram p (Some (mkTag [] [])), Failed (corpora_error (bytes_of "required parent attr")))
    | Some x => (set_gram p (Some (mkTag x [])), Fine tt)
    end
  | HLemma => (* :265-274 *)
    (set_lemma p (Some (mkLemma [] [])),
     match int_attr_said v c (bytes_of "id") attrs with
     | Failed t => Failed (of_attrs v attrs t)
     | Crashed => Crashed
     | Fine _ =>
       match int_attr_said v c (bytes_of "rev") attrs with
       | Failed t => Failed (of_attrs v attrs t)
       | x => x
       end
     end)
  | HL => (* :320-327 *)
    match p_lemma p with
    | None => (p, Crashed)
    | Some _ => (p, match attr_said (bytes_of "t") attrs with Failed t => Failed (of_attrs v attrs t) | _ => Fine tt end)
    end
  | HLG => (* :335-345 *)
    match attr_said (bytes_of "v") attrs with
    | Failed t => (p, Failed (of_attrs v attrs t))
    | Crashed => (p, Crashed)
    | Fine x =>
      match p_lemma p with
      | None => (p, Crashed)
      | Some l => (set_lemma p (Some (mkLemma (l_g l ++ [x]) (l_f l))), Fine tt)
      end
    end
  | HF => (* :245-251 *)
    match attr_said (bytes_of "t") attrs with
    | Failed t => (set_form p (Some (mkForm [] [])), Failed (of_attrs v attrs t))
    | Crashed => (p, Crashed)
    | Fine x => (set_form p (Some (mkForm x [])), Fine tt)
    end
  | HFG => (* :228-237 *)
    match attr_said (bytes_of "v") attrs with
    | Failed t => (p, Failed (of_attrs v attrs t))
    | Crashed => (p, Crashed)
    | Fine x =>
      match p_form p with
      | None => (p, Crashed)
      | Some f => (set_form p (Some (mkForm (f_text f) (f_g f ++ [x]))), Fine tt)
      end
    end
  end.
(** The processEnd functions, as [on_end] of Parser.v; only that of a lemma has errors: :17, :276-314. *)
Definition on_end_said (h : handler) (p : parser) : parser * said unit :=
  match h, p_lemma p with
  | HLemma, Some l =>
    match lemma_said (p_ix p) (l_g l) (l_f l) with
    | (ix, Fine _) =>
      let p1 := set_count (set_lemma (set_ix p ix) None) (p_count p + 1) in
      (p1, if (0 <? p_max p)%Z && (p_max p <=? Z.of_N (p_count p1))%Z
           then Failed (corpora_error (bytes_of "controlled stop")) else Fine tt)
    | (ix, x) => (set_ix p ix, x)
    end
  | _, _ => match on_end h p with (p1, Done) => (p1, Fine tt) | (p1, _) => (p1, Crashed) end
  end.

(** :107-123, :125-139 and :141-160. *)
Definition process_said (v : voice) (c : conv) (p : parser) (e : ev) : parser * said unit :=
  match e with
  | EStart n a =>
    let p1 := set_path p (p_path p ++ dot :: n) in
    match handler_at (p_path p1) with
    | None => (p1, Failed (corpora_error (bytes_of "unexpected start: " ++ quoted (p_path p1))))
    | Some h => on_start_said v c h a p1
    end
  | EText s =>
    match handler_at (p_path p) with
    | None => (p, Failed (corpora_error (bytes_of "unexpected char: " ++ quoted (p_path p))))
    | Some h => match on_chars h s p with (p1, Done) => (p1, Fine tt) | (p1, _) => (p1, Crashed) end
    end
  | EEnd n =>
    match handler_at (p_path p) with
    | None => (p, Failed (corpora_error (bytes_of "unexpected end: " ++ quoted (p_path p))))
    | Some h =>
      let '(p1, o) := on_end_said h p in
      if (length (p_path p1) <? length n + 1)%nat then (p1, Crashed)
      else (set_path p1 (take (length (p_path p1) - length n - 1) (p_path p1)), o)
    end
  | ENote => (p, Fine tt)
  end.
Fixpoint parse_said (v : voice) (c : conv) (p : parser) (es : list ev) : parser * said unit :=
  match es with
  | [] => (p, Fine tt)
  | e :: es' => match process_said v c p e with (p1, Fine _) => parse_said v c p1 es' | x => x end
  end.
