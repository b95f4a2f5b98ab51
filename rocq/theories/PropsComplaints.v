(** What the parser says about a document it refuses: C95.  The model is in Complaints.v, the
    specification in ComplaintSpec.v and DocSpec.v; the proofs are in ThmComplaints.v. *)
From Verif Require Import Base Storage Tags Items Index DocSpec Parser Messages MessageSpec Complaints ComplaintSpec ThmComplaints.
From stdpp Require Import list.
Open Scope N_scope.

Definition ex_sure : conv := mkConv (fun v => bool_decide (v = bytes_of "7")) (fun v => bool_decide (v = bytes_of "0.92")).
Definition ex_voice : voice := mkVoice (fun _ => bytes_of "[...]") (fun _ => bytes_of "no int") (fun _ => bytes_of "no float").
Definition ex_starts (l : list (string * list (string * string))) : list ev :=
  map (fun e => EStart (bytes_of e.1) (map (fun a => (bytes_of a.1, bytes_of a.2)) e.2)) l.
Definition ex_says (es : list ev) : said unit := (parse_said ex_voice ex_sure (parser_new index_new 0) es).2.

(** C95.  The start of an element is refused exactly if its position is unknown or an attribute it
    needs is missing or no number; the text then says where the element is, or names the first such
    attribute.  About texts, comments and the ends of elements other than lemmas nothing is ever
    said, and a parse ends with what is said about the first event that is refused.  The documents
    are those without dots in names (C42, C47). *)
Theorem C95_same : forall v c es p,
  (parse_said v c p es).1 = (parse c p es).1 /\ same_kind (parse_said v c p es).2 (parse c p es).2.
Proof. exact l_C95_same. Qed.
Print Assumptions C95_same.
Theorem C95_first : forall v c es p t, (parse_said v c p es).2 = Failed t <->
  exists es1 e es2 p1, es = es1 ++ e :: es2 /\ parse c p es1 = (p1, Done) /\ (process_said v c p1 e).2 = Failed t.
Proof. exact l_C95_first. Qed.
Print Assumptions C95_first.
Theorem C95_start : forall v c ix mx es st p n a t, Forall ev_no_dot es -> opens [] es = Some st ->
  parse c (parser_new ix mx) es = (p, Done) -> no_dot n ->
  (process_said v c p (EStart n a)).2 = Failed t <-> complains v c (rev (n :: st)) a t.
Proof. exact l_C95_start. Qed.
Print Assumptions C95_start.
Theorem C95_where : forall pos pos', Forall no_dot pos -> Forall no_dot pos' ->
  bytes_of "opencorpora: unexpected start: `" ++ flat_map (fun n => dot :: n) pos ++ bytes_of "`" =
  bytes_of "opencorpora: unexpected start: `" ++ flat_map (fun n => dot :: n) pos' ++ bytes_of "`" -> pos = pos'.
Proof. exact l_C95_where. Qed.
Print Assumptions C95_where.
Theorem C95_rest : forall v c ix mx es st p, Forall ev_no_dot es -> opens [] es = Some st ->
  parse c (parser_new ix mx) es = (p, Done) ->
  (forall s, (process_said v c p (EText s)).2 = Fine tt) /\ (process_said v c p ENote).2 = Fine tt /\
  (forall n st' t, st = n :: st' -> (process_said v c p (EEnd n)).2 = Failed t ->
    rev st = map bytes_of ["dictionary"; "lemmata"; "lemma"]%string /\
    exists l, p_lemma p = Some l /\
      ((lemma_said (p_ix p) (l_g l) (l_f l)).2 = Failed t \/
       t = bytes_of "opencorpora: controlled stop" /\ (0 < p_max p <= Z.of_N (p_count p) + 1)%Z /\
       (lemma_said (p_ix p) (l_g l) (l_f l)).2 = Fine tt)).
Proof. exact l_C95_rest. Qed.
Print Assumptions C95_rest.
Example C95_case :
  ex_says (ex_starts [("dictionary", [("version", "0.92"); ("revision", "7")]); ("lemmata", []); ("word", [])]%string)
    = Failed (bytes_of "opencorpora: unexpected start: `.dictionary.lemmata.word`") /\
  ex_says (ex_starts [("dictionary", [("version", "0.92"); ("revision", "x"); ("version", "y")])]%string)
    = Failed (bytes_of "opencorpora: parse: dictionary.revision: `x`: no int") /\
  ex_says (ex_starts [("dictionary", []); ("lemmata", []); ("lemma", [("id", "7")])]%string)
    = Failed (bytes_of "opencorpora: [...]: missed attr `rev`") /\
  ex_says (ex_starts [("dictionary", []); ("lemmata", []); ("lemma", [("rev", "x"); ("id", "8")])]%string)
    = Failed (bytes_of "opencorpora: [...]: attr `id` value: no int") /\
  ex_says (ex_starts [("dictionary", []); ("grammemes", []); ("grammeme", [])]%string)
    = Failed (bytes_of "opencorpora: required parent attr") /\
  ex_says (ex_starts [("dictionary", []); ("lemmata", []); ("lemma", [("id", "7"); ("rev", "7")]); ("f", [("T", "a")])]%string)
    = Failed (bytes_of "opencorpora: [...]: missed attr `t`").
Proof. vm_compute. repeat split; reflexivity. Qed.
(** A lemma that is refused at its end, and one that is the last to be parsed. *)
Example C95_end_case :
  let es := ex_starts [("dictionary", []); ("lemmata", []); ("lemma", [("id", "7"); ("rev", "7")]); ("f", [("t", "a")])]%string
    ++ [EEnd (bytes_of "f"); EEnd (bytes_of "lemma")] in
  ex_says es = Fine tt /\
  (parse_said ex_voice ex_sure (parser_new index_new 1) es).2 = Failed (bytes_of "opencorpora: controlled stop") /\
  ex_says (ex_starts [("dictionary", []); ("lemmata", []); ("lemma", [("id", "7"); ("rev", "7")]); ("f", [("t", "")])]%string
    ++ [EEnd (bytes_of "f"); EEnd (bytes_of "lemma")]) = Failed (bytes_of "index: index: empty word").
Proof. vm_compute. repeat split; reflexivity. Qed.
(** Without the nesting of a decoder, texts and ends may be refused too. *)
Example C95_unnested_case :
  ex_says (ex_starts [("dictionary", []); ("links", [])]%string ++ [EEnd (bytes_of "nks"); EText []])
    = Failed (bytes_of "opencorpora: unexpected char: `.dictionary.l`").
Proof. vm_compute. reflexivity. Qed.
