(** Model of the texts of the errors that lookups, additions and the tagging of words return
    (internal/index), and of what the parser makes of them for the forms of a lemma
    (pkg/opencorpora/parser.go:276-288).  The functions are those of Index.v and Parser.v with the
    text in place of the kind of the error. *)
From Verif Require Import Base Utf8 Tags TagSets Variants Items Index Strconv Parser.
Open Scope N_scope.

Inductive said (A : Type) := Fine (a : A) | Failed (text : list N) | Crashed.
Arguments Fine {A}. Arguments Failed {A}. Arguments Crashed {A}.

(** internal/index/item_def.go:13 [Error], and [fmt.Errorf("%w: ...", Error, ...)]. *)
Definition index_error (text : list N) : list N := bytes_of "index: " ++ text.
(** internal/index/idx.go:280-286 [Get]. *)
Definition get_said (ix : index) (id : N) : said N :=
  if (its_next (ix_items ix) <=? id) then Failed (index_error (bytes_of "no such node: " ++ itoa id)) else Fine id.
(** :378; [GetItem] never gives nil, so :375 is not reached. *)
Definition not_found (ix : index) (parent : N) (r : Z) : said N :=
  match node_word ix parent with
  | Ok w => Failed (index_error (bytes_of "fetch: not found: `" ++ w ++ bytes_of "[" ++ string_of_rune r ++ bytes_of "]`"))
  | _ => Crashed
  end.
(** :357-388 [FetchFromItem] and :259-261 [FetchRunes]. *)
Fixpoint fetch_loop_said (ix : index) (parent : N) (runes : list Z) : index * said N :=
  match runes with
  | [] => (ix, Crashed)
  | r :: rest =>
    let ix1 := ensure_children ix parent in
    match child (ix_children ix1) parent r with
    | None => (ix1, not_found ix1 parent r)
    | Some n => match rest with [] => (ix1, get_said ix1 n) | _ => fetch_loop_said ix1 n rest end
    end
  end.
Definition fetch_said (ix : index) (parent : N) (runes : list Z) : index * said N :=
  match runes with [] => (ix, Failed (index_error (bytes_of "empty runes"))) | _ => fetch_loop_said ix parent runes end.
(** :390-424 [AddToNode]; [start] is the parent it was called with, which the text names even if
    another one is missing. *)
Fixpoint add_loop_said (ix : index) (start parent : N) (runes : list Z) : index * said N :=
  match runes with
  | [] => (ix, Crashed)
  | r :: rest =>
    match (if (parent =? 0) then Ok true
           else oit ← items_get (ix_items ix) parent;
                Ok (match oit with Some _ => true | None => false end)) with
    | Ok false => (ix, Failed (index_error (bytes_of "add: no parent: " ++ itoa start)))
    | Ok true =>
      let ix1 := ensure_children ix parent in
      match child (ix_children ix1) parent r with
      | Some n => match rest with [] => (ix1, get_said ix1 n) | _ => add_loop_said ix1 start n rest end
      | None =>
        match items_new_child (ix_items ix1) parent r with
        | Ok (its, it) =>
          let ix2 := set_children (set_items ix1 its) (set_child (ix_children ix1) parent r (it_id it)) in
          match rest with [] => (ix2, get_said ix2 (it_id it)) | _ => add_loop_said ix2 start (it_id it) rest end
        | _ => (ix1, Crashed)
        end
      end
    | _ => (ix, Crashed)
    end
  end.
Definition add_said (ix : index) (parent : N) (runes : list Z) : index * said N :=
  match runes with [] => (ix, Failed (index_error (bytes_of "add: empty runes"))) | _ => add_loop_said ix parent parent runes end.
(** :249-255 [AddString]. *)
Definition add_string_said (ix : index) (s : list N) : index * said N :=
  if (lenN s =? 0) then (ix, Failed (index_error (bytes_of "empty word"))) else add_said ix 0 (runes_of_string s).

(** internal/index/node.go:52-70 [AddTagSet]: the first name that is not known. *)
Fixpoint names_said (ts : list tag) (names : list (list N)) : said (list N) :=
  match names with
  | [] => Fine []
  | n :: names' =>
    match tags_find ts n with
    | None => Failed (index_error (bytes_of "add tag set: unknown tag: " ++ n))
    | Some id => match names_said ts names' with Fine r => Fine (id :: r) | x => x end
    end
  end.
Definition tag_said (ix : index) (id : N) (names : list (list N)) : index * said unit :=
  match names_said (ix_tags ix) names with
  | Failed t => (ix, Failed t)
  | Crashed => (ix, Crashed)
  | Fine _ => match node_add_tag_set ix id names with (ix', Ok _) => (ix', Fine tt) | (ix', _) => (ix', Crashed) end
  end.

(** pkg/opencorpora/parser.go:278-288: a form of a lemma. *)
Fixpoint lemma_said (ix : index) (lg : list (list N)) (fs : list (option form)) : index * said unit :=
  match fs with
  | [] => (ix, Fine tt)
  | None :: _ => (ix, Crashed)
  | Some f :: fs' =>
    match add_string_said ix (f_text f) with
    | (ix1, Failed t) => (ix1, Failed (bytes_of "index: " ++ t))
    | (ix1, Crashed) => (ix1, Crashed)
    | (ix1, Fine id) =>
      match tag_said ix1 id (lg ++ f_g f) with
      | (ix2, Fine _) => lemma_said ix2 lg fs'
      | (ix2, Failed t) => (ix2, Failed (bytes_of "add lemma variant: " ++ t))
      | (ix2, Crashed) => (ix2, Crashed)
      end
    end
  end.
