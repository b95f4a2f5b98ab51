(** What the texts of errors are to say (C94). *)
From Verif Require Import Base Utf8 Items Index DocSpec Parser Messages.
Open Scope N_scope.

(** The result without the text. *)
Definition erase {A} (o : said A) : res A :=
  match o with Fine a => Ok a | Failed _ => Err EIndex | Crashed => Panic end.
Definition same_outcome (o : said unit) (o' : outcome) : Prop :=
  match o with
  | Fine _ => o' = Done
  | Failed _ => o' = Fail EIndex
  | Crashed => o' = NilDeref \/ o' = IndexPanic
  end.

(** [r] does not follow [p]. *)
Definition not_found_text (p : list Z) (r : Z) : list N :=
  bytes_of "index: fetch: not found: `" ++ string_of_runes p ++ bytes_of "[" ++ string_of_rune r ++ bytes_of "]`".
(** A tag that was not registered. *)
Definition unknown_tag_text (n : list N) : list N := bytes_of "index: add tag set: unknown tag: " ++ n.

(** The forms of a lemma: texts with tag names of their own, and with those of the lemma. *)
Definition some_form (f : list N * list (list N)) : option form := Some (mkForm f.1 f.2).
Definition with_lemma (lg : list (list N)) (f : list N * list (list N)) : list N * list (list N) := (f.1, lg ++ f.2).
