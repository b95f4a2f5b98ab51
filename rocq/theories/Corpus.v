(** Parts of internal/index and pkg/opencorpora that nothing in the repository calls yet: the
    list of children of relation.go, the search for lemmas, attributes as integers and the tag of
    a grammeme. *)
From Verif Require Import Base Storage Tags Parser Strconv Render.
From stdpp Require Import list.
Open Scope N_scope.

(** ** internal/index/relation.go *)

(** :10-13. *)
Record child := mkChild { ch_parent : N; ch_id : N }.
(** :34-36. *)
Definition children_get (l : list child) (id : N) : res child :=
  match l !! N.to_nat id with Some c => Ok c | None => Panic end.
(** :21-31 and :39, sort.Sort with [Less] on the parents: some permutation of the list in which
    the parents do not decrease; which one depends on Go's algorithm. *)
Definition sorts_to (l l' : list child) : Prop := l' ≡ₚ l /\ StronglySorted N.le (map ch_parent l').
(** :42-51, what the goroutine sends, one after the other; [prev] is previousParent, which is set
    to -1 and never changed. *)
Definition sends (l' : list child) : list child :=
  let prev := (-1)%Z in
  omap (fun p : nat * child =>
          if (Z.of_N (ch_parent p.2) =? prev)%Z then None
          else Some (mkChild (ch_parent p.2) (wrap32 (N.of_nat p.1)))) (imap pair l').

(** The channel is not buffered: a value passes when one goroutine sends and another receives.
    [Sort] returns a [chan<- Child], through which callers can send only; nobody else has the
    channel.  A goroutine is what it still has to send or how often it still wants to receive. *)
Inductive talker := Sending (vs : list child) | Receiving (n : nat).
Inductive passes : list talker -> list talker -> Prop :=
| passes_on gs i j v vs n : i <> j -> gs !! i = Some (Sending (v :: vs)) -> gs !! j = Some (Receiving (S n)) ->
    passes gs (<[j := Receiving n]> (<[i := Sending vs]> gs)).
(** The goroutine of [Sort] and any callers. *)
Definition after_sort (l' : list child) (callers : list (list child)) : list talker :=
  Sending (sends l') :: map Sending callers.

(** ** pkg/opencorpora *)

(** lemma_list.go:6-17 [Search], also lemmata.go:9-11. *)
Fixpoint search (l : list (option full_lemma)) (word : list N) : list full_lemma :=
  match l with
  | [] => []
  | None :: l' => search l' word
  | Some x :: l' => if bool_decide (wf_form (fl_l x) = word) then x :: search l' word else search l' word
  end.
(** xmlutils.go:23-35 [GetInt] and :47-58 [getIntAttr]; 0 with an error is [None].  An attribute is
    its local name and its value. *)
Definition get_int (name : list N) (attrs : list (list N * list N)) : option Z :=
  match get_attr name attrs with None => None | Some v => atoi v end.
(** grammeme_item.go:23-25. *)
Definition grammeme_tag (g : grammeme) : tag := new_tag (gr_parent g) (gr_name g).
