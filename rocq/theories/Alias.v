(** Slices with backing arrays, and the handling of a lemma on them (property C44).
    Parser.v uses lists for the category slices of pkg/opencorpora; here the same code is
    modelled with shared memory and [append] that writes in place when there is room. *)
From Verif Require Import Base Storage Tags Items Index DocSpec Parser.
From stdpp Require Import list.

(** The Go runtime: arrays in memory, a slice of the first [sl_len] elements of one (the code
    never makes a slice start elsewhere).  The elements are the [VAttr] of the categories,
    which are never changed after they are made. *)
Notation heap := (list (list (list N))).
Record slice := mkSlice { sl_arr : nat; sl_len : nat }.
Definition array (h : heap) (a : nat) : list (list N) := default [] (h !! a).
Definition read (h : heap) (s : slice) : list (list N) := take (sl_len s) (array h (sl_arr s)).

(** How much room a new array gets beyond what is needed: any function. *)
Definition policy := heap -> slice -> nat -> nat.
(** [append(s, vs...)]. *)
Definition append (grow : policy) (h : heap) (s : slice) (vs : list (list N)) : heap * slice :=
  let a := array h (sl_arr s) in
  let n := (sl_len s + length vs)%nat in
  if (n <=? length a)%nat then
    (<[sl_arr s := take (sl_len s) a ++ vs ++ drop n a]> h, mkSlice (sl_arr s) n)
  else
    (h ++ [read h s ++ vs ++ replicate (grow h s n) []], mkSlice (length h) n).
(** [make(CategoryList, 0)] with any capacity. *)
Definition make (room : nat) (h : heap) : heap * slice := (h ++ [replicate room []], mkSlice (length h) 0).

(** A lemma being read: the categories of [L], the form being read, the forms read. *)
Record lstate := mkL {
  ls_heap : heap;
  ls_lg : slice;
  ls_cur : option (list N * slice);
  ls_forms : list (list N * slice) }.
Inductive lev := LG (v : list N) | FStart (t : list N) | FG (v : list N) | FEnd.

(** newLemma, pkg/opencorpora/lemma_item.go:22-29. *)
Definition l_new (room : nat) (h : heap) : lstate :=
  let '(h1, s) := make room h in mkL h1 s None [].
(** pkg/opencorpora/parser.go:335-345 (LG), :245-251 with form_item.go:15-20 (FStart),
    :228-237 (FG) and :253-259 (FEnd).  [None]: a missing form is used.  A form that ends
    without having started is not met: the end of an element follows its start. *)
Definition l_step (grow : policy) (room : nat) (st : lstate) (e : lev) : option lstate :=
  match e with
  | LG v => let '(h, s) := append grow (ls_heap st) (ls_lg st) [v] in
            Some (mkL h s (ls_cur st) (ls_forms st))
  | FStart t => let '(h, s) := make room (ls_heap st) in Some (mkL h (ls_lg st) (Some (t, s)) (ls_forms st))
  | FG v =>
    match ls_cur st with
    | None => None
    | Some (t, g) => let '(h, s) := append grow (ls_heap st) g [v] in
                     Some (mkL h (ls_lg st) (Some (t, s)) (ls_forms st))
    end
  | FEnd =>
    match ls_cur st with
    | None => None
    | Some f => Some (mkL (ls_heap st) (ls_lg st) None (ls_forms st ++ [f]))
    end
  end.
Fixpoint l_run (grow : policy) (room : nat) (st : lstate) (es : list lev) : option lstate :=
  match es with
  | [] => Some st
  | e :: es' => match l_step grow room st e with Some st' => l_run grow room st' es' | None => None end
  end.

(** The loop :278-287 over the forms: [variant.G = append(L.G, variant.G...)], then a call with
    the form's word and the tags read through [variant.G].  The call may stop the loop. *)
Fixpoint l_loop {S} (grow : policy) (call : S -> list N -> list (list N) -> S * bool)
    (h : heap) (lg : slice) (s : S) (fs : list (list N * slice)) : S :=
  match fs with
  | [] => s
  | (t, g) :: fs' =>
    let '(h1, g1) := append grow h lg (read h g) in
    let '(s1, go) := call s t (read h1 g1) in
    if go then l_loop grow call h1 lg s1 fs' else s1
  end.
(** A wrong variant, for comparison: extend all forms first, index afterwards. *)
Fixpoint extend_all (grow : policy) (h : heap) (lg : slice) (fs : list (list N * slice))
  : heap * list (list N * slice) :=
  match fs with
  | [] => (h, [])
  | (t, g) :: fs' =>
    let '(h1, g1) := append grow h lg (read h g) in
    let '(h2, fs2) := extend_all grow h1 lg fs' in (h2, (t, g1) :: fs2)
  end.

(** ** Specification *)
(** The categories of the lemma, and the forms with their own categories. *)
Definition lemma_cats (es : list lev) : list (list N) :=
  omap (fun e => match e with LG v => Some v | _ => None end) es.
Fixpoint own_forms (cur : option (list N * list (list N))) (es : list lev) : list (list N * list (list N)) :=
  match es with
  | [] => []
  | LG _ :: es' => own_forms cur es'
  | FStart t :: es' => own_forms (Some (t, [])) es'
  | FG v :: es' => own_forms (match cur with Some (t, g) => Some (t, g ++ [v]) | None => None end) es'
  | FEnd :: es' => match cur with Some f => f :: own_forms None es' | None => own_forms None es' end
  end.
(** What has to be indexed. *)
Definition wanted (es : list lev) : list (list N * list (list N)) :=
  map (fun f => (f.1, lemma_cats es ++ f.2)) (own_forms None es).
Fixpoint each {S} (call : S -> list N -> list (list N) -> S * bool) (s : S)
    (fs : list (list N * list (list N))) : S :=
  match fs with
  | [] => s
  | (t, g) :: fs' => let '(s1, go) := call s t g in if go then each call s1 fs' else s1
  end.
