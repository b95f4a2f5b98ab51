(** What a document says, done by calling the index directly. *)
From Verif Require Import Base Storage Utf8 Tags Items Index DocSpec Spec.
From stdpp Require Import list.
Open Scope N_scope.

(** One form: AddString, then AddTagSet on the node. *)
Definition call_form (ix : index) (f : list N * list (list N)) : index * outcome :=
  match add_string ix f.1 with
  | (ix1, Ok id) =>
    match node_add_tag_set ix1 id f.2 with
    | (ix2, Ok _) => (ix2, Done)
    | (ix2, Err e) => (ix2, Fail e)
    | (ix2, Panic) => (ix2, IndexPanic)
    end
  | (ix1, Err e) => (ix1, Fail e)
  | (ix1, Panic) => (ix1, IndexPanic)
  end.
Fixpoint call_forms (ix : index) (fs : list (list N * list (list N))) : index * outcome :=
  match fs with
  | [] => (ix, Done)
  | f :: fs' =>
    match call_form ix f with
    | (ix1, Done) => call_forms ix1 fs'
    | x => x
    end
  end.
Definition call_act (ix : index) (s : act) : index * outcome :=
  match s with
  | AGram n p => ((index_tag_id ix n p).1, Done)
  | ALemma fs => call_forms ix fs
  end.
Fixpoint call_acts (ix : index) (ss : list act) : index * outcome :=
  match ss with
  | [] => (ix, Done)
  | s :: ss' =>
    match call_act ix s with
    | (ix1, Done) => call_acts ix1 ss'
    | x => x
    end
  end.
(** The number of lemmas among the actions. *)
Definition lemmas (ss : list act) : nat :=
  length (List.filter (fun s => match s with ALemma _ => true | AGram _ _ => false end) ss).

(** The same calls as a history. *)
Definition form_ops (f : list N * list (list N)) : list op :=
  [OAdd (runes_of_string f.1); OTag (runes_of_string f.1) f.2].
Definition act_ops (s : act) : list op :=
  match s with AGram n p => [OTagID n p] | ALemma fs => flat_map form_ops fs end.
Definition acts_ops (ss : list act) : list op := flat_map act_ops ss.
(** The forms among the actions. *)
Definition forms (ss : list act) : list (list N * list (list N)) :=
  flat_map (fun s => match s with AGram _ _ => [] | ALemma fs => fs end) ss.
(** Every form is a word whose grammemes are in [names] or registered by an earlier action. *)
Definition form_good (names : list (list N)) (f : list N * list (list N)) : Prop :=
  f.1 <> [] /\ forall n, n ∈ f.2 -> n ∈ names.
Fixpoint good_acts (names : list (list N)) (ss : list act) : Prop :=
  match ss with
  | [] => True
  | AGram n _ :: ss' => good_acts (names ++ [n]) ss'
  | ALemma fs :: ss' => Forall (form_good names) fs /\ good_acts names ss'
  end.
