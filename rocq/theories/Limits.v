(** Specification: the histories small enough for the identifiers and the file format.
    Nothing here refers to the model of the code. *)
From Verif Require Import Base Spec.
From stdpp Require Import list.
Open Scope N_scope.

(** The tag lists given to AddTagSet during a history, with their words. *)
Definition tag_calls (h : list op) : list (list Z * list (list N)) :=
  omap (fun o => match o with OTag w names => Some (w, names) | _ => None end) h.
(** The tag sets attached to any word. *)
Definition all_sets (d : dict) : gset (list N) := ⋃ (map_to_list (d_notes d)).*2.
(** The annotations (sets of tag sets) any word had at any moment of a history. *)
Definition seen (h : list op) : gset (gset (list N)) :=
  list_to_set (flat_map (fun i => (map_to_list (d_notes (d_run (take i h)))).*2) (seq 0 (S (length h)))).
(** The letters of all words added. *)
Definition letters (h : list op) : N := N.of_nat (sum_list (map length (added h))).
(** The words a call is about. *)
Definition op_word (o : op) : option (list Z) :=
  match o with OAdd w | OFetch w | OTag w _ => Some w | _ => None end.

(** A history within the limits; [b] is true if it saves and loads, which has lower limits. *)
Record modest (b : bool) (h : list op) : Prop := {
  m_letters : letters h <= 4294967280;
  m_names : N.of_nat (size (list_to_set (registered h) : gset (list N))) <= if b then 255 else 256;
  m_sets : forall k, N.of_nat (size (filter (fun s => length s = k) (all_sets (d_run h)))) <= if b then 65535 else 65536;
  m_notes : forall k, N.of_nat (size (filter (fun n => size n = k) (seen h))) <= 65536;
  m_lists : forall w names, (w, names) ∈ tag_calls h -> names <> [] /\ lenN names <= if b then 255 else 65536;
  m_each : forall w n, d_notes (d_run h) !! w = Some n -> N.of_nat (size n) <= if b then 255 else 65535;
  m_words : forall o w, o ∈ h -> op_word o = Some w -> Forall int32 w /\ (b = true -> head w <> Some 0%Z);
  m_tags : forall n p, OTagID n p ∈ h -> Forall (fun c => c < 256) n /\ Forall (fun c => c < 256) p;
  m_plain : forall n p, b = true -> OTagID n p ∈ h -> n <> [] /\ n <> bytes_of "    " /\ p <> bytes_of "    " }.

(** The results of a sequence of calls on the abstract dictionary. *)
Fixpoint d_outs (d : dict) (os : list op) : list (res N) :=
  match os with
  | [] => []
  | o :: os' => d_out d o :: d_outs (d_step d o) os'
  end.
