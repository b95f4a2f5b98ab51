(** Model of strings.EqualFold of the Go library, called in cmd/opencorpora_test/main.go:88 and, by
    the decoder of encoding/xml, for the encoding of a document (pkg/opencorpora/parser.go reads
    its tokens).  The orbits of unicode.SimpleFold that contain a character below 128 are written
    out; what the function gives elsewhere is a parameter. *)
From Verif Require Import Base Utf8.
Open Scope Z_scope.

Section fold.
  Context (other : Z -> Z).
  (** unicode.SimpleFold: the next character of the orbit, or the first one after the last.  The
      orbits of k and s have a third member, U+212A (kelvin sign) and U+017F (long s). *)
  Definition simple_fold (r : Z) : Z :=
    if (65 <=? r) && (r <=? 90) then r + 32
    else if r =? 107 then 0x212A
    else if r =? 115 then 0x17F
    else if (97 <=? r) && (r <=? 122) then r - 32
    else if (0 <=? r) && (r <? 128) then r
    else if r =? 0x17F then 83
    else if r =? 0x212A then 75
    else other r.
  (** [for r != sr && r < tr { r = SimpleFold(r) }]; no orbit has more than four members, so the
      bound is never reached with the tables of the library. *)
  Fixpoint next_fold (fuel : nat) (sr tr r : Z) : Z :=
    match fuel with
    | O => r
    | S fuel' => if (r =? sr) || (tr <=? r) then r else next_fold fuel' sr tr (simple_fold r)
    end.
  (** One pair of characters; the smaller one comes first. *)
  Definition ascii_pair (sr tr : Z) : bool := (65 <=? sr) && (sr <=? 90) && (tr =? sr + 32).
  Definition same_rune (a b : Z) : bool :=
    if a =? b then true else
    let sr := Z.min a b in
    let tr := Z.max a b in
    if tr <? 128 then ascii_pair sr tr else next_fold 8 sr tr (simple_fold sr) =? tr.
  (** The loop over the characters. *)
  Fixpoint same_runes (s t : list Z) : bool :=
    match s, t with
    | [], [] => true
    | a :: s', b :: t' => same_rune a b && same_runes s' t'
    | _, _ => false
    end.
  (** EqualFold: bytes as long as both are below 128, characters from there on. *)
  Fixpoint equal_fold (s t : list N) : bool :=
    match s, t with
    | a :: s', b :: t' =>
      if ((128 <=? a) || (128 <=? b))%N then same_runes (runes_of_string s) (runes_of_string t)
      else if (a =? b)%N then equal_fold s' t'
      else if ascii_pair (Z.min (Z.of_N a) (Z.of_N b)) (Z.max (Z.of_N a) (Z.of_N b)) then equal_fold s' t'
      else false
    | [], [] => true
    | _, _ => false
    end.
End fold.
