(** Model of the Go conversions [[]rune(s)] and [string(r)] used by AddString/FetchString
    (internal/index/idx.go:249-255, :265-267) and Word/Item.String
    (internal/index/node.go:88, internal/index/item_def.go:73-79).  These conversions are
    defined by the Go language specification; the model writes the bit operations of
    the decoder as arithmetic. *)
From Verif Require Import Base.
Open Scope Z_scope.

Definition rune_error : Z := 0xFFFD.

(** Valid Unicode scalar values. *)
Definition valid_rune (r : Z) : bool :=
  (0 <=? r) && (r <=? 0x10FFFF) && negb ((0xD800 <=? r) && (r <=? 0xDFFF)).

(** Encoding of a scalar value. *)
Definition encode_scalar (r : Z) : list N :=
  map Z.to_N
    (if r <? 0x80 then [r]
     else if r <? 0x800 then [0xC0 + r / 64; 0x80 + r mod 64]
     else if r <? 0x10000 then [0xE0 + r / 4096; 0x80 + r / 64 mod 64; 0x80 + r mod 64]
     else [0xF0 + r / 262144; 0x80 + r / 4096 mod 64; 0x80 + r / 64 mod 64; 0x80 + r mod 64]).

(** Go [string(r)]: an invalid rune is encoded as U+FFFD. *)
Definition string_of_rune (r : Z) : list N :=
  encode_scalar (if valid_rune r then r else rune_error).

(** Go [string(runes)]. *)
Definition string_of_runes (rs : list Z) : list N := concat (map string_of_rune rs).

Definition is_cont (b : N) : bool := ((0x80 <=? b) && (b <=? 0xBF))%N.
Definition in_range (lo hi b : N) : bool := ((lo <=? b) && (b <=? hi))%N.

(** Accept range of the second byte of a multi-byte sequence. *)
Definition second_lo (b0 : N) : N :=
  if (b0 =? 0xE0)%N then 0xA0%N else if (b0 =? 0xF0)%N then 0x90%N else 0x80%N.
Definition second_hi (b0 : N) : N :=
  if (b0 =? 0xED)%N then 0x9F%N else if (b0 =? 0xF4)%N then 0x8F%N else 0xBF%N.

(** Go [[]rune(s)]: an ill-formed sequence yields U+FFFD and consumes one byte. *)
Fixpoint runes_of_string (s : list N) : list Z :=
  match s with
  | [] => []
  | b0 :: s1 =>
    if (b0 <? 0x80)%N then Z.of_N b0 :: runes_of_string s1
    else if in_range 0xC2 0xDF b0 then
      match s1 with
      | b1 :: s2 =>
        if is_cont b1
        then ((Z.of_N b0 - 0xC0) * 64 + (Z.of_N b1 - 0x80)) :: runes_of_string s2
        else rune_error :: runes_of_string s1
      | _ => rune_error :: runes_of_string s1
      end
    else if in_range 0xE0 0xEF b0 then
      match s1 with
      | b1 :: b2 :: s3 =>
        if in_range (second_lo b0) (second_hi b0) b1 && is_cont b2
        then ((Z.of_N b0 - 0xE0) * 4096 + (Z.of_N b1 - 0x80) * 64 + (Z.of_N b2 - 0x80))
               :: runes_of_string s3
        else rune_error :: runes_of_string s1
      | _ => rune_error :: runes_of_string s1
      end
    else if in_range 0xF0 0xF4 b0 then
      match s1 with
      | b1 :: b2 :: b3 :: s4 =>
        if in_range (second_lo b0) (second_hi b0) b1 && is_cont b2 && is_cont b3
        then ((Z.of_N b0 - 0xF0) * 262144 + (Z.of_N b1 - 0x80) * 4096
              + (Z.of_N b2 - 0x80) * 64 + (Z.of_N b3 - 0x80)) :: runes_of_string s4
        else rune_error :: runes_of_string s1
      | _ => rune_error :: runes_of_string s1
      end
    else rune_error :: runes_of_string s1
  end.
