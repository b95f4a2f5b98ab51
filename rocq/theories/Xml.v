(** Model of the tokens of encoding/xml (go 1.18, a Decoder as made by NewDecoder: strict, no
    entities, no charset reader), which libxml.ParseXMLFile hands to the methods Process... of the
    parser (pkg/opencorpora/parser.go:98-173, called at pkg/opencorpora/loader.go:318).  The file
    is a list of bytes; reading errors of the disk are not part of this model.  A syntax error
    ends the list of tokens, so it is not told which one it is. *)
From Verif Require Import Base Utf8 DocSpec.
From stdpp Require Import list.
Open Scope N_scope.

Section decoder.
  (** Whether a rune above 127 may begin a name, and whether it may be inside one (the tables
      [first] and [second] of the package). *)
  Context (first_rune more_rune : Z -> bool).

  (** Decoder.space. *)
  Definition is_space (b : N) : bool := (b =? 32) || (b =? 13) || (b =? 10) || (b =? 9).
  Fixpoint space (w : list N) : list N :=
    match w with b :: w' => if is_space b then space w' else w | [] => [] end.

  (** isNameByte. *)
  Definition in_chars (lo hi b : N) : bool := (lo <=? b) && (b <=? hi).
  Definition is_letter (b : N) : bool := in_chars 65 90 b || in_chars 97 122 b.
  Definition is_digit (b : N) : bool := in_chars 48 57 b.
  Definition name_byte (b : N) : bool := is_letter b || is_digit b || (b =? 95) || (b =? 58) || (b =? 46) || (b =? 45).
  (** Decoder.readName: the longest run of such bytes and bytes above 127, at least one; the end of
      the file is an error. *)
  Fixpoint name_run (w : list N) : option (list N * list N) :=
    match w with
    | [] => None
    | b :: w' =>
      if (b <? 128) && negb (name_byte b) then Some ([], w)
      else match name_run w' with Some (n, rest) => Some (b :: n, rest) | None => None end
    end.
  (** isName. *)
  Definition first_char (r : Z) : bool :=
    if (r <? 128)%Z then is_letter (Z.to_N r) || (Z.to_N r =? 95) || (Z.to_N r =? 58) else first_rune r.
  Definition more_char (r : Z) : bool :=
    if (r <? 128)%Z then name_byte (Z.to_N r) else first_rune r || more_rune r.
  Definition is_name (n : list N) : bool :=
    match runes_of_string n with
    | [] => false
    | r :: rs => bool_decide (string_of_runes (r :: rs) = n) && first_char r && forallb more_char rs
    end.
  (** Decoder.name. *)
  Definition name (w : list N) : option (list N * list N) :=
    match name_run w with Some (n, rest) => if is_name n then Some (n, rest) else None | None => None end.
  (** Decoder.nsname: the part before the colon and the part after it.  With two colons or more,
      versions of Go differ; here it is an error. *)
  Fixpoint cut_colon (n : list N) : option (list N * list N) :=
    match n with
    | [] => None
    | b :: n' => if b =? 58 then Some ([], n') else match cut_colon n' with Some (p, l) => Some (b :: p, l) | None => None end
    end.
  Definition nsname (w : list N) : option (list N * list N * list N) :=
    match name w with
    | None => None
    | Some (n, rest) =>
      match cut_colon n with
      | None => Some ([], n, rest)
      | Some (p, l) =>
        if bool_decide (58 ∈ l) then None
        else if bool_decide (p = []) || bool_decide (l = []) then Some ([], n, rest) else Some (p, l, rest)
      end
    end.

  (** The characters allowed (isInCharacterRange), and the check at the end of Decoder.text: valid
      UTF-8 (DecodeRune reports an error exactly where encoding again gives another text). *)
  Definition char_ok (r : Z) : bool :=
    ((r =? 0x09) || (r =? 0x0A) || (r =? 0x0D) || ((0x20 <=? r) && (r <=? 0xD7FF)) || ((0xE000 <=? r) && (r <=? 0xFFFD))
     || ((0x10000 <=? r) && (r <=? 0x10FFFF)))%Z.
  Definition text_ok (v : list N) : bool :=
    bool_decide (string_of_runes (runes_of_string v) = v) && forallb char_ok (runes_of_string v).

  (** What stands between & and ;.  ParseUint of the digits, at most unicode.MaxRune. *)
  Definition digit_of (base b : N) : option N :=
    if is_digit b then Some (b - 48)
    else if (base =? 16) && in_chars 97 102 b then Some (b - 87)
    else if (base =? 16) && in_chars 65 70 b then Some (b - 55) else None.
  Fixpoint number (base acc : N) (w : list N) : option N :=
    match w with
    | [] => Some acc
    | b :: w' => match digit_of base b with Some d => number base (acc * base + d) w' | None => None end
    end.
  Definition char_number (base : N) (w : list N) : option (list N) :=
    match w with
    | [] => None
    | _ => match number base 0 w with Some n => if n <=? 0x10FFFF then Some (string_of_rune (Z.of_N n)) else None | None => None end
    end.
  Definition entities : list (list N * list N) :=
    [(bytes_of "lt", [60]); (bytes_of "gt", [62]); (bytes_of "amp", [38]); (bytes_of "apos", [39]); (bytes_of "quot", [34])].
  Fixpoint entity (l : list (list N * list N)) (n : list N) : option (list N) :=
    match l with [] => None | (m, v) :: l' => if bool_decide (m = n) then Some v else entity l' n end.
  Definition reference (n : list N) : option (list N) :=
    match n with
    | b :: ds =>
      if b =? 35 then
        match ds with
        | x :: hs => if x =? 120 then char_number 16 hs else char_number 10 ds
        | [] => None
        end
      else entity entities n
    | [] => None
    end.

  (** Decoder.text.  [quote] is the quote to stop at; [b0] and [b1] are the last two bytes; [ref]
      is what has been read after an &; [out] is the buffer.  The decoder reports a bad reference
      at its first bad byte, the model at the next semicolon or at the end; both are errors. *)
  Fixpoint text (quote : option N) (cdata : bool) (b0 b1 : N) (ref : option (list N)) (out : list N) (w : list N) : option (list N * list N) :=
    match w with
    | [] => if cdata || bool_decide (is_Some ref) then None else Some (out, [])
    | b :: w' =>
      match ref with
      | Some n =>
        if b =? 59 then match reference n with Some v => text quote cdata 0 0 None (out ++ v) w' | None => None end
        else text quote cdata b0 b1 (Some (n ++ [b])) out w'
      | None =>
        if (b0 =? 93) && (b1 =? 93) && (b =? 62) then (if cdata then Some (take (length out - 2) out, w') else None)
        else if (b =? 60) && negb cdata then (match quote with Some _ => None | None => Some (out, w) end)
        else if bool_decide (quote = Some b) then Some (out, w')
        else if (b =? 38) && negb cdata then text quote cdata b0 b1 (Some []) out w'
        else if b =? 13 then text quote cdata b1 b None (out ++ [10]) w'
        else if (b1 =? 13) && (b =? 10) then text quote cdata b1 b None out w'
        else text quote cdata b1 b None (out ++ [b]) w'
      end
    end.
  Definition checked_text (quote : option N) (cdata : bool) (w : list N) : option (list N * list N) :=
    match text quote cdata 0 0 None [] w with
    | Some (v, rest) => if text_ok v then Some (v, rest) else None
    | None => None
    end.

  (** The rest of a comment; [b0], [b1] as above. *)
  Fixpoint comment (b0 b1 : N) (w : list N) : option (list N) :=
    match w with
    | [] => None
    | b :: w' => if (b0 =? 45) && (b1 =? 45) then (if b =? 62 then Some w' else None) else comment b1 b w'
    end.
  (** The rest of a processing instruction: its content and what follows. *)
  Fixpoint instruction (b0 : N) (out : list N) (w : list N) : option (list N * list N) :=
    match w with
    | [] => None
    | b :: w' => if (b0 =? 63) && (b =? 62) then Some (take (length out - 1) out, w') else instruction b (out ++ [b]) w'
    end.
  (** strings.Index: what follows the first occurrence. *)
  Fixpoint after_first (p s : list N) : option (list N) :=
    if bool_decide (p `prefix_of` s) then Some (drop (length p) s)
    else match s with [] => None | _ :: s' => after_first p s' end.
  (** The bytes before the first [q]. *)
  Fixpoint before (q : N) (s : list N) : option (list N) :=
    match s with [] => None | b :: s' => if b =? q then Some [] else match before q s' with Some v => Some (b :: v) | None => None end end.
  (** procInst: the value of a pseudo attribute, empty if there is none. *)
  Definition proc_inst (param : string) (s : list N) : list N :=
    match after_first (bytes_of param ++ [61]) s with
    | Some (q :: v) => if (q =? 39) || (q =? 34) then default [] (before q v) else []
    | _ => []
    end.
  Definition lower (b : N) : N := if in_chars 65 90 b then b + 32 else b.
  (** The check of version and encoding; EqualFold with "utf-8", whose letters are ASCII and have no
      other forms. *)
  Definition declaration_ok (content : list N) : bool :=
    let ver := proc_inst "version" content in
    let enc := proc_inst "encoding" content in
    (bool_decide (ver = []) || bool_decide (ver = bytes_of "1.0")) && (bool_decide (enc = []) || bool_decide (map lower enc = bytes_of "utf-8")).

  (** The rest of a directive: [quote] is the open quote (0: none), [depth] the open brackets; [lt]
      is what has been read of <!-- after a bracket; [com] are the last two bytes inside a comment. *)
  Fixpoint directive (quote depth : N) (lt : option nat) (com : option (N * N)) (w : list N) : option (list N) :=
    match w with
    | [] => None
    | b :: w' =>
      match com with
      | Some (b0, b1) =>
        if (b0 =? 45) && (b1 =? 45) && (b =? 62) then directive quote depth None None w' else directive quote depth None (Some (b1, b)) w'
      | None =>
        let plain depth :=
          if negb (quote =? 0) && (b =? quote) then directive 0 depth None None w'
          else if negb (quote =? 0) then directive quote depth None None w'
          else if (b =? 39) || (b =? 34) then directive b depth None None w'
          else if b =? 62 then directive 0 (depth - 1) None None w'
          else if b =? 60 then directive 0 depth (Some 0%nat) None w'
          else directive 0 depth None None w' in
        match lt with
        | Some k =>
          if bool_decide (bytes_of "!--" !! k = Some b) then
            (if (k =? 2)%nat then directive quote depth None (Some (0, 0)) w' else directive quote depth (Some (S k)) None w')
          else plain (depth + 1)
        | None => if (quote =? 0) && (b =? 62) && (depth =? 0) then Some w' else plain depth
        end
      end
    end.

  (** The attributes of an element up to the closing bracket: name and value of each, whether the
      element is empty, and the rest.  The fuel is the length of the text. *)
  Definition drop_byte (b : N) (w : list N) : option (list N) :=
    match w with c :: w' => if c =? b then Some w' else None | [] => None end.
  (** = and the quoted value, with its quote. *)
  Definition value (w : list N) : option (list N * list N) :=
    match drop_byte 61 (space w) with
    | None => None
    | Some w1 =>
      match space w1 with
      | q :: w2 => if (q =? 34) || (q =? 39) then checked_text (Some q) false w2 else None
      | [] => None
      end
    end.
  Fixpoint attributes (fuel : nat) (w : list N) : option (list (list N * list N) * bool * list N) :=
    match fuel with
    | O => None
    | S fuel' =>
      match space w with
      | [] => None
      | b :: w1 =>
        if b =? 47 then match drop_byte 62 w1 with Some w2 => Some ([], true, w2) | None => None end
        else if b =? 62 then Some ([], false, w1)
        else
          match nsname (b :: w1) with
          | None => None
          | Some (_, n, w2) =>
            match value w2 with
            | None => None
            | Some (v, w3) =>
              match attributes fuel' w3 with Some (l, e, rest) => Some ((n, v) :: l, e, rest) | None => None end
            end
          end
      end
    end.

  (** Decoder.rawToken.  An element is its prefix and its local name. *)
  Inductive token :=
  | TStart (prefix local : list N) (attrs : list (list N * list N)) (empty : bool)
  | TEnd (prefix local : list N)
  | TText (v : list N)
  | TNote.
  Definition note (r : option (list N)) : option (token * list N) :=
    match r with Some rest => Some (TNote, rest) | None => None end.
  Definition end_tag (w : list N) : option (token * list N) :=
    match nsname w with
    | None => None
    | Some (p, n, w1) => match drop_byte 62 (space w1) with Some w2 => Some (TEnd p n, w2) | None => None end
    end.
  Definition proc (w : list N) : option (token * list N) :=
    match name w with
    | None => None
    | Some (target, w1) =>
      match instruction 0 [] (space w1) with
      | None => None
      | Some (content, w2) =>
        if bool_decide (target = bytes_of "xml") && negb (declaration_ok content) then None else Some (TNote, w2)
      end
    end.
  Definition bang (w : list N) : option (token * list N) :=
    match w with
    | [] => None
    | b :: w1 =>
      if b =? 45 then match drop_byte 45 w1 with Some w2 => note (comment 0 0 w2) | None => None end
      else if b =? 91 then
        if bool_decide (bytes_of "CDATA[" `prefix_of` w1) then
          match checked_text None true (drop 6 w1) with Some (v, w2) => Some (TText v, w2) | None => None end
        else None
      else note (directive 0 0 None None w1)
    end.
  Definition start_tag (w : list N) : option (token * list N) :=
    match nsname w with
    | None => None
    | Some (p, n, w1) =>
      match attributes (S (length w1)) w1 with Some (l, e, w2) => Some (TStart p n l e, w2) | None => None end
    end.
  Definition markup (w : list N) : option (token * list N) :=
    match w with
    | [] => None
    | b :: w1 => if b =? 47 then end_tag w1 else if b =? 63 then proc w1 else if b =? 33 then bang w1 else start_tag w
    end.
  Inductive raw := RToken (t : token) (rest : list N) | RError | REnd.
  Definition raw_token (w : list N) : raw :=
    match w with
    | [] => REnd
    | b :: w' =>
      match (if b =? 60 then markup w' else match checked_text None false w with Some (v, rest) => Some (TText v, rest) | None => None end) with
      | Some (t, rest) => RToken t rest
      | None => RError
      end
    end.

  (** Decoder.Token until the end of the file or an error: the tokens, and whether the end was
      reached with no element open.  An empty element gives two tokens.  Name spaces are
      translated by the decoder, local names are not changed by that. *)
  Fixpoint tokens (fuel : nat) (open : list (list N * list N)) (w : list N) : list ev * bool :=
    match fuel with
    | O => ([], false)
    | S fuel' =>
      match raw_token w with
      | REnd => ([], bool_decide (open = []))
      | RError => ([], false)
      | RToken t rest =>
        match t with
        | TStart p n l true => let '(es, ok) := tokens fuel' open rest in (EStart n l :: EEnd n :: es, ok)
        | TStart p n l false => let '(es, ok) := tokens fuel' ((p, n) :: open) rest in (EStart n l :: es, ok)
        | TEnd p n =>
          match open with
          | (p', n') :: open' =>
            if bool_decide (n' = n) && bool_decide (p' = p) then let '(es, ok) := tokens fuel' open' rest in (EEnd n :: es, ok)
            else ([], false)
          | [] => ([], false)
          end
        | TText v => let '(es, ok) := tokens fuel' open rest in (EText v :: es, ok)
        | TNote => let '(es, ok) := tokens fuel' open rest in (ENote :: es, ok)
        end
      end
    end.
  Definition tokenize (w : list N) : list ev * bool := tokens (S (length w)) [] w.
End decoder.
