(** How a document can be written as XML text: the part of XML 1.0 used here, with names in ASCII.
    Specification of C84; nothing here refers to the model of the decoder.  Characters are given by
    their codes: 60 is <, 62 is >, 38 is &, 59 is ;, 34 and 39 are the quotes, 93 is ], 45 is -, 63
    is ?, 47 is /, 58 is :, 61 is =, 13 and 10 end lines. *)
From Verif Require Import Base Utf8 DocSpec.
From stdpp Require Import list.
Open Scope N_scope.

(** ** Characters *)

(** XML 1.0, production [2]. *)
Definition legal_char (r : Z) : Prop :=
  (r = 9 \/ r = 10 \/ r = 13 \/ 32 <= r <= 0xD7FF \/ 0xE000 <= r <= 0xFFFD \/ 0x10000 <= r <= 0x10FFFF)%Z.
Definition legal (v : list N) : Prop := exists rs, v = string_of_runes rs /\ Forall legal_char rs.
Definition white (w : list N) : Prop := Forall (fun b => b = 32 \/ b = 9 \/ b = 10 \/ b = 13) w.
Definition letter (b : N) : Prop := 65 <= b <= 90 \/ 97 <= b <= 122.
Definition digit (b : N) : Prop := 48 <= b <= 57.
(** A name without colon. *)
Definition plain_name (n : list N) : Prop :=
  exists b n', n = b :: n' /\ (letter b \/ b = 95) /\ Forall (fun c => letter c \/ digit c \/ c = 95 \/ c = 45 \/ c = 46) n'.
(** A local name, with or without a prefix. *)
Inductive qname (n : list N) : list N -> Prop :=
| q_plain : plain_name n -> qname n n
| q_prefix p : plain_name p -> plain_name n -> qname n (p ++ 58 :: n).
(** [p] is nowhere in [w]. *)
Definition free_of (p w : list N) : Prop := forall a b, w <> a ++ p ++ b.

(** ** Text *)

Definition hex_value (b : N) : N := if b <=? 57 then b - 48 else if b <=? 70 then b - 55 else b - 87.
Definition hex (b : N) : Prop := digit b \/ 65 <= b <= 70 \/ 97 <= b <= 102.
(** What stands between & and ; and what it stands for. *)
Inductive refers : list N -> list N -> Prop :=
| r_lt : refers (bytes_of "lt") [60]
| r_gt : refers (bytes_of "gt") [62]
| r_amp : refers (bytes_of "amp") [38]
| r_apos : refers (bytes_of "apos") [39]
| r_quot : refers (bytes_of "quot") [34]
| r_dec ds n : ds <> [] -> Forall digit ds -> n = foldl (fun a d => a * 10 + hex_value d) 0 ds -> n <= 0x10FFFF ->
    refers (35 :: ds) (string_of_rune (Z.of_N n))
| r_hex ds n : ds <> [] -> Forall hex ds -> n = foldl (fun a d => a * 16 + hex_value d) 0 ds -> n <= 0x10FFFF ->
    refers (35 :: 120 :: ds) (string_of_rune (Z.of_N n)).
(** Ways to write the text [v]: each byte as it is, except <, & and the quote around; references;
    every kind of line end for line feed. *)
Inductive chars (quote : option N) : list N -> list N -> Prop :=
| c_nil : chars quote [] []
| c_byte b v w : b <> 60 -> b <> 38 -> b <> 13 -> quote <> Some b -> chars quote v w -> chars quote (b :: v) (b :: w)
| c_ref n x v w : refers n x -> chars quote v w -> chars quote (x ++ v) (38 :: n ++ 59 :: w)
| c_cr v w : head w <> Some 10 -> chars quote v w -> chars quote (10 :: v) (13 :: w)
| c_crlf v w : chars quote v w -> chars quote (10 :: v) (13 :: 10 :: w).
(** In a CDATA section only line ends are changed. *)
Inductive cdata : list N -> list N -> Prop :=
| d_nil : cdata [] []
| d_byte b v w : b <> 13 -> cdata v w -> cdata (b :: v) (b :: w)
| d_cr v w : head w <> Some 10 -> cdata v w -> cdata (10 :: v) (13 :: w)
| d_crlf v w : cdata v w -> cdata (10 :: v) (13 :: 10 :: w).

(** ** Markup *)

Definition is_quote (q : N) : Prop := q = 34 \/ q = 39.
Inductive attributes_written : list (list N * list N) -> list N -> Prop :=
| a_nil : attributes_written [] []
| a_cons n v l s1 n' s2 s3 q v' w : s1 <> [] -> white s1 -> qname n n' -> white s2 -> white s3 -> is_quote q ->
    chars (Some q) v v' -> legal v -> free_of [93; 93; 62] v' -> attributes_written l w ->
    attributes_written ((n, v) :: l) (s1 ++ n' ++ s2 ++ 61 :: s3 ++ q :: v' ++ q :: w).
(** The content of a directive such as <!DOCTYPE ...>: brackets match, outside of quotes and
    comments. *)
Inductive directive_body : list N -> Prop :=
| b_nil : directive_body []
| b_byte b w : b <> 34 -> b <> 39 -> b <> 60 -> b <> 62 -> directive_body w -> directive_body (b :: w)
| b_quoted q t w : is_quote q -> q ∉ t -> directive_body w -> directive_body (q :: t ++ q :: w)
| b_nested t w : ~ bytes_of "!--" `prefix_of` t ++ [62] -> directive_body t -> directive_body w -> directive_body (60 :: t ++ 62 :: w)
| b_comment t w : free_of (bytes_of "-->") (t ++ bytes_of "--") -> directive_body w ->
    directive_body (bytes_of "<!--" ++ t ++ bytes_of "-->" ++ w).
(** version, encoding and standalone of the XML declaration; the encoding is UTF-8 in letters of
    any case. *)
Definition is_utf8 (e : list N) : Prop :=
  exists u t f, (u = 85 \/ u = 117) /\ (t = 84 \/ t = 116) /\ (f = 70 \/ f = 102) /\ e = [u; t; f; 45; 56].
Inductive declaration_written : list N -> Prop :=
| x_version q s1 w1 s2 w2 s3 : is_quote q -> white s1 -> white s2 -> white s3 ->
    (w1 = [] \/ s1 <> [] /\ exists q' e, is_quote q' /\ is_utf8 e /\ w1 = bytes_of "encoding=" ++ q' :: e ++ [q']) ->
    (w2 = [] \/ s2 <> [] /\ exists q' a, is_quote q' /\ a ∈ [bytes_of "yes"; bytes_of "no"] /\ w2 = bytes_of "standalone=" ++ q' :: a ++ [q']) ->
    declaration_written (bytes_of "version=" ++ (q :: bytes_of "1.0" ++ [q]) ++ s1 ++ w1 ++ s2 ++ w2 ++ s3).

Inductive written : node -> list N -> Prop :=
| w_text v w : w <> [] -> chars None v w -> legal v -> free_of [93; 93; 62] w -> written (Text v) w
| w_cdata v w : cdata v w -> legal v -> free_of [93; 93; 62] w -> written (Text v) (bytes_of "<![CDATA[" ++ w ++ bytes_of "]]>")
| w_comment t : free_of (bytes_of "--") (t ++ bytes_of "-") -> written Note (bytes_of "<!--" ++ t ++ bytes_of "-->")
| w_instruction n s t : plain_name n -> n <> bytes_of "xml" -> white s -> (t = [] \/ s <> []) -> free_of (bytes_of "?>") t ->
    written Note (bytes_of "<?" ++ n ++ s ++ t ++ bytes_of "?>")
| w_declaration s t : s <> [] -> white s -> declaration_written t -> written Note (bytes_of "<?xml" ++ s ++ t ++ bytes_of "?>")
| w_directive b t : letter b -> directive_body t -> written Note (bytes_of "<!" ++ b :: t ++ [62])
| w_element n l kids n' a s w s' : qname n n' -> attributes_written l a -> white s -> written_all kids w -> white s' ->
    written (Elem n l kids) ((60 :: n' ++ a ++ s ++ [62]) ++ w ++ (60 :: 47 :: n' ++ s' ++ [62]))
| w_empty n l n' a s : qname n n' -> attributes_written l a -> white s ->
    written (Elem n l []) (60 :: n' ++ a ++ s ++ [47; 62])
(** One after the other; two pieces of text do not touch, they would be one. *)
with written_all : list node -> list N -> Prop :=
| wa_nil : written_all [] []
| wa_cons n ns w ws : written n w -> written_all ns ws -> (head w = Some 60 \/ ws = [] \/ head ws = Some 60) ->
    written_all (n :: ns) (w ++ ws).

(** ** One way to write every document *)

Definition escape_byte (b : N) : list N :=
  if b =? 60 then bytes_of "&lt;" else if b =? 62 then bytes_of "&gt;" else if b =? 38 then bytes_of "&amp;"
  else if b =? 34 then bytes_of "&#34;" else if b =? 13 then bytes_of "&#xD;" else [b].
Definition escape (v : list N) : list N := concat (map escape_byte v).
Definition print_attribute (a : list N * list N) : list N := 32 :: a.1 ++ [61; 34] ++ escape a.2 ++ [34].
Fixpoint print (n : node) : list N :=
  match n with
  | Elem m l kids => 60 :: m ++ concat (map print_attribute l) ++ 62 :: concat (map print kids) ++ 60 :: 47 :: m ++ [62]
  | Text v => escape v
  | Note => bytes_of "<!---->"
  end.
(** What can be written: names are names, values and texts are legal, no text is empty or stands
    beside another one. *)
Definition is_text (n : node) : bool := match n with Text _ => true | _ => false end.
Fixpoint no_neighbours (ns : list node) : Prop :=
  match ns with
  | a :: ns' => match ns' with b :: _ => ~ (is_text a = true /\ is_text b = true) | [] => True end /\ no_neighbours ns'
  | [] => True
  end.
Fixpoint printable (n : node) : Prop :=
  match n with
  | Elem m l kids =>
    plain_name m /\ Forall (fun a => plain_name a.1 /\ legal a.2) l /\ no_neighbours kids /\
    (fix all (ks : list node) : Prop := match ks with [] => True | k :: ks' => printable k /\ all ks' end) kids
  | Text v => v <> [] /\ legal v
  | Note => True
  end.
