(** Exactly which texts the decoder of encoding/xml accepts.  Specification of C89; nothing here
    refers to the model of the decoder.  The language is that of XmlSpec.v made wider: names may
    contain runes above 127 and colons, attributes need not be separated, a processing
    instruction may go on with any character that cannot belong to its name, the XML declaration
    may stand anywhere, and any character but - and [ may begin a directive. *)
From Verif Require Import Base Utf8 Spec DocSpec XmlSpec.
From stdpp Require Import list.
Open Scope N_scope.

Section language.
  (** Which runes above 127 may begin a name, and which others may be inside one. *)
  Context (first more : Z -> bool).

  (** ** Names *)
  Definition begins_name (r : Z) : Prop :=
    (exists b, r = Z.of_N b /\ (letter b \/ b = 95 \/ b = 58)) \/ (128 <= r)%Z /\ first r = true.
  Definition inside_name (r : Z) : Prop :=
    (exists b, r = Z.of_N b /\ (letter b \/ digit b \/ b = 95 \/ b = 58 \/ b = 46 \/ b = 45)) \/ (128 <= r)%Z /\ (first r = true \/ more r = true).
  Definition any_name (n : list N) : Prop :=
    exists r rs, n = string_of_runes (r :: rs) /\ Forall scalar (r :: rs) /\ begins_name r /\ Forall inside_name rs.
  (** Here a name is over: a character below 128 that cannot be in a name. *)
  Definition name_over (w : list N) : Prop :=
    exists b w', w = b :: w' /\ b < 128 /\ ~ (letter b \/ digit b \/ b = 95 \/ b = 58 \/ b = 46 \/ b = 45).
  (** Prefix and local part of a name.  A colon at the border does not separate. *)
  Inductive parted : list N -> list N -> list N -> Prop :=
  | p_whole n : 58 ∉ n -> parted [] n n
  | p_both p n : p <> [] -> n <> [] -> 58 ∉ p -> 58 ∉ n -> parted p n (p ++ 58 :: n)
  | p_border p n : p = [] \/ n = [] -> 58 ∉ p -> 58 ∉ n -> parted [] (p ++ 58 :: n) (p ++ 58 :: n).

  (** ** Markup *)
  Inductive attributes_read : list (list N * list N) -> list N -> Prop :=
  | ar_nil : attributes_read [] []
  | ar_cons p n v l s1 m s2 s3 q v' w : white s1 -> any_name m -> parted p n m -> white s2 -> white s3 -> is_quote q ->
      chars (Some q) v v' -> legal v -> free_of [93; 93; 62] v' -> attributes_read l w ->
      attributes_read ((n, v) :: l) (s1 ++ m ++ s2 ++ 61 :: s3 ++ q :: v' ++ q :: w).
  Definition starts_white (w : list N) : Prop := exists b w', w = b :: w' /\ white [b].
  (** [a] is before the first occurrence of [key] in [c], [b] behind it. *)
  Definition first_at (key c a b : list N) : Prop :=
    c = a ++ key ++ b /\ forall a' b', c = a' ++ key ++ b' -> (length a <= length a')%nat.
  (** The value of version or encoding in the content of a declaration: what is quoted after the
      first occurrence of the name with =, nothing if there is none. *)
  Definition quoted (b v : list N) : Prop := exists q b', is_quote q /\ q ∉ v /\ b = q :: v ++ q :: b'.
  Inductive pseudo (key c : list N) : list N -> Prop :=
  | s_absent : free_of key c -> pseudo key c []
  | s_value a b v : first_at key c a b -> quoted b v -> pseudo key c v
  | s_broken a b : first_at key c a b -> (forall v, ~ quoted b v) -> pseudo key c [].
  Definition declared (c : list N) : Prop :=
    (exists v, pseudo (bytes_of "version=") c v /\ (v = [] \/ v = bytes_of "1.0")) /\
    (exists e, pseudo (bytes_of "encoding=") c e /\ (e = [] \/ is_utf8 e)).

  Inductive accepts : node -> list N -> Prop :=
  | ac_text v w : w <> [] -> chars None v w -> legal v -> free_of [93; 93; 62] w -> accepts (Text v) w
  | ac_cdata v w : cdata v w -> legal v -> free_of [93; 93; 62] w -> accepts (Text v) (bytes_of "<![CDATA[" ++ w ++ bytes_of "]]>")
  | ac_comment t : free_of (bytes_of "--") (t ++ bytes_of "-") -> accepts Note (bytes_of "<!--" ++ t ++ bytes_of "-->")
  | ac_instruction n s c : any_name n -> white s -> ~ starts_white c -> name_over (s ++ c ++ bytes_of "?>") -> free_of (bytes_of "?>") c ->
      (n = bytes_of "xml" -> declared c) -> accepts Note (bytes_of "<?" ++ n ++ s ++ c ++ bytes_of "?>")
  | ac_directive b t : b <> 45 -> b <> 91 -> directive_body t -> accepts Note (bytes_of "<!" ++ b :: t ++ [62])
  | ac_element p n l kids m a s w s' : any_name m -> parted p n m -> attributes_read l a -> (a = [] \/ starts_white a) -> white s ->
      accepts_all kids w -> white s' ->
      accepts (Elem n l kids) ((60 :: m ++ a ++ s ++ [62]) ++ w ++ (60 :: 47 :: m ++ s' ++ [62]))
  | ac_empty p n l m a s : any_name m -> parted p n m -> attributes_read l a -> (a = [] \/ starts_white a) -> white s ->
      accepts (Elem n l []) (60 :: m ++ a ++ s ++ [47; 62])
  with accepts_all : list node -> list N -> Prop :=
  | aa_nil : accepts_all [] []
  | aa_cons n ns w ws : accepts n w -> accepts_all ns ws -> (head w = Some 60 \/ ws = [] \/ head ws = Some 60) ->
      accepts_all (n :: ns) (w ++ ws).
End language.
