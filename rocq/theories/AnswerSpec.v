(** Specification of the answers of the index browser: for each command, a table of the arguments
    and what is seen.  Fields of a line are strings without spaces; a reply is [Session.reply].
    An exit code of [None] is a crash. *)
From Verif Require Import Base Tags Spec Utf8 Numerals Cli Session.
From stdpp Require Import list gmap.
Open Scope N_scope.

Definition seen := (list reply * option N)%type.
Definition says (r : reply) : seen := ([r], Some 0).
Definition crash : seen := ([], None).
Definition is_number (arg : list N) : Prop := exists n, with_sign decimal arg n.

(** [tag] *)
Inductive tag_says (same : list N -> list N -> bool) (tags : list tag) : list (list N) -> seen -> Prop :=
| tag_count : tag_says same tags [bytes_of "count"] (says (RTagCount (lenN tags)))
| tag_number arg n t : with_sign decimal arg (Z.of_N n) -> tags !! N.to_nat n = Some t -> tag_says same tags [arg] (says (RTag (Z.of_N n) t))
| tag_too_big arg n : with_sign decimal arg n -> (Z.of_N (lenN tags) <= n)%Z -> tag_says same tags [arg] (says RMessage)
| tag_negative arg n : with_sign decimal arg n -> (n < 0)%Z -> tag_says same tags [arg] crash
| tag_called arg i t : ~ is_number arg -> arg <> bytes_of "count" ->
    tags !! i = Some t -> same (tag_name t) arg = true ->
    (forall j u, (j < i)%nat -> tags !! j = Some u -> same (tag_name u) arg = false) ->
    tag_says same tags [arg] (says (RTag (Z.of_nat i) t))
| tag_not_called arg : ~ is_number arg -> arg <> bytes_of "count" -> (forall t, t ∈ tags -> same (tag_name t) arg = false) ->
    tag_says same tags [arg] (says RMessage)
| tag_usage args : length args <> 1%nat -> tag_says same tags args (says RMessage).

(** The names of the tags of a set, where there are such tags. *)
Definition names (tags : list tag) (ids : list N) : list (option (list N)) :=
  map (fun k => tag_name <$> tags !! N.to_nat k) ids.
(** The set with a number: table and position are its upper and lower 16 bits. *)
Definition set_at (sets : list (list (list N))) (n : N) : option (list N) :=
  sets !! N.to_nat (n / 2 ^ 16) ≫= (.!! N.to_nat (n mod 2 ^ 16)).

(** [set] *)
Inductive set_says (tags : list tag) (sets : list (list (list N))) : list (list N) -> seen -> Prop :=
| set_usage : set_says tags sets [] (says RMessage)
| set_tables rest : set_says tags sets (bytes_of "tables" :: rest) (says (RTables (map lenN sets)))
| set_table arg n t : with_sign decimal arg (Z.of_N n) -> sets !! N.to_nat n = Some t ->
    set_says tags sets [bytes_of "table"; arg] (says (RTable (Z.of_N n) t))
| set_table_too_big arg n : with_sign decimal arg n -> (Z.of_N (lenN sets) <= n)%Z ->
    set_says tags sets [bytes_of "table"; arg] (says RMessage)
| set_table_negative arg n : with_sign decimal arg n -> (n < 0)%Z -> set_says tags sets [bytes_of "table"; arg] crash
| set_table_word arg : ~ is_number arg -> set_says tags sets [bytes_of "table"; arg] (says RMessage)
| set_table_usage rest : length rest <> 1%nat -> set_says tags sets (bytes_of "table" :: rest) (says RMessage)
| set_number sub rest n ids : with_sign int_lit sub n -> set_at sets (Z.to_N (n mod 2 ^ 32)) = Some ids ->
    set_says tags sets (sub :: rest) (says (RSet n (names tags ids)))
| set_no_number sub rest n : with_sign int_lit sub n -> set_at sets (Z.to_N (n mod 2 ^ 32)) = None ->
    set_says tags sets (sub :: rest) (says RMessage)
| set_word sub rest : sub <> bytes_of "tables" -> sub <> bytes_of "table" -> (forall n, ~ with_sign int_lit sub n) ->
    set_says tags sets (sub :: rest) (says RMessage).

(** [var]: the table is one less than the upper 16 bits; 0 there is the empty collection. *)
Definition col_at (cols : list (list (list N))) (n : N) : option (list N) :=
  if n <? 2 ^ 16 then Some [] else cols !! N.to_nat (n / 2 ^ 16 - 1) ≫= (.!! N.to_nat (n mod 2 ^ 16)).
Inductive var_says (tags : list tag) (sets cols : list (list (list N))) : list (list N) -> seen -> Prop :=
| var_usage : var_says tags sets cols [] (says RMessage)
| var_number sub rest n col : int_lit sub n -> n < 2 ^ 32 -> col_at cols n = Some col ->
    var_says tags sets cols (sub :: rest) (says (RVar n (map (fun k => names tags <$> set_at sets k) col)))
| var_no_number sub rest n : int_lit sub n -> n < 2 ^ 32 -> col_at cols n = None ->
    var_says tags sets cols (sub :: rest) crash
| var_word sub rest : (forall n, int_lit sub n -> 2 ^ 32 <= n) -> var_says tags sets cols (sub :: rest) (says RMessage).

(** [node]: words are numbered from 1 in the order in which they came into the dictionary; [sets]
    gives the tag sets of a node and [numbers] the number of their collection. *)
Definition word_at (d : dict) (id : N) (w : list Z) : Prop := 1 <= id /\ d_words d !! N.to_nat (id - 1) = Some w.
Definition describes (d : dict) (sets : N -> res (list (list tag))) (numbers : N -> option N) (id : N) (i : node_info) : Prop :=
  exists w ts, word_at d id w /\ ni_id i = id /\ ni_word i = string_of_runes w /\
    (removelast w = [] /\ ni_parent i = 0 \/ word_at d (ni_parent i) (removelast w)) /\
    (forall r c, ni_children i !! r = Some c <-> word_at d c (w ++ [r])) /\
    sets id = Ok ts /\ ni_sets i = map (map tag_name) ts /\ numbers id = Some (ni_variants i).
Inductive node_says (d : dict) (sets : N -> res (list (list tag))) (numbers : N -> option N) : list (list N) -> seen -> Prop :=
| node_usage : node_says d sets numbers [] (says RMessage)
| node_total rest : node_says d sets numbers (bytes_of "count" :: rest) (says (RNodeCount (lenN (d_words d))))
| node_extra sub x rest : sub <> bytes_of "count" -> node_says d sets numbers (sub :: x :: rest) (says RMessage)
| node_number arg n i : with_sign decimal arg n -> (n < Z.of_N (lenN (d_words d)))%Z ->
    describes d sets numbers (Z.to_N (n mod 2 ^ 32)) i -> node_says d sets numbers [arg] (says (RNode i))
| node_root arg n : with_sign decimal arg n -> (n < Z.of_N (lenN (d_words d)))%Z -> (n mod 2 ^ 32 = 0)%Z -> node_says d sets numbers [arg] crash
| node_too_big arg n : with_sign decimal arg n -> (Z.of_N (lenN (d_words d)) <= n \/ Z.of_N (lenN (d_words d)) < n mod 2 ^ 32)%Z ->
    node_says d sets numbers [arg] (says RMessage)
| node_called arg id i : ~ is_number arg -> arg <> bytes_of "count" -> word_at d id (runes_of_string arg) ->
    describes d sets numbers id i -> node_says d sets numbers [arg] (says (RNode i))
| node_not_called arg : ~ is_number arg -> arg <> bytes_of "count" -> runes_of_string arg ∉ d_words d -> node_says d sets numbers [arg] (says RMessage).
