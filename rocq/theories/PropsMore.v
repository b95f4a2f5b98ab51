(** Listings and texts once more: C14, C15, C37, C69.  The proofs are in ThmMore.v. *)
From Verif Require Import Base Storage Bin Utf8 Tags TagSets Variants Items Index Spec Hist BaseFacts ThmTrie ThmStore Cli Strconv Session Screen ScreenSpec ThmScreen ThmMore.
From stdpp Require Import list gmap pretty.
Open Scope N_scope.

(** C14.  [Following] lists in increasing order the positions after the given one. *)
Theorem C14_following : forall t id k, lenN t <= 65536 ->
  k ∈ variants_table_following t id <-> id < k < lenN t.
Proof. exact l_C14_following. Qed.
Print Assumptions C14_following.
Theorem C14_following_order : forall t id, lenN t <= 65536 -> StronglySorted N.lt (variants_table_following t id).
Proof. exact l_C14_following_order. Qed.
Print Assumptions C14_following_order.
Example C14_following_case : variants_table_following [[1]; [2]; [3]; [4]] 1 = [2; 3] /\ variants_table_following [[1]] 5 = [].
Proof. split; reflexivity. Qed.

(** C15.  What is listed: for each stored set its number, 65536 too big. *)
Theorem C15_listed : forall items x ids, nonempty items -> fits 65536 65536 items ->
  idx_all tagset_index_index [] items = Ok (x, ids) ->
  Forall2 (fun id s => exists k, tagset_get x k = Some s /\ k ∈ ids /\ id = (k + 65536) mod 2 ^ 32) (tagset_table_ids x) (concat x).
Proof. exact l_C15_listed. Qed.
Print Assumptions C15_listed.
Example C15_listed_case : exists x, idx_all tagset_index_index [] [[7]; [8; 9]] = Ok (x, [0; 65536]) /\ tagset_table_ids x = [65536; 131072] /\ concat x = [[7]; [8; 9]].
Proof. eexists. vm_compute. repeat split. Qed.

(** C37.  For any last letter: the last byte of the word is cut off before the bracket, and the
    bytes of the letter after its first come once more behind it. *)
Theorem C37_any_letter : forall h ix w c id it,
  runs h ix -> (reloaded h = true -> head (w ++ [c]) <> Some 0%Z) ->
  (fetch_runes ix (w ++ [c])).2 = Ok id -> get_item ix id = Ok (Some it) ->
  node_string ix id = Ok (bytes_of "Node(" ++ removelast (string_of_runes (w ++ [c])) ++ bytes_of "[" ++ string_of_rune c ++ bytes_of "]"
    ++ tail (string_of_rune c) ++ bytes_of (pretty id) ++ bytes_of "_" ++ bytes_of (pretty (it_parent it)) ++ bytes_of "_"
    ++ bytes_of (pretty (it_variants it)) ++ bytes_of ")").
Proof. exact l_C37_any_letter. Qed.
Print Assumptions C37_any_letter.
Example C37_letter_case : exists ix, runs [OAdd [0x43A; 0x43E]%Z] ix /\
  node_string ix 2 = Ok (bytes_of "Node(к" ++ [208] ++ bytes_of "[о]" ++ [190] ++ bytes_of "2_1_0)").
Proof. apply run_case. vm_compute. reflexivity. Qed.

(** C69.  The whole text of a node. *)
Theorem C69_node : forall f load h ix line ix' i order, runs h ix -> process_input f load ix line = Reply ix' (RNode i) -> walks order (RNode i) ->
  (forall r id, ni_children i !! r = Some id -> scalar r) ->
  exists L, L ≡ₚ map_to_list (ni_children i) /\ StronglySorted Z.lt L.*1 /\
    line_text order ix (RNode i) =
      bytes_of "Node:     " ++ itoa (ni_id i) ++ [10] ++ bytes_of "Prefix:   " ++ ni_word i ++ [10] ++
      bytes_of "Parent:   " ++ itoa (ni_parent i) ++ [10] ++ bytes_of "Variants: " ++
      (if ni_variants i =? 0 then bytes_of "--------" else
         itoa (ni_variants i) ++ bytes_of "(0x" ++ hex (ni_variants i) ++ bytes_of "), " ++ itoa (lenN (ni_sets i)) ++ bytes_of " item(s): " ++
          concat (imap (fun k names => [10] ++ bytes_of "- " ++ fmt_0d 2 (N.of_nat k) ++ bytes_of ": (" ++ join_with (bytes_of ",") names ++ bytes_of ")") (ni_sets i))) ++ [10] ++ bytes_of "Children: " ++
      match L with
      | [] => bytes_of "--------" ++ [10]
      | _ => itoa (lenN L) ++ bytes_of " items:" ++ [10] ++ child_lines L
      end ++ [10].
Proof. exact l_C69_node. Qed.
Print Assumptions C69_node.

