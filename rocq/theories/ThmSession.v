(** Proofs of the properties of a session with the index browser (C60). *)
From Coq Require Import ZifyBool ZifyNat ZifyN.
From Verif Require Import Base Storage Bin Utf8 Tags TagSets Variants Items Index Spec Hist
  BaseFacts Intern SpecFacts TrieFacts NoteFacts OptFacts HistFacts DictFacts QueryFacts Utf8Facts ThmTrie ThmTags Cli ThmCli
  Strconv Session Numerals NumFacts Browse.
From stdpp Require Import list gmap.
Open Scope N_scope.

(** ** Fields *)
Lemma split_spec s : forall p ps, split_space s = p :: ps -> 32 ∉ p /\ Forall (fun f => 32 ∉ f) ps /\ spaced p ps = s.
Proof.
  induction s as [|c s IH]; intros p ps H; cbn in H.
  { injection H as <- <-. split; [apply not_elem_of_nil|]. split; [constructor|done]. }
  destruct (N.eqb_spec c 32) as [->|Hc].
  - injection H as <- <-. split; [apply not_elem_of_nil|]. destruct (split_space s) as [|q qs] eqn:E; [by destruct s; cbn in E; [|destruct (_ =? _); [|destruct (split_space s)]]|].
    destruct (IH q qs eq_refl) as (H1 & H2 & H3). split; [by constructor|]. cbn. by rewrite H3.
  - destruct (split_space s) as [|q qs] eqn:E.
    { by destruct s; cbn in E; [|destruct (_ =? _); [|destruct (split_space s)]]. }
    injection H as <- <-. destruct (IH q qs eq_refl) as (H1 & H2 & H3). split; [|split; [done|]].
    + rewrite not_elem_of_cons. split; [congruence|done].
    + rewrite <- H3. by destruct qs.
Qed.
Lemma split_cons s : exists p ps, split_space s = p :: ps.
Proof. destruct s as [|c s]; cbn; [by eexists _, _|]. destruct (c =? 32); [by eexists _, _|]. destruct (split_space s); by eexists _, _. Qed.
Lemma split_word s t : 32 ∉ s -> split_space (s ++ t) =
  match split_space t with p :: ps => (s ++ p) :: ps | [] => [] end.
Proof.
  induction s as [|c s IH]; intros H; [cbn; by destruct (split_cons t) as (? & ? & ->)|].
  rewrite not_elem_of_cons in H. destruct H as [Hc H]. cbn. rewrite (IH H).
  destruct (N.eqb_spec c 32) as [->|_]; [done|]. destruct (split_cons t) as (? & ? & E). by rewrite E.
Qed.
Lemma split_join p ps : 32 ∉ p -> Forall (fun f => 32 ∉ f) ps -> split_space (spaced p ps) = p :: ps.
Proof.
  revert p. induction ps as [|q ps IH]; intros p Hp Hps; cbn [spaced].
  - rewrite <- (app_nil_r p) at 1. rewrite split_word by done. cbn. by rewrite app_nil_r.
  - inversion Hps; subst. rewrite split_word by done. cbn [split_space]. change (32 =? 32) with true. cbn iota. rewrite IH by done. by rewrite app_nil_r.
Qed.

Lemma nul_head s : head (runes_of_string s) = Some 0%Z -> 0 ∈ s.
Proof.
  destruct s as [|a s]; [done|]. cbn [runes_of_string].
  destruct (N.ltb_spec a 0x80). { cbn [head]. intros [= E]. apply elem_of_cons. left. lia. }
  intros E. exfalso. revert E.
  destruct (in_range 0xC2 0xDF a) eqn:E1.
  { destruct s as [|b s]; [done|]. destruct (is_cont b) eqn:E2; [|done]. cbn [head]. intros [= E].
    unfold in_range, is_cont in *. lia. }
  destruct (in_range 0xE0 0xEF a) eqn:E3.
  { destruct s as [|b [|c s]]; [done..|]. destruct (in_range _ _ b && is_cont c) eqn:E4; [|done]. cbn [head]. intros [= E].
    unfold in_range, is_cont, second_lo in *. destruct (N.eqb_spec a 0xE0); [lia|]. destruct (N.eqb_spec a 0xF0); lia. }
  destruct (in_range 0xF0 0xF4 a) eqn:E5; [|done].
  destruct s as [|b [|c [|d s]]]; [done..|]. destruct (in_range _ _ b && is_cont c && is_cont d) eqn:E6; [|done]. cbn [head]. intros [= E].
  unfold in_range, is_cont, second_lo in *. destruct (N.eqb_spec a 0xE0); [lia|]. destruct (N.eqb_spec a 0xF0); lia.
Qed.

(** ** Replies do not depend on empty inner maps *)
Lemma children_cong a b id : same_core a b -> get_children_map a id = get_children_map b id.
Proof.
  intros S. apply map_eq. intros r. pose proof (sc_child _ _ S id r) as E. unfold child in E. unfold get_children_map.
  destruct (ix_children a !! id), (ix_children b !! id); cbn in *; rewrite ?lookup_empty; done.
Qed.
Lemma get_cong a b id : same_core a b -> index_get a id = index_get b id.
Proof. intros S. unfold index_get. by rewrite (sc_items _ _ S). Qed.
Lemma tag_sets_cong a b id : same_core a b -> node_tag_sets a id = node_tag_sets b id.
Proof. intros S. apply (same_core_queries _ _ S). Qed.
Lemma count_cong a b : same_core a b -> nodes_count a = nodes_count b.
Proof. intros S. apply (same_core_queries _ _ S). Qed.
Lemma show_cong a b id : same_core a b -> (show_node a id).2 = (show_node b id).2.
Proof.
  intros S. unfold show_node. cbn [snd]. rewrite (node_word_cong _ _ id S), (tag_sets_cong _ _ id S), (sc_items _ _ S).
  by rewrite !children_ensure, (children_cong _ _ id S).
Qed.
Lemma show_same a id : same_core (show_node a id).1 a.
Proof.
  unfold show_node. cbn [fst]. destruct (_ ← node_word a id; _) as [?|?|]; [apply same_core_ensure|done|done].
Qed.
Lemma item_loop_cong rest : forall a b p, same_core a b -> (fetch_item_loop a p rest).2 = (fetch_item_loop b p rest).2.
Proof.
  induction rest as [|r rest IH]; intros a b p S; [done|]. cbn [fetch_item_loop].
  pose proof (ensure_cong a b p S) as S1.
  rewrite (child_cong _ _ p r S1). destruct (child (ix_children (ensure_children b p)) p r) as [n|].
  - destruct rest; [done|]. by apply IH.
  - cbn [snd]. by rewrite (node_word_cong _ _ p S1).
Qed.
Lemma item_loop_same rest : forall a p, same_core (fetch_item_loop a p rest).1 a.
Proof.
  induction rest as [|r rest IH]; intros a p; [done|]. cbn [fetch_item_loop].
  destruct (child _ p r) as [n|]; [|apply same_core_ensure].
  destruct rest; [apply same_core_ensure|]. etrans; [apply IH|]. apply same_core_ensure.
Qed.
Lemma item_same a w : same_core (fetch_item_from_parent a 0 w).1 a.
Proof. unfold fetch_item_from_parent. destruct w; [done|]. apply item_loop_same. Qed.
Lemma item_cong a b w : same_core a b -> (fetch_item_from_parent a 0 w).2 = (fetch_item_from_parent b 0 w).2.
Proof. intros S. unfold fetch_item_from_parent. destruct w; [done|]. by apply item_loop_cong. Qed.

Lemma cmd_node_same a n : same_core (cmd_node a n).1 a.
Proof. unfold cmd_node. destruct (_ <=? _)%Z; [done|]. destruct (index_get a _); [apply show_same|done|done]. Qed.
Lemma cmd_node_cong a b n : same_core a b -> (cmd_node a n).2 = (cmd_node b n).2.
Proof.
  intros S. unfold cmd_node. rewrite (count_cong _ _ S). destruct (_ <=? _)%Z; [done|]. rewrite (get_cong _ _ _ S).
  destruct (index_get b _); [by apply show_cong|done|done].
Qed.
Lemma cmd_word_same a w : same_core (cmd_node_word a w).1 a.
Proof.
  unfold cmd_node_word. pose proof (item_same a w) as S. destruct (fetch_item_from_parent a 0 w) as [a1 [id|e|]]; cbn [fst] in S; [|done|done].
  destruct (index_get a1 id); [|done|done]. etrans; [apply show_same|done].
Qed.
Lemma cmd_word_cong a b w : same_core a b -> (cmd_node_word a w).2 = (cmd_node_word b w).2.
Proof.
  intros S. unfold cmd_node_word. pose proof (item_same a w) as Sa. pose proof (item_same b w) as Sb. pose proof (item_cong a b w S) as E.
  destruct (fetch_item_from_parent a 0 w) as [a1 ra], (fetch_item_from_parent b 0 w) as [b1 rb]. cbn [fst snd] in *. subst rb.
  assert (S1 : same_core a1 b1) by (etrans; [exact Sa|]; etrans; [exact S|]; by symmetry).
  destruct ra as [id|e|]; [|done|done]. rewrite (get_cong _ _ _ S1). destruct (index_get b1 id); [by apply show_cong|done|done].
Qed.
Lemma search_same a l : same_core (cmd_search a l).1 a.
Proof.
  unfold cmd_search, fetch_string. pose proof (fetch_same a (runes_of_string l)) as S. by destruct (fetch_runes a _).
Qed.
Lemma search_cong a b l : same_core a b -> (cmd_search a l).2 = (cmd_search b l).2.
Proof.
  intros S. unfold cmd_search, fetch_string. destruct (fetch_cong a b (runes_of_string l) S) as [S1 E].
  destruct (fetch_runes a _) as [a1 ra], (fetch_runes b _) as [b1 rb]. cbn [fst snd] in *. subst rb.
  destruct ra as [id|e|]; [|done|done]. cbn. by apply tag_sets_cong.
Qed.

(** What is seen of a turn. *)
Definition seen (t : turn) : reply + option N :=
  match t with Reply _ r => inl r | Exit c => inr (Some c) | Crash => inr None end.
Section session.
  Context (eqf : list N -> list N -> bool).
  Lemma seen_res {A} a b (f : A -> reply) (r : res A) : seen (reply_res a f r) = seen (reply_res b f r).
  Proof. by destruct r. Qed.
  Lemma input_cong load a b l : same_core a b -> seen (process_input eqf load a l) = seen (process_input eqf load b l).
  Proof.
    intros S. pose proof S as [S1 S2 S3 S4 S5 S6]. unfold process_input.
    destruct (is_cmd "tag" "t" _).
    { unfold process_tag. rewrite S1. destruct (split_space l) as [|? [|? [|? ?]]]; try done. destruct (bool_decide _); [done|].
      destruct (atoi _) as [n|]; [|by destruct (find_tag _ _ _) as [[? ?]|]]. unfold cmd_tag. rewrite S1. apply seen_res. }
    destruct (is_cmd "set" "s" _).
    { unfold process_set. rewrite S2. destruct (split_space l) as [|? [|? rest]]; try done. destruct (bool_decide _); [done|]. destruct (bool_decide _).
      - destruct rest as [|? [|? ?]]; try done. destruct (atoi _) as [n|]; [|done]. unfold cmd_table. rewrite S2. apply seen_res.
      - destruct (parse_int0 _) as [n|]; [|done]. unfold cmd_set. rewrite S1, S2. apply seen_res. }
    destruct (is_cmd "node" "n" _).
    { unfold process_node. rewrite (count_cong _ _ S). destruct (split_space l) as [|? [|arg rest]]; try done. destruct (bool_decide _); [done|].
      destruct rest; [|done]. destruct (atoi arg) as [n|].
      - pose proof (cmd_node_cong a b n S) as E. destruct (cmd_node a n) as [a1 ra], (cmd_node b n) as [b1 rb]. cbn in E. subst rb. apply seen_res.
      - pose proof (cmd_word_cong a b (runes_of_string arg) S) as E.
        destruct (cmd_node_word a _) as [a1 ra], (cmd_node_word b _) as [b1 rb]. cbn in E. subst rb. apply seen_res. }
    destruct (is_cmd "var" "v" _).
    { unfold process_var. destruct (split_space l) as [|? [|arg rest]]; try done. destruct (parse_u32 arg) as [n|]; [|done].
      unfold cmd_var. rewrite S1, S2, S3. apply seen_res. }
    destruct (is_cmd "reload" "r" _); [done|]. destruct (is_cmd "exit" "e" _); [done|].
    pose proof (search_cong a b l S) as E. destruct (cmd_search a l) as [a1 ra], (cmd_search b l) as [b1 rb]. cbn in E. subst rb. apply seen_res.
  Qed.
  Lemma res_state {A} a (f : A -> reply) (r : res A) a' rp : reply_res a f r = Reply a' rp -> a' = a.
  Proof. by destruct r; intros [= <- <-] || done. Qed.
  Lemma input_same load a l a' r : process_input eqf load a l = Reply a' r -> same_core a' a \/ load = Ok a' /\ hd [] (split_space l) ∈ [bytes_of "reload"; bytes_of "r"].
  Proof.
    unfold process_input. intros H.
    destruct (is_cmd "tag" "t" _).
    { left. unfold process_tag in H. destruct (split_space l) as [|? [|? [|? ?]]]; try by injection H as <- _. destruct (bool_decide _); [by injection H as <- _|].
      destruct (atoi _) as [n|]; [by apply res_state in H as ->|]. by destruct (find_tag _ _ _) as [[? ?]|]; injection H as <- _. }
    destruct (is_cmd "set" "s" _).
    { left. unfold process_set in H. destruct (split_space l) as [|? [|? rest]]; try by injection H as <- _. destruct (bool_decide _); [by injection H as <- _|]. destruct (bool_decide _).
      - destruct rest as [|? [|? ?]]; try by injection H as <- _. destruct (atoi _) as [n|]; [by apply res_state in H as ->|by injection H as <- _].
      - destruct (parse_int0 _) as [n|]; [by apply res_state in H as ->|by injection H as <- _]. }
    destruct (is_cmd "node" "n" _).
    { left. unfold process_node in H. destruct (split_space l) as [|? [|arg rest]]; try by injection H as <- _. destruct (bool_decide _); [by injection H as <- _|].
      destruct rest; [|by injection H as <- _]. destruct (atoi arg) as [n|].
      - pose proof (cmd_node_same a n) as E. destruct (cmd_node a n) as [a1 ra]. by apply res_state in H as ->.
      - pose proof (cmd_word_same a (runes_of_string arg)) as E.
        destruct (cmd_node_word a _) as [a1 ra]. by apply res_state in H as ->. }
    destruct (is_cmd "var" "v" _).
    { left. unfold process_var in H. destruct (split_space l) as [|? [|arg rest]]; try by injection H as <- _. destruct (parse_u32 arg) as [n|]; [|by injection H as <- _].
      by apply res_state in H as ->. }
    destruct (is_cmd "reload" "r" _) eqn:Er.
    { right. unfold process_reload in H. destruct load; [|done..]. injection H as <- _. split; [done|].
      unfold is_cmd in Er. rewrite orb_true_iff, !bool_decide_eq_true in Er. rewrite !elem_of_cons. tauto. }
    left. destruct (is_cmd "exit" "e" _); [done|].
    pose proof (search_same a l) as E. destruct (cmd_search a l) as [a1 ra]. by apply res_state in H as ->.
  Qed.
  (** What is seen of a session whose turns are known. *)
  Fixpoint cut (l : list (reply + option N)) : list reply * option N :=
    match l with
    | [] => ([], Some 0)
    | inl r :: l' => let '(rs, e) := cut l' in (r :: rs, e)
    | inr e :: _ => ([], e)
    end.
  Lemma session_cut a b lines : same_core a b ->
    Forall (fun ll => hd [] (split_space ll.2) ∈ [bytes_of "reload"; bytes_of "r"] -> forall a', ll.1 = Ok a' -> same_core a' b) lines ->
    session eqf a lines = cut (map (fun ll => seen (process_input eqf ll.1 b ll.2)) lines).
  Proof.
    revert a. induction lines as [|[load l] lines IH]; intros a S H; [done|]. inversion H as [|? ? H1 H2]; subst. cbn [session map cut fst snd].
    rewrite <- (input_cong load a b l S). destruct (process_input eqf load a l) as [a' r|c|] eqn:E; cbn [seen]; [|done|done].
    rewrite (IH a'); [by destruct (cut _)| |done]. apply input_same in E as [E|[-> E]]; [by etrans|]. cbn in H1. by apply H1.
  Qed.
End session.

(** ** The properties *)
Lemma l_C60_fields : forall p ps, 32 ∉ p -> Forall (fun f => 32 ∉ f) ps -> split_space (spaced p ps) = p :: ps.
Proof. apply split_join. Qed.
Lemma l_C60_all_lines : forall s, exists p ps, split_space s = p :: ps /\ s = spaced p ps /\ Forall (fun f => 32 ∉ f) (p :: ps).
Proof.
  intros s. destruct (split_cons s) as (p & ps & E). exists p, ps. destruct (split_spec s p ps E) as (H1 & H2 & H3). split; [done|]. split; [done|]. by constructor.
Qed.
Lemma l_C60_numbers : forall s,
  (forall z, atoi s = Some z <-> with_sign decimal s z) /\
  (forall z, parse_int0 s = Some z <-> with_sign int_lit s z) /\
  (forall n, parse_u32 s = Some n <-> int_lit s n /\ n < 2 ^ 32).
Proof. intros s. split; [apply atoi_spec|]. split; [apply parse_int0_spec|apply parse_u32_spec]. Qed.

Lemma glue_cut eqf ix lines : cut (map (fun ll => seen (process_input eqf ll.1 ix ll.2)) lines) = glue (map (fun ll => session eqf ix [ll]) lines).
Proof.
  induction lines as [|[load l] lines IH]; [done|]. cbn [map cut glue session fst snd]. rewrite IH.
  destruct (process_input eqf load ix l) as [ix' r|c|]; done.
Qed.
Lemma l_C60_no_memory : forall eqf ix lines,
  (forall load l, (load, l) ∈ lines -> head (split_space l) = Some (bytes_of "reload") \/ head (split_space l) = Some (bytes_of "r") ->
     forall ix', load = Ok ix' -> ix' = ix) ->
  session eqf ix lines = glue (map (fun ll => session eqf ix [ll]) lines).
Proof.
  intros eqf ix lines H. rewrite <- glue_cut. apply session_cut; [done|]. apply Forall_forall. intros [load l] Hin Hc a' E. cbn [fst snd] in *.
  rewrite (H load l Hin) with (ix' := a'); [done| |done]. destruct (split_cons l) as (p & ps & Es). rewrite Es in *. cbn in *.
  rewrite !elem_of_cons in Hc. destruct Hc as [-> |[-> |Hc]]; [by left|by right|by apply elem_of_nil in Hc].
Qed.

Lemma cmds_false cmd : cmd ∉ commands -> forall a b, bytes_of a ∈ commands -> bytes_of b ∈ commands -> is_cmd a b cmd = false.
Proof.
  intros H a b Ha Hb. unfold is_cmd. rewrite orb_false_iff, !bool_decide_eq_false. split; intros ->; done.
Qed.
Ltac in_commands := unfold commands; cbn [map]; rewrite !elem_of_cons; tauto.
Lemma search_input eqf load ix line p ps : split_space line = p :: ps -> p ∉ commands ->
  process_input eqf load ix line = let '(ix1, r) := cmd_search ix line in reply_res ix1 RFound r.
Proof.
  intros E H. unfold process_input. rewrite E. cbn [hd]. rewrite !(cmds_false p H) by in_commands. done.
Qed.
Lemma l_C60_search : forall eqf h ix line p ps load, runs h ix -> 0 ∉ line -> split_space line = p :: ps -> p ∉ commands ->
  match (fetch_string ix line).2 with
  | Ok id => exists sets, node_tag_sets ix id = Ok sets /\ session eqf ix [(load, line)] = ([RFound sets], Some 0)
  | _ => session eqf ix [(load, line)] = ([RMessage], Some 0)
  end.
Proof.
  intros eqf h ix line p ps load H Hz E Hc. cbn [session]. rewrite (search_input eqf load ix line p ps E Hc).
  assert (Hh : hd_ok h (runes_of_string line)) by (intros _ Hn; by apply Hz, nul_head).
  destruct (l_C54_search h ix line H Hh) as [Es Hp]. destruct (cmd_search ix line) as [ix1 r]. cbn [snd] in *.
  destruct ((fetch_string ix line).2) as [id|e|] eqn:Ef; cbn in Es; subst r; [|done|done].
  destruct (runs_fetch_pos h ix _ id H Hh Ef) as (i & -> & Hw). destruct (runs_R h ix H) as (ld & Hld & T & A).
  destruct (node_tag_sets_spec T A _ _ Hw) as (col & -> & _). by eexists.
Qed.
Lemma l_C60_command_words_refuted : forall eqf ix line p ps load, split_space line = p :: ps -> p ∈ commands ->
  forall sets rs e, session eqf ix [(load, line)] <> (RFound sets :: rs, e).
Proof.
  intros eqf ix line p ps load E Hc sets rs e H. cbn [session] in H.
  destruct (process_input eqf load ix line) as [ix' r|c|] eqn:Ep; [|done..]. injection H as -> _ _. revert Ep.
  unfold process_input. rewrite E. cbn [hd]. intros Ep.
  assert (Hr : forall {A} a (f : A -> reply) r a', (forall x, f x <> RFound sets) -> reply_res a f r <> Reply a' (RFound sets)).
  { intros A a f r a' Hf. destruct r; cbn; [|done..]. intros [= _ Hx]. by apply Hf in Hx. }
  destruct (is_cmd "tag" "t" p) eqn:E1.
  { unfold process_tag in Ep. destruct ps as [|arg [|? ?]]; [done| |done]. destruct (bool_decide _); [done|].
    destruct (atoi arg); [by eapply Hr in Ep|]. by destruct (find_tag _ _ _ _) as [[? ?]|]. }
  destruct (is_cmd "set" "s" p) eqn:E2.
  { unfold process_set in Ep. destruct ps as [|arg ps]; [done|]. destruct (bool_decide _); [done|]. destruct (bool_decide _).
    - destruct ps as [|? [|? ?]]; [done| |done]. destruct (atoi _); [by eapply Hr in Ep|done].
    - destruct (parse_int0 arg); [by eapply Hr in Ep|done]. }
  destruct (is_cmd "node" "n" p) eqn:E3.
  { unfold process_node in Ep. destruct ps as [|arg ps]; [done|]. destruct (bool_decide _); [done|]. destruct ps; [|done].
    destruct (match atoi arg with Some _ => _ | None => _ end) as [ix1 r]. by eapply Hr in Ep. }
  destruct (is_cmd "var" "v" p) eqn:E4.
  { unfold process_var in Ep. destruct ps as [|arg ps]; [done|]. destruct (parse_u32 arg); [by eapply Hr in Ep|done]. }
  destruct (is_cmd "reload" "r" p) eqn:E5; [by unfold process_reload in Ep; destruct load|].
  destruct (is_cmd "exit" "e" p) eqn:E6; [done|]. clear -Hc E1 E2 E3 E4 E5 E6.
  unfold is_cmd in *. rewrite orb_false_iff, !bool_decide_eq_false in *. unfold commands in Hc. cbn [map] in Hc.
  rewrite !elem_of_cons, elem_of_nil in Hc. tauto.
Qed.

(** The lines that crash the browser. *)
Lemma is_cmd_spec a b cmd : is_cmd a b cmd = true <-> cmd ∈ [bytes_of a; bytes_of b].
Proof. unfold is_cmd. rewrite orb_true_iff, !bool_decide_eq_true, !elem_of_cons, elem_of_nil. tauto. Qed.
Lemma not_count n : ~ with_sign decimal (bytes_of "count") n.
Proof. intros H. apply atoi_spec in H. vm_compute in H. done. Qed.
Lemma not_tables n : ~ with_sign decimal (bytes_of "tables") n.
Proof. intros H. apply atoi_spec in H. vm_compute in H. done. Qed.
Ltac absurd_cmd E Hc := clear -E Hc; rewrite !elem_of_cons, elem_of_nil in E;
  destruct E as [-> |[-> |[]]]; rewrite !elem_of_cons, elem_of_nil in Hc; destruct Hc as [Hc|[Hc|[]]]; vm_compute in Hc; discriminate Hc.
Lemma crash_only_none eqf ix load line : (exists rs, session eqf ix [(load, line)] = (rs, None)) <-> process_input eqf load ix line = Crash.
Proof.
  cbn [session]. split.
  - intros [rs H]. by destruct (process_input eqf load ix line).
  - intros ->. by eexists.
Qed.
Lemma res_crash {A} a (f : A -> reply) (r : res A) : reply_res a f r = Crash <-> r = Panic.
Proof. by destruct r. Qed.
Lemma l_C60_crashes : forall eqf h ix line load, runs h ix -> 0 ∉ line -> load <> Panic ->
  (exists rs, session eqf ix [(load, line)] = (rs, None)) <->
  (exists c arg n, split_space line = [c; arg] /\ c ∈ [bytes_of "tag"; bytes_of "t"] /\ with_sign decimal arg n /\ (n < 0)%Z) \/
  (exists c arg n, split_space line = [c; bytes_of "table"; arg] /\ c ∈ [bytes_of "set"; bytes_of "s"] /\ with_sign decimal arg n /\ (n < 0)%Z) \/
  (exists c arg n, split_space line = [c; arg] /\ c ∈ [bytes_of "node"; bytes_of "n"] /\ with_sign decimal arg n /\
     (n < Z.of_N (nodes_count ix))%Z /\ (n mod 2 ^ 32 = 0)%Z) \/
  (exists c arg rest n, split_space line = c :: arg :: rest /\ c ∈ [bytes_of "var"; bytes_of "v"] /\ int_lit arg n /\
     2 ^ 16 <= n < 2 ^ 32 /\ forall t, ix_cols ix !! N.to_nat (n / 2 ^ 16 - 1) = Some t -> t !! N.to_nat (n mod 2 ^ 16) = None).
Proof.
  intros eqf h ix line load H Hz Hload. rewrite crash_only_none.
  change (2 ^ 16) with 65536. change (2 ^ 32)%Z with 4294967296%Z. change (2 ^ 32) with 4294967296.
  destruct (split_cons line) as (p & ps & E).
  destruct (split_spec line p ps E) as (_ & _ & Hsp).
  unfold process_input. rewrite E. cbn [hd].
  destruct (is_cmd "tag" "t" p) eqn:E1.
  { apply is_cmd_spec in E1. transitivity (exists c arg n, p :: ps = [c; arg] /\ c ∈ [bytes_of "tag"; bytes_of "t"] /\ with_sign decimal arg n /\ (n < 0)%Z).
    2:{ split; [intros ?; by left|]. intros [?|[?|[?|?]]]; [done|exfalso..].
        - destruct H0 as (c & arg & n & [= -> _] & Hc & _). absurd_cmd E1 Hc.
        - destruct H0 as (c & arg & n & [= -> _] & Hc & _). absurd_cmd E1 Hc.
        - destruct H0 as (c & arg & rest & n & [= -> _] & Hc & _). absurd_cmd E1 Hc. }
    unfold process_tag. split.
    - destruct ps as [|arg [|? ?]]; [done| |done]. destruct (bool_decide_reflect (arg = bytes_of "count")) as [Ea|Ea]; [done|].
      destruct (atoi arg) as [n|] eqn:En; [|by destruct (find_tag _ _ _ _) as [[? ?]|]]. rewrite res_crash. intros Hp.
      pose proof (l_C54_tag_numbers ix n) as Ht. rewrite Hp in Ht. exists p, arg, n. repeat split; try done. by apply atoi_spec.
    - intros (c & arg & n & [= -> ->] & _ & Hs & Hn). rewrite bool_decide_false by (intros ->; by apply not_count in Hs).
      apply atoi_spec in Hs. rewrite Hs. apply res_crash. pose proof (l_C54_tag_numbers ix n) as Ht.
      destruct (cmd_tag ix n); [lia|lia|done]. }
  destruct (is_cmd "set" "s" p) eqn:E2.
  { apply is_cmd_spec in E2. transitivity (exists c arg n, p :: ps = [c; bytes_of "table"; arg] /\ c ∈ [bytes_of "set"; bytes_of "s"] /\ with_sign decimal arg n /\ (n < 0)%Z).
    2:{ split; [intros ?; by right; left|]. intros [?|[?|[?|?]]]; [exfalso|done|exfalso..].
        - destruct H0 as (c & arg & n & [= -> _] & Hc & _). absurd_cmd E2 Hc.
        - destruct H0 as (c & arg & n & [= -> _] & Hc & _). absurd_cmd E2 Hc.
        - destruct H0 as (c & arg & rest & n & [= -> _] & Hc & _). absurd_cmd E2 Hc. }
    unfold process_set. split.
    - destruct ps as [|arg ps]; [done|]. destruct (bool_decide_reflect (arg = bytes_of "tables")) as [Ea|Ea]; [done|].
      destruct (bool_decide_reflect (arg = bytes_of "table")) as [->|Eb].
      + destruct ps as [|arg [|? ?]]; [done| |done]. destruct (atoi arg) as [n|] eqn:En; [|done]. rewrite res_crash. intros Hp.
        pose proof (l_C54_table_numbers ix n) as Ht. rewrite Hp in Ht. exists p, arg, n. repeat split; try done. by apply atoi_spec.
      + destruct (parse_int0 arg) as [n|] eqn:En; [|done]. rewrite res_crash. intros Hp.
        pose proof (l_C54_set_numbers h ix n H) as Ht. by rewrite Hp in Ht.
    - intros (c & arg & n & [= -> ->] & _ & Hs & Hn).
      rewrite bool_decide_false by done. rewrite bool_decide_true by done.
      apply atoi_spec in Hs. rewrite Hs. apply res_crash. pose proof (l_C54_table_numbers ix n) as Ht.
      destruct (cmd_table ix n); [lia|lia|done]. }
  destruct (is_cmd "node" "n" p) eqn:E3.
  { apply is_cmd_spec in E3. transitivity (exists c arg n, p :: ps = [c; arg] /\ c ∈ [bytes_of "node"; bytes_of "n"] /\ with_sign decimal arg n /\
     (n < Z.of_N (nodes_count ix))%Z /\ (n mod 4294967296 = 0)%Z).
    2:{ split; [intros ?; by right; right; left|]. intros [?|[?|[?|?]]]; [exfalso|exfalso|done|exfalso].
        - destruct H0 as (c & arg & n & [= -> _] & Hc & _). absurd_cmd E3 Hc.
        - destruct H0 as (c & arg & n & [= -> _] & Hc & _). absurd_cmd E3 Hc.
        - destruct H0 as (c & arg & rest & n & [= -> _] & Hc & _). absurd_cmd E3 Hc. }
    unfold process_node. split.
    - destruct ps as [|arg ps]; [done|]. destruct (bool_decide_reflect (arg = bytes_of "count")) as [Ea|Ea]; [done|]. destruct ps as [|? ?]; [|done].
      destruct (atoi arg) as [n|] eqn:En.
      + destruct (cmd_node ix n) as [ix1 r] eqn:Ec. rewrite res_crash. intros ->.
        pose proof (l_C54_node h ix n H) as Ht. rewrite Ec in Ht. cbn in Ht. exists p, arg, n. split; [done|]. split; [done|]. split; [by apply atoi_spec|].
        split; [apply Ht|]. destruct Ht as [_ Ht]. unfold to_u32 in Ht. pose proof (Z.mod_pos_bound n 4294967296 ltac:(lia)). lia.
      + destruct (cmd_node_word ix (runes_of_string arg)) as [ix1 r] eqn:Ec. rewrite res_crash. intros ->. exfalso.
        assert (Hh : hd_ok h (runes_of_string arg)).
        { intros _ Hn. apply nul_head in Hn. apply Hz. rewrite <- Hsp. cbn. rewrite elem_of_app, elem_of_cons. tauto. }
        pose proof (l_C54_word h ix _ H Hh) as Hw. rewrite Ec in Hw. cbn [snd] in Hw.
        destruct ((fetch_runes ix (runes_of_string arg)).2); [by destruct Hw as (? & ? & _)|done|done].
    - intros (c & arg & n & [= -> ->] & _ & Hs & Hn & Hm). rewrite bool_decide_false by (intros ->; by apply not_count in Hs).
      apply atoi_spec in Hs. rewrite Hs. pose proof (l_C54_node h ix n H) as Ht. destruct (cmd_node ix n) as [ix1 r]. cbn [snd] in Ht.
      apply res_crash. unfold to_u32 in Ht. rewrite Hm in Ht. destruct r; [|lia|done]. cbn in Ht. lia. }
  destruct (is_cmd "var" "v" p) eqn:E4.
  { apply is_cmd_spec in E4. transitivity (exists c arg rest n, p :: ps = c :: arg :: rest /\ c ∈ [bytes_of "var"; bytes_of "v"] /\ int_lit arg n /\
     65536 <= n < 4294967296 /\ forall t, ix_cols ix !! N.to_nat (n / 65536 - 1) = Some t -> t !! N.to_nat (n mod 65536) = None).
    2:{ split; [intros ?; by right; right; right|]. intros [?|[?|[?|?]]]; [exfalso..|done].
        - destruct H0 as (c & arg & n & [= -> _] & Hc & _). absurd_cmd E4 Hc.
        - destruct H0 as (c & arg & n & [= -> _] & Hc & _). absurd_cmd E4 Hc.
        - destruct H0 as (c & arg & n & [= -> _] & Hc & _). absurd_cmd E4 Hc. }
    assert (Hup : forall n, n < 4294967296 -> (id32_upper n = 0 <-> n < 65536)).
    { intros n Hn. rewrite id32_upper_arith by done. split; intros Hx; [|by apply N.div_small].
      destruct (N.lt_ge_cases n 65536); [done|]. exfalso. assert (1 <= n / 65536) by (apply N.div_le_lower_bound; lia). lia. }
    assert (Hat : forall n, n < 4294967296 -> (at2 (ix_cols ix) (N.to_nat (id32_upper n) - 1) (N.to_nat (id32_lower n)) = None <->
      forall t, ix_cols ix !! N.to_nat (n / 65536 - 1) = Some t -> t !! N.to_nat (n mod 65536) = None)).
    { intros n Hn. unfold at2. rewrite id32_upper_arith, id32_lower_arith by done. replace (N.to_nat (n / 65536) - 1)%nat with (N.to_nat (n / 65536 - 1)) by lia.
      destruct (ix_cols ix !! N.to_nat (n / 65536 - 1)) as [t|]; cbn; [|done]. split; [by intros ? t' [= <-]|intros Hx; by apply Hx]. }
    unfold process_var. split.
    - destruct ps as [|arg ps]; [done|]. destruct (parse_u32 arg) as [n|] eqn:En; [|done]. rewrite res_crash. intros Hp.
      apply parse_u32_spec in En as [Hl Hn]. change (2 ^ 32) with 4294967296 in Hn. exists p, arg, ps, n. split; [done|]. split; [done|]. split; [done|].
      pose proof (l_C54_var_numbers ix n) as Ht. rewrite Hp in Ht. destruct Ht as [Hu Ha]. rewrite Hup in Hu by done. split; [lia|]. exact (proj1 (Hat n Hn) Ha).
    - intros (c & arg & rest & n & [= -> ->] & _ & Hl & Hn & Ha).
      rewrite (proj2 (parse_u32_spec arg n)) by (split; [done|change (2 ^ 32) with 4294967296; lia]).
      apply res_crash. pose proof (l_C54_var_numbers ix n) as Ht. rewrite (proj2 (Hat n (proj2 Hn)) Ha) in Ht.
      destruct (cmd_var ix n); [|done|done]. destruct Ht as [[Hu _]|(col & ? & _)]; [|done]. apply Hup in Hu; lia. }
  destruct (is_cmd "reload" "r" p) eqn:E5.
  { split; [unfold process_reload; by destruct load|]. intros [?|[?|[?|?]]]; exfalso.
    - destruct H0 as (c & arg & n & [= -> _] & Hc & _). apply is_cmd_spec in E5. absurd_cmd E5 Hc.
    - destruct H0 as (c & arg & n & [= -> _] & Hc & _). apply is_cmd_spec in E5. absurd_cmd E5 Hc.
    - destruct H0 as (c & arg & n & [= -> _] & Hc & _). apply is_cmd_spec in E5. absurd_cmd E5 Hc.
    - destruct H0 as (c & arg & rest & n & [= -> _] & Hc & _). apply is_cmd_spec in E5. absurd_cmd E5 Hc. }
  assert (Hno : forall a b, p ∈ [bytes_of a; bytes_of b] -> is_cmd a b p = true) by (intros a b Hx; by apply is_cmd_spec).
  split.
  - destruct (is_cmd "exit" "e" p) eqn:E6; [done|].
    assert (Hh : hd_ok h (runes_of_string line)) by (intros _ Hn; by apply Hz, nul_head).
    destruct (l_C54_search h ix line H Hh) as [_ Hp]. destruct (cmd_search ix line) as [ix1 r]. rewrite res_crash. intros ->. done.
  - intros [?|[?|[?|?]]]; exfalso.
    + destruct H0 as (c & arg & n & [= -> _] & Hc & _). apply Hno in Hc. congruence.
    + destruct H0 as (c & arg & n & [= -> _] & Hc & _). apply Hno in Hc. congruence.
    + destruct H0 as (c & arg & n & [= -> _] & Hc & _). apply Hno in Hc. congruence.
    + destruct H0 as (c & arg & rest & n & [= -> _] & Hc & _). apply Hno in Hc. congruence.
Qed.

(** The number shown for a node can be typed. *)
Lemma l_C60_node_number : forall eqf h ix id load, runs h ix -> 1 <= id < nodes_count ix ->
  exists i, session eqf ix [(load, spaced (bytes_of "node") [itoa id])] = ([RNode i], Some 0) /\ ni_id i = id /\
    (cmd_node ix (Z.of_N id)).2 = Ok i.
Proof.
  intros eqf h ix id load H Hid. pose proof (count_lt h ix H) as Hc.
  assert (Hd : forall s n, decimal s n -> 32 ∉ s).
  { induction 1 as [d Hd|s n d Hs IH Hd]; [rewrite elem_of_list_singleton; lia|].
    rewrite elem_of_app, elem_of_list_singleton. intros [?|?]; [done|lia]. }
  assert (Es : split_space (spaced (bytes_of "node") [itoa id]) = [bytes_of "node"; itoa id]).
  { apply split_join; [intros Hx; apply elem_of_list_In in Hx; vm_compute in Hx; by decompose [or] Hx|].
    constructor; [|constructor]. eapply Hd, itoa_decimal. }
  cbn [session]. unfold process_input. rewrite Es. cbn [hd].
  change (is_cmd "tag" "t" (bytes_of "node")) with false. change (is_cmd "set" "s" (bytes_of "node")) with false.
  change (is_cmd "node" "n" (bytes_of "node")) with true. cbn iota. unfold process_node.
  rewrite bool_decide_false by (intros E; eapply not_count; rewrite <- E; constructor; [apply itoa_decimal|change (2 ^ 63) with 9223372036854775808; lia]).
  rewrite atoi_itoa by (change (2 ^ 63) with 9223372036854775808; lia).
  pose proof (l_C54_node h ix (Z.of_N id) H) as Hn. rewrite to_u32_id, N2Z.id in Hn by lia.
  destruct (cmd_node ix (Z.of_N id)) as [ix1 r]. cbn [snd] in *. destruct r as [i|e|]; [|lia|lia].
  exists i. cbn. by split; [|split; [apply Hn|]].
Qed.
