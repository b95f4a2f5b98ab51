(** Proofs about names up to case: C92. *)
From Coq Require Import ZifyBool ZifyNat ZifyN.
From Verif Require Import Base Utf8 Spec Hist Utf8Facts ThmUtf8 ThmTrie Tags Index Numerals Cli Browse Session ThmSession AnswerSpec ThmAnswers Xml Fold FoldSpec.
From stdpp Require Import list gmap.
Open Scope N_scope.

Lemma small_cases c : ((65 <= c <= 90)%Z /\ small c = (c + 32)%Z) \/ (c = 0x212A%Z /\ small c = 107%Z) \/ (c = 0x17F%Z /\ small c = 115%Z) \/
  (~ (65 <= c <= 90)%Z /\ c <> 0x212A%Z /\ c <> 0x17F%Z /\ small c = c).
Proof. unfold small. repeat case_bool_decide; try subst c; auto 10; lia. Qed.

Section fold.
  Context (other : Z -> Z).

  Lemma same_rune_sym a b : same_rune other a b = same_rune other b a.
  Proof. unfold same_rune. rewrite (Z.eqb_sym a b), (Z.min_comm a b), (Z.max_comm a b). done. Qed.
  Lemma same_runes_sym s t : same_runes other s t = same_runes other t s.
  Proof. revert t. induction s as [|a s IH]; intros [|b t]; cbn; [done..|]. by rewrite same_rune_sym, IH. Qed.
  Lemma same_runes_nil s : same_runes other [] s = bool_decide (s = []).
  Proof. by destruct s. Qed.
  Lemma fast_path s t : equal_fold other s t = same_runes other (runes_of_string s) (runes_of_string t).
  Proof.
    revert t. induction s as [|a s IH]; intros t.
    - destruct t as [|b t]; [done|]. cbn [equal_fold]. change (runes_of_string []) with (@nil Z). rewrite same_runes_nil, bool_decide_false; [done|]. by rewrite decode_nil.
    - destruct t as [|b t].
      { cbn [equal_fold]. change (runes_of_string []) with (@nil Z). rewrite same_runes_sym, same_runes_nil, bool_decide_false; [done|]. by rewrite decode_nil. }
      cbn [equal_fold]. destruct ((128 <=? a) || (128 <=? b)) eqn:E; [done|].
      assert (Ra : forall x u, x < 128 -> runes_of_string (x :: u) = Z.of_N x :: runes_of_string u).
      { intros x u Hx. cbn [runes_of_string]. by destruct (N.ltb_spec x 128); [|lia]. }
      rewrite !Ra by lia. cbn [same_runes]. rewrite <- IH. unfold same_rune.
      destruct (N.eqb_spec a b) as [-> | Hne]; [by rewrite Z.eqb_refl|].
      destruct (Z.eqb_spec (Z.of_N a) (Z.of_N b)); [lia|].
      destruct (Z.ltb_spec (Z.max (Z.of_N a) (Z.of_N b)) 128); [|lia]. by destruct (ascii_pair _ _).
  Qed.

  Lemma fold_stop f sr tr r : r = sr \/ (tr <= r)%Z -> next_fold other f sr tr r = r.
  Proof. intros H. destruct f; [done|]. cbn [next_fold]. by destruct ((r =? sr)%Z || (tr <=? r)%Z) eqn:E; [|lia]. Qed.
  Lemma fold_go f sr tr r : r <> sr -> (r < tr)%Z -> next_fold other (S f) sr tr r = next_fold other f sr tr (simple_fold other r).
  Proof. intros H1 H2. cbn [next_fold]. by destruct ((r =? sr)%Z || (tr <=? r)%Z) eqn:E; [lia|]. Qed.
  Lemma fold_up r : (65 <= r <= 90)%Z -> simple_fold other r = (r + 32)%Z.
  Proof. intros H. unfold simple_fold. by destruct ((65 <=? r)%Z && (r <=? 90)%Z) eqn:E; [|lia]. Qed.
  Lemma fold_low r : (97 <= r <= 122)%Z -> r <> 107%Z -> r <> 115%Z -> simple_fold other r = (r - 32)%Z.
  Proof.
    intros H H1 H2. unfold simple_fold. destruct ((65 <=? r)%Z && (r <=? 90)%Z) eqn:E; [lia|].
    destruct (Z.eqb_spec r 107), (Z.eqb_spec r 115); try lia. by destruct ((97 <=? r)%Z && (r <=? 122)%Z) eqn:E1; [|lia].
  Qed.
  Lemma fold_rest r : (0 <= r < 128)%Z -> ~ (65 <= r <= 90)%Z -> ~ (97 <= r <= 122)%Z -> simple_fold other r = r.
  Proof.
    intros H H1 H2. unfold simple_fold. destruct ((65 <=? r)%Z && (r <=? 90)%Z) eqn:E; [lia|].
    destruct (Z.eqb_spec r 107), (Z.eqb_spec r 115); try lia. destruct ((97 <=? r)%Z && (r <=? 122)%Z) eqn:E1; [lia|].
    by destruct ((0 <=? r)%Z && (r <? 128)%Z) eqn:E2; [|lia].
  Qed.
  Lemma orbit a b third : (0 <= a < 128)%Z -> (128 <= b)%Z -> third = 0x212A%Z /\ (a = 75 \/ a = 107)%Z \/ third = 0x17F%Z /\ (a = 83 \/ a = 115)%Z ->
    next_fold other 8 a b (simple_fold other a) = if (b <=? third)%Z then third else a.
  Proof.
    intros Ha Hb H.
    assert (F1 : simple_fold other 107 = 0x212A%Z) by done. assert (F2 : simple_fold other 115 = 0x17F%Z) by done.
    assert (F3 : simple_fold other 0x212A = 75%Z) by done. assert (F4 : simple_fold other 0x17F = 83%Z) by done.
    assert (F5 : simple_fold other 75 = 107%Z) by done. assert (F6 : simple_fold other 83 = 115%Z) by done.
    destruct (Z.leb_spec b third);
      destruct H as [[-> [-> | ->]]|[-> [-> | ->]]]; rewrite ?F5, ?F6, ?F1, ?F2;
      repeat (first [rewrite fold_stop by lia; reflexivity | rewrite fold_go by lia; rewrite ?F1, ?F2, ?F3, ?F4, ?F5, ?F6]).
  Qed.
  Lemma short_orbit a b : (0 <= a < 128)%Z -> (128 <= b)%Z -> ~ (a = 75 \/ a = 107 \/ a = 83 \/ a = 115)%Z ->
    next_fold other 8 a b (simple_fold other a) = a.
  Proof.
    intros Ha Hb H. destruct (decide (65 <= a <= 90)%Z) as [Hu|Hu]; [|destruct (decide (97 <= a <= 122)%Z) as [Hl|Hl]].
    - rewrite fold_up by done. rewrite fold_go by lia. rewrite fold_low by lia. rewrite fold_stop by lia. lia.
    - rewrite fold_low by lia. rewrite fold_go by lia. rewrite fold_up by lia. rewrite fold_stop by lia. lia.
    - rewrite fold_rest by done. by rewrite fold_stop by lia.
  Qed.
  Lemma same_rune_small a b : (0 <= a < 128)%Z -> same_rune other a b = true <-> small a = small b.
  Proof.
    intros Ha. unfold same_rune. destruct (Z.eqb_spec a b) as [-> | Hne]; [done|].
    pose proof (small_cases a) as Sa. pose proof (small_cases b) as Sb.
    destruct (Z.ltb_spec (Z.max a b) 128) as [Hl|Hl].
    { unfold ascii_pair. lia. }
    rewrite Z.min_l, Z.max_r by lia. assert (Hb : (128 <= b)%Z) by lia.
    destruct (decide (a = 75 \/ a = 107)%Z); [|destruct (decide (a = 83 \/ a = 115)%Z)].
    - rewrite (orbit a b 0x212A) by auto. destruct (Z.leb_spec b 0x212A); lia.
    - rewrite (orbit a b 0x17F) by auto. destruct (Z.leb_spec b 0x17F); lia.
    - rewrite short_orbit by (done || lia). lia.
  Qed.
  Lemma same_runes_small s t : Forall (fun a => 0 <= a < 128)%Z s -> same_runes other s t = true <-> map small s = map small t.
  Proof.
    intros H. revert t. induction H as [|a s Ha Hs IH]; intros [|b t]; cbn; [done..|].
    rewrite andb_true_iff, same_rune_small, IH by done. split; [by intros [-> ->]|by intros [= -> ->]].
  Qed.
End fold.

Lemma ascii_runes s : ascii s -> runes_of_string s = map Z.of_N s /\ Forall (fun a => 0 <= a < 128)%Z (runes_of_string s).
Proof.
  intros H. induction H as [|b s Hb Hs [IH1 IH2]]; [split; [done|constructor]|]. cbn [runes_of_string map].
  destruct (N.ltb_spec b 128); [|lia]. split; [by rewrite IH1|]. constructor; [lia|done].
Qed.
Lemma small_ascii a b : (0 <= a < 128)%Z -> small a = small b -> b <> 0xFFFD%Z.
Proof. intros Ha E. pose proof (small_cases a). pose proof (small_cases b). lia. Qed.
Lemma small_fixed a b : (0 <= a < 128)%Z -> ~ (65 <= a <= 90)%Z -> ~ (97 <= a <= 122)%Z -> small a = small b -> b = a.
Proof. intros Ha H1 H2 E. pose proof (small_cases a). pose proof (small_cases b). lia. Qed.
(** A string that is an ASCII name up to case is well formed. *)
Lemma like_ascii_wf n s : ascii n -> in_small n = in_small s -> wf_utf8 s.
Proof.
  intros Hn E. destruct (decide (0xFFFD%Z ∈ runes_of_string s)) as [Hx|Hx].
  - exfalso. apply ascii_runes in Hn as [_ Hn]. unfold in_small in E.
    apply elem_of_list_lookup in Hx as [i Hi]. assert (Hs : map small (runes_of_string s) !! i = Some (small 0xFFFD)) by (by rewrite list_lookup_fmap, Hi).
    rewrite <- E, list_lookup_fmap in Hs. destruct (runes_of_string n !! i) as [a|] eqn:Ea; [|done]. cbn in Hs. injection Hs as Hs.
    rewrite Forall_lookup in Hn. by eapply small_ascii; [eapply Hn|apply Hs|].
  - apply round_iff. destruct (decide (string_of_runes (runes_of_string s) = s)) as [|Hne]; [done|]. exfalso. apply Hx, l_C09_ill_formed. by rewrite <- round_iff.
Qed.

Lemma l_C92_runes : forall other s t, equal_fold other s t = true <->
  Forall2 (fun a b => same_rune other a b = true) (runes_of_string s) (runes_of_string t).
Proof.
  intros other s t. rewrite fast_path. generalize (runes_of_string s) (runes_of_string t). clear s t.
  induction l as [|a s IH]; intros [|b t]; cbn [same_runes].
  - split; [constructor|done].
  - split; [done|]. intros H. inversion H.
  - split; [done|]. intros H. inversion H.
  - rewrite andb_true_iff, IH. split; [intros [? ?]; by constructor|]. intros H. by inversion H.
Qed.
Lemma l_C92_symmetric : forall other s t, equal_fold other s t = equal_fold other t s.
Proof. intros other s t. rewrite !fast_path. apply same_runes_sym. Qed.
Lemma l_C92_ascii_name : forall other name typed, ascii name ->
  equal_fold other name typed = true <-> in_small name = in_small typed.
Proof. intros other n s Hn. rewrite fast_path. apply same_runes_small. by apply ascii_runes. Qed.

Lemma string_of_ascii s : ascii s -> string_of_runes (map Z.of_N s) = s.
Proof.
  intros H. destruct (ascii_runes s H) as [E _]. rewrite <- E. apply round_iff.
  induction H as [|b s Hb Hs IH]; [constructor|]. apply wf_1; [lia|]. apply IH. by apply ascii_runes.
Qed.
(** The characters of a string that is an ASCII name up to case, one by one. *)
Lemma like_ascii n s : ascii n -> in_small n = in_small s ->
  s = string_of_runes (runes_of_string s) /\ Forall2 (fun b c => b < 128 /\ small (Z.of_N b) = small c) n (runes_of_string s).
Proof.
  intros Hn E. split; [symmetry; apply round_iff; by eapply like_ascii_wf|].
  unfold in_small in E. destruct (ascii_runes n Hn) as [En _]. rewrite En in E. revert E. generalize (runes_of_string s). clear En s.
  induction Hn as [|b n Hb Hn IH]; intros [|c l] E; [constructor|done..|]. cbn in E. injection E as E1 E2. constructor; [done|]. by apply IH.
Qed.
(** Without letters it is that name. *)
Lemma no_letters n s : ascii n -> Forall (fun b => b < 65) n -> in_small n = in_small s -> s = n.
Proof.
  intros Hn Hl E. destruct (like_ascii n s Hn E) as [Es F]. rewrite Es. clear Es. transitivity (string_of_runes (map Z.of_N n)); [f_equal|by apply string_of_ascii].
  revert F. generalize (runes_of_string s). intros l0 F. clear E Hn s. induction F as [|b c n l [Hb Hc] F IH]; [done|]. inversion Hl; subst. cbn. f_equal; [|by apply IH].
  apply small_fixed; [lia..|done].
Qed.
Lemma number_no_letters s : is_number s -> Forall (fun b => b < 65) s.
Proof.
  assert (D : forall s n, decimal s n -> Forall (fun b => b < 65) s).
  { intros u n H. induction H as [d Hd|u n d H IH Hd]; [repeat constructor; lia|]. apply Forall_app. split; [done|]. repeat constructor; lia. }
  intros [n H]. inversion H; subst; [by eapply D| |]; (constructor; [lia|by eapply D]).
Qed.
Lemma space_kept n s : ascii n -> in_small n = in_small s -> 32 ∈ n -> 32 ∈ s.
Proof.
  intros Hn E Hx. destruct (like_ascii n s Hn E) as [Es F]. rewrite Es. clear Es.
  revert F. generalize (runes_of_string s). intros l0 F. clear E Hn s. induction F as [|b c n l [Hb Hc] F IH]; [by apply elem_of_nil in Hx|].
  unfold string_of_runes. cbn [map concat]. rewrite elem_of_app. apply elem_of_cons in Hx as [<- | Hx]; [left|right; by apply IH].
  apply small_fixed in Hc as ->; [|lia..]. apply (bool_decide_unpack _). by vm_compute.
Qed.

Lemma l_C92_by_name : forall other ix load i t, Forall (fun u => ascii (tag_name u)) (ix_tags ix) -> ix_tags ix !! i = Some t ->
  (exists typed, ~ is_number typed /\ 32 ∉ typed /\
     session (equal_fold other) ix [(load, spaced (bytes_of "tag") [typed])] = says (RTag (Z.of_nat i) t)) <->
  ~ is_number (tag_name t) /\ 32 ∉ tag_name t /\
  forall j u, (j < i)%nat -> ix_tags ix !! j = Some u -> in_small (tag_name u) <> in_small (tag_name t).
Proof.
  intros other ix load i t Ht Hi. assert (Hc : bytes_of "tag" ∈ [bytes_of "tag"; bytes_of "t"]) by (by left).
  rewrite Forall_lookup in Ht. assert (Hn := Ht _ _ Hi). cbn in Hn. split.
  - intros (arg & Hnum & Hsp & H). apply l_C75_tag in H; [|done|by repeat constructor].
    inversion H as [|arg' n t' Hw Hl| | |arg' i' t' _ Hne Hl He Hb| |]; subst.
    + exfalso. apply Hnum. by eexists.
    + assert (i' = i) as -> by lia. rewrite l_C92_ascii_name in He by done. split; [|split].
      * intros Hm. apply Hnum. rewrite (no_letters _ _ Hn (number_no_letters _ Hm) He). done.
      * intros Hx. apply Hsp. by eapply space_kept.
      * intros j u Hj Hu E. specialize (Hb j u Hj Hu). rewrite He in E. apply (l_C92_ascii_name other) in E; [|by eapply Ht]. congruence.
  - intros (Hnum & Hsp & Hb).
    assert (T : forall arg, ~ is_number arg -> 32 ∉ arg -> arg <> bytes_of "count" -> in_small (tag_name t) = in_small arg ->
      exists typed, ~ is_number typed /\ 32 ∉ typed /\ session (equal_fold other) ix [(load, spaced (bytes_of "tag") [typed])] = says (RTag (Z.of_nat i) t)).
    { intros arg A1 A2 A3 A4. exists arg. split; [done|]. split; [done|]. apply l_C75_tag; [done|by repeat constructor|].
      apply tag_called; [done|done|done|by apply l_C92_ascii_name|]. intros j u Hj Hu.
      destruct (equal_fold other (tag_name u) arg) eqn:E; [|done]. apply l_C92_ascii_name in E; [|by eapply Ht]. exfalso. eapply Hb; [done|done|]. by rewrite A4. }
    destruct (decide (tag_name t = bytes_of "count")) as [E|E]; [|by apply (T (tag_name t))].
    apply (T (bytes_of "Count")).
    + intros Hm. apply number_no_letters in Hm. inversion Hm as [|? ? Hx]; subst. by vm_compute in Hx.
    + apply (bool_decide_unpack _). by vm_compute.
    + done.
    + rewrite E. by vm_compute.
Qed.
Lemma l_C92_hidden : forall other ix load i j t u,
  ascii (tag_name t) -> ascii (tag_name u) -> (j < i)%nat -> ix_tags ix !! j = Some u -> ix_tags ix !! i = Some t ->
  in_small (tag_name u) = in_small (tag_name t) ->
  forall typed, ~ is_number typed -> 32 ∉ typed ->
  session (equal_fold other) ix [(load, spaced (bytes_of "tag") [typed])] <> says (RTag (Z.of_nat i) t).
Proof.
  intros other ix load i j t u At Au Hj Hu Ht E arg Hnum Hsp H. apply l_C75_tag in H; [|by left|by repeat constructor].
  inversion H as [|arg' n t' Hw Hl| | |arg' i' t' _ Hne Hl He Hb| |]; subst.
  - apply Hnum. by eexists.
  - assert (i' = i) as -> by lia. rewrite l_C92_ascii_name in He by done. specialize (Hb j u Hj Hu). rewrite He in E.
    apply (l_C92_ascii_name other) in E; [|done]. congruence.
Qed.
(** A tag cannot always be shown by typing its name: ANim and anim are two tags of the dictionary. *)
Lemma l_C92_every_name_refuted : forall other load, exists h ix t, runs h ix /\ ix_tags ix !! 1%nat = Some t /\ tag_name t = bytes_of "anim" /\
  forall typed, ~ is_number typed -> 32 ∉ typed ->
  session (equal_fold other) ix [(load, spaced (bytes_of "tag") [typed])] <> says (RTag 1 t).
Proof.
  intros other load. set (h := [OTagID (bytes_of "ANim") []; OTagID (bytes_of "anim") (bytes_of "ANim")]).
  assert (exists ix, runs h ix /\ ix_tags ix = [mkTag (bytes_of "----") (bytes_of "ANim"); mkTag (bytes_of "ANim") (bytes_of "anim")]) as (ix & Hr & Ht).
  { apply run_case. vm_compute. reflexivity. }
  exists h, ix, (mkTag (bytes_of "ANim") (bytes_of "anim")). split; [done|]. rewrite Ht. split; [done|]. split; [done|].
  apply (l_C92_hidden other ix load 1 0 _ (mkTag (bytes_of "----") (bytes_of "ANim"))); rewrite ?Ht; try done;
    [apply (bool_decide_unpack _); by vm_compute..|lia].
Qed.
Lemma l_C92_encoding : forall other content,
  declaration_ok content =
    (bool_decide (proc_inst "version" content = []) || bool_decide (proc_inst "version" content = bytes_of "1.0")) &&
    (bool_decide (proc_inst "encoding" content = []) || equal_fold other (proc_inst "encoding" content) (bytes_of "utf-8")).
Proof.
  intros other content. unfold declaration_ok. f_equal. f_equal. set (e := proc_inst "encoding" content). clearbody e. clear content.
  apply eq_iff_eq_true. rewrite bool_decide_eq_true, l_C92_symmetric, l_C92_ascii_name.
  2: { apply (bool_decide_unpack _). by vm_compute. }
  change (in_small (bytes_of "utf-8")) with [117; 116; 102; 45; 56]%Z. change (bytes_of "utf-8") with [117; 116; 102; 45; 56].
  split.
  - intros E. assert (Ha : ascii e).
    { apply Forall_lookup. intros i b Hb. assert (El : map lower e !! i = Some (lower b)) by (by rewrite list_lookup_fmap, Hb).
      rewrite E in El. unfold lower, in_chars in El. destruct ((65 <=? b) && (b <=? 90)) eqn:Eb; [lia|].
      do 5 (destruct i as [|i]; [injection El as <-; lia|]). done. }
    unfold in_small. destruct (ascii_runes e Ha) as [-> _].
    transitivity (map Z.of_N (map lower e)); [by rewrite E|]. rewrite !map_map. apply map_ext_in. intros b Hb%elem_of_list_In.
    unfold ascii in Ha. rewrite Forall_forall in Ha. specialize (Ha _ Hb). unfold lower, in_chars.
    pose proof (small_cases (Z.of_N b)). destruct ((65 <=? b) && (b <=? 90)) eqn:Eb; lia.
  - intros E. assert (En : in_small [117; 116; 102; 45; 56] = in_small e) by done.
    destruct (like_ascii [117; 116; 102; 45; 56] e) as [Es F]; [|done|].
    { apply (bool_decide_unpack _). by vm_compute. }
    assert (A : Forall (fun c => 0 <= c < 128)%Z (runes_of_string e)).
    { clear E En Es. assert (Hu : Forall (fun b => b <> 107 /\ b <> 115 /\ b <> 75 /\ b <> 83) [117; 116; 102; 45; 56]) by (repeat constructor; lia).
      revert F Hu. generalize [117; 116; 102; 45; 56] (runes_of_string e). intros n l F Hu. induction F as [|b c n l [Hb Hc] F IH]; [constructor|].
      inversion Hu; subst. constructor; [|by apply IH]. pose proof (small_cases (Z.of_N b)). pose proof (small_cases c). lia. }
    assert (Ha : ascii e).
    { rewrite Es. clear E En Es F. induction A as [|c l Hc A IH]; [constructor|]. apply Forall_app. split; [|done].
      unfold string_of_rune, encode_scalar. destruct (valid_rune c) eqn:Ev; [|unfold valid_rune in Ev; lia].
      destruct (Z.ltb_spec c 128); [|lia]. constructor; [lia|constructor]. }
    unfold in_small in E. destruct (ascii_runes e Ha) as [Er _]. rewrite Er, map_map in E.
    transitivity (map Z.to_N [117; 116; 102; 45; 56]%Z); [|done]. rewrite E, map_map. apply map_ext_in. intros b Hb%elem_of_list_In.
    unfold ascii in Ha. rewrite Forall_forall in Ha. specialize (Ha _ Hb). unfold lower, in_chars.
    pose proof (small_cases (Z.of_N b)). destruct ((65 <=? b) && (b <=? 90)) eqn:Eb; lia.
Qed.
