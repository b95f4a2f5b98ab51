(** Lemmas about the parser model: paths, elements and whole documents. *)
From Coq Require Import ZifyBool ZifyNat ZifyN.
From Verif Require Import Base Storage Tags Items Index DocSpec Parser Calls BaseFacts.
From stdpp Require Import list.
Open Scope N_scope.

(** ** Positions and paths *)
Definition path_of (pos : list (list N)) : list N := flat_map (fun n => dot :: n) pos.
Definition B (l : list string) : list (list N) := map bytes_of l.

Lemma path_of_snoc pos n : path_of (pos ++ [n]) = path_of pos ++ dot :: n.
Proof. unfold path_of. rewrite flat_map_app. cbn. by rewrite app_nil_r. Qed.
Lemma cut_path pos n : take (length (path_of (pos ++ [n])) - length n - 1) (path_of (pos ++ [n])) = path_of pos.
Proof.
  rewrite path_of_snoc, app_length. cbn [length].
  replace (length (path_of pos) + S (length n) - length n - 1)%nat with (length (path_of pos)) by lia.
  by rewrite take_app.
Qed.
Lemma cut_path_ok pos n : (length (path_of (pos ++ [n])) <? length n + 1)%nat = false.
Proof. apply Nat.ltb_ge. rewrite path_of_snoc, app_length. cbn. lia. Qed.

(** A list without dots followed by nothing or a dot can be split in one way. *)
Lemma no_dot_split a b x y : dot ∉ a -> dot ∉ b ->
  (x = [] \/ head x = Some dot) -> (y = [] \/ head y = Some dot) ->
  a ++ x = b ++ y -> a = b /\ x = y.
Proof.
  revert b. induction a as [|c a IH]; intros [|d b] Ha Hb Hx Hy E; cbn in E.
  - done.
  - subst x. destruct Hx as [|Hx]; [done|]. cbn in Hx. injection Hx as ->. set_solver.
  - subst y. destruct Hy as [|Hy]; [done|]. cbn in Hy. injection Hy as ->. set_solver.
  - injection E as -> E. destruct (IH b) as [-> ->]; try done; set_solver.
Qed.
Lemma path_of_inj p q : Forall no_dot p -> Forall no_dot q -> path_of p = path_of q -> p = q.
Proof.
  intros Hp. revert q. induction Hp as [|n p Hn Hp IH]; intros [|m q] Hq E; try done.
  apply Forall_cons in Hq as [Hm Hq]. cbn in E. injection E as E.
  apply no_dot_split in E as [-> E]; try done.
  - f_equal. by apply IH.
  - destruct p; [by left|by right].
  - destruct q; [by left|by right].
Qed.

(** The handler of a position, and that the path table is this table. *)
Definition by_position : list (list (list N) * handler) :=
  [ (B [], HMute);
    (B ["dictionary"], HDictionary);
    (B ["dictionary"; "grammemes"], HMute);
    (B ["dictionary"; "grammemes"; "grammeme"], HGrammeme);
    (B ["dictionary"; "grammemes"; "grammeme"; "name"], HGrammemeName);
    (B ["dictionary"; "grammemes"; "grammeme"; "alias"], HMute);
    (B ["dictionary"; "grammemes"; "grammeme"; "description"], HMute);
    (B ["dictionary"; "restrictions"], HMute);
    (B ["dictionary"; "restrictions"; "restr"], HMute);
    (B ["dictionary"; "restrictions"; "restr"; "left"], HMute);
    (B ["dictionary"; "restrictions"; "restr"; "right"], HMute);
    (B ["dictionary"; "lemmata"], HMute);
    (B ["dictionary"; "lemmata"; "lemma"], HLemma);
    (B ["dictionary"; "lemmata"; "lemma"; "l"], HL);
    (B ["dictionary"; "lemmata"; "lemma"; "l"; "g"], HLG);
    (B ["dictionary"; "lemmata"; "lemma"; "f"], HF);
    (B ["dictionary"; "lemmata"; "lemma"; "f"; "g"], HFG);
    (B ["dictionary"; "link_types"], HMute);
    (B ["dictionary"; "link_types"; "type"], HMute);
    (B ["dictionary"; "links"], HMute);
    (B ["dictionary"; "links"; "link"], HMute) ]%string.
Fixpoint handler_pos (t : list (list (list N) * handler)) (pos : list (list N)) : option handler :=
  match t with
  | [] => None
  | (q, h) :: t' => if decide (q = pos) then Some h else handler_pos t' pos
  end.
Lemma table_paths : parsers = map (fun qh => (path_of qh.1, qh.2)) by_position.
Proof. vm_compute. reflexivity. Qed.
Lemma table_no_dot : Forall (fun qh => Forall no_dot qh.1) by_position.
Proof. unfold no_dot. apply (bool_decide_unpack _). vm_compute. exact I. Qed.
Lemma table_known : map fst by_position = map (map bytes_of) known_positions.
Proof. vm_compute. reflexivity. Qed.
Lemma handler_path pos : Forall no_dot pos -> handler_at (path_of pos) = handler_pos by_position pos.
Proof.
  intros Hp. unfold handler_at. rewrite table_paths. pose proof table_no_dot as Ht. revert Ht.
  induction by_position as [|[q h] t IH]; intros Ht; [done|].
  apply Forall_cons in Ht as [Hq Ht]. cbn. cbn in Hq.
  destruct (decide (q = pos)) as [->|Hne].
  - by rewrite decide_True.
  - rewrite decide_False; [by apply IH|]. intros E. by apply path_of_inj in E.
Qed.
Lemma handler_pos_known pos : known pos = true <-> is_Some (handler_pos by_position pos).
Proof.
  unfold known. rewrite bool_decide_eq_true, <- table_known.
  induction by_position as [|[q h] t IH]; cbn [map fst handler_pos].
  - split; [by intros H%elem_of_nil|by intros [? ?]].
  - rewrite elem_of_cons. destruct (decide (q = pos)) as [->|Hne]; [naive_solver|].
    rewrite <- IH. naive_solver.
Qed.
Lemma known_no_dot pos : known pos = true -> Forall no_dot pos.
Proof.
  unfold known. rewrite bool_decide_eq_true, <- table_known. intros H.
  apply elem_of_list_In, in_map_iff in H as ([q h] & <- & H). apply elem_of_list_In in H.
  pose proof table_no_dot as Ht. rewrite Forall_forall in Ht. by apply Ht in H.
Qed.
Lemma known_handler pos : known pos = true ->
  exists h, handler_at (path_of pos) = Some h /\ handler_pos by_position pos = Some h.
Proof.
  intros H. pose proof (known_no_dot _ H) as Hd. apply handler_pos_known in H as [h Hh].
  exists h. by rewrite handler_path.
Qed.

(** ** The children a position may have *)
Fixpoint strip (p q : list (list N)) : option (list (list N)) :=
  match p, q with
  | [], q => Some q
  | x :: p', y :: q' => if decide (x = y) then strip p' q' else None
  | _, _ => None
  end.
Definition kids_of (pos : list (list N)) : list (list N) :=
  omap (fun q => match strip pos q with Some [n] => Some n | _ => None end) (map (map bytes_of) known_positions).
Lemma strip_app p q : strip p (p ++ q) = Some q.
Proof. induction p as [|x p IH]; [done|]. cbn. by rewrite decide_True. Qed.
Lemma known_kid pos n : known (pos ++ [n]) = true -> n ∈ kids_of pos.
Proof.
  unfold known, kids_of. rewrite bool_decide_eq_true. intros H.
  apply elem_of_list_omap. exists (pos ++ [n]). split; [done|]. by rewrite strip_app.
Qed.

(** ** Attributes *)
Lemma get_attr_spec n a : get_attr (bytes_of n) a = attr n a.
Proof.
  induction a as [|[m v] a IH]; [done|]. cbn. destruct (decide (m = bytes_of n)).
  - by rewrite bool_decide_true. - by rewrite bool_decide_false.
Qed.
Lemma get_int_spec c n a : get_int_attr c (bytes_of n) a = has_int c n a.
Proof. unfold get_int_attr, has_int. by rewrite get_attr_spec. Qed.
Lemma process_elem_spec c a : process_elem c a = forallb (fun '(n, v) =>
      if bool_decide (n = bytes_of "version") then is_float c v
      else if bool_decide (n = bytes_of "revision") then is_int c v else true) a.
Proof.
  induction a as [|[n v] a IH]; [done|]. cbn [process_elem forallb]. rewrite IH.
  destruct (bool_decide _); [by destruct (is_float c v)|]. destruct (bool_decide _); [by destruct (is_int c v)|done].
Qed.

(** ** Running *)
Lemma parse_app c es : forall p es', parse c p (es ++ es') =
  match parse c p es with (p1, Done) => parse c p1 es' | x => x end.
Proof.
  induction es as [|e es IH]; intros p es'; [done|]. cbn [app parse].
  destruct (process c p e) as [p1 [ | | | | ]]; [|done..]. apply IH.
Qed.
Lemma parse_one c p e : parse c p [e] = process c p e.
Proof. cbn. by destruct (process c p e) as [p1 [ | | | | ]]. Qed.
Lemma parse_elem c p n a k : parse c p (events (Elem n a k)) =
  match process_start c p n a with
  | (p1, Done) => match parse c p1 (flat_map events k) with (p2, Done) => process_end p2 n | x => x end
  | x => x
  end.
Proof.
  cbn [events parse process]. destruct (process_start c p n a) as [p1 [ | | | | ]]; [|done..].
  rewrite parse_app. destruct (parse c p1 _) as [p2 [ | | | | ]]; [|done..]. by rewrite parse_one.
Qed.

Definition mk (pos : list (list N)) g l f ix n mx : parser := mkParser (path_of pos) g l f ix n mx.

Lemma elem_run c pos n a k h g l f ix m mx p1 :
  handler_at (path_of (pos ++ [n])) = Some h ->
  on_start c h a (mk (pos ++ [n]) g l f ix m mx) = (p1, Done) ->
  parse c (mk pos g l f ix m mx) (events (Elem n a k)) =
  match parse c p1 (flat_map events k) with (p2, Done) => process_end p2 n | x => x end.
Proof.
  intros Hh Hs. rewrite parse_elem. unfold process_start, set_path, mk in *. cbn [p_path p_gram p_lemma p_form p_ix p_count p_max].
  rewrite <- path_of_snoc, Hh, Hs. done.
Qed.
Lemma end_run pos n h g l f ix m mx g1 l1 f1 ix1 m1 o :
  handler_at (path_of (pos ++ [n])) = Some h ->
  on_end h (mk (pos ++ [n]) g l f ix m mx) = (mk (pos ++ [n]) g1 l1 f1 ix1 m1 mx, o) ->
  process_end (mk (pos ++ [n]) g l f ix m mx) n = (mk pos g1 l1 f1 ix1 m1 mx, o).
Proof.
  intros Hh He. unfold process_end. cbn [p_path mk]. rewrite Hh, He. cbn [p_path mk].
  rewrite cut_path_ok, cut_path. done.
Qed.
(** kids that never fail. *)
Lemma kids_ok {S} c pos (R : S -> parser) (g : S -> node -> S) :
  (forall s k, valid c pos k = true -> parse c (R s) (events k) = (R (g s k), Done)) ->
  forall kids s, forallb (valid c pos) kids = true ->
  parse c (R s) (flat_map events kids) = (R (fold_left g kids s), Done).
Proof.
  intros Hk. induction kids as [|k kids IH]; intros s Hv; [done|].
  cbn [forallb] in Hv. apply andb_true_iff in Hv as [Hv1 Hv2].
  cbn [flat_map fold_left]. rewrite parse_app, Hk by done. by apply IH.
Qed.
Lemma valid_elem c pos n a k : valid c pos (Elem n a k) = true ->
  known (pos ++ [n]) = true /\ attrs_ok c (pos ++ [n]) a = true /\ forallb (valid c (pos ++ [n])) k = true.
Proof. cbn. rewrite !andb_true_iff. naive_solver. Qed.

(** Elements that do nothing themselves. *)
Lemma elem_mute c pos n a k g l f ix m mx :
  handler_at (path_of (pos ++ [n])) = Some HMute ->
  parse c (mk (pos ++ [n]) g l f ix m mx) (flat_map events k) = (mk (pos ++ [n]) g l f ix m mx, Done) ->
  parse c (mk pos g l f ix m mx) (events (Elem n a k)) = (mk pos g l f ix m mx, Done).
Proof.
  intros Hh Hk. erewrite elem_run; [|done|done]. rewrite Hk. by eapply end_run.
Qed.
Lemma text_run c pos s h g l f ix m mx :
  handler_at (path_of pos) = Some h -> h <> HGrammemeName ->
  parse c (mk pos g l f ix m mx) (events (Text s)) = (mk pos g l f ix m mx, Done).
Proof.
  intros Hh Hn. cbn [events]. rewrite parse_one. cbn [process]. unfold process_chars. cbn [p_path mk]. rewrite Hh.
  by destruct h.
Qed.
(** A position without known children: only text. *)
Lemma leaf_run c pos h kids g l f ix m mx :
  handler_at (path_of pos) = Some h -> h <> HGrammemeName -> kids_of pos = [] ->
  forallb (valid c pos) kids = true ->
  parse c (mk pos g l f ix m mx) (flat_map events kids) = (mk pos g l f ix m mx, Done).
Proof.
  intros Hh Hn Hl. revert kids. intros kids Hv.
  refine (kids_ok c pos (fun _ : unit => mk pos g l f ix m mx) (fun s _ => s) _ kids tt Hv).
  intros _ k Hk. destruct k as [n a ks|s|].
  - apply valid_elem in Hk as (Hk & _). apply known_kid in Hk. rewrite Hl in Hk. by apply elem_of_nil in Hk.
  - by eapply text_run.
  - done.
Qed.

Ltac kid H l := apply known_kid in H;
  match type of H with ?n ∈ kids_of ?p =>
    let E := fresh in assert (E : kids_of p = map bytes_of l) by (vm_compute; reflexivity);
    rewrite E in H; clear E; cbn [map] in H end;
  repeat (apply elem_of_cons in H as [->|H]); [..|by apply elem_of_nil in H].

(** The sections that are skipped. *)
Definition p_dict := B ["dictionary"]%string.
Definition p_grams := B ["dictionary"; "grammemes"]%string.
Definition p_gramm := B ["dictionary"; "grammemes"; "grammeme"]%string.
Definition p_name := B ["dictionary"; "grammemes"; "grammeme"; "name"]%string.
Definition p_restrs := B ["dictionary"; "restrictions"]%string.
Definition p_restr := B ["dictionary"; "restrictions"; "restr"]%string.
Definition p_lemmata := B ["dictionary"; "lemmata"]%string.
Definition p_lem := B ["dictionary"; "lemmata"; "lemma"]%string.
Definition p_l := B ["dictionary"; "lemmata"; "lemma"; "l"]%string.
Definition p_f := B ["dictionary"; "lemmata"; "lemma"; "f"]%string.
Definition p_types := B ["dictionary"; "link_types"]%string.
Definition p_links := B ["dictionary"; "links"]%string.

Lemma mute_kids c pos g l f ix m mx kids :
  handler_at (path_of pos) = Some HMute ->
  (forall n a ks, valid c pos (Elem n a ks) = true ->
     parse c (mk pos g l f ix m mx) (events (Elem n a ks)) = (mk pos g l f ix m mx, Done)) ->
  forallb (valid c pos) kids = true ->
  parse c (mk pos g l f ix m mx) (flat_map events kids) = (mk pos g l f ix m mx, Done).
Proof.
  intros Hh He Hv.
  refine (kids_ok c pos (fun _ : unit => mk pos g l f ix m mx) (fun s _ => s) _ kids tt Hv).
  intros _ k Hk. destruct k as [n a ks|s|]; [by apply He|by eapply text_run|done].
Qed.
Lemma restr_kids c g l f ix m mx kids : forallb (valid c p_restr) kids = true ->
  parse c (mk p_restr g l f ix m mx) (flat_map events kids) = (mk p_restr g l f ix m mx, Done).
Proof.
  apply mute_kids; [reflexivity|]. intros n a ks (Hn & _ & Hk)%valid_elem.
  kid Hn ["left"; "right"]%string; (apply elem_mute; [reflexivity|]; eapply leaf_run; [reflexivity|done|vm_compute; reflexivity|done]).
Qed.
Lemma restrs_kids c g l f ix m mx kids : forallb (valid c p_restrs) kids = true ->
  parse c (mk p_restrs g l f ix m mx) (flat_map events kids) = (mk p_restrs g l f ix m mx, Done).
Proof.
  apply mute_kids; [reflexivity|]. intros n a ks (Hn & _ & Hk)%valid_elem.
  kid Hn ["restr"]%string. apply elem_mute; [reflexivity|]. by apply restr_kids.
Qed.
Lemma types_kids c g l f ix m mx kids : forallb (valid c p_types) kids = true ->
  parse c (mk p_types g l f ix m mx) (flat_map events kids) = (mk p_types g l f ix m mx, Done).
Proof.
  apply mute_kids; [reflexivity|]. intros n a ks (Hn & _ & Hk)%valid_elem.
  kid Hn ["type"]%string. apply elem_mute; [reflexivity|]. eapply leaf_run; [reflexivity|done|vm_compute; reflexivity|done].
Qed.
Lemma links_kids c g l f ix m mx kids : forallb (valid c p_links) kids = true ->
  parse c (mk p_links g l f ix m mx) (flat_map events kids) = (mk p_links g l f ix m mx, Done).
Proof.
  apply mute_kids; [reflexivity|]. intros n a ks (Hn & _ & Hk)%valid_elem.
  kid Hn ["link"]%string. apply elem_mute; [reflexivity|]. eapply leaf_run; [reflexivity|done|vm_compute; reflexivity|done].
Qed.

(** ** Grammemes *)
Definition pick (d : list N) (l : list (list N)) : list N := default d (last l).
Lemma pick_app d a b : pick d (a ++ b) = pick (pick d a) b.
Proof. unfold pick. rewrite last_app. by destruct (last b). Qed.

Lemma name_kids c t l f ix m mx kids : forallb (valid c p_name) kids = true ->
  parse c (mk p_name (Some t) l f ix m mx) (flat_map events kids) =
  (mk p_name (Some (mkTag (tag_parent t) (pick (tag_name t) (texts kids)))) l f ix m mx, Done).
Proof.
  revert t. induction kids as [|k kids IH]; intros t Hv.
  { by destruct t. }
  cbn [forallb] in Hv. apply andb_true_iff in Hv as [Hk Hv]. cbn [flat_map]. rewrite parse_app.
  destruct k as [n a ks|s|].
  - apply valid_elem in Hk as (Hk & _). kid Hk (@nil string).
  - cbn [events]. rewrite parse_one.
    change (process c (mk p_name (Some t) l f ix m mx) (EText s))
      with (mk p_name (Some (mkTag (tag_parent t) s)) l f ix m mx, Done).
    cbn beta iota. rewrite IH by done. do 4 f_equal.
    cbn [tag_name]. change (texts (Text s :: kids)) with ([s] ++ texts kids). by rewrite pick_app.
  - cbn [events]. rewrite parse_one. cbn [process]. by apply IH.
Qed.
Lemma gram_kids c t l f ix m mx kids : forallb (valid c p_gramm) kids = true ->
  parse c (mk p_gramm (Some t) l f ix m mx) (flat_map events kids) =
  (mk p_gramm (Some (mkTag (tag_parent t) (pick (tag_name t) (name_pieces kids)))) l f ix m mx, Done).
Proof.
  revert t. induction kids as [|k kids IH]; intros t Hv.
  { by destruct t. }
  cbn [forallb] in Hv. apply andb_true_iff in Hv as [Hk Hv]. cbn [flat_map]. rewrite parse_app.
  destruct k as [n a ks|s|].
  - apply valid_elem in Hk as (Hn & _ & Hk). kid Hn ["name"; "alias"; "description"]%string.
    + erewrite elem_run; [|reflexivity|reflexivity].
      change (p_gramm ++ [bytes_of "name"]) with p_name in Hk |- *. rewrite name_kids by done.
      change p_name with (p_gramm ++ [bytes_of "name"]).
      erewrite (end_run p_gramm); [|reflexivity|reflexivity].
      rewrite IH by done. cbn [tag_parent tag_name]. do 4 f_equal.
      change (name_pieces (Elem _ a ks :: kids)) with (texts ks ++ name_pieces kids). by rewrite pick_app.
    + rewrite elem_mute; [by apply IH|reflexivity|]. eapply leaf_run; [reflexivity|done|vm_compute; reflexivity|done].
    + rewrite elem_mute; [by apply IH|reflexivity|]. eapply leaf_run; [reflexivity|done|vm_compute; reflexivity|done].
  - erewrite text_run; [|reflexivity|done]. by apply IH.
  - cbn [events]. rewrite parse_one. cbn [process]. by apply IH.
Qed.

(** ** Lemmas *)
Lemma g_values_cons a ks kids :
  g_values (Elem (bytes_of "g") a ks :: kids) = attr_or_empty "v" a :: g_values kids.
Proof. reflexivity. Qed.
Lemma has_attr_some n a : has_attr n a = true -> attr n a = Some (attr_or_empty n a).
Proof. unfold has_attr, attr_or_empty. by destruct (attr n a). Qed.

Lemma l_kids c gr lg lf f ix m mx kids : forallb (valid c p_l) kids = true ->
  parse c (mk p_l gr (Some (mkLemma lg lf)) f ix m mx) (flat_map events kids) =
  (mk p_l gr (Some (mkLemma (lg ++ g_values kids) lf)) f ix m mx, Done).
Proof.
  revert lg. induction kids as [|k kids IH]; intros lg Hv.
  { cbn. by rewrite app_nil_r. }
  cbn [forallb] in Hv. apply andb_true_iff in Hv as [Hk Hv]. cbn [flat_map]. rewrite parse_app.
  destruct k as [n a ks|s|].
  - apply valid_elem in Hk as (Hn & Ha & Hk). kid Hn ["g"]%string.
    assert (Ha' : has_attr "v" a = true) by exact Ha. apply has_attr_some in Ha'.
    erewrite elem_run; [|reflexivity|].
    2: { unfold on_start. rewrite get_attr_spec, Ha'. reflexivity. }
    match goal with |- context [parse c ?q (flat_map events ks)] =>
      change q with (mk (p_l ++ [bytes_of "g"]) gr (Some (mkLemma (lg ++ [attr_or_empty "v" a]) lf)) f ix m mx) end.
    erewrite leaf_run; [|reflexivity|done|vm_compute; reflexivity|done].
    erewrite (end_run p_l); [|reflexivity|reflexivity].
    rewrite IH by done. do 4 f_equal. rewrite g_values_cons, <- app_assoc. done.
  - erewrite text_run; [|reflexivity|done]. by apply IH.
  - cbn [events]. rewrite parse_one. cbn [process]. by apply IH.
Qed.
Lemma f_kids c gr l t fg ix m mx kids : forallb (valid c p_f) kids = true ->
  parse c (mk p_f gr l (Some (mkForm t fg)) ix m mx) (flat_map events kids) =
  (mk p_f gr l (Some (mkForm t (fg ++ g_values kids))) ix m mx, Done).
Proof.
  revert fg. induction kids as [|k kids IH]; intros fg Hv.
  { cbn. by rewrite app_nil_r. }
  cbn [forallb] in Hv. apply andb_true_iff in Hv as [Hk Hv]. cbn [flat_map]. rewrite parse_app.
  destruct k as [n a ks|s|].
  - apply valid_elem in Hk as (Hn & Ha & Hk). kid Hn ["g"]%string.
    assert (Ha' : has_attr "v" a = true) by exact Ha. apply has_attr_some in Ha'.
    erewrite elem_run; [|reflexivity|].
    2: { unfold on_start. rewrite get_attr_spec, Ha'. reflexivity. }
    match goal with |- context [parse c ?q (flat_map events ks)] =>
      change q with (mk (p_f ++ [bytes_of "g"]) gr l (Some (mkForm t (fg ++ [attr_or_empty "v" a]))) ix m mx) end.
    erewrite leaf_run; [|reflexivity|done|vm_compute; reflexivity|done].
    erewrite (end_run p_f); [|reflexivity|reflexivity].
    rewrite IH by done. do 4 f_equal. rewrite g_values_cons, <- app_assoc. done.
  - erewrite text_run; [|reflexivity|done]. by apply IH.
  - cbn [events]. rewrite parse_one. cbn [process]. by apply IH.
Qed.
Definition raw_forms (kids : list node) : list form :=
  map (fun '(a, ks) => mkForm (attr_or_empty "t" a) (g_values ks)) (elems "f" kids).
Lemma lemma_kids c gr lg lf ix m mx kids : forallb (valid c p_lem) kids = true ->
  parse c (mk p_lem gr (Some (mkLemma lg lf)) None ix m mx) (flat_map events kids) =
  (mk p_lem gr (Some (mkLemma (lg ++ lemma_tags kids) (lf ++ map Some (raw_forms kids)))) None ix m mx, Done).
Proof.
  revert lg lf. induction kids as [|k kids IH]; intros lg lf Hv.
  { cbn. by rewrite !app_nil_r. }
  cbn [forallb] in Hv. apply andb_true_iff in Hv as [Hk Hv]. cbn [flat_map]. rewrite parse_app.
  destruct k as [n a ks|s|].
  - apply valid_elem in Hk as (Hn & Ha & Hk). kid Hn ["l"; "f"]%string.
    + assert (Ha' : has_attr "t" a = true) by exact Ha. apply has_attr_some in Ha'.
      erewrite elem_run; [|reflexivity|].
      2: { unfold on_start. cbn [p_lemma mk]. rewrite get_attr_spec, Ha'. reflexivity. }
      change (p_lem ++ [bytes_of "l"]) with p_l in Hk |- *.
      rewrite l_kids by done. change p_l with (p_lem ++ [bytes_of "l"]).
      erewrite (end_run p_lem); [|reflexivity|reflexivity].
      rewrite IH by done. do 4 f_equal.
      change (lemma_tags (Elem (bytes_of "l") a ks :: kids)) with (g_values ks ++ lemma_tags kids).
      by rewrite app_assoc.
    + assert (Ha' : has_attr "t" a = true) by exact Ha. apply has_attr_some in Ha'.
      erewrite elem_run; [|reflexivity|].
      2: { unfold on_start. cbn [p_lemma mk]. rewrite get_attr_spec, Ha'. reflexivity. }
      change (p_lem ++ [bytes_of "f"]) with p_f in Hk |- *.
      match goal with |- context [parse c ?q _] =>
        change q with (mk p_f gr (Some (mkLemma lg lf)) (Some (mkForm (attr_or_empty "t" a) [])) ix m mx) end.
      rewrite f_kids by done. change p_f with (p_lem ++ [bytes_of "f"]).
      erewrite (end_run p_lem); [|reflexivity|reflexivity].
      cbn [l_g l_f app].
      match goal with |- context [parse c ?q (flat_map events kids)] =>
        change q with (mk p_lem gr (Some (mkLemma lg (lf ++ [Some (mkForm (attr_or_empty "t" a) (g_values ks))]))) None ix m mx) end.
      rewrite IH by done. do 4 f_equal.
      change (raw_forms (Elem (bytes_of "f") a ks :: kids))
        with (mkForm (attr_or_empty "t" a) (g_values ks) :: raw_forms kids).
      cbn [map]. by rewrite <- app_assoc.
  - erewrite text_run; [|reflexivity|done]. by apply IH.
  - cbn [events]. rewrite parse_one. cbn [process]. by apply IH.
Qed.
Lemma lemma_loop_calls lg fs : forall ix,
  lemma_loop ix lg (map Some fs) = call_forms ix (map (fun f => (f_text f, lg ++ f_g f)) fs).
Proof.
  induction fs as [|f fs IH]; intros ix; [done|]. cbn [map lemma_loop call_forms]. unfold call_form. cbn [fst snd].
  destruct (add_string ix (f_text f)) as [ix1 [id|e|]]; [|done..].
  destruct (node_add_tag_set ix1 id (lg ++ f_g f)) as [ix2 [u|e|]]; [|done..]. apply IH.
Qed.
Lemma raw_forms_forms kids :
  map (fun f => (f_text f, lemma_tags kids ++ f_g f)) (raw_forms kids) = lemma_forms kids.
Proof.
  unfold raw_forms, lemma_forms. rewrite map_map. apply map_ext. by intros [a ks].
Qed.

(** ** Whole documents *)

(** The actions of a document with a limit, counting the lemmas done. *)
Fixpoint exec (mx : Z) (n : N) (ix : index) (ss : list act) : index * N * outcome :=
  match ss with
  | [] => (ix, n, Done)
  | AGram a b :: ss' => exec mx n (index_tag_id ix a b).1 ss'
  | ALemma fs :: ss' =>
    match call_forms ix fs with
    | (ix1, Done) =>
      if (0 <? mx)%Z && (mx <=? Z.of_N (n + 1))%Z then (ix1, n + 1, Fail EControlledStop)
      else exec mx (n + 1) ix1 ss'
    | (ix1, o) => (ix1, n, o)
    end
  end.
Lemma exec_app mx ss : forall n ix ss', exec mx n ix (ss ++ ss') =
  match exec mx n ix ss with (ix1, n1, Done) => exec mx n1 ix1 ss' | x => x end.
Proof.
  induction ss as [|s ss IH]; intros n ix ss'; [done|]. destruct s as [a b|fs]; cbn [app exec].
  - apply IH.
  - destruct (call_forms ix fs) as [ix1 [ | | | | ]]; [|done..]. destruct (_ && _); [done|]. apply IH.
Qed.
Definition agrees (R : index -> N -> parser) (r : parser * outcome) (e : index * N * outcome) : Prop :=
  match e with
  | (ix, n, Done) => r = (R ix n, Done)
  | (ix, n, o) => r.2 = o /\ p_ix r.1 = ix
  end.
Lemma agrees_kids c pos mx R (g : node -> list act) :
  (forall k ix n, valid c pos k = true -> agrees R (parse c (R ix n) (events k)) (exec mx n ix (g k))) ->
  forall kids ix n, forallb (valid c pos) kids = true ->
  agrees R (parse c (R ix n) (flat_map events kids)) (exec mx n ix (flat_map g kids)).
Proof.
  intros Hk. induction kids as [|k kids IH]; intros ix n Hv; [done|].
  cbn [forallb] in Hv. apply andb_true_iff in Hv as [Hv1 Hv2].
  cbn [flat_map]. rewrite parse_app, exec_app. specialize (Hk k ix n Hv1).
  destruct (exec mx n ix (g k)) as [[ix1 n1] [ | | | | ]]; cbn in Hk.
  - rewrite Hk. by apply IH.
  - destruct (parse c (R ix n) (events k)) as [p1 [ | | | | ]]; cbn in *; naive_solver.
  - destruct (parse c (R ix n) (events k)) as [p1 [ | | | | ]]; cbn in *; naive_solver.
  - destruct (parse c (R ix n) (events k)) as [p1 [ | | | | ]]; cbn in *; naive_solver.
  - destruct (parse c (R ix n) (events k)) as [p1 [ | | | | ]]; cbn in *; naive_solver.
Qed.
Definition idle (pos : list (list N)) (mx : Z) (ix : index) (n : N) : parser := mk pos None None None ix n mx.
Lemma agrees_done R p ix n mx : p = R ix n -> agrees R (p, Done) (exec mx n ix []).
Proof. by intros ->. Qed.

(** an element around kids: its own start and end do nothing to the state. *)
Lemma agrees_elem c pos n a k h mx ix m e :
  handler_at (path_of (pos ++ [n])) = Some h ->
  (forall ix m, on_start c h a (idle (pos ++ [n]) mx ix m) = (idle (pos ++ [n]) mx ix m, Done)) ->
  (forall ix m, on_end h (idle (pos ++ [n]) mx ix m) = (idle (pos ++ [n]) mx ix m, Done)) ->
  agrees (idle (pos ++ [n]) mx) (parse c (idle (pos ++ [n]) mx ix m) (flat_map events k)) e ->
  agrees (idle pos mx) (parse c (idle pos mx ix m) (events (Elem n a k))) e.
Proof.
  intros Hh Hs He Hk. unfold idle at 2. erewrite elem_run; [|done|apply Hs].
  destruct e as [[ix1 n1] o]. cbn in Hk.
  destruct o; [|destruct (parse c _ _) as [p1 [ | | | | ]]; cbn in *; naive_solver..].
  rewrite Hk. cbn. unfold idle. eapply end_run; [done|apply He].
Qed.

Lemma elems_cons n m a k kids : elems n (Elem m a k :: kids) =
  (if decide (m = bytes_of n) then [(a, k)] else []) ++ elems n kids.
Proof. unfold elems. cbn. by destruct (decide _). Qed.
Lemma elems_flat {A} (f : list (list N * list N) * list node -> A) n kids :
  map f (elems n kids) =
  flat_map (fun k => match k with Elem m a ks => if decide (m = bytes_of n) then [f (a, ks)] else [] | _ => [] end) kids.
Proof.
  induction kids as [|k kids IH]; [done|]. cbn [flat_map]. rewrite <- IH.
  destruct k as [m a ks|s|]; [|done..]. rewrite elems_cons. by destruct (decide _).
Qed.

Lemma grams_kids c mx kids ix n : forallb (valid c p_grams) kids = true ->
  agrees (idle p_grams mx) (parse c (idle p_grams mx ix n) (flat_map events kids))
    (exec mx n ix (map gram_act (elems "grammeme" kids))).
Proof.
  rewrite elems_flat. apply agrees_kids. clear. intros k ix n Hv. destruct k as [m a ks|s|].
  - apply valid_elem in Hv as (Hn & Ha & Hk). kid Hn ["grammeme"]%string. rewrite decide_True by done.
    assert (Ha' : has_attr "parent" a = true) by exact Ha. apply has_attr_some in Ha'.
    unfold idle at 2. erewrite elem_run; [|reflexivity|].
    2: { unfold on_start. rewrite get_attr_spec, Ha'. reflexivity. }
    change (p_grams ++ [bytes_of "grammeme"]) with p_gramm in Hk |- *.
    match goal with |- context [parse c ?q _] =>
      change q with (mk p_gramm (Some (mkTag (attr_or_empty "parent" a) [])) None None ix n mx) end.
    rewrite gram_kids by done. change p_gramm with (p_grams ++ [bytes_of "grammeme"]).
    erewrite (end_run p_grams); [|reflexivity|reflexivity]. done.
  - unfold idle. erewrite text_run; [|reflexivity|done]. done.
  - done.
Qed.
Lemma lemmata_kids c mx kids ix n : forallb (valid c p_lemmata) kids = true ->
  agrees (idle p_lemmata mx) (parse c (idle p_lemmata mx ix n) (flat_map events kids))
    (exec mx n ix (map lemma_act (elems "lemma" kids))).
Proof.
  rewrite elems_flat. apply agrees_kids. clear. intros k ix n Hv. destruct k as [m a ks|s|].
  - apply valid_elem in Hv as (Hn & Ha & Hk). kid Hn ["lemma"]%string. rewrite decide_True by done.
    assert (Ha' : has_int c "id" a && has_int c "rev" a = true) by exact Ha.
    apply andb_true_iff in Ha' as [Hi Hr].
    unfold idle at 2. erewrite elem_run; [|reflexivity|].
    2: { unfold on_start. rewrite !get_int_spec, Hi, Hr. reflexivity. }
    change (p_lemmata ++ [bytes_of "lemma"]) with p_lem in Hk |- *.
    match goal with |- context [parse c ?q _] =>
      change q with (mk p_lem None (Some (mkLemma [] [])) None ix n mx) end.
    rewrite lemma_kids by done. cbn [app]. unfold process_end. change (handler_at _) with (Some HLemma).
    cbn beta iota. unfold on_end. cbn [p_lemma mk l_g l_f p_ix].
    rewrite lemma_loop_calls, raw_forms_forms. cbn [exec lemma_act snd].
    destruct (call_forms ix (lemma_forms ks)) as [ix1 [ |e| | | ]]; cbn beta iota zeta.
    + cbn [p_count p_max mk set_count set_lemma set_ix p_path p_gram p_lemma p_form p_ix].
      change p_lem with (p_lemmata ++ [bytes_of "lemma"]).
      rewrite cut_path_ok, cut_path. unfold set_path. cbn [p_gram p_lemma p_form p_ix p_count p_max].
      destruct (_ && _); done.
    + done.
    + done.
    + done.
    + done.
  - unfold idle. erewrite text_run; [|reflexivity|done]. done.
  - done.
Qed.
Lemma dict_kids c mx kids ix n : forallb (valid c p_dict) kids = true ->
  agrees (idle p_dict mx) (parse c (idle p_dict mx ix n) (flat_map events kids))
    (exec mx n ix (flat_map section_acts kids)).
Proof.
  apply agrees_kids. clear. intros k ix n Hv. destruct k as [m a ks|s|].
  - apply valid_elem in Hv as (Hn & _ & Hk). kid Hn ["grammemes"; "restrictions"; "lemmata"; "link_types"; "links"]%string.
    + eapply agrees_elem; [reflexivity|done|done|]. by apply grams_kids.
    + unfold idle at 2. rewrite elem_mute; [done|reflexivity|]. by apply restrs_kids.
    + eapply agrees_elem; [reflexivity|done|done|]. by apply lemmata_kids.
    + unfold idle at 2. rewrite elem_mute; [done|reflexivity|]. by apply types_kids.
    + unfold idle at 2. rewrite elem_mute; [done|reflexivity|]. by apply links_kids.
  - unfold idle. erewrite text_run; [|reflexivity|done]. done.
  - done.
Qed.
Lemma doc_run c mx doc ix n : forallb (valid c []) doc = true ->
  agrees (idle [] mx) (parse c (idle [] mx ix n) (flat_map events doc)) (exec mx n ix (doc_acts doc)).
Proof.
  apply agrees_kids. clear. intros k ix n Hv. destruct k as [m a ks|s|].
  - apply valid_elem in Hv as (Hn & Ha & Hk). kid Hn ["dictionary"]%string.
    eapply agrees_elem; [reflexivity| |done|by apply dict_kids].
    intros ix' m'. unfold on_start. rewrite process_elem_spec.
    assert (Ha' : forallb (fun '(n, v) => if bool_decide (n = bytes_of "version") then is_float c v
      else if bool_decide (n = bytes_of "revision") then is_int c v else true) a = true) by exact Ha.
    by rewrite Ha'.
  - unfold idle. erewrite text_run; [|reflexivity|done]. done.
  - done.
Qed.
