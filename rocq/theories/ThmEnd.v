(** From a download to what the index browser shows (C61). *)
From Coq Require Import ZifyBool ZifyNat ZifyN.
From Verif Require Import Base Storage Bin Utf8 Tags TagSets Variants Items Index Spec Hist
  BaseFacts Intern SpecFacts TrieFacts NoteFacts OptFacts HistFacts DictFacts QueryFacts Utf8Facts ThmTrie ThmTags Cli ThmCli
  Strconv Session Numerals NumFacts Browse ThmSession
  Parser DocSpec Calls Loader LoaderSpec ThmLoader Limits ThmTotal.
From stdpp Require Import list gmap.
Open Scope N_scope.

(** What the browser should show for a line, given the forms of a dictionary. *)
Definition right_reply (fs : list (list N * list (list N))) (line : list N) (r : reply) : Prop :=
  let w := runes_of_string line in
  let known := w <> [] /\ exists t g, (t, g) ∈ fs /\ w `prefix_of` runes_of_string t in
  match r with
  | RMessage => ~ known
  | RFound sets => known /\
      (forall t g, (t, g) ∈ fs -> runes_of_string t = w -> exists x, x ∈ sets /\ map tag_name x ≡ₚ map name_norm g) /\
      (forall x, x ∈ sets -> exists t g, (t, g) ∈ fs /\ runes_of_string t = w /\ map tag_name x ≡ₚ map name_norm g)
  | _ => False
  end.

Lemma l_C61_update_then_browse : forall eqf e s doc body out ix1 force lines,
  all_works e -> dir_ok e (after1 s UMkdir) = true -> fs_bz s = None ->
  e_get e = Some (200%N, body, true) -> e_unbz e body = (out, true) ->
  e_tokens e out = (flat_map events doc, true) ->
  forallb (valid (e_conv e) []) doc = true -> good_acts [] (doc_acts doc) ->
  runs (acts_ops (doc_acts doc) ++ [OOptimize]) ix1 -> disk_caps ix1 = true ->
  all_storable (acts_ops (doc_acts doc)) ->
  Forall (fun ll => 0 ∉ ll.2 /\ exists p ps, ll.2 = spaced p ps /\ Forall (fun f => 32 ∉ f) (p :: ps) /\ p ∉ commands) lines ->
  let '(replies, code) := browser_main eqf (load_index (after s (u_upds (update e s force)))) lines in
  code = Some 0 /\ Forall2 (fun ll r => right_reply (forms (doc_acts doc)) ll.2 r) lines replies.
Proof.
  intros eqf e s doc body out ix1 force lines W Hdir Hb Hg Hz Ht Hv Hgood H1 Hd Hst Hl.
  destruct (l_C57_end_to_end e s doc body out ix1 force W Hdir Hb Hg Hz Ht Hv Hgood H1 Hd Hst) as (_ & ix & Eix & Hfound & Hsets & Hnp).
  rewrite Eix. cbn [browser_main].
  assert (Hone : forall load line p ps, 0 ∉ line -> line = spaced p ps -> Forall (fun f => 32 ∉ f) (p :: ps) -> p ∉ commands ->
    exists r, session eqf ix [(load, line)] = ([r], Some 0) /\ right_reply (forms (doc_acts doc)) line r).
  { intros load line p ps H0 El Hf Hc. inversion Hf; subst. cbn [session].
    rewrite (search_input eqf load ix _ p ps) by (done || by apply split_join).
    assert (Hh : head (runes_of_string (spaced p ps)) <> Some 0%Z) by (intros Hn; by apply H0, nul_head).
    unfold cmd_search, fetch_string. pose proof (fetch_same ix (runes_of_string (spaced p ps))) as Sc.
    specialize (Hfound _ Hh). specialize (Hnp _ Hh). pose proof (fun id => Hsets _ id Hh) as Hs.
    destruct (fetch_runes ix (runes_of_string (spaced p ps))) as [ix' r] eqn:Ef. cbn [fst snd] in *.
    destruct r as [id|er|]; [| |done].
    - destruct (Hs id eq_refl) as (_ & sets & Hts & Hs1 & Hs2). cbn. rewrite (tag_sets_cong _ _ id Sc), Hts. cbn.
      eexists. split; [done|]. split; [apply Hfound; by exists id|]. done.
    - cbn. eexists. split; [done|]. cbn. intros Hk. apply Hfound in Hk as [? ?]. done. }
  rewrite l_C60_no_memory.
  - induction Hl as [|[load line] lines (H0 & p & ps & E & Hf & Hc) Hl IH]; [split; [done|constructor]|].
    cbn [map glue fst snd] in *. destruct (Hone load line p ps H0 E Hf Hc) as (r & -> & Hr).
    destruct (glue (map (fun ll => session eqf ix [ll]) lines)) as [rs c]. destruct IH as [-> IH]. split; [done|]. by constructor.
  - intros load l Hin Hcmd. exfalso. rewrite Forall_forall in Hl. destruct (Hl _ Hin) as (_ & p & ps & E & Hf & Hc). cbn [snd] in E. subst l.
    inversion Hf; subst. rewrite split_join in Hcmd by done. cbn in Hcmd. apply Hc.
    destruct Hcmd as [[= ->]|[= ->]]; in_commands.
Qed.

(** The conditions on the index, from the size of the document. *)
Lemma within_limits h : modest true (h ++ [OReload]) -> exists ix, runs h ix /\ disk_caps ix = true.
Proof.
  intros M. assert (Hr : reloaded (h ++ [OReload]) = true).
  { unfold reloaded. apply existsb_exists. exists OReload. split; [|done]. apply in_or_app. right. by left. }
  pose proof (l_C59_runs (h ++ [OReload])) as H. rewrite Hr in H. specialize (H M).
  inversion H as [E|h' o ix ix' r Hruns Hok _ _ E]; [by destruct h|].
  apply app_inj_tail in E as [-> ->]. exists ix. split; [done|]. apply Hok.
Qed.
Lemma l_C61_within_limits : forall eqf e s doc body out force lines,
  all_works e -> dir_ok e (after1 s UMkdir) = true -> fs_bz s = None ->
  e_get e = Some (200%N, body, true) -> e_unbz e body = (out, true) ->
  e_tokens e out = (flat_map events doc, true) ->
  forallb (valid (e_conv e) []) doc = true -> good_acts [] (doc_acts doc) ->
  modest true (acts_ops (doc_acts doc) ++ [OOptimize; OReload]) ->
  all_storable (acts_ops (doc_acts doc)) ->
  Forall (fun ll => 0 ∉ ll.2 /\ exists p ps, ll.2 = spaced p ps /\ Forall (fun f => 32 ∉ f) (p :: ps) /\ p ∉ commands) lines ->
  let '(replies, code) := browser_main eqf (load_index (after s (u_upds (update e s force)))) lines in
  code = Some 0 /\ Forall2 (fun ll r => right_reply (forms (doc_acts doc)) ll.2 r) lines replies.
Proof.
  intros eqf e s doc body out force lines W Hdir Hb Hg Hz Ht Hv Hgood M Hst Hl.
  destruct (within_limits (acts_ops (doc_acts doc) ++ [OOptimize])) as (ix1 & H1 & Hd).
  { by rewrite <- app_assoc. }
  by apply (l_C61_update_then_browse eqf e s doc body out ix1).
Qed.
