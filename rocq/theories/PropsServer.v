(** Keeping up with the server: C74.  The proofs are in ThmServer.v; the server, its versions and
    the calls are described in ServerSpec.v. *)
From Verif Require Import Base Storage Utf8 Tags Index DocSpec Parser Loader LoaderSpec DateSpec Dates ServerSpec ThmServer PropsParser PropsLoader PropsDates.
From stdpp Require Import list.
Open Scope Z_scope.

(** C74.  Calling Update again and again keeps up with the server, with one gap.  After every call
    the three files are made of one version; each version newer than that and published before
    the check was published after the archive was asked for, and less than a second (and the
    difference of the clocks) after it was written.  With equal clocks no version is fetched
    twice.  The gap is real: a version published while the archive is being written, or in the
    same second, is not noticed by any later call until another one appears. *)
Theorem C74_fresh : forall k zone ps skew made vs v,
  history ps -> (forall t, zone (bytes_of "GMT") t = 0) -> (forall p, p ∈ ps -> exists out bs, compiles k (p_body p) out bs) ->
  Forall (honest k zone ps skew) vs -> in_turn vs -> last vs = Some v ->
  let s := fold_left go vs (empty_dir made) in
  exists d p out bs, last (fetched (empty_dir made) vs) = Some d /\ current ps (v_get d) = Some p /\
    compiles k (p_body p) out bs /\
    f_bytes <$> fs_bz s = Some (p_body p) /\ f_bytes <$> fs_xml s = Some out /\ f_bytes <$> fs_dat s = Some bs /\
    forall q, q ∈ ps -> p_time p < p_time q <= v_head1 v -> v_get d < p_time q < v_written d + skew + second.
Proof. exact l_C74_fresh. Qed.
Print Assumptions C74_fresh.
Theorem C74_never_twice : forall k zone ps made vs,
  history ps -> (forall t, zone (bytes_of "GMT") t = 0) -> (forall p, p ∈ ps -> exists out bs, compiles k (p_body p) out bs) ->
  Forall (honest k zone ps 0) vs -> in_turn vs ->
  StronglySorted (fun a b => exists p q, current ps (v_get a) = Some p /\ current ps (v_get b) = Some q /\ p_time p < p_time q)
    (fetched (empty_dir made) vs).
Proof. exact l_C74_never_twice. Qed.
Print Assumptions C74_never_twice.
Theorem C74_count : forall k zone ps made vs,
  history ps -> (forall t, zone (bytes_of "GMT") t = 0) -> (forall p, p ∈ ps -> exists out bs, compiles k (p_body p) out bs) ->
  Forall (honest k zone ps 0) vs -> in_turn vs -> (length (fetched (empty_dir made) vs) <= length ps)%nat.
Proof. exact l_C74_count. Qed.
Print Assumptions C74_count.
Theorem C74_unnoticed : forall k zone ps skew made a b d,
  history ps -> (forall t, zone (bytes_of "GMT") t = 0) -> (forall p, p ∈ ps -> exists out bs, compiles k (p_body p) out bs) ->
  Forall (honest k zone ps skew) (a ++ b) -> in_turn (a ++ b) -> last (fetched (empty_dir made) a) = Some d ->
  (forall q, q ∈ ps -> p_time q / second * second <= e_now (v_env d)) ->
  fetched (empty_dir made) (a ++ b) = fetched (empty_dir made) a.
Proof. exact l_C74_unnoticed. Qed.
Print Assumptions C74_unnoticed.
(** Two or three versions of the archive; the second is the document of PropsParser.v. *)
Definition ms (t : Z) : Z := t * 1000000.
Definition ex_pubs : list pub :=
  [mkPub (ms 784111777400) (mkCivil 1994 11 6 8 49 37) [1%N]; mkPub (ms 784111780200) (mkCivil 1994 11 6 8 49 40) [2%N]].
Definition ex_pubs3 : list pub := ex_pubs ++ [mkPub (ms 784111900000) (mkCivil 1994 11 6 8 51 40) [1%N]].
Definition ex_tools : tools :=
  mkTools (fun b => (b, true)) (fun x => (if decide (x = [2%N]) then flat_map events ex_doc else [], true)) ex_conv.
(** The requests are made at [t], the archive is written at [w] by a clock that shows [w + d]. *)
Definition ex_visit (ps : list pub) (force : bool) (t w d : Z) : visit :=
  mkVisit (mkEnv false (w + d) false (head_at no_zone ps t) false false false (head_at no_zone ps t) true true
    (match current ps t with Some p => Some (200%N, p_body p, true) | None => None end)
    true None true (k_unbz ex_tools) true None true (k_tokens ex_tools) ex_conv true None None true) force t t t w.
Lemma ex_history : history ex_pubs3.
Proof.
  split.
  - repeat (apply Forall_cons; split; [split; [vm_compute; split_and!; done|vm_compute; reflexivity]|]). apply Forall_nil. done.
  - repeat (apply SSorted_cons; [|repeat (apply Forall_cons; split; [reflexivity|]); apply Forall_nil; done]). apply SSorted_nil.
Qed.
Lemma ex_history2 : history ex_pubs.
Proof.
  split.
  - repeat (apply Forall_cons; split; [split; [vm_compute; split_and!; done|vm_compute; reflexivity]|]). apply Forall_nil. done.
  - repeat (apply SSorted_cons; [|repeat (apply Forall_cons; split; [reflexivity|]); apply Forall_nil; done]). apply SSorted_nil.
Qed.
Definition works (k : tools) (body : list N) : bool :=
  let '(out, ok) := k_unbz k body in let '(es, ok') := k_tokens k out in
  ok && ok' && match parse (k_conv k) (parser_new index_new 0) es with
  | (p, Done) => match optimize (p_ix p) with Ok ix => match index_write ix with Ok (_, None) => true | _ => false end | _ => false end
  | _ => false
  end.
Lemma works_compiles k body : works k body = true -> exists out bs, compiles k body out bs.
Proof.
  unfold works, compiles. destruct (k_unbz k body) as [out [|]]; destruct (k_tokens k out) as [es [|]] eqn:E; try done. cbn [andb].
  destruct (parse _ _ _) as [p o] eqn:E1. destruct o; try done.
  destruct (optimize _) as [ix|?|] eqn:E2; try done. destruct (index_write _) as [[bs [|]]|?|] eqn:E3; try done. intros _.
  exists out, bs. split; [done|]. by exists es, p, ix.
Qed.
Lemma ex_compiles ps : ps = ex_pubs \/ ps = ex_pubs3 -> forall p, p ∈ ps -> exists out bs, compiles ex_tools (p_body p) out bs.
Proof.
  assert (H : forall p, p ∈ ex_pubs3 -> exists out bs, compiles ex_tools (p_body p) out bs).
  { assert (H1 : forall b, b = [1%N] \/ b = [2%N] -> exists out bs, compiles ex_tools b out bs).
    { intros b Hb. apply works_compiles. destruct Hb as [-> | ->]; vm_compute; reflexivity. }
    intros p Hp. apply H1. unfold ex_pubs3, ex_pubs in Hp. cbn in Hp. rewrite !elem_of_cons, elem_of_nil in Hp.
    destruct Hp as [-> | [-> | [-> | []]]]; auto. }
  intros [-> | ->] p Hp; apply H; [|done]. apply elem_of_app. by left.
Qed.
Lemma ex_honest ps force t w d skew p : t <= w -> current ps t = Some p -> - skew <= d <= skew ->
  honest ex_tools no_zone ps skew (ex_visit ps force t w d).
Proof.
  intros Ht Hp Hd. split; cbn; try done; try lia.
  - split; try done. cbn. exists (p_body p). by rewrite Hp.
  - exists p. by rewrite Hp.
Qed.
Definition bodies (ps : list pub) (s : fs) (vs : list visit) : list (option (list N)) :=
  map (fun v => p_body <$> current ps (v_get v)) (fetched s vs).
(** A call that fetches the first version, one that does nothing, one that fetches the second. *)
Example C74_case :
  let vs := [ex_visit ex_pubs3 false (ms 784111777500) (ms 784111778000) 0; ex_visit ex_pubs3 false (ms 784111779000) (ms 784111779000) 0;
             ex_visit ex_pubs3 false (ms 784111781000) (ms 784111782000) 0; ex_visit ex_pubs3 true (ms 784111783000) (ms 784111783000) 0] in
  Forall (honest ex_tools no_zone ex_pubs3 0) vs /\ in_turn vs /\
  bodies ex_pubs3 (empty_dir false) vs = [Some [1%N]; Some [2%N]] /\
  finds (fold_left go (take 2 vs) (empty_dir false)) "cats" = Err EIndex /\
  finds (fold_left go vs (empty_dir false)) "cats" = Ok [[bytes_of "NOUN"; bytes_of "plur"]].
Proof.
  intros vs. split; [|split; [|split; [by vm_compute|split; by vm_compute]]].
  - repeat (apply Forall_cons; split; [eapply ex_honest; [done|by vm_compute|done]|]). constructor.
  - repeat constructor; cbn; done.
Qed.
(** The second version is published while the first is being written.  It is the current one at
    every later call; none of them notices. *)
Theorem C74_published_while_writing_refuted :
  exists v, honest ex_tools no_zone ex_pubs 0 v /\ current ex_pubs (v_get v) <> current ex_pubs (v_written v) /\
  forall vs, Forall (honest ex_tools no_zone ex_pubs 0) vs -> in_turn (v :: vs) -> fetched (empty_dir false) (v :: vs) = [v].
Proof.
  set (v := ex_visit ex_pubs false (ms 784111780100) (ms 784111780300) 0). exists v.
  assert (Hv : honest ex_tools no_zone ex_pubs 0 v) by (eapply ex_honest; [done|by vm_compute|done]).
  split; [done|]. split; [by vm_compute|]. intros vs Hvs Ht.
  assert (E : fetched (empty_dir false) [v] = [v]) by (vm_compute; reflexivity).
  change (v :: vs) with ([v] ++ vs) in *. transitivity (fetched (empty_dir false) [v]); [|done].
  apply (C74_unnoticed ex_tools no_zone ex_pubs 0 false [v] vs v ex_history2 (fun _ => eq_refl) (ex_compiles _ (or_introl eq_refl)));
    [by constructor|done|by rewrite E|].
  intros q Hq. unfold ex_pubs in Hq. rewrite !elem_of_cons, elem_of_nil in Hq. destruct Hq as [-> | [-> | []]]; by vm_compute.
Qed.
Print Assumptions C74_published_while_writing_refuted.
(** The same for a version published after the write, in the same second; a third version is noticed. *)
Example C74_same_second_case :
  let v := ex_visit ex_pubs3 false (ms 784111780100) (ms 784111780150) 0 in
  let vs := v :: map (fun t => ex_visit ex_pubs3 true (ms t) (ms t) 0) [784111781000; 784111790000; 784111899999] in
  bodies ex_pubs3 (empty_dir false) vs = [Some [1%N]] /\
  bodies ex_pubs3 (empty_dir false) (vs ++ [ex_visit ex_pubs3 false (ms 784111900000) (ms 784111901000) 0]) = [Some [1%N]; Some [1%N]].
Proof. by vm_compute. Qed.
(** A clock that is ten seconds late: the same version is fetched by each call for ten seconds. *)
Theorem C74_late_clock_refuted :
  let vs := map (fun t => ex_visit ex_pubs false (ms t) (ms t) (ms (- 10000))) [784111781000; 784111785000; 784111790500; 784111791000] in
  Forall (honest ex_tools no_zone ex_pubs (ms 10000)) vs /\ in_turn vs /\
  bodies ex_pubs (empty_dir false) vs = [Some [2%N]; Some [2%N]; Some [2%N]].
Proof.
  intros vs. split; [|split; [|vm_compute; reflexivity]].
  2: { repeat (apply SSorted_cons; [|repeat (apply Forall_cons; split; [vm_compute; discriminate|]); apply Forall_nil; done]). apply SSorted_nil. }
  repeat (apply Forall_cons; split; [eapply ex_honest; [done|by vm_compute|done]|]). constructor.
Qed.
Print Assumptions C74_late_clock_refuted.
