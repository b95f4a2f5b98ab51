(** Paths: C64. *)
From Coq Require Import ZifyBool ZifyNat ZifyN.
From Verif Require Import Base Paths PathSpec.
From stdpp Require Import list.

Notation dot := (bytes_of ".").
Notation dots := (bytes_of "..").

(** ** Normal forms *)
Fixpoint glue (xs : list (list N)) : list N :=
  match xs with
  | [] => []
  | [x] => x
  | x :: xs' => x ++ 47%N :: glue xs'
  end.
Lemma glue_cons x y xs : glue (x :: y :: xs) = x ++ 47%N :: glue (y :: xs).
Proof. done. Qed.
Lemma glue_app xs y ys : xs <> [] -> glue (xs ++ y :: ys) = glue xs ++ 47%N :: glue (y :: ys).
Proof.
  intros H. induction xs as [|x xs IH]; [done|]. destruct xs as [|x' xs]; [done|].
  cbn [app]. rewrite !glue_cons. cbn [app] in IH. rewrite IH by done. by rewrite <- app_assoc.
Qed.
Lemma glue_snoc xs x : xs <> [] -> glue (xs ++ [x]) = glue xs ++ 47%N :: x.
Proof. intros H. by rewrite glue_app. Qed.
Lemma pieces_ne p : pieces p <> [].
Proof. destruct p as [|c p]; cbn; [done|]. destruct (decide _); [done|]. by destruct (pieces p). Qed.
Lemma glue_pieces p : glue (pieces p) = p.
Proof.
  induction p as [|c p IH]; [done|]. cbn [pieces]. pose proof (pieces_ne p) as Hne.
  destruct (decide (c = 47%N)) as [->|Hc].
  - destruct (pieces p) as [|x xs]; [done|]. rewrite glue_cons, IH. done.
  - destruct (pieces p) as [|x [|y ys]]; [done|cbn in *; congruence|]. rewrite glue_cons in *. cbn [app]. by rewrite IH.
Qed.
Lemma pieces_free p : Forall (fun x => 47%N ∉ x) (pieces p).
Proof.
  induction p as [|c p IH]; cbn [pieces]; [repeat constructor; apply not_elem_of_nil|].
  destruct (decide (c = 47%N)) as [->|Hc]; [constructor; [apply not_elem_of_nil|done]|].
  destruct (pieces p) as [|x xs]; [repeat constructor; set_solver|]. inversion IH; subst. constructor; [set_solver|done].
Qed.
Lemma pieces_glue xs : xs <> [] -> Forall (fun x => 47%N ∉ x) xs -> pieces (glue xs) = xs.
Proof.
  intros Hne Hf. induction Hf as [|x xs Hx Hf IH]; [done|]. clear Hne.
  destruct xs as [|y xs].
  - cbn. clear IH. induction x as [|c x IHx]; [done|]. cbn [pieces]. rewrite not_elem_of_cons in Hx.
    rewrite decide_False by (intros ->; naive_solver). rewrite IHx by naive_solver. done.
  - rewrite glue_cons. specialize (IH ltac:(done)). induction x as [|c x IHx]; cbn [app pieces].
    + rewrite decide_True by done. by rewrite IH.
    + rewrite not_elem_of_cons in Hx. rewrite decide_False by (intros ->; naive_solver). rewrite IHx by naive_solver. done.
Qed.

(** The state of a cleaned path: how many steps up, then the names. *)
Notation state := (nat * list (list N))%type.
Definition nmove (rooted : bool) (st : state) (x : list N) : state :=
  let '(u, ns) := st in
  if decide (x = [] \/ x = dot) then st
  else if decide (x = dots) then
    match ns with
    | [] => if rooted then st else (S u, [])
    | _ => (u, removelast ns)
    end
  else (u, ns ++ [x]).
Definition show (rooted : bool) (st : state) : list N :=
  if rooted then 47%N :: glue st.2 else glue (replicate st.1 dots ++ st.2).
Definition base (rooted : bool) (st : state) : nat := if rooted then 1 else length (glue (replicate st.1 dots)).
Definition st_ok (rooted : bool) (st : state) : Prop := Forall entry st.2 /\ (rooted = true -> st.1 = 0).

Lemma nmove_stay rooted st x : x = [] \/ x = dot -> nmove rooted st x = st.
Proof. intros H. unfold nmove. destruct st. by rewrite decide_True. Qed.
Lemma dots_not : ~ (dots = [] \/ dots = dot).
Proof. by intros [?|?]. Qed.
Lemma nmove_up rooted u ns y : nmove rooted (u, ns ++ [y]) dots = (u, ns).
Proof.
  unfold nmove. rewrite decide_False by apply dots_not. rewrite decide_True by done.
  rewrite removelast_last. by destruct (ns ++ [y]) eqn:E; [destruct ns|].
Qed.
Lemma nmove_top rooted u : nmove rooted (u, []) dots = if rooted then (u, []) else (S u, []).
Proof. unfold nmove. rewrite decide_False by apply dots_not. by rewrite decide_True. Qed.
Lemma nmove_down rooted u ns x : x <> [] -> x <> dot -> x <> dots -> nmove rooted (u, ns) x = (u, ns ++ [x]).
Proof. intros. unfold nmove. rewrite decide_False by naive_solver. by rewrite decide_False. Qed.
Lemma piece_cases x : (x = [] \/ x = dot) \/ x = dots \/ (x <> [] /\ x <> dot /\ x <> dots).
Proof.
  destruct (decide (x = [])); [by left; left|]. destruct (decide (x = dot)); [by left; right|].
  destruct (decide (x = dots)); [by right; left|]. by right; right.
Qed.
Lemma last_case {A} (l : list A) : l = [] \/ exists l' y, l = l' ++ [y].
Proof. destruct l as [|a l]; [by left|]. right. destruct (exists_last (l := a :: l) ltac:(done)) as (l' & y & E). by exists l', y. Qed.

Lemma nmove_ok rooted st x : 47%N ∉ x -> st_ok rooted st -> st_ok rooted (nmove rooted st x).
Proof.
  intros Hx H. destruct st as [u ns]. destruct (piece_cases x) as [Hs|[-> |(H1 & H2 & H3)]].
  - by rewrite nmove_stay.
  - destruct (last_case ns) as [-> |(l & y & ->)].
    + rewrite nmove_top. destruct rooted; [done|]. by split; [constructor|].
    + rewrite nmove_up. destruct H as [H1 H2]. split; [|done]. cbn [snd] in *. by apply Forall_app in H1 as [? _].
  - rewrite nmove_down by done. destruct H as [H H']. split; [|done]. cbn [snd] in *. apply Forall_app. split; [done|].
    constructor; [|constructor]. done.
Qed.

(** ** Clean computes the normal form *)
Lemma copy_loop rooted c : forall s out dd, 47%N ∉ c -> clean_loop rooted true (c ++ s) out dd = clean_loop rooted true s (rev c ++ out) dd.
Proof.
  induction c as [|a c IH]; intros s out dd H; [done|]. rewrite not_elem_of_cons in H. cbn [app clean_loop].
  rewrite (proj2 (N.eqb_neq a 47)) by naive_solver. rewrite IH by naive_solver. cbn [rev]. by rewrite <- app_assoc.
Qed.
Lemma copy_end rooted s out dd : at_end s = true -> clean_loop rooted true s out dd = clean_loop rooted false s out dd.
Proof. destruct s as [|c s]; [done|]. cbn [at_end]. intros H. cbn [clean_loop]. by rewrite H. Qed.
Lemma back_free n : forall dd out, 47%N ∉ n -> n <> [] -> dd <= length out ->
  back dd (n ++ out) = if length out <=? dd then out else back dd out.
Proof.
  induction n as [|c n IH]; intros dd out Hn Hne Hd; [done|]. rewrite not_elem_of_cons in Hn. cbn [app back].
  rewrite (proj2 (N.eqb_neq c 47)) by naive_solver. rewrite orb_false_r. destruct n as [|c' n].
  - cbn [app]. done.
  - rewrite (proj2 (Nat.leb_gt (length ((c' :: n) ++ out)) dd)) by (rewrite app_length; cbn; lia).
    by apply IH; [naive_solver|..].
Qed.

Lemma glue_length_pos xs x : x ∈ xs -> x <> [] -> 0 < length (glue xs).
Proof.
  induction xs as [|y xs IH]; [intros H; by apply elem_of_nil in H|]. rewrite elem_of_cons. intros [<-|H] Hne.
  - destruct xs as [|z xs]; [destruct x; cbn; [done|lia]|]. rewrite glue_cons, app_length. cbn. lia.
  - destruct xs as [|z xs]; [by apply elem_of_nil in H|]. rewrite glue_cons, app_length. cbn [length]. lia.
Qed.
Lemma glue_nil xs : Forall (fun x => x <> []) xs -> glue xs = [] -> xs = [].
Proof.
  intros Hf H. destruct xs as [|x xs]; [done|]. inversion Hf; subst.
  pose proof (glue_length_pos (x :: xs) x ltac:(by left) ltac:(done)) as Hl. rewrite H in Hl. cbn in Hl. lia.
Qed.
Lemma replicate_dots u : Forall (fun x : list N => x <> []) (replicate u dots).
Proof. by apply Forall_replicate. Qed.

(** Where a new component goes. *)
Lemma show_push rooted u ns x : st_ok rooted (u, ns) ->
  rev (show rooted (u, ns ++ [x])) = rev x ++ separate rooted (rev (show rooted (u, ns))).
Proof.
  intros [H1 H2]. cbn [fst snd] in *. unfold separate, show. cbn [fst snd]. rewrite rev_length.
  assert (Hne : Forall (fun x : list N => x <> []) ns) by (eapply Forall_impl; [exact H1|]; intros y Hy; apply Hy).
  destruct rooted.
  - destruct ns as [|n ns]; [cbn; done|].
    rewrite glue_snoc by done. cbn [length]. destruct (glue (n :: ns)) as [|c g] eqn:E; [by apply glue_nil in E|].
    cbn [length Nat.eqb]. rewrite <- E. change (47%N :: glue (n :: ns) ++ 47%N :: x) with ((47%N :: glue (n :: ns)) ++ [47%N] ++ x).
    rewrite rev_app_distr, rev_app_distr. cbn [rev app]. by rewrite <- app_assoc.
  - rewrite app_assoc. destruct (replicate u dots ++ ns) as [|y ys] eqn:E; [by rewrite app_nil_r|].
    rewrite glue_snoc by done.
    assert (Hg : glue (y :: ys) <> []).
    { intros H. apply glue_nil in H; [done|]. rewrite <- E. apply Forall_app. split; [apply replicate_dots|done]. }
    destruct (length (glue (y :: ys)) =? 0) eqn:El; [apply Nat.eqb_eq in El; by apply nil_length_inv in El|].
    rewrite rev_app_distr. cbn [rev]. by rewrite <- app_assoc.
Qed.
Lemma show_base rooted u ns : st_ok rooted (u, ns) -> base rooted (u, ns) <= length (show rooted (u, ns)) /\
  (length (show rooted (u, ns)) <= base rooted (u, ns) <-> ns = []).
Proof.
  intros [H1 H2]. cbn [fst snd] in *. unfold base, show. cbn [fst snd].
  assert (Hne : Forall (fun x : list N => x <> []) ns) by (eapply Forall_impl; [exact H1|]; intros y Hy; apply Hy).
  destruct rooted; cbn [length].
  - split; [lia|]. split; [|by intros ->]. intros Hl. apply glue_nil; [done|]. destruct (glue ns); [done|cbn in Hl; lia].
  - destruct ns as [|n ns]; [rewrite app_nil_r; split; [done|by split]|].
    destruct u as [|u].
    + cbn [replicate app]. cbn [glue length]. split; [lia|]. split; [|done]. inversion H1; subst.
      pose proof (glue_length_pos (n :: ns) n ltac:(by left) ltac:(by apply H3)). cbn in *. lia.
    + rewrite glue_app by done. rewrite app_length. cbn [length]. split; [lia|]. split; [lia|done].
Qed.
Lemma show_back rooted u ns x : st_ok rooted (u, ns ++ [x]) ->
  back (base rooted (u, ns)) (rev (show rooted (u, ns ++ [x]))) = rev (show rooted (u, ns)).
Proof.
  intros [H1 H2]. cbn [fst snd] in *. apply Forall_app in H1 as [H1 H1']. inversion H1' as [|? ? Hx _]; subst.
  assert (Hok : st_ok rooted (u, ns)) by done. rewrite show_push by done.
  destruct (show_base rooted u ns Hok) as [B1 B2].
  destruct Hx as (Hx1 & _ & _ & Hx4).
  assert (Hrx : 47%N ∉ rev x) by (intros Hin; apply Hx4; by apply elem_of_list_In, in_rev, elem_of_list_In).
  assert (Hrn : rev x <> []) by (intros E; apply Hx1; rewrite <- (rev_involutive x); by rewrite E).
  unfold separate. destruct (length (rev (show rooted (u, ns))) =? _) eqn:E.
  - rewrite back_free by (try done; rewrite rev_length; lia). rewrite rev_length in *.
    rewrite (proj2 (Nat.leb_le _ _)); [done|]. apply Nat.eqb_eq in E. rewrite E. unfold base. destruct rooted; lia.
  - rewrite back_free by (try done; cbn; rewrite rev_length; lia). cbn [length].
    rewrite rev_length in *. rewrite (proj2 (Nat.leb_gt _ _)) by lia. cbn [back]. by rewrite orb_true_r.
Qed.

Lemma at_end_glue (x : list N) (xs : list (list N)) : exists s, glue (x :: xs) = x ++ s /\ at_end s = true /\
  (s = [] /\ xs = [] \/ xs <> [] /\ s = 47%N :: glue xs).
Proof.
  destruct xs as [|y xs].
  - exists []. cbn [glue]. rewrite app_nil_r. split; [done|]. split; [done|]. by left.
  - exists (47%N :: glue (y :: xs)). split; [done|]. split; [done|]. by right.
Qed.
(** One component. *)
Lemma loop_piece rooted st x s : 47%N ∉ x -> at_end s = true -> st_ok rooted st ->
  clean_loop rooted false (x ++ s) (rev (show rooted st)) (base rooted st) =
  clean_loop rooted false s (rev (show rooted (nmove rooted st x))) (base rooted (nmove rooted st x)).
Proof.
  intros Hx Hs Hok. destruct st as [u ns]. destruct (piece_cases x) as [[-> | ->]|[-> |(H1 & H2 & H3)]].
  - rewrite nmove_stay by (by left). done.
  - rewrite nmove_stay by (by right). change (dot ++ s) with (46%N :: s). cbn [clean_loop].
    rewrite (N.eqb_refl 46), Hs. done.
  - change (dots ++ s) with (46%N :: 46%N :: s).
    assert (E : forall out dd, clean_loop rooted false (46%N :: 46%N :: s) out dd =
       if (dd <? length out)%nat then clean_loop rooted false s (back dd out) dd
        else if negb rooted then
          let out' := 46%N :: 46%N :: (if (0 <? length out)%nat then 47%N :: out else out) in
          clean_loop rooted false s out' (length out')
        else clean_loop rooted false s out dd).
    { intros out dd. cbn [clean_loop at_end]. rewrite (N.eqb_refl 46), Hs. done. }
    rewrite E. clear E. destruct (show_base rooted u ns Hok) as [B1 B2]. rewrite rev_length.
    destruct (last_case ns) as [-> |(l & y & ->)].
    + rewrite nmove_top. rewrite (proj2 (Nat.ltb_ge _ _)) by (by apply B2). destruct rooted; [done|]. cbn [negb].
      assert (Es : rev (show false (S u, [])) = 46%N :: 46%N :: (if 0 <? length (show false (u, [])) then 47%N :: rev (show false (u, [])) else rev (show false (u, [])))).
      { unfold show. cbn [fst snd]. rewrite !app_nil_r. rewrite replicate_S_end.
        destruct u as [|u]; [done|]. rewrite glue_snoc by done. rewrite rev_app_distr.
        rewrite (proj2 (Nat.ltb_lt _ _)); [done|]. apply (glue_length_pos _ dots); [by left|done]. }
      rewrite <- Es. cbv zeta. f_equal. rewrite rev_length. unfold base, show. cbn [fst snd]. by rewrite app_nil_r.
    + rewrite nmove_up. rewrite (proj2 (Nat.ltb_lt _ _)).
      2: { destruct (decide (length (show rooted (u, l ++ [y])) <= base rooted (u, l ++ [y]))) as [Hle|]; [|lia].
           apply B2 in Hle. by destruct l. }
      change (base rooted (u, l ++ [y])) with (base rooted (u, l)). by rewrite show_back.
  - rewrite nmove_down by done. rewrite show_push by done. change (base rooted (u, ns ++ [x])) with (base rooted (u, ns)).
    rewrite <- (copy_end rooted s) by done. rewrite <- copy_loop by done.
    destruct x as [|c x]; [done|]. rewrite not_elem_of_cons in Hx.
    assert (Hc : (c =? 47)%N = false) by (apply N.eqb_neq; naive_solver).
    cbn [app]. cbn [clean_loop]. rewrite Hc.
    destruct x as [|c2 x]; cbn [app].
    + destruct ((c =? 46)%N) eqn:E46; [apply N.eqb_eq in E46; subst c; by destruct H2|]. cbn [andb].
      destruct s as [|c3 s]; [done|]. cbn [clean_loop]. destruct (c3 =? 47)%N; done.
    + rewrite not_elem_of_cons in Hx. assert (Hc2 : (c2 =? 47)%N = false) by (apply N.eqb_neq; naive_solver).
      cbn [at_end]. rewrite Hc2, andb_false_r.
      destruct ((c =? 46)%N && (c2 =? 46)%N && at_end (x ++ s)) eqn:E; [|done].
      exfalso. rewrite !andb_true_iff, !N.eqb_eq in E. destruct E as [[-> ->] E].
      destruct x as [|c3 x]; [by apply H3|]. cbn in E. apply N.eqb_eq in E. subst. rewrite !not_elem_of_cons in Hx. naive_solver.
Qed.
Lemma loop_pieces rooted xs : forall st, Forall (fun x => 47%N ∉ x) xs -> st_ok rooted st ->
  clean_loop rooted false (glue xs) (rev (show rooted st)) (base rooted st) = rev (show rooted (fold_left (nmove rooted) xs st)).
Proof.
  induction xs as [|x xs IH]; intros st Hf Hok; [done|]. inversion Hf; subst.
  destruct (at_end_glue x xs) as (s & -> & Hs & Hc). rewrite loop_piece by done. cbn [fold_left].
  destruct Hc as [[-> ->]|[Hne ->]]; [done|]. cbn [clean_loop]. rewrite (N.eqb_refl 47). apply IH; [done|]. by apply nmove_ok.
Qed.
Lemma fold_ok rooted xs : forall st, Forall (fun x => 47%N ∉ x) xs -> st_ok rooted st -> st_ok rooted (fold_left (nmove rooted) xs st).
Proof. induction xs as [|x xs IH]; intros st Hf Hok; [done|]. inversion Hf; subst. apply IH; [done|]. by apply nmove_ok. Qed.

Definition norm (p : list N) : state := fold_left (nmove (is_rooted p)) (pieces p) (0, []).
Definition shown (rooted : bool) (st : state) : list N := match show rooted st with [] => dot | s => s end.
Lemma norm_ok p : st_ok (is_rooted p) (norm p).
Proof. apply fold_ok; [apply pieces_free|]. split; [constructor|done]. Qed.
Lemma clean_norm p : clean p = shown (is_rooted p) (norm p).
Proof.
  assert (Hok : forall r, st_ok r (0, [])) by (intros r; split; [constructor|done]).
  destruct p as [|c p]; [done|]. unfold clean. cbn [tail]. unfold norm, is_rooted. destruct ((c =? 47)%N) eqn:Ec.
  - apply N.eqb_eq in Ec. subst c.
    pose proof (loop_pieces true (pieces p) (0, []) (pieces_free p) (Hok true)) as E. rewrite glue_pieces in E.
    change (rev (show true (0, []))) with [47%N] in E. change (base true (0, [])) with 1 in E. rewrite E.
    cbn [pieces]. rewrite decide_True by done. cbn [fold_left]. rewrite nmove_stay by (by left).
    unfold shown. destruct (show true _) as [|a s] eqn:Es; [done|]. rewrite rev_involutive.
    destruct (rev (a :: s)) eqn:Er; [|done]. apply (f_equal (@rev N)) in Er. by rewrite rev_involutive in Er.
  - pose proof (loop_pieces false (pieces (c :: p)) (0, []) (pieces_free _) (Hok false)) as E. rewrite glue_pieces in E.
    change (rev (show false (0, []))) with (@nil N) in E. change (base false (0, [])) with 0 in E. rewrite E.
    unfold shown. destruct (show false _) as [|a s] eqn:Es; [done|]. rewrite rev_involutive.
    destruct (rev (a :: s)) eqn:Er; [|done]. apply (f_equal (@rev N)) in Er. by rewrite rev_involutive in Er.
Qed.

(** ** The normal form of a normal form *)
Lemma fold_ups u : fold_left (nmove false) (replicate u dots) (0, []) = (u, []).
Proof.
  induction u as [|u IH]; [done|]. rewrite replicate_S_end, fold_left_app, IH. cbn [fold_left]. apply nmove_top.
Qed.
Lemma fold_names rooted u ns : forall ns0, Forall entry ns -> fold_left (nmove rooted) ns (u, ns0) = (u, ns0 ++ ns).
Proof.
  induction ns as [|n ns IH]; intros ns0 Hf; [by rewrite app_nil_r|]. inversion Hf as [|? ? (E1 & E2 & E3 & _) Hf']; subst.
  cbn [fold_left]. rewrite nmove_down by done. rewrite IH by done. by rewrite <- app_assoc.
Qed.
Lemma entries_free ns : Forall entry ns -> Forall (fun x => 47%N ∉ x) ns.
Proof. intros H. eapply Forall_impl; [exact H|]. intros x Hx. apply Hx. Qed.
Lemma dots_free u : Forall (fun x => 47%N ∉ x) (replicate u dots).
Proof. apply Forall_replicate. apply (bool_decide_unpack _). vm_compute. exact I. Qed.
Lemma rooted_shown rooted st : st_ok rooted st -> is_rooted (shown rooted st) = rooted.
Proof.
  intros [H1 H2]. destruct st as [u ns]. unfold shown, show. destruct rooted; [done|]. cbn [fst snd] in *.
  assert (Hf : Forall (fun x => 47%N ∉ x /\ x <> []) (replicate u dots ++ ns)).
  { apply Forall_app. split; [apply Forall_replicate; split; [|done]; apply (bool_decide_unpack _); vm_compute; exact I|].
    eapply Forall_impl; [exact H1|]. intros x Hx. split; apply Hx. }
  destruct (replicate u dots ++ ns) as [|x xs]; [done|]. inversion Hf as [|? ? [F1 F2] _]; subst.
  destruct (at_end_glue x xs) as (s & -> & _). destruct x as [|c x]; [done|]. cbn. apply N.eqb_neq. rewrite not_elem_of_cons in F1. naive_solver.
Qed.
Lemma norm_shown rooted st : st_ok rooted st -> norm (shown rooted st) = st.
Proof.
  intros Hok. unfold norm. rewrite rooted_shown by done. destruct Hok as [H1 H2]. destruct st as [u ns]. cbn [fst snd] in *.
  unfold shown, show. cbn [fst snd]. destruct rooted.
  - rewrite H2 by done. cbn [pieces]. rewrite decide_True by done. cbn [fold_left]. rewrite nmove_stay by (by left).
    destruct ns as [|n ns]; [done|]. rewrite pieces_glue by (done || by apply entries_free). by rewrite fold_names.
  - destruct (replicate u dots ++ ns) as [|x xs] eqn:E.
    { destruct u; [|done]. cbn in E. subst ns. done. }
    assert (Hf : Forall (fun x => 47%N ∉ x) (x :: xs)) by (rewrite <- E; apply Forall_app; split; [apply dots_free|by apply entries_free]).
    assert (Hg : glue (x :: xs) <> []).
    { intros H. apply glue_nil in H; [done|]. rewrite <- E. apply Forall_app. split; [apply replicate_dots|].
      eapply Forall_impl; [exact H1|]. intros y Hy. apply Hy. }
    destruct (glue (x :: xs)) as [|a s] eqn:Eg; [done|]. rewrite <- Eg, pieces_glue, <- E by done.
    rewrite fold_left_app, fold_ups. by rewrite fold_names.
Qed.

(** ** Where a path leads *)
Definition ups (u : nat) (cwd : list (list N)) : list (list N) := Nat.iter u (@removelast (list N)) cwd.
Definition go (rooted : bool) (cwd : list (list N)) (st : state) : list (list N) :=
  ups st.1 (if rooted then [] else cwd) ++ st.2.
Lemma ups_nil u : ups u [] = [].
Proof. induction u as [|u IH]; [done|]. change (ups (S u) []) with (removelast (ups u [])). by rewrite IH. Qed.
Lemma go_move rooted cwd st x : st_ok rooted st -> move (go rooted cwd st) x = go rooted cwd (nmove rooted st x).
Proof.
  intros [H1 H2]. destruct st as [u ns]. unfold move. destruct (piece_cases x) as [Hs|[-> |(E1 & E2 & E3)]].
  - rewrite nmove_stay by done. by rewrite decide_True.
  - rewrite decide_False by apply dots_not. rewrite decide_True by done. unfold go. cbn [fst snd].
    destruct (last_case ns) as [-> |(l & y & ->)].
    + rewrite nmove_top, app_nil_r. destruct rooted; cbn [fst snd]; rewrite app_nil_r; [by rewrite ups_nil|done].
    + rewrite nmove_up. cbn [fst snd]. by rewrite app_assoc, removelast_last.
  - rewrite decide_False by naive_solver. rewrite decide_False by done. rewrite nmove_down by done. unfold go. cbn [fst snd].
    by rewrite app_assoc.
Qed.
Lemma go_pieces rooted cwd xs : forall st, Forall (fun x => 47%N ∉ x) xs -> st_ok rooted st ->
  fold_left move xs (go rooted cwd st) = go rooted cwd (fold_left (nmove rooted) xs st).
Proof.
  induction xs as [|x xs IH]; intros st Hf Hok; [done|]. inversion Hf; subst. cbn [fold_left].
  rewrite go_move by done. apply IH; [done|]. by apply nmove_ok.
Qed.
Lemma rooted_head p : is_rooted p = true <-> head p = Some 47%N.
Proof. destruct p as [|c p]; [done|]. cbn. rewrite N.eqb_eq. split; congruence. Qed.
Lemma walk_norm cwd p : walk cwd p = go (is_rooted p) cwd (norm p).
Proof.
  unfold walk, norm. rewrite <- go_pieces; [|apply pieces_free|split; [constructor|done]].
  unfold go. cbn [fst snd]. rewrite app_nil_r. unfold ups. cbn [Nat.iter nat_rect]. f_equal.
  destruct (decide (head p = Some 47%N)) as [H|H].
  - by rewrite (proj2 (rooted_head p)).
  - destruct (is_rooted p) eqn:E; [|done]. by apply rooted_head in E.
Qed.

(** ** The theorems *)
Lemma l_C64_same_place : forall cwd p, walk cwd (clean p) = walk cwd p.
Proof.
  intros cwd p. rewrite !walk_norm, clean_norm. by rewrite rooted_shown, norm_shown by apply norm_ok.
Qed.

Lemma ups_replicate u : forall k (x : list N), ups u (replicate (u + k) x) = replicate k x.
Proof.
  induction u as [|u IH]; intros k x; [done|]. change (ups (S u) (replicate (S u + k) x)) with (removelast (ups u (replicate (S u + k) x))).
  replace (S u + k) with (u + S k) by lia. rewrite IH. rewrite replicate_S_end. apply removelast_last.
Qed.
Lemma replicate_sep k k' (x : list N) ns ns' : x ∉ ns -> x ∉ ns' -> replicate k x ++ ns = replicate k' x ++ ns' -> k = k' /\ ns = ns'.
Proof.
  revert k'. induction k as [|k IH]; intros [|k'] H1 H2 E; cbn in E.
  - done.
  - subst ns. exfalso. apply H1. by left.
  - subst ns'. exfalso. apply H2. by left.
  - injection E as E. destruct (IH k' H1 H2 E) as [-> ->]. done.
Qed.
Lemma fresh_name (ns : list (list N)) : exists x, entry x /\ x ∉ ns.
Proof.
  exists (replicate (3 + length (concat ns)) 97%N). split.
  - repeat split; try done. intros H. apply elem_of_replicate in H. naive_solver.
  - intros H. assert (forall y, y ∈ ns -> length y <= length (concat ns)) as Hl.
    { clear H. intros y Hy. induction Hy as [y ns|y z ns Hy IH]; cbn; rewrite app_length; lia. }
    specialize (Hl _ H). rewrite replicate_length in Hl. lia.
Qed.
Lemma l_C64_unique : forall p q, clean p = clean q <-> (forall cwd, Forall entry cwd -> walk cwd p = walk cwd q).
Proof.
  intros p q. split.
  { intros E cwd _. by rewrite <- (l_C64_same_place cwd p), E, l_C64_same_place. }
  intros H. rewrite !clean_norm.
  pose proof (norm_ok p) as [Hp1 Hp2]. pose proof (norm_ok q) as [Hq1 Hq2].
  assert (H' : forall cwd, Forall entry cwd -> go (is_rooted p) cwd (norm p) = go (is_rooted q) cwd (norm q))
    by (intros cwd Hc; rewrite <- !walk_norm; by apply H).
  clear H. destruct (norm p) as [u ns]. destruct (norm q) as [v ms]. cbn [fst snd] in *.
  destruct (fresh_name (ns ++ ms)) as (x & Hx & Hnx). rewrite not_elem_of_app in Hnx. destruct Hnx as [Hn Hm].
  specialize (H' (replicate (u + (v + 1)) x)). unfold go in H'. cbn [fst snd] in H'.
  specialize (H' ltac:(by apply Forall_replicate)).
  replace (replicate (u + (v + 1)) x) with (replicate (v + (u + 1)) x) in H' at 2 by (f_equal; lia).
  destruct (is_rooted p), (is_rooted q).
  - rewrite Hp2, Hq2 in * by done. cbn in H'. by subst.
  - rewrite ups_nil, ups_replicate in H'. apply (replicate_sep 0 _ x) in H'; [|done..]. lia.
  - rewrite ups_nil, ups_replicate in H'. apply (replicate_sep _ 0 x) in H'; [|done..]. lia.
  - rewrite !ups_replicate in H'. apply (replicate_sep _ _ x) in H'; [|done..].
    destruct H' as [E ->]. by replace u with v by lia.
Qed.
Lemma l_C64_idempotent : forall p, clean (clean p) = clean p.
Proof. intros p. apply l_C64_unique. intros cwd _. apply l_C64_same_place. Qed.

(** ** The shortest of the paths to a place *)
Definition cost (xs : list (list N)) : nat := sum_list (map (fun x => S (length x)) xs).
Lemma cost_app xs ys : cost (xs ++ ys) = cost xs + cost ys.
Proof. unfold cost. rewrite map_app. induction (map (fun x => S (length x)) xs) as [|a l IH]; cbn; [done|]. rewrite IH. lia. Qed.
Lemma glue_cost xs : xs <> [] -> S (length (glue xs)) = cost xs.
Proof.
  intros H. induction xs as [|x [|y xs] IH]; [done|cbn; lia|]. rewrite glue_cons, app_length. cbn [length].
  rewrite IH by done. cbn. lia.
Qed.
Definition items (st : state) : list (list N) := replicate st.1 dots ++ st.2.
Lemma nmove_cost rooted st x : cost (items (nmove rooted st x)) <= cost (items st) + S (length x).
Proof.
  destruct st as [u ns]. unfold items. destruct (piece_cases x) as [Hs|[-> |(E1 & E2 & E3)]].
  - rewrite nmove_stay by done. lia.
  - destruct (last_case ns) as [-> |(l & y & ->)].
    + rewrite nmove_top. destruct rooted; cbn [fst snd]; [lia|]. rewrite !app_nil_r, replicate_S_end, cost_app. unfold cost at 2. cbn [map sum_list]. cbn. lia.
    + rewrite nmove_up. cbn [fst snd]. rewrite !cost_app. lia.
  - rewrite nmove_down by done. cbn [fst snd]. rewrite !cost_app. cbn. lia.
Qed.
Lemma fold_cost rooted xs : forall st, cost (items (fold_left (nmove rooted) xs st)) <= cost (items st) + cost xs.
Proof.
  induction xs as [|x xs IH]; intros st; [cbn; lia|]. cbn [fold_left]. etransitivity; [apply IH|].
  pose proof (nmove_cost rooted st x). change (cost (x :: xs)) with (S (length x) + cost xs). lia.
Qed.
Lemma clean_length p : p <> [] -> length (clean p) <= length p.
Proof.
  intros Hp. rewrite clean_norm. pose proof (norm_ok p) as [_ H2]. unfold shown.
  assert (Hc : cost (items (norm p)) <= (if is_rooted p then 0 else 1) + length p).
  { unfold norm. destruct p as [|c p]; [done|]. cbn [is_rooted]. destruct (c =? 47)%N eqn:E.
    - apply N.eqb_eq in E. subst. cbn [pieces]. rewrite decide_True by done. cbn [fold_left]. rewrite nmove_stay by (by left).
      etransitivity; [apply fold_cost|]. rewrite <- (glue_cost (pieces _)) by apply pieces_ne. rewrite glue_pieces. cbn. lia.
    - etransitivity; [apply fold_cost|]. rewrite <- (glue_cost (pieces _)) by apply pieces_ne. rewrite glue_pieces. cbn. lia. }
  destruct (norm p) as [u ns]. unfold show, items in *. cbn [fst snd] in *. assert (1 <= length p) by (destruct p; [done|cbn; lia]).
  destruct (is_rooted p).
  - rewrite H2 in Hc by done. cbn [replicate app] in Hc. cbn [length]. destruct ns as [|n ns]; [cbn; lia|].
    rewrite <- glue_cost in Hc by done. lia.
  - destruct (replicate u dots ++ ns) as [|x xs]; [done|]. rewrite <- glue_cost in Hc by done.
    destruct (glue (x :: xs)); cbn [length] in *; [done|lia].
Qed.
Lemma l_C64_shortest : forall p q, q <> [] -> (forall cwd, Forall entry cwd -> walk cwd p = walk cwd q) ->
  length (clean p) <= length q.
Proof. intros p q Hq H. apply l_C64_unique in H. rewrite H. by apply clean_length. Qed.

(** ** Joining *)
Lemma pieces_slash a b : pieces (a ++ 47%N :: b) = pieces a ++ pieces b.
Proof.
  induction a as [|c a IH]; cbn [app pieces]; [by rewrite decide_True|].
  rewrite IH. destruct (decide (c = 47%N)); [done|]. pose proof (pieces_ne a). by destruct (pieces a).
Qed.
Lemma walk_slash cwd a b : a <> [] -> walk cwd (a ++ 47%N :: b) = fold_left move (pieces b) (walk cwd a).
Proof. intros Ha. unfold walk. rewrite pieces_slash, fold_left_app. by destruct a. Qed.
Lemma join_two a b : a <> [] -> Paths.join [a; b] = clean (a ++ 47%N :: b).
Proof. intros Ha. unfold Paths.join. by destruct a. Qed.
Lemma join_one a : a <> [] -> Paths.join [a] = clean a.
Proof. intros Ha. unfold Paths.join. by destruct a. Qed.
Lemma clean_ne p : clean p <> [].
Proof. rewrite clean_norm. unfold shown. by destruct (show _ _). Qed.
Lemma pieces_entry x : 47%N ∉ x -> pieces x = [x].
Proof. intros Hx. apply (pieces_glue [x]); [done|]. by repeat constructor. Qed.
Lemma move_entry dir x : entry x -> move dir x = dir ++ [x].
Proof. intros (H1 & H2 & H3 & _). unfold move. rewrite decide_False by naive_solver. by rewrite decide_False. Qed.
Lemma walk_file cwd p name : p <> [] -> entry name -> walk cwd (file_path p name) = walk cwd p ++ [name].
Proof.
  intros Hp Hn. unfold file_path, data_path. rewrite join_one by done. rewrite join_two by apply clean_ne.
  rewrite l_C64_same_place, walk_slash by apply clean_ne. rewrite l_C64_same_place.
  rewrite pieces_entry by apply Hn. cbn [fold_left]. by apply move_entry.
Qed.
Lemma data_ne p : loader_data_path p <> [].
Proof. destruct p; [|done]. vm_compute. done. Qed.
Lemma l_C64_files : forall cwd p name, entry name ->
  walk cwd (file_path (loader_data_path p) name) = walk cwd (loader_data_path p) ++ [name].
Proof. intros cwd p name Hn. apply walk_file; [apply data_ne|done]. Qed.
Ltac is_entry := repeat split; try (intros H; vm_compute in H; discriminate); apply (bool_decide_unpack _); vm_compute; exact I.
Lemma l_C64_three_files : forall cwd p,
  let at_ name := walk cwd (file_path (loader_data_path p) name) in
  let dir := walk cwd (loader_data_path p) in
  at_ source_filename = dir ++ [source_filename] /\ at_ unpacked_filename = dir ++ [unpacked_filename] /\
  at_ compiled_filename = dir ++ [compiled_filename] /\
  NoDup [at_ source_filename; at_ unpacked_filename; at_ compiled_filename].
Proof.
  intros cwd p. cbv beta zeta. rewrite !l_C64_files by is_entry. repeat (split; [done|]).
  assert (Hi : Inj (=) (=) (fun x => walk cwd (loader_data_path p) ++ [x])) by (intros x y E; apply app_inv_head in E; congruence).
  change (NoDup ((fun x => walk cwd (loader_data_path p) ++ [x]) <$> [source_filename; unpacked_filename; compiled_filename])).
  apply (NoDup_fmap_2 _).
  apply (bool_decide_unpack _). vm_compute. exact I.
Qed.
Lemma walk_default cwd : walk cwd (domain_data_path domain_name) = cwd ++ [bytes_of ".data"; bytes_of "opencorpora"].
Proof.
  unfold domain_data_path. rewrite join_two by done. rewrite l_C64_same_place, walk_slash by done.
  rewrite pieces_entry by (apply (bool_decide_unpack _); vm_compute; exact I).
  unfold walk. rewrite decide_False by done.
  rewrite pieces_entry by (apply (bool_decide_unpack _); vm_compute; exact I). cbn [fold_left].
  rewrite !move_entry by is_entry. by rewrite <- app_assoc.
Qed.
Lemma walk_abs cwd wd p : head wd = Some 47%N -> walk cwd (abs_path wd p) = walk (walk [] wd) p.
Proof.
  intros Hw. unfold abs_path. destruct (is_rooted p) eqn:E.
  - rewrite l_C64_same_place. generalize (walk [] wd). intros c. unfold walk. apply rooted_head in E. by rewrite !(decide_True _ _ E).
  - assert (Hne : wd <> []) by (by intros ->). rewrite join_two by done. rewrite l_C64_same_place, walk_slash by done.
    assert (Hp : head p <> Some 47%N) by (intros H; apply rooted_head in H; congruence).
    assert (Ew : walk cwd wd = walk [] wd) by (unfold walk; by rewrite !(decide_True _ _ Hw)).
    rewrite Ew. generalize (walk [] wd). intros c. unfold walk. by rewrite (decide_False _ _ Hp).
Qed.
Lemma l_C64_made : forall cwd wd, head wd = Some 47%N ->
  walk cwd (made_directory wd domain_name) = walk [] wd ++ [bytes_of ".data"; bytes_of "opencorpora"] /\
  walk (walk [] wd) (loader_data_path []) = walk cwd (made_directory wd domain_name).
Proof.
  intros cwd wd Hw. unfold made_directory. rewrite walk_abs by done. rewrite walk_default. split; [done|].
  unfold loader_data_path. by rewrite walk_default.
Qed.

(** ** Splitting *)
Lemma split_path_app p : (split_path p).1 ++ (split_path p).2 = p.
Proof.
  induction p as [|c p IH]; [done|]. cbn [split_path]. destruct (split_path p) as [[|d ds] f]; cbn [fst snd app] in *.
  - subst f. by destruct (c =? 47)%N.
  - by rewrite IH.
Qed.
Lemma split_path_file p : 47%N ∉ (split_path p).2.
Proof.
  induction p as [|c p IH]; [apply not_elem_of_nil|]. cbn [split_path]. destruct (split_path p) as [[|d ds] f]; cbn [snd] in *; [|done].
  destruct (c =? 47)%N eqn:E; cbn [snd]; [done|]. apply N.eqb_neq in E. rewrite not_elem_of_cons. naive_solver.
Qed.
Lemma split_path_dir p : (split_path p).1 = [] \/ last (split_path p).1 = Some 47%N.
Proof.
  induction p as [|c p IH]; [by left|]. cbn [split_path]. destruct (split_path p) as [[|d ds] f]; cbn [fst] in *.
  - destruct (c =? 47)%N eqn:E; cbn [fst]; [|by left]. apply N.eqb_eq in E. subst. by right.
  - destruct IH as [|IH]; [done|]. right. by rewrite last_cons, IH.
Qed.
Lemma split_ext_app f : (split_ext f).1 ++ (split_ext f).2 = f.
Proof.
  induction f as [|c f IH]; [done|]. cbn [split_ext]. destruct (split_ext f) as [n [|d ds]]; cbn [fst snd app] in *.
  - rewrite app_nil_r in IH. subst n. destruct (c =? 46)%N; cbn [fst snd app]; [done|]. by rewrite app_nil_r.
  - by rewrite IH.
Qed.
Lemma split_ext_ext f : ((split_ext f).2 = [] /\ 46%N ∉ f) \/ exists y, (split_ext f).2 = 46%N :: y /\ 46%N ∉ y.
Proof.
  induction f as [|c f IH]; [left; split; [done|apply not_elem_of_nil]|]. cbn [split_ext].
  destruct (split_ext f) as [n [|d ds]]; cbn [snd] in *.
  - destruct IH as [[_ IH]|(y & ? & _)]; [|done]. destruct (c =? 46)%N eqn:E; cbn [snd].
    + apply N.eqb_eq in E. subst. right. eauto.
    + apply N.eqb_neq in E. left. split; [done|]. rewrite not_elem_of_cons. naive_solver.
  - destruct IH as [[? _]|IH]; [done|]. by right.
Qed.
Lemma rooted_clean p : is_rooted (clean p) = is_rooted p.
Proof. rewrite clean_norm. apply rooted_shown, norm_ok. Qed.
(** The last part of a clean path from the root is empty only for the root. *)
Lemma split_last a x : 47%N ∉ x -> (split_path (a ++ 47%N :: x)).2 = x.
Proof.
  intros Hx. assert (Hs : split_path (47%N :: x) = ([47%N], x)).
  { cbn [split_path]. assert (E : split_path x = ([], x)).
    { clear a. induction x as [|c x IH]; [done|]. rewrite not_elem_of_cons in Hx. cbn [split_path]. rewrite IH by naive_solver.
      destruct (c =? 47)%N eqn:E; [apply N.eqb_eq in E; naive_solver|done]. }
    by rewrite E. }
  assert (H : (split_path (a ++ 47%N :: x)).2 = x /\ (split_path (a ++ 47%N :: x)).1 <> []).
  { induction a as [|c a IH]; cbn [app]; [by rewrite Hs|]. cbn [split_path].
    destruct (split_path (a ++ 47%N :: x)) as [[|d ds] f]; cbn [fst snd] in *; naive_solver. }
  apply H.
Qed.
Lemma stat_root a : is_rooted a = true -> clean a = a -> (stat_name a = (split_path a).2 <-> forall cwd, walk cwd a <> []).
Proof.
  intros Hr Hc. rewrite <- Hc. rewrite clean_norm. pose proof (norm_ok a) as [H1 H2]. rewrite Hr in *.
  destruct (norm a) as [u ns] eqn:En. cbn [fst snd] in *. rewrite H2 in * by done.
  assert (Hw : forall cwd, walk cwd (shown true (0, ns)) = ns).
  { intros cwd. rewrite walk_norm, rooted_shown, norm_shown by (by split). done. }
  destruct (last_case ns) as [-> |(l & y & ->)].
  - split; [|intros H; by destruct (H [] (Hw []))]. vm_compute. done.
  - apply Forall_app in H1 as [H1 Hy]. inversion Hy as [|? ? Hy' _]; subst.
    assert (Es : (split_path (shown true (0, l ++ [y]))).2 = y).
    { unfold shown, show. cbn [fst snd]. destruct l as [|z l].
      - cbn [app glue]. apply (split_last []). apply Hy'.
      - rewrite glue_snoc by done. apply (split_last (47%N :: glue (z :: l))). apply Hy'. }
    split.
    + intros _ cwd. rewrite Hw. by destruct l.
    + intros _. unfold stat_name. rewrite Es. destruct y; [|done]. by destruct Hy'.
Qed.
Lemma l_C64_resolve : forall wd ex p d n x ok, head wd = Some 47%N -> resolve_file_path (Some wd) ex p = ((d, n, x), ok) ->
  (forall cwd, walk cwd (d ++ n ++ x) = walk (walk [] wd) p) /\
  clean (d ++ n ++ x) = d ++ n ++ x /\
  head d = Some 47%N /\ last d = Some 47%N /\ 47%N ∉ n ++ x /\
  (x = [] /\ 46%N ∉ n \/ exists y, x = 46%N :: y /\ 46%N ∉ y) /\
  (ok = true <-> ex (d ++ n ++ x) = true /\ walk (walk [] wd) p <> []).
Proof.
  intros wd ex p d n x ok Hw. unfold resolve_file_path.
  assert (Ea : (if is_rooted p then Some (clean p) else Some (abs_path wd p)) = Some (abs_path wd p))
    by (unfold abs_path; by destruct (is_rooted p)).
  rewrite Ea. clear Ea.
  assert (Hc : clean (abs_path wd p) = abs_path wd p).
  { unfold abs_path. destruct (is_rooted p); [apply l_C64_idempotent|]. rewrite join_two by (by intros ->). apply l_C64_idempotent. }
  assert (Hr : is_rooted (abs_path wd p) = true).
  { unfold abs_path. destruct (is_rooted p) eqn:E; [by rewrite rooted_clean|]. rewrite join_two by (by intros ->).
    rewrite rooted_clean. apply rooted_head in Hw. by destruct wd. }
  pose proof (fun cwd => walk_abs cwd wd p Hw) as Hk. pose proof (stat_root _ Hr Hc) as Hs.
  set (a := abs_path wd p) in *.
  pose proof (split_path_app a) as S1. pose proof (split_path_file a) as S2. pose proof (split_path_dir a) as S3.
  destruct (split_path a) as [d' f]. cbn [fst snd] in *.
  pose proof (split_ext_app f) as X1. pose proof (split_ext_ext f) as X2. destruct (split_ext f) as [n' x']. cbn [fst snd] in *.
  intros [= -> -> -> <-]. rewrite X1, S1.
  assert (Hd : d <> []).
  { intros ->. cbn in S1. subst f. apply rooted_head in Hr. apply S2. destruct a as [|c a']; [done|]. injection Hr as ->. by left. }
  split; [done|]. split; [done|]. split.
  { apply rooted_head in Hr. destruct d; [done|]. rewrite <- S1 in Hr. done. }
  split; [by destruct S3|]. split; [done|]. split.
  { destruct X2 as [[-> X2]|X2]; [|by right]. left. split; [done|]. rewrite app_nil_r in X1. by subst. }
  rewrite andb_true_iff, bool_decide_eq_true, Hs. split; intros [? H]; (split; [done|]).
  - rewrite <- (Hk []). apply H.
  - intros cwd. by rewrite Hk.
Qed.
Lemma l_C64_resolve_fails : forall ex p, is_rooted p = false -> resolve_file_path None ex p = (([], [], []), false).
Proof. intros ex p H. unfold resolve_file_path. by rewrite H. Qed.
