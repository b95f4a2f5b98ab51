(** Proofs for C89: the file on disk. *)
From Verif Require Import Base Storage Utf8 Tags TagSets Variants Items Index DocSpec Parser Calls Spec Hist
  BaseFacts Loader LoaderSpec ThmParser ThmDoc ThmLoader Xml XmlSpec XmlLang ThmXml ThmXmlLang.
From stdpp Require Import list.
Open Scope N_scope.

Lemma l_C89_refused_files : forall first more e s x,
  (forall w, e_tokens e w = tokenize first more w) -> fs_xml s = Some x ->
  (forall doc, ~ accepts_all first more doc (f_bytes x)) -> parse_update e s = ([], Err EOpencorpora).
Proof.
  intros fr mr e s x He Hx Hno. apply l_C49_failed_parse, l_C49_what_fails. right. right. exists x. split; [done|]. cbv zeta. rewrite He.
  destruct (tokenize fr mr (f_bytes x)) as [es []] eqn:E.
  - apply l_C89_accepts_exactly in E as (doc & _ & H). by destruct (Hno doc).
  - cbn [fst snd]. destruct ((parse _ _ _).2); [by left|by right..].
Qed.
Lemma l_C89_which_files_compile : forall first more e s x doc ix,
  (forall w, e_tokens e w = tokenize first more w) -> e_open_xml e = true -> fs_xml s = Some x ->
  accepts_all first more doc (f_bytes x) -> Forall ev_no_dot (flat_map events doc) ->
  parse_file e s = Some ix <-> forallb (valid (e_conv e) []) doc = true /\ call_acts index_new (doc_acts doc) = (ix, Done).
Proof.
  intros fr mr e s x doc ix He Ho Hx Hd Hn. unfold parse_file. rewrite Ho, Hx, He.
  rewrite (proj2 (l_C89_accepts_exactly fr mr (f_bytes x) (flat_map events doc)) (ex_intro _ doc (conj eq_refl Hd))).
  pose proof (l_C45_never_without_limit (e_conv e) index_new 0 (flat_map events doc) (Z.le_refl _)) as Hs.
  destruct (parse _ _ _) as [p o] eqn:E. cbn [snd] in Hs. split.
  - destruct o as [|[]| | |]; try done. intros [= <-]. assert (Hv := l_C43_only_known _ _ _ _ _ Hn E). split; [done|].
    exact (l_C43_same_as_calls _ _ _ _ _ _ (Z.le_refl _) Hv E).
  - intros [Hv Hc]. rewrite (l_C43_same_as_calls _ _ _ _ _ _ (Z.le_refl _) Hv E) in Hc. by injection Hc as -> ->.
Qed.
