(** Names up to case: C92.  The model is in Fold.v, the specification in FoldSpec.v; the proofs are
    in ThmFold.v. *)
From Verif Require Import Base Utf8 Spec Hist Tags Index ThmTrie Numerals Cli Browse Session AnswerSpec Xml Fold FoldSpec ThmFold.
From stdpp Require Import list gmap.
Open Scope N_scope.

(** C92.  strings.EqualFold goes through the characters of both strings in step, whatever way it
    reads them, and is symmetric.  With a name of ASCII characters it finds exactly the strings
    that are the same in small letters, where the kelvin sign is a k and the long s an s.  So a
    tag can be shown by typing a name exactly if its name is not a number and has no space, and no
    tag before it has the same name in small letters: [tag anim] shows ANim, and nothing typed but
    its number shows anim.  The check of the encoding of a document in Xml.v is this comparison
    with utf-8. *)
Theorem C92_runes : forall other s t, equal_fold other s t = true <->
  Forall2 (fun a b => same_rune other a b = true) (runes_of_string s) (runes_of_string t).
Proof. exact l_C92_runes. Qed.
Print Assumptions C92_runes.
Theorem C92_symmetric : forall other s t, equal_fold other s t = equal_fold other t s.
Proof. exact l_C92_symmetric. Qed.
Print Assumptions C92_symmetric.
Theorem C92_ascii_name : forall other name typed, ascii name ->
  equal_fold other name typed = true <-> in_small name = in_small typed.
Proof. exact l_C92_ascii_name. Qed.
Print Assumptions C92_ascii_name.
Theorem C92_by_name : forall other ix load i t, Forall (fun u => ascii (tag_name u)) (ix_tags ix) -> ix_tags ix !! i = Some t ->
  (exists typed, ~ is_number typed /\ 32 ∉ typed /\
     session (equal_fold other) ix [(load, spaced (bytes_of "tag") [typed])] = says (RTag (Z.of_nat i) t)) <->
  ~ is_number (tag_name t) /\ 32 ∉ tag_name t /\
  forall j u, (j < i)%nat -> ix_tags ix !! j = Some u -> in_small (tag_name u) <> in_small (tag_name t).
Proof. exact l_C92_by_name. Qed.
Print Assumptions C92_by_name.
Theorem C92_hidden : forall other ix load i j t u,
  ascii (tag_name t) -> ascii (tag_name u) -> (j < i)%nat -> ix_tags ix !! j = Some u -> ix_tags ix !! i = Some t ->
  in_small (tag_name u) = in_small (tag_name t) ->
  forall typed, ~ is_number typed -> 32 ∉ typed ->
  session (equal_fold other) ix [(load, spaced (bytes_of "tag") [typed])] <> says (RTag (Z.of_nat i) t).
Proof. exact l_C92_hidden. Qed.
Print Assumptions C92_hidden.
Theorem C92_every_name_refuted : forall other load, exists h ix t, runs h ix /\ ix_tags ix !! 1%nat = Some t /\ tag_name t = bytes_of "anim" /\
  forall typed, ~ is_number typed -> 32 ∉ typed ->
  session (equal_fold other) ix [(load, spaced (bytes_of "tag") [typed])] <> says (RTag 1 t).
Proof. exact l_C92_every_name_refuted. Qed.
Print Assumptions C92_every_name_refuted.
Theorem C92_encoding : forall other content,
  declaration_ok content =
    (bool_decide (proc_inst "version" content = []) || bool_decide (proc_inst "version" content = bytes_of "1.0")) &&
    (bool_decide (proc_inst "encoding" content = []) || equal_fold other (proc_inst "encoding" content) (bytes_of "utf-8")).
Proof. exact l_C92_encoding. Qed.
Print Assumptions C92_encoding.
(** A K and an s in other forms; a letter more; a string that is not well formed. *)
Example C92_case : forall other,
  map (fun s => equal_fold other (bytes_of "Kis-1") s) [bytes_of "kIS-1"; [0xE2; 0x84; 0xAA; 105; 0xC5; 0xBF; 45; 49]; bytes_of "kis-12"; bytes_of "kis"; [0xE2; 0x84; 105; 115; 45; 49]; bytes_of "kis_1"] =
    [true; true; false; false; false; false] /\
  in_small (bytes_of "Kis-1") = [107; 105; 115; 45; 49]%Z /\ in_small [0xE2; 0x84; 0xAA; 105; 0xC5; 0xBF; 45; 49] = [107; 105; 115; 45; 49]%Z /\
  ascii (bytes_of "Kis-1").
Proof. intros other. split; [vm_compute; reflexivity|]. split; [by vm_compute|]. split; [by vm_compute|]. apply (bool_decide_unpack _). by vm_compute. Qed.
(** Four tags: the second is hidden by the first, the third is found in spite of the command
    [count], the last one is a number. *)
Definition fold_tags : list op :=
  [OTagID (bytes_of "ANim") []; OTagID (bytes_of "anim") (bytes_of "ANim"); OTagID (bytes_of "count") []; OTagID (bytes_of "1") []].
Example C92_by_name_case : forall other, exists ix, runs fold_tags ix /\ Forall (fun u => ascii (tag_name u)) (ix_tags ix) /\
  map (fun l => (session (equal_fold other) ix [(Ok ix, bytes_of l)]).1)
    ["tag anim"; "tag ANIM"; "tag 1"; "tag count"; "tag Count"; "tag 3"; "tag +1"]%string =
  [[RTag 0 (mkTag (bytes_of "----") (bytes_of "ANim"))]; [RTag 0 (mkTag (bytes_of "----") (bytes_of "ANim"))];
   [RTag 1 (mkTag (bytes_of "ANim") (bytes_of "anim"))]; [RTagCount 4]; [RTag 2 (mkTag (bytes_of "----") (bytes_of "count"))];
   [RTag 3 (mkTag (bytes_of "----") (bytes_of "1"))]; [RTag 1 (mkTag (bytes_of "ANim") (bytes_of "anim"))]].
Proof.
  intros other. apply run_case. vm_compute. split; [|reflexivity]. repeat constructor.
Qed.
Example C92_encoding_case :
  map (fun s => declaration_ok (bytes_of s)) ["version=""1.0"" encoding=""UTF-8"""; "version='1.0' encoding='Utf-8'"; "encoding=""utf8"""]%string = [true; true; false].
Proof. by vm_compute. Qed.
