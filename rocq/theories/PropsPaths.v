(** Paths of the data files: C64.  The proofs are in ThmPaths.v; PathSpec.v says where a path
    leads. *)
From Verif Require Import Base Paths PathSpec ThmPaths.
From stdpp Require Import list.

(** C64.  Cleaning a path never changes where it leads, from whatever directory, and two paths are
    cleaned to the same one exactly when they lead to the same place from every directory; it is the
    shortest of them.  The three files of a loader lie directly in its data directory, whatever
    string was given for it, and are three different files.  The directory made before a download is
    the one of the loader with no path of its own.  ResolveFilePath takes the cleaned absolute path
    apart, and reports no error exactly when it exists and is not the root. *)
Theorem C64_same_place : forall cwd p, walk cwd (clean p) = walk cwd p.
Proof. exact l_C64_same_place. Qed.
Print Assumptions C64_same_place.
Theorem C64_unique : forall p q, clean p = clean q <-> (forall cwd, Forall entry cwd -> walk cwd p = walk cwd q).
Proof. exact l_C64_unique. Qed.
Print Assumptions C64_unique.
Theorem C64_idempotent : forall p, clean (clean p) = clean p.
Proof. exact l_C64_idempotent. Qed.
Print Assumptions C64_idempotent.
Theorem C64_shortest : forall p q, q <> [] -> (forall cwd, Forall entry cwd -> walk cwd p = walk cwd q) ->
  length (clean p) <= length q.
Proof. exact l_C64_shortest. Qed.
Print Assumptions C64_shortest.
Theorem C64_files : forall cwd p name, entry name ->
  walk cwd (file_path (loader_data_path p) name) = walk cwd (loader_data_path p) ++ [name].
Proof. exact l_C64_files. Qed.
Print Assumptions C64_files.
Theorem C64_three_files : forall cwd p,
  let at_ name := walk cwd (file_path (loader_data_path p) name) in
  let dir := walk cwd (loader_data_path p) in
  at_ source_filename = dir ++ [source_filename] /\ at_ unpacked_filename = dir ++ [unpacked_filename] /\
  at_ compiled_filename = dir ++ [compiled_filename] /\
  NoDup [at_ source_filename; at_ unpacked_filename; at_ compiled_filename].
Proof. exact l_C64_three_files. Qed.
Print Assumptions C64_three_files.
Theorem C64_made : forall cwd wd, head wd = Some 47%N ->
  walk cwd (made_directory wd domain_name) = walk [] wd ++ [bytes_of ".data"; bytes_of "opencorpora"] /\
  walk (walk [] wd) (loader_data_path []) = walk cwd (made_directory wd domain_name).
Proof. exact l_C64_made. Qed.
Print Assumptions C64_made.
Theorem C64_resolve : forall wd ex p d n x ok, head wd = Some 47%N -> resolve_file_path (Some wd) ex p = ((d, n, x), ok) ->
  (forall cwd, walk cwd (d ++ n ++ x) = walk (walk [] wd) p) /\
  clean (d ++ n ++ x) = d ++ n ++ x /\
  head d = Some 47%N /\ last d = Some 47%N /\ 47%N ∉ n ++ x /\
  (x = [] /\ 46%N ∉ n \/ exists y, x = 46%N :: y /\ 46%N ∉ y) /\
  (ok = true <-> ex (d ++ n ++ x) = true /\ walk (walk [] wd) p <> []).
Proof. exact l_C64_resolve. Qed.
Print Assumptions C64_resolve.
Theorem C64_resolve_fails : forall ex p, is_rooted p = false -> resolve_file_path None ex p = (([], [], []), false).
Proof. exact l_C64_resolve_fails. Qed.
Print Assumptions C64_resolve_fails.
Definition ex_path (s : string) : list N := bytes_of s.
Definition ex_dir (l : list string) : list (list N) := map bytes_of l.
Example C64_case :
  clean (ex_path "/a//./b/../../../c/") = ex_path "/c" /\ clean (ex_path "a/../../b/..") = ex_path ".." /\
  clean (ex_path "a/..") = ex_path "." /\ clean (ex_path "...//.x") = ex_path ".../.x" /\
  walk (ex_dir ["h"; "u"]%string) (ex_path "a/../../b/..") = ex_dir ["h"]%string /\
  walk (ex_dir ["h"; "u"]%string) (ex_path "..") = ex_dir ["h"]%string.
Proof. vm_compute. repeat split. Qed.
Example C64_case_files :
  file_path (loader_data_path []) compiled_filename = ex_path ".data/opencorpora/opencorpora.dat" /\
  file_path (loader_data_path (ex_path "..//x/")) source_filename = ex_path "../x/dict.xml.bz2" /\
  file_path (loader_data_path (ex_path "/")) unpacked_filename = ex_path "/dict.xml" /\
  made_directory (ex_path "/h/u") domain_name = ex_path "/h/u/.data/opencorpora".
Proof. vm_compute. repeat split. Qed.
Example C64_case_resolve :
  resolve_file_path (Some (ex_path "/h/u")) (fun _ => true) (ex_path "../a.b.c") = ((ex_path "/h/", ex_path "a.b", ex_path ".c"), true) /\
  resolve_file_path (Some (ex_path "/h/u")) (fun _ => true) (ex_path ".rc/") = ((ex_path "/h/u/", [], ex_path ".rc"), true) /\
  resolve_file_path (Some (ex_path "/h/u")) (fun _ => true) (ex_path "../..") = ((ex_path "/", [], []), false).
Proof. vm_compute. repeat split. Qed.
(** The directory that is made is not the one of a loader with a path of its own. *)
Example C64_made_is_the_loaders_refuted : ~ (forall wd p, head wd = Some 47%N ->
  walk (walk [] wd) (loader_data_path p) = walk [] (made_directory wd domain_name)).
Proof.
  intros H. specialize (H (ex_path "/h") (ex_path "x") eq_refl). vm_compute in H. discriminate H.
Qed.
