(** Model of the paths of the data files: pkg/common/utils.go, pkg/opencorpora/loader.go:29-70 and
    pkg/dag/utils.go, with the functions of the Go packages path and path/filepath they use
    (Clean, Join, Split, Ext, Abs; Unix, where both packages do the same).  A path is a list of
    bytes; 47 is '/', 46 is '.'. *)
From Verif Require Import Base.
From stdpp Require Import list.

(** path.Clean.  The output buffer [out] is kept in reverse, [dd] is [dotdot].  The inner loop that
    copies a component is the state [copying]. *)
Fixpoint back (dd : nat) (out : list N) : list N :=
  match out with
  | [] => []
  | c :: out' => if (length out' <=? dd)%nat || (c =? 47)%N then out' else back dd out'
  end.
Definition at_end (s : list N) : bool := match s with [] => true | c :: _ => (c =? 47)%N end.
Definition separate (rooted : bool) (out : list N) : list N :=
  if (length out =? if rooted then 1 else 0)%nat then out else 47%N :: out.
Fixpoint clean_loop (rooted copying : bool) (s out : list N) (dd : nat) : list N :=
  match s with
  | [] => out
  | c :: s' =>
    if (c =? 47)%N then clean_loop rooted false s' out dd
    else if copying then clean_loop rooted true s' (c :: out) dd
    else if (c =? 46)%N && at_end s' then clean_loop rooted false s' out dd
    else match s' with
    | c2 :: s'' =>
      if (c =? 46)%N && (c2 =? 46)%N && at_end s'' then
        if (dd <? length out)%nat then clean_loop rooted false s'' (back dd out) dd
        else if negb rooted then
          let out' := 46%N :: 46%N :: (if (0 <? length out)%nat then 47%N :: out else out) in
          clean_loop rooted false s'' out' (length out')
        else clean_loop rooted false s'' out dd
      else clean_loop rooted true s' (c :: separate rooted out) dd
    | [] => clean_loop rooted true s' (c :: separate rooted out) dd
    end
  end.
Definition is_rooted (p : list N) : bool := match p with c :: _ => (c =? 47)%N | [] => false end.
Definition clean (p : list N) : list N :=
  match p with
  | [] => [46%N]
  | _ =>
    let out := if is_rooted p then clean_loop true false (tail p) [47%N] 1 else clean_loop false false p [] 0 in
    match out with [] => [46%N] | _ => rev out end
  end.

(** path.Join. *)
Fixpoint join_buf (buf : list N) (es : list (list N)) : list N :=
  match es with
  | [] => buf
  | e :: es' =>
    join_buf (match buf, e with
              | [], [] => []
              | [], _ => e
              | _, _ => buf ++ 47%N :: e
              end) es'
  end.
Definition join (es : list (list N)) : list N :=
  if (length (concat es) =? 0)%nat then [] else clean (join_buf [] es).

(** pkg/common/utils.go:13-19. *)
Definition get_data_path : list N := bytes_of ".data".
Definition domain_data_path (domain : list N) : list N := join [get_data_path; domain].
(** pkg/common/utils.go:34-36. *)
Definition domain_file_path (domain file : list N) : list N := join [domain_data_path domain; file].
(** pkg/opencorpora/const.go:4-8. *)
Definition domain_name : list N := bytes_of "opencorpora".
Definition source_filename : list N := bytes_of "dict.xml.bz2".
Definition unpacked_filename : list N := bytes_of "dict.xml".
Definition compiled_filename : list N := bytes_of "opencorpora.dat".
(** pkg/opencorpora/loader.go:29-38 and :44-50: the field dataPath after NewLoader and SetDataPath. *)
Definition loader_data_path (p : list N) : list N :=
  match p with [] => domain_data_path domain_name | _ => p end.
(** :40-42 [DataPath], :52-54 [filePath], for the field. *)
Definition data_path (p : list N) : list N := join [p].
Definition file_path (p name : list N) : list N := join [data_path p; name].

(** filepath.Abs with the working directory. *)
Definition abs_path (wd p : list N) : list N := if is_rooted p then clean p else join [wd; p].
(** pkg/common/utils.go:21-32: the directory made, with those on the way. *)
Definition made_directory (wd domain : list N) : list N := abs_path wd (domain_data_path domain).
(** filepath.Split: after the last separator. *)
Fixpoint split_path (p : list N) : list N * list N :=
  match p with
  | [] => ([], [])
  | c :: p' =>
    let '(d, f) := split_path p' in
    match d with
    | [] => if (c =? 47)%N then ([c], f) else ([], c :: f)
    | _ => (c :: d, f)
    end
  end.
(** filepath.Ext of a name without separator: from the last dot on. *)
Fixpoint split_ext (f : list N) : list N * list N :=
  match f with
  | [] => ([], [])
  | c :: f' =>
    let '(n, x) := split_ext f' in
    match x with
    | [] => if (c =? 46)%N then ([], c :: f') else (c :: n, [])
    | _ => (c :: n, x)
    end
  end.
(** os.FileInfo.Name of an absolute clean path: its last element, "/" for the root. *)
Definition stat_name (p : list N) : list N := match (split_path p).2 with [] => [47%N] | f => f end.
(** pkg/dag/utils.go:14-40; [wd]: the working directory, [None] if it cannot be found out; [exists]:
    os.Stat works. *)
Definition resolve_file_path (wd : option (list N)) (exists_ : list N -> bool) (p : list N)
  : (list N * list N * list N) * bool :=
  match (if is_rooted p then Some (clean p) else match wd with Some w => Some (abs_path w p) | None => None end) with
  | None => (([], [], []), false)
  | Some a =>
    let '(dir, f) := split_path a in
    let '(name, ext) := split_ext f in
    ((dir, name, ext), exists_ a && bool_decide (stat_name a = f))
  end.
