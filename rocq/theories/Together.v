(** Several calls of Update (pkg/opencorpora/loader.go:330-393) on one data directory at once, by
    different processes.  A step is the first check (:331-361) or a whole stage: DownloadUpdate,
    UnpackUpdate, ParseUpdate; between its steps a process forgets nothing but where it is, and
    looks at the files again.  Simplification: the stages of different processes do not overlap;
    what happens to a file when they do is in Overlap.v and Unlink.v. *)
From Verif Require Import Base Index Parser Loader.
From stdpp Require Import list.

Inductive pc := AtCheck | AtDownload | AtUnpack | AtCompile | AtEnd (r : res unit).
Record updater := mkUpdater { q_env : env; q_force : bool; q_at : pc }.

(** :331-361: where Update goes after the first check. *)
Definition decide_next (e : env) (force : bool) (s : fs) : pc :=
  match is_update_required (stat_of s FBz (e_stat1 e)) (e_head1 e) with
  | Panic => AtEnd Panic
  | Err x =>
    if force && file_exists s FXml (e_stat_xml e) then AtCompile
    else if force && file_exists s FBz (e_stat_bz e) then AtUnpack
    else AtEnd (Err x)
  | Ok false => if force then AtCompile else AtEnd (Ok tt)
  | Ok true => AtDownload
  end.
Definition advance (s : fs) (u : updater) : fs * updater :=
  let e := q_env u in
  let go s' p := (s', mkUpdater e (q_force u) p) in
  match q_at u with
  | AtCheck => go s (decide_next e (q_force u) s)
  | AtDownload =>
    let '(us, r) := download_update e s in
    go (after s us) (match r with Ok true => AtUnpack | Ok false => AtEnd (Ok tt) | Err x => AtEnd (Err x) | Panic => AtEnd Panic end)
  | AtUnpack =>
    let '(us, r) := unpack_update e s in
    go (after s us) (match r with Ok _ => AtCompile | Err x => AtEnd (Err x) | Panic => AtEnd Panic end)
  | AtCompile => let '(us, r) := parse_update e s in go (after s us) (AtEnd r)
  | AtEnd _ => (s, u)
  end.
(** The process with a number takes a step; a number without process is nothing. *)
Definition step_of (x : fs * list updater) (i : nat) : fs * list updater :=
  match x.2 !! i with
  | Some u => let '(s, u') := advance x.1 u in (s, <[i := u']> x.2)
  | None => x
  end.
Definition together (order : list nat) (x : fs * list updater) : fs * list updater := fold_left step_of order x.
