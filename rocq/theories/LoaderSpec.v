(** What the statements about Update say. *)
From Verif Require Import Base Index DocSpec Parser Loader.
From stdpp Require Import list.

(** ** Is an update required *)
(** The remote file is reported to be newer than the local one, or its date is unreadable. *)
Definition newer (st : stat) (m : lastmod) : Prop :=
  match m, st with
  | LBad, _ => True
  | LTime t, SFile mt => (mt < t)%Z
  | _, _ => False
  end.

(** ** The decision table of Update *)
(** The stages to go through; [None]: the failure of the check is reported. *)
Definition plan (check : res bool) (force has_xml has_bz : bool) : option (list stage) :=
  match check with
  | Ok true => Some [StDownload; StUnpack; StCompile]
  | Ok false => Some (if force then [StCompile] else [])
  | _ =>
    if force && has_xml then Some [StCompile]
    else if force && has_bz then Some [StUnpack; StCompile]
    else None
  end.
(** One stage: its changes, and whether to go on. *)
Definition stage_run (e : env) (s : fs) (st : stage) : list upd * res bool :=
  match st with
  | StDownload => download_update e s
  | StUnpack => let '(us, r) := unpack_update e s in (us, _ ← r; Ok true)
  | StCompile => let '(us, r) := parse_update e s in (us, _ ← r; Ok true)
  end.
(** Go through the stages until one fails or says to stop. *)
Fixpoint run_stages (e : env) (s : fs) (p : list stage) : ures :=
  match p with
  | [] => mkU [] [] (Ok tt)
  | st :: p' =>
    match stage_run e s st with
    | (us, Ok true) =>
      let u := run_stages e (after s us) p' in mkU (st :: u_stages u) (us ++ u_upds u) (u_res u)
    | (us, Ok false) => mkU [st] us (Ok tt)
    | (us, Err x) => mkU [st] us (Err x)
    | (us, Panic) => mkU [st] us Panic
    end
  end.

(** ** Crashes *)
(** The files after a crash at some point of a list of changes. *)
Definition crash (s : fs) (us : list upd) (s' : fs) : Prop := exists k, s' = after s (take k us).

(** A state of the data directory in which Update does nothing useful: the archive is not
    older than the remote one, and there is no file that can be parsed. *)
Definition up_to_date (e : env) (s : fs) : Prop :=
  e_stat1 e = false /\ exists x m, fs_bz s = Some x /\ e_head1 e = HResp 200 m /\ ~ newer (SFile (f_mtime x)) m.
Definition stuck (e : env) (s : fs) : Prop := up_to_date e s /\ parse_file e s = None.

(** Nothing goes wrong outside: every operation works, the server is there. *)
Record all_works (e : env) : Prop := {
  w_stat1 : e_stat1 e = false; w_stat2 : e_stat2 e = false;
  w_mkdir1 : e_mkdir1 e = true; w_mkdir2 : e_mkdir2 e = true;
  w_get : exists body, e_get e = Some (200%N, body, true);
  w_create_bz : e_create_bz e = true; w_room_bz : e_room_bz e = None;
  w_open_bz : e_open_bz e = true;
  w_create_xml : e_create_xml e = true; w_room_xml : e_room_xml e = None;
  w_open_xml : e_open_xml e = true;
  w_create_dat : e_create_dat e = true; w_room_dat : e_room_dat e = None;
  w_flush : e_flush e = None; w_remove : e_remove e = true }.
