(** Model of pkg/opencorpora/loader.go.  The outside world (clock, file system failures,
    the HTTP server, bzip2, the XML tokenizer) is an arbitrary environment.  Every function
    gives the list of elementary changes of the files, so that a crash between any two of
    them can be considered; data is written byte by byte.  Not modelled: logging, other
    processes changing the files, and a panic inside a library. *)
From Verif Require Import Base Bin Tags Items Index DocSpec Parser.
From stdpp Require Import list.

(** ** Files *)

(** The three files in the data directory: dict.xml.bz2, dict.xml, opencorpora.dat
    (pkg/opencorpora/const.go:6-8, loader.go:55-70). *)
Inductive fname := FBz | FXml | FDat.
Record file := mkFile { f_bytes : list N; f_mtime : Z }.
(** [fs_ddir]: the default data directory exists; [fs_cdir]: the directory given to NewLoader
    exists, if that is another one. *)
Record fs := mkFs { fs_bz : option file; fs_xml : option file; fs_dat : option file;
                    fs_ddir : bool; fs_cdir : bool }.
Definition fget (s : fs) (f : fname) : option file :=
  match f with FBz => fs_bz s | FXml => fs_xml s | FDat => fs_dat s end.
Definition fset (s : fs) (f : fname) (v : option file) : fs :=
  match f with
  | FBz => mkFs v (fs_xml s) (fs_dat s) (fs_ddir s) (fs_cdir s)
  | FXml => mkFs (fs_bz s) v (fs_dat s) (fs_ddir s) (fs_cdir s)
  | FDat => mkFs (fs_bz s) (fs_xml s) v (fs_ddir s) (fs_cdir s)
  end.
(** An elementary change: make the default directory, create or truncate a file, append a
    byte, remove a file. *)
Inductive upd := UMkdir | UCreate (f : fname) (t : Z) | UByte (f : fname) (t : Z) (b : N) | URemove (f : fname).
Definition after1 (s : fs) (u : upd) : fs :=
  match u with
  | UMkdir => mkFs (fs_bz s) (fs_xml s) (fs_dat s) true (fs_cdir s)
  | UCreate f t => fset s f (Some (mkFile [] t))
  | UByte f t b =>
    match fget s f with
    | Some x => fset s f (Some (mkFile (f_bytes x ++ [b]) t))
    | None => s
    end
  | URemove f => fset s f None
  end.
Definition after (s : fs) (us : list upd) : fs := fold_left after1 us s.

(** ** The environment of one call of Update *)

(** Answer to an HTTP HEAD request: failure, or status and Last-Modified header. *)
Inductive lastmod := LMissing | LBad | LTime (t : Z).
Inductive head_res := HFail | HResp (status : N) (m : lastmod).
Record env := mkEnv {
  e_custom : bool;                        (* the loader has its own data directory *)
  e_now : Z;                              (* the time stamp given to written files *)
  e_stat1 : bool; e_head1 : head_res;     (* first IsUpdateRequired: stat fails with an odd error *)
  e_stat_bz : bool; e_stat_xml : bool;    (* IsDownloadExists, IsUnpackedExists: stat fails *)
  e_stat2 : bool; e_head2 : head_res;     (* IsUpdateRequired inside DownloadUpdate *)
  e_mkdir1 : bool; e_mkdir2 : bool;       (* MakeDomainDataPath works *)
  e_get : option (N * list N * bool);     (* GET response: status, body, and whether it ends without error *)
  e_create_bz : bool; e_room_bz : option nat;   (* creation works; bytes until writing fails *)
  e_open_bz : bool;
  e_unbz : list N -> list N * bool;       (* compress/bzip2: output, and whether it ends without error *)
  e_create_xml : bool; e_room_xml : option nat;
  e_open_xml : bool;
  e_tokens : list N -> list ev * bool;    (* encoding/xml: tokens, and whether it ends without error *)
  e_conv : conv;
  e_create_dat : bool; e_room_dat : option nat;
  e_flush : option nat;                   (* closing fails: only so many bytes are kept *)
  e_remove : bool }.                      (* removing the incomplete file works *)

(** os.Stat. *)
Inductive stat := SAbsent | SFail | SFile (mtime : Z).
Definition stat_of (s : fs) (f : fname) (fails : bool) : stat :=
  if fails then SFail else match fget s f with None => SAbsent | Some x => SFile (f_mtime x) end.
(** io.Copy to a file with limited room: the changes, and whether all was written. *)
Definition copy (f : fname) (t : Z) (bs : list N) (room : option nat) : list upd * bool :=
  match room with
  | Some k => if (length bs <=? k)%nat then (map (UByte f t) bs, true) else (map (UByte f t) (take k bs), false)
  | None => (map (UByte f t) bs, true)
  end.

(** ** The functions *)

(** Whether the directory of the files exists. *)
Definition dir_ok (e : env) (s : fs) : bool := if e_custom e then fs_cdir s else fs_ddir s.

(** :72-94 and :97-119. *)
Definition file_exists (s : fs) (f : fname) (fails : bool) : bool :=
  match stat_of s f fails with SFile _ => true | _ => false end.

(** IsUpdateRequired :121-159; [fileStat] is nil when the stat failed. *)
Definition is_update_required (st : stat) (h : head_res) : res bool :=
  match st with
  | SAbsent => Ok true
  | _ =>
    match h with
    | HFail => Err EIO
    | HResp status m =>
      if (status =? 200)%N then
        match m with
        | LMissing => Ok false
        | LBad => Ok true
        | LTime t =>
          match st with
          | SFile mt => Ok (mt <? t)%Z
          | _ => Panic
          end
        end
      else Err EOther
    end
  end.

(** DownloadUpdate :161-204.  The status of the response is not looked at, and the directory
    made is the default one (pkg/common/utils.go:21-32). *)
Definition download_update (e : env) (s : fs) : list upd * res bool :=
  match is_update_required (stat_of s FBz (e_stat2 e)) (e_head2 e) with
  | Err x => ([], Err x)
  | Panic => ([], Panic)
  | Ok false => ([], Ok false)
  | Ok true =>
    if negb (e_mkdir1 e) then ([], Err EIO) else
    match e_get e with
    | None => ([UMkdir], Err EIO)
    | Some (_, body, ends) =>
      if negb (e_create_bz e && dir_ok e (after1 s UMkdir)) then ([UMkdir], Err EIO) else
      let '(us, ok) := copy FBz (e_now e) body (e_room_bz e) in
      (UMkdir :: UCreate FBz (e_now e) :: us, if ok && ends then Ok true else Err EIO)
    end
  end.

(** UnpackUpdate :206-236. *)
Definition unpack_update (e : env) (s : fs) : list upd * res unit :=
  if negb (e_mkdir2 e) then ([], Err EIO) else
  match (if e_open_bz e then fs_bz s else None) with
  | None => ([UMkdir], Err EIO)
  | Some src =>
    if negb (e_create_xml e && dir_ok e (after1 s UMkdir)) then ([UMkdir], Err EIO) else
    let '(out, ends) := e_unbz e (f_bytes src) in
    let '(us, ok) := copy FXml (e_now e) out (e_room_xml e) in
    (UMkdir :: UCreate FXml (e_now e) :: us, if ok && ends then Ok tt else Err EIO)
  end.

(** LoadIndex :238-270. *)
Definition load_index (s : fs) : res index :=
  match fs_dat s with
  | None => Err EOpencorpora
  | Some x =>
    match index_read index_new (f_bytes x) with
    | Ok (ix, _) => Ok ix
    | Err _ => Err EOpencorpora
    | Panic => Panic
    end
  end.

(** SaveIndex :272-307.  After a write error the incomplete file is removed; the error of Close
    is only looked at when there is another one, so bytes lost in it go unnoticed.  A panic
    in Optimize or while writing passes through the deferred function with [err] nil; the
    bytes written before it are left out here (reachable indexes do not panic). *)
Definition save_index (e : env) (s : fs) (ix : index) : list upd * res unit :=
  if negb (e_create_dat e && dir_ok e s) then ([], Err EOpencorpora) else
  let created := UCreate FDat (e_now e) in
  match optimize ix with
  | Ok ix1 =>
    match index_write ix1 with
    | Ok (bs, werr) =>
      let kept := match e_flush e with Some k => take k bs | None => bs end in
      let '(us, ok) := copy FDat (e_now e) kept (e_room_dat e) in
      if ok && match werr with None => true | Some _ => false end then (created :: us, Ok tt)
      else (created :: us ++ (if e_remove e then [URemove FDat] else []), Err EOpencorpora)
    | _ => ([created], Panic)
    end
  | _ => ([created], Panic)
  end.

(** libxml.ParseXMLFile with the parser, then :322-327: [None] if the parse did not end in
    success or a controlled stop. *)
Definition parse_file (e : env) (s : fs) : option index :=
  match (if e_open_xml e then fs_xml s else None) with
  | None => None
  | Some x =>
    let '(es, ends) := e_tokens e (f_bytes x) in
    match parse (e_conv e) (parser_new index_new 0) es with
    | (p, Done) => if ends then Some (p_ix p) else None
    | (p, Fail EControlledStop) => Some (p_ix p)
    | _ => None
    end
  end.
(** ParseUpdate :309-328; a panic becomes an error.  Every failure has the code [EOpencorpora]
    here; which errors errors.Is would find in it is in Errors.v. *)
Definition parse_update (e : env) (s : fs) : list upd * res unit :=
  match parse_file e s with
  | None => ([], Err EOpencorpora)
  | Some ix => let '(us, r) := save_index e s ix in (us, match r with Panic => Err EOpencorpora | _ => r end)
  end.

(** Update :330-393: the stages entered, the changes and the result. *)
Inductive stage := StDownload | StUnpack | StCompile.
Record ures := mkU { u_stages : list stage; u_upds : list upd; u_res : res unit }.
Definition do_compile (e : env) (s : fs) : ures :=
  let '(us, r) := parse_update e s in mkU [StCompile] us r.
Definition do_unpack (e : env) (s : fs) : ures :=
  match unpack_update e s with
  | (us, Ok _) => let u := do_compile e (after s us) in mkU (StUnpack :: u_stages u) (us ++ u_upds u) (u_res u)
  | (us, Err x) => mkU [StUnpack] us (Err x)
  | (us, Panic) => mkU [StUnpack] us Panic
  end.
Definition do_download (e : env) (s : fs) : ures :=
  match download_update e s with
  | (us, Ok true) => let u := do_unpack e (after s us) in mkU (StDownload :: u_stages u) (us ++ u_upds u) (u_res u)
  | (us, Ok false) => mkU [StDownload] us (Ok tt)
  | (us, Err x) => mkU [StDownload] us (Err x)
  | (us, Panic) => mkU [StDownload] us Panic
  end.
Definition update (e : env) (s : fs) (force : bool) : ures :=
  match is_update_required (stat_of s FBz (e_stat1 e)) (e_head1 e) with
  | Panic => mkU [] [] Panic
  | Err x =>
    if force && file_exists s FXml (e_stat_xml e) then do_compile e s
    else if force && file_exists s FBz (e_stat_bz e) then do_unpack e s
    else mkU [] [] (Err x)
  | Ok false => if force then do_compile e s else mkU [] [] (Ok tt)
  | Ok true => do_download e s
  end.
