(** Specification of the stages of Update as rules: from the environment and the files before,
    the files after and the result.  No list of changes is mentioned. *)
From Verif Require Import Base Bin Index Parser Loader LoaderSpec.
From stdpp Require Import list.

(** A medium with room for so many bytes ([None]: enough), and what is kept of more. *)
Definition has_room (room : option nat) (bs : list N) : Prop := match room with Some k => (length bs <= k)%nat | None => True end.
Definition kept (room : option nat) (bs : list N) : list N := match room with Some k => take k bs | None => bs end.
(** The default directory is there. *)
Definition made (s : fs) : fs := mkFs (fs_bz s) (fs_xml s) (fs_dat s) true (fs_cdir s).
Definition with_bz (s : fs) (f : option file) : fs := mkFs f (fs_xml s) (fs_dat s) (fs_ddir s) (fs_cdir s).
Definition with_xml (s : fs) (f : option file) : fs := mkFs (fs_bz s) f (fs_dat s) (fs_ddir s) (fs_cdir s).
Definition with_dat (s : fs) (f : option file) : fs := mkFs (fs_bz s) (fs_xml s) f (fs_ddir s) (fs_cdir s).
(** The directory of the three files is there. *)
Definition has_dir (e : env) (s : fs) : Prop := if e_custom e then fs_cdir s = true else fs_ddir s = true.

Inductive downloads (e : env) (s : fs) : fs -> res bool -> Prop :=
| down_check_fails x : is_update_required (stat_of s FBz (e_stat2 e)) (e_head2 e) = Err x -> downloads e s s (Err x)
| down_check_panics : is_update_required (stat_of s FBz (e_stat2 e)) (e_head2 e) = Panic -> downloads e s s Panic
| down_not_needed : is_update_required (stat_of s FBz (e_stat2 e)) (e_head2 e) = Ok false -> downloads e s s (Ok false)
| down_no_directory : is_update_required (stat_of s FBz (e_stat2 e)) (e_head2 e) = Ok true ->
    e_mkdir1 e = false -> downloads e s s (Err EIO)
| down_no_answer : is_update_required (stat_of s FBz (e_stat2 e)) (e_head2 e) = Ok true ->
    e_mkdir1 e = true -> e_get e = None -> downloads e s (made s) (Err EIO)
| down_no_file a : is_update_required (stat_of s FBz (e_stat2 e)) (e_head2 e) = Ok true ->
    e_mkdir1 e = true -> e_get e = Some a -> e_create_bz e = false \/ ~ has_dir e (made s) -> downloads e s (made s) (Err EIO)
| down_breaks status body ends : is_update_required (stat_of s FBz (e_stat2 e)) (e_head2 e) = Ok true ->
    e_mkdir1 e = true -> e_get e = Some (status, body, ends) -> e_create_bz e = true -> has_dir e (made s) ->
    ends = false \/ ~ has_room (e_room_bz e) body ->
    downloads e s (with_bz (made s) (Some (mkFile (kept (e_room_bz e) body) (e_now e)))) (Err EIO)
| down_done status body : is_update_required (stat_of s FBz (e_stat2 e)) (e_head2 e) = Ok true ->
    e_mkdir1 e = true -> e_get e = Some (status, body, true) -> e_create_bz e = true -> has_dir e (made s) ->
    has_room (e_room_bz e) body ->
    downloads e s (with_bz (made s) (Some (mkFile body (e_now e)))) (Ok true).

Inductive unpacks (e : env) (s : fs) : fs -> res unit -> Prop :=
| unp_no_directory : e_mkdir2 e = false -> unpacks e s s (Err EIO)
| unp_no_archive : e_mkdir2 e = true -> e_open_bz e = false \/ fs_bz s = None -> unpacks e s (made s) (Err EIO)
| unp_no_file x : e_mkdir2 e = true -> e_open_bz e = true -> fs_bz s = Some x ->
    e_create_xml e = false \/ ~ has_dir e (made s) -> unpacks e s (made s) (Err EIO)
| unp_breaks x out ends : e_mkdir2 e = true -> e_open_bz e = true -> fs_bz s = Some x ->
    e_create_xml e = true -> has_dir e (made s) -> e_unbz e (f_bytes x) = (out, ends) ->
    ends = false \/ ~ has_room (e_room_xml e) out ->
    unpacks e s (with_xml (made s) (Some (mkFile (kept (e_room_xml e) out) (e_now e)))) (Err EIO)
| unp_done x out : e_mkdir2 e = true -> e_open_bz e = true -> fs_bz s = Some x ->
    e_create_xml e = true -> has_dir e (made s) -> e_unbz e (f_bytes x) = (out, true) -> has_room (e_room_xml e) out ->
    unpacks e s (with_xml (made s) (Some (mkFile out (e_now e)))) (Ok tt).

(** [e_flush]: bytes lost when the file is closed, which is not noticed. *)
Inductive compiles (e : env) (s : fs) : fs -> res unit -> Prop :=
| com_no_index : parse_file e s = None -> compiles e s s (Err EOpencorpora)
| com_no_file ix : parse_file e s = Some ix -> e_create_dat e = false \/ ~ has_dir e s -> compiles e s s (Err EOpencorpora)
| com_panics ix : parse_file e s = Some ix -> e_create_dat e = true -> has_dir e s ->
    (forall ix1 bs w, optimize ix = Ok ix1 -> index_write ix1 <> Ok (bs, w)) ->
    compiles e s (with_dat s (Some (mkFile [] (e_now e)))) (Err EOpencorpora)
| com_breaks ix ix1 bs w : parse_file e s = Some ix -> e_create_dat e = true -> has_dir e s ->
    optimize ix = Ok ix1 -> index_write ix1 = Ok (bs, w) -> w <> None \/ ~ has_room (e_room_dat e) (kept (e_flush e) bs) ->
    compiles e s (with_dat s (if e_remove e then None else Some (mkFile (kept (e_room_dat e) (kept (e_flush e) bs)) (e_now e)))) (Err EOpencorpora)
| com_done ix ix1 bs : parse_file e s = Some ix -> e_create_dat e = true -> has_dir e s ->
    optimize ix = Ok ix1 -> index_write ix1 = Ok (bs, None) -> has_room (e_room_dat e) (kept (e_flush e) bs) ->
    compiles e s (with_dat s (Some (mkFile (kept (e_flush e) bs) (e_now e)))) (Ok tt).

(** Unpack and, if that worked, compile. *)
Inductive unpack_on (e : env) (s : fs) : fs -> res unit -> Prop :=
| on_unpacked s1 s2 r : unpacks e s s1 (Ok tt) -> compiles e s1 s2 r -> unpack_on e s s2 r
| on_not_unpacked s1 x : unpacks e s s1 (Err x) -> unpack_on e s s1 (Err x).
Inductive updates (e : env) (s : fs) (force : bool) : fs -> res unit -> Prop :=
| upd_check_panics : is_update_required (stat_of s FBz (e_stat1 e)) (e_head1 e) = Panic -> updates e s force s Panic
| upd_nothing : is_update_required (stat_of s FBz (e_stat1 e)) (e_head1 e) = Ok false -> force = false -> updates e s force s (Ok tt)
| upd_recompile s1 r : is_update_required (stat_of s FBz (e_stat1 e)) (e_head1 e) = Ok false -> force = true ->
    compiles e s s1 r -> updates e s force s1 r
| upd_check_fails x : is_update_required (stat_of s FBz (e_stat1 e)) (e_head1 e) = Err x ->
    force = false \/ (fs_xml s = None \/ e_stat_xml e = true) /\ (fs_bz s = None \/ e_stat_bz e = true) -> updates e s force s (Err x)
| upd_offline_xml x f s1 r : is_update_required (stat_of s FBz (e_stat1 e)) (e_head1 e) = Err x -> force = true ->
    fs_xml s = Some f -> e_stat_xml e = false -> compiles e s s1 r -> updates e s force s1 r
| upd_offline_bz x f s1 r : is_update_required (stat_of s FBz (e_stat1 e)) (e_head1 e) = Err x -> force = true ->
    fs_xml s = None \/ e_stat_xml e = true -> fs_bz s = Some f -> e_stat_bz e = false -> unpack_on e s s1 r -> updates e s force s1 r
| upd_download s1 s2 r : is_update_required (stat_of s FBz (e_stat1 e)) (e_head1 e) = Ok true ->
    downloads e s s1 (Ok true) -> unpack_on e s1 s2 r -> updates e s force s2 r
| upd_meanwhile s1 : is_update_required (stat_of s FBz (e_stat1 e)) (e_head1 e) = Ok true ->
    downloads e s s1 (Ok false) -> updates e s force s1 (Ok tt)
| upd_not_downloaded s1 x : is_update_required (stat_of s FBz (e_stat1 e)) (e_head1 e) = Ok true ->
    downloads e s s1 (Err x) -> updates e s force s1 (Err x)
| upd_download_panics s1 : is_update_required (stat_of s FBz (e_stat1 e)) (e_head1 e) = Ok true ->
    downloads e s s1 Panic -> updates e s force s1 Panic.

(** What a list of changes and a result come to. *)
Definition outcome {A} (s : fs) (p : list upd * res A) : fs * res A := (after s p.1, p.2).
(** The compiled file is that of the unpacked one. *)
Definition compiled (e : env) (s : fs) : Prop :=
  exists ix ix1 bs, parse_file e s = Some ix /\ optimize ix = Ok ix1 /\ index_write ix1 = Ok (bs, None) /\
    fs_dat s = Some (mkFile (kept (e_flush e) bs) (e_now e)).
