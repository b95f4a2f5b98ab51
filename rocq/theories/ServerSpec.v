(** A server that publishes new versions of the archive, and a machine that calls Update again and
    again.  Times are nanoseconds on the server's clock. *)
From Verif Require Import Base Index DocSpec Parser Loader LoaderSpec DateSpec Dates.
From stdpp Require Import list.
Open Scope Z_scope.

Definition second : Z := 1000000000.
(** A version: when it was published, the second of that in the calendar, and the archive. *)
Record pub := mkPub { p_time : Z; p_date : civil; p_body : list N }.
Definition dated (p : pub) : Prop := valid (p_date p) /\ seconds (p_date p) = p_time p / second.
(** All versions there will ever be, in order. *)
Definition history (ps : list pub) : Prop :=
  Forall dated ps /\ StronglySorted (fun a b => p_time a < p_time b) ps.
(** The version a request gets at a time. *)
Definition current (ps : list pub) (t : Z) : option pub := last (filter (fun p => p_time p <= t) ps).

(** A call of Update: the moments of the two HEAD requests, of the GET request and of the last
    write to the archive; the environment is what the call meets. *)
Record visit := mkVisit { v_env : env; v_force : bool; v_head1 : Z; v_head2 : Z; v_get : Z; v_written : Z }.
(** The server tells the date of the current version with the precision HTTP has. *)
Definition head_at (zone : list N -> Z -> Z) (ps : list pub) (t : Z) : head_res :=
  match current ps t with
  | Some p => HResp 200 (last_modified zone (Some [imf (p_date p)]))
  | None => HResp 404 LMissing
  end.
(** Everything works; the local clock is at most [skew] away from the server's.  What bzip2, the
    XML tokenizer and the number parsers do is the same in all calls. *)
Record tools := mkTools { k_unbz : list N -> list N * bool; k_tokens : list N -> list ev * bool; k_conv : conv }.
Record honest (k : tools) (zone : list N -> Z -> Z) (ps : list pub) (skew : Z) (v : visit) : Prop := {
  h_works : all_works (v_env v);
  h_default : e_custom (v_env v) = false;
  h_times : v_head1 v <= v_head2 v /\ v_head2 v <= v_get v /\ v_get v <= v_written v;
  h_head1 : e_head1 (v_env v) = head_at zone ps (v_head1 v);
  h_head2 : e_head2 (v_env v) = head_at zone ps (v_head2 v);
  h_get : exists p, current ps (v_get v) = Some p /\ e_get (v_env v) = Some (200%N, p_body p, true);
  h_now : v_written v - skew <= e_now (v_env v) <= v_written v + skew;
  h_tools : e_unbz (v_env v) = k_unbz k /\ e_tokens (v_env v) = k_tokens k /\ e_conv (v_env v) = k_conv k }.
(** The calls are made one after the other. *)
Definition in_turn (vs : list visit) : Prop := StronglySorted (fun a b => v_written a <= v_head1 b) vs.

(** What an archive unpacks to, and the compiled file made of it. *)
Definition compiles (k : tools) (body out bs : list N) : Prop :=
  k_unbz k body = (out, true) /\ exists es p ix, k_tokens k out = (es, true) /\
  parse (k_conv k) (parser_new index_new 0) es = (p, Done) /\ optimize (p_ix p) = Ok ix /\ index_write ix = Ok (bs, None).

Definition go (s : fs) (v : visit) : fs := after s (u_upds (update (v_env v) s (v_force v))).
(** The calls that fetch the archive. *)
Fixpoint fetched (s : fs) (vs : list visit) : list visit :=
  match vs with
  | [] => []
  | v :: vs' => (if existsb (fun st => match st with StDownload => true | _ => false end) (u_stages (update (v_env v) s (v_force v))) then [v] else []) ++ fetched (go s v) vs'
  end.
(** No file yet. *)
Definition empty_dir (made : bool) : fs := mkFs None None None made false.
