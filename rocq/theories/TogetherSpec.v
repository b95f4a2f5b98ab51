(** Specification of C91: updaters that meet the same server, with nothing going wrong. *)
From Verif Require Import Base Index DocSpec Parser Loader LoaderSpec Together.
From stdpp Require Import list.

(** The server sends [body], which unpacks to [out], which compiles to [bs]; requests are answered. *)
Record same_world (body out bs : list N) (u : updater) : Prop := {
  sw_works : all_works (q_env u);
  sw_default : e_custom (q_env u) = false;
  sw_get : e_get (q_env u) = Some (200%N, body, true);
  sw_head1 : exists m, e_head1 (q_env u) = HResp 200 m;
  sw_head2 : exists m, e_head2 (q_env u) = HResp 200 m;
  sw_unbz : e_unbz (q_env u) body = (out, true);
  sw_compile : exists es p ix, e_tokens (q_env u) out = (es, true) /\ parse (e_conv (q_env u)) (parser_new index_new 0) es = (p, Done) /\
    optimize (p_ix p) = Ok ix /\ index_write ix = Ok (bs, None);
  sw_unforced : q_force u = false;
  sw_begins : q_at u = AtCheck }.
Definition content (f : option file) : option (list N) := option_map f_bytes f.
Definition ended (u : updater) : Prop := exists r, q_at u = AtEnd r.
Definition times (i : nat) (order : list nat) : nat := length (filter (fun j => j = i) order).
