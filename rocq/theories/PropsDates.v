(** The date of the Last-Modified header: C73.  The proofs are in ThmDates.v. *)
From Verif Require Import Base Loader DateSpec Dates ThmDates.
From stdpp Require Import list.
Open Scope N_scope.

(** C73.  The update check compares the right instants.  [seconds] counts one second per second of
    the calendar from the first of January 1970 (next_second, epoch) and puts dates in their order;
    the parser accepts exactly the texts of [written] and returns that number; the form every HTTP
    server must send is always accepted and the check is "archive older than that date".  The two
    older forms which RFC 7231 wants a client to accept are always refused, and then the archive is
    fetched on every run.  The day of the week is not compared with the date. *)
Theorem C73_next_second : forall c, valid c -> c <> mkCivil 9999 12 31 23 59 59 ->
  valid (next_second c) /\ seconds (next_second c) = (seconds c + 1)%Z.
Proof. exact l_C73_next_second. Qed.
Print Assumptions C73_next_second.
Theorem C73_epoch : seconds epoch = 0%Z.
Proof. exact l_C73_epoch. Qed.
Print Assumptions C73_epoch.
Theorem C73_order : forall a b, valid a -> valid b ->
  ((seconds a < seconds b)%Z <-> before a b) /\ (seconds a = seconds b -> a = b).
Proof. exact l_C73_order. Qed.
Print Assumptions C73_order.
Theorem C73_exact : forall zone s t, Forall (fun b => b < 256) s ->
  parse_rfc1123 zone s = Some t <->
  exists c fr z, written s c fr z /\
    t = ((seconds c - if bool_decide (z = bytes_of "UTC") then 0 else zone z (seconds c)) * 1000000000 + Z.of_N (nanos fr))%Z.
Proof. exact l_C73_exact. Qed.
Print Assumptions C73_exact.
Theorem C73_fixdate : forall zone c, valid c -> (forall t, zone (bytes_of "GMT") t = 0%Z) ->
  parse_rfc1123 zone (imf c) = Some (seconds c * 1000000000)%Z.
Proof. exact l_C73_fixdate. Qed.
Print Assumptions C73_fixdate.
Theorem C73_check : forall zone c more mtime, valid c -> (forall t, zone (bytes_of "GMT") t = 0%Z) ->
  is_update_required (SFile mtime) (HResp 200 (last_modified zone (Some (imf c :: more)))) = Ok (mtime <? seconds c * 1000000000)%Z.
Proof. exact l_C73_check. Qed.
Print Assumptions C73_check.
Theorem C73_old_formats : forall zone c, valid c ->
  parse_rfc1123 zone (rfc850 c) = None /\ parse_rfc1123 zone (asctime c) = None.
Proof. exact l_C73_old_formats. Qed.
Print Assumptions C73_old_formats.
Theorem C73_old_formats_download : forall zone c v more mtime, valid c -> v = rfc850 c \/ v = asctime c ->
  is_update_required (SFile mtime) (HResp 200 (last_modified zone (Some (v :: more)))) = Ok true.
Proof. exact l_C73_old_formats_download. Qed.
Print Assumptions C73_old_formats_download.
Definition no_zone (_ : list N) (_ : Z) : Z := 0%Z.
Definition ex_date : civil := mkCivil 1994 11 6 8 49 37.
Example C73_case :
  imf ex_date = bytes_of "Sun, 06 Nov 1994 08:49:37 GMT" /\
  rfc850 ex_date = bytes_of "Sunday, 06-Nov-94 08:49:37 GMT" /\
  asctime ex_date = bytes_of "Sun Nov  6 08:49:37 1994" /\
  seconds ex_date = 784111777%Z /\
  parse_rfc1123 no_zone (imf ex_date) = Some 784111777000000000%Z.
Proof. vm_compute. done. Qed.
(** Around the end of a February. *)
Example C73_leap_case :
  next_second (mkCivil 2000 2 28 23 59 59) = mkCivil 2000 2 29 0 0 0 /\
  next_second (mkCivil 1900 2 28 23 59 59) = mkCivil 1900 3 1 0 0 0 /\
  parse_rfc1123 no_zone (bytes_of "Tue, 29 Feb 2000 00:00:00 GMT") = Some 951782400000000000%Z /\
  parse_rfc1123 no_zone (bytes_of "Thu, 29 Feb 1900 00:00:00 GMT") = None.
Proof. vm_compute. done. Qed.
(** Some texts that are accepted or refused beside the form of RFC 7231. *)
Example C73_other_texts_case :
  parse_rfc1123 no_zone (bytes_of "sUN,   06 nov 1994 8:49:37,5 +05") = Some 784111777500000000%Z /\
  parse_rfc1123 no_zone (bytes_of "Sun, 6 Nov 1994 08:49:37 GMT") = None /\
  parse_rfc1123 no_zone (bytes_of "Sun, 06 Nov 1994 08:49:60 GMT") = None /\
  parse_rfc1123 no_zone (bytes_of "Sun, 06 Nov 1994 08:49:37 gmt") = None /\
  parse_rfc1123 no_zone (bytes_of "Sun, 06 Nov 1994 08:49:37 GMT ") = None.
Proof. vm_compute. done. Qed.
(** A day of the week that is wrong is accepted. *)
Theorem C73_weekday_refuted :
  weekday ex_date = 0 /\
  parse_rfc1123 no_zone (bytes_of "Mon, 06 Nov 1994 08:49:37 GMT") = parse_rfc1123 no_zone (imf ex_date).
Proof. vm_compute. done. Qed.
Print Assumptions C73_weekday_refuted.
(** An archive a nanosecond older than the date is fetched; one of the same instant is not. *)
Example C73_check_case :
  is_update_required (SFile 784111776999999999) (HResp 200 (last_modified no_zone (Some [imf ex_date]))) = Ok true /\
  is_update_required (SFile 784111777000000000) (HResp 200 (last_modified no_zone (Some [imf ex_date]))) = Ok false /\
  is_update_required (SFile 999999999000000000) (HResp 200 (last_modified no_zone (Some [asctime ex_date]))) = Ok true.
Proof. vm_compute. done. Qed.
