(** Model of the updater program, cmd/opencorpora_update/main.go, with the part of the Go
    package flag it uses (FlagSet.parseOne and Parse with ExitOnError, Go 1.15 and later; all
    three flags are boolean).  [os.Args] is taken to hold the program name.  What is printed is
    not modelled; os.Exit is the exit code, and a panic is exit code 2, as the runtime does. *)
From Verif Require Import Base Index Parser Loader.
From stdpp Require Import list.
Open Scope N_scope.

(** The values of the flags; main.go:18-32: their defaults. *)
Record switches := mkSw { sw_f : bool; sw_d : bool; sw_h : bool }.
Definition sw_default : switches := mkSw true false false.
(** The flags defined, main.go:18-32, and assigning one. *)
Definition sw_set (sw : switches) (name : list N) (v : bool) : option switches :=
  if bool_decide (name = bytes_of "f") then Some (mkSw v (sw_d sw) (sw_h sw))
  else if bool_decide (name = bytes_of "d") then Some (mkSw (sw_f sw) v (sw_h sw))
  else if bool_decide (name = bytes_of "h") then Some (mkSw (sw_f sw) (sw_d sw) v)
  else None.

(** strconv.ParseBool. *)
Definition parse_bool (s : list N) : option bool :=
  if bool_decide (s ∈ map bytes_of ["1"; "t"; "T"; "true"; "TRUE"; "True"]%string) then Some true
  else if bool_decide (s ∈ map bytes_of ["0"; "f"; "F"; "false"; "FALSE"; "False"]%string) then Some false
  else None.

(** The loop of parseOne that looks for '=' from the second character on: name and value. *)
Fixpoint split_eq (s : list N) : list N * option (list N) :=
  match s with
  | [] => ([], None)
  | c :: s' => if c =? 61 then ([], Some s') else let '(n, v) := split_eq s' in (c :: n, v)
  end.
Definition name_value (s : list N) : list N * option (list N) :=
  match s with
  | [] => ([], None)
  | c :: s' => let '(n, v) := split_eq s' in (c :: n, v)
  end.

(** flag.(FlagSet).parseOne, after the dashes. *)
Inductive one := OSeen (sw : switches) (rest : list (list N)) | OEnd (rest : list (list N)) | OHelp | OBad.
Definition parse_named (sw : switches) (name : list N) (rest : list (list N)) : one :=
  match name with
  | [] => OBad
  | x :: _ =>
    if (x =? 45) || (x =? 61) then OBad else
    let '(n, v) := name_value name in
    match sw_set sw n true with
    | None => if bool_decide (n = bytes_of "help") || bool_decide (n = bytes_of "h") then OHelp else OBad
    | Some _ =>
      match (match v with Some v => parse_bool v | None => Some true end) with
      | None => OBad
      | Some b => match sw_set sw n b with Some sw' => OSeen sw' rest | None => OBad end
      end
    end
  end.
(** flag.(FlagSet).parseOne. *)
Definition parse_one (sw : switches) (args : list (list N)) : one :=
  match args with
  | [] => OEnd []
  | s :: rest =>
    match s with
    | m :: c :: s' =>
      if negb (m =? 45) then OEnd args
      else if c =? 45 then (if bool_decide (s' = []) then OEnd rest else parse_named sw s' rest)
      else parse_named sw (c :: s') rest
    | _ => OEnd args
    end
  end.
(** flag.(FlagSet).Parse: going on, or an exit code.  Every turn of the loop takes one
    argument, so [length args] turns are enough. *)
Inductive parsed := PGo (sw : switches) (rest : list (list N)) | PExit (code : N).
Fixpoint parse_loop (fuel : nat) (sw : switches) (args : list (list N)) : parsed :=
  match parse_one sw args with
  | OEnd rest => PGo sw rest
  | OHelp => PExit 0
  | OBad => PExit 2
  | OSeen sw' rest => match fuel with O => PExit 2 | S fuel' => parse_loop fuel' sw' rest end
  end.
Definition parse_flags (args : list (list N)) : parsed := parse_loop (length args) sw_default args.

(** main.go:17-58.  [log_ok debug]: logging.Init works. *)
Definition update_main (log_ok : bool -> bool) (e : env) (s : fs) (args : list (list N)) : list upd * N :=
  match parse_flags args with
  | PExit c => ([], c)
  | PGo sw _ =>
    if sw_h sw then ([], 0)
    else if negb (log_ok (sw_d sw)) then ([], 1)
    else let u := update e s (sw_f sw) in
         (u_upds u, match u_res u with Ok _ => 0 | Err _ => 1 | Panic => 2 end)
  end.
