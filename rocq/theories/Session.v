(** Model of a session with the index browser, cmd/opencorpora_test/main.go: splitting a line,
    choosing the command, its arguments, and the loop over the lines.  Logging is not modelled; the layout
    of the output is in Screen.v: here a reply is what is shown.  Messages about a wrong line or
    something not found are one reply, [RMessage]. *)
From Verif Require Import Base Storage Utf8 Tags TagSets Variants Items Index Cli Strconv.
From stdpp Require Import list gmap.
Open Scope N_scope.

Inductive reply :=
| RMessage
| RTagCount (n : N)
| RTag (id : Z) (t : tag)
| RTables (sizes : list N)
| RTable (id : Z) (sets : list (list N))
| RSet (id : Z) (names : list (option (list N)))
| RVar (id : N) (sets : list (option (list (option (list N)))))
| RNodeCount (n : N)
| RNode (i : node_info)
| RFound (sets : list (list tag))
| RReloaded.

(** What a line does: the browser goes on with a reply, ends with an exit code or panics. *)
Inductive turn :=
| Reply (ix : index) (r : reply)
| Exit (code : N)
| Crash.

Definition reply_res {A} (ix : index) (f : A -> reply) (r : res A) : turn :=
  match r with Ok a => Reply ix (f a) | Err _ => Reply ix RMessage | Panic => Crash end.

(** :21-34 the commands. *)
Definition is_cmd (long short : string) (s : list N) : bool :=
  bool_decide (s = bytes_of long) || bool_decide (s = bytes_of short).

Section browser.
  (** strings.EqualFold; its tables are not modelled. *)
  Context (equal_fold : list N -> list N -> bool).

  (** :89-94 the first tag with that name up to case. *)
  Fixpoint find_tag (ts : list tag) (arg : list N) (i : Z) : option (Z * tag) :=
    match ts with
    | [] => None
    | t :: ts' => if equal_fold (tag_name t) arg then Some (i, t) else find_tag ts' arg (i + 1)%Z
    end.
  (** :67-105 [processTag]. *)
  Definition process_tag (ix : index) (items : list (list N)) : turn :=
    match items with
    | [_; arg] =>
      if bool_decide (arg = bytes_of "count") then Reply ix (RTagCount (lenN (ix_tags ix))) else
      match atoi arg with
      | None =>
        match find_tag (ix_tags ix) arg 0%Z with
        | Some (i, t) => Reply ix (RTag i t)
        | None => Reply ix RMessage
        end
      | Some n => reply_res ix (RTag n) (cmd_tag ix n)
      end
    | _ => Reply ix RMessage
    end.
  (** :107-182 [processSet]. *)
  Definition process_set (ix : index) (items : list (list N)) : turn :=
    match items with
    | _ :: sub :: rest =>
      if bool_decide (sub = bytes_of "tables") then Reply ix (RTables (map lenN (ix_sets ix))) else
      if bool_decide (sub = bytes_of "table") then
        match rest with
        | [arg] =>
          match atoi arg with
          | None => Reply ix RMessage
          | Some n => reply_res ix (RTable n) (cmd_table ix n)
          end
        | _ => Reply ix RMessage
        end
      else
        match parse_int0 sub with
        | None => Reply ix RMessage
        | Some n => reply_res ix (RSet n) (cmd_set ix n)
        end
    | _ => Reply ix RMessage
    end.
  (** :184-231 [processVar]. *)
  Definition process_var (ix : index) (items : list (list N)) : turn :=
    match items with
    | _ :: sub :: _ =>
      match parse_u32 sub with
      | None => Reply ix RMessage
      | Some n => reply_res ix (RVar n) (cmd_var ix n)
      end
    | _ => Reply ix RMessage
    end.
  (** :233-331 [processNode]. *)
  Definition process_node (ix : index) (items : list (list N)) : turn :=
    match items with
    | _ :: sub :: rest =>
      if bool_decide (sub = bytes_of "count") then Reply ix (RNodeCount (nodes_count ix)) else
      match rest with
      | [] =>
        let '(ix1, r) :=
          match atoi sub with
          | None => cmd_node_word ix (runes_of_string sub)
          | Some n => cmd_node ix n
          end in
        reply_res ix1 RNode r
      | _ => Reply ix RMessage
      end
    | _ => Reply ix RMessage
    end.
  (** :333-342 [processReload]; [load] is what [LoadIndex] gives at that moment. *)
  Definition process_reload (load : res index) : turn :=
    match load with
    | Ok ix => Reply ix RReloaded
    | Err _ => Exit 1
    | Panic => Crash
    end.
  (** :344-372 [processInput]. *)
  Definition process_input (load : res index) (ix : index) (line : list N) : turn :=
    let items := split_space line in
    let cmd := hd [] items in
    if is_cmd "tag" "t" cmd then process_tag ix items
    else if is_cmd "set" "s" cmd then process_set ix items
    else if is_cmd "node" "n" cmd then process_node ix items
    else if is_cmd "var" "v" cmd then process_var ix items
    else if is_cmd "reload" "r" cmd then process_reload load
    else if is_cmd "exit" "e" cmd then Exit 0
    else let '(ix1, r) := cmd_search ix line in reply_res ix1 RFound r.

  (** :409-418 the loop of [main]: [None] is a panic, [Some c] the exit code; at the end of
      the input it is 0.  A line comes with what [LoadIndex] would give at that moment. *)
  Fixpoint session (ix : index) (lines : list (res index * list N)) : list reply * option N :=
    match lines with
    | [] => ([], Some 0)
    | (load, l) :: lines' =>
      match process_input load ix l with
      | Reply ix' r => let '(rs, e) := session ix' lines' in (r :: rs, e)
      | Exit c => ([], Some c)
      | Crash => ([], None)
      end
    end.
  (** :374-418 [main] after the set-up of logging and of the line editor, which are taken to
      succeed. *)
  Definition browser_main (load : res index) (lines : list (res index * list N)) : list reply * option N :=
    match load with
    | Ok ix => session ix lines
    | Err _ => ([], Some 1)
    | Panic => ([], None)
    end.
End browser.
