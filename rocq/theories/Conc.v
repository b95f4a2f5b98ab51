(** Goroutines.  A goroutine is a machine that makes one access to shared memory per step;
    a configuration is the shared memory and the goroutines; a schedule says whose step is
    next.  Memory is sequentially consistent and an operation on a Go map is one access: that
    Go gives no guarantee once there is a race (and aborts on concurrent map writes) is what
    [race] is for. *)
From Verif Require Import Base Storage Utf8 Tags TagSets Variants Items Index.
From stdpp Require Import list gmap relations.
Open Scope N_scope.

(** ** Schedules *)
Section machine.
  Context {S G : Type} (step : S -> G -> option (S * G)).
  (** Goroutine [i] makes a step. *)
  Definition sched_step (i : nat) (c : S * list G) : option (S * list G) :=
    match c.2 !! i with
    | Some g => match step c.1 g with Some (s', g') => Some (s', <[i := g']> c.2) | None => None end
    | None => None
    end.
  Definition cstep (c c' : S * list G) : Prop := exists i, sched_step i c = Some c'.
  (** Run a schedule; steps that cannot be made are left out. *)
  Fixpoint run_sched (is : list nat) (c : S * list G) : S * list G :=
    match is with
    | [] => c
    | i :: is' => run_sched is' (default c (sched_step i c))
    end.
  Lemma run_sched_rtc is : forall c, rtc cstep c (run_sched is c).
  Proof.
    induction is as [|i is IH]; intros c; [constructor|]. cbn [run_sched].
    destruct (sched_step i c) as [c'|] eqn:E; cbn; [|apply IH]. eapply rtc_l; [by exists i|apply IH].
  Qed.
End machine.

(** ** Lookups (internal/index/idx.go:357-388 [FetchFromItem], :314-321 [GetChildrenIDMap]) *)

(** Where a goroutine is: between two lookups; about to read [childrenMap[p]]; about to
    create the inner map (an assignment that does not look again); about to read the letter in
    it (the second read of [childrenMap[p]] is part of this step); [rs] is the rest of the
    word. *)
Inductive lpc := LNext | LMap (p : N) (rs : list Z) | LMake (p : N) (rs : list Z) | LLetter (p : N) (rs : list Z).
(** A goroutine: where it is, the words still to look up, the answers so far. *)
Record looker := mkLooker { l_pc : lpc; l_todo : list (list Z); l_res : list (res N) }.
Definition l_step (ix : index) (g : looker) : option (index * looker) :=
  let finish r := mkLooker LNext (l_todo g) (l_res g ++ [r]) in
  match l_pc g with
  | LNext =>
    match l_todo g with
    | [] => None
    | w :: todo =>
      Some (ix, match w with
                | [] => mkLooker LNext todo (l_res g ++ [Err EIndex])
                | _ => mkLooker (LMap 0 w) todo (l_res g)
                end)
    end
  | LMap p rs =>
    Some (ix, mkLooker (match ix_children ix !! p with Some _ => LLetter p rs | None => LMake p rs end) (l_todo g) (l_res g))
  | LMake p rs => Some (set_children ix (<[p := ∅]> (ix_children ix)), mkLooker (LLetter p rs) (l_todo g) (l_res g))
  | LLetter p [] => Some (ix, finish Panic)
  | LLetter p (r :: rest) =>
    match child (ix_children ix) p r with
    | None => Some (ix, finish (_ ← node_word ix p; Err EIndex))
    | Some n =>
      match rest with
      | [] => Some (ix, finish (index_get ix n))
      | _ => Some (ix, mkLooker (LMap n rest) (l_todo g) (l_res g))
      end
    end
  end.
Definition l_start (ws : list (list Z)) : looker := mkLooker LNext ws [].
Definition l_done (g : looker) : Prop := l_pc g = LNext /\ l_todo g = [].
(** The next access is to the map, or is a write to it. *)
Definition l_touches (g : looker) : Prop := l_pc g <> LNext.
Definition l_writes (g : looker) : Prop := exists p rs, l_pc g = LMake p rs.
Definition l_race (c : index * list looker) : Prop :=
  exists i j g g', i <> j /\ c.2 !! i = Some g /\ c.2 !! j = Some g' /\ l_writes g /\ l_touches g'.

(** ** Allocation of nodes (internal/index/items.go:74-105 [NewChild]) *)

(** The shared memory: the arrays ever allocated (one never disappears while a goroutine can
    still reach it), the slice [items.items] as the array it is in and its length, [nextID]
    and the owner of the mutex. *)
Record amem := mkMem { m_arrays : list (list item); m_arr : nat; m_len : nat; m_next : N; m_lock : option nat }.
Inductive field := FdId | FdParent | FdLetter | FdVariants.
(** Where a goroutine is: between two calls; waiting for the lock; with the lock: about to
    read [nextID] and the length, to extend the slice, to copy element [k] to the new array
    [a], to read [nextID], to write it, to unlock; then, for each field, about to read the
    slice and to write the field; at last about to read the slice and the item. *)
Inductive apc :=
  | ANext | ALock | ARead | AExtend (n : N) | ACopy (n : N) (a : nat) (k : nat) (len : nat)
  | AInc (n : N) | ASet (n m : N) | AUnlock (n : N)
  | ASlice (n : N) (f : field) | AStore (n : N) (f : field) (a : nat)
  | ALast (n : N) | AResult (n : N) (a : nat) | ACrash.
(** A goroutine: its number, where it is, the requests (parent and letter) still to make
    including the present one, the numbers obtained so far with their requests, the items
    returned so far. *)
Record alloc := mkAlloc { a_id : nat; a_pc : apc; a_todo : list (N * Z); a_got : list (N * (N * Z)); a_ret : list item }.
Definition set_field (f : field) (n : N) (rq : N * Z) (it : item) : item :=
  match f with
  | FdId => mkItem (it_parent it) n (it_letter it) (it_variants it)
  | FdParent => mkItem rq.1 (it_id it) (it_letter it) (it_variants it)
  | FdLetter => mkItem (it_parent it) (it_id it) rq.2 (it_variants it)
  | FdVariants => mkItem (it_parent it) (it_id it) (it_letter it) 0
  end.
Definition next_field (f : field) (n : N) : apc :=
  match f with FdId => ASlice n FdParent | FdParent => ASlice n FdLetter | FdLetter => ASlice n FdVariants
  | FdVariants => ALast n end.
Definition upd_array (s : amem) (a : nat) (l : list item) : amem :=
  mkMem (<[a := l]> (m_arrays s)) (m_arr s) (m_len s) (m_next s) (m_lock s).

Section alloc.
  (** The capacity of the new array when [append] has to move: any function of the old
      capacity and the length needed; at least the latter is used. *)
  Context (grow : nat -> nat -> nat).
  Definition a_step (s : amem) (g : alloc) : option (amem * alloc) :=
    let at_ pc := mkAlloc (a_id g) pc (a_todo g) (a_got g) (a_ret g) in
    let arr a := default [] (m_arrays s !! a) in
    match a_todo g with
    | [] => None
    | rq :: todo =>
      match a_pc g with
      | ANext => Some (s, at_ ALock)
      | ALock =>
        match m_lock s with
        | None => Some (mkMem (m_arrays s) (m_arr s) (m_len s) (m_next s) (Some (a_id g)), at_ ARead)
        | Some _ => None
        end
      | ARead =>
        let n := m_next s in
        Some (s, mkAlloc (a_id g) (if (N.of_nat (m_len s) <=? n) then AExtend n else AInc n) (a_todo g)
                   (a_got g ++ [(n, rq)]) (a_ret g))
      | AExtend n =>
        let cap := length (arr (m_arr s)) in
        let len := (m_len s + N.to_nat (extend_count (N.of_nat (m_len s))))%nat in
        if (len <=? cap)%nat then
          (* append in place: the new elements are set to zero values *)
          let l := arr (m_arr s) in
          let l' := take (m_len s) l ++ replicate (len - m_len s) zero_item ++ drop len l in
          Some (mkMem (<[m_arr s := l']> (m_arrays s)) (m_arr s) len (m_next s) (m_lock s), at_ (AInc n))
        else
          let new := replicate (Nat.max len (grow cap len)) zero_item in
          Some (mkMem (m_arrays s ++ [new]) (m_arr s) (m_len s) (m_next s) (m_lock s),
                at_ (ACopy n (length (m_arrays s)) 0 len))
      | ACopy n a k len =>
        if (k <? m_len s)%nat then
          match arr (m_arr s) !! k with
          | Some it => Some (upd_array s a (<[k := it]> (arr a)), at_ (ACopy n a (S k) len))
          | None => Some (s, at_ ACrash)
          end
        else Some (mkMem (m_arrays s) a len (m_next s) (m_lock s), at_ (AInc n))
      | AInc n => Some (s, at_ (ASet n (m_next s)))
      | ASet n m => Some (mkMem (m_arrays s) (m_arr s) (m_len s) (wrap32 (m + 1)) (m_lock s), at_ (AUnlock n))
      | AUnlock n => Some (mkMem (m_arrays s) (m_arr s) (m_len s) (m_next s) None, at_ (ASlice n FdId))
      | ASlice n f =>
        Some (s, at_ (if (n <? N.of_nat (m_len s)) then AStore n f (m_arr s) else ACrash))
      | AStore n f a =>
        match arr a !! N.to_nat n with
        | Some it => Some (upd_array s a (<[N.to_nat n := set_field f n rq it]> (arr a)), at_ (next_field f n))
        | None => Some (s, at_ ACrash)
        end
      | ALast n => Some (s, at_ (if (n <? N.of_nat (m_len s)) then AResult n (m_arr s) else ACrash))
      | AResult n a =>
        match arr a !! N.to_nat n with
        | Some it => Some (s, mkAlloc (a_id g) ANext todo (a_got g) (a_ret g ++ [it]))
        | None => Some (s, at_ ACrash)
        end
      | ACrash => None
      end
    end.
End alloc.
Definition a_start (rqs : list (list (N * Z))) : list alloc :=
  imap (fun i rq => mkAlloc i ANext rq [] []) rqs.
(** How many calls are to be made; the goroutine holds the lock; the storage before: the
    slice lies within its array, [nextID] is at most its length, nobody holds the lock. *)
Definition a_total (rqs : list (list (N * Z))) : nat := sum_list (map length rqs).
Definition a_cs (pc : apc) : bool :=
  match pc with ARead | AExtend _ | ACopy _ _ _ _ | AInc _ | ASet _ _ | AUnlock _ => true | _ => false end.
Definition a_good (s : amem) : Prop :=
  (m_arr s < length (m_arrays s))%nat /\ (m_len s <= length (default [] (m_arrays s !! m_arr s)))%nat /\
  m_next s <= N.of_nat (m_len s) /\ m_lock s = None.
(** The numbers obtained by all goroutines. *)
Definition a_numbers (gs : list alloc) : list N := flat_map (fun g => (a_got g).*1) gs.
(** The goroutine has finished the call for which it got a number. *)
Definition a_finished (g : alloc) (e : N * (N * Z)) : Prop :=
  e ∈ take (length (a_ret g)) (a_got g).
(** The item a call asks for. *)
Definition a_item (e : N * (N * Z)) : item := mkItem e.2.1 e.1 e.2.2 0.
(** The storage made of the items of an index, with room for [spare] more in the array; the
    items in a storage. *)
Definition mem_of (s : items) (spare : nat) : amem :=
  mkMem [its_list s ++ replicate spare zero_item] 0 (length (its_list s)) (its_next s) None.
Definition mem_items (s : amem) : items :=
  mkItems (take (m_len s) (default [] (m_arrays s !! m_arr s))) (m_next s).
(** What is now at position [n] of the slice. *)
Definition m_at (s : amem) (n : N) : option item :=
  if (n <? N.of_nat (m_len s)) then default [] (m_arrays s !! m_arr s) !! N.to_nat n else None.

(** ** Adding words (internal/index/idx.go:390-424 [AddToNode] from the root) *)

(** Where a goroutine is: between two calls; about to look at the parent; about to read
    [childrenMap[p]], to create the inner map, to read the letter in it, to call NewChild
    (here one step), to enter the new node in the map. *)
Inductive wpc := WNext | WParent (p : N) (rs : list Z) | WMap (p : N) (rs : list Z) | WMake (p : N) (rs : list Z)
  | WLetter (p : N) (rs : list Z) | WNew (p : N) (rs : list Z) | WEnter (p : N) (rs : list Z) (n : N).
Record adder := mkAdder { w_pc : wpc; w_todo : list (list Z); w_res : list (res N) }.
Definition w_step (ix : index) (g : adder) : option (index * adder) :=
  let finish r := mkAdder WNext (w_todo g) (w_res g ++ [r]) in
  let at_ pc := mkAdder pc (w_todo g) (w_res g) in
  let down n rest := match rest with [] => finish (index_get ix n) | _ => at_ (WParent n rest) end in
  match w_pc g with
  | WNext =>
    match w_todo g with
    | [] => None
    | w :: todo =>
      Some (ix, match w with
                | [] => mkAdder WNext todo (w_res g ++ [Err EIndex])
                | _ => mkAdder (WParent 0 w) todo (w_res g)
                end)
    end
  | WParent p rs =>
    Some (ix, if (p =? 0) then at_ (WMap p rs) else
              match items_get (ix_items ix) p with
              | Ok (Some _) => at_ (WMap p rs)
              | Ok None => finish (Err EIndex)
              | Err e => finish (Err e)
              | Panic => finish Panic
              end)
  | WMap p rs => Some (ix, at_ (match ix_children ix !! p with Some _ => WLetter p rs | None => WMake p rs end))
  | WMake p rs => Some (set_children ix (<[p := ∅]> (ix_children ix)), at_ (WLetter p rs))
  | WLetter p [] | WNew p [] | WEnter p [] _ => Some (ix, finish Panic)
  | WLetter p (r :: rest) =>
    Some (ix, match child (ix_children ix) p r with Some n => down n rest | None => at_ (WNew p (r :: rest)) end)
  | WNew p (r :: rest) =>
    match items_new_child (ix_items ix) p r with
    | Ok (its, it) => Some (set_items ix its, at_ (WEnter p (r :: rest) (it_id it)))
    | Err e => Some (ix, finish (Err e))
    | Panic => Some (ix, finish Panic)
    end
  | WEnter p (r :: rest) n => Some (set_children ix (set_child (ix_children ix) p r n), down n rest)
  end.
Definition w_start (ws : list (list Z)) : adder := mkAdder WNext ws [].
Definition w_done (g : adder) : Prop := w_pc g = WNext /\ w_todo g = [].
(** How many letters there are to add. *)
Definition w_total (wss : list (list (list Z))) : nat := sum_list (map (fun ws => sum_list (map length ws)) wss).
