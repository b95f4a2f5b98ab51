(** Common vocabulary of the model: Go results, fixed-width integers, byte strings.

    Conventions used by every model file:
    - Go [uint8]/[uint16]/[uint32] values (and the named types built on them) are [N]
      with the wrap-around written out ([wrap8], [wrap16], [wrap32]);
    - Go [int] values and slice lengths are unbounded ([nat], [N] or [Z]); the code
      assumes a 64-bit [int] and so do we;
    - a Go [rune] (int32) is a [Z];
    - a Go [string] or [[]byte] is the list of its bytes;
    - an error return is [Err e] where [e] is the sentinel an [errors.Is] test can
      see (the message text is not modelled); a run-time panic is [Panic]. *)
From Coq Require Export String Ascii.
From stdpp Require Export prelude gmap sorting list numbers.
Open Scope list_scope.

(** Sentinel errors: pkg/dag/name.go:21 (grammar), pkg/dag/index.go:8 and
    internal/index/item_def.go:13 (index), internal/index/constants.go:8-11,
    pkg/common/errors.go:7-15 (marshal/unmarshal), pkg/storage/errors.go:8,
    pkg/opencorpora/errors.go:7, pkg/opencorpora/parser.go:17,
    and [EIO]/[EEOF] for errors produced by the operating system or the
    binutils reader. *)
Inductive err :=
| EGrammar | EIndex | EMarshal | EUnmarshal | EStorage
| EOpencorpora | EControlledStop | EIO | EEOF | EOther.

Inductive res (A : Type) : Type :=
| Ok (a : A)
| Err (e : err)
| Panic.
Arguments Ok {A} a.
Arguments Err {A} e.
Arguments Panic {A}.

Global Instance res_ret : MRet res := fun A a => Ok a.
Global Instance res_bind : MBind res := fun A B f m =>
  match m with Ok a => f a | Err e => Err e | Panic => Panic end.

(** [if err = m; err != nil { return wrap(e) }]: replace the error, keep the rest.
    All uses in the code are [fmt.Errorf("%w: ... %v", sentinel, err)], which keeps
    only the sentinel visible to [errors.Is]. *)
Definition wrap_err {A} (e : err) (m : res A) : res A :=
  match m with Err _ => Err e | x => x end.

Definition is_ok {A} (m : res A) : bool := match m with Ok _ => true | _ => false end.
Definition is_err {A} (m : res A) : bool := match m with Err _ => true | _ => false end.
Definition is_panic {A} (m : res A) : bool := match m with Panic => true | _ => false end.

(** Go conversions to unsigned integers: truncation modulo 2^k. *)
Definition wrap8 (n : N) : N := (n mod 256)%N.
Definition wrap16 (n : N) : N := (n mod 65536)%N.
Definition wrap32 (n : N) : N := (n mod 4294967296)%N.

(** [len(x)] as an [N]. *)
Definition lenN {A} (l : list A) : N := N.of_nat (length l).

(** Slice indexing [x[i]] with the bounds check of the Go run time. *)
Definition slice_get {A} (l : list A) (i : N) : res A :=
  match l !! N.to_nat i with Some x => Ok x | None => Panic end.

(** A byte string written as a Coq string literal. *)
Definition bytes_of (s : string) : list N := map N_of_ascii (list_ascii_of_string s).

(** Go's [sort.Sort] on a slice of unsigned integers.  Any correct sorting algorithm
    gives the same result because the order on integers is total (proved in
    BaseFacts.v, [go_sort_unique]); the model uses std++'s merge sort. *)
Definition go_sort (l : list N) : list N := merge_sort N.le l.

(** The loop shared by the four [EqualTo] methods:
    pkg/storage/set8.go:41-53, pkg/storage/set16.go:41-53,
    internal/index/tagset_def.go:95-107, internal/index/variant_def.go:85-97. *)
Fixpoint eq_elems (a b : list N) : bool :=
  match a, b with
  | x :: a', y :: b' => if (x =? y)%N then eq_elems a' b' else false
  | _, _ => true
  end.
Definition equal_to (a b : list N) : bool :=
  if negb (Nat.eqb (length a) (length b)) then false else eq_elems a b.
