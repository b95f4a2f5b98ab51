(** Model of the part of github.com/amarin/binutils v0.6.0 the code uses.  The library
    itself is not in the repository: this is the contract the repository's own tests
    fix (big-endian fixed-width integers, see internal/index/tagset_index_test.go:68-78,
    pkg/storage/set16_test.go, pkg/dag/idx_test.go:20-31) plus its documented
    behaviour of strings terminated by a zero byte.  It is part of the trusted base. *)
From Verif Require Import Base Storage.
Open Scope N_scope.

(** ** Writing: a writer is the list of bytes it produces. *)

(** [WriteUint8(uint8(n))]. *)
Definition put_u8 (n : N) : list N := [wrap8 n].
(** [WriteUint16(uint16(n))], big endian. *)
Definition put_u16 (n : N) : list N := [wrap8 (n / 256); wrap8 n].
(** [WriteUint32(uint32(n))], big endian. *)
Definition put_u32 (n : N) : list N :=
  [wrap8 (n / 16777216); wrap8 (n / 65536); wrap8 (n / 256); wrap8 n].
(** [WriteRune(r)]: the rune as [uint32] (the reader side, item_def.go:38-41, reads it
    back with [ReadUint32]). *)
Definition rune_to_u32 (r : Z) : N := Z.to_N (r mod 4294967296).
Definition put_rune (r : Z) : list N := put_u32 (rune_to_u32 r).
(** [rune(readUint32)]: two's complement conversion to int32. *)
Definition rune_of_u32 (n : N) : Z :=
  if (n <? 2147483648) then Z.of_N n else (Z.of_N n - 4294967296)%Z.
(** [WriteStringZ(s)]: the bytes of the string and a zero byte. *)
Definition put_stringz (s : list N) : list N := s ++ [0].

(** ** Reading: a reader consumes a prefix of the remaining input. *)
Definition reader (A : Type) : Type := list N -> res (A * list N).

Global Instance reader_ret : MRet reader := fun A a bs => Ok (a, bs).
Global Instance reader_bind : MBind reader := fun A B f r bs =>
  match r bs with Ok (a, rest) => f a rest | Err e => Err e | Panic => Panic end.

Definition rfail {A} (e : err) : reader A := fun _ => Err e.
(** a computation that consumes no input. *)
Definition rlift {A} (m : res A) : reader A := fun bs =>
  match m with Ok a => Ok (a, bs) | Err e => Err e | Panic => Panic end.
(** error replacement in a reader, see [wrap_err]. *)
Definition rwrap {A} (e : err) (r : reader A) : reader A := fun bs => wrap_err e (r bs).

(** [ReadUint8]; end of input is an error. *)
Definition get_u8 : reader N := fun bs =>
  match bs with b :: rest => Ok (b, rest) | [] => Err EEOF end.
(** [ReadUint16], big endian; a short read is an error. *)
Definition get_u16 : reader N := a ← get_u8; b ← get_u8; mret (a * 256 + b).
(** [ReadUint32], big endian; a short read is an error. *)
Definition get_u32 : reader N :=
  a ← get_u8; b ← get_u8; c ← get_u8; d ← get_u8;
  mret (a * 16777216 + b * 65536 + c * 256 + d).
(** [ReadStringZ]: bytes up to a zero byte, which is consumed; end of input before the
    zero byte is an error. *)
Fixpoint get_stringz (bs : list N) : res (list N * list N) :=
  match bs with
  | [] => Err EEOF
  | b :: rest =>
    if (b =? 0) then Ok ([], rest) else
    match get_stringz rest with
    | Ok (s, rest') => Ok (b :: s, rest')
    | Err e => Err e
    | Panic => Panic
    end
  end.

(** The loops [for idx := 0; idx < n; idx++ { read element }].  [n] comes from the input
    and can be as large as 2^32, so the recursion is on explicit fuel; [read_many]
    supplies one more than the number of remaining bytes.  Every element reader in the
    code consumes at least one byte, so running out of fuel means the input is exhausted
    and the real loop fails with the same end-of-input error (lemma [read_fuel_enough]
    in BinFacts.v shows the fuel never changes a result). *)
Fixpoint read_fuel {A} (fuel : nat) (r : reader A) (n : N) (bs : list N)
  : res (list A * list N) :=
  if (n =? 0) then Ok ([], bs) else
  match fuel with
  | O => Err EEOF
  | S fuel' =>
    match r bs with
    | Err e => Err e
    | Panic => Panic
    | Ok (x, rest) =>
      match read_fuel fuel' r (n - 1) rest with
      | Err e => Err e
      | Panic => Panic
      | Ok (xs, rest') => Ok (x :: xs, rest')
      end
    end
  end.
Definition read_many {A} (r : reader A) (n : N) : reader (list A) :=
  fun bs => read_fuel (S (length bs)) r n bs.

(** [ReadBytesCount(n)] for the constant n = 4 used by the code: 4 bytes or an error. *)
Definition get_bytes4 : reader (list N) :=
  a ← get_u8; b ← get_u8; c ← get_u8; d ← get_u8; mret [a; b; c; d].

(** ** Writers that can fail half way: bytes already written and the error, if any. *)
Definition wres : Type := list N * option err.
Definition wok (bs : list N) : wres := (bs, None).
(** [if err = a; err != nil { return err }; return b] *)
Definition wthen (a b : wres) : wres :=
  match a with
  | (x, None) => (x ++ b.1, b.2)
  | (x, Some e) => (x, Some e)
  end.
(** [for _, x := range l { if err = f(x); err != nil { return err } }] *)
Definition wall {A} (f : A -> wres) (l : list A) : wres :=
  foldr (fun x acc => wthen (f x) acc) (wok []) l.
(** error replacement, see [wrap_err]. *)
Definition wwrap (e : err) (w : wres) : wres :=
  match w with (x, Some _) => (x, Some e) | w => w end.
