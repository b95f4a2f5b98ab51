(** Model of the [io.WriterTo]/[io.ReaderFrom] methods of the sets:
    pkg/storage/set8.go:58-107, pkg/storage/set16.go:58-107 and
    internal/index/tagset_def.go:109-146.  Unlike the index file format (TagSets.v) these
    methods also report the number of bytes transferred, so the model keeps what the
    destination received and what is left of the source also when they fail. *)
From Verif Require Import Base Storage Bin.
Open Scope N_scope.

(** A destination: the bytes it has received and the number of bytes it still accepts
    before it fails.  A write that does not fit delivers the part that fits. *)
Record sink := mkSink { sk_got : list N; sk_room : N }.
Definition sink_put (s : sink) (bs : list N) : sink * bool :=
  if (lenN bs <=? sk_room s)
  then (mkSink (sk_got s ++ bs) (sk_room s - lenN bs), true)
  else (mkSink (sk_got s ++ take (N.to_nat (sk_room s)) bs) 0, false).

(** What a [WriteTo] call does: the reported count, the error, the destination. *)
Record wr := mkWr { wr_count : N; wr_err : option err; wr_sink : sink }.

(** The loop over the items, pkg/storage/set8.go:68-74 and pkg/storage/set16.go:68-74:
    [put] is [WriteUint8]/[WriteUint16] and [size] is [Uint8size]/[Uint16size].  The error
    keeps only the I/O error visible ([%v ... %w]). *)
Fixpoint write_items (put : N -> list N) (size : N) (l : list N) (written : N) (s : sink) : wr :=
  match l with
  | [] => mkWr written None s
  | x :: l' =>
    match sink_put s (put x) with
    | (s', true) => write_items put size l' (written + size) s'
    | (s', false) => mkWr written (Some EIO) s'
    end
  end.
(** pkg/storage/set8.go:58-77, pkg/storage/set16.go:58-77: the length first, where a
    failure reports 0 and the error of the set type. *)
Definition set_write_to (put : N -> list N) (size : N) (l : list N) (s : sink) : wr :=
  match sink_put s (put (lenN l)) with
  | (s', true) => write_items put size l size s'
  | (s', false) => mkWr 0 (Some EStorage) s'
  end.
Definition set8_write_to := set_write_to put_u8 1.
Definition set16_write_to := set_write_to put_u16 2.
(** internal/index/tagset_def.go:112-116: [BinaryWriteTo] (:58-70) and the number of bytes
    the binutils writer says it has written, taken to be the bytes the destination got
    (each write is a single byte, so none is partial).  All failures carry the index
    error. *)
Definition tagset_write_to (l : list N) (s : sink) : wr :=
  let w := set8_write_to l s in
  mkWr (lenN (sk_got (wr_sink w)) - lenN (sk_got s))
       (match wr_err w with Some _ => Some EIndex | None => None end) (wr_sink w).

(** What a [ReadFrom] call does: the reported count, the receiver ([None]: not assigned),
    the error and the unread input. *)
Record rd := mkRd { rd_count : N; rd_set : option (list N); rd_err : option err; rd_rest : list N }.

(** [ReadUint8] and [ReadUint16] on a source that ends: a short read takes what there is. *)
Definition src_u8 (bs : list N) : option N * list N :=
  match get_u8 bs with Ok (x, rest) => (Some x, rest) | _ => (None, []) end.
Definition src_u16 (bs : list N) : option N * list N :=
  match get_u16 bs with Ok (x, rest) => (Some x, rest) | _ => (None, []) end.

(** The loop pkg/storage/set8.go:97-104, pkg/storage/set16.go:97-104: [n] items to go,
    the receiver was made with its final length, so what was not read is zero. *)
Fixpoint read_items (src : list N -> option N * list N) (size : N) (n : nat)
    (taken : N) (acc : list N) (bs : list N) : rd :=
  match n with
  | O => mkRd taken (Some acc) None bs
  | S n' =>
    match src bs with
    | (Some x, rest) => read_items src size n' (taken + size) (acc ++ [x]) rest
    | (None, rest) => mkRd taken (Some (acc ++ replicate n 0)) (Some EEOF) rest
    end
  end.
(** pkg/storage/set8.go:82-107, pkg/storage/set16.go:82-107. *)
Definition set_read_from (src : list N -> option N * list N) (size : N) (bs : list N) : rd :=
  match src bs with
  | (Some n, rest) => read_items src size (N.to_nat n) size [] rest
  | (None, rest) => mkRd 0 None (Some EEOF) rest
  end.
Definition set8_read_from := set_read_from src_u8 1.
Definition set16_read_from := set_read_from src_u16 2.
(** internal/index/tagset_def.go:121-146, the same code as [Set8.ReadFrom]. *)
Definition tagset_read_from := set_read_from src_u8 1.

(** Vocabulary of the statements: the documented layout, length then items. *)
Definition set8_layout (l : list N) : list N := lenN l :: l.
Definition be16 (x : N) : list N := [x / 256; x mod 256].
Definition set16_layout (l : list N) : list N := be16 (lenN l) ++ flat_map be16 l.
