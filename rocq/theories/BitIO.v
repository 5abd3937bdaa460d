(** Model of internal/bitio: bit level reader and writer. *)
From Verif Require Import Base.
Local Open Scope monad_scope.

(** ** Byte stream with a position: an [io.ReadSeeker] over the constant
    contents [data].  Simplification: only the final position matters, the
    stream never fails except at end of data. *)

(** Reader state: position of the underlying stream, last octet, number of bits
    of it not yet delivered.  internal/bitio/read.go:21-25, 75-78 *)
Record rst := mkrst { r_pos : N; r_octet : byte; r_width : N }.

(** NewReadSeeker: internal/bitio/read.go:80-85 *)
Definition new_reader (pos : N) : rst := mkrst pos bzero 0.

(** ReadBit: internal/bitio/read.go:59-73 *)
Definition read_bit (data : list byte) : M rst bool := fun s =>
  if r_width s =? 0 then
    match nthN (r_pos s) data with
    | None => (Err EEOF, s)
    | Some b => (Ok (nth 0 (bits_of_byte b) false), mkrst (r_pos s + 1) b 7)
    end
  else
    let w := r_width s - 1 in
    (Ok (nth (N.to_nat (7 - w)) (bits_of_byte (r_octet s)) false),
     mkrst (r_pos s) (r_octet s) w).

(** The left padding of ReadBits: the first byte holds the odd bits.
    internal/bitio/read.go:39-41, 49-53 *)
Definition pad_bits (bs : list bool) : list bool :=
  repeat false ((8 - List.length bs mod 8) mod 8)%nat ++ bs.
Fixpoint pack (bs : list bool) : list byte :=
  match bs with
  | b7 :: b6 :: b5 :: b4 :: b3 :: b2 :: b1 :: b0 :: r =>
      byte_of_bits [b7;b6;b5;b4;b3;b2;b1;b0] :: pack r
  | _ => []
  end.

(** ReadBits: internal/bitio/read.go:38-57 *)
Definition read_bits (data : list byte) (size : N) : M rst (list byte) :=
  bs <- loopN size (fun acc => b <- read_bit data ;; ret (b :: acc)) [] ;;
  ret (pack (pad_bits (rev bs))).

(** Read of exactly [n] bytes through io.ReadFull (read.go:31-36).
    io.ReadFull gives EOF when nothing could be read, ErrUnexpectedEOF when the
    data ends early; a zero length read succeeds. *)
Definition read_full (data : list byte) (n : N) : M rst (list byte) := fun s =>
  if r_width s =? 0 then
    let avail := skipN (r_pos s) data in
    let got := takeN n avail in
    let s' := mkrst (r_pos s + lenN got) (r_octet s) 0 in
    if lenN got =? n then (Ok got, s')
    else if lenN got =? 0 then (Err EEOF, s') else (Err EUnexpectedEOF, s')
  else if n =? 0 then (Ok [], s)
  else (Err EAlign, s).

(** io.CopyN(buf, r, int64(n)).  A negative or zero count copies nothing and
    reports no error: the LimitedReader reports EOF at once, and CopyN only
    turns written < n into EOF.  Short data gives io.EOF. *)
Definition copy_n (data : list byte) (n : N) : M rst (list byte) := fun s =>
  if (n =? 0) || (9223372036854775808 <=? n) then (Ok [], s)
  else if r_width s =? 0 then
    let avail := skipN (r_pos s) data in
    let got := takeN n avail in
    let s' := mkrst (r_pos s + lenN got) (r_octet s) 0 in
    if lenN got =? n then (Ok got, s') else (Err EEOF, s')
  else (Err EAlign, s).

(** Seek(0, SeekCurrent): internal/bitio/read.go:87-97 *)
Definition seek_cur0 : M rst N := fun s =>
  if r_width s =? 0 then (Ok (r_pos s), s) else (Err EAlign, s).
(** Seek(0, SeekEnd): same lines; resets the pending bits. *)
Definition seek_end (data : list byte) : M rst N := fun s =>
  (Ok (lenN data), mkrst (lenN data) (r_octet s) 0).
(** Seek(int64(x), SeekStart): same lines; a negative int64 is an error of the
    underlying seeker. *)
Definition seek_start (x : N) : M rst N := fun s =>
  if x <? 9223372036854775808 then (Ok x, mkrst x (r_octet s) 0) else (Err ESeek, s).

(** ** Writer.  [w_out] is what reached the underlying io.Writer; [w_faults]
    scripts the underlying Write calls: one boolean is consumed per call, [true]
    makes that call fail without writing anything; the empty list never fails.
    internal/bitio/write.go:18-22 *)
Record wst := mkwst { w_out : list byte; w_octet : N; w_width : N; w_faults : list bool }.
Definition new_writer (faults : list bool) : wst := mkwst [] 0 0 faults.

Definition under_write (p : list byte) : M wst unit := fun s =>
  match w_faults s with
  | true :: f => (Err EWrite, mkwst (w_out s) (w_octet s) (w_width s) f)
  | false :: f => (Ok tt, mkwst (w_out s ++ p) (w_octet s) (w_width s) f)
  | [] => (Ok tt, mkwst (w_out s ++ p) (w_octet s) (w_width s) [])
  end.

(** Write: internal/bitio/write.go:28-33 *)
Definition wr_write (p : list byte) : M wst unit := fun s =>
  if w_width s =? 0 then under_write p s else (Err EAlign, s).

(** WriteBit: internal/bitio/write.go:47-61.  [0x1 << (7 - width)] is a byte
    shift by an unsigned amount, so it is 0 as soon as width > 7; [width] never
    gets large enough to wrap (it would take 2^64 calls). *)
Definition write_bit (b : bool) : M wst unit := fun s =>
  let oct := if b then N.lor (w_octet s) (if w_width s <=? 7 then 2 ^ (7 - w_width s) else 0)
             else w_octet s in
  let wid := w_width s + 1 in
  let s1 := mkwst (w_out s) oct wid (w_faults s) in
  if wid =? 8 then
    match under_write [N2b oct] s1 with
    | (Ok _, s2) => (Ok tt, mkwst (w_out s2) 0 0 (w_faults s2))
    | (Err e, s2) => (Err e, s2)
    | (Panic, s2) => (Panic, s2)
    | (OutOfFuel, s2) => (OutOfFuel, s2)
    end
  else (Ok tt, s1).

Fixpoint write_bit_list (l : list bool) : M wst unit :=
  match l with
  | [] => ret tt
  | b :: r => write_bit b ;;; write_bit_list r
  end.

(** WriteBits: internal/bitio/write.go:35-45.  [offset := length - width] is
    unsigned: when width exceeds the data the loop does not run at all. *)
Definition write_bits (data : list byte) (width : N) : M wst unit :=
  let bits := bits_of_bytes data in
  if width <=? lenN bits then write_bit_list (skipN (lenN bits - width) bits)
  else ret tt.

(** io.CopyN(writer, bytes.NewBuffer(p), len p): the io.Copy loop hands the
    writer chunks of at most 32 KiB, and nothing when p is empty. *)
Fixpoint write_chunks (fuel : nat) (p : list byte) : M wst unit :=
  match fuel with
  | O => ret tt
  | S k => match p with
           | [] => ret tt
           | _ => wr_write (takeN 32768 p) ;;; write_chunks k (skipN 32768 p)
           end
  end.
Definition wr_copy (p : list byte) : M wst unit := write_chunks (S (List.length p)) p.
