(** Readers that deliver their data piecemeal.  The other files model an
    io.ReadSeeker whose Read fills the buffer whenever the data suffices
    (bytes.Reader, os.File); here Read does what the contract of io.Reader
    allows, and the ways in which the package reads are modelled on top of it:
    bitio's ReadBits, util.ReadString, io.ReadFull and io.CopyN. *)
From Verif Require Import Base BitIO.
Local Open Scope string_scope.
Local Open Scope list_scope.
Local Open Scope N_scope.
Local Open Scope monad_scope.

(** How the [i]-th call of Read behaves: the number of bytes it is prepared to
    deliver, and whether it reports io.EOF along with the last byte of the data
    (instead of with the next call).  Both are allowed by io.Reader; a call that
    delivers nothing and reports no error is allowed and discouraged. *)
Definition manner := nat -> N * bool.

(** The reader, with what bitio's reader keeps (internal/bitio/read.go:21-25),
    and the number of calls of Read so far *)
Record sst := mksst { s_r : rst; s_calls : nat }.

(** r.Read(p), len(p) = [len], on the underlying reader: bytes, and whether io.EOF is
    reported.  At the end of the data: 0, io.EOF. *)
Definition under_read (m : manner) (data : list byte) (len : N) (s : sst) : list byte * bool * sst :=
  let r := s_r s in
  let avail := skipN (r_pos r) data in
  let got := takeN (N.min len (fst (m (s_calls s)))) avail in
  let eof := (lenN avail =? 0) || snd (m (s_calls s)) && (lenN got =? lenN avail) in
  (got, eof, mksst (mkrst (r_pos r + lenN got) (r_octet r) (r_width r)) (S (s_calls s))).

(** ReadBit: internal/bitio/read.go:59-73 *)
Definition s_read_bit (m : manner) (data : list byte) : M sst bool := fun s =>
  let r := s_r s in
  if r_width r =? 0 then
    let '(got, eof, s1) := under_read m data 1 s in
    if eof then (Err EEOF, s1)
    else match got with
         | [b] => (Ok (nth 0 (bits_of_byte b) false), mksst (mkrst (r_pos (s_r s1)) b 7) (s_calls s1))
         | _ => (Err (EMsg "discouraged reader implementation"), s1)
         end
  else
    let w := r_width r - 1 in
    (Ok (nth (N.to_nat (7 - w)) (bits_of_byte (r_octet r)) false),
     mksst (mkrst (r_pos r) (r_octet r) w) (s_calls s)).
(** ReadBits: internal/bitio/read.go:38-57 *)
Definition s_read_bits (m : manner) (data : list byte) (size : N) : M sst (list byte) :=
  bs <- loopN size (fun acc => b <- s_read_bit m data ;; ret (b :: acc)) [] ;;
  ret (pack (pad_bits (rev bs))).

(** Read through bitio's reader: internal/bitio/read.go:31-36 *)
Definition s_read (m : manner) (data : list byte) (len : N) : M sst (list byte * bool) := fun s =>
  if r_width (s_r s) =? 0 then let '(got, eof, s1) := under_read m data len s in (Ok (got, eof), s1)
  else (Err EAlign, s).

(** io.ReadFull = io.ReadAtLeast(r, buf, len(buf)) of the Go standard library:
    for n < min && err == nil { nn, err = r.Read(buf[n:]); n += nn };
    if n >= min { err = nil } else if n > 0 && err == EOF { err = ErrUnexpectedEOF } *)
Fixpoint s_read_more (fuel : nat) (m : manner) (data : list byte) (n : N) (acc : list byte) : M sst (list byte) := fun s =>
  if n <=? lenN acc then (Ok acc, s)
  else match fuel with
       | O => (OutOfFuel, s)
       | S k =>
           match s_read m data (n - lenN acc) s with
           | (Ok (got, eof), s1) =>
               let acc' := acc ++ got in
               if eof then
                 (if n <=? lenN acc' then Ok acc'
                  else if lenN acc' =? 0 then Err EEOF else Err EUnexpectedEOF, s1)
               else s_read_more k m data n acc' s1
           | (Err e, s1) => (Err e, s1)
           | (Panic, s1) => (Panic, s1)
           | (OutOfFuel, s1) => (OutOfFuel, s1)
           end
       end.
Definition s_read_full (fuel : nat) (m : manner) (data : list byte) (n : N) : M sst (list byte) :=
  s_read_more fuel m data n [].

(** io.CopyN(buf, r, n), 0 < n, of the Go standard library, into a bytes.Buffer:
    buf.ReadFrom(io.LimitReader(r, n)), which reads into the free part of the
    buffer until io.EOF; CopyN then turns less than [n] bytes without an error
    into io.EOF.  [free i] is the room in the buffer at the i-th call, at least
    512 (bytes.MinRead). *)
Fixpoint s_copy_more (fuel : nat) (m : manner) (free : nat -> N) (data : list byte) (n : N) (acc : list byte) : M sst (list byte) := fun s =>
  if n <=? lenN acc then (Ok acc, s)
  else match fuel with
       | O => (OutOfFuel, s)
       | S k =>
           match s_read m data (N.min (free (s_calls s)) (n - lenN acc)) s with
           | (Ok (got, eof), s1) =>
               let acc' := acc ++ got in
               if eof then (if n <=? lenN acc' then Ok acc' else Err EEOF, s1)
               else s_copy_more k m free data n acc' s1
           | (Err e, s1) => (Err e, s1)
           | (Panic, s1) => (Panic, s1)
           | (OutOfFuel, s1) => (OutOfFuel, s1)
           end
       end.
Definition s_copy_n (fuel : nat) (m : manner) (free : nat -> N) (data : list byte) (n : N) : M sst (list byte) :=
  if (n =? 0) || (9223372036854775808 <=? n) then ret [] else s_copy_more fuel m free data n [].

(** util.ReadString: internal/util/io.go:8-22.  [b] is the buffer of one byte,
    which keeps its content when a call delivers nothing; n is not looked at. *)
Fixpoint s_read_string_more (fuel : nat) (m : manner) (data : list byte) (b : byte) (acc : list byte) : M sst (list byte) := fun s =>
  match fuel with
  | O => (OutOfFuel, s)
  | S k =>
      match s_read m data 1 s with
      | (Ok (got, eof), s1) =>
          if eof then (Err EEOF, s1)
          else
            let b' := hd b got in
            if b2N b' =? 0 then (Ok (rev acc), s1) else s_read_string_more k m data b' (b' :: acc) s1
      | (Err e, s1) => (Err e, s1)
      | (Panic, s1) => (Panic, s1)
      | (OutOfFuel, s1) => (OutOfFuel, s1)
      end
  end.
Definition s_read_string (fuel : nat) (m : manner) (data : list byte) : M sst (list byte) :=
  s_read_string_more fuel m data bzero [].
