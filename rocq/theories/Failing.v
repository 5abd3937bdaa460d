(** Readers whose Read fails.  Stream.v models readers that deliver their data
    piecemeal and report nothing but io.EOF; here any call of Read may report
    another error, along with no bytes, some, or all that were asked for.  Seek does
    not fail for [failing_reader]; for [faulty_reader] it may fail as well. *)
From Verif Require Import Base BitIO Schema Unmarshal Stream AnyReader.
Local Open Scope string_scope.
Local Open Scope list_scope.
Local Open Scope N_scope.
Local Open Scope monad_scope.

Section Failing.
  Variable m : manner.            (* how the calls that do not fail behave, and how many bytes come with an error *)
  Variable fails : nat -> bool.   (* which calls of Read fail *)
  Variable e0 : err.              (* the error they report *)
  Variable free : nat -> N.       (* as in Stream.v *)
  Variable data : list byte.

  (** r.Read(p), len(p) = [len], on the underlying reader *)
  Definition f_under (len : N) (s : sst) : list byte * option err * sst :=
    let '(got, eof, s1) := under_read m data len s in
    (got, (if fails (s_calls s) then Some e0 else if eof then Some EEOF else None), s1).

  (** ReadBit, ReadBits: internal/bitio/read.go:38-73 *)
  Definition f_read_bit : M sst bool := fun s =>
    let r := s_r s in
    if r_width r =? 0 then
      let '(got, er, s1) := f_under 1 s in
      match er with
      | Some e => (Err e, s1)
      | None =>
          match got with
          | [b] => (Ok (nth 0 (bits_of_byte b) false), mksst (mkrst (r_pos (s_r s1)) b 7) (s_calls s1))
          | _ => (Err (EMsg "discouraged reader implementation"), s1)
          end
      end
    else
      let w := r_width r - 1 in
      (Ok (nth (N.to_nat (7 - w)) (bits_of_byte (r_octet r)) false),
       mksst (mkrst (r_pos r) (r_octet r) w) (s_calls s)).
  Definition f_read_bits (size : N) : M sst (list byte) :=
    bs <- loopN size (fun acc => b <- f_read_bit ;; ret (b :: acc)) [] ;;
    ret (pack (pad_bits (rev bs))).

  (** Read through bitio's reader: internal/bitio/read.go:31-36 *)
  Definition f_read (len : N) : M sst (list byte * option err) := fun s =>
    if r_width (s_r s) =? 0 then let '(got, er, s1) := f_under len s in (Ok (got, er), s1)
    else (Err EAlign, s).

  (** io.ReadFull of the Go standard library, as quoted in Stream.v: an error along
      with the last byte that is needed is dropped, io.EOF after some bytes becomes
      io.ErrUnexpectedEOF, any other error is returned *)
  Fixpoint f_read_more (fuel : nat) (n : N) (acc : list byte) : M sst (list byte) := fun s =>
    if n <=? lenN acc then (Ok acc, s)
    else match fuel with
         | O => (OutOfFuel, s)
         | S k =>
             match f_read (n - lenN acc) s with
             | (Ok (got, er), s1) =>
                 let acc' := acc ++ got in
                 match er with
                 | Some e =>
                     (if n <=? lenN acc' then Ok acc'
                      else match e with
                           | EEOF => if lenN acc' =? 0 then Err EEOF else Err EUnexpectedEOF
                           | _ => Err e
                           end, s1)
                 | None => f_read_more k n acc' s1
                 end
             | (Err e, s1) => (Err e, s1)
             | (Panic, s1) => (Panic, s1)
             | (OutOfFuel, s1) => (OutOfFuel, s1)
             end
         end.
  Definition f_read_full (fuel : nat) (n : N) : M sst (list byte) := f_read_more fuel n [].

  (** io.CopyN into a bytes.Buffer: ReadFrom hands on an error that is not io.EOF;
      CopyN drops it if all bytes are there *)
  Fixpoint f_copy_more (fuel : nat) (n : N) (acc : list byte) : M sst (list byte) := fun s =>
    if n <=? lenN acc then (Ok acc, s)
    else match fuel with
         | O => (OutOfFuel, s)
         | S k =>
             match f_read (N.min (free (s_calls s)) (n - lenN acc)) s with
             | (Ok (got, er), s1) =>
                 let acc' := acc ++ got in
                 match er with
                 | Some e => (if n <=? lenN acc' then Ok acc' else Err e, s1)
                 | None => f_copy_more k n acc' s1
                 end
             | (Err e, s1) => (Err e, s1)
             | (Panic, s1) => (Panic, s1)
             | (OutOfFuel, s1) => (OutOfFuel, s1)
             end
         end.
  Definition f_copy_n (fuel : nat) (n : N) : M sst (list byte) :=
    if (n =? 0) || (9223372036854775808 <=? n) then ret [] else f_copy_more fuel n [].

  (** util.ReadString: internal/util/io.go:8-22 *)
  Fixpoint f_read_string_more (fuel : nat) (b : byte) (acc : list byte) : M sst (list byte) := fun s =>
    match fuel with
    | O => (OutOfFuel, s)
    | S k =>
        match f_read 1 s with
        | (Ok (got, er), s1) =>
            match er with
            | Some e => (Err e, s1)
            | None =>
                let b' := hd b got in
                if b2N b' =? 0 then (Ok (rev acc), s1) else f_read_string_more k b' (b' :: acc) s1
            end
        | (Err e, s1) => (Err e, s1)
        | (Panic, s1) => (Panic, s1)
        | (OutOfFuel, s1) => (OutOfFuel, s1)
        end
    end.
  Definition f_read_string (fuel : nat) : M sst (list byte) := f_read_string_more fuel bzero [].

  (** the operations of a reader (AnyReader.v) *)
  Definition failing_reader (fuel : nat) : reader sst (N * nat) :=
    let O := stream_reader fuel m free data in
    mkreader sst (N * nat) (o_new O) (o_under O)
      f_read_bits (f_read_full fuel) (f_copy_n fuel) (f_read_string fuel)
      (o_cur O) (o_end O) (o_start O) (o_move O).

  (** ** Readers whose Seek may fail too *)
  Variable e1 : err.              (* the error that Seek reports *)
  Variable lands : nat -> N.      (* where a call of Seek that fails leaves the stream *)
  (** r.Seek on the underlying reader.  The calls of Read and Seek are counted
      together; [x] is what the call does if it does not fail. *)
  Definition f_seek {A} (x : M rst A) : M sst A := fun s =>
    if fails (s_calls s) then
      (Err e1, mksst (mkrst (lands (s_calls s)) (r_octet (s_r s)) (r_width (s_r s))) (S (s_calls s)))
    else let (a, r) := x (s_r s) in (a, mksst r (S (s_calls s))).
  (** Seek(0, io.SeekCurrent) through bitio's reader, which calls Seek only if no bits
      are pending: internal/bitio/read.go:87-97 *)
  Definition f_seek_cur : M sst N := fun s =>
    if r_width (s_r s) =? 0 then f_seek seek_cur0 s else seeks seek_cur0 s.
  Definition faulty_reader (fuel : nat) : reader sst (N * nat) :=
    let O := failing_reader fuel in
    mkreader sst (N * nat) (o_new O) (o_under O) (o_bits O) (o_full O) (o_copy O) (o_string O)
      f_seek_cur (f_seek (seek_end data)) (fun x => f_seek (seek_start x))
      (fun f => f_seek (fun s => (Ok tt, mkrst (f (r_pos s)) (r_octet s) (r_width s)))).
End Failing.
