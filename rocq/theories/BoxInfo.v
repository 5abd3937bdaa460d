(** Model of box_info.go: box headers. *)
From Verif Require Import Base Schema Registry.
Local Open Scope monad_scope.

(** BoxInfo: box_info.go:34-53 *)
Record boxinfo : Set := mkbi {
  bi_offset : N;
  bi_size : N;
  bi_hsize : N;
  bi_type : btype;
  bi_eof : bool;        (* ExtendToEOF *)
  bi_ctx : context
}.

Definition SmallHeaderSize : N := 8.    (* box_info.go:60 *)
Definition LargeHeaderSize : N := 16.   (* box_info.go:61 *)

(** ** The input: an io.ReadSeeker over [data]; the state is its position.
    Simplification: the stream fails only at the end of the data and for
    negative positions. *)

(** Seek(int64(x), io.SeekStart) *)
Definition s_seek (x : N) : M N unit := fun pos =>
  if x <? 9223372036854775808 then (Ok tt, x) else (Err ESeek, pos).

(** io.CopyN(w, r, int64(n)): nothing, without an error, when the count is zero
    or negative; io.EOF when the data ends early (what was there is consumed). *)
Definition s_copy (data : list byte) (n : N) : M N (list byte) := fun pos =>
  if (n =? 0) || (9223372036854775808 <=? n) then (Ok [], pos)
  else
    let got := takeN n (skipN pos data) in
    if lenN got =? n then (Ok got, pos + lenN got) else (Err EEOF, pos + lenN got).

(** SeekToStart, SeekToPayload, SeekToEnd: box_info.go:152-162 *)
Definition seek_to_start (bi : boxinfo) : M N unit := s_seek (bi_offset bi).
Definition seek_to_payload (bi : boxinfo) : M N unit := s_seek (w64 (bi_offset bi + bi_hsize bi)).
Definition seek_to_end (bi : boxinfo) : M N unit := s_seek (w64 (bi_offset bi + bi_size bi)).

(** ReadBoxInfo: box_info.go:102-150 *)
Definition read_box_info (data : list byte) : M N boxinfo :=
  offset <- get ;;
  h <- s_copy data SmallHeaderSize ;;
  let size := be_to_N (takeN 4 h) in
  let type := skipN 4 h in
  if size =? 0 then
    let size' := sub64 (lenN data) offset in
    let bi := mkbi offset size' SmallHeaderSize type true ctx0 in
    put (lenN data) ;;;
    seek_to_payload bi ;;;
    (if size' =? 0 then fail (EMsg "invalid size") else ret bi)
  else if size =? 1 then
    l <- s_copy data (LargeHeaderSize - SmallHeaderSize) ;;
    let size' := be_to_N l in
    if size' =? 0 then fail (EMsg "invalid size")
    else ret (mkbi offset size' LargeHeaderSize type false ctx0)
  else ret (mkbi offset size SmallHeaderSize type false ctx0).

(** ** The output: an io.WriteSeeker, that is a file and a position.  [o_faults]
    scripts the Write calls as in BitIO, except that a failing call may have
    written some leading bytes first: [Some k] fails after [k] bytes. *)
Record ofile := mkof { o_data : list byte; o_pos : N; o_faults : list (option N) }.
Definition new_ofile (d : list byte) (pos : N) : ofile := mkof d pos [].

(** Bytes written at a position; a gap after the end of the file reads as zero. *)
Definition overwrite (d : list byte) (pos : N) (p : list byte) : list byte :=
  match p with
  | [] => d
  | _ => takeN pos d ++ repeat bzero (N.to_nat (pos - lenN d)) ++ p ++ skipN (pos + lenN p) d
  end.

Definition o_write (p : list byte) : M ofile unit := fun s =>
  match o_faults s with
  | Some k :: f =>
      let q := takeN k p in
      (Err EWrite, mkof (overwrite (o_data s) (o_pos s) q) (o_pos s + lenN q) f)
  | None :: f => (Ok tt, mkof (overwrite (o_data s) (o_pos s) p) (o_pos s + lenN p) f)
  | [] => (Ok tt, mkof (overwrite (o_data s) (o_pos s) p) (o_pos s + lenN p) [])
  end.
Definition o_tell : M ofile N := fun s => (Ok (o_pos s), s).
Definition o_seek (x : N) : M ofile unit := fun s =>
  if x <? 9223372036854775808 then (Ok tt, mkof (o_data s) x (o_faults s)) else (Err ESeek, s).

(** The header bytes: box_info.go:72-86 *)
Definition header_bytes (bi : boxinfo) : list byte :=
  if bi_eof bi then N_to_be 4 0 ++ bi_type bi
  else if (bi_size bi <? W32) && negb (bi_hsize bi =? LargeHeaderSize)
  then N_to_be 4 (bi_size bi) ++ bi_type bi
  else N_to_be 4 1 ++ bi_type bi ++ N_to_be 8 (bi_size bi).

(** WriteBoxInfo: box_info.go:66-99 *)
Definition write_box_info (bi : boxinfo) : M ofile boxinfo :=
  offset <- o_tell ;;
  let data := header_bytes bi in
  o_write data ;;;
  ret (mkbi offset (w64 (sub64 (bi_size bi) (bi_hsize bi) + lenN data)) (lenN data)
            (bi_type bi) (bi_eof bi) ctx0).
