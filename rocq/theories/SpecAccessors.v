(** Where the specifications put the numbers that the accessors return, as byte
    offsets into the payload (behind the box header; the version and the flags
    are the first four bytes). *)
From Verif Require Import Base Schema Accessors.
Local Open Scope string_scope.
Local Open Scope list_scope.
Local Open Scope N_scope.

(** the big-endian number of [w] bytes at [off], unsigned and two's complement *)
Definition number_at (p : list byte) (off w : N) : N := be_to_N (takeN w (skipN off p)).
Definition signed_at (p : list byte) (off w : N) : Z := toZ (8 * w) (number_at p off w).

(** (box type, accessor, (offset, bytes) in version 0, the same in version 1) *)
Definition unsigned_accessors : list (string * (fields -> N) * (N * N) * (N * N)) :=
  [ ("mvhd", mvhd_GetCreationTime, (4, 4), (4, 8));
    ("mvhd", mvhd_GetModificationTime, (8, 4), (12, 8));
    ("mvhd", mvhd_GetDuration, (16, 4), (24, 8));
    ("mdhd", mdhd_GetCreationTime, (4, 4), (4, 8));
    ("mdhd", mdhd_GetModificationTime, (8, 4), (12, 8));
    ("mdhd", mdhd_GetDuration, (16, 4), (24, 8));
    ("tkhd", tkhd_GetCreationTime, (4, 4), (4, 8));
    ("tkhd", tkhd_GetModificationTime, (8, 4), (12, 8));
    ("tkhd", tkhd_GetDuration, (20, 4), (28, 8));
    (* the integer part: the upper half of the 16.16 numbers at 76 and 80 (88 and 92) *)
    ("tkhd", tkhd_GetWidthInt, (76, 2), (88, 2));
    ("tkhd", tkhd_GetHeightInt, (80, 2), (92, 2));
    ("mehd", mehd_GetFragmentDuration, (4, 4), (4, 8));
    ("tfdt", tfdt_GetBaseMediaDecodeTime, (4, 4), (4, 8));
    ("sidx", sidx_GetEarliestPresentationTime, (12, 4), (12, 8));
    ("sidx", sidx_GetFirstOffset, (16, 4), (20, 8)) ].
Definition signed_accessors : list (string * (fields -> Z) * (N * N) * (N * N)) :=
  [ ("cslg", cslg_GetCompositionToDTSShift, (4, 4), (4, 8));
    ("cslg", cslg_GetLeastDecodeToDisplayDelta, (8, 4), (12, 8));
    ("cslg", cslg_GetGreatestDecodeToDisplayDelta, (12, 4), (20, 8));
    ("cslg", cslg_GetCompositionStartTime, (16, 4), (28, 8));
    ("cslg", cslg_GetCompositionEndTime, (20, 4), (36, 8));
    (* the integer part of the 16.16 number at 20 (32) *)
    ("mvhd", mvhd_GetRateInt, (20, 2), (32, 2)) ].

(** For the accessors with an index: where the number of entries is, and, given
    the flags and the payload, the offset of the entry's number. *)
Definition bytes_if (mask flags n : N) : N := if N.land flags mask =? 0 then 0 else n.
(** trun 8.8.8: optional fields before the entries; an entry has a field of four
    bytes for each of the flags 0x100, 0x200, 0x400, 0x800 *)
Definition trun_base (flags : N) : N := 8 + bytes_if 0x1 flags 4 + bytes_if 0x4 flags 4.
Definition trun_entry (flags : N) : N :=
  bytes_if 0x100 flags 4 + bytes_if 0x200 flags 4 + bytes_if 0x400 flags 4 + bytes_if 0x800 flags 4.
Definition trun_before_cto (flags : N) : N :=
  bytes_if 0x100 flags 4 + bytes_if 0x200 flags 4 + bytes_if 0x400 flags 4.
(** saio 8.7.9: the type and its parameter are there when the flag 1 is set *)
Definition saio_base (flags : N) : N := 4 + bytes_if 0x1 flags 8.
(** tfra 8.8.10: after the track id, 26 reserved bits and three times two bits
    with the number of bytes, less one, of the last three numbers of an entry *)
Definition tfra_last (p : list byte) : N :=
  let l := number_at p 8 4 in (l / 16) mod 4 + (l / 4) mod 4 + l mod 4 + 3.
