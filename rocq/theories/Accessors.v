(** Model of the accessors of boxes whose fields depend on the version
    (box_types_iso14496_12.go).  Conversions between Go's integer types that keep
    the value (uint32 to uint64, int32 to int64) are left out: the fields hold
    numbers of their Go type. *)
From Verif Require Import Base Schema Registry Floats.
Local Open Scope string_scope.
Local Open Scope list_scope.
Local Open Scope N_scope.

Notation fields := (list (string * val)) (only parsing).

(** switch GetVersion() { case 0: ...; case 1: ...; default: return 0 } *)
Definition by_version {A} (x : fields) (v0 v1 default : A) : A :=
  if get_version x =? 0 then v0 else if get_version x =? 1 then v1 else default.
Definition uint_of (name : string) (x : fields) : N := as_uint (lookup name x).
Definition int_of (name : string) (x : fields) : Z := as_Z (lookup name x).
Definition uint_either (a b : string) (x : fields) : N := by_version x (uint_of a x) (uint_of b x) 0.
Definition int_either (a b : string) (x : fields) : Z := by_version x (int_of a x) (int_of b x) 0%Z.

(** mvhd: 1083-1092, 1094-1103, 1105-1114 *)
Definition mvhd_GetCreationTime := uint_either "CreationTimeV0" "CreationTimeV1".
Definition mvhd_GetModificationTime := uint_either "ModificationTimeV0" "ModificationTimeV1".
Definition mvhd_GetDuration := uint_either "DurationV0" "DurationV1".
(** mdhd: 796-805, 807-816, 818-827 *)
Definition mdhd_GetCreationTime := uint_either "CreationTimeV0" "CreationTimeV1".
Definition mdhd_GetModificationTime := uint_either "ModificationTimeV0" "ModificationTimeV1".
Definition mdhd_GetDuration := uint_either "DurationV0" "DurationV1".
(** tkhd: 2226-2235, 2237-2246, 2248-2257 *)
Definition tkhd_GetCreationTime := uint_either "CreationTimeV0" "CreationTimeV1".
Definition tkhd_GetModificationTime := uint_either "ModificationTimeV0" "ModificationTimeV1".
Definition tkhd_GetDuration := uint_either "DurationV0" "DurationV1".
(** mehd: 867-876; tfdt: 2036-2045 *)
Definition mehd_GetFragmentDuration := uint_either "FragmentDurationV0" "FragmentDurationV1".
Definition tfdt_GetBaseMediaDecodeTime := uint_either "BaseMediaDecodeTimeV0" "BaseMediaDecodeTimeV1".
(** sidx: 1725-1734, 1736-1745 *)
Definition sidx_GetEarliestPresentationTime := uint_either "EarliestPresentationTimeV0" "EarliestPresentationTimeV1".
Definition sidx_GetFirstOffset := uint_either "FirstOffsetV0" "FirstOffsetV1".
(** cslg: 134-143, 145-154, 156-165, 167-176, 178-187 *)
Definition cslg_GetCompositionToDTSShift := int_either "CompositionToDTSShiftV0" "CompositionToDTSShiftV1".
Definition cslg_GetLeastDecodeToDisplayDelta := int_either "LeastDecodeToDisplayDeltaV0" "LeastDecodeToDisplayDeltaV1".
Definition cslg_GetGreatestDecodeToDisplayDelta :=
  int_either "GreatestDecodeToDisplayDeltaV0" "GreatestDecodeToDisplayDeltaV1".
Definition cslg_GetCompositionStartTime := int_either "CompositionStartTimeV0" "CompositionStartTimeV1".
Definition cslg_GetCompositionEndTime := int_either "CompositionEndTimeV0" "CompositionEndTimeV1".

(** ** Fixed point numbers: the integer parts *)
(** GetRateInt: 1122-1124, int16(rate >> 16); GetWidthInt, GetHeightInt:
    2265-2267, 2275-2277, uint16(v >> 16); GetBalanceInt: 1797-1799,
    int8(balance >> 8); GetSampleRateInt: 1315-1317. *)
Definition mvhd_GetRateInt (x : fields) : Z := toZ 16 (ofZ 16 (Z.shiftr (int_of "Rate" x) 16)).
Definition tkhd_GetWidthInt (x : fields) : N := N.shiftr (uint_of "Width" x) 16 mod 2 ^ 16.
Definition tkhd_GetHeightInt (x : fields) : N := N.shiftr (uint_of "Height" x) 16 mod 2 ^ 16.
Definition smhd_GetBalanceInt (x : fields) : Z := toZ 8 (ofZ 8 (Z.shiftr (int_of "Balance" x) 8)).
Definition audio_GetSampleRateInt (x : fields) : N := N.shiftr (uint_of "SampleRate" x) 16 mod 2 ^ 16.

(** ** Fixed point numbers as floats *)
(** GetRate: 1117-1119; GetWidth, GetHeight: 2260-2262, 2270-2272; GetSampleRate:
    1311-1313, float64(v) / (1 << 16); GetBalance: 1792-1794, float32(v) / (1 << 8) *)
Definition mvhd_GetRate (x : fields) : float := float64_div (float64_of (int_of "Rate" x)) (float64_of 65536).
Definition tkhd_GetWidth (x : fields) : float := float64_div (float64_of (Z.of_N (uint_of "Width" x))) (float64_of 65536).
Definition tkhd_GetHeight (x : fields) : float := float64_div (float64_of (Z.of_N (uint_of "Height" x))) (float64_of 65536).
Definition audio_GetSampleRate (x : fields) : float :=
  float64_div (float64_of (Z.of_N (uint_of "SampleRate" x))) (float64_of 65536).
Definition smhd_GetBalance (x : fields) : float := float32_div (float32_of (int_of "Balance" x)) (float32_of 256).

(** ** Accessors with an index.  The index expression panics out of range, but is
    not evaluated for other versions.  (The elements of Entries are structs; the
    value for others is of no importance.) *)
Definition items (name : string) (x : fields) : list val :=
  match lookup name x with Some (VList l) => l | _ => [] end.
Definition index (l : list val) (i : Z) : res val :=
  if (0 <=? i)%Z then match nthN (Z.to_N i) l with Some v => Ok v | None => Panic end else Panic.
Definition entry (x : fields) (i : Z) : res fields :=
  match index (items "Entries" x) i with
  | Ok (VStruct l) => Ok l | Ok _ => Ok [] | Panic => Panic | Err e => Err e | OutOfFuel => OutOfFuel
  end.
Definition rmap {A B} (f : A -> B) (r : res A) : res B :=
  match r with Ok a => Ok (f a) | Panic => Panic | Err e => Err e | OutOfFuel => OutOfFuel end.
(** elst: 376-385, 387-396 *)
Definition elst_GetSegmentDuration (x : fields) (i : Z) : res N :=
  by_version x (rmap (uint_of "SegmentDurationV0") (entry x i)) (rmap (uint_of "SegmentDurationV1") (entry x i)) (Ok 0).
Definition elst_GetMediaTime (x : fields) (i : Z) : res Z :=
  by_version x (rmap (int_of "MediaTimeV0") (entry x i)) (rmap (int_of "MediaTimeV1") (entry x i)) (Ok 0%Z).
(** ctts: 223-232 *)
Definition ctts_GetSampleOffset (x : fields) (i : Z) : res Z :=
  by_version x (rmap (fun e => Z.of_N (uint_of "SampleOffsetV0" e)) (entry x i))
               (rmap (int_of "SampleOffsetV1") (entry x i)) (Ok 0%Z).
(** saio: 1155-1164 *)
Definition saio_GetOffset (x : fields) (i : Z) : res N :=
  by_version x (rmap (fun v => as_uint (Some v)) (index (items "OffsetV0" x) i))
               (rmap (fun v => as_uint (Some v)) (index (items "OffsetV1" x) i)) (Ok 0).
(** tfra: 2157-2166, 2168-2177 *)
Definition tfra_GetTime (x : fields) (i : Z) : res N :=
  by_version x (rmap (uint_of "TimeV0") (entry x i)) (rmap (uint_of "TimeV1") (entry x i)) (Ok 0).
Definition tfra_GetMoofOffset (x : fields) (i : Z) : res N :=
  by_version x (rmap (uint_of "MoofOffsetV0") (entry x i)) (rmap (uint_of "MoofOffsetV1") (entry x i)) (Ok 0).
(** trun: 2421-2430 *)
Definition trun_GetSampleCompositionTimeOffset (x : fields) (i : Z) : res Z :=
  by_version x (rmap (fun e => Z.of_N (uint_of "SampleCompositionTimeOffsetV0" e)) (entry x i))
               (rmap (int_of "SampleCompositionTimeOffsetV1") (entry x i)) (Ok 0%Z).
