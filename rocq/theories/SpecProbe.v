(** Specification of what Probe reports, in terms of the decoded boxes. *)
From Verif Require Import Base Schema Structs Registry BoxInfo Extract Accessors Probe.
Local Open Scope string_scope.
Local Open Scope list_scope.
Local Open Scope N_scope.

(** The last of the boxes found that has the given type. *)
Definition last_of (t : string) (l : list (boxinfo * (boxdef * fields))) : option fields :=
  fold_left (fun o b => if bt_eqb (bi_type (fst b)) (bt t) then Some (snd (snd b)) else o) l None.

(** A table of runs written out: each value as often as its count says. *)
Definition runs {A} (l : list (N * A)) : list A := flat_map (fun r => repeat (snd r) (N.to_nat (fst r))) l.
(** The first [n] elements, missing ones replaced by [d]. *)
Definition stretch {A} (d : A) (n : nat) (l : list A) : list A := firstn n (l ++ repeat d n).

(** ** Samples: ISO/IEC 14496-12, 8.6.1 and 8.7.3 *)
Definition stts_runs (stts : fields) : list (N * N) :=
  map (fun e => (uint_of "SampleCount" e, uint_of "SampleDelta" e)) (structs "Entries" stts).
(** unsigned offsets in version 0, signed ones in version 1 *)
Definition ctts_runs (ctts : fields) : list (N * Z) :=
  map (fun e => (uint_of "SampleCount" e,
                 if get_version ctts =? 0 then Z.of_N (uint_of "SampleOffsetV0" e)
                 else if get_version ctts =? 1 then int_of "SampleOffsetV1" e else 0%Z))
      (structs "Entries" ctts).
(** a size for all samples, or, when that is 0, one for each *)
Definition stsz_sizes (stsz : fields) (n : nat) : list N :=
  if uint_of "SampleSize" stsz =? 0 then stretch 0 n (uints "EntrySize" stsz)
  else repeat (uint_of "SampleSize" stsz) n.

(** ** Chunks: 8.7.4 and 8.7.5.  A run of chunks reaches up to the next entry's
    first chunk; chunks are numbered from 1. *)
Definition first_chunk (e : fields) : N := uint_of "FirstChunk" e.
Fixpoint increasing (l : list N) : Prop :=
  match l with
  | a :: (b :: _) as r => a < b /\ increasing r
  | _ => True
  end.
Definition spc_of (stsc : fields) (k : N) : N :=
  match find (fun e => first_chunk e <=? k) (rev (structs "Entries" stsc)) with
  | Some e => uint_of "SamplesPerChunk" e
  | None => 0
  end.

(** composition offsets: those of ctts, 0 for samples without one *)
Definition ctos_of (bips : list (boxinfo * (boxdef * fields))) (n : nat) : list Z :=
  match last_of "ctts" bips with
  | Some ctts => stretch 0%Z n (runs (ctts_runs ctts))
  | None => repeat 0%Z n
  end.
Definition chunk_offsets (bips : list (boxinfo * (boxdef * fields))) : option (list N) :=
  match last_of "stco" bips, last_of "co64" bips with
  | Some x, _ | None, Some x => Some (uints "ChunkOffset" x)
  | None, None => None
  end.

(** ** Edits: 8.6.6 *)
Definition edit_of (elst e : fields) : edit :=
  if get_version elst =? 0 then mkedit (int_of "MediaTimeV0" e) (uint_of "SegmentDurationV0" e)
  else if get_version elst =? 1 then mkedit (int_of "MediaTimeV1" e) (uint_of "SegmentDurationV1" e)
  else mkedit 0 0.

(** ** Segments: 8.8.7, 8.8.8 *)
Definition sum (l : list N) : N := fold_right N.add 0 l.
Definition sample_durations (tfhd trun : fields) : list N :=
  if negb (N.land (get_flags trun) 0x100 =? 0) then map (uint_of "SampleDuration") (structs "Entries" trun)
  else repeat (uint_of "DefaultSampleDuration" tfhd) (N.to_nat (uint_of "SampleCount" trun)).
Definition sample_sizes (tfhd trun : fields) : list N :=
  if negb (N.land (get_flags trun) 0x200 =? 0) then map (uint_of "SampleSize") (structs "Entries" trun)
  else repeat (uint_of "DefaultSampleSize" tfhd) (N.to_nat (uint_of "SampleCount" trun)).
Definition sample_offset (trun e : fields) : Z :=
  if get_version trun =? 0 then Z.of_N (uint_of "SampleCompositionTimeOffsetV0" e)
  else if get_version trun =? 1 then int_of "SampleCompositionTimeOffsetV1" e else 0%Z.
(** decode time and composition offset of each sample, the first decoded at [t] *)
Fixpoint composition_times (tfhd trun : fields) (t : N) (es : list fields) : list Z :=
  match es with
  | [] => []
  | e :: r =>
      (Z.of_N t + sample_offset trun e)%Z ::
      composition_times tfhd trun
        (t + (if negb (N.land (get_flags trun) 0x100 =? 0) then uint_of "SampleDuration" e
              else uint_of "DefaultSampleDuration" tfhd)) r
  end.
(** the number between -2^31 and 2^31 that is the same modulo 2^32 *)
Definition wrap32 (z : Z) : Z := ((z + 2 ^ 31) mod 2 ^ 32 - 2 ^ 31)%Z.
Definition least (m : Z) (l : list Z) : Prop := In m l /\ Forall (fun z => (m <= z)%Z) l.

(** ** Bitrates *)
Definition total_size (l : list sample) : N := sum (map s_size l).
Definition total_delta (l : list sample) : N := sum (map s_delta l).
Definition of_track (trackID : N) (l : list segment) : list segment := filter (fun s => g_track s =? trackID) l.
(** bits per second of so many bytes in a duration *)
Definition rate (size timescale duration : N) : N := 8 * size * timescale / duration.
Definition greatest (m : N) (l : list N) : Prop := (m = 0 \/ In m l) /\ Forall (fun x => x <= m) l.
(** The windows of a sliding maximum: a run [w] of samples shorter than [T] that
    begins as early as it can, extended by the next sample.  It is measured if
    it is then not shorter than [T], or if that sample is the last one. *)
Definition window (T : N) (l : list sample) (win : list sample) : Prop :=
  exists before w x after,
    l = before ++ win ++ after /\ win = w ++ [x] /\
    total_delta w < T /\
    (forall b y, before = b ++ [y] -> T <= total_delta (y :: w)) /\
    (T <= total_delta win \/ after = []).

(** ** NAL units in the samples of an AVC track (ISO/IEC 14496-15, 5.3.4.2) *)
(** a unit: its length in [w] bytes, then the unit *)
Definition nal_bytes (w : nat) (units : list (list byte)) : list byte :=
  flat_map (fun u => N_to_be w (lenN u) ++ u) units.
(** the type of a unit is in the low five bits of its first byte; 5 stands for a
    slice of an IDR picture *)
Definition is_idr (u : list byte) : bool :=
  match u with h :: _ => b2N h mod 32 =? 5 | [] => false end.
(** where the samples are: the samples of a chunk follow each other *)
Record place := mkplace { l_index : N; l_offset : N; l_size : N }.
Fixpoint places_from (o i : N) (l : list sample) : list place :=
  match l with
  | [] => []
  | s :: r => mkplace i o (s_size s) :: places_from (o + s_size s) (i + 1) r
  end.
Fixpoint places (chunks : list chunk) (i : N) (l : list sample) : list place :=
  match chunks with
  | [] => []
  | c :: r =>
      let here := takeN (c_spc c) l in
      places_from (c_offset c) i here ++ places r (i + lenN here) (skipN (c_spc c) l)
  end.
(** the bytes of the sample are these units *)
Definition made_of (data : list byte) (w : nat) (units : list (list byte)) (p : place) : Prop :=
  takeN (l_size p) (skipN (l_offset p) data) = nal_bytes w units /\
  lenN (nal_bytes w units) = l_size p /\
  Forall (fun u => 0 < lenN u < 2 ^ (8 * N.of_nat w)) units.

(** where units start when the lengths found in the file are followed, whatever
    they are, as long as a length and a byte fit in the sample *)
Inductive unit_start (data : list byte) (w : N) (p : place) : N -> Prop :=
| first_unit : unit_start data w p 0
| next_unit : forall o, unit_start data w p o -> o + w + 1 <= l_size p ->
    unit_start data w p (o + w + be_to_N (takeN w (skipN (l_offset p + o) data))).

(** ** AudioSpecificConfig (ISO/IEC 14496-3, 1.6.2.1) *)
(** an unsigned number of [n] bits *)
Definition number (n : nat) (l : list bool) : option (N * list bool) :=
  if (List.length l <? n)%nat then None else Some (bits_to_N (firstn n l), skipn n l).
(** GetAudioObjectType *)
Definition object_type (l : list bool) : option (N * list bool) :=
  match number 5 l with
  | Some (t, r) =>
      if t =? 31 then match number 6 r with Some (x, r') => Some (32 + x, r') | None => None end
      else Some (t, r)
  | None => None
  end.
(** samplingFrequencyIndex, and samplingFrequency after the index 15 *)
Definition frequency (l : list bool) : option (list bool) :=
  match number 4 l with
  | Some (i, r) => if i =? 15 then match number 24 r with Some (_, r') => Some r' | None => None end else Some r
  | None => None
  end.
(** the backward compatible extension: the object type it signals, [aot] if it
    signals none *)
Definition parametric_stereo (l : list bool) : option N :=
  if 12 <=? lenN l then
    match number 11 l with
    | Some (s, r) =>
        if s =? 0x548 then match number 1 r with Some (p, _) => Some (if p =? 0 then 5 else 29) | None => None end
        else Some 5
    | None => None
    end
  else Some 5.
Definition extension (aot : N) (l : list bool) : option N :=
  match number 11 l with
  | Some (s, r) =>
      if s =? 0x2b7 then
        match object_type r with
        | Some (ext, r) =>
            if (ext =? 5) || (ext =? 22) then
              match number 1 r with
              | Some (sbr, r) =>
                  if sbr =? 0 then Some aot
                  else if ext =? 5 then
                    match frequency r with Some r => parametric_stereo r | None => None end
                  else Some 5
              | None => None
              end
            else Some aot
        | None => None
        end
      else Some aot
  | None => None
  end.
(** GASpecificConfig for a channelConfiguration other than 0 and an object type
    without extension data *)
Definition ga_specific (l : list bool) : option (list bool) :=
  match number 1 l with
  | Some (_, r) =>
      match number 1 r with
      | Some (core, r) =>
          match (if core =? 0 then Some (0, r) else number 14 r) with
          | Some (_, r) => match number 1 r with Some (_, r) => Some r | None => None end
          | None => None
          end
      | None => None
      end
  | None => None
  end.
(** The object type of a configuration of object type 2, by the standard. *)
Definition iso_profile (l : list bool) : option N :=
  match object_type l with
  | Some (aot, l) =>
      match frequency l with
      | Some l =>
          match number 4 l with
          | Some (channels, l) =>
              if (aot =? 2) && negb (channels =? 0) then
                match ga_specific l with
                | Some l => if 16 <=? lenN l then extension aot l else Some aot
                | None => None
                end
              else None
          | None => None
          end
      | None => None
      end
  | None => None
  end.
(** The same without GASpecificConfig, and for every object type. *)
Definition short_profile (l : list bool) : option N :=
  match object_type l with
  | Some (aot, l) =>
      match frequency l with
      | Some l =>
          if (aot =? 2) && (20 <=? lenN l) then
            match number 4 l with Some (_, l) => extension aot l | None => None end
          else Some aot
      | None => None
      end
  | None => None
  end.
