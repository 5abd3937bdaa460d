(** Model of probe.go. *)
From Verif Require Import Base BitIO Schema Structs Registry Unmarshal BoxInfo ReadTree Extract Accessors.
Local Open Scope string_scope.
Local Open Scope list_scope.
Local Open Scope N_scope.
Local Open Scope monad_scope.

(** ** Results: probe.go:11-95.  Pointers to structs are options, lists of
    pointers to structs are lists: the code never shares or clears them. *)
(** probe.go:53-56 *)
Record edit := mkedit { ed_time : Z; ed_duration : N }.
(** probe.go:60-64 *)
Record sample := mksample { s_size : N; s_delta : N; s_cto : Z }.
(** probe.go:68-71 *)
Record chunk := mkchunk { c_offset : N; c_spc : N }.
(** probe.go:73-81 *)
Record avcinfo := mkavc
  { a_version : N; a_profile : N; a_compat : N; a_level : N; a_lsize : N; a_width : N; a_height : N }.
(** probe.go:83-87 *)
Record mp4ainfo := mkmp4a { m_oti : N; m_audoti : N; m_channels : N }.
(** probe.go:43-49 *)
Inductive codec := CodecUnknown | CodecAVC1 | CodecMP4A.
(** probe.go:30-41 *)
Record track := mktrack
  { t_id : N; t_timescale : N; t_duration : N; t_codec : codec; t_encrypted : bool;
    t_edits : list edit; t_samples : list sample; t_chunks : list chunk;
    t_avc : option avcinfo; t_mp4a : option mp4ainfo }.
(** probe.go:94-103 *)
Record segment := mkseg
  { g_track : N; g_offset : N; g_base : N; g_default : N; g_count : N; g_duration : N; g_cto : Z; g_size : N }.
(** probe.go:11-20 *)
Record probeinfo := mkprobe
  { p_major : list byte; p_minor : N; p_brands : list (list byte); p_fast : bool;
    p_timescale : N; p_duration : N; p_tracks : list track; p_segments : list segment }.

(** ** Loops *)
(** for i := lo; i < hi; i++ { ... }.  The counter never wraps: it stays below hi. *)
Definition forN {S A} (lo hi : N) (body : N -> A -> M S A) (a : A) : M S A :=
  x <- loopN (hi - lo) (fun x => b <- body (fst x) (snd x) ;; ret (fst x + 1, b)) (lo, a) ;;
  ret (snd x).
(** for i, x := range l { ... } *)
Fixpoint for_each {S A B} (body : N -> B -> A -> M S A) (i : N) (l : list B) (a : A) : M S A :=
  match l with
  | [] => ret a
  | x :: r => b <- body i x a ;; for_each body (i + 1) r b
  end.
(** l[i] = f(l[i]): panics out of range *)
Fixpoint modify {A} (i : N) (f : A -> A) (l : list A) : option (list A) :=
  match l with
  | [] => None
  | x :: r => if i =? 0 then Some (f x :: r) else option_map (cons x) (modify (i - 1) f r)
  end.
Definition or_panic {S A} (o : option A) : M S A := match o with Some a => ret a | None => panic end.
Definition lift_res {S A} (r : res A) : M S A := fun s => (r, s).
(** x - 1 on uint32 *)
Definition dec32 (n : N) : N := (n + W32 - 1) mod W32.
(** the elements of a field that is a slice of structs *)
Definition structs (name : string) (x : fields) : list fields :=
  map (fun v => match v with VStruct l => l | _ => [] end) (items name x).
Definition uints (name : string) (x : fields) : list N := map (fun v => as_uint (Some v)) (items name x).

(** ** detectAACProfile: probe.go:370-463 *)
(** b[i] of a byte slice *)
Definition byte_at {S} (b : list byte) (i : N) : M S N := or_panic (option_map b2N (nthN i b)).
(** getAudioObjectType: 474-487 *)
Definition get_audio_object_type (data : list byte) : M rst (N * Z) :=
  b <- read_bits data 5 ;;
  x <- byte_at b 0 ;;
  if negb (x =? 0x1f) then ret (x, 5%Z)
  else
    b <- read_bits data 6 ;;
    x <- byte_at b 0 ;;
    ret (w8 (x + 32), 11%Z).
(** findDescriptorByTag: 465-472 *)
Definition find_descriptor (l : list fields) (tag : Z) : option fields :=
  find (fun d => Z.eqb (int_of "Tag" d) tag) l.
(** the part of detectAACProfile that reads the decoder specific info: 384-462.
    [remaining] is an int and may become negative. *)
Definition aac_profile (data : list byte) : M rst (N * N) :=
  let remaining := (Z.of_N (lenN data) * 8)%Z in
  x <- get_audio_object_type data ;;
  let aot := fst x in
  let remaining := (remaining - snd x)%Z in
  sfi <- read_bits data 4 ;;
  let remaining := (remaining - 4)%Z in
  f <- byte_at sfi 0 ;;
  remaining <- (if f =? 0x0f then read_bits data 24 ;;; ret (remaining - 24)%Z else ret remaining) ;;
  if (aot =? 2) && (20 <=? remaining)%Z then
    read_bits data 4 ;;;
    let remaining := (remaining - 4)%Z in
    sync <- read_bits data 11 ;;
    let remaining := (remaining - 11)%Z in
    s0 <- byte_at sync 0 ;;
    s1 <- (if s0 =? 0x2 then byte_at sync 1 else ret 0) ;;
    if (s0 =? 0x2) && (s1 =? 0xb7) then
      y <- get_audio_object_type data ;;
      let ext := fst y in
      if (ext =? 5) || (ext =? 22) then
        sbr <- read_bits data 1 ;;
        let remaining := (remaining - 1)%Z in
        sb <- byte_at sbr 0 ;;
        if negb (sb =? 0) then
          if ext =? 5 then
            sfi <- read_bits data 4 ;;
            let remaining := (remaining - 4)%Z in
            f <- byte_at sfi 0 ;;
            remaining <- (if f =? 0xf then read_bits data 24 ;;; ret (remaining - 24)%Z else ret remaining) ;;
            if (12 <=? remaining)%Z then
              sync <- read_bits data 11 ;;
              s0 <- byte_at sync 0 ;;
              s1 <- (if s0 =? 0x5 then byte_at sync 1 else ret 0) ;;
              if (s0 =? 0x5) && (s1 =? 0x48) then
                ps <- read_bits data 1 ;;
                p <- byte_at ps 0 ;;
                if negb (p =? 0) then ret (0x40, 29) else ret (0x40, 5)
              else ret (0x40, 5)
            else ret (0x40, 5)
          else ret (0x40, 5)
        else ret (0x40, aot)
      else ret (0x40, aot)
    else ret (0x40, aot)
  else ret (0x40, aot).
(** DecoderConfigDescrTag, DecSpecificInfoTag: box_types_iso14496_14.go:18-19 *)
Definition DecoderConfigDescrTag : Z := 4.
Definition DecSpecificInfoTag : Z := 5.
Definition detect_aac_profile (esds : fields) : res (N * N) :=
  let ds := structs "Descriptors" esds in
  match find_descriptor ds DecoderConfigDescrTag with
  | None => Ok (0, 0)
  | Some d =>
      match lookup "DecoderConfigDescriptor" d with
      | Some (VPtr (Some (VStruct c))) =>
          let oti := uint_of "ObjectTypeIndication" c in
          if negb (oti =? 0x40) then Ok (oti, 0)
          else
            match find_descriptor ds DecSpecificInfoTag with
            | None => Err (EMsg "DecoderSpecificationInfoDescriptor not found")
            | Some s => fst (aac_profile (as_bytes (lookup "Data" s)) (new_reader 0))
            end
      | _ => Ok (0, 0)
      end
  end.

(** ** The tables of a track *)
(** the samples of stts: 326-333 *)
Definition stts_samples {S} (stts : fields) : M S (list sample) :=
  for_each (fun _ e acc =>
      forN 0 (uint_of "SampleCount" e) (fun _ acc => ret (acc ++ [mksample 0 (uint_of "SampleDelta" e) 0])) acc)
    0 (structs "Entries" stts) [].
(** stco, co64: 306-321.  In stco the offsets are uint32, in co64 uint64. *)
Definition offsets_chunks (l : list N) : list chunk := map (fun o => mkchunk o 0) l.
(** stsc: 338-346.  [len(entries) - 1] is an int: -1 for no entry, but then
    there is no iteration. *)
Definition stsc_chunks {S} (stsc : fields) (chunks : list chunk) : M S (list chunk) :=
  let entries := structs "Entries" stsc in
  for_each (fun si e chunks =>
      let len := w32 (lenN chunks) in
      end_ <- (if si =? lenN entries - 1 then ret len
               else
                 nx <- or_panic (nthN (si + 1) entries) ;;
                 let fc := dec32 (uint_of "FirstChunk" nx) in
                 ret (if fc <? len then fc else len)) ;;
      forN (dec32 (uint_of "FirstChunk" e)) end_
        (fun ci chunks => or_panic (modify ci (fun c => mkchunk (c_offset c) (uint_of "SamplesPerChunk" e)) chunks))
        chunks)
    0 entries chunks.
(** ctts: 348-359.  After the break the remaining iterations of the loop do
    nothing here. *)
Definition ctts_samples {S} (ctts : fields) (samples : list sample) : M S (list sample) :=
  x <- for_each (fun ci e st =>
      forN 0 (uint_of "SampleCount" e) (fun _ st =>
        let (si, samples) := st : N * list sample in
        if w32 (lenN samples) <=? si then ret st
        else
          off <- lift_res (ctts_GetSampleOffset ctts (Z.of_N ci)) ;;
          samples' <- or_panic (modify si (fun s => mksample (s_size s) (s_delta s) off) samples) ;;
          ret (w32 (si + 1), samples')) st)
    0 (structs "Entries" ctts) (0, samples) ;;
  ret (snd x).
(** stsz: 361-365 *)
Definition stsz_samples {S} (stsz : fields) (samples : list sample) : M S (list sample) :=
  let sizes := uints "EntrySize" stsz in
  forN 0 (N.min (lenN sizes) (lenN samples)) (fun i samples =>
    z <- or_panic (nthN i sizes) ;;
    or_panic (modify i (fun s => mksample z (s_delta s) (s_cto s)) samples)) samples.
(** elst: 265-274 *)
Definition elst_edits {S} (elst : fields) : M S (list edit) :=
  for_each (fun i _ acc =>
      t <- lift_res (elst_GetMediaTime elst (Z.of_N i)) ;;
      d <- lift_res (elst_GetSegmentDuration elst (Z.of_N i)) ;;
      ret (acc ++ [mkedit t d]))
    0 (structs "Entries" elst) [].

(** ** probeTrak: probe.go:181-368 *)
(** the boxes looked for: 184-203 *)
Definition trak_paths : list path :=
  let stbl r := bt "mdia" :: bt "minf" :: bt "stbl" :: r in
  let stsd r := stbl (bt "stsd" :: r) in
  [ [bt "tkhd"]; [bt "edts"; bt "elst"]; [bt "mdia"; bt "mdhd"];
    stsd [bt "avc1"]; stsd [bt "avc1"; bt "avcC"]; stsd [bt "encv"]; stsd [bt "encv"; bt "avcC"];
    stsd [bt "mp4a"]; stsd [bt "mp4a"; bt "esds"]; stsd [bt "mp4a"; bt "wave"; bt "esds"];
    stsd [bt "enca"]; stsd [bt "enca"; bt "esds"];
    stbl [bt "stco"]; stbl [bt "co64"]; stbl [bt "stts"]; stbl [bt "ctts"]; stbl [bt "stsc"]; stbl [bt "stsz"] ].
(** the variables: 181-182 and 207-219 *)
Record found := mkfound
  { f_codec : codec; f_enc : bool;
    f_tkhd : option fields; f_elst : option fields; f_mdhd : option fields;
    f_avc1 : option fields; f_avcC : option fields; f_audio : option fields; f_esds : option fields;
    f_stco : option fields; f_stts : option fields; f_stsc : option fields;
    f_ctts : option fields; f_stsz : option fields; f_co64 : option fields }.
Definition nothing : found :=
  mkfound CodecUnknown false None None None None None None None None None None None None None.
(** a type assertion on the payload *)
Definition payload_as {S} (sname : string) (p : boxdef * fields) : M S (option fields) :=
  if String.eqb (bd_name (fst p)) sname then ret (Some (snd p)) else panic.
(** the switch: 220-258 *)
Definition note_box {S} (bip : boxinfo * (boxdef * fields)) (f : found) : M S found :=
  let t := bi_type (fst bip) in
  let p := snd bip in
  let (co, en, tkhd, elst, mdhd, avc1, avcC, audio, esds, stco, stts, stsc, ctts, stsz, co64) := f in
  if bt_eqb t (bt "tkhd") then x <- payload_as "Tkhd" p ;; ret (mkfound co en x elst mdhd avc1 avcC audio esds stco stts stsc ctts stsz co64)
  else if bt_eqb t (bt "elst") then x <- payload_as "Elst" p ;; ret (mkfound co en tkhd x mdhd avc1 avcC audio esds stco stts stsc ctts stsz co64)
  else if bt_eqb t (bt "mdhd") then x <- payload_as "Mdhd" p ;; ret (mkfound co en tkhd elst x avc1 avcC audio esds stco stts stsc ctts stsz co64)
  else if bt_eqb t (bt "avc1") then x <- payload_as "VisualSampleEntry" p ;; ret (mkfound CodecAVC1 en tkhd elst mdhd x avcC audio esds stco stts stsc ctts stsz co64)
  else if bt_eqb t (bt "avcC") then x <- payload_as "AVCDecoderConfiguration" p ;; ret (mkfound co en tkhd elst mdhd avc1 x audio esds stco stts stsc ctts stsz co64)
  else if bt_eqb t (bt "encv") then ret (mkfound CodecAVC1 true tkhd elst mdhd avc1 avcC audio esds stco stts stsc ctts stsz co64)
  else if bt_eqb t (bt "mp4a") then x <- payload_as "AudioSampleEntry" p ;; ret (mkfound CodecMP4A en tkhd elst mdhd avc1 avcC x esds stco stts stsc ctts stsz co64)
  else if bt_eqb t (bt "enca") then x <- payload_as "AudioSampleEntry" p ;; ret (mkfound CodecMP4A true tkhd elst mdhd avc1 avcC x esds stco stts stsc ctts stsz co64)
  else if bt_eqb t (bt "esds") then x <- payload_as "Esds" p ;; ret (mkfound co en tkhd elst mdhd avc1 avcC audio x stco stts stsc ctts stsz co64)
  else if bt_eqb t (bt "stco") then x <- payload_as "Stco" p ;; ret (mkfound co en tkhd elst mdhd avc1 avcC audio esds x stts stsc ctts stsz co64)
  else if bt_eqb t (bt "stts") then x <- payload_as "Stts" p ;; ret (mkfound co en tkhd elst mdhd avc1 avcC audio esds stco x stsc ctts stsz co64)
  else if bt_eqb t (bt "stsc") then x <- payload_as "Stsc" p ;; ret (mkfound co en tkhd elst mdhd avc1 avcC audio esds stco stts x ctts stsz co64)
  else if bt_eqb t (bt "ctts") then x <- payload_as "Ctts" p ;; ret (mkfound co en tkhd elst mdhd avc1 avcC audio esds stco stts stsc x stsz co64)
  else if bt_eqb t (bt "stsz") then x <- payload_as "Stsz" p ;; ret (mkfound co en tkhd elst mdhd avc1 avcC audio esds stco stts stsc ctts x co64)
  else if bt_eqb t (bt "co64") then x <- payload_as "Co64" p ;; ret (mkfound co en tkhd elst mdhd avc1 avcC audio esds stco stts stsc ctts stsz x)
  else ret f.

Section Probe.
  Variable R : registry.
  Variable data : list byte.

  (** 260-367: the track from the boxes found *)
  Definition make_track {S} (f : found) : M S track :=
    match f_tkhd f with
    | None => fail (EMsg "tkhd box not found")
    | Some tkhd =>
      edits <- (match f_elst f with Some elst => elst_edits elst | None => ret [] end) ;;
      match f_mdhd f with
      | None => fail (EMsg "mdhd box not found")
      | Some mdhd =>
        let avc := match f_avc1 f, f_avcC f with
          | Some e, Some c =>
              Some (mkavc (uint_of "ConfigurationVersion" c) (uint_of "Profile" c) (uint_of "ProfileCompatibility" c)
                          (uint_of "Level" c) (uint_of "LengthSizeMinusOne" c + 1) (uint_of "Width" e) (uint_of "Height" e))
          | _, _ => None end in
        mp4a <- (match f_audio f, f_esds f with
          | Some a, Some e =>
              x <- lift_res (detect_aac_profile e) ;;
              ret (Some (mkmp4a (fst x) (snd x) (uint_of "ChannelCount" a)))
          | _, _ => ret None end) ;;
        chunks <- (match f_stco f, f_co64 f with
          | Some x, _ => ret (offsets_chunks (uints "ChunkOffset" x))
          | None, Some x => ret (offsets_chunks (uints "ChunkOffset" x))
          | None, None => fail (EMsg "stco/co64 box not found") end) ;;
        match f_stts f with
        | None => fail (EMsg "stts box not found")
        | Some stts =>
          samples <- stts_samples stts ;;
          match f_stsc f with
          | None => fail (EMsg "stsc box not found")
          | Some stsc =>
            chunks <- stsc_chunks stsc chunks ;;
            samples <- (match f_ctts f with Some ctts => ctts_samples ctts samples | None => ret samples end) ;;
            samples <- (match f_stsz f with Some stsz => stsz_samples stsz samples | None => ret samples end) ;;
            ret (mktrack (uint_of "TrackID" tkhd) (uint_of "Timescale" mdhd) (mdhd_GetDuration mdhd)
                         (f_codec f) (f_enc f) edits samples chunks avc mp4a)
          end
        end
      end
    end.
  Definition probe_trak (bi : boxinfo) : M N track :=
    bips <- extract_boxes_with_payload R data (Some bi) trak_paths ;;
    f <- for_each (fun _ bip f => note_box bip f) 0 bips nothing ;;
    make_track f.

  (** ** probeMoof: probe.go:489-567 *)
  Definition moof_paths : list path := [ [bt "traf"; bt "tfhd"]; [bt "traf"; bt "tfdt"]; [bt "traf"; bt "trun"] ].
  (** the switch: 506-515 *)
  Definition note_traf {S} (bip : boxinfo * (boxdef * fields)) (f : option fields * option fields * option fields)
    : M S (option fields * option fields * option fields) :=
    let t := bi_type (fst bip) in
    let p := snd bip in
    let '(tfhd, tfdt, trun) := f in
    if bt_eqb t (bt "tfhd") then x <- payload_as "Tfhd" p ;; ret (x, tfdt, trun)
    else if bt_eqb t (bt "tfdt") then x <- payload_as "Tfdt" p ;; ret (tfhd, x, trun)
    else if bt_eqb t (bt "trun") then x <- payload_as "Trun" p ;; ret (tfhd, tfdt, x)
    else ret f.
  (** CheckFlag: box.go:168-171 *)
  Definition check_flag (x : fields) (flag : N) : bool := negb (N.land (get_flags x) flag =? 0).
  (** int32 of a number *)
  Definition int32 (z : Z) : Z := toZ 32 (ofZ 32 z).
  (** 531-564: duration, size and composition offset from tfhd and trun *)
  Definition trun_duration (tfhd trun : fields) : N :=
    if check_flag trun 0x100 then
      fold_left (fun a e => w32 (a + uint_of "SampleDuration" e)) (structs "Entries" trun) 0
    else w32 (uint_of "DefaultSampleDuration" tfhd * uint_of "SampleCount" trun).
  Definition trun_size (tfhd trun : fields) : N :=
    if check_flag trun 0x200 then
      fold_left (fun a e => w32 (a + uint_of "SampleSize" e)) (structs "Entries" trun) 0
    else w32 (uint_of "DefaultSampleSize" tfhd * uint_of "SampleCount" trun).
  Definition trun_cto {S} (tfhd trun : fields) : M S Z :=
    x <- for_each (fun ei e st =>
        let (duration, cto) := st : N * Z in
        o <- lift_res (trun_GetSampleCompositionTimeOffset trun (Z.of_N ei)) ;;
        let offset := int32 (int32 (Z.of_N duration) + int32 o) in
        let cto' := if (ei =? 0) || (offset <? cto)%Z then offset else cto in
        ret (w32 (duration + (if check_flag trun 0x100 then uint_of "SampleDuration" e
                              else uint_of "DefaultSampleDuration" tfhd)), cto'))
      0 (structs "Entries" trun) (0, 0%Z) ;;
    ret (snd x).
  Definition make_segment {S} (offset : N) (f : option fields * option fields * option fields) : M S segment :=
    let '(tfhd, tfdt, trun) := f in
    match tfhd with
    | None => fail (EMsg "tfhd not found")
    | Some tfhd =>
        let base := match tfdt with
          | Some x => if get_version x =? 0 then uint_of "BaseMediaDecodeTimeV0" x else uint_of "BaseMediaDecodeTimeV1" x
          | None => 0 end in
        match trun with
        | None => ret (mkseg (uint_of "TrackID" tfhd) offset base (uint_of "DefaultSampleDuration" tfhd) 0 0 0 0)
        | Some trun =>
            cto <- trun_cto tfhd trun ;;
            ret (mkseg (uint_of "TrackID" tfhd) offset base (uint_of "DefaultSampleDuration" tfhd)
                       (uint_of "SampleCount" trun) (trun_duration tfhd trun) cto (trun_size tfhd trun))
        end
    end.
  Definition probe_moof (bi : boxinfo) : M N segment :=
    bips <- extract_boxes_with_payload R data (Some bi) moof_paths ;;
    f <- for_each (fun _ bip f => note_traf bip f) 0 bips (None, None, None) ;;
    make_segment (bi_offset bi) f.

  (** ** Probe: probe.go:106-172 *)
  Definition probe_paths : list path :=
    [ [bt "ftyp"]; [bt "moov"]; [bt "moov"; bt "mvhd"]; [bt "moov"; bt "trak"]; [bt "moof"]; [bt "mdat"] ].
  (** SeekToPayload and Unmarshal: 126-131, 143-148 *)
  Definition read_box (bi : boxinfo) : M N fields :=
    seek_to_payload bi ;;;
    x <- unmarshal_any R data (bi_type bi) (payload_size bi) (bi_ctx bi) ;;
    ret (snd (fst x)).
  (** the switch: 123-170.  The state holds mdatAppeared and the result. *)
  Definition probe_box (bi : boxinfo) (st : bool * probeinfo) : M N (bool * probeinfo) :=
    let (mdat, p) := st in
    let t := bi_type bi in
    if bt_eqb t (bt "ftyp") then
      x <- read_box bi ;;
      ret (mdat, mkprobe (as_bytes (lookup "MajorBrand" x)) (uint_of "MinorVersion" x)
                         (map (fun e => as_bytes (lookup "CompatibleBrand" e)) (structs "CompatibleBrands" x))
                         (p_fast p) (p_timescale p) (p_duration p) (p_tracks p) (p_segments p))
    else if bt_eqb t (bt "moov") then
      ret (mdat, mkprobe (p_major p) (p_minor p) (p_brands p) (negb mdat) (p_timescale p) (p_duration p) (p_tracks p) (p_segments p))
    else if bt_eqb t (bt "mvhd") then
      x <- read_box bi ;;
      ret (mdat, mkprobe (p_major p) (p_minor p) (p_brands p) (p_fast p) (uint_of "Timescale" x)
                         (if get_version x =? 0 then uint_of "DurationV0" x else uint_of "DurationV1" x)
                         (p_tracks p) (p_segments p))
    else if bt_eqb t (bt "trak") then
      tr <- probe_trak bi ;;
      ret (mdat, mkprobe (p_major p) (p_minor p) (p_brands p) (p_fast p) (p_timescale p) (p_duration p) (p_tracks p ++ [tr]) (p_segments p))
    else if bt_eqb t (bt "moof") then
      sg <- probe_moof bi ;;
      ret (mdat, mkprobe (p_major p) (p_minor p) (p_brands p) (p_fast p) (p_timescale p) (p_duration p) (p_tracks p) (p_segments p ++ [sg]))
    else if bt_eqb t (bt "mdat") then ret (true, p)
    else ret st.
  Definition empty_probe : probeinfo := mkprobe (repeat bzero 4) 0 [] false 0 0 [] [].
  Definition probe : M N probeinfo :=
    bis <- extract_boxes R data None probe_paths ;;
    x <- for_each (fun _ bi st => probe_box bi st) 0 bis (false, empty_probe) ;;
    ret (snd x).

  (** ** FindIDRFrames: probe.go:569-609 *)
  (** io.ReadFull(r, buf) with a buffer of [n] > 0 bytes *)
  Definition s_read_full (n : N) : M N (list byte) := fun pos =>
    let got := takeN n (skipN pos data) in
    (if lenN got =? n then Ok got else if lenN got =? 0 then Err EEOF else Err EUnexpectedEOF, pos + lenN got).
  (** the loop over the NAL units of a sample: 585-604.  [inr true]: a unit of
      type 5 was found.  [fuel] bounds the number of turns. *)
  Definition nal_turn (lsize dataOffset size : N) (nalOffset : N) : M N (N + bool) :=
    if w32 (w32 (nalOffset + lsize) + 1) <=? size then
      s_seek (w64 (dataOffset + nalOffset)) ;;;
      buf <- s_read_full (lsize + 1) ;;
      let length := fold_left (fun a b => w32 (w32 (a * 256) + b2N b)) (takeN lsize buf) 0 in
      h <- byte_at buf lsize ;;
      if N.land h 0x1f =? 5 then ret (inr true)
      else ret (inl (w32 (nalOffset + w32 (lsize + length))))
    else ret (inr false).
  Definition nal_loop (fuel : positive) (lsize dataOffset size : N) : M N bool :=
    while fuel (nal_turn lsize dataOffset size) 0.
  (** a sample: 580-606.  The state: dataOffset and the indices found. *)
  Definition idr_sample (fuel : positive) (lsize : N) (samples : list sample) (si : N) (st : N * list N)
    : M N (N * list N) :=
    let (dataOffset, idxs) := st in
    smp <- or_panic (nthN si samples) ;;
    if s_size smp =? 0 then ret st
    else
      found <- nal_loop fuel lsize dataOffset (s_size smp) ;;
      ret (w64 (dataOffset + s_size smp), if found : bool then idxs ++ [si] else idxs).
  (** 575-608.  SamplesPerChunk converted to int keeps its value; [si + n] stays
      far below 2^63.  The turns of a NAL loop differ in a 32-bit number, so
      after 2^32 turns it has come back to where it was. *)
  Definition nal_fuel : positive := 4294967297.
  Definition find_idr_frames_fuel (fuel : positive) (tr : track) : M N (option (list N)) :=
    match t_avc tr with
    | None => ret None
    | Some avc =>
        let samples := t_samples tr in
        x <- for_each (fun _ ch st =>
            let (si, idxs) := st : N * list N in
            let stop := N.max si (N.min (si + c_spc ch) (lenN samples)) in
            y <- forN si stop (idr_sample fuel (a_lsize avc) samples) (c_offset ch, idxs) ;;
            ret (stop, snd y))
          0 (t_chunks tr) (0, []) ;;
        ret (Some (snd x))
    end.
  Definition find_idr_frames := find_idr_frames_fuel nal_fuel.
End Probe.

(** ** Bitrates *)
(** Samples.GetBitrate: 611-622.  Division is only reached when the duration is
    not 0. *)
Definition samples_bitrate (l : list sample) (timescale : N) : N :=
  let (size, duration) := fold_left (fun a s => (w64 (fst a + s_size s), w64 (snd a + s_delta s))) l (0, 0) in
  if duration =? 0 then 0 else w64 (w64 (8 * size) * timescale) / duration.
(** Segments.GetBitrate: 658-671 *)
Definition segments_bitrate (l : list segment) (trackID timescale : N) : N :=
  let (size, duration) :=
    fold_left (fun a s => if g_track s =? trackID then (w64 (fst a + g_size s), w64 (snd a + g_duration s)) else a) l (0, 0) in
  if duration =? 0 then 0 else w64 (w64 (8 * size) * timescale) / duration.
(** Segments.GetMaxBitrate: 673-684 *)
Definition segments_max_bitrate (l : list segment) (trackID timescale : N) : N :=
  fold_left (fun m s =>
    if (g_track s =? trackID) && negb (g_duration s =? 0) then
      let b := w64 (w64 (8 * g_size s) * timescale) / g_duration s in
      if m <? b then b else m
    else m) l 0.

(** Samples.GetMaxBitrate: 624-656.  The indices are represented by what follows
    them: [from] is samples[begin:], [rest] is samples[end:]; an index out of
    range panics. *)
(** 634-641: add samples until the window is long enough or they are used up *)
Fixpoint grow (timeDelta size duration : N) (rest : list sample) : res (N * N * list sample) :=
  match rest with
  | [] => Panic
  | s :: r =>
      let size := w64 (size + s_size s) in
      let duration := w64 (duration + s_delta s) in
      if (timeDelta <=? duration) || (match r with [] => true | _ => false end) then Ok (size, duration, r)
      else grow timeDelta size duration r
  end.
(** 646-653: remove samples until the window is too short *)
Fixpoint shrink (timeDelta size duration : N) (from : list sample) : res (N * N * list sample) :=
  match from with
  | [] => Panic
  | s :: r =>
      let size := sub64 size (s_size s) in
      let duration := sub64 duration (s_delta s) in
      if duration <? timeDelta then Ok (size, duration, r) else shrink timeDelta size duration r
  end.
(** 633-654: each turn moves [end], so there are no more turns than samples *)
Fixpoint max_loop (fuel : nat) (timescale timeDelta best size duration : N) (from rest : list sample) : res N :=
  match rest with
  | [] => Ok best
  | _ =>
      match fuel with
      | O => OutOfFuel
      | S k =>
          match grow timeDelta size duration rest with
          | Ok (size, duration, rest) =>
              if duration =? 0 then Panic                    (* division by zero *)
              else
                let bitrate := w64 (w64 (8 * size) * timescale) / duration in
                let best := if best <? bitrate then bitrate else best in
                match shrink timeDelta size duration from with
                | Ok (size, duration, from) => max_loop k timescale timeDelta best size duration from rest
                | Err e => Err e | Panic => Panic | OutOfFuel => OutOfFuel
                end
          | Err e => Err e | Panic => Panic | OutOfFuel => OutOfFuel
          end
      end
  end.
Definition samples_max_bitrate (l : list sample) (timescale timeDelta : N) : res N :=
  if timeDelta =? 0 then Ok 0 else max_loop (List.length l) timescale timeDelta 0 0 0 l l.
