(** Specification of Probe's report on a file that is a tree of boxes. *)
From Verif Require Import Base Schema Structs Registry BoxInfo Accessors Probe SpecProbe SpecTree SpecExtract SpecTool.
Local Open Scope string_scope.
Local Open Scope list_scope.
Local Open Scope N_scope.

Section Report.
  Variable data : list byte.
  (** the fields of a box *)
  Definition fields_of (e : entry) : fields := match e_decoded data e with Ok (_, x, _) => x | _ => [] end.
  (** a box and all boxes in it, with paths that begin at this box *)
  Definition below (e : entry) : list entry :=
    list_box data ctx0 [] (IsQuickTimeCompatible (bi_ctx (e_info e))) (QuickTimeKeysMetaEntryCount (bi_ctx (e_info e)))
             (bi_offset (e_info e)) (e_box e).
  (** the boxes at certain places in a box, in the order of the file *)
  Definition at_paths (e : entry) (ps : list (list string)) : list entry :=
    filter (fun x => selected 1 (map (map bt) ps) (e_path x)) (below e).
  (** the fields of the last one of them *)
  Definition last_at (e : entry) (ps : list (list string)) : option fields :=
    option_map fields_of (hd_error (rev (at_paths e ps))).

  (** ** A track *)
  Definition stbl (t : string) : list string := ["mdia"; "minf"; "stbl"; t].
  Definition stsd (l : list string) : list string := ["mdia"; "minf"; "stbl"; "stsd"] ++ l.
  (** what the track looks for *)
  Definition track_places : list (list string) :=
    [ ["tkhd"]; ["edts"; "elst"]; ["mdia"; "mdhd"];
      stsd ["avc1"]; stsd ["avc1"; "avcC"]; stsd ["encv"]; stsd ["encv"; "avcC"];
      stsd ["mp4a"]; stsd ["mp4a"; "esds"]; stsd ["mp4a"; "wave"; "esds"]; stsd ["enca"]; stsd ["enca"; "esds"];
      stbl "stco"; stbl "co64"; stbl "stts"; stbl "ctts"; stbl "stsc"; stbl "stsz" ].
  Definition sample_entries : list (list string) := [ stsd ["avc1"]; stsd ["encv"]; stsd ["mp4a"]; stsd ["enca"] ].
  Definition is_type (t : string) (e : entry) : bool := bt_eqb (e_type e) (bt t).

  Record track_report (e : entry) (tr : track) : Prop := mktrack_report
    { tr_id : exists tkhd, last_at e [["tkhd"]] = Some tkhd /\ t_id tr = uint_of "TrackID" tkhd;
      tr_media : exists mdhd, last_at e [["mdia"; "mdhd"]] = Some mdhd /\
        t_timescale tr = uint_of "Timescale" mdhd /\
        t_duration tr = (if get_version mdhd =? 0 then uint_of "DurationV0" mdhd
                         else if get_version mdhd =? 1 then uint_of "DurationV1" mdhd else 0);
      tr_edits : t_edits tr = match last_at e [["edts"; "elst"]] with
                              | Some x => map (edit_of x) (structs "Entries" x) | None => [] end;
      (* one sample for each unit of the counts of stts, with its delta *)
      tr_deltas : exists stts, last_at e [stbl "stts"] = Some stts /\ map s_delta (t_samples tr) = runs (stts_runs stts);
      (* composition offsets from ctts, 0 beyond its end *)
      tr_offsets : lenN (t_samples tr) < 2 ^ 32 ->
        map s_cto (t_samples tr) = match last_at e [stbl "ctts"] with
                                   | Some ctts => stretch 0%Z (List.length (t_samples tr)) (runs (ctts_runs ctts))
                                   | None => repeat 0%Z (List.length (t_samples tr)) end;
      (* sizes from the list of stsz, 0 beyond its end; a size given for all
         samples is left out *)
      tr_sizes : map s_size (t_samples tr) = match last_at e [stbl "stsz"] with
                                   | Some stsz => stretch 0 (List.length (t_samples tr)) (uints "EntrySize" stsz)
                                   | None => repeat 0 (List.length (t_samples tr)) end;
      (* chunks from stco, or else from co64 *)
      tr_chunks : exists x, (last_at e [stbl "stco"] = Some x \/
                             last_at e [stbl "stco"] = None /\ last_at e [stbl "co64"] = Some x) /\
        map c_offset (t_chunks tr) = uints "ChunkOffset" x;
      (* the samples of chunk [k], counted from 1: the last entry of stsc that starts
         no later *)
      tr_spc : exists stsc, last_at e [stbl "stsc"] = Some stsc /\
        (increasing (map first_chunk (structs "Entries" stsc)) ->
         Forall (fun e => 1 <= first_chunk e < 2 ^ 32) (structs "Entries" stsc) -> lenN (t_chunks tr) < 2 ^ 32 ->
         forall k c, nthN k (t_chunks tr) = Some c -> c_spc c = spc_of stsc (k + 1));
      (* the codec of the last sample entry that is known *)
      tr_codec : t_codec tr = match hd_error (rev (at_paths e sample_entries)) with
                              | Some x => if is_type "avc1" x || is_type "encv" x then CodecAVC1 else CodecMP4A
                              | None => CodecUnknown end;
      tr_encrypted : t_encrypted tr = true <-> at_paths e [stsd ["encv"]; stsd ["enca"]] <> [];
      (* AVC: the last avc1 and the last avcC; an encv box does not count *)
      tr_avc : t_avc tr = match last_at e [stsd ["avc1"]], last_at e [stsd ["avc1"; "avcC"]; stsd ["encv"; "avcC"]] with
                          | Some v, Some c => Some (mkavc (uint_of "ConfigurationVersion" c) (uint_of "Profile" c)
                                                     (uint_of "ProfileCompatibility" c) (uint_of "Level" c)
                                                     (uint_of "LengthSizeMinusOne" c + 1) (uint_of "Width" v) (uint_of "Height" v))
                          | _, _ => None end;
      (* AAC: see C42 for the object types *)
      tr_mp4a : match last_at e [stsd ["mp4a"]; stsd ["enca"]],
                      last_at e [stsd ["mp4a"; "esds"]; stsd ["mp4a"; "wave"; "esds"]; stsd ["enca"; "esds"]] with
                | Some a, Some x => exists oti aot, detect_aac_profile x = Ok (oti, aot) /\
                                                    t_mp4a tr = Some (mkmp4a oti aot (uint_of "ChannelCount" a))
                | _, _ => t_mp4a tr = None end }.

  (** ** A fragment *)
  Definition moof_places : list (list string) := [ ["traf"; "tfhd"]; ["traf"; "tfdt"]; ["traf"; "trun"] ].
  Record segment_report (e : entry) (g : segment) : Prop := mksegment_report
    { sr_track : exists tfhd, last_at e [["traf"; "tfhd"]] = Some tfhd /\
        g_track g = uint_of "TrackID" tfhd /\ g_default g = uint_of "DefaultSampleDuration" tfhd /\
        match last_at e [["traf"; "trun"]] with
        | None => g_count g = 0 /\ g_duration g = 0 /\ g_size g = 0 /\ g_cto g = 0%Z
        | Some trun =>
            g_count g = uint_of "SampleCount" trun /\
            g_duration g = sum (sample_durations tfhd trun) mod 2 ^ 32 /\
            g_size g = sum (sample_sizes tfhd trun) mod 2 ^ 32 /\
            match structs "Entries" trun with
            | [] => g_cto g = 0%Z
            | es => least (g_cto g) (map wrap32 (composition_times tfhd trun 0 es))
            end
        end;
      sr_offset : g_offset g = bi_offset (e_info e);
      sr_base : g_base g = match last_at e [["traf"; "tfdt"]] with
                           | Some x => uint_of (if get_version x =? 0 then "BaseMediaDecodeTimeV0" else "BaseMediaDecodeTimeV1") x
                           | None => 0 end }.

  (** What it takes to look for boxes in a box: they can be reached; and they are
      decoded in the context of the outer box, which is also their own, or does not
      matter to boxes of the type. *)
  Definition searchable (ps : list (list string)) (e : entry) : Prop :=
    Forall (readable data 1 (map (map bt) ps)) (below e) /\
    Forall (fun x => (exists d, (forall c, get_box_def std_registry (e_type x) c = Some d) /\ bd_name d <> "AudioSampleEntry") \/
                     bi_ctx (e_info x) = bi_ctx (e_info e)) (at_paths e ps).

  (** ** The file *)
  Record movie_report (all : list entry) (p : probeinfo) : Prop := mkmovie_report
    { mr_brands : match hd_error (rev (filter (fun e => selected 0 [[bt "ftyp"]] (e_path e)) all)) with
                  | Some e => let x := fields_of e in
                      p_major p = as_bytes (lookup "MajorBrand" x) /\ p_minor p = uint_of "MinorVersion" x /\
                      p_brands p = map (fun b => as_bytes (lookup "CompatibleBrand" b)) (structs "CompatibleBrands" x)
                  | None => p_major p = repeat bzero 4 /\ p_minor p = 0 /\ p_brands p = [] end;
      mr_times : match hd_error (rev (filter (fun e => selected 0 [[bt "moov"; bt "mvhd"]] (e_path e)) all)) with
                 | Some e => let x := fields_of e in
                     p_timescale p = uint_of "Timescale" x /\
                     p_duration p = uint_of (if get_version x =? 0 then "DurationV0" else "DurationV1") x
                 | None => p_timescale p = 0 /\ p_duration p = 0 end }.
End Report.
