(** Model of cmd/mp4tool/internal/probe/probe.go. *)
From Verif Require Import Base Schema Structs Registry GoText Probe.
Local Open Scope string_scope.
Local Open Scope list_scope.
Local Open Scope N_scope.
Local Open Scope monad_scope.

(** float32(a) / float32(b): probe.go:98, 115.  The quotient is kept as it stands;
    rounding is not modelled.  It is finite exactly if [b] is not 0. *)
Record seconds := mkseconds { sec_duration : N; sec_timescale : N }.
(** track: probe.go:69-83 *)
Record trow := mktrow
  { r_id : N; r_timescale : N; r_duration : N; r_seconds : seconds; r_codec : text; r_encrypted : bool;
    r_width : N; r_height : N; r_samples : N; r_chunks : N; r_idr : N; r_bitrate : N; r_max : N }.
(** report: probe.go:58-67 *)
Record report := mkreport
  { rp_major : list byte; rp_minor : N; rp_brands : list (list byte); rp_fast : bool;
    rp_timescale : N; rp_duration : N; rp_seconds : seconds; rp_tracks : list trow }.

(** fmt verbs %X and %02X *)
Definition upper (c : byte) : byte := if (97 <=? b2N c) && (b2N c <=? 122) then N2b (b2N c - 32) else c.
Definition hex_upper (n : N) : text := map upper (hex_text n).
Definition hex2_upper (n : N) : text := map upper (hex2 n).

(** The loop over the tracks: probe.go:104-152 *)
Definition report_row (data : list byte) (info : probeinfo) (tr : track) : M N trow :=
  let bitrate := samples_bitrate (t_samples tr) (t_timescale tr) in
  maxBitrate <- lift_res (samples_max_bitrate (t_samples tr) (t_timescale tr) (t_timescale tr)) ;;
  let '(bitrate, maxBitrate) :=
    if (bitrate =? 0) || (maxBitrate =? 0)
    then (segments_bitrate (p_segments info) (t_id tr) (t_timescale tr),
          segments_max_bitrate (p_segments info) (t_id tr) (t_timescale tr))
    else (bitrate, maxBitrate) in
  let row codec width height idr :=
    mktrow (t_id tr) (t_timescale tr) (t_duration tr) (mkseconds (t_duration tr) (t_timescale tr)) codec (t_encrypted tr)
           width height (lenN (t_samples tr)) (lenN (t_chunks tr)) idr bitrate maxBitrate in
  match t_codec tr with
  | CodecAVC1 =>
      let '(codec, width, height) :=
        match t_avc tr with
        | Some a => (lit "avc1." ++ hex2_upper (a_profile a) ++ hex2_upper (a_compat a) ++ hex2_upper (a_level a), a_width a, a_height a)
        | None => (lit "avc1", 0, 0)
        end in
      idxs <- find_idr_frames data tr ;;
      ret (row codec width height (match idxs with Some l => lenN l | None => 0 end))
  | CodecMP4A =>
      ret (row (match t_mp4a tr with
                | None => lit "mp4a"
                | Some m =>
                    if m_oti m =? 0 then lit "mp4a"
                    else if m_audoti m =? 0 then lit "mp4a." ++ hex_upper (m_oti m)
                    else lit "mp4a." ++ hex_upper (m_oti m) ++ lit "." ++ dec_text (m_audoti m)
                end) 0 0 0)
  | CodecUnknown => ret (row (lit "unknown") 0 0 0)
  end.
(** buildReport: probe.go:85-154 *)
Definition build_report (data : list byte) : M N report :=
  info <- probe std_registry data ;;
  rows <- for_each (fun _ tr rows => row <- report_row data info tr ;; ret (rows ++ [row])) 0 (p_tracks info) [] ;;
  ret (mkreport (p_major info) (p_minor info) (p_brands info) (p_fast info) (p_timescale info) (p_duration info)
                (mkseconds (p_duration info) (p_timescale info)) rows).
(** The error of the JSON encoder, which refuses numbers that are not finite:
    probe.go:44-48.  Its output, and YAML, are not modelled. *)
Definition json_error (r : report) : bool :=
  existsb (fun s => sec_timescale s =? 0) (rp_seconds r :: map r_seconds (rp_tracks r)).
(** The command, with -format json: the report encoded, or the error *)
Definition probe_tool (data : list byte) : res report :=
  match fst (build_report data 0) with
  | Ok r => if json_error r then Err (EMsg "json: unsupported value") else Ok r
  | x => x
  end.
