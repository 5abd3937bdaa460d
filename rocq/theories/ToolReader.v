(** The commands edit, extract and psshdump on an open set of reader operations
    (AnyReader.v): Edit.v and Tool.v hand the contents of the file to the handler,
    here the handler reads what it copies.  The bytes of a box that is copied are
    collected before they are written, so what has been written of it when the
    reader fails is not modelled; the buffer of io.CopyN, whose size a file and
    a bytes.Buffer choose differently, is [free] of Stream.v, which is arbitrary. *)
From Verif Require Import Base Schema Structs Registry Marshal Unmarshal BoxInfo ReadTree Extract Accessors Probe Writer GoText Text Tool ProbeTool Edit AnyReader.
Local Open Scope string_scope.
Local Open Scope list_scope.
Local Open Scope N_scope.
Local Open Scope monad_scope.

Section Tools.
  Context {S T : Type} (O : reader S T) (lf : positive) (tf : nat).

  (** ** A traversal whose handler begins with operations on the stream: given the
      box, [first] yields the rest of the handler (read.go:37-199, as in
      AnyReader.v) *)
  Section Traversal.
    Variable R : registry.
    Context {St V P : Type}.
    Variable first : boxinfo -> M (T * St) (hprog St V P).
    Definition t_box_internal (rec : N -> path -> context -> P -> M (T * St) (list V))
        (bi0 : boxinfo) (pth : path) (params : P) : M (T * St) (V * boxinfo) :=
      bi <- g_lift_s (g_prepare O lf R bi0 pth) ;;
      let newPath := pth ++ [bi_type bi] in
      v <- (p <- first bi ;;
            g_run_handler O lf R bi (fun total p => rec total newPath (child_ctx (bi_type bi) (bi_ctx bi)) p) 0 p) ;;
      g_lift_s (g_seek_to_end O bi) ;;;
      ret (v, bi).
    Fixpoint t_read_structure (fuel : nat) (isRoot : bool) (total : N) (pth : path) (ctx : context)
             (params : P) : M (T * St) (list V) :=
      match fuel with
      | Datatypes.O => fun s => (OutOfFuel, s)
      | Datatypes.S fuel' =>
          if isRoot || (SmallHeaderSize <=? total) then
            h <- attempt (g_lift_s (g_read_box_info O)) ;;
            match h with
            | Err EEOF => if isRoot then ret [] else fail EEOF
            | Err e => fail e
            | Ok bi =>
                if negb isRoot && (total <? bi_size bi) then fail (EMsg "too large box size")
                else
                  x <- t_box_internal (fun t p c q => t_read_structure fuel' false t p c q)
                         (set_ctx bi ctx) pth params ;;
                  let '(v, bi') := x in
                  let ctx1 := if IsQuickTimeCompatible (bi_ctx bi') then set_qt ctx else ctx in
                  let ctx2 := if bt_eqb (bi_type bi') (bt "keys")
                              then set_keys (QuickTimeKeysMetaEntryCount (bi_ctx bi')) ctx1 else ctx1 in
                  vs <- t_read_structure fuel' isRoot (sub64 total (bi_size bi)) pth ctx2 params ;;
                  ret (v :: vs)
            | _ => panic
            end
          else if negb (total =? 0) && negb (IsQuickTimeCompatible ctx)
          then fail (EMsg "unexpected EOF")
          else ret []
      end.
    Definition t_read_box_structure (params : P) : M (T * St) (list V) :=
      g_lift_s (g_seek O 0) ;;; t_read_structure tf true 0 [] ctx0 params.
  End Traversal.

  (** ** edit: cmd/mp4tool/internal/edit/edit.go:66-127; CopyBox: write.go:58-68 *)
  Definition edit_first (cfg : config) (bi : boxinfo) : M (T * est) eprog :=
    if boxes_exist (cf_drop cfg) (box_type_string (bi_type bi)) then fun x => (Ok (HRet (snd x) tt), x)
    else if negb (is_supported std_registry (bi_type bi) (bi_ctx bi)) || bt_eqb (bi_type bi) (bt "mdat") then
      g_lift_s (g_seek O (bi_offset bi)) ;;;
      p <- g_lift_s (raw O (o_copy O (bi_size bi))) ;;
      (fun x => (Ok (call (w_chunks (Datatypes.S (List.length p)) p ;;;
                           (if lenN p =? bi_size bi then ret tt else fail (EMsg "failed to copy box")))
                          (snd x) (fun _ s => HRet s tt)), x))
    else fun x => (Ok (call (start_box bi) (snd x) (fun _ s =>
      HReadPayload (fun r =>
        match r with
        | Ok (d, f, _) =>
            let (m, out) := marshal std_registry (bi_type bi) (bi_ctx bi) (edit_fields cfg (bi_type bi) f) [] in
            call (w_write out) s (fun _ s =>
            call (fun w => (m, w)) s (fun _ s =>
            HExpand s tt (fun r s =>
              match r with
              | Ok _ => call end_box s (fun _ s => HRet s tt)
              | Err e => HFail s e
              | _ => HFail s EEOF
              end)))
        | Err e => HFail s e
        | _ => HFail s EEOF
        end))), x).
  (** nil or an error, the contents of the output, the input afterwards *)
  Definition t_edit_file (cfg : config) (t : T) : res unit * list byte * T :=
    let (r, s) := t_read_box_structure std_registry (edit_first cfg) tt (t, mkest (new_writer_of (new_ofile [] 0)) false) in
    let out := o_data (wr_file (e_w (snd s))) in
    (if e_panic (snd s) then Panic
     else match r with Ok _ => Ok tt | Err e => Err e | Panic => Panic | OutOfFuel => OutOfFuel end, out, fst s).

  (** ** extract: cmd/mp4tool/internal/extract/extract.go:55-77.  The error of
      SeekToStart is ignored. *)
  Definition extract_first (boxType : btype) (bi : boxinfo) : M (T * tst) tprog :=
    if bt_eqb (bi_type bi) boxType then
      _ <- attempt (g_lift_s (g_seek O (bi_offset bi))) ;;
      got <- g_lift_s (raw O (o_copy O (bi_size bi))) ;;
      (fun x => (Ok (extract_rest bi (print got (snd x))), x))
    else fun x => (Ok (extract_rest bi (snd x)), x).
  Definition t_extract_tool (boxType : btype) (t : T) : res unit * list byte * T :=
    let (r, s) := t_read_box_structure std_registry (extract_first boxType) tt (t, mktst [] false) in
    ((if t_panic (snd s) then Panic else match r with Ok _ => Ok tt | Err e => Err e | Panic => Panic | OutOfFuel => OutOfFuel end),
     t_out (snd s), fst s).

  (** ** psshdump: cmd/mp4tool/internal/psshdump/psshdump.go:28-76 *)
  Definition t_read_raw (bi : boxinfo) : M T (list byte) :=
    if maxAlloc <=? bi_size bi then panic
    else if bi_size bi =? 0 then ret []
    else raw O (o_full O (bi_size bi)).
  Fixpoint t_pssh_loop (i : N) (l : list (boxinfo * (boxdef * list (string * val)))) (t : T)
    : res unit * list byte * T :=
    match l with
    | [] => (Ok tt, [], t)
    | (bi, (_, x)) :: r =>
        match (g_seek O (bi_offset bi) ;;; t_read_raw bi) t with
        | (Ok raw, t') => let '(q, out, t'') := t_pssh_loop (i + 1) r t' in (q, pssh_text i bi x raw ++ out, t'')
        | (Err e, t') => (Err e, [], t')
        | (Panic, t') => (Panic, [], t')
        | (OutOfFuel, t') => (OutOfFuel, [], t')
        end
    end.
  Definition t_psshdump_tool (t : T) : res unit * list byte * T :=
    match g_extract_boxes_with_payload O lf tf std_registry None [[bt "moov"; bt "pssh"]; [bt "moof"; bt "pssh"]] t with
    | (Ok l, t') => t_pssh_loop 0 l t'
    | (Err e, t') => (Err e, [], t')
    | (Panic, t') => (Panic, [], t')
    | (OutOfFuel, t') => (OutOfFuel, [], t')
    end.

  (** ** probe: cmd/mp4tool/internal/probe/probe.go:85-154, as in ProbeTool.v *)
  Definition t_report_row (info : probeinfo) (tr : track) : M T trow :=
    let bitrate := samples_bitrate (t_samples tr) (t_timescale tr) in
    maxBitrate <- lift_res (samples_max_bitrate (t_samples tr) (t_timescale tr) (t_timescale tr)) ;;
    let '(bitrate, maxBitrate) :=
      if (bitrate =? 0) || (maxBitrate =? 0)
      then (segments_bitrate (p_segments info) (t_id tr) (t_timescale tr),
            segments_max_bitrate (p_segments info) (t_id tr) (t_timescale tr))
      else (bitrate, maxBitrate) in
    let row codec width height idr :=
      mktrow (t_id tr) (t_timescale tr) (t_duration tr) (mkseconds (t_duration tr) (t_timescale tr)) codec (t_encrypted tr)
             width height (lenN (t_samples tr)) (lenN (t_chunks tr)) idr bitrate maxBitrate in
    match t_codec tr with
    | CodecAVC1 =>
        let '(codec, width, height) :=
          match t_avc tr with
          | Some a => (lit "avc1." ++ hex2_upper (a_profile a) ++ hex2_upper (a_compat a) ++ hex2_upper (a_level a), a_width a, a_height a)
          | None => (lit "avc1", 0, 0)
          end in
        idxs <- g_find_idr_frames O nal_fuel tr ;;
        ret (row codec width height (match idxs with Some l => lenN l | None => 0 end))
    | CodecMP4A =>
        ret (row (match t_mp4a tr with
                  | None => lit "mp4a"
                  | Some m =>
                      if m_oti m =? 0 then lit "mp4a"
                      else if m_audoti m =? 0 then lit "mp4a." ++ hex_upper (m_oti m)
                      else lit "mp4a." ++ hex_upper (m_oti m) ++ lit "." ++ dec_text (m_audoti m)
                  end) 0 0 0)
    | CodecUnknown => ret (row (lit "unknown") 0 0 0)
    end.
  Definition t_build_report : M T report :=
    info <- g_probe O lf tf std_registry ;;
    rows <- for_each (fun _ tr rows => row <- t_report_row info tr ;; ret (rows ++ [row])) 0 (p_tracks info) [] ;;
    ret (mkreport (p_major info) (p_minor info) (p_brands info) (p_fast info) (p_timescale info) (p_duration info)
                  (mkseconds (p_duration info) (p_timescale info)) rows).
End Tools.
