(** The command divide on an open set of reader operations (AnyReader.v): the text
    of Divide.v with the reading operations in place of the contents of the file.
    The bytes of a payload that is copied are collected before they are written. *)
From Verif Require Import Base Schema Structs Registry Unmarshal BoxInfo ReadTree Extract Accessors Probe Writer GoText ProbeTool Divide AnyReader ToolReader.
Local Open Scope string_scope.
Local Open Scope list_scope.
Local Open Scope N_scope.
Local Open Scope monad_scope.

Section DivideReader.
  Context {S T : Type} (O : reader S T) (lf : positive) (tf : nat).
  Definition t_found (bi : boxinfo) (ps : list path) := g_extract_boxes_with_payload O lf tf std_registry (Some bi) ps.
  Definition t_there (bi : boxinfo) (ps : list path) := g_extract_boxes O lf tf std_registry (Some bi) ps.

  (** ** The tracks: cmd/mp4tool/internal/divide/divide.go:74-154, as in Divide.v *)
  Definition t_only_box (bi : boxinfo) (p : path) : M T fields :=
    bs <- t_found bi [p] ;;
    match bs with
    | [(_, (_, x))] => ret x
    | _ => fail (EMsg "trak box must have one box")
    end.
  Definition t_new_track (bi : boxinfo) : M T (option dtrack) :=
    tkhd <- t_only_box bi [bt "tkhd"] ;;
    mdhd <- t_only_box bi [bt "mdia"; bt "mdhd"] ;;
    let track ty h w := Some (mkdt (uint_of "TrackID" tkhd) ty (uint_of "Timescale" mdhd) 0 h w [] 0 0 0) in
    avc1 <- t_found bi (stsd_path "avc1") ;;
    match avc1 with
    | (_, (_, x)) :: _ => ret (track TVideo (uint_of "Height" x) (uint_of "Width" x))
    | [] =>
        mp4a <- t_there bi (stsd_path "mp4a") ;;
        match mp4a with
        | _ :: _ => ret (track TAudio 0 0)
        | [] =>
            encv <- t_found bi (stsd_path "encv") ;;
            match encv with
            | (_, (_, x)) :: _ => ret (track TEncVideo (uint_of "Height" x) (uint_of "Width" x))
            | [] =>
                enca <- t_there bi (stsd_path "enca") ;;
                match enca with
                | _ :: _ => ret (track TEncAudio 0 0)
                | [] => ret None
                end
            end
        end
    end.
  Definition t_track_map : M T (list dtrack) :=
    bis <- g_extract_boxes O lf tf std_registry None [[bt "moov"; bt "trak"]] ;;
    for_each (fun _ bi l =>
      o <- t_new_track bi ;;
      ret (match o with Some t => put_track t l | None => l end)) 0 bis [].

  (** ** The handler: divide.go:171-337.  First what it extracts from the box (for
      a moof, currTrackID is set in between). *)
  Variable order : N -> list N -> list N.
  Variable bits_per_second : N -> seconds -> N.
  Variable seconds_text : seconds -> text.
  Variable target_text : list seconds -> text.
  Definition t_dextract (bi : boxinfo) (p : path) : M (T * dst) (list (boxinfo * (boxdef * fields))) := fun x =>
    match t_found bi [p] (fst x) with
    | (Ok bs, t) => (Ok bs, (t, snd x))
    | (Err e, t) => (Err e, (t, snd x))
    | (r, t) => (Err EEOF, (t, stop r (snd x)))
    end.
  Definition then_run (p : dst -> dprog) : M (T * dst) dprog := fun x => (Ok (p (snd x)), x).
  Definition divide_first (bi : boxinfo) : M (T * dst) dprog :=
    if is bi ["moov"; "ftyp"; "pssh"; "mvhd"; "trak"; "mvex"; "udta"; "sidx"] then
      if is bi ["trak"] then
        bs <- t_dextract bi [bt "tkhd"] ;;
        then_run (fun s =>
          match bs with
          | [(_, (_, tkhd))] => init_box order bi (fun id => id =? uint_of "TrackID" tkhd) s
          | _ => HFail s (EMsg "trak box must have one tkhd box")
          end)
      else then_run (init_box order bi (fun _ => true))
    else if is bi ["moof"] then
      bs <- t_dextract bi [bt "traf"; bt "tfhd"] ;;
      match bs with
      | [(_, (_, tfhd))] =>
          (fun x => (Ok tt, (fst x, set_curr (uint_of "TrackID" tfhd) (snd x)))) ;;;
          x <- get ;;
          match find_track (ds_curr (snd x)) (snd x) with
          | None => then_run (fun s => HRet s None)
          | Some t =>
              let default := if check_flag tfhd 0x8 then uint_of "DefaultSampleDuration" tfhd else 0 in
              bs <- t_dextract bi [bt "traf"; bt "trun"] ;;
              then_run (fun s =>
                match bs with
                | (_, (_, trun)) :: _ => copy_segment bi (next_segment t (trun_duration default trun) s)
                | [] => HFail (stop (@Panic unit) s) EEOF
                end)
          end
      | _ => then_run (fun s => HFail s (EMsg "trak box must have one tkhd box"))
      end
    else if is bi ["mdat"] then
      then_run (fun s =>
        match find_track (ds_curr s) s with
        | None => HRet s None
        | Some t =>
            match rev (d_segments t) with
            | [] => HFail (stop (@Panic unit) s) EEOF
            | d :: _ =>
                let b := bits_per_second (bi_size bi) d in
                copy_segment bi (if d_bandwidth t <? b then set_track (set_bandwidth b t) s else s)
            end
        end)
    else if is bi ["mfra"] then then_run (fun s => HRet s None)
    else then_run (fun s => HFail s (EMsg "unexpected box type")).

  (** divide: divide.go:67-357: nil or an error, the files, the input afterwards *)
  Definition t_divide (t : T) : res unit * (fpath -> option (list byte)) * T :=
    match t_track_map t with
    | (Ok tracks, t) =>
        match create_files order (mkds tracks no_files 0xFFFFFFFF 0 (Ok tt)) with
        | (Ok _, s) =>
            let (r, x) := t_read_box_structure O lf tf std_registry divide_first tt (t, s) in
            let s := snd x in
            match ds_stop s, r with
            | Ok _, Ok _ => let (r, s) := playlists order seconds_text target_text s in (r, ds_files s, fst x)
            | Ok _, Err e => (Err e, ds_files s, fst x)
            | Ok _, Panic => (Panic, ds_files s, fst x)
            | Ok _, OutOfFuel => (OutOfFuel, ds_files s, fst x)
            | r, _ => (r, ds_files s, fst x)
            end
        | (r, s) => (r, ds_files s, t)
        end
    | (Err e, t) => (Err e, no_files, t)
    | (Panic, t) => (Panic, no_files, t)
    | (OutOfFuel, t) => (OutOfFuel, no_files, t)
    end.
End DivideReader.
