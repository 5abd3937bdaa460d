(** Model of cmd/mp4tool/internal/divide/divide.go on a disk where the calls that
    create a file, and those that write to one or move its position, may fail: the
    text of Divide.v with a script of these calls, [None] for one that succeeds,
    [Some k] for one that fails (a Write after [k] bytes).  What Close returns is not
    looked at anywhere in divide.go; these calls are not in the script. *)
From Verif Require Import Base Schema Structs Registry Unmarshal BoxInfo ReadTree Extract Accessors Probe GoText Writer ProbeTool Divide.
Local Open Scope string_scope.
Local Open Scope list_scope.
Local Open Scope N_scope.
Local Open Scope monad_scope.

Definition script := list (option N).
Definition fdst := (dst * script)%type.
(** what creates and writes no file *)
Definition still {A} (m : M dst A) : M fdst A := fun x => let (r, s) := m (fst x) in (r, (s, snd x)).

(** does the next call succeed, and the calls after it *)
Definition next_call (f : script) : bool * script :=
  match f with Some _ :: r => (false, r) | None :: r => (true, r) | [] => (true, []) end.
(** A call of Seek, and what is done when it succeeds *)
Definition seeking {A} (m : M ofile A) : M ofile A := fun f =>
  let (ok, r) := next_call (o_faults f) in
  if ok then m (mkof (o_data f) (o_pos f) r) else (Err ESeek, mkof (o_data f) (o_pos f) r).
(** WriteBoxInfo: box_info.go:66-99.  It begins with Seek(0, io.SeekCurrent). *)
Definition write_info (bi : boxinfo) : M ofile boxinfo := seeking (write_box_info bi).
(** io.CopyN: Write for one piece after another, up to the first that fails *)
Fixpoint o_writes (ps : list (list byte)) : M ofile unit :=
  match ps with [] => ret tt | p :: r => o_write p ;;; o_writes r end.

(** An operation on a file of a track, as in Divide.v *)
Definition init_op_on {A} (id : N) (m : M ofile A) : M fdst A := fun x =>
  let s := fst x in
  match find_track id s with
  | None => (Panic, x)
  | Some t =>
      let p := Of (d_type t) Init in
      let (r, f) := m (mkof (content p s) (d_ipos t) (snd x)) in
      (r, (set_track (set_ipos (o_pos f) t) (set_file p (o_data f) s), o_faults f))
  end.
Definition seg_op_on {A} (id : N) (m : M ofile A) : M fdst A := fun x =>
  let s := fst x in
  match find_track id s with
  | None => (Panic, x)
  | Some t =>
      let p := Of (d_type t) (Seg (d_sname t)) in
      let (r, f) := m (mkof (content p s) (d_spos t) (snd x)) in
      (r, (set_track (set_spos (o_pos f) t) (set_file p (o_data f) s), o_faults f))
  end.
(** os.Create: the file is empty afterwards *)
Definition create_on (p : fpath) : M fdst unit := fun x =>
  let (ok, r) := next_call (snd x) in
  if ok then (Ok tt, (set_file p [] (fst x), r)) else (Err EWrite, (fst x, r)).

Section Divide.
  Variable order : N -> list N -> list N.
  Variable bits_per_second : N -> seconds -> N.
  Variable seconds_text : seconds -> text.
  Variable target_text : list seconds -> text.
  (** the pieces in which io.CopyN hands over a payload, which depend on what the Read
      calls return *)
  Variable split : list byte -> list (list byte).
  Variable data : list byte.

  Definition range_on {A} (body : N -> A -> M fdst A) (a : A) : M fdst A := fun x =>
    let (ids, s') := visit order (fst x) in for_each (fun _ id a => body id a) 0 ids a (s', snd x).

  (** divide.go:156-168.  os.MkdirAll, whose error is not looked at, is left out:
      without the directory os.Create fails. *)
  Definition create_files_on : M fdst unit :=
    range_on (fun id _ x =>
      match find_track id (fst x) with
      | Some t => (create_on (Of (d_type t) Init) ;;; create_on (Of (d_type t) (Seg 0))) x
      | None => (Panic, x)
      end) tt.

  (** ** The handler: divide.go:171-337 *)
  Definition fprog := hprog fdst (option sizes) unit.
  Definition fcall {A} (m : M fdst A) (x : fdst) (k : A -> fdst -> fprog) : fprog :=
    match m x with
    | (Ok a, x') => k a x'
    | (Err e, x') => HFail x' e
    | (r, x') => HFail (stop r (fst x'), snd x') EEOF
    end.
  Definition fextract (bi : boxinfo) (p : path) (x : fdst) (k : list (boxinfo * (boxdef * fields)) -> fprog) : fprog :=
    let (r, pos) := extract_boxes_with_payload std_registry data (Some bi) [p] 0 in
    HMove pos
      (match r with
       | Ok bs => k bs
       | Err e => HFail x e
       | r => HFail (stop r (fst x), snd x) EEOF
       end).
  (** write headers: divide.go:199-211 *)
  Definition write_headers_on (bi : boxinfo) (mine : N -> bool) : M fdst bimap :=
    range_on (fun id m =>
      if mine id then
        o <- init_op_on id (seeking o_seek_end) ;;
        b <- init_op_on id (write_info bi) ;;
        ret (put_bi id (o, set_size b (bi_hsize b)) m)
      else ret m) [].
  (** rewrite headers, and the value: divide.go:239-255 *)
  Definition rewrite_headers_on (mine : N -> bool) (m : bimap) : M fdst bimap :=
    range_on (fun id m =>
      if mine id then
        match get_bi id m with
        | Some (o, b) =>
            init_op_on id (seeking (o_seek o)) ;;;
            b' <- init_op_on id (write_info b) ;;
            ret (put_bi id (o, b') m)
        | None => panic
        end
      else ret m) m.
  Definition finish_init_on (mine : N -> bool) (m : bimap) (x : fdst) : fprog :=
    fcall (rewrite_headers_on mine m) x (fun m x => HRet x (Some (map (fun x => (fst x, bi_size (snd (snd x)))) m))).
  (** copy all data of payload: divide.go:227-236 *)
  Fixpoint copy_payload_on (mine : N -> bool) (ids : list N) (m : bimap) (x : fdst) : fprog :=
    match ids with
    | [] => finish_init_on mine m x
    | id :: r =>
        if mine id then
          HReadData (fun y =>
            match y with
            | Ok (d, n) => fcall (init_op_on id (o_writes (split d)) ;;; still (add_size id n m)) x (fun m x => copy_payload_on mine r m x)
            | Err e => HFail x e
            | y => HFail (stop y (fst x), snd x) EEOF
            end)
        else copy_payload_on mine r m x
    end.
  (** divide.go:199-255 *)
  Definition init_box_on (bi : boxinfo) (mine : N -> bool) (x : fdst) : fprog :=
    fcall (write_headers_on bi mine) x (fun m x =>
      if bt_eqb (bi_type bi) (bt "moov") then
        HExpand x tt (fun r x =>
          match r with
          | Ok vals => fcall (still (add_children order vals m)) x (finish_init_on mine)
          | Err e => HFail x e
          | r => HFail (stop r (fst x), snd x) EEOF
          end)
      else let (ids, s) := visit order (fst x) in copy_payload_on mine ids m (s, snd x)).
  (** divide.go:320-328 *)
  Definition copy_segment_on (bi : boxinfo) (x : fdst) : fprog :=
    fcall (seg_op_on (ds_curr (fst x)) (write_info bi)) x (fun _ x =>
      HReadData (fun y =>
        match y with
        | Ok (d, n) => fcall (seg_op_on (ds_curr (fst x)) (o_writes (split d))) x (fun _ x => HRet x None)
        | Err e => HFail x e
        | y => HFail (stop y (fst x), snd x) EEOF
        end)).
  (** the next segment file: divide.go:298-306 *)
  Definition next_segment_on (t : dtrack) (duration : N) : M fdst unit :=
    let i := lenN (d_segments t) in
    create_on (Of (d_type t) (Seg i)) ;;;
    still (fun s => (Ok tt, set_track (mkdt (d_id t) (d_type t) (d_timescale t) (d_bandwidth t) (d_height t) (d_width t)
                                        (d_segments t ++ [mkseconds duration (d_timescale t)]) (d_ipos t) i 0) s)).
  Definition divide_handler_on : handler_t fdst (option sizes) unit := fun bi _ _ x =>
    if is bi ["moov"; "ftyp"; "pssh"; "mvhd"; "trak"; "mvex"; "udta"; "sidx"] then
      if is bi ["trak"] then
        fextract bi [bt "tkhd"] x (fun bs =>
          match bs with
          | [(_, (_, tkhd))] => init_box_on bi (fun id => id =? uint_of "TrackID" tkhd) x
          | _ => HFail x (EMsg "trak box must have one tkhd box")
          end)
      else init_box_on bi (fun _ => true) x
    else if is bi ["moof"] then
      fextract bi [bt "traf"; bt "tfhd"] x (fun bs =>
        match bs with
        | [(_, (_, tfhd))] =>
            let x := (set_curr (uint_of "TrackID" tfhd) (fst x), snd x) in
            match find_track (ds_curr (fst x)) (fst x) with
            | None => HRet x None
            | Some t =>
                let default := if check_flag tfhd 0x8 then uint_of "DefaultSampleDuration" tfhd else 0 in
                fextract bi [bt "traf"; bt "trun"] x (fun bs =>
                  match bs with
                  | (_, (_, trun)) :: _ => fcall (next_segment_on t (trun_duration default trun)) x (fun _ x => copy_segment_on bi x)
                  | [] => HFail (stop (@Panic unit) (fst x), snd x) EEOF
                  end)
            end
        | _ => HFail x (EMsg "trak box must have one tkhd box")
        end)
    else if is bi ["mdat"] then
      match find_track (ds_curr (fst x)) (fst x) with
      | None => HRet x None
      | Some t =>
          match rev (d_segments t) with
          | [] => HFail (stop (@Panic unit) (fst x), snd x) EEOF
          | d :: _ =>
              let b := bits_per_second (bi_size bi) d in
              copy_segment_on bi (if d_bandwidth t <? b then set_track (set_bandwidth b t) (fst x) else fst x, snd x)
          end
      end
    else if is bi ["mfra"] then HRet x None
    else HFail x (EMsg "unexpected box type").

  (** ** Playlists.  The calls that write to the file: [true] for fmt.Fprintf, whose
      error is returned, [false] for file.WriteString, whose error is not looked at. *)
  Fixpoint put_lines (l : list (bool * text)) : M ofile unit := fun f =>
    match l with
    | [] => (Ok tt, f)
    | (checked, t) :: r =>
        match o_write t f with
        | (Ok _, f') => put_lines r f'
        | (Err e, f') => if checked then (Err e, f') else put_lines r f'
        | (Panic, f') => (Panic, f')
        | (OutOfFuel, f') => (OutOfFuel, f')
        end
    end.
  Definition playlist_on (p : fpath) (l : list (bool * text)) : M fdst unit := fun x =>
    let (ok, rest) := next_call (snd x) in
    if ok then let (r, f) := put_lines l (mkof [] 0 rest) in (r, (set_file p (o_data f) (fst x), o_faults f))
    else (Err EWrite, (fst x, rest)).
  (** outputMediaPlaylist: divide.go:403-434 *)
  Fixpoint media_calls (i : N) (l : list seconds) : list (bool * text) :=
    match l with
    | [] => []
    | d :: r => (true, lit "#EXTINF:" ++ seconds_text d ++ lit "," ++ nl) :: (true, segment_name i ++ nl) :: media_calls (i + 1) r
    end.
  Definition media_playlist_calls (l : list seconds) : list (bool * text) :=
    [ (false, lit "#EXTM3U" ++ nl); (false, lit "#EXT-X-VERSION:7" ++ nl);
      (true, lit "#EXT-X-TARGETDURATION:" ++ target_text l ++ nl);
      (false, lit "#EXT-X-PLAYLIST-TYPE:VOD" ++ nl); (false, lit "#EXT-X-MAP:URI=" ++ quoted (lit "init.mp4") ++ nl) ] ++
    media_calls 0 l ++ [ (false, lit "#EXT-X-ENDLIST" ++ nl) ].
  (** outputMasterPlaylist: divide.go:359-401 *)
  Definition master_playlist_calls (m : ttype -> option dtrack) : list (bool * text) :=
    let adir := match m TAudio, m TEncAudio with
                | Some _, _ => Some TAudio | None, Some _ => Some TEncAudio | None, None => None end in
    let video := match m TVideo, m TEncVideo with
                 | Some t, _ => Some (TVideo, t) | None, Some t => Some (TEncVideo, t) | None, None => None end in
    (false, lit "#EXTM3U" ++ nl) ::
    match adir with
    | Some d => [ (false, lit "#EXT-X-MEDIA:TYPE=AUDIO,URI=" ++ quoted (dir_name d ++ lit "/playlist.m3u8") ++ lit ",GROUP-ID=" ++ quoted (lit "audio") ++
                          lit ",NAME=" ++ quoted (lit "audio") ++ lit ",AUTOSELECT=YES,CHANNELS=" ++ quoted (lit "2") ++ nl) ]
    | None => []
    end ++
    match video with
    | Some (d, t) =>
        (true, lit "#EXT-X-STREAM-INF:BANDWIDTH=" ++ dec_text (d_bandwidth t) ++ lit ",CODECS=" ++ quoted (lit "avc1.64001f,mp4a.40.2") ++
               lit ",RESOLUTION=" ++ dec_text (d_width t) ++ lit "x" ++ dec_text (d_height t)) ::
        match adir with Some _ => [ (false, lit ",AUDIO=" ++ quoted (lit "audio")) ] | None => [] end ++
        [ (false, nl); (false, dir_name d ++ lit "/playlist.m3u8" ++ nl) ]
    | None => []
    end.
  (** divide.go:341-354 *)
  Definition playlists_on : M fdst unit :=
    m <- range_on (fun id m x =>
           match find_track id (fst x) with
           | Some t => (Ok (fun ty => if ttype_eqb ty (d_type t) then Some t else m ty), x)
           | None => (Panic, x)
           end) (fun _ => None) ;;
    playlist_on Master (master_playlist_calls m) ;;;
    range_on (fun id _ x =>
      match find_track id (fst x) with
      | Some t => playlist_on (Of (d_type t) Playlist) (media_playlist_calls (d_segments t)) x
      | None => (Panic, x)
      end) tt.

  (** divide: divide.go:67-357: nil or an error, the files, what is left of the script *)
  Definition divide_on (faults : script) : res unit * (fpath -> option (list byte)) * script :=
    match track_map data 0 with
    | (Ok tracks, pos) =>
        match create_files_on (mkds tracks no_files 0xFFFFFFFF 0 (Ok tt), faults) with
        | (Ok _, x) =>
            let (r, y) := read_box_structure std_registry data divide_handler_on tt (pos, x) in
            let x := snd y in
            match ds_stop (fst x), r with
            | Ok _, Ok _ => let (r, x) := playlists_on x in (r, ds_files (fst x), snd x)
            | Ok _, Err e => (Err e, ds_files (fst x), snd x)
            | Ok _, Panic => (Panic, ds_files (fst x), snd x)
            | Ok _, OutOfFuel => (OutOfFuel, ds_files (fst x), snd x)
            | r, _ => (r, ds_files (fst x), snd x)
            end
        | (r, x) => (r, ds_files (fst x), snd x)
        end
    | (Err e, _) => (Err e, no_files, faults)
    | (Panic, _) => (Panic, no_files, faults)
    | (OutOfFuel, _) => (OutOfFuel, no_files, faults)
    end.
End Divide.
