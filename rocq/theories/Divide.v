(** Model of cmd/mp4tool/internal/divide/divide.go.
    Simplified throughout: creating directories and files succeeds, and so does
    writing to them; a box is copied with one call of Write. *)
From Verif Require Import Base Schema Structs Registry Unmarshal BoxInfo ReadTree Extract Accessors Probe GoText Writer ProbeTool.
Local Open Scope string_scope.
Local Open Scope list_scope.
Local Open Scope N_scope.
Local Open Scope monad_scope.

(** trackType: divide.go:45-52, and the directories: divide.go:14-17 *)
Inductive ttype := TVideo | TAudio | TEncVideo | TEncAudio.
Definition ttype_eqb (a b : ttype) : bool :=
  match a, b with
  | TVideo, TVideo | TAudio, TAudio | TEncVideo, TEncVideo | TEncAudio, TEncAudio => true
  | _, _ => false
  end.
Definition dir_name (t : ttype) : text :=
  match t with
  | TVideo => lit "video" | TAudio => lit "audio" | TEncVideo => lit "video_enc" | TEncAudio => lit "audio_enc"
  end.
(** The files below the output directory: divide.go:18-24.  The playlist at the
    top; in the directory of a type init.mp4, the segments and a playlist. *)
Inductive fname := Init | Seg (i : N) | Playlist.
Inductive fpath := Master | Of (t : ttype) (n : fname).
Definition fname_eqb (a b : fname) : bool :=
  match a, b with
  | Init, Init | Playlist, Playlist => true
  | Seg i, Seg j => i =? j
  | _, _ => false
  end.
Definition fpath_eqb (a b : fpath) : bool :=
  match a, b with
  | Master, Master => true
  | Of t m, Of u n => ttype_eqb t u && fname_eqb m n
  | _, _ => false
  end.
Definition segment_name (i : N) : text := dec_text i ++ lit ".mp4".

(** track: divide.go:54-65.  A duration is a quotient that is not carried out, see
    ProbeTool.  Of the open files the positions are kept, and the number in the
    name of the segment file. *)
Record dtrack := mkdt
  { d_id : N; d_type : ttype; d_timescale : N; d_bandwidth : N; d_height : N; d_width : N;
    d_segments : list seconds; d_ipos : N; d_sname : N; d_spos : N }.
(** The tracks (a map by ID), the files, the variable currTrackID, how many
    loops over the map there have been, and whether a panic (or an endless loop in the
    package) has put an end to everything. *)
Record dst := mkds { ds_tracks : list dtrack; ds_files : fpath -> option (list byte); ds_curr : N; ds_loops : N; ds_stop : res unit }.
Definition stop {A} (r : res A) (s : dst) : dst :=
  mkds (ds_tracks s) (ds_files s) (ds_curr s) (ds_loops s) (match r with OutOfFuel => OutOfFuel | _ => Panic end).
Definition set_curr (id : N) (s : dst) : dst := mkds (ds_tracks s) (ds_files s) id (ds_loops s) (ds_stop s).
Definition set_file (p : fpath) (c : list byte) (s : dst) : dst :=
  mkds (ds_tracks s) (fun q => if fpath_eqb p q then Some c else ds_files s q) (ds_curr s) (ds_loops s) (ds_stop s).
Definition find_track (id : N) (s : dst) : option dtrack := find (fun t => d_id t =? id) (ds_tracks s).
Definition set_track (t : dtrack) (s : dst) : dst :=
  mkds (map (fun u => if d_id u =? d_id t then t else u) (ds_tracks s)) (ds_files s) (ds_curr s) (ds_loops s) (ds_stop s).
Definition set_ipos (n : N) (t : dtrack) : dtrack :=
  mkdt (d_id t) (d_type t) (d_timescale t) (d_bandwidth t) (d_height t) (d_width t) (d_segments t) n (d_sname t) (d_spos t).
Definition set_spos (n : N) (t : dtrack) : dtrack :=
  mkdt (d_id t) (d_type t) (d_timescale t) (d_bandwidth t) (d_height t) (d_width t) (d_segments t) (d_ipos t) (d_sname t) n.
Definition set_bandwidth (n : N) (t : dtrack) : dtrack :=
  mkdt (d_id t) (d_type t) (d_timescale t) n (d_height t) (d_width t) (d_segments t) (d_ipos t) (d_sname t) (d_spos t).
Definition content (p : fpath) (s : dst) : list byte := match ds_files s p with Some c => c | None => [] end.

(** An operation on a file of a track; a map without the ID yields nil *)
Definition init_op {A} (id : N) (m : M ofile A) : M dst A := fun s =>
  match find_track id s with
  | None => (Panic, s)
  | Some t =>
      let p := Of (d_type t) Init in
      let (r, f) := m (mkof (content p s) (d_ipos t) []) in
      (r, set_track (set_ipos (o_pos f) t) (set_file p (o_data f) s))
  end.
Definition seg_op {A} (id : N) (m : M ofile A) : M dst A := fun s =>
  match find_track id s with
  | None => (Panic, s)
  | Some t =>
      let p := Of (d_type t) (Seg (d_sname t)) in
      let (r, f) := m (mkof (content p s) (d_spos t) []) in
      (r, set_track (set_spos (o_pos f) t) (set_file p (o_data f) s))
  end.
(** Seek(0, io.SeekEnd) *)
Definition o_seek_end : M ofile N := fun f => (Ok (lenN (o_data f)), mkof (o_data f) (lenN (o_data f)) (o_faults f)).

(** ** The tracks: divide.go:74-154 *)
Section Tracks.
  Variable data : list byte.
  Definition stsd_path (t : string) : list path := [[bt "mdia"; bt "minf"; bt "stbl"; bt "stsd"; bt t]].
  (** a box of which there must be one: divide.go:84-90, 94-100 *)
  Definition only_box (bi : boxinfo) (p : path) : M N fields :=
    bs <- extract_boxes_with_payload std_registry data (Some bi) [p] ;;
    match bs with
    | [(_, (_, x))] => ret x
    | _ => fail (EMsg "trak box must have one box")
    end.
  (** divide.go:81-153: the track, unless its type is unknown.  The message
      (WARN) is left out. *)
  Definition new_track (bi : boxinfo) : M N (option dtrack) :=
    tkhd <- only_box bi [bt "tkhd"] ;;
    mdhd <- only_box bi [bt "mdia"; bt "mdhd"] ;;
    let track ty h w := Some (mkdt (uint_of "TrackID" tkhd) ty (uint_of "Timescale" mdhd) 0 h w [] 0 0 0) in
    avc1 <- extract_boxes_with_payload std_registry data (Some bi) (stsd_path "avc1") ;;
    match avc1 with
    | (_, (_, x)) :: _ => ret (track TVideo (uint_of "Height" x) (uint_of "Width" x))
    | [] =>
        mp4a <- extract_boxes std_registry data (Some bi) (stsd_path "mp4a") ;;
        match mp4a with
        | _ :: _ => ret (track TAudio 0 0)
        | [] =>
            encv <- extract_boxes_with_payload std_registry data (Some bi) (stsd_path "encv") ;;
            match encv with
            | (_, (_, x)) :: _ => ret (track TEncVideo (uint_of "Height" x) (uint_of "Width" x))
            | [] =>
                enca <- extract_boxes std_registry data (Some bi) (stsd_path "enca") ;;
                match enca with
                | _ :: _ => ret (track TEncAudio 0 0)
                | [] => ret None
                end
            end
        end
    end.
  (** tracks[t.id] = t *)
  Fixpoint put_track (t : dtrack) (l : list dtrack) : list dtrack :=
    match l with
    | [] => [t]
    | u :: r => if d_id u =? d_id t then t :: r else u :: put_track t r
    end.
  Definition track_map : M N (list dtrack) :=
    bis <- extract_boxes std_registry data None [[bt "moov"; bt "trak"]] ;;
    for_each (fun _ bi l =>
      o <- new_track bi ;;
      ret (match o with Some t => put_track t l | None => l end)) 0 bis [].
End Tracks.

Section Divide.
  (** The order in which a loop visits a map: any order, another one each time.
      Given are the number of the loop and the keys. *)
  Variable order : N -> list N -> list N.
  (** uint64(float64(size) * 8 / duration); duration as %f; int(math.Ceil(...)) of
      the longest one as %d: floating point is not modelled *)
  Variable bits_per_second : N -> seconds -> N.
  Variable seconds_text : seconds -> text.
  Variable target_text : list seconds -> text.
  Variable data : list byte.

  (** for ... := range tracks *)
  Definition visit (s : dst) : list N * dst :=
    (order (ds_loops s) (map d_id (ds_tracks s)), mkds (ds_tracks s) (ds_files s) (ds_curr s) (ds_loops s + 1) (ds_stop s)).
  Definition range {A} (body : N -> A -> M dst A) (a : A) : M dst A := fun s =>
    let (ids, s') := visit s in for_each (fun _ id a => body id a) 0 ids a s'.

  (** divide.go:156-168 *)
  Definition create_files : M dst unit :=
    range (fun id _ s =>
      match find_track id s with
      | Some t => (Ok tt, set_file (Of (d_type t) (Seg 0)) [] (set_file (Of (d_type t) Init) [] s))
      | None => (Panic, s)
      end) tt.

  (** ** The handler: divide.go:171-337.  The value: childInfo or nil. *)
  Definition sizes := list (N * N).
  Definition dprog := hprog dst (option sizes) unit.
  Definition dcall {A} (m : M dst A) (s : dst) (k : A -> dst -> dprog) : dprog :=
    match m s with
    | (Ok a, s') => k a s'
    | (Err e, s') => HFail s' e
    | (r, s') => HFail (stop r s') EEOF
    end.
  (** ExtractBoxWithPayload on the file the handler reads from.  It seeks first, so
      that the position it starts from does not matter. *)
  Definition dextract (bi : boxinfo) (p : path) (s : dst) (k : list (boxinfo * (boxdef * fields)) -> dprog) : dprog :=
    let (r, pos) := extract_boxes_with_payload std_registry data (Some bi) [p] 0 in
    HMove pos
      (match r with
       | Ok bs => k bs
       | Err e => HFail s e
       | r => HFail (stop r s) EEOF
       end).
  (** offsetMap and biMap, together *)
  Definition bimap := list (N * (N * boxinfo)).
  Fixpoint get_bi (id : N) (m : bimap) : option (N * boxinfo) :=
    match m with
    | [] => None
    | (k, x) :: r => if k =? id then Some x else get_bi id r
    end.
  Fixpoint put_bi (id : N) (x : N * boxinfo) (m : bimap) : bimap :=
    match m with
    | [] => [(id, x)]
    | (k, y) :: r => if k =? id then (id, x) :: r else (k, y) :: put_bi id x r
    end.
  (** biMap[id].Size += n *)
  Definition add_size (id n : N) (m : bimap) : M dst bimap :=
    match get_bi id m with
    | Some (o, b) => ret (put_bi id (o, set_size b (w64 (bi_size b + n))) m)
    | None => panic
    end.
  (** 0 for a missing key *)
  Fixpoint child_size (id : N) (ci : sizes) : N :=
    match ci with
    | [] => 0
    | (k, n) :: r => if k =? id then n else child_size id r
    end.
  (** write headers: divide.go:199-211 *)
  Definition write_headers (bi : boxinfo) (mine : N -> bool) : M dst bimap :=
    range (fun id m =>
      if mine id then
        o <- init_op id o_seek_end ;;
        b <- init_op id (write_box_info bi) ;;
        ret (put_bi id (o, set_size b (bi_hsize b)) m)
      else ret m) [].
  (** divide.go:218-224; nil is not a childInfo *)
  Definition add_children (vals : list (option sizes)) (m : bimap) : M dst bimap :=
    for_each (fun _ v m =>
      match v with
      | Some ci => range (fun id m => add_size id (child_size id ci) m) m
      | None => panic
      end) 0 vals m.
  (** rewrite headers, and the value: divide.go:239-255 *)
  Definition rewrite_headers (mine : N -> bool) (m : bimap) : M dst bimap :=
    range (fun id m =>
      if mine id then
        match get_bi id m with
        | Some (o, b) =>
            init_op id (o_seek o) ;;;
            b' <- init_op id (write_box_info b) ;;
            ret (put_bi id (o, b') m)
        | None => panic
        end
      else ret m) m.
  Definition finish_init (mine : N -> bool) (m : bimap) (s : dst) : dprog :=
    dcall (rewrite_headers mine m) s (fun m s => HRet s (Some (map (fun x => (fst x, bi_size (snd (snd x)))) m))).
  (** copy all data of payload: divide.go:227-236 *)
  Fixpoint copy_payload (mine : N -> bool) (ids : list N) (m : bimap) (s : dst) : dprog :=
    match ids with
    | [] => finish_init mine m s
    | id :: r =>
        if mine id then
          HReadData (fun x =>
            match x with
            | Ok (d, n) => dcall (init_op id (o_write d) ;;; add_size id n m) s (fun m s => copy_payload mine r m s)
            | Err e => HFail s e
            | x => HFail (stop x s) EEOF
            end)
        else copy_payload mine r m s
    end.
  (** divide.go:199-255 *)
  Definition init_box (bi : boxinfo) (mine : N -> bool) (s : dst) : dprog :=
    dcall (write_headers bi mine) s (fun m s =>
      if bt_eqb (bi_type bi) (bt "moov") then
        HExpand s tt (fun r s =>
          match r with
          | Ok vals => dcall (add_children vals m) s (finish_init mine)
          | Err e => HFail s e
          | r => HFail (stop r s) EEOF
          end)
      else let (ids, s) := visit s in copy_payload mine ids m s).
  (** divide.go:320-328 *)
  Definition copy_segment (bi : boxinfo) (s : dst) : dprog :=
    dcall (seg_op (ds_curr s) (write_box_info bi)) s (fun _ s =>
      HReadData (fun x =>
        match x with
        | Ok (d, n) => dcall (seg_op (ds_curr s) (o_write d)) s (fun _ s => HRet s None)
        | Err e => HFail s e
        | x => HFail (stop x s) EEOF
        end)).
  (** divide.go:289-296 *)
  Definition trun_duration (default : N) (trun : fields) : N :=
    fold_left (fun d e => w32 (d + (if check_flag trun 0x100 then uint_of "SampleDuration" e else default)))
              (structs "Entries" trun) 0.
  (** the next segment file: divide.go:298-306 *)
  Definition next_segment (t : dtrack) (duration : N) (s : dst) : dst :=
    let i := lenN (d_segments t) in
    set_track (mkdt (d_id t) (d_type t) (d_timescale t) (d_bandwidth t) (d_height t) (d_width t)
                    (d_segments t ++ [mkseconds duration (d_timescale t)]) (d_ipos t) i 0)
              (set_file (Of (d_type t) (Seg i)) [] s).
  Definition is (bi : boxinfo) (l : list string) : bool := existsb (fun t => bt_eqb (bi_type bi) (bt t)) l.
  Definition divide_handler : handler_t dst (option sizes) unit := fun bi _ _ s =>
    if is bi ["moov"; "ftyp"; "pssh"; "mvhd"; "trak"; "mvex"; "udta"; "sidx"] then
      (* divide.go:182-197 *)
      if is bi ["trak"] then
        dextract bi [bt "tkhd"] s (fun bs =>
          match bs with
          | [(_, (_, tkhd))] => init_box bi (fun id => id =? uint_of "TrackID" tkhd) s
          | _ => HFail s (EMsg "trak box must have one tkhd box")
          end)
      else init_box bi (fun _ => true) s
    else if is bi ["moof"] then
      (* divide.go:263-306 *)
      dextract bi [bt "traf"; bt "tfhd"] s (fun bs =>
        match bs with
        | [(_, (_, tfhd))] =>
            let s := set_curr (uint_of "TrackID" tfhd) s in
            match find_track (ds_curr s) s with
            | None => HRet s None
            | Some t =>
                let default := if check_flag tfhd 0x8 then uint_of "DefaultSampleDuration" tfhd else 0 in
                dextract bi [bt "traf"; bt "trun"] s (fun bs =>
                  match bs with
                  | (_, (_, trun)) :: _ => copy_segment bi (next_segment t (trun_duration default trun) s)
                  | [] => HFail (stop (@Panic unit) s) EEOF
                  end)
            end
        | _ => HFail s (EMsg "trak box must have one tkhd box")
        end)
    else if is bi ["mdat"] then
      (* divide.go:309-317 *)
      match find_track (ds_curr s) s with
      | None => HRet s None
      | Some t =>
          match rev (d_segments t) with
          | [] => HFail (stop (@Panic unit) s) EEOF
          | d :: _ =>
              let b := bits_per_second (bi_size bi) d in
              copy_segment bi (if d_bandwidth t <? b then set_track (set_bandwidth b t) s else s)
          end
      end
    else if is bi ["mfra"] then HRet s None
    else HFail s (EMsg "unexpected box type").

  (** ** Playlists *)
  Definition quoted (s : text) : text := lit """" ++ s ++ lit """".
  Definition nl : text := [N2b 10].
  (** outputMediaPlaylist: divide.go:403-434 *)
  Fixpoint media_lines (i : N) (l : list seconds) : text :=
    match l with
    | [] => []
    | d :: r => lit "#EXTINF:" ++ seconds_text d ++ lit "," ++ nl ++ segment_name i ++ nl ++ media_lines (i + 1) r
    end.
  Definition media_playlist (l : list seconds) : text :=
    lit "#EXTM3U" ++ nl ++ lit "#EXT-X-VERSION:7" ++ nl ++ lit "#EXT-X-TARGETDURATION:" ++ target_text l ++ nl ++
    lit "#EXT-X-PLAYLIST-TYPE:VOD" ++ nl ++ lit "#EXT-X-MAP:URI=" ++ quoted (lit "init.mp4") ++ nl ++
    media_lines 0 l ++ lit "#EXT-X-ENDLIST" ++ nl.
  (** outputMasterPlaylist: divide.go:359-401.  [m]: trackTypeMap *)
  Definition master_playlist (m : ttype -> option dtrack) : text :=
    let adir := match m TAudio, m TEncAudio with
                | Some _, _ => Some TAudio | None, Some _ => Some TEncAudio | None, None => None end in
    let video := match m TVideo, m TEncVideo with
                 | Some t, _ => Some (TVideo, t) | None, Some t => Some (TEncVideo, t) | None, None => None end in
    lit "#EXTM3U" ++ nl ++
    match adir with
    | Some d => lit "#EXT-X-MEDIA:TYPE=AUDIO,URI=" ++ quoted (dir_name d ++ lit "/playlist.m3u8") ++ lit ",GROUP-ID=" ++ quoted (lit "audio") ++
                lit ",NAME=" ++ quoted (lit "audio") ++ lit ",AUTOSELECT=YES,CHANNELS=" ++ quoted (lit "2") ++ nl
    | None => []
    end ++
    match video with
    | Some (d, t) =>
        lit "#EXT-X-STREAM-INF:BANDWIDTH=" ++ dec_text (d_bandwidth t) ++ lit ",CODECS=" ++ quoted (lit "avc1.64001f,mp4a.40.2") ++
        lit ",RESOLUTION=" ++ dec_text (d_width t) ++ lit "x" ++ dec_text (d_height t) ++
        match adir with Some _ => lit ",AUDIO=" ++ quoted (lit "audio") | None => [] end ++ nl ++
        dir_name d ++ lit "/playlist.m3u8" ++ nl
    | None => []
    end.
  (** divide.go:341-354 *)
  Definition playlists : M dst unit :=
    m <- range (fun id m s =>
           match find_track id s with
           | Some t => (Ok (fun ty => if ttype_eqb ty (d_type t) then Some t else m ty), s)
           | None => (Panic, s)
           end) (fun _ => None) ;;
    (fun s => (Ok tt, set_file Master (master_playlist m) s)) ;;;
    range (fun id _ s =>
      match find_track id s with
      | Some t => (Ok tt, set_file (Of (d_type t) Playlist) (media_playlist (d_segments t)) s)
      | None => (Panic, s)
      end) tt.

  (** divide: divide.go:67-357, into an empty directory: nil or an error, and the
      files *)
  Definition no_files : fpath -> option (list byte) := fun _ => None.
  Definition divide : res unit * (fpath -> option (list byte)) :=
    match track_map data 0 with
    | (Ok tracks, pos) =>
        match create_files (mkds tracks no_files 0xFFFFFFFF 0 (Ok tt)) with
        | (Ok _, s) =>
            let (r, x) := read_box_structure std_registry data divide_handler tt (pos, s) in
            let s := snd x in
            match ds_stop s, r with
            | Ok _, Ok _ => let (r, s) := playlists s in (r, ds_files s)
            | Ok _, Err e => (Err e, ds_files s)
            | Ok _, Panic => (Panic, ds_files s)
            | Ok _, OutOfFuel => (OutOfFuel, ds_files s)
            | x, _ => (x, ds_files s)
            end
        | (r, s) => (r, ds_files s)
        end
    | (Err e, _) => (Err e, no_files)
    | (Panic, _) => (Panic, no_files)
    | (OutOfFuel, _) => (OutOfFuel, no_files)
    end.
End Divide.
