(** Specification of the divide command on the tree of a file: which files there
    are in the end, and what is in them. *)
From Verif Require Import Base Schema Structs Registry BoxInfo Accessors Probe SpecProbe SpecTree SpecExtract SpecTool SpecReport GoText ProbeTool Divide.
Local Open Scope string_scope.
Local Open Scope list_scope.
Local Open Scope N_scope.

Section Divided.
  Variable bits_per_second : N -> seconds -> N.
  Variable seconds_text : seconds -> text.
  Variable target_text : list seconds -> text.
  Variable data : list byte.
  Definition is_one_of (l : list string) (e : entry) : bool := existsb (fun t => is_type t e) l.
  (** a number in the only box at a place; the fields of the first box at a place *)
  Definition number_in (e : entry) (p : list string) (name : string) : N :=
    match at_paths data e [p] with [x] => uint_of name (fields_of data x) | _ => 0 end.
  Definition first_at (e : entry) (p : list string) : fields :=
    match at_paths data e [p] with x :: _ => fields_of data x | [] => [] end.
  Definition has (e : entry) (p : list string) : bool := match at_paths data e [p] with [] => false | _ => true end.

  (** ** Tracks *)
  Definition trak_id (e : entry) : N := number_in e ["tkhd"] "TrackID".
  Definition trak_timescale (e : entry) : N := number_in e ["mdia"; "mdhd"] "Timescale".
  (** what kind of track: a track with sample entries of several types counts as the
      first of these kinds *)
  Definition trak_kind (e : entry) : option ttype :=
    if has e (stsd ["avc1"]) then Some TVideo
    else if has e (stsd ["mp4a"]) then Some TAudio
    else if has e (stsd ["encv"]) then Some TEncVideo
    else if has e (stsd ["enca"]) then Some TEncAudio
    else None.
  Definition trak_picture (e : entry) : fields :=
    first_at e (stsd [match trak_kind e with Some TVideo => "avc1" | _ => "encv" end]).
  (** what divide looks for in a track *)
  Definition divide_places : list (list string) :=
    [ ["tkhd"]; ["mdia"; "mdhd"]; stsd ["avc1"]; stsd ["mp4a"]; stsd ["encv"]; stsd ["enca"] ].

  (** ** The initialization segment of a track: the boxes before the media, without
      the other tracks *)
  Definition kept (id : N) (e : entry) : bool :=
    is_one_of ["ftyp"; "pssh"; "mvhd"; "mvex"; "udta"; "sidx"] e || (is_type "trak" e && (trak_id e =? id)).
  (** the boxes directly in a box *)
  Definition inside (e : entry) : list entry := filter (fun x => (List.length (e_path x) =? 2)%nat) (below data e).
  Definition init_boxes (id : N) (tops : list entry) : list box :=
    flat_map (fun e =>
      if is_type "moov" e then [Box (box_form (e_box e)) (bt "moov") [] (map e_box (filter (kept id) (inside e))) []]
      else if kept id e then [e_box e] else []) tops.

  (** ** Fragments: a moof box and the mdat boxes up to the next moof box *)
  Fixpoint mdats (l : list entry) : list entry :=
    match l with
    | [] => []
    | e :: r => if is_type "moof" e then [] else if is_type "mdat" e then e :: mdats r else mdats r
    end.
  Fixpoint fragments (l : list entry) : list (entry * list entry) :=
    match l with
    | [] => []
    | e :: r => if is_type "moof" e then (e, mdats r) :: fragments r else fragments r
    end.
  Definition moof_id (e : entry) : N := number_in e ["traf"; "tfhd"] "TrackID".
  (** the durations of the samples of the first trun box; uint32 arithmetic *)
  Definition moof_duration (e : entry) : N :=
    let tfhd := first_at e ["traf"; "tfhd"] in
    let trun := first_at e ["traf"; "trun"] in
    sum (map (fun x => if negb (N.land (get_flags trun) 0x100 =? 0) then uint_of "SampleDuration" x
                       else if negb (N.land (get_flags tfhd) 0x8 =? 0) then uint_of "DefaultSampleDuration" tfhd else 0)
             (structs "Entries" trun)) mod 2 ^ 32.
  Definition fragment_places : list (list string) := [ ["traf"; "tfhd"]; ["traf"; "trun"] ].
  Definition fragments_of (id : N) (tops : list entry) : list (entry * list entry) :=
    filter (fun f => moof_id (fst f) =? id) (fragments tops).
  Definition fragment_bytes (f : entry * list entry) : list byte := file_bytes (map e_box (fst f :: snd f)).
  Definition fragment_seconds (timescale : N) (f : entry * list entry) : seconds := mkseconds (moof_duration (fst f)) timescale.
  (** the highest rate of an mdat box *)
  Definition bandwidth (timescale : N) (fs : list (entry * list entry)) : N :=
    fold_right N.max 0 (flat_map (fun f => map (fun m => bits_per_second (box_size (e_box m)) (fragment_seconds timescale f)) (snd f)) fs).

  (** ** Playlists *)
  Definition lines (l : list text) : text := flat_map (fun s => s ++ [N2b 10]) l.
  Fixpoint numbered {A} (i : N) (l : list A) : list (N * A) :=
    match l with [] => [] | x :: r => (i, x) :: numbered (i + 1) r end.
  Definition track_list (l : list seconds) : text :=
    lines ([ lit "#EXTM3U"; lit "#EXT-X-VERSION:7"; lit "#EXT-X-TARGETDURATION:" ++ target_text l;
             lit "#EXT-X-PLAYLIST-TYPE:VOD"; lit "#EXT-X-MAP:URI=""init.mp4""" ] ++
           flat_map (fun x => [ lit "#EXTINF:" ++ seconds_text (snd x) ++ lit ","; dec_text (fst x) ++ lit ".mp4" ]) (numbered 0 l) ++
           [ lit "#EXT-X-ENDLIST" ]).
  (** the first of two kinds there is a track of *)
  Definition of_kind (k : ttype) (e : entry) : bool := match trak_kind e with Some x => ttype_eqb x k | None => false end.
  Definition either (k1 k2 : ttype) (traks : list entry) : option (ttype * entry) :=
    match find (of_kind k1) traks, find (of_kind k2) traks with
    | Some e, _ => Some (k1, e)
    | None, Some e => Some (k2, e)
    | None, None => None
    end.
  Definition movie_list (traks tops : list entry) : text :=
    let audio := either TAudio TEncAudio traks in
    lines (
      [ lit "#EXTM3U" ] ++
      match audio with
      | Some (k, _) =>
          [ lit "#EXT-X-MEDIA:TYPE=AUDIO,URI=""" ++ dir_name k ++
            lit "/playlist.m3u8"",GROUP-ID=""audio"",NAME=""audio"",AUTOSELECT=YES,CHANNELS=""2""" ]
      | None => []
      end ++
      match either TVideo TEncVideo traks with
      | Some (k, e) =>
          [ lit "#EXT-X-STREAM-INF:BANDWIDTH=" ++ dec_text (bandwidth (trak_timescale e) (fragments_of (trak_id e) tops)) ++
            lit ",CODECS=""avc1.64001f,mp4a.40.2"",RESOLUTION=" ++
            dec_text (uint_of "Width" (trak_picture e)) ++ lit "x" ++ dec_text (uint_of "Height" (trak_picture e)) ++
            match audio with Some _ => lit ",AUDIO=""audio""" | None => [] end;
            dir_name k ++ lit "/playlist.m3u8" ]
      | None => []
      end).

  (** ** The files.  [traks]: the trak boxes in the moov box; [tops]: the boxes at the
      top level. *)
  Record divided (traks tops : list entry) (files : fpath -> option (list byte)) : Prop := mkdivided
    { dv_track : forall e k, In e traks -> trak_kind e = Some k ->
        let fs := fragments_of (trak_id e) tops in
        files (Of k Init) = Some (file_bytes (init_boxes (trak_id e) tops)) /\
        files (Of k Playlist) = Some (track_list (map (fragment_seconds (trak_timescale e)) fs)) /\
        forall i, files (Of k (Seg i)) =
          match nthN i fs with
          | Some f => Some (fragment_bytes f)
          | None => if i =? 0 then Some [] else None      (* 0.mp4 is always there *)
          end;
      dv_movie : files Master = Some (movie_list traks tops);
      dv_others : forall k n, (forall e, In e traks -> trak_kind e <> Some k) -> files (Of k n) = None }.

  (** ** Files that can be divided.  [all]: all the boxes. *)
  Definition decodes (x : entry) : Prop := exists y, e_decoded data x = Ok y.
  Definition one_at (e : entry) (p : list string) : Prop := exists x, at_paths data e [p] = [x].
  Definition box_slack (b : box) : list byte := match b with Box _ _ _ _ slack => slack end.
  Record complete (all traks tops : list entry) : Prop := mkcomplete
    { cm_top : forall e, In e tops -> is_one_of ["moov"; "ftyp"; "pssh"; "mvhd"; "trak"; "mvex"; "udta"; "sidx"; "moof"; "mdat"; "mfra"] e = true;
      cm_moov : forall e, In e all -> removelast (e_path e) = [bt "moov"] ->
        is_one_of ["ftyp"; "pssh"; "mvhd"; "trak"; "mvex"; "udta"; "sidx"] e = true;
      cm_slack : forall e, In e tops -> is_type "moov" e = true -> box_slack (e_box e) = [];   (* nothing after the last box *)
      cm_traks : forall e, In e traks ->
        one_at e ["tkhd"] /\ one_at e ["mdia"; "mdhd"] /\ Forall decodes (at_paths data e divide_places) /\ trak_id e <> 0xFFFFFFFF;
      cm_top_traks : forall e, In e tops -> is_type "trak" e = true -> one_at e ["tkhd"] /\ Forall decodes (at_paths data e [["tkhd"]]);
      cm_moofs : forall e, In e tops -> is_type "moof" e = true ->
        one_at e ["traf"; "tfhd"] /\ has e ["traf"; "trun"] = true /\ Forall decodes (at_paths data e fragment_places) }.
End Divided.
