(** What C72 says: divide on a disk where calls that create or write files fail. *)
From Verif Require Import Base GoText ProbeTool Divide.
Local Open Scope string_scope.
Local Open Scope list_scope.
Local Open Scope N_scope.

(** a script of calls: [None] succeeds, [Some k] fails *)
Definition some_call_fails (faults : list (option N)) : Prop := exists k, In (Some k) faults.
(** the files that hold media *)
Definition media_file (p : fpath) : Prop := match p with Of _ Init | Of _ (Seg _) => True | _ => False end.

(** The texts a playlist may lose bytes of: all are the same whatever the file holds. *)
Definition fixed_texts (p : fpath) : list text :=
  match p with
  | Master =>
      [ lit "#EXTM3U" ++ nl;
        lit "#EXT-X-MEDIA:TYPE=AUDIO,URI=""audio/playlist.m3u8"",GROUP-ID=""audio"",NAME=""audio"",AUTOSELECT=YES,CHANNELS=""2""" ++ nl;
        lit "#EXT-X-MEDIA:TYPE=AUDIO,URI=""audio_enc/playlist.m3u8"",GROUP-ID=""audio"",NAME=""audio"",AUTOSELECT=YES,CHANNELS=""2""" ++ nl;
        lit ",AUDIO=""audio"""; nl; lit "video/playlist.m3u8" ++ nl; lit "video_enc/playlist.m3u8" ++ nl ]
  | Of _ Playlist =>
      [ lit "#EXTM3U" ++ nl; lit "#EXT-X-VERSION:7" ++ nl; lit "#EXT-X-PLAYLIST-TYPE:VOD" ++ nl;
        lit "#EXT-X-MAP:URI=""init.mp4""" ++ nl; lit "#EXT-X-ENDLIST" ++ nl ]
  | _ => []
  end.
(** the second text is the first, of which texts among [fixed] may be cut short *)
Inductive shortened (fixed : list text) : text -> text -> Prop :=
| SNil : shortened fixed [] []
| SKeep : forall t w g, shortened fixed w g -> shortened fixed (t ++ w) (t ++ g)
| SCut : forall t k w g, In t fixed -> shortened fixed w g -> shortened fixed (t ++ w) (takeN k t ++ g).
(** [got] is the file [p] where [right] would be right *)
Definition cut_at_most (p : fpath) (right got : option text) : Prop :=
  match right, got with
  | None, None => True
  | Some w, Some g => shortened (fixed_texts p) w g
  | _, _ => False
  end.
