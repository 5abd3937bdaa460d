(** C72: mp4tool divide on a disk where calls that create or write files, or move a
    position in one, fail.  Success
    means that the initialization and media segments are right, whatever failed; the
    playlists may lack some of their fixed texts. *)
From Verif Require Import Base BitIO Schema Structs Registry Unmarshal BoxInfo ReadTree Extract Probe SpecTree GoText ProbeTool Divide PropDivide
  PropDivideReader SpecDivideFaults DivideFaults DivideFaultsProofs.
Local Open Scope string_scope.
Local Open Scope list_scope.
Local Open Scope N_scope.

(** Whichever calls fail, and in whatever pieces ([split]) io.CopyN hands over the
    payloads: when divide succeeds, it succeeds on a disk without failures,
    and the files that hold media are the same. *)
Theorem C72_media_partial : forall order bits_per_second seconds_text target_text split data faults files left,
  (forall l, List.concat (split l) = l) ->
  divide_on order bits_per_second seconds_text target_text split data faults = (Ok tt, files, left) ->
  fst (divide order bits_per_second seconds_text target_text data) = Ok tt /\
  forall p, media_file p -> files p = snd (divide order bits_per_second seconds_text target_text data) p.
Proof.
  intros order bps st tgt split data faults files left HS H. pose proof (divide_all faults order bps st tgt split HS data) as K. cbv zeta in K.
  rewrite H in K. cbn [fst snd] in K. destruct K as [[K1 K2]|[_ L]]; [|now destruct (L tt)].
  split; [now symmetry|]. intros p Hp. apply (proj1 (K2 p)). now left.
Qed.
Print Assumptions C72_media_partial.
(** The playlists then are there, and no others; each lacks at most the ends of texts
    that do not depend on the file: the names and durations of segments, the target
    duration, the bandwidth and the resolution are all written. *)
Theorem C72_playlists_partial : forall order bits_per_second seconds_text target_text split data faults files left,
  (forall l, List.concat (split l) = l) ->
  divide_on order bits_per_second seconds_text target_text split data faults = (Ok tt, files, left) ->
  forall p, cut_at_most p (snd (divide order bits_per_second seconds_text target_text data) p) (files p).
Proof.
  intros order bps st tgt split data faults files left HS H. pose proof (divide_all faults order bps st tgt split HS data) as K. cbv zeta in K.
  rewrite H in K. cbn [fst snd] in K. destruct K as [[K1 K2]|[_ L]]; [|now destruct (L tt)].
  intros p. apply (proj2 (K2 p)). now symmetry.
Qed.
Print Assumptions C72_playlists_partial.
(** When no call fails, all files are those of [divide], playlists included, and so is
    the result. *)
Theorem C72_no_failure : forall order bits_per_second seconds_text target_text split data faults,
  (forall l, List.concat (split l) = l) -> ~ some_call_fails faults ->
  fst (fst (divide_on order bits_per_second seconds_text target_text split data faults)) = fst (divide order bits_per_second seconds_text target_text data) /\
  forall p, snd (fst (divide_on order bits_per_second seconds_text target_text split data faults)) p =
            snd (divide order bits_per_second seconds_text target_text data) p.
Proof.
  intros order bps st tgt split data faults HS H. destruct (divide_all faults order bps st tgt split HS data) as [[K1 K2]|[h _]]; [|contradiction].
  split; [exact K1|]. intros p. apply (proj1 (K2 p)). now right.
Qed.
Print Assumptions C72_no_failure.

(** small payloads are copied with one call of Write, empty ones with none *)
Definition at_once (l : list byte) : list (list byte) := match l with [] => [] | _ => [l] end.
Definition on_disk (faults : script) : res unit * (fpath -> option (list byte)) * script :=
  divide_on in_order ex_bits ex_seconds ex_target at_once (file_bytes short_tree) faults.
Definition after (n : nat) : script := repeat None n ++ [Some 0].
Definition lines (l : list text) : text := flat_map (fun x => x ++ nl) l.
(** The file of C70_divide_case.  When the 31st call fails, or the 45th, which is the
    last one, divide succeeds.  The first loses the first line of the playlist at the top
    (it then is not a playlist); the second, on a disk that is full from then on, the last
    line of the playlist of the video (it then is that of a transmission that goes on). *)
Theorem C72_playlists_refuted :
  some_call_fails (after 30) /\ some_call_fails (after 44) /\
  let right := snd (divide in_order ex_bits ex_seconds ex_target (file_bytes short_tree)) in
  (fst (fst (on_disk (after 30))) = Ok tt /\
    snd (fst (on_disk (after 30))) Master = Some (lines [ lit "#EXT-X-STREAM-INF:BANDWIDTH=40,CODECS=""avc1.64001f,mp4a.40.2"",RESOLUTION=640x360"; lit "video/playlist.m3u8" ]) /\
    right Master = Some (lines [ lit "#EXTM3U"; lit "#EXT-X-STREAM-INF:BANDWIDTH=40,CODECS=""avc1.64001f,mp4a.40.2"",RESOLUTION=640x360"; lit "video/playlist.m3u8" ])) /\
  (fst (fst (on_disk (after 44))) = Ok tt /\ snd (on_disk (after 44)) = [] /\
    snd (fst (on_disk (after 44))) (Of TVideo Playlist) = Some (lines [ lit "#EXTM3U"; lit "#EXT-X-VERSION:7"; lit "#EXT-X-TARGETDURATION:2"; lit "#EXT-X-PLAYLIST-TYPE:VOD";
      lit "#EXT-X-MAP:URI=""init.mp4"""; lit "#EXTINF:20/10,"; lit "0.mp4"; lit "#EXTINF:30/10,"; lit "1.mp4" ]) /\
    right (Of TVideo Playlist) = Some (lines [ lit "#EXTM3U"; lit "#EXT-X-VERSION:7"; lit "#EXT-X-TARGETDURATION:2"; lit "#EXT-X-PLAYLIST-TYPE:VOD";
      lit "#EXT-X-MAP:URI=""init.mp4"""; lit "#EXTINF:20/10,"; lit "0.mp4"; lit "#EXTINF:30/10,"; lit "1.mp4"; lit "#EXT-X-ENDLIST" ])).
Proof.
  split; [exists 0; apply in_or_app; right; now left|]. split; [exists 0; apply in_or_app; right; now left|].
  cbv zeta. split.
  - split; [vm_compute; reflexivity|]. split; vm_compute; reflexivity.
  - split; [vm_compute; reflexivity|]. split; [vm_compute; reflexivity|]. split; vm_compute; reflexivity.
Qed.
Print Assumptions C72_playlists_refuted.

(** [cut_at_most] rules something out: a playlist that lost the name of a segment, and
    one that is not there. *)
Example C72_cut :
  shortened (fixed_texts (Of TVideo Playlist)) (lines [ lit "#EXTM3U"; lit "0.mp4" ]) (lines [ lit "0.mp4" ]) /\
  ~ shortened (fixed_texts (Of TVideo Playlist)) (lines [ lit "0.mp4" ]) [] /\
  ~ cut_at_most Master (Some (lines [ lit "#EXTM3U" ])) None.
Proof.
  split; [|split].
  - apply (SCut _ (lit "#EXTM3U" ++ nl) 0); [now left|]. apply (SKeep _ (lines [ lit "0.mp4" ]) [] []), SNil.
  - intros H. assert (G : forall w g, shortened (fixed_texts (Of TVideo Playlist)) w g -> g = [] -> In "0"%char w -> In "#"%char w).
    { clear. induction 1 as [|t w g H IH|t k w g Ht H IH]; intros E W; [destruct W| |].
      - apply app_eq_nil in E. destruct E as [-> E]. now apply IH.
      - apply app_eq_nil in E. destruct E as [_ E]. apply in_or_app. left.
        cbn [fixed_texts In] in Ht. repeat (destruct Ht as [<-|Ht]; [now left|]). destruct Ht. }
    specialize (G _ _ H eq_refl). assert (W : In "0"%char (lines [lit "0.mp4"])) by now left.
    specialize (G W). vm_compute in G. repeat (destruct G as [G|G]; [discriminate|]). destruct G.
  - intros [].
Qed.
(** The media of the same file when the 45th call fails; and the result when another one
    does, or none. *)
Example C72_case :
  snd (fst (on_disk (after 44))) (Of TVideo (Seg 1)) =
    Some (file_bytes [ ex_moof "0000000000000001" "00000100000000010000001e"; ex_entry "mdat" "66" ]) /\
  map (fun n => fst (fst (on_disk (after n)))) [0; 2; 7; 8; 9; 29; 31; 34; 43]%nat =
    [Err EWrite; Err ESeek; Err EWrite; Err EWrite; Err ESeek; Err EWrite; Err EWrite; Err EWrite; Err EWrite] /\
  fst (fst (on_disk [])) = Ok tt /\ ~ some_call_fails [] /\ ~ some_call_fails [None; None] /\
  (forall l, List.concat (at_once l) = l).
Proof.
  split; [vm_compute; reflexivity|]. split; [vm_compute; reflexivity|]. split; [vm_compute; reflexivity|].
  split; [intros [k []]|]. split; [intros [k [H|[H|[]]]]; discriminate|].
  intros [|b l]; [reflexivity|]. apply (app_nil_r (b :: l)).
Qed.
