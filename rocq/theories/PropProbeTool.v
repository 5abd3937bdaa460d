(** C57: the report of mp4tool probe. *)
From Verif Require Import Base BaseProofs Schema Structs Registry BoxInfo Extract SpecTree PropTree SpecExtract PropExtract Probe SpecProbe
  ProbeFound PropProbe PropBitrate PropIdr PropSafe SpecReport PropReport ProbeTool SpecProbeTool NumText GoText.
Local Open Scope string_scope.
Local Open Scope list_scope.
Local Open Scope N_scope.

(** ** A row *)
Lemma in_le_sum : forall x l, In x l -> x <= sum l.
Proof. intros x. induction l as [|y l IH]; intros H; [destruct H|]; destruct H as [<-|H]; cbn [sum fold_right]; fold (sum l); [lia|specialize (IH H); lia]. Qed.
Lemma rates_ok : forall segs tr mx, samples_max_bitrate (t_samples tr) (t_timescale tr) (t_timescale tr) = Ok mx ->
  let br := samples_bitrate (t_samples tr) (t_timescale tr) in
  let p := if (br =? 0) || (mx =? 0)
           then (segments_bitrate segs (t_id tr) (t_timescale tr), segments_max_bitrate segs (t_id tr) (t_timescale tr))
           else (br, mx) in
  rates segs tr (fst p) (snd p).
Proof.
  intros segs tr mx E. cbv zeta. unfold rates. cbv zeta.
  set (ss := t_samples tr) in *. set (ts := t_timescale tr) in *. set (mine := of_track (t_id tr) segs).
  intros B1 B2 B3 B4 B5.
  assert (A : samples_bitrate ss ts = average (total_size ss) ts (total_delta ss)) by (unfold average, rate; now apply C39_samples).
  assert (M : (forall win, window ts ss win -> rate (total_size win) ts (total_delta win) <= mx) /\
              (mx = 0 \/ exists win, window ts ss win /\ mx = rate (total_size win) ts (total_delta win))).
  { destruct (N.eq_dec ts 0) as [Z|NZ].
    - rewrite Z in *. rewrite C40_no_window in E. injection E as <-. split; [|now left].
      intros win (before & w & x & after & _ & _ & L & _). lia.
    - destruct (max_exact ss ts ts ltac:(lia) B3 B2 B1) as [(m & Q & U & V)|(Q & _)]; rewrite Q in E; [|discriminate E].
      injection E as <-. split; [|exact V].
      intros win W. apply window_at in W. destruct W as (after & W). apply (U win after W). lia. }
  exists mx. split; [apply M|]. split; [apply M|]. rewrite <- A.
  destruct (N.eqb_spec (samples_bitrate ss ts) 0) as [Z1|Z1]; [|destruct (N.eqb_spec mx 0) as [Z2|Z2]]; cbn [orb fst snd].
  3: { split; [auto|]. intros [Q|Q]; contradiction. }
  all: split; [intros; contradiction|]; intros _; split;
    [unfold average, rate; now apply C39_segments|apply C40_segments].
  all: apply Forall_forall; intros s I; apply filter_In in I; destruct I as [I _]; fold mine in I;
    apply (in_map g_size) in I; apply N.le_lt_trans with (2 := B4);
    apply N.mul_le_mono_r, N.mul_le_mono_l, in_le_sum, I.
Qed.
Lemma row_ok : forall data p tr pos row pos', lenN data < 2 ^ 62 ->
  report_row data p tr pos = (Ok row, pos') -> row_report data (p_segments p) tr row.
Proof.
  intros data p tr pos row pos' HD H. unfold report_row in H.
  unfold bind at 1, lift_res at 1 in H. destruct (samples_max_bitrate _ _ _) as [mx|e| |] eqn:MX; try discriminate H.
  cbv iota beta in H. pose proof (rates_ok (p_segments p) tr mx MX) as RT. cbv zeta in RT.
  destruct (if (_ =? 0) || (mx =? 0) then _ else _) as [br mb]. cbn [fst snd] in RT.
  destruct (t_codec tr) eqn:CO.
  - unfold ret in H. injection H as <- _. constructor; cbn; try reflexivity; rewrite ?CO; auto.
    + unfold codec_text. rewrite CO. reflexivity.
    + unfold idr_count. rewrite CO. reflexivity.
  - destruct (t_avc tr) as [a|] eqn:AV.
    + unfold bind at 1 in H. destruct (find_idr_frames data tr pos) as [[idxs|e| |] q] eqn:FI; try discriminate H.
      injection H as <- _. constructor; cbn; try reflexivity; rewrite ?CO, ?AV; auto.
      * unfold codec_text. rewrite CO, AV. do 3 eexists. split; [apply hex2_numeral|]. split; [apply hex2_numeral|].
        split; [apply hex2_numeral|reflexivity].
      * unfold idr_count. rewrite CO, AV. intros w units LS W F.
        destruct (C41_idr_partial data tr a w units pos AV LS W HD F) as (pos2 & Q). rewrite FI in Q. injection Q as -> _.
        now rewrite lenN_map.
    + unfold bind at 1 in H. unfold find_idr_frames, find_idr_frames_fuel in H. rewrite AV in H. cbn [ret] in H.
      injection H as <- _. constructor; cbn; try reflexivity; rewrite ?CO, ?AV; auto.
      * unfold codec_text. rewrite CO, AV. reflexivity.
      * unfold idr_count. rewrite CO, AV. reflexivity.
  - unfold ret in H. injection H as <- _. constructor; cbn; try reflexivity; rewrite ?CO; auto.
    + unfold codec_text. rewrite CO. destruct (t_mp4a tr) as [m|]; [|reflexivity].
      destruct (m_oti m =? 0); [reflexivity|]. exists (hex_upper (m_oti m)). split; [apply hex_numeral|].
      destruct (m_audoti m =? 0); [reflexivity|]. exists (dec_text (m_audoti m)). split; [apply dec_numeral|reflexivity].
    + unfold idr_count. rewrite CO. reflexivity.
Qed.
Lemma rows_ok : forall data p trs i rows0 pos rows pos', lenN data < 2 ^ 62 ->
  for_each (fun _ tr rows => (row <- report_row data p tr ;; ret (rows ++ [row]))%monad) i trs rows0 pos = (Ok rows, pos') ->
  exists l, rows = rows0 ++ l /\ Forall2 (row_report data (p_segments p)) trs l.
Proof.
  intros data p. induction trs as [|tr trs IH]; intros i rows0 pos rows pos' HD H.
  - cbn in H. injection H as <- _. exists []. rewrite app_nil_r. split; constructor.
  - cbn [for_each] in H. unfold bind at 1 in H. unfold bind at 1 in H.
    destruct (report_row data p tr pos) as [[row|e| |] q] eqn:R; try discriminate H. cbn [ret] in H.
    apply (IH _ _ _ _ _ HD) in H. destruct H as (l & -> & F). exists (row :: l). rewrite <- app_assoc. split; [reflexivity|].
    constructor; [apply (row_ok _ _ _ _ _ _ HD R)|exact F].
Qed.

(** C57.  The report on a file that is a tree of boxes: from the brands, movie,
    tracks and fragments of C56. *)
Theorem C57_report : forall ts pos r pos', let data := file_bytes ts in
  lenN data < 2 ^ 62 -> list_wf true ts ->
  let all := list_file data ctx0 false 0 0 ts in
  Forall (readable data 0 [[bt "ftyp"]; [bt "moov"]; [bt "moov"; bt "mvhd"]; [bt "moov"; bt "trak"]; [bt "moof"]; [bt "mdat"]]) all ->
  let traks := filter (fun e => selected 0 [[bt "moov"; bt "trak"]] (e_path e)) all in
  let moofs := filter (fun e => selected 0 [[bt "moof"]] (e_path e)) all in
  Forall (searchable data track_places) traks -> Forall (searchable data moof_places) moofs ->
  build_report data pos = (Ok r, pos') ->
  exists p,
    movie_report data all p /\ Forall2 (track_report data) traks (p_tracks p) /\ Forall2 (segment_report data) moofs (p_segments p) /\
    rp_major r = p_major p /\ rp_minor r = p_minor p /\ rp_brands r = p_brands p /\
    (rp_fast r = true <-> exists pre m post, ts = pre ++ m :: post /\ box_type m = bt "moov" /\
       ~ In (bt "mdat") (map box_type pre) /\ ~ In (bt "moov") (map box_type post)) /\
    rp_timescale r = p_timescale p /\ rp_duration r = p_duration p /\ rp_seconds r = mkseconds (p_duration p) (p_timescale p) /\
    Forall2 (row_report data (p_segments p)) (p_tracks p) (rp_tracks r).
Proof.
  intros ts pos r pos' data HD HW all HR traks moofs HT HM H. unfold build_report in H. unfold bind at 1 in H.
  destruct (probe std_registry data pos) as [[p|e| |] q] eqn:P; try discriminate H.
  unfold bind at 1 in H.
  destruct (for_each _ _ _ _ q) as [[rows|e| |] q'] eqn:R; try discriminate H. unfold ret in H. injection H as <- _.
  exists p. split; [exact (C56_movie ts pos p q HD HW HR P)|]. split; [exact (C56_tracks ts pos p q HD HW HR HT P)|].
  split; [exact (C56_segments ts pos p q HD HW HR HM P)|]. cbn.
  repeat (split; [reflexivity|]). split; [exact (C43_fast_start ts pos p q HD HW HR P)|]. repeat (split; [reflexivity|]).
  apply (rows_ok _ _ _ _ _ _ _ _ HD) in R. destruct R as (l & -> & F). exact F.
Qed.
Print Assumptions C57_report.

(** A video track with three samples, two of which have an IDR slice; an audio
    track without samples, whose rates come from a fragment. *)
Definition tool_tree : list box := [
  Box Small (bt "ftyp") (hex "69736f6d0000020069736f6d69736f32") [] [];
  Box Small (bt "moov") [] [
    Box Small (bt "mvhd") (hex "00000000000000010000000200000258000004b00001000001000000000000000000000000010000000000000000000000000000000100000000000000000000000000004000000000000000000000000000000000000000000000000000000000000003") [] [];
    Box Small (bt "trak") [] [
      Box Small (bt "tkhd") (hex "000000030000000100000002000000010000000000000384000000000000000000000000000000000001000000000000000000000000000000010000000000000000000000000000400000000000000000000000") [] [];
      Box Small (bt "mdia") [] [
        Box Small (bt "mdhd") (hex "0000000000000001000000020000000a0000001e55c40000") [] [];
        Box Small (bt "minf") [] [
          Box Small (bt "stbl") [] [
            Box Small (bt "stsd") (hex "0000000000000001") [
              Box Small (bt "avc1") (hex "00000000000000010000000000000000000000000000000002800168004800000048000000000000000100000000000000000000000000000000000000000000000000000000000000000018ffff") [
                Box Small (bt "avcC") (hex "0142001effe10002674201000168") [] [] ] [] ] [];
            Box Small (bt "stts") (hex "0000000000000001000000030000000a") [] [];
            Box Small (bt "stsc") (hex "0000000000000001000000010000000300000001") [] [];
            Box Small (bt "stsz") (hex "00000000000000000000000300000007000000060000000a") [] [];
            Box Small (bt "stco") (hex "00000000000000010000033b") [] [] ] [] ] [] ] [] ] [];
    Box Small (bt "trak") [] [
      Box Small (bt "tkhd") (hex "000000030000000100000002000000020000000000000384000000000000000000000000000000000001000000000000000000000000000000010000000000000000000000000000400000000000000000000000") [] [];
      Box Small (bt "mdia") [] [
        Box Small (bt "mdhd") (hex "00000000000000010000000200000064000000c855c40000") [] [];
        Box Small (bt "minf") [] [
          Box Small (bt "stbl") [] [
            Box Small (bt "stsd") (hex "0000000000000001") [
              Box Small (bt "mp4a") (hex "000000000000000100000000000000000002001000000000ac440000") [
                Box Small (bt "esds") (hex "00000000031900010004114015000000000000000000000005021210060102") [] [] ] [] ] [];
            Box Small (bt "stts") (hex "0000000000000000") [] [];
            Box Small (bt "stsc") (hex "0000000000000000") [] [];
            Box Small (bt "stco") (hex "0000000000000000") [] [] ] [] ] [] ] [] ] [] ] [];
  Box Small (bt "mdat") (hex "000000036588010000000241ff00000001050000000106") [] [];
  Box Small (bt "moof") [] [
    Box Small (bt "traf") [] [
      Box Small (bt "tfhd") (hex "00000018000000020000003200000021") [] [];
      Box Small (bt "tfdt") (hex "010000000000000200000000") [] [];
      Box Small (bt "trun") (hex "01000200000000020000006400000096") [] [] ] [] ] [] ].
Example C57_case :
  let data := file_bytes tool_tree in
  let all := list_file data ctx0 false 0 0 tool_tree in
  (list_wf true tool_tree /\ lenN data < 2 ^ 62) /\
  Forall (readable data 0 probe_paths) all /\
  Forall (searchable data track_places) (filter (fun e => selected 0 [[bt "moov"; bt "trak"]] (e_path e)) all) /\
  Forall (searchable data moof_places) (filter (fun e => selected 0 [[bt "moof"]] (e_path e)) all) /\
  probe_tool data = Ok (mkreport (lit "isom") 512 [lit "isom"; lit "iso2"] true 600 1200 (mkseconds 1200 600)
    [mktrow 1 10 30 (mkseconds 30 10) (lit "avc1.42001E") false 640 360 3 1 2 61 80;
     mktrow 2 100 200 (mkseconds 200 100) (lit "mp4a.40.2") false 0 0 0 0 0 2000 2000]).
Proof.
  split; [vm_compute; repeat split; intros; try discriminate; reflexivity|]. split; [apply readable_b_ok; vm_compute; reflexivity|].
  split; [apply searchable_b_ok; vm_compute; reflexivity|]. split; [apply searchable_b_ok; vm_compute; reflexivity|]. vm_compute. reflexivity.
Qed.

(** ** Panics *)
Lemma row_panic : forall data p tr pos, fst (report_row data p tr pos) = Panic ->
  samples_max_bitrate (t_samples tr) (t_timescale tr) (t_timescale tr) = Panic.
Proof.
  intros data p tr pos H. unfold report_row in H.
  unfold bind at 1, lift_res at 1 in H. destruct (samples_max_bitrate _ _ _) as [mx|e| |] eqn:MX; try discriminate H; [exfalso|reflexivity].
  destruct (if (_ =? 0) || (mx =? 0) then _ else _) as [br mb].
  destruct (t_codec tr); try discriminate H.
  destruct (match t_avc tr with Some _ => _ | None => _ end) as [[codec w] h].
  unfold bind at 1 in H. pose proof (C51_idr data nal_fuel tr pos) as N. fold (find_idr_frames data) in N.
  destruct (find_idr_frames data tr pos) as [[idxs|e| |] q]; try discriminate H. apply N. reflexivity.
Qed.
(** The command panics only if a track has a window without duration, or time
    that does not fit 64 bits. *)
Theorem C57_panics_partial : forall data pos, lenN data < 2 ^ 48 -> fst (build_report data pos) = Panic ->
  exists p pos' tr, probe std_registry data pos = (Ok p, pos') /\ In tr (p_tracks p) /\
    (2 ^ 64 <= total_delta (t_samples tr) \/
     exists win, window (t_timescale tr) (t_samples tr) win /\ total_delta win = 0).
Proof.
  intros data pos HD H. unfold build_report in H. unfold bind at 1 in H. pose proof (C51_probe data pos HD) as N.
  destruct (probe std_registry data pos) as [[p|e| |] q]; try discriminate H; [|exfalso; apply N; reflexivity]. clear N.
  exists p, q. unfold bind at 1 in H.
  assert (G : forall trs i rows s, fst (for_each (fun _ tr rows => (row <- report_row data p tr ;; ret (rows ++ [row]))%monad) i trs rows s) = Panic ->
    exists tr, In tr trs /\ samples_max_bitrate (t_samples tr) (t_timescale tr) (t_timescale tr) = Panic).
  { clear. induction trs as [|tr trs IH]; intros i rows s H; [discriminate H|]. cbn [for_each] in H. unfold bind at 1 in H. unfold bind at 1 in H.
    pose proof (row_panic data p tr s) as N.
    destruct (report_row data p tr s) as [[row|e| |] q]; try discriminate H.
    - apply IH in H. destruct H as (t & I & E). exists t. split; [now right|exact E].
    - exists tr. split; [now left|]. now apply N. }
  destruct (for_each _ _ _ _ q) as [[rows|e| |] q'] eqn:R; try discriminate H.
  destruct (G (p_tracks p) 0 [] q) as (tr & I & E); [now rewrite R|]. exists tr. split; [reflexivity|]. split; [exact I|].
  destruct (N.lt_ge_cases (total_delta (t_samples tr)) (2 ^ 64)) as [L|L]; [right|left; exact L].
  destruct (N.eq_dec (t_timescale tr) 0) as [Z|NZ]; [rewrite Z, C40_no_window in E; discriminate E|].
  apply (C40_panics (t_samples tr) (t_timescale tr) (t_timescale tr)) in E; [exact E|lia|exact L].
Qed.
Print Assumptions C57_panics_partial.
(** The other way round: no report is given on a file with such a track, and the
    command panics if it is the first track. *)
Definition still (tr : track) : Prop :=
  0 < t_timescale tr /\ total_delta (t_samples tr) < 2 ^ 64 /\
  exists win, window (t_timescale tr) (t_samples tr) win /\ total_delta win = 0.
Lemma row_still : forall data p tr pos, still tr -> report_row data p tr pos = (Panic, pos).
Proof.
  intros data p tr pos (T & D & W). unfold report_row.
  apply (C40_panics (t_samples tr) (t_timescale tr) (t_timescale tr)) in W; [|exact T|exact D].
  rewrite W. reflexivity.
Qed.
Theorem C57_no_report : forall data pos p pos' tr,
  probe std_registry data pos = (Ok p, pos') -> In tr (p_tracks p) -> still tr ->
  forall r, fst (build_report data pos) <> Ok r.
Proof.
  intros data pos p pos' tr HP I S r H. unfold build_report in H. unfold bind at 1 in H. rewrite HP in H. unfold bind at 1 in H.
  assert (G : forall trs i rows s rows' s', In tr trs ->
    for_each (fun _ tr rows => (row <- report_row data p tr ;; ret (rows ++ [row]))%monad) i trs rows s <> (Ok rows', s')).
  { induction trs as [|t trs IH]; intros i rows s rows' s' E; [destruct E|].
    cbn [for_each]. unfold bind at 1. unfold bind at 1. destruct E as [E|E].
    - subst t. rewrite (row_still data p tr s S). discriminate.
    - destruct (report_row data p t s) as [[row|e| |] q]; try discriminate. unfold ret at 1. apply IH. exact E. }
  destruct (for_each _ _ _ _ pos') as [[rows|e| |] q'] eqn:R; try discriminate H.
  exact (G _ _ _ _ _ _ I R).
Qed.
Print Assumptions C57_no_report.
Theorem C57_first_track_panics : forall data pos p pos' tr rest,
  probe std_registry data pos = (Ok p, pos') -> p_tracks p = tr :: rest -> still tr ->
  fst (build_report data pos) = Panic.
Proof.
  intros data pos p pos' tr rest HP E S. unfold build_report. unfold bind at 1. rewrite HP, E. unfold bind at 1.
  cbn [for_each]. unfold bind at 1. unfold bind at 1. rewrite (row_still data p tr pos' S). reflexivity.
Qed.
Print Assumptions C57_first_track_panics.
(** It does panic on a track whose last sample has no duration. *)
Definition still_tree : list box := [
  Box Small (bt "moov") [] [
    Box Small (bt "mvhd") (hex "00000000000000010000000200000258000004b00001000001000000000000000000000000010000000000000000000000000000000100000000000000000000000000004000000000000000000000000000000000000000000000000000000000000003") [] [];
    Box Small (bt "trak") [] [
      Box Small (bt "tkhd") (hex "000000030000000100000002000000010000000000000384000000000000000000000000000000000001000000000000000000000000000000010000000000000000000000000000400000000000000000000000") [] [];
      Box Small (bt "mdia") [] [
        Box Small (bt "mdhd") (hex "000000000000000100000002000000050000000555c40000") [] [];
        Box Small (bt "minf") [] [
          Box Small (bt "stbl") [] [
            Box Small (bt "stts") (hex "000000000000000200000001000000050000000100000000") [] [];
            Box Small (bt "stsc") (hex "0000000000000000") [] [];
            Box Small (bt "stco") (hex "0000000000000000") [] [] ] [] ] [] ] [] ] [] ] [] ].
Lemma only_second : forall A B (x : res A * N) (y : res B),
  match fst x, y with Ok _, Panic => true | _, _ => false end = true -> exists p q, x = (Ok p, q) /\ y = Panic.
Proof. intros A B [[p|e| |] q] [y|e'| |] H; try discriminate H. now exists p, q. Qed.
Theorem C57_panics_refuted : exists ts p pos', let data := file_bytes ts in
  list_wf true ts /\ probe std_registry data 0 = (Ok p, pos') /\ fst (build_report data 0) = Panic.
Proof.
  destruct (only_second _ _ (probe std_registry (file_bytes still_tree) 0) (fst (build_report (file_bytes still_tree) 0))
              ltac:(vm_compute; reflexivity)) as (p & q & A & B).
  exists still_tree, p, q. split; [vm_compute; repeat split; intros; try discriminate; reflexivity|]. exact (conj A B).
Qed.
Print Assumptions C57_panics_refuted.
Example C57_still_case : exists p q tr, probe std_registry (file_bytes still_tree) 0 = (Ok p, q) /\
  p_tracks p = [tr] /\ still tr.
Proof.
  assert (E : match probe std_registry (file_bytes still_tree) 0 with
              | (Ok p, _) => match p_tracks p with
                             | [tr] => (t_timescale tr, t_samples tr) = (5, [mksample 0 5 0; mksample 0 0 0])
                             | _ => False end
              | _ => False end) by (vm_compute; reflexivity).
  destruct (probe std_registry (file_bytes still_tree) 0) as [[p| | |] q]; try contradiction.
  destruct (p_tracks p) as [|tr [|]] eqn:T; try contradiction. injection E as E1 E2.
  exists p, q, tr. split; [reflexivity|]. split; [exact T|]. unfold still. rewrite E1, E2.
  split; [reflexivity|]. split; [reflexivity|].
  exists [mksample 0 0 0]. split; [|reflexivity].
  exists [mksample 0 5 0], [], (mksample 0 0 0), []. split; [reflexivity|]. split; [reflexivity|]. split; [reflexivity|].
  split; [|now right]. intros b y H. destruct b as [|c [|]]; try discriminate H. injection H as <-. vm_compute. discriminate.
Qed.

(** ** JSON *)
(** What is not a number cannot be printed as JSON, so that there is no report
    on a file without a movie header, such as a media segment. *)
Definition moof_tree : list box :=
  [Box Small (bt "moof") [] [Box Small (bt "traf") [] [Box Small (bt "tfhd") (hex "0000000000000001") [] []] []] [];
   Box Small (bt "mdat") (hex "00") [] []].
Lemma only_first : forall A B s (x : res A * N) (y : res B),
  match fst x, y with Ok _, Err (EMsg t) => String.eqb t s | _, _ => false end = true -> exists p q, x = (Ok p, q) /\ y = Err (EMsg s).
Proof.
  intros A B s [[p|e| |] q] [y|e'| |] H; try discriminate H. cbn [fst] in H. destruct e'; try discriminate H.
  apply String.eqb_eq in H. subst s. now exists p, q.
Qed.
Theorem C57_segment_refuted : exists ts r pos', let data := file_bytes ts in
  list_wf true ts /\ ts <> [] /\ build_report data 0 = (Ok r, pos') /\ probe_tool data = Err (EMsg "json: unsupported value").
Proof.
  destruct (only_first _ _ "json: unsupported value" (build_report (file_bytes moof_tree) 0) (probe_tool (file_bytes moof_tree))
              ltac:(vm_compute; reflexivity)) as (r & q & A & B).
  exists moof_tree, r, q. split; [vm_compute; repeat split; intros; try discriminate; reflexivity|]. split; [discriminate|]. exact (conj A B).
Qed.
Print Assumptions C57_segment_refuted.
(** With time scales there is one. *)
Theorem C57_json : forall data r, lenN data < 2 ^ 62 -> fst (build_report data 0) = Ok r ->
  (probe_tool data = Ok r <-> rp_timescale r <> 0 /\ Forall (fun row => r_timescale row <> 0) (rp_tracks r)).
Proof.
  intros data r HD H. unfold probe_tool. rewrite H.
  assert (S : rp_timescale r = sec_timescale (rp_seconds r) /\ Forall (fun row => r_timescale row = sec_timescale (r_seconds row)) (rp_tracks r)).
  { unfold build_report in H. unfold bind at 1 in H.
    destruct (probe std_registry data 0) as [[p|e| |] q]; try discriminate H. unfold bind at 1 in H.
    destruct (for_each _ _ _ _ q) as [[rows|e| |] q'] eqn:R; try discriminate H. unfold ret in H. cbn [fst] in H. injection H as <-.
    split; [reflexivity|]. cbn [rp_tracks]. apply (rows_ok _ _ _ _ _ _ _ _ HD) in R. destruct R as (l & -> & F). cbn [app].
    induction F as [|tr row trs l W F IH]; constructor; [|exact IH]. now rewrite (rr_seconds _ _ _ _ W), (rr_timescale _ _ _ _ W). }
  destruct S as [S1 S2]. unfold json_error. cbn [existsb]. rewrite S1.
  assert (E : existsb (fun s => sec_timescale s =? 0) (map r_seconds (rp_tracks r)) = false <->
              Forall (fun row => r_timescale row <> 0) (rp_tracks r)).
  { induction S2 as [|row l W F IH]; [split; [constructor|reflexivity]|]. cbn [map existsb]. rewrite <- W.
    rewrite Bool.orb_false_iff, N.eqb_neq, IH. split; [intros [A B]; constructor; assumption|].
    intros A. split; [exact (Forall_inv A)|exact (Forall_inv_tail A)]. }
  rewrite <- E. destruct (N.eqb_spec (sec_timescale (rp_seconds r)) 0) as [Z|NZ]; cbn [orb].
  - split; [discriminate|]. intros [A _]. contradiction.
  - destruct (existsb _ _); split; try discriminate; auto. intros [_ A]. discriminate A.
Qed.
Print Assumptions C57_json.
