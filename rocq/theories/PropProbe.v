(** C36, C37, C38, C43: what Probe reports about a file, its tracks and its segments. *)
From Verif Require Import Base BaseProofs Schema Structs Registry BoxInfo Extract Accessors SpecTree SpecExtract PropExtract
  Probe SpecProbe ProbeProofs ProbeFound.
Local Open Scope string_scope.
Local Open Scope list_scope.
Local Open Scope N_scope.

(** A file with one track. *)
Definition track_file : list byte := hex "000001706d6f6f76000001687472616b0000005c746b686400000003000000010000000200000007000000000000038400000000000000000000000000000000000100000000000000000000000000000001000000000000000000000000000040000000000000000000000000000024656474730000001c656c73740000000000000001000003840000002800010000000000e06d646961000000206d646864000000000000000100000002000003e80000038455c40000000000b86d696e66000000b07374626c00000020737474730000000000000002000000020000012c000000030000006400000020637474730100000000000002000000010000000500000002fffffffc000000247374737a0000000000000000000000040000000b0000000c0000000d0000000e000000287374736300000000000000020000000100000002000000010000000300000001000000010000001c7374636f000000000000000300000064000000c80000012c".
(** A file whose samples all have 11 bytes. *)
Definition constant_file : list byte := hex "000001006d6f6f76000000f87472616b0000005c746b6864000000030000000100000002000000070000000000000384000000000000000000000000000000000001000000000000000000000000000000010000000000000000000000000000400000000000000000000000000000946d646961000000206d646864000000000000000100000002000003e80000038455c400000000006c6d696e66000000647374626c00000018737474730000000000000001000000020000012c000000147374737a000000000000000b000000020000001c737473630000000000000001000000010000000200000001000000147374636f000000000000000100000064".

(** ** Tracks *)
Lemma probe_trak_ok : forall R data bi pos tr pos', probe_trak R data bi pos = (Ok tr, pos') ->
  exists bips p, extract_boxes_with_payload R data (Some bi) trak_paths pos = (Ok bips, p) /\ track_of bips tr.
Proof.
  intros R data bi pos tr pos' H. unfold probe_trak, bind in H.
  destruct (extract_boxes_with_payload R data (Some bi) trak_paths pos) as [[bips| | |] p] eqn:E; try discriminate H.
  exists bips, p. split; [reflexivity|].
  destruct (for_each (fun _ bip f => note_box bip f) 0 bips nothing p) as [[f| | |] p1] eqn:F; try discriminate H.
  apply note_boxes in F. destruct F as [_ K]. exact (make_track_ok _ _ _ _ _ _ K H).
Qed.

(** C36.  One sample for each unit of the counts of stts, with its delta; the
    composition offsets of ctts written out, 0 beyond them; the sizes of stsz
    when it lists them, 0 beyond them.

    Partial: a size given once for all samples (SampleSize other than 0) is not
    reported, see below, and composition offsets are only covered when there
    are fewer than 2^32 samples. *)
Theorem C36_samples_partial : forall R data bi pos tr pos',
  probe_trak R data bi pos = (Ok tr, pos') ->
  exists bips p stts,
    extract_boxes_with_payload R data (Some bi) trak_paths pos = (Ok bips, p) /\
    last_of "stts" bips = Some stts /\
    let n := List.length (t_samples tr) in
    map s_delta (t_samples tr) = runs (stts_runs stts) /\
    (N.of_nat n < 2 ^ 32 -> map s_cto (t_samples tr) = ctos_of bips n) /\
    match last_of "stsz" bips with
    | Some stsz => uint_of "SampleSize" stsz = 0 -> map s_size (t_samples tr) = stsz_sizes stsz n
    | None => map s_size (t_samples tr) = repeat 0 n
    end.
Proof.
  intros R data bi pos tr pos' H. apply probe_trak_ok in H. destruct H as (bips & p & E & T).
  destruct (to_stts _ _ T) as (stts & S1 & S2). exists bips, p, stts. split; [exact E|]. split; [exact S1|]. cbv zeta.
  split; [exact S2|]. split; [apply (to_ctts _ _ T)|]. pose proof (to_stsz _ _ T) as Z.
  destruct (last_of "stsz" bips) as [stsz|]; [|exact Z]. intros Q. unfold stsz_sizes. rewrite Q. exact Z.
Qed.
Print Assumptions C36_samples_partial.
Definition first_track (data : list byte) : option track :=
  match fst (probe std_registry data 0) with Ok p => hd_error (p_tracks p) | _ => None end.
Example C36_case :
  option_map t_samples (first_track track_file) =
  Some [mksample 11 300 5; mksample 12 300 (-4); mksample 13 100 (-4); mksample 14 100 0; mksample 0 100 0].
Proof. vm_compute. reflexivity. Qed.

(** The sizes are not those of stsz when it gives one size for all samples. *)
Definition sizes_twice (m : res track * N) (m' : res (list (boxinfo * (boxdef * fields))) * N) : option (list N * list N) :=
  match m, m' with
  | (Ok tr, _), (Ok bips, _) =>
      match last_of "stsz" bips with
      | Some stsz => Some (map s_size (t_samples tr), stsz_sizes stsz (List.length (t_samples tr)))
      | None => None
      end
  | _, _ => None
  end.
Lemma sizes_differ : forall m m' a b, sizes_twice m m' = Some (a, b) -> a <> b ->
  exists tr pos' bips p stsc, m = (Ok tr, pos') /\ m' = (Ok bips, p) /\ last_of "stsz" bips = Some stsc /\
    map s_size (t_samples tr) <> stsz_sizes stsc (List.length (t_samples tr)).
Proof.
  intros [[tr| | |] pos'] [[bips| | |] p] a b H; try discriminate H. unfold sizes_twice in H.
  destruct (last_of "stsz" bips) as [stsz|] eqn:E; [|discriminate H]. injection H as <- <-. intros D.
  exists tr, pos', bips, p, stsz. auto.
Qed.
Theorem C36_refuted : exists data bi pos tr pos' bips p stsz,
  probe_trak std_registry data bi pos = (Ok tr, pos') /\
  extract_boxes_with_payload std_registry data (Some bi) trak_paths pos = (Ok bips, p) /\
  last_of "stsz" bips = Some stsz /\
  map s_size (t_samples tr) <> stsz_sizes stsz (List.length (t_samples tr)).
Proof.
  exists constant_file, (mkbi 8 (lenN constant_file - 8) 8 (bt "trak") false ctx0), 0.
  apply (sizes_differ _ _ [0; 0] [11; 11]); [vm_compute; reflexivity|discriminate].
Qed.
Print Assumptions C36_refuted.

(** Track number, timescale, duration and edits are those of tkhd, mdhd and elst. *)
Theorem C36_track : forall R data bi pos tr pos',
  probe_trak R data bi pos = (Ok tr, pos') ->
  exists bips p tkhd mdhd,
    extract_boxes_with_payload R data (Some bi) trak_paths pos = (Ok bips, p) /\
    last_of "tkhd" bips = Some tkhd /\ t_id tr = uint_of "TrackID" tkhd /\
    last_of "mdhd" bips = Some mdhd /\ t_timescale tr = uint_of "Timescale" mdhd /\ t_duration tr = mdhd_GetDuration mdhd /\
    t_edits tr = match last_of "elst" bips with Some x => map (edit_of x) (structs "Entries" x) | None => [] end.
Proof.
  intros R data bi pos tr pos' H. apply probe_trak_ok in H. destruct H as (bips & p & E & T).
  destruct (to_tkhd _ _ T) as (tkhd & A1 & A2). destruct (to_mdhd _ _ T) as (mdhd & B1 & B2 & B3).
  exists bips, p, tkhd, mdhd. repeat split; auto. apply (to_edits _ _ T).
Qed.
Print Assumptions C36_track.
Example C36_track_case :
  option_map (fun t => (t_id t, t_timescale t, t_duration t, t_edits t)) (first_track track_file) =
  Some (7, 1000, 900, [mkedit 40 900]).
Proof. vm_compute. reflexivity. Qed.

(** C37.  One chunk for each offset of stco, or else of co64, with the number of
    samples of the last entry of stsc that starts no later than at this chunk. *)
Theorem C37_chunks : forall R data bi pos tr pos',
  probe_trak R data bi pos = (Ok tr, pos') ->
  exists bips p stsc,
    extract_boxes_with_payload R data (Some bi) trak_paths pos = (Ok bips, p) /\
    last_of "stsc" bips = Some stsc /\
    chunk_offsets bips = Some (map c_offset (t_chunks tr)) /\
    (let entries := structs "Entries" stsc in
     increasing (map first_chunk entries) -> Forall (fun e => 1 <= first_chunk e < 2 ^ 32) entries ->
     lenN (t_chunks tr) < 2 ^ 32 ->
     forall k c, nthN k (t_chunks tr) = Some c -> c_spc c = spc_of stsc (k + 1)).
Proof.
  intros R data bi pos tr pos' H. apply probe_trak_ok in H. destruct H as (bips & p & E & T).
  destruct (to_stsc _ _ T) as (stsc & A1 & A2). exists bips, p, stsc. repeat split; auto. apply (to_offsets _ _ T).
Qed.
Print Assumptions C37_chunks.
Example C37_case :
  option_map t_chunks (first_track track_file) = Some [mkchunk 100 2; mkchunk 200 2; mkchunk 300 1].
Proof. vm_compute. reflexivity. Qed.

(** No stsc table makes it panic, whatever the numbers in it. *)
Theorem C37_no_panic : forall stsc chunks (s : N),
  exists l, stsc_chunks stsc chunks s = (Ok l, s) /\ map c_offset l = map c_offset chunks.
Proof. intros. apply stsc_total. Qed.
Print Assumptions C37_no_panic.
Example C37_no_panic_case :
  let e n := VStruct [("FirstChunk", VUint n); ("SamplesPerChunk", VUint 9)] in
  fst (stsc_chunks [("Entries", VList [e 0; e 4294967295; e 3; e 2])] [mkchunk 1 0; mkchunk 2 0] 0) =
  Ok [mkchunk 1 0; mkchunk 2 9].
Proof. vm_compute. reflexivity. Qed.

(** ** Segments *)
(** A file with a free box and a fragment. *)
Definition moof_file : list byte := hex "0000000866726565000000646d6f6f660000005c747261660000001874666864000000180000000500000046000000210000001474666474010000000000000218711a00000000287472756e0100090000000003000000640000001400000096ffffff7e0000000affffff38".

(** C38.  The numbers of tfhd and tfdt; of the last trun: the number of samples,
    the sums modulo 2^32 of durations and sizes, and the least composition time,
    counted from the start of the segment, in 32-bit arithmetic. *)
Theorem C38_segment : forall R data bi pos g pos',
  probe_moof R data bi pos = (Ok g, pos') ->
  exists bips p tfhd,
    extract_boxes_with_payload R data (Some bi) moof_paths pos = (Ok bips, p) /\
    last_of "tfhd" bips = Some tfhd /\
    g_track g = uint_of "TrackID" tfhd /\ g_offset g = bi_offset bi /\
    g_default g = uint_of "DefaultSampleDuration" tfhd /\
    g_base g = match last_of "tfdt" bips with
               | Some x => if get_version x =? 0 then uint_of "BaseMediaDecodeTimeV0" x else uint_of "BaseMediaDecodeTimeV1" x
               | None => 0
               end /\
    match last_of "trun" bips with
    | None => g_count g = 0 /\ g_duration g = 0 /\ g_size g = 0 /\ g_cto g = 0%Z
    | Some trun =>
        g_count g = uint_of "SampleCount" trun /\
        g_duration g = sum (sample_durations tfhd trun) mod 2 ^ 32 /\
        g_size g = sum (sample_sizes tfhd trun) mod 2 ^ 32 /\
        match structs "Entries" trun with
        | [] => g_cto g = 0%Z
        | es => least (g_cto g) (map wrap32 (composition_times tfhd trun 0 es))
        end
    end.
Proof.
  intros R data bi pos g pos' H. unfold probe_moof, bind in H.
  destruct (extract_boxes_with_payload R data (Some bi) moof_paths pos) as [[bips| | |] p] eqn:E; try discriminate H.
  exists bips, p.
  destruct (for_each (fun _ bip f => note_traf bip f) 0 bips (None, None, None) p) as [[f| | |] p1] eqn:F; try discriminate H.
  apply note_trafs in F. destruct F as [_ K]. unfold kept3 in K. subst f. unfold make_segment in H.
  destruct (last_of "tfhd" bips) as [tfhd|]; [|discriminate H]. exists tfhd. split; [reflexivity|]. split; [reflexivity|].
  destruct (last_of "trun" bips) as [trun|].
  - destruct (trun_cto_ok N tfhd trun p1) as (z & C & L). unfold bind in H. rewrite C in H. injection H as <- <-.
    cbn [g_track g_offset g_base g_default g_count g_duration g_cto g_size].
    rewrite trun_duration_ok, trun_size_ok. repeat split; auto.
  - injection H as <- <-. cbn [g_track g_offset g_base g_default g_count g_duration g_cto g_size]. repeat split; auto.
Qed.
Print Assumptions C38_segment.
Example C38_case :
  match fst (probe std_registry moof_file 0) with Ok p => p_segments p | _ => [] end =
  [mkseg 5 8 9000000000 70 3 260 (-30) 99].
Proof. vm_compute. reflexivity. Qed.
(** Without overflow the least composition time is the exact one. *)
Theorem C38_exact : forall tfhd trun es m,
  Forall (fun z => (- 2 ^ 31 <= z < 2 ^ 31)%Z) (composition_times tfhd trun 0 es) ->
  least m (map wrap32 (composition_times tfhd trun 0 es)) <-> least m (composition_times tfhd trun 0 es).
Proof.
  intros tfhd trun es m F. replace (map wrap32 (composition_times tfhd trun 0 es)) with (composition_times tfhd trun 0 es); [tauto|].
  induction F as [|z l H _ IH]; [reflexivity|]. cbn [map]. now rewrite <- IH, wrap32_id.
Qed.
Print Assumptions C38_exact.

(** ** The whole file *)
Lemma for_each_prefix : forall S A B (body : N -> B -> A -> M S A) (P : list B -> A -> Prop),
  (forall i l b a a' (s s' : S), P l a -> body i b a s = (Ok a', s') -> P (l ++ [b]) a') ->
  forall l i pre a a' s s', P pre a -> for_each body i l a s = (Ok a', s') -> P (pre ++ l) a'.
Proof.
  intros S A B body P H. induction l as [|b l IH]; intros i pre a a' s s' HP E; cbn [for_each] in E.
  - injection E as <- <-. now rewrite app_nil_r.
  - unfold bind in E. destruct (body i b a s) as [[x| | |] s1] eqn:F; try discriminate E.
    apply (H _ _ _ _ _ _ _ HP) in F. apply (IH _ _ _ _ _ _ F) in E. now rewrite <- app_assoc in E.
Qed.
Definition typed (t : string) (bi : boxinfo) : bool := bt_eqb (bi_type bi) (bt t).
Record probed (R : registry) (data : list byte) (l : list boxinfo) (st : bool * probeinfo) : Prop := mkprobed
  { pb_fast : (p_fast (snd st), fst st) =
       fold_left (fun st bi => if typed "moov" bi then (negb (snd st), snd st)
                               else if typed "mdat" bi then (fst st, true) else st) l (false, false);
    pb_tracks : Forall2 (fun bi tr => exists q q', probe_trak R data bi q = (Ok tr, q')) (filter (typed "trak") l) (p_tracks (snd st));
    pb_segments : Forall2 (fun bi g => exists q q', probe_moof R data bi q = (Ok g, q')) (filter (typed "moof") l) (p_segments (snd st)) }.
Lemma probe_box_step : forall R data i l b a a' (s s' : N), probed R data l a ->
  (fun (_ : N) bi st => probe_box R data bi st) i b a s = (Ok a', s') -> probed R data (l ++ [b]) a'.
Proof.
  intros R data i l b [md p] a' s s' [K1 K2 K3] H. cbn [fst snd] in *. unfold probe_box in H.
  fold (typed "ftyp" b) (typed "moov" b) (typed "mvhd" b) (typed "trak" b) (typed "moof" b) (typed "mdat" b) in H.
  assert (X : forall x y, bt x <> bt y -> typed x b = true -> typed y b = false).
  { intros x y N T. unfold typed in *. apply bytes_eqb_eq in T. rewrite T.
    destruct (bt_eqb (bt x) (bt y)) eqn:E; [|reflexivity]. apply bytes_eqb_eq in E. contradiction. }
  destruct (typed "ftyp" b) eqn:T1; [|destruct (typed "moov" b) eqn:T2; [|destruct (typed "mvhd" b) eqn:T3; [|destruct (typed "trak" b) eqn:T4;
    [|destruct (typed "moof" b) eqn:T5; [|destruct (typed "mdat" b) eqn:T6]]]]].
  - unfold bind in H. destruct (read_box R data b s) as [[x| | |] s1]; try discriminate H. injection H as <- <-.
    constructor; rewrite ?fold_left_app, ?filter_app; cbn [fold_left filter fst snd p_fast p_tracks p_segments];
    rewrite ?(X "ftyp" "moov"), ?(X "ftyp" "mdat"), ?(X "ftyp" "trak"), ?(X "ftyp" "moof") by (auto; discriminate); rewrite ?app_nil_r; auto.
  - injection H as <- <-.
    constructor; rewrite ?fold_left_app, ?filter_app; cbn [fold_left filter fst snd p_fast p_tracks p_segments];
    rewrite ?T2, ?(X "moov" "trak"), ?(X "moov" "moof") by (auto; discriminate); rewrite ?app_nil_r; auto.
    rewrite <- K1. reflexivity.
  - unfold bind in H. destruct (read_box R data b s) as [[x| | |] s1]; try discriminate H. injection H as <- <-.
    constructor; rewrite ?fold_left_app, ?filter_app; cbn [fold_left filter fst snd p_fast p_tracks p_segments];
    rewrite ?T2, ?(X "mvhd" "mdat"), ?(X "mvhd" "trak"), ?(X "mvhd" "moof") by (auto; discriminate); rewrite ?app_nil_r; auto.
  - unfold bind in H. destruct (probe_trak R data b s) as [[x| | |] s1] eqn:E; try discriminate H. injection H as <- <-.
    constructor; rewrite ?fold_left_app, ?filter_app; cbn [fold_left filter fst snd p_fast p_tracks p_segments];
    rewrite ?T2, ?T4, ?(X "trak" "mdat"), ?(X "trak" "moof") by (auto; discriminate); rewrite ?app_nil_r; auto.
    apply Forall2_app; [exact K2|]. constructor; [|constructor]. eauto.
  - unfold bind in H. destruct (probe_moof R data b s) as [[x| | |] s1] eqn:E; try discriminate H. injection H as <- <-.
    constructor; rewrite ?fold_left_app, ?filter_app; cbn [fold_left filter fst snd p_fast p_tracks p_segments];
    rewrite ?T2, ?T4, ?T5, ?(X "moof" "mdat") by (auto; discriminate); rewrite ?app_nil_r; auto.
    apply Forall2_app; [exact K3|]. constructor; [|constructor]. eauto.
  - injection H as <- <-.
    constructor; rewrite ?fold_left_app, ?filter_app; cbn [fold_left filter fst snd p_fast p_tracks p_segments];
    rewrite ?T2, ?T4, ?T5, ?T6; rewrite ?app_nil_r; auto. rewrite <- K1. reflexivity.
  - injection H as <- <-.
    constructor; rewrite ?fold_left_app, ?filter_app; cbn [fold_left filter fst snd p_fast p_tracks p_segments];
    rewrite ?T2, ?T4, ?T5, ?T6; rewrite ?app_nil_r; auto.
Qed.
Lemma probe_ok : forall R data pos p pos', probe R data pos = (Ok p, pos') ->
  exists bis q md, extract_boxes R data None probe_paths pos = (Ok bis, q) /\ probed R data bis (md, p).
Proof.
  intros R data pos p pos' H. unfold probe, bind in H.
  destruct (extract_boxes R data None probe_paths pos) as [[bis| | |] q] eqn:E; try discriminate H.
  destruct (for_each (fun _ bi st => probe_box R data bi st) 0 bis (false, empty_probe) q) as [[[md x]| | |] q1] eqn:F; try discriminate H.
  injection H as <- <-. exists bis, q, md. split; [reflexivity|].
  refine (for_each_prefix _ _ _ _ (probed R data) (probe_box_step R data) bis 0 [] _ _ _ _ _ F).
  constructor; [reflexivity|constructor|constructor].
Qed.
(** The boxes listed under a box: its path begins theirs. *)
Lemma list_box_shape : forall data base b anc qt keys o,
  exists h tl, list_box data base anc qt keys o b = h :: tl /\ e_path h = anc ++ [box_type b] /\ bi_type (e_info h) = box_type b /\
    Forall (fun e => exists p t, e_path e = anc ++ [box_type b] ++ p ++ [t] /\ bi_type (e_info e) = t) tl.
Proof.
  intros data base. fix IH 1. intros [f t own kids slack] anc qt keys o. cbn [list_box].
  destruct (match enter data base anc qt keys o (Box f t own kids slack) with Ok x => x | _ => (qt, keys) end) as [qt' keys'].
  do 2 eexists. split; [reflexivity|]. split; [reflexivity|]. split; [reflexivity|].
  cbn [box_type]. generalize (o + hsize f + lenN own), keys'. clear - IH.
  induction kids as [|k r IHk]; intros o keys; [constructor|]. apply Forall_app. split.
  - destruct (IH k (anc ++ [t]) qt' keys o) as (h & tl & -> & P & T & F). constructor.
    + exists [], (box_type k). rewrite P, <- app_assoc. auto.
    + eapply Forall_impl; [|exact F]. intros e (p & u & Q & U). exists (box_type k :: p), u. rewrite Q, <- !app_assoc. auto.
  - apply IHk.
Qed.
Lemma selected_in : forall paths p, Forall (fun q => named q = true) paths -> selected 0 paths p = true -> In p paths.
Proof.
  intros paths p F H. unfold selected in H. cbn [skipn] in H. apply andb_true_iff in H. destruct H as [_ H].
  apply existsb_exists in H. destruct H as (q & I & M). rewrite Forall_forall in F. specialize (F q I).
  replace p with q; [exact I|]. clear - F M. revert p M F.
  induction q as [|a q IH]; intros [|t p] M F; try discriminate M; [reflexivity|].
  cbn in M, F. apply andb_true_iff in M. destruct M as [M1 M2]. apply andb_true_iff in F. destruct F as [F1 F2].
  apply negb_true_iff in F1. rewrite F1 in M1. cbn in M1. apply bytes_eqb_eq in M1. subst. f_equal. auto.
Qed.
Lemma selected_of : forall paths p, In p paths -> named p = true -> selected 0 paths p = true.
Proof.
  intros paths p I N. unfold selected. rewrite N. cbn [skipn andb]. apply existsb_exists. exists p. split; [exact I|].
  clear. induction p as [|t p IH]; [reflexivity|]. cbn. rewrite IH.
  replace (bt_eqb t t) with true by (symmetry; now apply bytes_eqb_eq). now rewrite orb_true_r.
Qed.
Lemma probe_named : Forall (fun q => named q = true) probe_paths.
Proof. repeat constructor. Qed.
(** which of the boxes looked for has a type *)
Lemma typed_at : forall ty q e, In q probe_paths -> last q (bt "") = bt ty ->
  Forall (fun q' => last q' (bt "") = bt ty -> q' = q) probe_paths -> (List.length q <= 2)%nat ->
  last (e_path e) (bt "") = bi_type (e_info e) ->
  (selected 0 probe_paths (e_path e) && typed ty (e_info e))%bool = selected 0 [q] (e_path e).
Proof.
  intros ty q e I L U _ T. apply eq_true_iff_eq. rewrite andb_true_iff. split.
  - intros [S1 S2]. pose proof (selected_in _ _ probe_named S1) as J. unfold typed in S2. apply bytes_eqb_eq in S2.
    rewrite Forall_forall in U. rewrite (U _ J) by (rewrite T; exact S2). apply selected_of; [now left|].
    pose proof probe_named as N. rewrite Forall_forall in N. now apply N.
  - intros S1. assert (Q : e_path e = q).
    { apply selected_in in S1; [destruct S1 as [->|[]]; reflexivity|]. constructor; [|constructor].
      pose proof probe_named as N. rewrite Forall_forall in N. now apply N. }
    split.
    + rewrite Q. apply selected_of; auto. pose proof probe_named as N. rewrite Forall_forall in N. now apply N.
    + unfold typed. rewrite <- T, Q, L. now apply bytes_eqb_eq.
Qed.
Lemma listed_last : forall data base l qt keys o,
  Forall (fun e => last (e_path e) (bt "") = bi_type (e_info e)) (list_file data base qt keys o l).
Proof.
  intros data base. induction l as [|b r IH]; intros qt keys o; [constructor|]. cbn [list_file].
  destruct (match enter data base [] qt keys o b with Ok x => x | _ => (qt, keys) end) as [qt' keys'].
  apply Forall_app. split; [|apply IH]. destruct (list_box_shape data base b [] qt keys o) as (h & tl & -> & P & T & F).
  constructor; [rewrite P, T; reflexivity|]. eapply Forall_impl; [|exact F]. intros e (p & t & Q & U).
  rewrite Q, U, !app_assoc. apply last_last.
Qed.
Lemma filter_filter_map : forall A B (g : A -> B) f h k l, Forall (fun x => (f x && h (g x))%bool = k x) l ->
  filter h (map g (filter f l)) = map g (filter k l).
Proof.
  intros A B g f h k l F. induction F as [|x l H _ IH]; [reflexivity|]. cbn [filter map]. rewrite <- H.
  destruct (f x); cbn [map filter andb]; [|exact IH]. destruct (h (g x)); cbn [map]; now rewrite IH.
Qed.
Lemma forall2_map_l : forall A B C (g : A -> B) (P : B -> C -> Prop) l l', Forall2 P (map g l) l' -> Forall2 (fun a => P (g a)) l l'.
Proof. induction l; intros l' H; inversion H; subst; constructor; auto. Qed.

(** One track for each trak box in a moov box, in the order of the file, ... *)
Theorem C36_tracks : forall ts pos p pos', let data := file_bytes ts in
  lenN data < 2 ^ 62 -> list_wf true ts ->
  let all := list_file data ctx0 false 0 0 ts in
  Forall (readable data 0 probe_paths) all ->
  probe std_registry data pos = (Ok p, pos') ->
  Forall2 (fun e tr => exists q q', probe_trak std_registry data (e_info e) q = (Ok tr, q'))
          (filter (fun e => selected 0 [[bt "moov"; bt "trak"]] (e_path e)) all) (p_tracks p).
Proof.
  intros ts pos p pos' data HD HW all HR H. apply probe_ok in H. destruct H as (bis & q & md & E & [_ K _]).
  destruct (C29_extract ts probe_paths pos HD HW ltac:(discriminate) ltac:(repeat constructor; discriminate) HR) as (q' & X).
  fold data in X. rewrite E in X. assert (BE : bis = map e_info (filter (fun e => selected 0 probe_paths (e_path e)) all)) by (injection X; intros; assumption).
  subst bis. clear X E. cbn [snd] in K.
  rewrite (filter_filter_map _ _ _ _ _ (fun e => selected 0 [[bt "moov"; bt "trak"]] (e_path e))) in K.
  - now apply forall2_map_l in K.
  - eapply Forall_impl; [|apply listed_last]. intros e T. cbv beta in T |- *.
    apply typed_at; auto; [cbn; tauto|]. repeat constructor; intros Q; try reflexivity; discriminate Q.
Qed.
Print Assumptions C36_tracks.
(** ... and one segment for each moof box. *)
Theorem C38_segments : forall ts pos p pos', let data := file_bytes ts in
  lenN data < 2 ^ 62 -> list_wf true ts ->
  let all := list_file data ctx0 false 0 0 ts in
  Forall (readable data 0 probe_paths) all ->
  probe std_registry data pos = (Ok p, pos') ->
  Forall2 (fun e g => exists q q', probe_moof std_registry data (e_info e) q = (Ok g, q'))
          (filter (fun e => selected 0 [[bt "moof"]] (e_path e)) all) (p_segments p).
Proof.
  intros ts pos p pos' data HD HW all HR H. apply probe_ok in H. destruct H as (bis & q & md & E & [_ _ K]).
  destruct (C29_extract ts probe_paths pos HD HW ltac:(discriminate) ltac:(repeat constructor; discriminate) HR) as (q' & X).
  fold data in X. rewrite E in X. assert (BE : bis = map e_info (filter (fun e => selected 0 probe_paths (e_path e)) all)) by (injection X; intros; assumption).
  subst bis. clear X E. cbn [snd] in K.
  rewrite (filter_filter_map _ _ _ _ _ (fun e => selected 0 [[bt "moof"]] (e_path e))) in K.
  - now apply forall2_map_l in K.
  - eapply Forall_impl; [|apply listed_last]. intros e T. cbv beta in T |- *.
    apply typed_at; auto; [cbn; tauto|]. repeat constructor; intros Q; try reflexivity; discriminate Q.
Qed.
Print Assumptions C38_segments.

(** *** FastStart *)
Definition fast_step (st : bool * bool) (t : btype) : bool * bool :=
  if bt_eqb t (bt "moov") then (negb (snd st), snd st) else if bt_eqb t (bt "mdat") then (fst st, true) else st.
Definition moov_first (l : list btype) : Prop :=
  exists pre post, l = pre ++ bt "moov" :: post /\ ~ In (bt "mdat") pre /\ ~ In (bt "moov") post.
Lemma fast_fold : forall l, let st := fold_left fast_step l (false, false) in
  (fst st = true <-> moov_first l) /\ (snd st = true <-> In (bt "mdat") l).
Proof.
  induction l as [|t l IH] using rev_ind; cbv zeta in *.
  - cbn. split; split; intros H; try discriminate; try contradiction. destruct H as (pre & post & H & _). destruct pre; discriminate H.
  - rewrite fold_left_app. cbn [fold_left]. destruct (fold_left fast_step l (false, false)) as [fa md]. cbn [fst snd] in IH.
    destruct IH as [I1 I2]. unfold fast_step. destruct (bt_eqb t (bt "moov")) eqn:E1; [|destruct (bt_eqb t (bt "mdat")) eqn:E2]; cbn [fst snd].
    + apply bytes_eqb_eq in E1. subst t. split.
      * rewrite negb_true_iff. split.
        -- intros M. exists l, []. split; [reflexivity|]. split; [|intros []]. intros I. apply I2 in I. congruence.
        -- intros (pre & post & Q & N1 & N2). destruct md; [|reflexivity]. exfalso.
           destruct post as [|x post _] using rev_ind.
           ++ apply app_inj_tail in Q. destruct Q as [-> _]. apply N1. now apply I2.
           ++ rewrite app_comm_cons, app_assoc in Q. apply app_inj_tail in Q. destruct Q as [_ <-].
              apply N2. apply in_or_app. right. now left.
      * rewrite I2, in_app_iff. cbn. split; [tauto|]. intros [H|[H|[]]]; [exact H|discriminate H].
    + apply bytes_eqb_eq in E2. subst t. split.
      * rewrite I1. split; intros (pre & post & Q & N1 & N2).
        -- exists pre, (post ++ [bt "mdat"]). split; [rewrite Q, <- app_assoc; reflexivity|]. split; [exact N1|].
           intros I. apply in_app_iff in I. destruct I as [I|[I|[]]]; [now apply N2|discriminate I].
        -- destruct post as [|x post _] using rev_ind.
           ++ apply app_inj_tail in Q. destruct Q as [_ Q]. discriminate Q.
           ++ rewrite app_comm_cons, app_assoc in Q. apply app_inj_tail in Q. destruct Q as [Q <-].
              exists pre, post. split; [exact Q|]. split; [exact N1|]. intros I. apply N2. apply in_or_app. now left.
      * split; [intros _; apply in_or_app; right; now left|reflexivity].
    + assert (D1 : t <> bt "moov") by (intros ->; discriminate E1). assert (D2 : t <> bt "mdat") by (intros ->; discriminate E2). split.
      * rewrite I1. split; intros (pre & post & Q & N1 & N2).
        -- exists pre, (post ++ [t]). split; [rewrite Q, <- app_assoc; reflexivity|]. split; [exact N1|].
           intros I. apply in_app_iff in I. destruct I as [I|[I|[]]]; [now apply N2|contradiction].
        -- destruct post as [|x post _] using rev_ind.
           ++ apply app_inj_tail in Q. destruct Q as [_ Q]. contradiction.
           ++ rewrite app_comm_cons, app_assoc in Q. apply app_inj_tail in Q. destruct Q as [Q <-].
              exists pre, post. split; [exact Q|]. split; [exact N1|]. intros I. apply N2. apply in_or_app. now left.
      * rewrite I2, in_app_iff. cbn. split; [tauto|]. intros [H|[H|[]]]; [exact H|contradiction].
Qed.
Lemma fold_fast_map : forall l st,
  fold_left (fun st bi => if typed "moov" bi then (negb (snd st), snd st)
                          else if typed "mdat" bi then (fst st, true) else st) l st = fold_left fast_step (map bi_type l) st.
Proof. induction l as [|b l IH]; intros st; [reflexivity|]. cbn [fold_left map]. apply IH. Qed.
(** only the boxes at the top count *)
Lemma fast_top : forall data base ts qt keys o st,
  fold_left fast_step (map bi_type (map e_info (filter (fun e => selected 0 probe_paths (e_path e)) (list_file data base qt keys o ts)))) st =
  fold_left fast_step (map box_type ts) st.
Proof.
  intros data base. induction ts as [|b r IH]; intros qt keys o st; [reflexivity|]. cbn [list_file map fold_left].
  destruct (match enter data base [] qt keys o b with Ok x => x | _ => (qt, keys) end) as [qt' keys'].
  rewrite filter_app, !map_app, fold_left_app, IH. f_equal.
  destruct (list_box_shape data base b [] qt keys o) as (h & tl & -> & P & T & F). cbn [filter].
  assert (TL : forall st, fold_left fast_step (map bi_type (map e_info (filter (fun e => selected 0 probe_paths (e_path e)) tl))) st = st).
  { clear - F. induction F as [|e tl (p & t & Q & U) F IH]; intros st; [reflexivity|]. cbn [filter].
    destruct (selected 0 probe_paths (e_path e)) eqn:S; [|apply IH]. cbn [map fold_left]. rewrite IH.
    apply (selected_in _ _ probe_named) in S. rewrite Q in S. cbn [app] in S.
    assert (TT : t = bt "mvhd" \/ t = bt "trak").
    { cbn in S. destruct p as [|x p]; cbn in S.
      - destruct S as [S|[S|[S|[S|[S|[S|[]]]]]]]; try discriminate S; injection S; auto.
      - destruct S as [S|[S|[S|[S|[S|[S|[]]]]]]]; try discriminate S; destruct p; discriminate S. }
    rewrite U. destruct TT as [->| ->]; reflexivity. }
  rewrite P. cbn [app]. destruct (selected 0 probe_paths [box_type b]) eqn:S.
  - cbn [map fold_left]. rewrite TL, T. reflexivity.
  - rewrite TL. unfold fast_step. destruct (bt_eqb (box_type b) (bt "moov")) eqn:E1.
    + exfalso. apply bytes_eqb_eq in E1. rewrite E1 in S. discriminate S.
    + destruct (bt_eqb (box_type b) (bt "mdat")) eqn:E2; [|reflexivity].
      exfalso. apply bytes_eqb_eq in E2. rewrite E2 in S. discriminate S.
Qed.

(** C43.  FastStart is reported exactly when there is a moov box and the last
    one comes before every mdat box. *)
Theorem C43_fast_start : forall ts pos p pos', let data := file_bytes ts in
  lenN data < 2 ^ 62 -> list_wf true ts ->
  Forall (readable data 0 probe_paths) (list_file data ctx0 false 0 0 ts) ->
  probe std_registry data pos = (Ok p, pos') ->
  p_fast p = true <->
  exists pre m post, ts = pre ++ m :: post /\ box_type m = bt "moov" /\
    ~ In (bt "mdat") (map box_type pre) /\ ~ In (bt "moov") (map box_type post).
Proof.
  intros ts pos p pos' data HD HW HR H. apply probe_ok in H. destruct H as (bis & q & md & E & [K _ _]).
  destruct (C29_extract ts probe_paths pos HD HW ltac:(discriminate) ltac:(repeat constructor; discriminate) HR) as (q' & X).
  fold data in X. rewrite E in X.
  assert (BE : bis = map e_info (filter (fun e => selected 0 probe_paths (e_path e)) (list_file data ctx0 false 0 0 ts))) by (injection X; intros; assumption).
  subst bis. clear X E HD HW HR. cbn [fst snd] in K. rewrite fold_fast_map, fast_top in K.
  destruct (fast_fold (map box_type ts)) as [A _]. rewrite <- K in A. cbn [fst] in A. rewrite A. clear. split.
  - intros (pre & post & Q & N1 & N2). apply map_eq_app in Q. destruct Q as (l1 & l2 & -> & <- & Q).
    apply map_eq_cons in Q. destruct Q as (m & l3 & -> & Q & <-). exists l1, m, l3. auto.
  - intros (pre & m & post & -> & Q & N1 & N2). exists (map box_type pre), (map box_type post).
    rewrite map_app. cbn [map]. rewrite Q. auto.
Qed.
Print Assumptions C43_fast_start.

(** A file with a track and a fragment, as a tree. *)
Definition probe_tree : list box := [
  Box Small (bt "ftyp") (hex "69736f6d0000020069736f6d69736f32") [] [];
  Box Small (bt "moov") [] [
    Box Small (bt "trak") [] [
      Box Small (bt "tkhd") (hex "000000030000000100000002000000070000000000000384000000000000000000000000000000000001000000000000000000000000000000010000000000000000000000000000400000000000000000000000") [] [];
      Box Small (bt "edts") [] [
        Box Small (bt "elst") (hex "0000000000000001000003840000002800010000") [] [] ] [];
      Box Small (bt "mdia") [] [
        Box Small (bt "mdhd") (hex "000000000000000100000002000003e80000038455c40000") [] [];
        Box Small (bt "minf") [] [
          Box Small (bt "stbl") [] [
            Box Small (bt "stts") (hex "0000000000000002000000020000012c0000000300000064") [] [];
            Box Small (bt "ctts") (hex "0100000000000002000000010000000500000002fffffffc") [] [];
            Box Small (bt "stsz") (hex "0000000000000000000000040000000b0000000c0000000d0000000e") [] [];
            Box Small (bt "stsc") (hex "0000000000000002000000010000000200000001000000030000000100000001") [] [];
            Box Small (bt "stco") (hex "000000000000000300000064000000c80000012c") [] [] ] [] ] [] ] [] ] [] ] [];
  Box Small (bt "mdat") (hex "6162") [] [];
  Box Small (bt "moof") [] [
    Box Small (bt "traf") [] [
      Box Small (bt "tfhd") (hex "00000018000000050000004600000021") [] [];
      Box Small (bt "trun") (hex "0100090000000003000000640000001400000096ffffff7e0000000affffff38") [] [] ] [] ] [] ].
Example probe_tree_case :
  (list_wf true probe_tree /\ lenN (file_bytes probe_tree) < 2 ^ 62) /\
  Forall (readable (file_bytes probe_tree) 0 probe_paths) (list_file (file_bytes probe_tree) ctx0 false 0 0 probe_tree) /\
  match fst (probe std_registry (file_bytes probe_tree) 0) with
  | Ok p => Some (p_fast p, List.length (p_tracks p), List.length (p_segments p))
  | _ => None
  end = Some (true, 1%nat, 1%nat).
Proof.
  split; [vm_compute; repeat split; intros; try discriminate; reflexivity|]. split; [|vm_compute; reflexivity].
  apply readable_b_ok. vm_compute. reflexivity.
Qed.
