(** C56: Probe's report, from the boxes of the file. *)
From Verif Require Import Base BaseProofs Schema Structs Registry Unmarshal BoxInfo ReadTree Extract Accessors SpecTree TreeProofs
  PropTree SpecExtract PropExtract PropExtractPayload Probe SpecProbe ProbeProofs ProbeFound PropProbe SpecTool ToolProofs SpecReport.
Local Open Scope string_scope.
Local Open Scope list_scope.
Local Open Scope N_scope.

(** ** What note_box keeps for the codec *)
Definition last_in (ts : list string) (l : list (boxinfo * (boxdef * fields))) : option (btype * fields) :=
  fold_left (fun o b => if existsb (fun t => bt_eqb (bi_type (fst b)) (bt t)) ts
                        then Some (bi_type (fst b), snd (snd b)) else o) l None.
Definition named_codec (o : option (btype * fields)) : codec :=
  match o with
  | Some (t, _) => if bt_eqb t (bt "avc1") || bt_eqb t (bt "encv") then CodecAVC1 else CodecMP4A
  | None => CodecUnknown
  end.
Definition some_in (ts : list string) (l : list (boxinfo * (boxdef * fields))) : bool :=
  existsb (fun b => existsb (fun t => bt_eqb (bi_type (fst b)) (bt t)) ts) l.
Lemma last_in_app : forall ts l b, last_in ts (l ++ [b]) =
  if existsb (fun t => bt_eqb (bi_type (fst b)) (bt t)) ts then Some (bi_type (fst b), snd (snd b)) else last_in ts l.
Proof. intros. unfold last_in. rewrite fold_left_app. reflexivity. Qed.
Record kept_codec (l : list (boxinfo * (boxdef * fields))) (f : found) : Prop := mkkept_codec
  { kc_audio : f_audio f = option_map snd (last_in ["mp4a"; "enca"] l);
    kc_codec : f_codec f = named_codec (last_in ["avc1"; "encv"; "mp4a"; "enca"] l);
    kc_enc : f_enc f = some_in ["encv"; "enca"] l }.
Lemma note_box_codec : forall S l b f f' (s s' : S), kept_codec l f -> note_box b f s = (Ok f', s') -> s' = s /\ kept_codec (l ++ [b]) f'.
Proof.
  intros S l b f f' s s' K H. unfold note_box in H. destruct f as [co en tkhd elst mdhd avc1 avcC audio esds stco stts stsc ctts stsz co64].
  set (t := bi_type (fst b)) in *. destruct K as [K1 K2 K3]. cbn [f_audio f_codec f_enc] in K1, K2, K3.
  assert (A : forall ts, some_in ts (l ++ [b]) = some_in ts l || existsb (fun u => bt_eqb t (bt u)) ts).
  { intros ts. unfold some_in. rewrite existsb_app. cbn [existsb]. now rewrite orb_false_r. }
  repeat match type of H with
  | (if bt_eqb t ?c then _ else _) _ = _ => let E := fresh "E" in destruct (bt_eqb t c) eqn:E
  end;
  (match type of H with
   | bind _ _ _ = _ =>
       unfold bind in H; destruct (payload_as _ (snd b) s) as [[x| | |] s1] eqn:P; try discriminate;
       apply payload_as_some in P; destruct P as [-> ->]; injection H as <- <-
   | _ => injection H as <- <-
   end; split; [reflexivity|];
   constructor; cbn [f_audio f_codec f_enc]; rewrite ?A, ?last_in_app; fold t;
   first [ match goal with E : bt_eqb t ?c = true |- _ =>
             apply bytes_eqb_eq in E; rewrite E; vm_compute existsb; cbv iota; rewrite ?K1, ?K2, ?K3;
             first [reflexivity | now rewrite orb_false_r | now rewrite orb_true_r] end
         | cbn [existsb]; repeat match goal with E : bt_eqb t _ = false |- _ => rewrite E; clear E end;
           cbn [orb]; rewrite ?K1, ?K2, ?K3, ?orb_false_r; reflexivity ]).
Qed.
Lemma note_boxes_codec : forall S bips f (s s' : S),
  for_each (fun _ bip f => note_box bip f) 0 bips nothing s = (Ok f, s') -> kept_codec bips f.
Proof.
  intros S bips f s s' E.
  apply (for_each_ok S found _ (fun _ bip f => note_box bip f) kept_codec) with (pre := []) in E; [apply E| |].
  - intros i l b a a' s1 s1' K F. exact (note_box_codec _ _ _ _ _ _ _ K F).
  - constructor; reflexivity.
Qed.
Definition audio_of (bips : list (boxinfo * (boxdef * fields))) (tr : track) : Prop :=
  match option_map snd (last_in ["mp4a"; "enca"] bips), last_of "esds" bips with
  | Some a, Some x => exists oti aot, detect_aac_profile x = Ok (oti, aot) /\
                                      t_mp4a tr = Some (mkmp4a oti aot (uint_of "ChannelCount" a))
  | _, _ => t_mp4a tr = None end.
Definition avc_of (bips : list (boxinfo * (boxdef * fields))) : option avcinfo :=
  match last_of "avc1" bips, last_of "avcC" bips with
  | Some v, Some c => Some (mkavc (uint_of "ConfigurationVersion" c) (uint_of "Profile" c)
                             (uint_of "ProfileCompatibility" c) (uint_of "Level" c)
                             (uint_of "LengthSizeMinusOne" c + 1) (uint_of "Width" v) (uint_of "Height" v))
  | _, _ => None end.
Lemma make_track_codec : forall S bips f tr (s s' : S), kept bips f -> kept_codec bips f -> make_track f s = (Ok tr, s') ->
  t_codec tr = named_codec (last_in ["avc1"; "encv"; "mp4a"; "enca"] bips) /\
  t_encrypted tr = some_in ["encv"; "enca"] bips /\ t_avc tr = avc_of bips /\ audio_of bips tr.
Proof.
  intros S bips f tr s s' K [C1 C2 C3] H. unfold make_track in H. unfold audio_of, avc_of.
  rewrite <- C1, <- C2, <- C3. rewrite <- (k_avc1 _ _ K), <- (k_avcC _ _ K), <- (k_esds _ _ K).
  destruct (f_tkhd f) as [tkhd|]; [|discriminate H]. unfold bind at 1 in H.
  match type of H with (match ?m with _ => _ end) = _ => destruct m as [[eds| | |] s1]; try discriminate H end.
  destruct (f_mdhd f) as [mdhd|]; [|discriminate H].
  unfold bind at 1 in H.
  match type of H with (match ?m with _ => _ end) = _ => destruct m as [[mp4a| | |] s2] eqn:A; try discriminate H end.
  unfold bind at 1 in H.
  match type of H with (match ?m with _ => _ end) = _ => destruct m as [[chs| | |] s3]; try discriminate H end.
  destruct (f_stts f) as [stts|]; [|discriminate H]. unfold bind at 1 in H.
  match type of H with (match ?m with _ => _ end) = _ => destruct m as [[smp| | |] s4]; try discriminate H end.
  destruct (f_stsc f) as [stsc|]; [|discriminate H].
  do 3 (unfold bind at 1 in H;
  match type of H with (match ?m with _ => _ end) = _ => destruct m as [[?| | |] ?]; try discriminate H end).
  injection H as <- _. cbn [t_codec t_encrypted t_avc t_mp4a]. repeat split.
  destruct (f_audio f) as [au|], (f_esds f) as [es|]; try (injection A as <- _; reflexivity).
  unfold bind, lift_res in A. destruct (detect_aac_profile es) as [[oti aot]| | |]; try discriminate A.
  injection A as <- _. exists oti, aot. split; reflexivity.
Qed.

(** ** The boxes found *)
Section Found.
  Variable data : list byte.
  Hypothesis data_small : lenN data < 2 ^ 62.
  Definition view (b : boxinfo * (boxdef * fields)) : btype * fields := (bi_type (fst b), snd (snd b)).
  Definition view_entry (e : entry) : btype * fields := (e_type e, fields_of data e).
  Definition last_some {A} (l : list A) : option A := hd_error (rev l).
  Lemma last_some_app : forall A (l : list A) x, last_some (l ++ [x]) = Some x.
  Proof. intros. unfold last_some. now rewrite rev_app_distr. Qed.

  Lemma last_of_view : forall t l, last_of t l = option_map snd (last_some (filter (fun b => bt_eqb (fst b) (bt t)) (map view l))).
  Proof.
    intros t l. induction l as [|b l IH] using rev_ind; [reflexivity|].
    rewrite last_of_app, map_app, filter_app. cbn [map filter]. unfold sel. cbn [view fst].
    destruct (bt_eqb (bi_type (fst b)) (bt t)); [now rewrite last_some_app|now rewrite app_nil_r].
  Qed.
  Lemma last_in_view : forall ts l, last_in ts l =
    last_some (filter (fun b => existsb (fun t => bt_eqb (fst b) (bt t)) ts) (map view l)).
  Proof.
    intros t l. induction l as [|b l IH] using rev_ind; [reflexivity|].
    rewrite last_in_app, map_app, filter_app. cbn [map filter]. cbn [view fst].
    match goal with |- (if ?c then _ else _) = _ => destruct c; [now rewrite last_some_app|now rewrite app_nil_r] end.
  Qed.

  (** places by the type they end with *)
  Definition ending (f : btype -> bool) (ps : list path) : list path := filter (fun q => f (last q (bt ""))) ps.
  Lemma selected1_in : forall ps p, Forall (fun q => named q = true) ps -> selected 1 ps p = true -> named p = true /\ In (skipn 1 p) ps.
  Proof.
    intros ps p F H. unfold selected in H. apply andb_prop in H. destruct H as [H1 H2]. split; [exact H1|].
    apply (selected_in ps); [exact F|]. unfold selected. apply andb_true_intro. split; [|exact H2].
    destruct p as [|t p]; [reflexivity|]. cbn in H1. apply andb_prop in H1. apply H1.
  Qed.
  Lemma selected1_of : forall ps p, named p = true -> In (skipn 1 p) ps -> selected 1 ps p = true.
  Proof.
    intros ps p H I. unfold selected. rewrite H. cbn [andb].
    assert (N : named (skipn 1 p) = true).
    { destruct p as [|t p]; [reflexivity|]. cbn in H. apply andb_prop in H. apply H. }
    pose proof (selected_of ps _ I N) as S. unfold selected in S. apply andb_prop in S. cbn [skipn] in S. apply S.
  Qed.
  Lemma by_type : forall f ps e, Forall (fun q => named q = true /\ q <> []) ps -> last (e_path e) (bt "") = e_type e ->
    (selected 1 ps (e_path e) && f (e_type e))%bool = selected 1 (ending f ps) (e_path e).
  Proof.
    intros f ps e F L.
    assert (N1 : Forall (fun q => named q = true) ps) by (eapply Forall_impl; [|exact F]; now intros q [Q _]).
    assert (N2 : Forall (fun q => named q = true) (ending f ps)).
    { rewrite Forall_forall in *. intros q I. apply filter_In in I. now apply N1. }
    assert (LS : forall q, In q ps -> skipn 1 (e_path e) = q -> last q (bt "") = e_type e).
    { intros q I E. rewrite <- L. rewrite Forall_forall in F. destruct (F q I) as [_ NE]. destruct (e_path e) as [|t p]; [now subst|].
      cbn [skipn] in E. subst p. destruct q; [contradiction|reflexivity]. }
    apply eq_true_iff_eq. rewrite andb_true_iff. split.
    - intros [S1 S2]. apply selected1_in in S1; [|exact N1]. destruct S1 as [S1 I]. apply selected1_of; [exact S1|].
      apply filter_In. split; [exact I|]. now rewrite (LS _ I eq_refl).
    - intros S1. apply selected1_in in S1; [|exact N2]. destruct S1 as [S1 I]. apply filter_In in I. destruct I as [I E].
      split; [now apply selected1_of|]. now rewrite (LS _ I eq_refl) in E.
  Qed.

  Variable e : entry.
  Lemma below_last : Forall (fun x => last (e_path x) (bt "") = e_type x) (below data e).
  Proof.
    unfold below. eapply Forall_impl; [|apply list_box_types]. intros x (q & Q). rewrite Q. apply last_last.
  Qed.
  Lemma view_filter : forall f (ps : list (list string)) qs, Forall (fun q => named q = true /\ q <> []) (map (map bt) ps) ->
    ending f (map (map bt) ps) = map (map bt) qs ->
    filter (fun b => f (fst b)) (map view_entry (at_paths data e ps)) = map view_entry (at_paths data e qs).
  Proof.
    intros f ps qs F E. unfold at_paths. rewrite <- E.
    apply filter_filter_map. eapply Forall_impl; [|exact below_last]. intros x L. cbn [view_entry fst]. now apply by_type.
  Qed.

  (** looking for boxes in a box finds those at the places, with their fields *)
  Lemma found_view : forall ps pos bips pos', ps <> [] -> Forall (fun q => q <> []) ps ->
    placed data e -> bi_ctx (e_info e) = ctx_of ctx0 (IsQuickTimeCompatible (bi_ctx (e_info e)))
                                                 (QuickTimeKeysMetaEntryCount (bi_ctx (e_info e))) [] ->
    searchable data ps e ->
    extract_boxes_with_payload std_registry data (Some (e_info e)) (map (map bt) ps) pos = (Ok bips, pos') ->
    map view bips = map view_entry (at_paths data e ps).
  Proof.
    intros ps pos bips pos' NE NQ (pre & post & last & A & EI) EC [SR SC] EX.
    assert (X : exists p, extract_boxes std_registry data (Some (e_info e)) (map (map bt) ps) pos = (Ok (map e_info (at_paths data e ps)), p)).
    { pose proof A as (HD & HW & HL).
      assert (NE2 : map (map bt) ps <> []) by (destruct ps; [contradiction|discriminate]).
      assert (NQ2 : Forall (fun q => q <> []) (map (map bt) ps)).
      { apply Forall_map. eapply Forall_impl; [|exact NQ]. intros [|a q] H; [contradiction|discriminate]. }
      unfold below in SR. assert (EO : bi_offset (e_info e) = lenN pre) by (rewrite EI; reflexivity). rewrite EO, HD in SR.
      pose proof data_small as D62. rewrite HD in D62.
      destruct (C29_extract_from pre (e_box e) post last _ _ ctx0 (map (map bt) ps) pos D62 HW HL NE2 NQ2 SR) as (p & X).
      rewrite <- EC in X. exists p.
      assert (EI2 : mkbi (lenN pre) (box_size (e_box e)) (hsize (box_form (e_box e))) (box_type (e_box e))
         match box_form (e_box e) with ToEnd => true | _ => false end (bi_ctx (e_info e)) = e_info e) by (symmetry; exact EI).
      rewrite EI2, <- HD in X. unfold at_paths, below. rewrite EO. exact X. }
    destruct X as (p & X).
    assert (ST : Forall (fun bi => steady (bi_type bi) \/ bi_ctx bi = bi_ctx (e_info e)) (map e_info (at_paths data e ps))).
    { apply Forall_map. exact SC. }
    pose proof (C30_payloads_partial data (Some (e_info e)) _ pos _ _ X ST) as W. rewrite EX in W. cbn [fst] in W.
    assert (PL : Forall (placed data) (at_paths data e ps)).
    { apply Forall_forall. intros x I. apply filter_In in I. destruct I as [I _].
      assert (Q : Forall (placed data) (below data e)).
      { unfold below. assert (EO : bi_offset (e_info e) = lenN pre) by (rewrite EI; reflexivity). rewrite EO.
        eapply box_placed. exact A. }
      rewrite Forall_forall in Q. now apply Q. }
    clear - W PL data_small. revert bips W. induction PL as [|x r P _ IH]; intros bips W.
    - injection W as ->. reflexivity.
    - cbn [map all_of] in W. unfold with_payload in W at 1.
      destruct P as (pre & post & last & A & EI).
      destruct (place_read_payload data data_small pre post last (e_box x) (bi_ctx (e_info x)) 0 A) as (p' & R & _).
      rewrite <- EI in R. rewrite R in W. cbn [fst] in W.
      assert (D : e_decoded data x = decoded data (bi_ctx (e_info x)) (lenN pre) (e_box x)).
      { unfold e_decoded. rewrite EI at 2. reflexivity. }
      rewrite <- D in W. destruct (e_decoded data x) as [[[d y] n]| | |] eqn:DE; try discriminate W.
      destruct (all_of (map (with_payload data) (map e_info r))) as [l| | |] eqn:AL; try discriminate W.
      injection W as ->. cbn [map]. rewrite (IH l eq_refl). f_equal.
      unfold view, view_entry, fields_of, e_type. cbn [fst snd]. now rewrite DE.
  Qed.
End Found.

(** *** Contexts *)
Lemma list_box_ctx : forall data base b anc qt keys o,
  Forall (fun e => exists qt' keys', bi_ctx (e_info e) = ctx_of base qt' keys' (removelast (e_path e))) (list_box data base anc qt keys o b).
Proof.
  intros data base. induction b as [f t own kids slack IH] using box_ind2. intros anc qt keys o. rewrite list_box_eq. cbv zeta.
  destruct (match enter data base anc qt keys o (Box f t own kids slack) with Ok x => x | _ => (qt, keys) end) as [qt' keys'].
  constructor; [cbn [e_path e_info info bi_ctx box_type]; rewrite removelast_last; do 2 eexists; reflexivity|].
  generalize (o + hsize f + lenN own) as o1. generalize keys' as k1.
  induction IH as [|k r H1 _ IHr]; intros k1 o1; [constructor|].
  cbn [list_kids]. apply Forall_app. split; [apply H1|apply IHr].
Qed.
Lemma list_file_ctx : forall data base l qt keys o,
  Forall (fun e => exists qt' keys', bi_ctx (e_info e) = ctx_of base qt' keys' (removelast (e_path e))) (list_file data base qt keys o l).
Proof.
  intros data base. induction l as [|b r IH]; intros qt keys o; [constructor|]. cbn [list_file].
  destruct (match enter data base [] qt keys o b with Ok x => x | _ => (qt, keys) end) as [qt' keys'].
  apply Forall_app. split; [apply list_box_ctx|apply IH].
Qed.
Lemma ctx_plain : forall e p qt keys, bi_ctx (e_info e) = ctx_of ctx0 qt keys p -> ctx_of ctx0 qt keys p = ctx_of ctx0 qt keys [] ->
  bi_ctx (e_info e) = ctx_of ctx0 (IsQuickTimeCompatible (bi_ctx (e_info e))) (QuickTimeKeysMetaEntryCount (bi_ctx (e_info e))) [].
Proof. intros e p qt keys E F. rewrite E, F. reflexivity. Qed.

(** *** A track *)
Section Track.
  Variable data : list byte.
  Variable e : entry.
  Variable bips : list (boxinfo * (boxdef * fields)).
  Hypothesis V : map view bips = map (view_entry data) (at_paths data e track_places).
  Lemma named_places : Forall (fun q => named q = true /\ q <> []) (map (map bt) track_places).
  Proof. repeat constructor; discriminate. Qed.
  Lemma rev_hd_map : forall A B (g : A -> B) l, last_some (map g l) = option_map g (last_some l).
  Proof. intros. unfold last_some. rewrite <- map_rev. now destruct (rev l). Qed.
  Lemma found_last : forall t qs, ending (fun x => bt_eqb x (bt t)) (map (map bt) track_places) = map (map bt) qs ->
    last_of t bips = last_at data e qs.
  Proof.
    intros t qs E. rewrite last_of_view, V. rewrite (view_filter data e (fun x => bt_eqb x (bt t)) track_places qs named_places E).
    rewrite rev_hd_map. unfold last_at, last_some. now destruct (hd_error _).
  Qed.
  Lemma found_last_in : forall ts qs, ending (fun x => existsb (fun t => bt_eqb x (bt t)) ts) (map (map bt) track_places) = map (map bt) qs ->
    last_in ts bips = option_map (view_entry data) (hd_error (rev (at_paths data e qs))).
  Proof.
    intros ts qs E. rewrite last_in_view, V. rewrite (view_filter data e (fun x => existsb (fun t => bt_eqb x (bt t)) ts) track_places qs named_places E).
    now rewrite rev_hd_map.
  Qed.
  Lemma some_in_last : forall ts l, some_in ts l = match last_in ts l with Some _ => true | None => false end.
  Proof.
    intros ts l. induction l as [|b l IH] using rev_ind; [reflexivity|]. rewrite last_in_app. unfold some_in in *. rewrite existsb_app, IH. cbn [existsb].
    rewrite orb_false_r. destruct (existsb _ ts); [now rewrite orb_true_r|now rewrite orb_false_r].
  Qed.
  Lemma track_reported : forall f tr (s s' : N), kept bips f -> kept_codec bips f -> make_track f s = (Ok tr, s') -> track_report data e tr.
  Proof.
    intros f tr s s' K KC H. pose proof (make_track_ok _ _ _ _ _ _ K H) as T.
    destruct (make_track_codec _ _ _ _ _ _ K KC H) as (C1 & C2 & C3 & C4). clear K KC H.
    unfold avc_of in C3. unfold audio_of in C4. rewrite some_in_last in C2.
    rewrite (found_last_in ["avc1"; "encv"; "mp4a"; "enca"] sample_entries eq_refl) in C1.
    rewrite (found_last_in ["encv"; "enca"] [stsd ["encv"]; stsd ["enca"]] eq_refl) in C2.
    rewrite (found_last_in ["mp4a"; "enca"] [stsd ["mp4a"]; stsd ["enca"]] eq_refl) in C4.
    rewrite (found_last "avc1" [stsd ["avc1"]] eq_refl), (found_last "avcC" [stsd ["avc1"; "avcC"]; stsd ["encv"; "avcC"]] eq_refl) in C3.
    rewrite (found_last "esds" [stsd ["mp4a"; "esds"]; stsd ["mp4a"; "wave"; "esds"]; stsd ["enca"; "esds"]] eq_refl) in C4.
    destruct T as [T1 T2 T3 T4 T5 T6 T7 T8]. unfold ctos_of in T5. unfold chunk_offsets in T7.
    rewrite (found_last "tkhd" [["tkhd"]] eq_refl) in T1.
    rewrite (found_last "mdhd" [["mdia"; "mdhd"]] eq_refl) in T2.
    rewrite (found_last "elst" [["edts"; "elst"]] eq_refl) in T3.
    rewrite (found_last "stts" [stbl "stts"] eq_refl) in T4.
    rewrite (found_last "ctts" [stbl "ctts"] eq_refl) in T5.
    rewrite (found_last "stsz" [stbl "stsz"] eq_refl) in T6.
    rewrite (found_last "stco" [stbl "stco"] eq_refl), (found_last "co64" [stbl "co64"] eq_refl) in T7.
    rewrite (found_last "stsc" [stbl "stsc"] eq_refl) in T8.
    constructor.
    - exact T1.
    - exact T2.
    - exact T3.
    - exact T4.
    - exact T5.
    - exact T6.
    - destruct (last_at data e [stbl "stco"]) as [x|].
      + exists x. split; [now left|]. now injection T7.
      + destruct (last_at data e [stbl "co64"]) as [x|]; [|discriminate T7]. exists x. split; [now right|]. now injection T7.
    - exact T8.
    - rewrite C1. destruct (hd_error (rev (at_paths data e sample_entries))) as [x|]; reflexivity.
    - rewrite C2. generalize (at_paths data e [stsd ["encv"]; stsd ["enca"]]) as L. intros L.
      destruct L as [|x l _] using rev_ind; [cbn; split; [discriminate|intros N; now destruct N]|].
      rewrite rev_app_distr. cbn. split; [intros _ Q; destruct l; discriminate Q|reflexivity].
    - exact C3.
    - unfold last_at at 1. destruct (hd_error (rev (at_paths data e [stsd ["mp4a"]; stsd ["enca"]]))); exact C4.
  Qed.
End Track.
Lemma trak_places : trak_paths = map (map bt) track_places.
Proof. reflexivity. Qed.
Lemma trak_reported : forall data e q q' tr, lenN data < 2 ^ 62 -> placed data e ->
  (exists qt keys, bi_ctx (e_info e) = ctx_of ctx0 qt keys [bt "moov"]) -> searchable data track_places e ->
  probe_trak std_registry data (e_info e) q = (Ok tr, q') -> track_report data e tr.
Proof.
  intros data e q q' tr D62 P (qt & keys & C) SE H. unfold probe_trak, bind in H. rewrite trak_places in H.
  destruct (extract_boxes_with_payload std_registry data (Some (e_info e)) (map (map bt) track_places) q) as [[bips| | |] p] eqn:E; try discriminate H.
  destruct (for_each (fun _ bip f => note_box bip f) 0 bips nothing p) as [[f| | |] p1] eqn:F; try discriminate H.
  pose proof (note_boxes _ _ _ _ _ F) as [_ K]. pose proof (note_boxes_codec _ _ _ _ _ F) as KC.
  refine (track_reported data e bips _ f tr _ _ K KC H).
  refine (found_view data D62 e track_places q bips p _ _ P _ SE E).
  - discriminate.
  - repeat constructor; discriminate.
  - apply (ctx_plain e _ _ _ C). reflexivity.
Qed.

(** C56.  Probe's report on the tracks, from the boxes of the file. *)
Theorem C56_tracks : forall ts pos p pos', let data := file_bytes ts in
  lenN data < 2 ^ 62 -> list_wf true ts ->
  let all := list_file data ctx0 false 0 0 ts in
  Forall (readable data 0 [[bt "ftyp"]; [bt "moov"]; [bt "moov"; bt "mvhd"]; [bt "moov"; bt "trak"]; [bt "moof"]; [bt "mdat"]]) all ->
  let traks := filter (fun e => selected 0 [[bt "moov"; bt "trak"]] (e_path e)) all in
  Forall (searchable data track_places) traks ->
  probe std_registry data pos = (Ok p, pos') ->
  Forall2 (track_report data) traks (p_tracks p).
Proof.
  intros ts pos p pos' data HD HW all HR traks HS H.
  pose proof (C36_tracks ts pos p pos' HD HW HR H) as F. fold data in F. fold all in F. fold traks in F.
  assert (Q : Forall (fun e => placed data e /\ exists qt keys, bi_ctx (e_info e) = ctx_of ctx0 qt keys [bt "moov"]) traks).
  { apply Forall_forall. intros e I. apply filter_In in I. destruct I as [I S]. split.
    - assert (P : Forall (placed data) all).
      { apply (file_placed data ctx0) with (pre := []); [exact HW|reflexivity]. }
      rewrite Forall_forall in P. now apply P.
    - pose proof (list_file_ctx data ctx0 ts false 0 0) as P. rewrite Forall_forall in P. destruct (P e I) as (qt & keys & C).
      exists qt, keys. rewrite C. apply selected_in in S; [|repeat constructor]. destruct S as [<-|[]]. reflexivity. }
  clear - HD HS Q F. revert HS Q. induction F as [|e tr l l' (q & q' & X) _ IH]; intros HS Q; [constructor|].
  pose proof (Forall_inv Q) as [P C]. constructor.
  - exact (trak_reported data e q q' tr HD P C (Forall_inv HS) X).
  - apply IH; [exact (Forall_inv_tail HS)|exact (Forall_inv_tail Q)].
Qed.
Print Assumptions C56_tracks.

(** *** A fragment *)
Lemma moof_named : Forall (fun q => named q = true /\ q <> []) (map (map bt) moof_places).
Proof. repeat constructor; discriminate. Qed.
Lemma moof_last : forall data e bips t qs, map view bips = map (view_entry data) (at_paths data e moof_places) ->
  ending (fun x => bt_eqb x (bt t)) (map (map bt) moof_places) = map (map bt) qs -> last_of t bips = last_at data e qs.
Proof.
  intros data e bips t qs V E. rewrite last_of_view, V.
  rewrite (view_filter data e (fun x => bt_eqb x (bt t)) moof_places qs moof_named E).
  rewrite rev_hd_map. unfold last_at, last_some. now destruct (hd_error _).
Qed.
Lemma moof_reported : forall data e q q' g, lenN data < 2 ^ 62 -> placed data e ->
  (exists qt keys, bi_ctx (e_info e) = ctx_of ctx0 qt keys []) -> searchable data moof_places e ->
  probe_moof std_registry data (e_info e) q = (Ok g, q') -> segment_report data e g.
Proof.
  intros data e q q' g D62 P (qt & keys & C) SE H.
  destruct (C38_segment _ _ _ _ _ _ H) as (bips & p & tfhd & E & G1 & G2 & G3 & G4 & G5 & G6).
  change moof_paths with (map (map bt) moof_places) in E.
  assert (V : map view bips = map (view_entry data) (at_paths data e moof_places)).
  { refine (found_view data D62 e moof_places q bips p _ _ P _ SE E).
    - discriminate.
    - repeat constructor; discriminate.
    - apply (ctx_plain e _ _ _ C). reflexivity. }
  rewrite (moof_last data e bips "tfhd" [["traf"; "tfhd"]] V eq_refl) in G1.
  rewrite (moof_last data e bips "tfdt" [["traf"; "tfdt"]] V eq_refl) in G5.
  rewrite (moof_last data e bips "trun" [["traf"; "trun"]] V eq_refl) in G6.
  constructor.
  - exists tfhd. auto.
  - exact G3.
  - rewrite G5. destruct (last_at data e [["traf"; "tfdt"]]) as [x|]; [|reflexivity]. now destruct (get_version x =? 0).
Qed.
Theorem C56_segments : forall ts pos p pos', let data := file_bytes ts in
  lenN data < 2 ^ 62 -> list_wf true ts ->
  let all := list_file data ctx0 false 0 0 ts in
  Forall (readable data 0 [[bt "ftyp"]; [bt "moov"]; [bt "moov"; bt "mvhd"]; [bt "moov"; bt "trak"]; [bt "moof"]; [bt "mdat"]]) all ->
  let moofs := filter (fun e => selected 0 [[bt "moof"]] (e_path e)) all in
  Forall (searchable data moof_places) moofs ->
  probe std_registry data pos = (Ok p, pos') ->
  Forall2 (segment_report data) moofs (p_segments p).
Proof.
  intros ts pos p pos' data HD HW all HR moofs HS H.
  pose proof (C38_segments ts pos p pos' HD HW HR H) as F. fold data in F. fold all in F. fold moofs in F.
  assert (Q : Forall (fun e => placed data e /\ exists qt keys, bi_ctx (e_info e) = ctx_of ctx0 qt keys []) moofs).
  { apply Forall_forall. intros e I. apply filter_In in I. destruct I as [I S]. split.
    - assert (P : Forall (placed data) all).
      { apply (file_placed data ctx0) with (pre := []); [exact HW|reflexivity]. }
      rewrite Forall_forall in P. now apply P.
    - pose proof (list_file_ctx data ctx0 ts false 0 0) as P. rewrite Forall_forall in P. destruct (P e I) as (qt & keys & C).
      exists qt, keys. rewrite C. apply selected_in in S; [|repeat constructor]. destruct S as [<-|[]]. reflexivity. }
  clear - HD HS Q F. revert HS Q. induction F as [|e tr l l' (q & q' & X) _ IH]; intros HS Q; [constructor|].
  pose proof (Forall_inv Q) as [P C]. constructor.
  - exact (moof_reported data e q q' tr HD P C (Forall_inv HS) X).
  - apply IH; [exact (Forall_inv_tail HS)|exact (Forall_inv_tail Q)].
Qed.
Print Assumptions C56_segments.

(** *** The movie *)
Definition read_as (R : registry) (data : list byte) (b : boxinfo) (x : fields) : Prop := exists q q', read_box R data b q = (Ok x, q').
Record headed (R : registry) (data : list byte) (l : list boxinfo) (st : bool * probeinfo) : Prop := mkheaded
  { hd_ftyp : match last_some (filter (typed "ftyp") l) with
              | Some b => exists x, read_as R data b x /\
                  p_major (snd st) = as_bytes (lookup "MajorBrand" x) /\ p_minor (snd st) = uint_of "MinorVersion" x /\
                  p_brands (snd st) = map (fun b => as_bytes (lookup "CompatibleBrand" b)) (structs "CompatibleBrands" x)
              | None => p_major (snd st) = repeat bzero 4 /\ p_minor (snd st) = 0 /\ p_brands (snd st) = [] end;
    hd_mvhd : match last_some (filter (typed "mvhd") l) with
              | Some b => exists x, read_as R data b x /\
                  p_timescale (snd st) = uint_of "Timescale" x /\
                  p_duration (snd st) = uint_of (if get_version x =? 0 then "DurationV0" else "DurationV1") x
              | None => p_timescale (snd st) = 0 /\ p_duration (snd st) = 0 end }.
Lemma head_step : forall R data i l b a a' (s s' : N), headed R data l a ->
  (fun (_ : N) bi st => probe_box R data bi st) i b a s = (Ok a', s') -> headed R data (l ++ [b]) a'.
Proof.
  intros R data i l b [md p] a' s s' [K1 K2] H. cbn [fst snd] in *. unfold probe_box in H.
  fold (typed "ftyp" b) (typed "moov" b) (typed "mvhd" b) (typed "trak" b) (typed "moof" b) (typed "mdat" b) in H.
  assert (X : typed "ftyp" b = true -> typed "mvhd" b = false).
  { intros T. unfold typed in *. apply bytes_eqb_eq in T. rewrite T. reflexivity. }
  assert (Y : typed "moov" b = true -> typed "mvhd" b = false).
  { intros T. unfold typed in *. apply bytes_eqb_eq in T. rewrite T. reflexivity. }
  destruct (typed "ftyp" b) eqn:T1; [|destruct (typed "moov" b) eqn:T2; [|destruct (typed "mvhd" b) eqn:T3]].
  - unfold bind in H. destruct (read_box R data b s) as [[x| | |] s1] eqn:E; try discriminate H. injection H as <- <-.
    constructor; rewrite ?filter_app; cbn [filter snd p_major p_minor p_brands p_timescale p_duration].
    + rewrite T1, last_some_app. exists x. split; [exists s, s1; exact E|]. auto.
    + rewrite (X eq_refl), app_nil_r. exact K2.
  - injection H as <- <-.
    constructor; rewrite ?filter_app; cbn [filter snd p_major p_minor p_brands p_timescale p_duration].
    + rewrite T1, app_nil_r. exact K1.
    + rewrite (Y eq_refl), app_nil_r. exact K2.
  - unfold bind in H. destruct (read_box R data b s) as [[x| | |] s1] eqn:E; try discriminate H. injection H as <- <-.
    constructor; rewrite ?filter_app; cbn [filter snd p_major p_minor p_brands p_timescale p_duration].
    + rewrite T1, app_nil_r. exact K1.
    + rewrite T3, last_some_app. exists x. split; [exists s, s1; exact E|]. split; [reflexivity|]. now destruct (get_version x =? 0).
  - assert (Q : p_major (snd a') = p_major p /\ p_minor (snd a') = p_minor p /\ p_brands (snd a') = p_brands p /\
                p_timescale (snd a') = p_timescale p /\ p_duration (snd a') = p_duration p).
    { unfold bind in H. destruct (typed "trak" b); [|destruct (typed "moof" b); [|destruct (typed "mdat" b)]].
      - destruct (probe_trak R data b s) as [[x| | |] s1]; try discriminate H. injection H as <- <-. repeat split.
      - destruct (probe_moof R data b s) as [[x| | |] s1]; try discriminate H. injection H as <- <-. repeat split.
      - injection H as <- <-. repeat split.
      - injection H as <- <-. repeat split. }
    destruct Q as (Q1 & Q2 & Q3 & Q4 & Q5). constructor; rewrite ?filter_app; cbn [filter]; rewrite ?T1, ?T3, ?app_nil_r, ?Q1, ?Q2, ?Q3, ?Q4, ?Q5; auto.
Qed.
Lemma probe_headed : forall R data pos p pos', probe R data pos = (Ok p, pos') ->
  exists bis q md, extract_boxes R data None probe_paths pos = (Ok bis, q) /\ headed R data bis (md, p).
Proof.
  intros R data pos p pos' H. unfold probe, bind in H.
  destruct (extract_boxes R data None probe_paths pos) as [[bis| | |] q] eqn:E; try discriminate H.
  destruct (for_each (fun _ bi st => probe_box R data bi st) 0 bis (false, empty_probe) q) as [[[md x]| | |] q1] eqn:F; try discriminate H.
  injection H as <- <-. exists bis, q, md. split; [reflexivity|].
  refine (for_each_prefix _ _ _ _ (headed R data) (head_step R data) bis 0 [] _ _ _ _ _ F).
  constructor; repeat split; reflexivity.
Qed.
Lemma read_box_placed : forall data e x, lenN data < 2 ^ 62 -> placed data e -> read_as std_registry data (e_info e) x -> x = fields_of data e.
Proof.
  intros data e x D62 (pre & post & last & A & EI) (q & q' & R).
  destruct (place_read_payload data D62 pre post last (e_box e) (bi_ctx (e_info e)) q A) as (p' & E & _). rewrite <- EI in E.
  unfold read_payload, bind at 1 in E. unfold read_box, bind in R.
  assert (D : e_decoded data e = decoded data (bi_ctx (e_info e)) (lenN pre) (e_box e)).
  { unfold e_decoded. rewrite EI at 2. reflexivity. }
  unfold fields_of. rewrite D.
  destruct (seek_to_payload (e_info e) q) as [[[]| | |] q1]; try discriminate R. rewrite E in R.
  destruct (decoded data (bi_ctx (e_info e)) (lenN pre) (e_box e)) as [[[d y] n]| | |]; try discriminate R.
  now injection R.
Qed.
Theorem C56_movie : forall ts pos p pos', let data := file_bytes ts in
  lenN data < 2 ^ 62 -> list_wf true ts ->
  let all := list_file data ctx0 false 0 0 ts in
  Forall (readable data 0 [[bt "ftyp"]; [bt "moov"]; [bt "moov"; bt "mvhd"]; [bt "moov"; bt "trak"]; [bt "moof"]; [bt "mdat"]]) all ->
  probe std_registry data pos = (Ok p, pos') ->
  movie_report data all p.
Proof.
  intros ts pos p pos' data HD HW all HR H. apply probe_headed in H. destruct H as (bis & q & md & E & [K1 K2]).
  destruct (C29_extract ts probe_paths pos HD HW ltac:(discriminate) ltac:(repeat constructor; discriminate) HR) as (q' & X).
  fold data in X. rewrite E in X. assert (BE : bis = map e_info (filter (fun e => selected 0 probe_paths (e_path e)) all)) by (injection X; intros; assumption).
  subst bis. clear X E. cbn [snd] in K1, K2.
  assert (P : Forall (placed data) all) by (apply (file_placed data ctx0) with (pre := []); [exact HW|reflexivity]).
  rewrite (filter_filter_map _ _ _ _ _ (fun e => selected 0 [[bt "ftyp"]] (e_path e))) in K1.
  2: { eapply Forall_impl; [|apply listed_last]. intros e T. cbv beta in T |- *.
       apply typed_at; auto; [cbn; tauto|]. repeat constructor; intros Q; try reflexivity; discriminate Q. }
  rewrite (filter_filter_map _ _ _ _ _ (fun e => selected 0 [[bt "moov"; bt "mvhd"]] (e_path e))) in K2.
  2: { eapply Forall_impl; [|apply listed_last]. intros e T. cbv beta in T |- *.
       apply typed_at; auto; [cbn; tauto|]. repeat constructor; intros Q; try reflexivity; discriminate Q. }
  rewrite rev_hd_map in K1, K2. unfold last_some in K1, K2.
  assert (IN : forall f e, hd_error (rev (filter f all)) = Some e -> placed data e).
  { intros f e Q. rewrite Forall_forall in P. apply P. apply (proj1 (filter_In f e all)). apply in_rev.
    destruct (rev (filter f all)); [discriminate Q|]. injection Q as ->. now left. }
  constructor.
  - destruct (hd_error (rev (filter (fun e => selected 0 [[bt "ftyp"]] (e_path e)) all))) as [e|] eqn:Q; [|exact K1].
    cbn [option_map] in K1. destruct K1 as (x & R & K). apply (read_box_placed data e x HD (IN _ _ Q)) in R. subst x. exact K.
  - destruct (hd_error (rev (filter (fun e => selected 0 [[bt "moov"; bt "mvhd"]] (e_path e)) all))) as [e|] eqn:Q; [|exact K2].
    cbn [option_map] in K2. destruct K2 as (x & R & K). apply (read_box_placed data e x HD (IN _ _ Q)) in R. subst x. exact K.
Qed.
Print Assumptions C56_movie.

(** Three tracks, encrypted video, encrypted audio and video, and a fragment. *)
Definition report_tree : list box := [
  Box Small (bt "ftyp") (hex "69736f6d0000020069736f6d69736f32") [] [];
  Box Small (bt "moov") [] [
    Box Small (bt "mvhd") (hex "00000000000000010000000200000258000004b00001000001000000000000000000000000010000000000000000000000000000000100000000000000000000000000004000000000000000000000000000000000000000000000000000000000000003") [] [];
    Box Small (bt "trak") [] [
      Box Small (bt "tkhd") (hex "000000030000000100000002000000010000000000000384000000000000000000000000000000000001000000000000000000000000000000010000000000000000000000000000400000000000000000000000") [] [];
      Box Small (bt "mdia") [] [
        Box Small (bt "mdhd") (hex "000000000000000100000002000003e80000038455c40000") [] [];
        Box Small (bt "minf") [] [
          Box Small (bt "stbl") [] [
            Box Small (bt "stsd") (hex "0000000000000001") [
              Box Small (bt "encv") (hex "00000000000000010000000000000000000000000000000002800168004800000048000000000000000100000000000000000000000000000000000000000000000000000000000000000018ffff") [
                Box Small (bt "avcC") (hex "0142001effe10002674201000168") [] [] ] [] ] [];
            Box Small (bt "stts") (hex "00000000000000010000000100000028") [] [];
            Box Small (bt "stsc") (hex "0000000000000001000000010000000100000001") [] [];
            Box Small (bt "stco") (hex "000000000000000100000064") [] [] ] [] ] [] ] [] ] [];
    Box Small (bt "trak") [] [
      Box Small (bt "tkhd") (hex "000000030000000100000002000000020000000000000384000000000000000000000000000000000001000000000000000000000000000000010000000000000000000000000000400000000000000000000000") [] [];
      Box Small (bt "mdia") [] [
        Box Small (bt "mdhd") (hex "000000000000000100000002000003e80000038455c40000") [] [];
        Box Small (bt "minf") [] [
          Box Small (bt "stbl") [] [
            Box Small (bt "stsd") (hex "0000000000000001") [
              Box Small (bt "enca") (hex "000000000000000100000000000000000002001000000000ac440000") [
                Box Small (bt "esds") (hex "00000000031900010004114015000000000000000000000005021210060102") [] [] ] [] ] [];
            Box Small (bt "stts") (hex "00000000000000010000000100000028") [] [];
            Box Small (bt "stsc") (hex "0000000000000001000000010000000100000001") [] [];
            Box Small (bt "stco") (hex "000000000000000100000064") [] [] ] [] ] [] ] [] ] [];
    Box Small (bt "trak") [] [
      Box Small (bt "tkhd") (hex "000000030000000100000002000000030000000000000384000000000000000000000000000000000001000000000000000000000000000000010000000000000000000000000000400000000000000000000000") [] [];
      Box Small (bt "mdia") [] [
        Box Small (bt "mdhd") (hex "000000000000000100000002000003e80000038455c40000") [] [];
        Box Small (bt "minf") [] [
          Box Small (bt "stbl") [] [
            Box Small (bt "stsd") (hex "0000000000000001") [
              Box Small (bt "avc1") (hex "00000000000000010000000000000000000000000000000002800168004800000048000000000000000100000000000000000000000000000000000000000000000000000000000000000018ffff") [
                Box Small (bt "avcC") (hex "0142001effe10002674201000168") [] [] ] [] ] [];
            Box Small (bt "stts") (hex "00000000000000010000000100000028") [] [];
            Box Small (bt "stsc") (hex "0000000000000001000000010000000100000001") [] [];
            Box Small (bt "stco") (hex "000000000000000100000064") [] [] ] [] ] [] ] [] ] [] ] [];
  Box Small (bt "mdat") (hex "6162") [] [];
  Box Small (bt "moof") [] [
    Box Small (bt "traf") [] [
      Box Small (bt "tfhd") (hex "00000018000000050000004600000021") [] [];
      Box Small (bt "tfdt") (hex "010000000000000200000000") [] [];
      Box Small (bt "trun") (hex "0100090000000002000000640000001400000096ffffff7e") [] [] ] [] ] [] ].
(** a check of [searchable], for examples *)
Definition ctx_eqb (c d : context) : bool :=
  Bool.eqb (IsQuickTimeCompatible c) (IsQuickTimeCompatible d) && Z.eqb (QuickTimeKeysMetaEntryCount c) (QuickTimeKeysMetaEntryCount d) &&
  Bool.eqb (UnderWave c) (UnderWave d) && Bool.eqb (UnderIlst c) (UnderIlst d) && Bool.eqb (UnderIlstMeta c) (UnderIlstMeta d) &&
  Bool.eqb (UnderIlstFreeMeta c) (UnderIlstFreeMeta d) && Bool.eqb (UnderUdta c) (UnderUdta d).
Lemma ctx_eqb_ok : forall c d, ctx_eqb c d = true -> c = d.
Proof.
  intros [a1 a2 a3 a4 a5 a6 a7] [b1 b2 b3 b4 b5 b6 b7] H. unfold ctx_eqb in H. cbn in H.
  repeat (apply andb_prop in H; let E := fresh in destruct H as [H E]; apply Bool.eqb_prop in E; subst).
  all: try (apply andb_prop in H; destruct H as [H E]; apply Z.eqb_eq in E; apply Bool.eqb_prop in H; subst; reflexivity).
Qed.
Definition searchable_b (data : list byte) (ps : list (list string)) (e : entry) : bool :=
  forallb (readable_b data 1 (map (map bt) ps)) (below data e) &&
  forallb (fun x => steady_b (e_type x) || ctx_eqb (bi_ctx (e_info x)) (bi_ctx (e_info e))) (at_paths data e ps).
Lemma searchable_b_ok : forall data ps l, forallb (searchable_b data ps) l = true -> Forall (searchable data ps) l.
Proof.
  intros data ps l H. rewrite forallb_forall in H. rewrite Forall_forall. intros e I. apply H in I. clear H.
  apply andb_prop in I. destruct I as [I1 I2]. split; [now apply readable_b_ok|].
  rewrite forallb_forall in I2. rewrite Forall_forall. intros x J. apply I2 in J. apply orb_prop in J. destruct J as [J|J].
  - left. apply (steady_b_ok _ J).
  - right. now apply ctx_eqb_ok.
Qed.
Example C56_case :
  let data := file_bytes report_tree in
  let all := list_file data ctx0 false 0 0 report_tree in
  (list_wf true report_tree /\ lenN data < 2 ^ 62) /\
  Forall (readable data 0 probe_paths) all /\
  Forall (searchable data track_places) (filter (fun e => selected 0 [[bt "moov"; bt "trak"]] (e_path e)) all) /\
  Forall (searchable data moof_places) (filter (fun e => selected 0 [[bt "moof"]] (e_path e)) all) /\
  match fst (probe std_registry data 0) with
  | Ok p => Some (map (fun t => (t_id t, t_codec t, t_encrypted t)) (p_tracks p), p_timescale p, p_duration p, p_minor p)
  | _ => None
  end = Some ([(1, CodecAVC1, true); (2, CodecMP4A, true); (3, CodecAVC1, false)], 600, 1200, 512).
Proof.
  split; [vm_compute; repeat split; intros; try discriminate; reflexivity|]. split; [apply readable_b_ok; vm_compute; reflexivity|].
  split; [apply searchable_b_ok; vm_compute; reflexivity|]. split; [apply searchable_b_ok; vm_compute; reflexivity|]. vm_compute. reflexivity.
Qed.

(** The size of the picture and the AVC configuration are left out for encrypted
    video, though its boxes are there: see the first track. *)
Definition no_avc (data : list byte) (m : res probeinfo * N) (l : list entry) : bool :=
  match m, l with
  | (Ok p, _), e :: _ =>
      match p_tracks p, last_at data e [stsd ["encv"; "avcC"]] with
      | tr :: _, Some _ => match t_codec tr, t_avc tr with CodecAVC1, None => true | _, _ => false end
      | _, _ => false
      end
  | _, _ => false
  end.
Lemma no_avc_ok : forall data m l, no_avc data m l = true -> exists p pos' e es tr trs c,
  m = (Ok p, pos') /\ l = e :: es /\ p_tracks p = tr :: trs /\
  last_at data e [stsd ["encv"; "avcC"]] = Some c /\ t_codec tr = CodecAVC1 /\ t_avc tr = None.
Proof.
  intros data [m pos'] l H; destruct m as [p| | |]; try discriminate H; destruct l as [|e es]; try discriminate H. cbn [no_avc] in H.
  destruct (p_tracks p) as [|tr trs] eqn:T; [discriminate H|]. destruct (last_at data e [stsd ["encv"; "avcC"]]) as [c|] eqn:L; [|discriminate H].
  exists p, pos', e, es, tr, trs, c. destruct (t_codec tr) eqn:C; try discriminate H. destruct (t_avc tr) eqn:A; [discriminate H|].
  auto 8.
Qed.
Theorem C56_avc_refuted : exists ts p pos' e es tr trs c, let data := file_bytes ts in
  probe std_registry data 0 = (Ok p, pos') /\
  filter (fun e => selected 0 [[bt "moov"; bt "trak"]] (e_path e)) (list_file data ctx0 false 0 0 ts) = e :: es /\
  p_tracks p = tr :: trs /\
  last_at data e [stsd ["encv"; "avcC"]] = Some c /\ t_codec tr = CodecAVC1 /\ t_avc tr = None.
Proof.
  exists report_tree. cbv zeta. apply no_avc_ok. vm_compute. reflexivity.
Qed.
Print Assumptions C56_avc_refuted.
