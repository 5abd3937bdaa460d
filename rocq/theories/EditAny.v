(** edit with its options on files whose boxes need not be canonical. *)
From Verif Require Import Base BaseProofs BitIO Schema Structs Methods Registry Marshal Unmarshal BoxInfo ReadTree Writer Text.
From Verif Require Import SpecCodec MarshalCount UnmarshalProofs VersionFacts SpecLossless SpecReencode PropLossless.
From Verif Require Import SpecTree SpecExtract SpecWriter WriterProofs TreeProofs PropTree PropExtract
     PropExtractPayload Edit SpecEdit EditProofs EditTime PropEdit SpecEditAgain EditAgain SpecEditAny.
Local Open Scope string_scope.
Local Open Scope list_scope.
Local Open Scope N_scope.

Lemma not_ftyp : forall data anc qt keys o b, box_type b <> bt "ftyp" -> box_type b <> bt "keys" ->
  enter data ctx0 anc qt keys o b = Ok (qt, keys).
Proof.
  intros data anc qt keys o b H1 H2. unfold enter.
  destruct (bt_eqb (box_type b) (bt "ftyp")) eqn:E; [apply bytes_eqb_eq in E; contradiction|].
  cbn [andb]. destruct (bt_eqb (box_type b) (bt "keys")) eqn:E2; [apply bytes_eqb_eq in E2; contradiction|reflexivity].
Qed.
Lemma tfdt_plain : SpecLossless.plain_box tfdt_def = true.
Proof. vm_compute. reflexivity. Qed.
Lemma new_time_kept : forall time t l, retimed time t = false -> new_time time t l = l.
Proof. intros [v|] t l H; [|reflexivity]. unfold new_time. cbn [retimed] in H. rewrite H. reflexivity. Qed.

Section Any.
  Variable data : list byte.
  Hypothesis data_45 : lenN data < 2 ^ 45.
  Variable cfg : config.
  Variable dropped : btype -> bool.
  Hypothesis dropped_ok : forall t, lenN t = 4 -> boxes_exist (cf_drop cfg) (box_type_string t) = dropped t.
  Variable time : option N.
  Hypothesis time_fits : cf_time cfg < 2 ^ 64.
  Hypothesis time_ok : (if cf_time cfg =? UNoValue then None else Some (cf_time cfg)) = time.
  Local Notation ybox := (any_box data dropped time).
  Local Notation handler := (edit_handler cfg data).

  Fixpoint any_kids (anc : list btype) (qt : bool) (keys : Z) (o : N) (l : list box) : list box :=
    match l with
    | [] => []
    | k :: r =>
        ybox anc qt keys o k ++
        any_kids anc qt (match enter data ctx0 anc qt keys o k with Ok x => snd x | _ => keys end) (o + box_size k) r
    end.
  Lemma any_box_eq : forall anc qt keys o f t own kids slack,
    ybox anc qt keys o (Box f t own kids slack) =
    let b := Box f t own kids slack in
    let (qt', keys') := match enter data ctx0 anc qt keys o b with Ok x => x | _ => (qt, keys) end in
    let c := ctx_of ctx0 qt' keys' anc in
    if dropped t then []
    else if whole t c then [b]
    else [Box f t (any_fields data time c o b) (any_kids (anc ++ [t]) qt' keys' (o + hsize f + lenN own) kids) []].
  Proof.
    intros. cbn [any_box]. cbv zeta.
    destruct (match enter data ctx0 anc qt keys o (Box f t own kids slack) with Ok x => x | _ => (qt, keys) end) as [qt' keys'].
    destruct (dropped t); [reflexivity|]. destruct (whole _ _); [reflexivity|]. do 2 f_equal.
    generalize (o + hsize f + lenN own) as o1. generalize keys' as k1.
    induction kids as [|k r IH]; intros k1 o1; [reflexivity|].
    cbn [any_kids]. f_equal. apply IH.
  Qed.

  Lemma edit_kept : forall t x, retimed time t = false -> edit_fields cfg t x = x.
  Proof.
    intros t x H. unfold edit_fields. rewrite <- time_ok in H. unfold retimed in H.
    destruct (cf_time cfg =? UNoValue); cbn [negb]; [rewrite andb_false_r; reflexivity|].
    rewrite H. reflexivity.
  Qed.

  (** the fields that are written *)
  Lemma own_any : forall pre post last f t own kids slack c d x,
    let b := Box f t own kids slack in
    at_place data pre post last b ->
    decoded data c (lenN pre) b = Ok (d, x, lenN own) -> rewritable d x = true ->
    marshal std_registry t c (edit_fields cfg t x) [] =
      (Ok (lenN (any_fields data time c (lenN pre) b)), any_fields data time c (lenN pre) b) /\
    (if retimed time t then any_fields data time c (lenN pre) b = new_time time t own
     else any_fields data time c (lenN pre) b = again_fields data c (lenN pre) b).
  Proof.
    intros pre post last f t own kids slack c d x b A D RW.
    destruct (own_again data data_45 _ _ _ _ _ _ _ _ A D RW) as [M _]. change (box_type b) with t in M.
    unfold any_fields, again_fields in *. rewrite D in *. change (box_type b) with t in *.
    destruct (retimed time t) eqn:RT.
    2:{ rewrite (edit_kept _ _ RT). rewrite (new_time_kept _ _ _ RT). split; [exact M|reflexivity]. }
    assert (T : t = bt "tfdt").
    { destruct time as [v|]; [|discriminate RT]. now apply bytes_eqb_eq. }
    pose proof A as (HD & HW & HL). pose proof (wf_type _ _ HW) as Ht. change (box_type b) with t in Ht.
    destruct (place_size data (data_small data data_45) _ _ _ _ A) as (LD & LH & _ & LS).
    unfold decoded in D.
    destruct (unmarshal_any std_registry data (box_type b) (lenN (payload b)) c (lenN pre + hsize (box_form b))) as [r p'] eqn:U.
    cbn [fst] in D. subst r. change (box_type b) with t in U. change (box_form b) with f in U, LH.
    assert (PB : SpecLossless.plain_box d = true).
    { pose proof (unmarshal_any_def _ _ _ _ _ _ _ _ _ U) as G. rewrite T, tfdt_found in G. apply some_inj in G. rewrite <- G. exact tfdt_plain. }
    assert (P0 : lenN pre + hsize f <= lenN data) by (clear - LD LH; lia).
    assert (O : takeN (lenN own) (skipN (lenN pre + hsize f) data) = own).
    { rewrite HD. unfold b. rewrite box_bytes_eq. cbn [box_form box_type payload]. rewrite <- !app_assoc, app_assoc.
      rewrite skipN_app_exact by (rewrite lenN_app, lenN_header by exact Ht; reflexivity).
      rewrite takeN_app_exact; reflexivity. }
    destruct (payload_rewritten data (data_small data data_45) cfg time_fits _ _ _ _ _ _ _ _ P0 PB U) as [M1 M2].
    rewrite O, time_ok in M1, M2.
    destruct (payload_rewritten data (data_small data data_45) no_options eq_refl _ _ _ _ _ _ _ _ P0 PB U) as [M3 _].
    rewrite O, kept_fields in M3. cbn [cf_time no_options options] in M3. rewrite N.eqb_refl in M3. cbn [new_time] in M3.
    rewrite M3. cbn [snd]. split; [|reflexivity]. rewrite M2. exact M1.
  Qed.

  Definition edits_any (b : box) : Prop := forall anc qt keys pre post last w b0 fs,
    at_place data pre post last b -> holds w (b0, fs) -> calm w ->
    Forall (any_ok data dropped) (list_box data ctx0 anc qt keys (lenN pre) b) ->
    Forall fits (ybox anc qt keys (lenN pre) b) ->
    lenN (render b0 fs) + lenN (file_bytes (ybox anc qt keys (lenN pre) b)) < 2 ^ 62 ->
    exists qt' keys' w', enter data ctx0 anc qt keys (lenN pre) b = Ok (qt', keys') /\
      walk_box data ctx0 handler anc qt keys (lenN pre) b tt (mkest w false) = Some (Ok (tt, (qt', keys')), mkest w' false) /\
      holds w' (add (file_bytes (ybox anc qt keys (lenN pre) b)) (b0, fs)) /\ calm w'.

  Lemma kids_any : forall kids slack post anc qt last, Forall edits_any kids -> (slack = [] \/ qt = true) ->
    list_wf last kids -> (last = true -> slack ++ post = []) -> forall pre keys w b0 fs,
    data = pre ++ flat_map box_bytes kids ++ slack ++ post ->
    holds w (b0, fs) -> calm w ->
    Forall (any_ok data dropped) (list_kids data ctx0 anc qt keys (lenN pre) kids) ->
    Forall fits (any_kids anc qt keys (lenN pre) kids) ->
    lenN (render b0 fs) + lenN (file_bytes (any_kids anc qt keys (lenN pre) kids)) < 2 ^ 62 ->
    exists vs w',
      walk_kids data ctx0 handler slack anc qt tt keys (lenN pre) kids (mkest w false) = Some (Ok vs, mkest w' false) /\
      holds w' (add (file_bytes (any_kids anc qt keys (lenN pre) kids)) (b0, fs)) /\ calm w'.
  Proof.
    intros kids slack post anc qt last W SL. revert last. induction W as [|k r Wk Wr IH]; intros last HW HL pre keys w b0 fs HD H C Q F L.
    - exists [], w. cbn [walk_kids any_kids file_bytes flat_map]. rewrite add_nil. split; [|split; [exact H|exact C]].
      destruct slack; [reflexivity|]. destruct SL as [SL|SL]; [discriminate|]. now rewrite SL.
    - cbn [list_kids any_kids flat_map] in *. apply Forall_app in Q. destruct Q as [Q1 Q2].
      apply Forall_app in F. destruct F as [F1 F].
      apply list_wf_cons in HW. destruct HW as [W1 W2].
      assert (A : at_place data pre (flat_map box_bytes r ++ slack ++ post) (last && match r with [] => true | _ => false end) k).
      { split; [|split].
        - rewrite HD, <- app_assoc. reflexivity.
        - exact W1.
        - intros Z. apply andb_prop in Z. destruct Z as [Z1 Z2]. destruct r; [|discriminate]. cbn. auto. }
      rewrite file_bytes_app, lenN_app in L. rewrite file_bytes_app.
      set (k' := ybox anc qt keys (lenN pre) k) in *.
      destruct (Wk anc qt keys pre _ _ w b0 fs A H C Q1 F1) as (qt2 & keys2 & w1 & E & R & H1 & C1).
      { fold k'. clear - L. lia. }
      fold k' in H1.
      cbn [walk_kids]. rewrite R. rewrite E in Q2, F, L |- *. cbn [snd] in *.
      pose proof (render_le (file_bytes k') b0 fs) as RL.
      destruct (add (file_bytes k') (b0, fs)) as [b1 f1] eqn:EA. cbn [fst snd] in RL.
      assert (OB : lenN pre + box_size k = lenN (pre ++ box_bytes k)) by (rewrite lenN_app; reflexivity).
      rewrite OB in Q2, F, L |- *.
      destruct (IH last W2 HL (pre ++ box_bytes k) keys2 w1 b1 f1) as (vs & w2 & V & H2 & C2); auto.
      { rewrite HD, <- !app_assoc. reflexivity. }
      { rewrite RL. clear - L. lia. }
      exists (tt :: vs), w2.
      change ((fix go (keys : Z) (o : N) (l : list box) (s : est) {struct l} := _) keys2) with
        (walk_kids data ctx0 handler slack anc qt tt keys2).
      rewrite V. split; [reflexivity|]. rewrite <- EA, add_add in H2. split; [exact H2|exact C2].
  Qed.

  Lemma all_edits_any : forall b, edits_any b.
  Proof.
    induction b as [f t own kids slack IH] using box_ind2.
    intros anc qt keys pre post last w b0 fs A H C Q FT L.
    rewrite walk_box_eq. cbv zeta. rewrite any_box_eq, list_box_eq in *. cbv zeta in *.
    set (b := Box f t own kids slack) in *.
    assert (exists qt' keys', enter data ctx0 anc qt keys (lenN pre) b = Ok (qt', keys')) as (qt' & keys' & E).
    { destruct (match enter data ctx0 anc qt keys (lenN pre) b with Ok x => x | _ => (qt, keys) end) as [q1 k1].
      apply Forall_inv in Q. destruct Q as [[[q2 k2] Q] _]. eauto. }
    exists qt', keys'. rewrite E in *. cbv iota in *. pose proof (Forall_inv Q) as [_ Q1]. apply Forall_inv_tail in Q.
    unfold b in Q1. cbn [e_box e_info bi_ctx info bi_offset] in Q1. fold b in Q1.
    set (c := ctx_of ctx0 qt' keys' anc) in *.
    set (children := fun (q : unit) (s : est) => walk_kids data ctx0 handler slack (anc ++ [t]) qt' q keys' (lenN pre + hsize f + lenN own) kids s).
    unfold edit_handler. change (bi_type (info (lenN pre) b c)) with t. change (bi_ctx (info (lenN pre) b c)) with c.
    assert (T4 : lenN t = 4) by (destruct A as (_ & W & _); destruct W as [W _]; exact W).
    rewrite (dropped_ok t T4).
    destruct (dropped t) eqn:DT.
    { exists w. cbn [run]. cbn [file_bytes flat_map]. rewrite add_nil. split; [reflexivity|]. split; [reflexivity|]. split; [exact H|exact C]. }
    fold (whole t c). destruct (whole t c) eqn:WT.
    { destruct (cut_here data data_45 pre post last b c A) as [AV CU].
      destruct (copy_call data (info (lenN pre) b c) w (b0, fs) H C AV) as (w1 & E1 & H1 & C1).
      exists w1. rewrite (call_ok _ _ _ _ _ _ _ E1). cbn [run]. split; [reflexivity|]. split; [reflexivity|].
      cbn [file_bytes flat_map]. rewrite app_nil_r, <- CU. split; [exact H1|exact C1]. }
    destruct (Q1 eq_refl eq_refl) as [(d & x & D & RW & _) SL].
    pose proof A as (HD & HW & HL). pose proof (wf_type _ _ HW) as Ht. change (box_type b) with t in Ht.
    pose proof HW as HW0. apply box_wf_eq in HW0. destruct HW0 as (_ & _ & WS & _ & WK).
    destruct (place_size data (data_small data data_45) _ _ _ _ A) as (LD & LH & _ & LS). change (box_form b) with f in *.
    (* StartBox *)
    destruct (start_call (info (lenN pre) b c) w b0 fs H C Ht) as (a1 & w1 & E1 & H1 & C1).
    destruct (opened_ok (render b0 fs) (info (lenN pre) b c) Ht) as [FO FF].
    rewrite (form_info last (lenN pre) b c HW) in FF. change (box_form b) with f in FF.
    pose proof (header_form (info (lenN pre) b c) Ht) as HF. rewrite (form_info last (lenN pre) b c HW) in HF. change (box_form b) with f in HF.
    assert (TF : bi_type (fr_info (opened_frame (lenN (render b0 fs)) (info (lenN pre) b c))) = t) by reflexivity.
    assert (BF : fr_body (opened_frame (lenN (render b0 fs)) (info (lenN pre) b c)) = []) by reflexivity.
    assert (HH : lenN (fr_hdr (opened_frame (lenN (render b0 fs)) (info (lenN pre) b c))) = hsize f) by exact HF.
    set (f1 := opened_frame (lenN (render b0 fs)) (info (lenN pre) b c)) in *. clearbody f1.
    rewrite (call_ok _ _ _ _ _ _ _ E1). cbn [run]. rewrite D. cbn iota.
    (* Marshal *)
    destruct (own_any _ _ _ _ _ _ _ _ _ _ _ A D RW) as [M _]. fold b in M. rewrite M.
    set (own' := any_fields data time c (lenN pre) b) in *. clearbody own'.
    destruct (write_call own' w1 _ H1 C1) as (w2 & E2 & H2 & C2).
    rewrite (call_ok _ _ _ _ _ _ _ E2).
    rewrite (call_ok _ _ w2 _ _ (lenN own') w2) by reflexivity. cbn [run]. rewrite N.eqb_refl.
    (* the boxes in it *)
    cbn [add] in H2. rewrite BF in H2. cbn [app] in H2.
    set (f2 := mkfr (fr_info f1) (fr_hdr f1) own') in *.
    assert (PRE : lenN pre + hsize f + lenN own = lenN (pre ++ header f t (lenN (payload b)) ++ own)).
    { rewrite !lenN_app, lenN_header by exact Ht. clear. lia. }
    rewrite PRE in Q, FT, L |- *. unfold children. rewrite PRE.
    set (kids' := any_kids (anc ++ [t]) qt' keys' (lenN (pre ++ header f t (lenN (payload b)) ++ own)) kids) in *.
    apply Forall_inv in FT. apply fits_eq in FT. destruct FT as [FT1 FT2].
    assert (BS : lenN (file_bytes [Box f t own' kids' []]) = hsize f + (lenN own' + lenN (file_bytes kids'))).
    { unfold file_bytes. cbn [flat_map]. rewrite app_nil_r. fold (box_size (Box f t own' kids' [])).
      rewrite box_size_eq by exact Ht. cbn [box_form payload]. rewrite app_nil_r, lenN_app. reflexivity. }
    rewrite BS in L. cbn [payload] in FT1. rewrite app_nil_r in FT1. change (flat_map box_bytes kids') with (file_bytes kids') in FT1.
    destruct (kids_any kids slack post (anc ++ [t]) qt' (last && match slack with [] => true | _ => false end) IH SL WK)
      with (pre := pre ++ header f t (lenN (payload b)) ++ own) (keys := keys') (w := w2) (b0 := b0) (fs := f2 :: fs)
      as (vs & w3 & V & H3 & C3); auto.
    { intros Z. apply andb_prop in Z. destruct Z as [Z1 Z2]. rewrite (HL Z1), app_nil_r. destruct slack; [reflexivity|discriminate]. }
    { rewrite HD. unfold b. rewrite box_bytes_eq. cbn [box_form box_type payload]. rewrite <- !app_assoc. reflexivity. }
    { fold kids'. cbn [render]. unfold fr_bytes, f2. cbn [fr_hdr fr_body]. rewrite lenN_app, lenN_app, HH. clear - L. lia. }
    fold kids' in H3.
    rewrite V. cbn [add fr_info fr_hdr fr_body f2] in H3. clearbody kids'.
    set (f3 := mkfr (fr_info f1) (fr_hdr f1) (own' ++ file_bytes kids')) in *.
    (* EndBox *)
    assert (F3 : fr_form f3 = f) by exact FF.
    destruct (end_call w3 b0 f3 fs H3 C3) as (a4 & w4 & E4 & H4 & C4).
    { rewrite F3. intros Z. exact (FT1 Z). }
    { cbn [render]. unfold fr_bytes. cbn [f3 fr_hdr fr_body]. rewrite lenN_app, lenN_app, lenN_app, HH.
      change (2 ^ 62) with 4611686018427387904 in *. change (2 ^ 63) with 9223372036854775808. clear - L. lia. }
    rewrite (call_ok _ _ _ _ _ _ _ E4). cbn [run]. exists w4.
    split; [reflexivity|]. split; [reflexivity|].
    assert (CL : fr_close f3 = file_bytes [Box f t own' kids' []]).
    { unfold fr_close. rewrite F3. change (bi_type (fr_info f3)) with (bi_type (fr_info f1)). rewrite TF. cbn [f3 fr_body].
      cbn [file_bytes flat_map]. rewrite app_nil_r, box_bytes_eq. cbn [box_form box_type payload]. rewrite app_nil_r. reflexivity. }
    rewrite <- CL. split; [exact H4|exact C4].
  Qed.

  Lemma file_any : forall l pre qt keys w b0,
    data = pre ++ flat_map box_bytes l -> list_wf true l ->
    holds w (b0, []) -> calm w ->
    Forall (any_ok data dropped) (list_file data ctx0 qt keys (lenN pre) l) ->
    Forall fits (any_file data dropped time qt keys (lenN pre) l) ->
    lenN b0 + lenN (file_bytes (any_file data dropped time qt keys (lenN pre) l)) < 2 ^ 62 ->
    exists vs w',
      walk_file data ctx0 handler qt keys (lenN pre) l tt (mkest w false) = Some (Ok vs, mkest w' false) /\
      holds w' (b0 ++ file_bytes (any_file data dropped time qt keys (lenN pre) l), []) /\ calm w'.
  Proof.
    induction l as [|b r IH]; intros pre qt keys w b0 HD HW H C Q F L.
    - exists [], w. cbn [walk_file any_file file_bytes flat_map]. rewrite app_nil_r. auto.
    - cbn [list_file walk_file any_file flat_map] in *. apply list_wf_cons in HW. destruct HW as [W1 W2].
      destruct (match enter data ctx0 [] qt keys (lenN pre) b with Ok x => x | _ => (qt, keys) end) as [q1 k1] eqn:E1.
      apply Forall_app in Q. destruct Q as [Q1 Q2]. apply Forall_app in F. destruct F as [F1 F].
      assert (A : at_place data pre (flat_map box_bytes r) (true && match r with [] => true | _ => false end) b).
      { split; [exact HD|]. split; [exact W1|]. intros Z. destruct r; [reflexivity|discriminate]. }
      rewrite file_bytes_app, lenN_app in L. rewrite file_bytes_app.
      set (b' := ybox [] qt keys (lenN pre) b) in *.
      destruct (all_edits_any b [] qt keys pre _ _ w b0 [] A H C Q1 F1) as (qt' & keys' & w1 & E & W & H1 & C1).
      { fold b'. cbn [render]. clear - L. lia. }
      fold b' in H1.
      rewrite W. rewrite E in E1. injection E1 as -> ->. cbn [add] in H1.
      assert (OB : lenN pre + box_size b = lenN (pre ++ box_bytes b)) by (rewrite lenN_app; reflexivity).
      rewrite OB in Q2, F, L |- *.
      destruct (IH (pre ++ box_bytes b) q1 k1 w1 _ ltac:(rewrite HD, <- app_assoc; reflexivity) W2 H1 C1) as (vs & w2 & V & H2 & C2); auto.
      { rewrite lenN_app. clear - L. lia. }
      rewrite V. exists (tt :: vs), w2. split; [reflexivity|]. rewrite <- app_assoc in H2. auto.
  Qed.
End Any.

Section Kept.
  Variable data : list byte.
  Hypothesis data_45 : lenN data < 2 ^ 45.
  Variable dropped : btype -> bool.
  Hypothesis keeps_ftyp : dropped (bt "ftyp") = false.
  Hypothesis keeps_keys : dropped (bt "keys") = false.
  Variable cfg : config.
  Variable time : option N.
  Hypothesis time_fits : cf_time cfg < 2 ^ 64.
  Hypothesis time_ok : (if cf_time cfg =? UNoValue then None else Some (cf_time cfg)) = time.
  Local Notation ybox := (any_box data dropped time).
  Local Notation ykids := (any_kids data dropped time).

  (** ** The tree that is written is well-formed *)
  Lemma any_one : forall anc qt keys o b, ybox anc qt keys o b = [] \/ exists b', ybox anc qt keys o b = [b'] /\ box_type b' = box_type b.
  Proof.
    intros anc qt keys o [f t own kids slack]. rewrite any_box_eq. cbv zeta.
    destruct (match enter data ctx0 anc qt keys o (Box f t own kids slack) with Ok x => x | _ => (qt, keys) end) as [q k].
    destruct (dropped t); [now left|]. right. destruct (whole _ _); eexists; split; reflexivity.
  Qed.
  Lemma wf_before : forall last a r, list_wf last r ->
    a = [] \/ (exists b, a = [b] /\ box_wf (last && match r with [] => true | _ => false end) b) -> list_wf last (a ++ r).
  Proof.
    intros last a r W [->|(b & -> & B)]; [exact W|]. cbn [app]. destruct r as [|k r].
    - rewrite andb_true_r in B. exact B.
    - rewrite andb_false_r in B. split; [exact B|exact W].
  Qed.
  Lemma wf_any : forall b anc qt keys o last, box_wf last b -> Forall fits (ybox anc qt keys o b) ->
    Forall (box_wf last) (ybox anc qt keys o b).
  Proof.
    induction b as [f t own kids slack IH] using box_ind2. intros anc qt keys o last W F.
    rewrite any_box_eq in *. cbv zeta in *.
    destruct (match enter data ctx0 anc qt keys o (Box f t own kids slack) with Ok x => x | _ => (qt, keys) end) as [q k].
    destruct (dropped t); [constructor|].
    destruct (whole t (ctx_of ctx0 q k anc)); [constructor; [exact W|constructor]|].
    apply box_wf_eq in W. destruct W as (W1 & W2 & W3 & W4 & W5).
    apply Forall_inv in F. apply fits_eq in F. destruct F as [F1 F2]. constructor; [|constructor]. apply box_wf_eq.
    split; [exact W1|]. split; [reflexivity|]. split; [exact F1|]. split; [exact W4|].
    rewrite andb_true_r.
    apply (list_wf_weaken _ _ last) in W5; [|now destruct last].
    clear - IH W5 F2. revert F2. generalize (o + hsize f + lenN own) as o1. generalize k as k1.
    induction kids as [|kd r IHr]; intros k1 o1 F2; [exact I|].
    pose proof (Forall_inv IH) as I1. apply Forall_inv_tail in IH. cbn [any_kids] in *.
    apply Forall_app in F2. destruct F2 as [G1 G2]. apply list_wf_cons in W5. destruct W5 as [A B].
    specialize (IHr IH B _ _ G2). apply wf_before; [exact IHr|].
    pose proof (I1 _ _ _ _ _ A G1) as J.
    destruct (any_one (anc ++ [t]) q k1 o1 kd) as [Z|(b' & Z & _)]; [now left|right].
    rewrite Z in J. exists b'. split; [exact Z|]. apply Forall_inv in J.
    destruct r as [|k2 r].
    - exact J.
    - rewrite andb_false_r in J. now apply (wf_weaken).
  Qed.
  Lemma wf_any_file : forall l qt keys o, list_wf true l -> Forall fits (any_file data dropped time qt keys o l) ->
    list_wf true (any_file data dropped time qt keys o l).
  Proof.
    induction l as [|b r IH]; intros qt keys o W F; [exact I|]. cbn [any_file] in *.
    destruct (match enter data ctx0 [] qt keys o b with Ok x => x | _ => (qt, keys) end) as [q k].
    apply Forall_app in F. destruct F as [F1 F]. apply list_wf_cons in W. destruct W as [A B].
    apply wf_before; [exact (IH _ _ _ B F)|].
    pose proof (wf_any b [] qt keys o _ A F1) as J.
    destruct (any_one [] qt keys o b) as [Z|(b' & Z & _)]; [now left|right].
    rewrite Z in J. exists b'. split; [exact Z|]. apply Forall_inv in J.
    destruct r as [|k2 r].
    - exact J.
    - rewrite andb_false_r in J. now apply (wf_weaken).
  Qed.

  (** ** Its contents *)
  Variable data' : list byte.
  Hypothesis data'_61 : lenN data' < 2 ^ 61.
  Local Notation kbox := (kept_box data dropped time data').

  Fixpoint kept_kids (anc : list btype) (qt : bool) (keys : Z) (o o' : N) (l l' : list box) {struct l} : Prop :=
    match l with
    | [] => l' = []
    | k :: r => exists k' r', l' = k' ++ r' /\
        kbox anc qt keys o o' k k' /\
        kept_kids anc qt (match enter data ctx0 anc qt keys o k with Ok x => snd x | _ => keys end)
                  (o + box_size k) (o' + lenN (file_bytes k')) r r'
    end.
  Lemma kept_box_eq : forall anc qt keys o o' f t own kids slack l',
    kbox anc qt keys o o' (Box f t own kids slack) l' <->
    if dropped t then l' = [] /\ enter data ctx0 anc qt keys o (Box f t own kids slack) = Ok (qt, keys)
    else exists b', l' = [b'] /\
      exists qt1 keys1,
        enter data ctx0 anc qt keys o (Box f t own kids slack) = Ok (qt1, keys1) /\
        enter data' ctx0 anc qt keys o' b' = Ok (qt1, keys1) /\
        let c := ctx_of ctx0 qt1 keys1 anc in
        if whole t c then b' = Box f t own kids slack
        else exists own' kids', b' = Box f t own' kids' [] /\
          (exists d x, decoded data c o (Box f t own kids slack) = Ok (d, x, lenN own) /\
             (if retimed time t then own' = new_time time t own
              else decoded data' c o' b' = Ok (d, x, lenN own'))) /\
          kept_kids (anc ++ [t]) qt1 keys1 (o + hsize f + lenN own) (o' + hsize f + lenN own') kids kids'.
  Proof.
    intros. cbn [kept_box]. cbv zeta.
    assert (E : forall qt1 l keys1 o1 o2 l2,
      (fix kept_kids (keys : Z) (o o' : N) (l l' : list box) {struct l} : Prop :=
                 match l with
                 | [] => l' = []
                 | k :: r => exists k' r', l' = k' ++ r' /\
                     kbox (anc ++ [t]) qt1 keys o o' k k' /\
                     kept_kids (match enter data ctx0 (anc ++ [t]) qt1 keys o k with Ok x => snd x | _ => keys end)
                               (o + box_size k) (o' + lenN (file_bytes k')) r r'
                 end) keys1 o1 o2 l l2 <-> kept_kids (anc ++ [t]) qt1 keys1 o1 o2 l l2).
    { clear. intros qt1 l. induction l as [|k r IH]; intros; [reflexivity|].
      cbn [kept_kids]. split; intros (k' & r' & H1 & H2 & H3); exists k', r'; (split; [exact H1|]; split; [exact H2|]).
      - now apply IH.
      - now apply IH. }
    destruct (dropped t); [reflexivity|].
    split; intros (b' & EB & q & k & H1 & H2 & H3); exists b'; (split; [exact EB|]); exists q, k; (split; [exact H1|]; split; [exact H2|]);
      destruct (whole t (ctx_of ctx0 q k anc)); try exact H3;
      destruct H3 as (own' & kids' & G1 & G2 & G3); exists own', kids'; (split; [exact G1|]; split; [exact G2|]).
    - apply E. exact G3.
    - apply E. exact G3.
  Qed.

  Definition keeps (b : box) : Prop := forall anc qt keys pre post last pre' post',
    at_place data pre post last b ->
    Forall (any_ok data dropped) (list_box data ctx0 anc qt keys (lenN pre) b) ->
    data' = pre' ++ file_bytes (ybox anc qt keys (lenN pre) b) ++ post' ->
    kbox anc qt keys (lenN pre) (lenN pre') b (ybox anc qt keys (lenN pre) b).

  Lemma told_any : forall anc qt keys o b, Forall (any_ok data dropped) (list_box data ctx0 anc qt keys o b) ->
    exists x, enter data ctx0 anc qt keys o b = Ok x.
  Proof.
    intros anc qt keys o [f t own kids slack] Q. rewrite list_box_eq in Q. cbv zeta in Q.
    destruct (match enter data ctx0 anc qt keys o (Box f t own kids slack) with Ok x => x | _ => (qt, keys) end) as [q1 k1].
    apply Forall_inv in Q. destruct Q as [Q _]. exact Q.
  Qed.

  Lemma kids_kept : forall kids slack post anc qt last, Forall keeps kids ->
    list_wf last kids -> (last = true -> slack ++ post = []) -> forall pre keys pre' post',
    data = pre ++ flat_map box_bytes kids ++ slack ++ post ->
    Forall (any_ok data dropped) (list_kids data ctx0 anc qt keys (lenN pre) kids) ->
    data' = pre' ++ file_bytes (ykids anc qt keys (lenN pre) kids) ++ post' ->
    kept_kids anc qt keys (lenN pre) (lenN pre') kids (ykids anc qt keys (lenN pre) kids).
  Proof.
    intros kids slack post anc qt last W. revert last. induction W as [|k r Wk Wr IH]; intros last HW HL pre keys pre' post' HD Q HD'.
    - reflexivity.
    - cbn [list_kids any_kids flat_map kept_kids] in *. apply Forall_app in Q. destruct Q as [Q1 Q2].
      apply list_wf_cons in HW. destruct HW as [W1 W2].
      assert (A : at_place data pre (flat_map box_bytes r ++ slack ++ post) (last && match r with [] => true | _ => false end) k).
      { split; [|split].
        - rewrite HD, <- app_assoc. reflexivity.
        - exact W1.
        - intros Z. apply andb_prop in Z. destruct Z as [Z1 Z2]. destruct r; [|discriminate]. cbn. auto. }
      set (k' := ybox anc qt keys (lenN pre) k) in *.
      set (keys2 := match enter data ctx0 anc qt keys (lenN pre) k with Ok x => snd x | _ => keys end) in *.
      rewrite file_bytes_app, <- app_assoc in HD'.
      exists k', (ykids anc qt keys2 (lenN pre + box_size k) r). split; [reflexivity|]. split.
      + exact (Wk anc qt keys pre _ _ pre' _ A Q1 HD').
      + assert (OB : lenN pre + box_size k = lenN (pre ++ box_bytes k)) by (rewrite lenN_app; reflexivity).
        assert (OB' : lenN pre' + lenN (file_bytes k') = lenN (pre' ++ file_bytes k')) by (rewrite lenN_app; reflexivity).
        rewrite OB in Q2, HD' |- *. rewrite OB'.
        apply (IH last W2 HL _ _ _ post'); auto.
        * rewrite HD, <- !app_assoc. reflexivity.
        * rewrite HD', <- !app_assoc. reflexivity.
  Qed.

  Lemma some_any : forall last anc qt keys l o, list_wf last l ->
    (file_bytes (ykids anc qt keys o l) = [] /\ ykids anc qt keys o l = []) \/ 8 <= lenN (file_bytes (ykids anc qt keys o l)).
  Proof.
    intros last anc qt keys l. revert keys. induction l as [|k r IH]; intros keys o W; [now left|].
    apply list_wf_cons in W. destruct W as [W W2]. apply wf_type in W.
    cbn [any_kids]. rewrite file_bytes_app.
    specialize (IH (match enter data ctx0 anc qt keys o k with Ok x => snd x | _ => keys end) (o + box_size k) W2).
    destruct (any_one anc qt keys o k) as [Z|(b' & Z & T)]; rewrite Z; [exact IH|]. right.
    rewrite <- T in W. unfold file_bytes at 1. cbn [flat_map]. rewrite !lenN_app. pose proof (box_size_eq _ W) as S.
    pose proof (hsize_8 (box_form b')). unfold box_size in S. clear - S H. lia.
  Qed.

  Lemma all_kept : forall b, keeps b.
  Proof.
    induction b as [f t own kids slack IH] using box_ind2.
    intros anc qt keys pre post last pre' post' A Q HD'.
    destruct (told_any _ _ _ _ _ Q) as [[qt1 keys1] E].
    rewrite any_box_eq, list_box_eq in *. cbv zeta in *. rewrite E in *. cbv iota in *.
    set (b := Box f t own kids slack) in *.
    pose proof (Forall_inv Q) as [_ Q1]. apply Forall_inv_tail in Q.
    unfold b in Q1. cbn [e_box e_info bi_ctx info bi_offset] in Q1. fold b in Q1.
    set (c := ctx_of ctx0 qt1 keys1 anc) in *.
    apply kept_box_eq. fold b.
    destruct (dropped t) eqn:DT.
    { split; [reflexivity|]. apply not_ftyp; change (box_type b) with t; intros Z; rewrite Z in DT; congruence. }
    destruct (whole t c) eqn:WT.
    { exists b. split; [reflexivity|]. exists qt1, keys1. split; [exact E|]. split.
      - apply (enter_same data data' anc qt keys (lenN pre) (lenN pre') b b qt1 keys1 eq_refl E).
        fold c. change (box_type b) with t. rewrite WT. discriminate.
      - cbv zeta. fold c. rewrite WT. reflexivity. }
    destruct (Q1 eq_refl eq_refl) as [(d & x & D & RW & CK) SL]. clear Q1.
    pose proof A as (HD & HW & HL). pose proof (wf_type _ _ HW) as Ht. change (box_type b) with t in Ht.
    pose proof HW as HW0. apply box_wf_eq in HW0. destruct HW0 as (_ & _ & WS & _ & WK).
    destruct (own_again data data_45 _ _ _ _ _ _ _ _ A D RW) as [M R]. change (box_type b) with t in M, R.
    destruct (own_any data data_45 cfg time time_fits time_ok _ _ _ _ _ _ _ _ _ _ _ A D RW) as [_ OW]. fold b in OW.
    assert (AF : again_fields data c (lenN pre) b = snd (marshal std_registry t c x [])) by (rewrite M; reflexivity).
    assert (PRE : lenN pre + hsize f + lenN own = lenN (pre ++ header f t (lenN (payload b)) ++ own)).
    { rewrite !lenN_app, lenN_header by exact Ht. clear. lia. }
    assert (PL : lenN (payload b) = lenN own + lenN (flat_map box_bytes kids) + lenN slack).
    { unfold b. cbn [payload]. rewrite !lenN_app. clear. lia. }
    rewrite PRE in Q, HD' |- *.
    pose proof (some_box _ kids WK) as SB.
    pose proof (some_any _ (anc ++ [t]) qt1 keys1 kids (lenN (pre ++ header f t (lenN (payload b)) ++ own)) WK) as SA.
    pose proof (kids_kept kids slack post (anc ++ [t]) qt1 (last && match slack with [] => true | _ => false end) IH WK) as KS.
    assert (KN : kids = [] -> ykids (anc ++ [t]) qt1 keys1 (lenN (pre ++ header f t (lenN (payload b)) ++ own)) kids = [])
      by (intros ->; reflexivity).
    set (kids' := ykids (anc ++ [t]) qt1 keys1 (lenN (pre ++ header f t (lenN (payload b)) ++ own)) kids) in *.
    set (own' := any_fields data time c (lenN pre) b) in *.
    set (b' := Box f t own' kids' []) in *.
    assert (PL' : lenN (payload b') = lenN own' + lenN (file_bytes kids')).
    { unfold b'. cbn [payload]. rewrite app_nil_r, lenN_app. reflexivity. }
    assert (PB : file_bytes [b'] = header f t (lenN (payload b')) ++ own' ++ file_bytes kids').
    { unfold file_bytes at 1. cbn [flat_map]. rewrite app_nil_r, box_bytes_eq. unfold b' at 1 2 4. cbn [box_form box_type payload].
      rewrite app_nil_r. reflexivity. }
    assert (DE : data' = (pre' ++ header f t (lenN (payload b'))) ++ own' ++ file_bytes kids' ++ post').
    { rewrite HD', PB, <- !app_assoc. reflexivity. }
    (* its fields *)
    assert (DD : if retimed time t then own' = new_time time t own else decoded data' c (lenN pre') b' = Ok (d, x, lenN own')).
    { destruct (retimed time t); [exact OW|].
      unfold decoded. change (box_type b') with t. change (box_form b') with f.
      replace (lenN pre' + hsize f) with (lenN (pre' ++ header f t (lenN (payload b')))) by (rewrite lenN_app, lenN_header by exact Ht; reflexivity).
      rewrite DE at 1. rewrite OW. rewrite R; [reflexivity| | |]; rewrite <- OW.
      - rewrite <- !lenN_app in *. rewrite <- app_assoc. rewrite <- DE. exact data'_61.
      - rewrite PL', lenN_app. clear. lia.
      - rewrite PL'. destruct SA as [[SA _]|SA].
        + left. rewrite SA, lenN_nil. apply N.add_0_r.
        + right. assert (NN : kids <> []).
          { intros Z. rewrite (KN Z) in SA. unfold file_bytes in SA. cbn [flat_map] in SA. rewrite lenN_nil in SA. clear - SA. lia. }
          specialize (SB NN).
          split; [clear - SA; lia|]. split; [rewrite PL; clear - SB; lia|].
          destruct CK as [CK|[CK|CK]]; [contradiction|now left|]. right.
          rewrite OW, AF, CK. unfold b. cbn [payload]. symmetry. apply takeN_app_exact. reflexivity. }
    exists b'. split; [reflexivity|]. exists qt1, keys1. split; [exact E|]. split.
    - destruct (retimed time t) eqn:RT.
      + assert (T : t = bt "tfdt").
        { destruct time as [v|]; [|discriminate RT]. now apply bytes_eqb_eq. }
        rewrite (not_ftyp data) in E by (change (box_type b) with t; rewrite T; discriminate).
        rewrite (not_ftyp data') by (change (box_type b') with t; rewrite T; discriminate). exact E.
      + apply (enter_same data data' anc qt keys (lenN pre) (lenN pre') b b' qt1 keys1 eq_refl E).
        intros _. fold c. exists d, x, (lenN own), (lenN own'). split; [exact D|exact DD].
    - cbv zeta. fold c. rewrite WT. exists own', kids'. split; [reflexivity|].
      split; [exists d, x; split; [exact D|exact DD]|].
      replace (lenN pre' + hsize f + lenN own') with (lenN (pre' ++ header f t (lenN (payload b')) ++ own'))
        by (rewrite !lenN_app, lenN_header by exact Ht; clear; lia).
      apply (KS) with (post' := post'); auto.
      + intros Z. apply andb_prop in Z. destruct Z as [Z1 Z2]. rewrite (HL Z1), app_nil_r. destruct slack; [reflexivity|discriminate].
      + rewrite HD. unfold b. rewrite box_bytes_eq. cbn [box_form box_type payload]. rewrite <- !app_assoc. reflexivity.
      + rewrite DE, <- !app_assoc. reflexivity.
  Qed.

  Lemma file_kept : forall l pre qt keys pre',
    data = pre ++ flat_map box_bytes l -> list_wf true l ->
    Forall (any_ok data dropped) (list_file data ctx0 qt keys (lenN pre) l) ->
    data' = pre' ++ file_bytes (any_file data dropped time qt keys (lenN pre) l) ->
    kept_file data dropped time data' qt keys (lenN pre) (lenN pre') l (any_file data dropped time qt keys (lenN pre) l).
  Proof.
    induction l as [|b r IH]; intros pre qt keys pre' HD HW Q HD'; [reflexivity|].
    cbn [list_file any_file kept_file flat_map] in *. apply list_wf_cons in HW. destruct HW as [W1 W2].
    destruct (match enter data ctx0 [] qt keys (lenN pre) b with Ok x => x | _ => (qt, keys) end) as [q1 k1] eqn:E1.
    apply Forall_app in Q. destruct Q as [Q1 Q2].
    assert (A : at_place data pre (flat_map box_bytes r) (true && match r with [] => true | _ => false end) b).
    { split; [exact HD|]. split; [exact W1|]. intros Z. destruct r; [reflexivity|discriminate]. }
    set (b' := ybox [] qt keys (lenN pre) b) in *.
    rewrite file_bytes_app in HD'.
    exists b', (any_file data dropped time q1 k1 (lenN pre + box_size b) r). split; [reflexivity|]. split.
    - exact (all_kept b [] qt keys pre _ _ pre' _ A Q1 HD').
    - assert (OB : lenN pre + box_size b = lenN (pre ++ box_bytes b)) by (rewrite lenN_app; reflexivity).
      assert (OB' : lenN pre' + lenN (file_bytes b') = lenN (pre' ++ file_bytes b')) by (rewrite lenN_app; reflexivity).
      rewrite OB in Q2, HD' |- *. rewrite OB'.
      apply IH; auto.
      + rewrite HD, <- app_assoc. reflexivity.
      + rewrite HD', <- app_assoc. reflexivity.
  Qed.
End Kept.
