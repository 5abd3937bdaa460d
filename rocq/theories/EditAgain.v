(** edit without options on files whose boxes need not be canonical. *)
From Verif Require Import Base BaseProofs BitIO Schema Structs Methods Registry Marshal Unmarshal BoxInfo ReadTree Writer Text.
From Verif Require Import SpecCodec Decode BitIOProofs BitIOFacts MarshalCount UnmarshalProofs VersionFacts RoundTripBase RoundTripMeta
     Lossless ReencodeBoxes SpecLossless SpecReencode PropLossless PropReencode Extend.
From Verif Require Import SpecTree SpecExtract SpecWriter WriterProofs TreeProofs PropTree PropExtract
     PropExtractPayload Edit SpecEdit EditProofs PropEdit SpecEditAgain.
Local Open Scope string_scope.
Local Open Scope list_scope.
Local Open Scope N_scope.

(** ** Reading what was written *)
Lemma meta_sizes : forall data t size ctx pos d x n pos' size', bd_name d = "Meta" ->
  pos <= lenN data -> lenN data < 2 ^ 62 -> n <> 0 ->
  unmarshal_any std_registry data t size ctx pos = (Ok (d, x, n), pos') ->
  size' < 2 ^ 61 -> n <= size' ->
  unmarshal_any std_registry data t size' ctx pos = (Ok (d, x, n), pos + n).
Proof.
  intros data t size ctx pos d x n pos' size' EN Hp Hd N0 H Hs L.
  pose proof (unmarshal_any_def _ _ _ _ _ _ _ _ _ H) as G.
  pose proof (unmarshal_any_decode t ctx d data size pos G Hp Hd) as U. cbv zeta in U.
  rewrite H in U. destruct U as (_ & U & _ & _).
  pose proof (unmarshal_any_decode t ctx d data size' pos G Hp Hd) as U2. cbv zeta in U2.
  pose proof (all_defs_check _ _ _ _ _ eq_refl std_meta0 G) as HM. cbv beta in HM.
  rewrite EN in HM. cbn [String.eqb Ascii.eqb Bool.eqb implb] in HM. apply andb_prop in HM. destruct HM as [EF _].
  apply sty_eqb_eq in EF.
  assert (HH : hook_of (bd_name d) "FullBox" = HNone) by (rewrite EN; reflexivity).
  enough (E : decode (dfuel data) d size' ctx (zero_flds (bd_flds d)) (bits_of_bytes (skipN pos data)) = Ok (x, n)).
  { rewrite E in U2. destruct (unmarshal_any std_registry data t size' ctx pos) as [[[[d' y] m]|e| |] q].
    - destruct U2 as (-> & U2 & -> & _). injection U2 as -> ->. reflexivity.
    - destruct U2 as [U2 _]. discriminate U2.
    - discriminate U2.
    - discriminate U2. }
  clear U2 H Hp. unfold decode in U |- *. rewrite (set_version_fb d _ EF) in U |- *.
  unfold d_before in U |- *. rewrite EN in U |- *. change (String.eqb "Meta" "Meta") with true in U |- *. cbv iota in U |- *.
  destruct (d_bytes 4 (0, bits_of_bytes (skipN pos data))) as [[buf [p1 r]]| | |] eqn:E; try discriminate.
  apply d_bytes_inv in E. destruct E as (EB & L4 & _). rewrite EB in U |- *.
  destruct (existsb _ buf) eqn:EX; [exfalso; apply N0; congruence|].
  destruct buf as [|b0 [|b1 [|b2 [|b3 [|]]]]]; try discriminate L4.
  2:{ exfalso. clear - L4. rewrite !lenN_cons in L4. lia. }
  rewrite <- EN in U |- *. rewrite (decode_full_box _ _ _ _ _ _ _ _ _ _ _ EF HH) in U.
  rewrite (decode_full_box _ _ _ _ _ _ _ _ _ _ _ EF HH).
  destruct (version_in (bd_versions d) (b2N b0)); [|discriminate]. cbn [dec_flds] in U |- *. unfold dret in U |- *.
  change (negb (32 mod 8 =? 0)) with false in U |- *. cbv iota in U |- *. destruct (w64 (size * 8) <? 32); [discriminate|].
  assert (E : x = [("FullBox", fb_val b0 b1 b2 b3)] /\ n = 4) by (injection U as <- <-; split; reflexivity).
  destruct E as [-> ->]. change (32 / 8) with 4.
  change (2 ^ 61) with 2305843009213693952 in Hs.
  destruct (N.ltb_spec (w64 (size' * 8)) 32) as [Q|]; [|reflexivity].
  exfalso. clear - Q L Hs. unfold w64, W64 in Q. rewrite N.mod_small in Q; lia.
Qed.

(** The box [x] that was read is read again, whatever the announced size, from
    where it was written. *)
Lemma read_again : forall data t size ctx pos d x n pos',
  pos <= lenN data -> lenN data < 2 ^ 45 -> size < 2 ^ 61 ->
  unmarshal_any std_registry data t size ctx pos = (Ok (d, x, n), pos') ->
  rewritable d x = true ->
  exists out, marshal std_registry t ctx x [] = (Ok (lenN out), out) /\
    forall pre post size', lenN pre + lenN out + lenN post < 2 ^ 61 -> size' <= lenN out + lenN post ->
      (size' = lenN out \/
       (lenN out + 8 <= size' /\ n + 8 <= size /\ (bd_name d = "Meta" \/ out = takeN n (skipN pos data)))) ->
      unmarshal_any std_registry (pre ++ out ++ post) t size' ctx (lenN pre) =
        (Ok (d, x, lenN out), lenN pre + lenN out).
Proof.
  intros data t size ctx pos d x n pos' Hp Hd Hs H RW.
  assert (Hd' : lenN data < 2 ^ 62).
  { change (2 ^ 45) with 35184372088832 in Hd. change (2 ^ 62) with 4611686018427387904. clear - Hd. lia. }
  destruct (C62_reencode_partial _ _ _ _ _ _ _ _ _ Hp Hd H RW) as (out & M & R).
  exists out. split; [exact M|]. intros pre post size' LP LS [->|(L1 & L2 & CA)].
  { apply R. change (2 ^ 61) with 2305843009213693952 in LP. change (2 ^ 62) with 4611686018427387904. clear - LP. lia. }
  assert (LP2 : lenN pre + lenN out + lenN post < 2 ^ 62).
  { change (2 ^ 61) with 2305843009213693952 in LP. change (2 ^ 62) with 4611686018427387904. clear - LP. lia. }
  assert (Q1 : lenN pre <= lenN (pre ++ out ++ post)) by (rewrite lenN_app; clear; lia).
  assert (Q2 : lenN (pre ++ out ++ post) < 2 ^ 62) by (rewrite !lenN_app, N.add_assoc; exact LP2).
  assert (Q3 : size' < 2 ^ 61) by (clear - LS LP; lia).
  destruct (string_dec (bd_name d) "Meta") as [EM|NM].
  - assert (N0 : lenN out <> 0).
    { intros Z. destruct out as [|c out]; [|rewrite lenN_cons in Z; clear - Z; lia].
      specialize (R [] [] eq_refl). cbn [app] in R. rewrite lenN_nil in R.
      pose proof (unmarshal_any_def _ _ _ _ _ _ _ _ _ R) as G.
      pose proof (unmarshal_any_decode t ctx d [] 0 0 G (N.le_refl 0) eq_refl) as U. cbv zeta in U.
      rewrite R in U. destruct U as (_ & U & _). unfold decode, d_before in U. rewrite EM in U. vm_compute in U. discriminate U. }
    apply (meta_sizes _ t (lenN out) ctx (lenN pre) d x (lenN out) (lenN pre + lenN out) size' EM Q1 Q2 N0 (R pre post LP2) Q3).
    clear - L1. lia.
  - destruct CA as [EM|EO]; [contradiction|].
    assert (LO : lenN out = n).
    { pose proof (unmarshal_any_def _ _ _ _ _ _ _ _ _ H) as G.
      pose proof (unmarshal_any_decode t ctx d data size pos G Hp Hd') as U. cbv zeta in U.
      rewrite H in U. destruct U as (_ & _ & _ & L). rewrite EO, lenN_takeN, lenN_skipN. clear - L. lia. }
    rewrite LO. apply (decoded_far data t size ctx pos d x n pos' (pre ++ out ++ post) (lenN pre) size'); auto.
    + clear - L2. lia.
    + clear - L1 LO. lia.
    + rewrite skipN_app_exact by reflexivity. rewrite takeN_app_exact by (symmetry; exact LO). exact EO.
Qed.

(** ** ftyp and keys do not depend on the context *)
Definition ftyp_def := match get_box_def std_registry (bt "ftyp") ctx0 with Some d => d | None => item_def end.
Definition keys_def := match get_box_def std_registry (bt "keys") ctx0 with Some d => d | None => item_def end.
Lemma ftyp_steady : steady (bt "ftyp").
Proof. exists ftyp_def. split; [|vm_compute; discriminate]. intros ctx. unfold get_box_def. vm_compute. reflexivity. Qed.
Lemma keys_steady : steady (bt "keys").
Proof. exists keys_def. split; [|vm_compute; discriminate]. intros ctx. unfold get_box_def. vm_compute. reflexivity. Qed.
Lemma decoded_steady : forall data c c' o b, steady (box_type b) -> decoded data c o b = decoded data c' o b.
Proof. intros data c c' o b S. unfold decoded. now rewrite (steady_same _ _ _ c c' _ S). Qed.
Lemma whole_steady : forall t c, t = bt "ftyp" \/ t = bt "keys" -> whole t c = false.
Proof. intros t c [E|E]; subst t; unfold whole, is_supported; vm_compute; reflexivity. Qed.

(** what a box tells depends on what it is decoded to *)
Lemma enter_same : forall data data' anc qt keys o o' b b' qt1 keys1,
  box_type b' = box_type b ->
  enter data ctx0 anc qt keys o b = Ok (qt1, keys1) ->
  (whole (box_type b) (ctx_of ctx0 qt1 keys1 anc) = false ->
   exists d x n n', decoded data (ctx_of ctx0 qt1 keys1 anc) o b = Ok (d, x, n) /\
                    decoded data' (ctx_of ctx0 qt1 keys1 anc) o' b' = Ok (d, x, n')) ->
  enter data' ctx0 anc qt keys o' b' = Ok (qt1, keys1).
Proof.
  intros data data' anc qt keys o o' b b' qt1 keys1 ET E D. unfold enter in *. rewrite ET.
  destruct (bt_eqb (box_type b) (bt "ftyp")) eqn:TF.
  - assert (T : box_type b = bt "ftyp") by (now apply bytes_eqb_eq).
    assert (NK : bt_eqb (box_type b) (bt "keys") = false) by (rewrite T; reflexivity). rewrite NK in *.
    destruct (match anc with [] => true | _ => false end); cbn [andb] in *; [|exact E].
    destruct D as (d & x & n & n' & D1 & D2); [apply whole_steady; now left|].
    rewrite (decoded_steady data' _ (ctx_of ctx0 qt1 keys1 anc) o' b') by (rewrite ET, T; apply ftyp_steady).
    rewrite (decoded_steady data _ (ctx_of ctx0 qt1 keys1 anc) o b) in E by (rewrite T; apply ftyp_steady).
    rewrite D1 in E. rewrite D2. exact E.
  - cbn [andb] in *. destruct (bt_eqb (box_type b) (bt "keys")) eqn:TK; [|exact E].
    assert (T : box_type b = bt "keys") by (now apply bytes_eqb_eq).
    destruct D as (d & x & n & n' & D1 & D2); [apply whole_steady; now right|].
    rewrite (decoded_steady data' _ (ctx_of ctx0 qt1 keys1 anc) o' b') by (rewrite ET, T; apply keys_steady).
    rewrite (decoded_steady data _ (ctx_of ctx0 qt1 keys1 anc) o b) in E by (rewrite T; apply keys_steady).
    rewrite D1 in E. rewrite D2. exact E.
Qed.

Lemma fits_eq : forall f t own kids slack,
  fits (Box f t own kids slack) <->
  (f = Small -> 8 + lenN (payload (Box f t own kids slack)) < 2 ^ 32) /\ Forall fits kids.
Proof.
  intros. cbn [fits].
  assert (E : (fix all (l : list box) : Prop := match l with [] => True | k :: r => fits k /\ all r end) kids <-> Forall fits kids).
  { clear. induction kids as [|k r IH]; [split; auto|]. rewrite IH. split.
    - intros [A B]. now constructor.
    - intros H. split; [exact (Forall_inv H)|exact (Forall_inv_tail H)]. }
  rewrite E. reflexivity.
Qed.
Lemma kept_fields : forall t x, edit_fields no_options t x = x.
Proof. intros. unfold edit_fields. cbn [cf_time no_options options]. rewrite N.eqb_refl. cbn [negb]. rewrite andb_false_r. reflexivity. Qed.

Section Again.
  Variable data : list byte.
  Hypothesis data_45 : lenN data < 2 ^ 45.
  Lemma data_small : lenN data < 2 ^ 62.
  Proof. change (2 ^ 45) with 35184372088832 in data_45. change (2 ^ 62) with 4611686018427387904. lia. Qed.
  Local Notation abox := (again_box data).
  Local Notation handler := (edit_handler no_options data).

  Fixpoint again_kids (anc : list btype) (qt : bool) (keys : Z) (o : N) (l : list box) : list box :=
    match l with
    | [] => []
    | k :: r =>
        abox anc qt keys o k ::
        again_kids anc qt (match enter data ctx0 anc qt keys o k with Ok x => snd x | _ => keys end) (o + box_size k) r
    end.
  Lemma again_box_eq : forall anc qt keys o f t own kids slack,
    abox anc qt keys o (Box f t own kids slack) =
    let b := Box f t own kids slack in
    let (qt', keys') := match enter data ctx0 anc qt keys o b with Ok x => x | _ => (qt, keys) end in
    let c := ctx_of ctx0 qt' keys' anc in
    if whole t c then b
    else Box f t (again_fields data c o b) (again_kids (anc ++ [t]) qt' keys' (o + hsize f + lenN own) kids) [].
  Proof.
    intros. cbn [again_box]. cbv zeta.
    destruct (match enter data ctx0 anc qt keys o (Box f t own kids slack) with Ok x => x | _ => (qt, keys) end) as [qt' keys'].
    destruct (whole _ _); [reflexivity|]. f_equal.
    generalize (o + hsize f + lenN own) as o1. generalize keys' as k1.
    induction kids as [|k r IH]; intros k1 o1; [reflexivity|].
    cbn [again_kids]. f_equal. apply IH.
  Qed.

  (** the fields that are written *)
  Lemma own_again : forall pre post last b c d x n, at_place data pre post last b ->
    decoded data c (lenN pre) b = Ok (d, x, n) -> rewritable d x = true ->
    marshal std_registry (box_type b) c x [] =
      (Ok (lenN (again_fields data c (lenN pre) b)), again_fields data c (lenN pre) b) /\
    forall pre' post' size', lenN pre' + lenN (again_fields data c (lenN pre) b) + lenN post' < 2 ^ 61 ->
      size' <= lenN (again_fields data c (lenN pre) b) + lenN post' ->
      (size' = lenN (again_fields data c (lenN pre) b) \/
       (lenN (again_fields data c (lenN pre) b) + 8 <= size' /\ n + 8 <= lenN (payload b) /\
        (bd_name d = "Meta" \/ again_fields data c (lenN pre) b = takeN n (payload b)))) ->
      unmarshal_any std_registry (pre' ++ again_fields data c (lenN pre) b ++ post') (box_type b) size' c (lenN pre') =
        (Ok (d, x, lenN (again_fields data c (lenN pre) b)), lenN pre' + lenN (again_fields data c (lenN pre) b)).
  Proof.
    intros pre post last b c d x n A D RW. unfold again_fields. rewrite D.
    destruct (place_size data data_small _ _ _ _ A) as (LD & LH & _ & LS).
    pose proof A as (HD & HW & HL). pose proof (wf_type _ _ HW) as Ht.
    unfold decoded in D.
    destruct (unmarshal_any std_registry data (box_type b) (lenN (payload b)) c (lenN pre + hsize (box_form b))) as [r p'] eqn:U.
    cbn [fst] in D. subst r.
    destruct (read_again data (box_type b) (lenN (payload b)) c (lenN pre + hsize (box_form b)) d x n p') as (out & M & R); auto.
    { clear - LD LH. lia. }
    { clear - data_45 LD LH LS. change (2 ^ 45) with 35184372088832 in data_45. change (2 ^ 61) with 2305843009213693952. lia. }
    rewrite M. cbn [snd]. split; [reflexivity|]. intros pre' post' size' L1 L2 CA.
    apply R; auto. destruct CA as [CA|(CA & CB & [CC|CC])]; [left; exact CA|right; split; [exact CA|split; [exact CB|left; exact CC]]|].
    right. split; [exact CA|]. split; [exact CB|]. right. rewrite CC. rewrite HD. rewrite box_bytes_eq.
    rewrite <- !app_assoc, app_assoc.
    rewrite skipN_app_exact by (rewrite lenN_app, lenN_header by exact Ht; reflexivity).
    symmetry. apply takeN_app_le. clear - CB. lia.
  Qed.

  Lemma cut_here : forall pre post last b c, at_place data pre post last b ->
    available data (info (lenN pre) b c) /\ cut data (info (lenN pre) b c) = box_bytes b.
  Proof.
    intros pre post last b c A. destruct (place_size data data_small _ _ _ _ A) as (L & H & _).
    assert (E : cut data (info (lenN pre) b c) = box_bytes b).
    { unfold cut, info. cbn [bi_size bi_offset]. destruct A as (-> & _). rewrite skipN_app_exact by reflexivity.
      apply takeN_app_exact. reflexivity. }
    split; [|exact E]. unfold available. rewrite E. cbn [bi_offset bi_size info]. pose proof data_small as DS.
    change (2 ^ 62) with 4611686018427387904 in *. change (2 ^ 63) with 9223372036854775808. unfold box_size in *.
    split; [clear - L DS; lia|]. split; [clear - L DS; lia|reflexivity].
  Qed.

  Definition agains (b : box) : Prop := forall anc qt keys pre post last w b0 fs,
    at_place data pre post last b -> holds w (b0, fs) -> calm w ->
    Forall (again_ok data) (list_box data ctx0 anc qt keys (lenN pre) b) ->
    fits (abox anc qt keys (lenN pre) b) ->
    lenN (render b0 fs) + box_size (abox anc qt keys (lenN pre) b) < 2 ^ 62 ->
    exists qt' keys' w', enter data ctx0 anc qt keys (lenN pre) b = Ok (qt', keys') /\
      walk_box data ctx0 handler anc qt keys (lenN pre) b tt (mkest w false) = Some (Ok (tt, (qt', keys')), mkest w' false) /\
      holds w' (add (box_bytes (abox anc qt keys (lenN pre) b)) (b0, fs)) /\ calm w'.

  Lemma kids_again : forall kids slack post anc qt last, Forall agains kids -> (slack = [] \/ qt = true) ->
    list_wf last kids -> (last = true -> slack ++ post = []) -> forall pre keys w b0 fs,
    data = pre ++ flat_map box_bytes kids ++ slack ++ post ->
    holds w (b0, fs) -> calm w ->
    Forall (again_ok data) (list_kids data ctx0 anc qt keys (lenN pre) kids) ->
    Forall fits (again_kids anc qt keys (lenN pre) kids) ->
    lenN (render b0 fs) + lenN (file_bytes (again_kids anc qt keys (lenN pre) kids)) < 2 ^ 62 ->
    exists vs w',
      walk_kids data ctx0 handler slack anc qt tt keys (lenN pre) kids (mkest w false) = Some (Ok vs, mkest w' false) /\
      holds w' (add (file_bytes (again_kids anc qt keys (lenN pre) kids)) (b0, fs)) /\ calm w'.
  Proof.
    intros kids slack post anc qt last W SL. revert last. induction W as [|k r Wk Wr IH]; intros last HW HL pre keys w b0 fs HD H C Q F L.
    - exists [], w. cbn [walk_kids again_kids file_bytes flat_map]. rewrite add_nil. split; [|split; [exact H|exact C]].
      destruct slack; [reflexivity|]. destruct SL as [SL|SL]; [discriminate|]. now rewrite SL.
    - cbn [list_kids again_kids flat_map] in *. apply Forall_app in Q. destruct Q as [Q1 Q2].
      pose proof (Forall_inv F) as F1. apply Forall_inv_tail in F.
      apply list_wf_cons in HW. destruct HW as [W1 W2].
      assert (A : at_place data pre (flat_map box_bytes r ++ slack ++ post) (last && match r with [] => true | _ => false end) k).
      { split; [|split].
        - rewrite HD, <- app_assoc. reflexivity.
        - exact W1.
        - intros Z. apply andb_prop in Z. destruct Z as [Z1 Z2]. destruct r; [|discriminate]. cbn. auto. }
      set (k' := abox anc qt keys (lenN pre) k) in *.
      change (file_bytes (k' :: again_kids anc qt (match enter data ctx0 anc qt keys (lenN pre) k with Ok x => snd x | _ => keys end) (lenN pre + box_size k) r))
        with (box_bytes k' ++ file_bytes (again_kids anc qt (match enter data ctx0 anc qt keys (lenN pre) k with Ok x => snd x | _ => keys end) (lenN pre + box_size k) r)) in L |- *.
      rewrite lenN_app in L.
      destruct (Wk anc qt keys pre _ _ w b0 fs A H C Q1 F1) as (qt2 & keys2 & w1 & E & R & H1 & C1).
      { fold k'. unfold box_size. clear - L. lia. }
      fold k' in H1.
      cbn [walk_kids]. rewrite R. rewrite E in Q2, F, L |- *. cbn [snd] in *.
      pose proof (render_le (box_bytes k') b0 fs) as RL.
      destruct (add (box_bytes k') (b0, fs)) as [b1 f1] eqn:EA. cbn [fst snd] in RL.
      assert (OB : lenN pre + box_size k = lenN (pre ++ box_bytes k)) by (rewrite lenN_app; reflexivity).
      rewrite OB in Q2, F, L |- *.
      destruct (IH last W2 HL (pre ++ box_bytes k) keys2 w1 b1 f1) as (vs & w2 & V & H2 & C2); auto.
      { rewrite HD, <- !app_assoc. reflexivity. }
      { rewrite RL. clear - L. lia. }
      exists (tt :: vs), w2.
      change ((fix go (keys : Z) (o : N) (l : list box) (s : est) {struct l} := _) keys2) with
        (walk_kids data ctx0 handler slack anc qt tt keys2).
      rewrite V. split; [reflexivity|]. rewrite <- EA, add_add in H2. split; [exact H2|exact C2].
  Qed.

  Lemma all_again : forall b, agains b.
  Proof.
    induction b as [f t own kids slack IH] using box_ind2.
    intros anc qt keys pre post last w b0 fs A H C Q FT L.
    rewrite walk_box_eq. cbv zeta. rewrite again_box_eq, list_box_eq in *. cbv zeta in *.
    set (b := Box f t own kids slack) in *.
    assert (exists qt' keys', enter data ctx0 anc qt keys (lenN pre) b = Ok (qt', keys')) as (qt' & keys' & E).
    { destruct (match enter data ctx0 anc qt keys (lenN pre) b with Ok x => x | _ => (qt, keys) end) as [q1 k1].
      apply Forall_inv in Q. destruct Q as [[[q2 k2] Q] _]. eauto. }
    exists qt', keys'. rewrite E in *. cbv iota in *. pose proof (Forall_inv Q) as [_ Q1]. apply Forall_inv_tail in Q.
    unfold b in Q1. cbn [e_box e_info bi_ctx info bi_offset] in Q1. fold b in Q1.
    set (c := ctx_of ctx0 qt' keys' anc) in *.
    set (children := fun (q : unit) (s : est) => walk_kids data ctx0 handler slack (anc ++ [t]) qt' q keys' (lenN pre + hsize f + lenN own) kids s).
    unfold edit_handler. change (bi_type (info (lenN pre) b c)) with t. change (bi_ctx (info (lenN pre) b c)) with c.
    assert (T4 : lenN t = 4) by (destruct A as (_ & W & _); destruct W as [W _]; exact W).
    assert (DT : boxes_exist (cf_drop no_options) (box_type_string t) = false).
    { change no_options with (given None []). rewrite given_drop; [reflexivity|constructor|exact T4]. }
    rewrite DT. cbv iota.
    fold (whole t c). destruct (whole t c) eqn:WT.
    { destruct (cut_here pre post last b c A) as [AV CU].
      destruct (copy_call data (info (lenN pre) b c) w (b0, fs) H C AV) as (w1 & E1 & H1 & C1).
      exists w1. rewrite (call_ok _ _ _ _ _ _ _ E1). cbn [run]. split; [reflexivity|]. split; [reflexivity|].
      rewrite <- CU. split; [exact H1|exact C1]. }
    destruct (Q1 eq_refl) as [(d & x & D & RW & _) SL].
    pose proof A as (HD & HW & HL). pose proof (wf_type _ _ HW) as Ht. change (box_type b) with t in Ht.
    pose proof HW as HW0. apply box_wf_eq in HW0. destruct HW0 as (_ & _ & WS & _ & WK).
    destruct (place_size data data_small _ _ _ _ A) as (LD & LH & _ & LS). change (box_form b) with f in *.
    (* StartBox *)
    destruct (start_call (info (lenN pre) b c) w b0 fs H C Ht) as (a1 & w1 & E1 & H1 & C1).
    destruct (opened_ok (render b0 fs) (info (lenN pre) b c) Ht) as [FO FF].
    rewrite (form_info last (lenN pre) b c HW) in FF. change (box_form b) with f in FF.
    pose proof (header_form (info (lenN pre) b c) Ht) as HF. rewrite (form_info last (lenN pre) b c HW) in HF. change (box_form b) with f in HF.
    assert (TF : bi_type (fr_info (opened_frame (lenN (render b0 fs)) (info (lenN pre) b c))) = t) by reflexivity.
    assert (BF : fr_body (opened_frame (lenN (render b0 fs)) (info (lenN pre) b c)) = []) by reflexivity.
    assert (HH : lenN (fr_hdr (opened_frame (lenN (render b0 fs)) (info (lenN pre) b c))) = hsize f) by exact HF.
    set (f1 := opened_frame (lenN (render b0 fs)) (info (lenN pre) b c)) in *. clearbody f1.
    rewrite (call_ok _ _ _ _ _ _ _ E1). cbn [run]. rewrite D. cbn iota.
    (* Marshal *)
    destruct (own_again _ _ _ _ _ _ _ _ A D RW) as [M _]. change (box_type b) with t in M.
    rewrite kept_fields, M.
    set (own' := again_fields data c (lenN pre) b) in *. clearbody own'.
    destruct (write_call own' w1 _ H1 C1) as (w2 & E2 & H2 & C2).
    rewrite (call_ok _ _ _ _ _ _ _ E2).
    rewrite (call_ok _ _ w2 _ _ (lenN own') w2) by reflexivity. cbn [run]. rewrite N.eqb_refl.
    (* the boxes in it *)
    cbn [add] in H2. rewrite BF in H2. cbn [app] in H2.
    set (f2 := mkfr (fr_info f1) (fr_hdr f1) own') in *.
    assert (PRE : lenN pre + hsize f + lenN own = lenN (pre ++ header f t (lenN (payload b)) ++ own)).
    { rewrite !lenN_app, lenN_header by exact Ht. clear. lia. }
    rewrite PRE in Q, FT, L |- *. unfold children. rewrite PRE.
    set (kids' := again_kids (anc ++ [t]) qt' keys' (lenN (pre ++ header f t (lenN (payload b)) ++ own)) kids) in *.
    apply fits_eq in FT. destruct FT as [FT1 FT2].
    assert (BS : box_size (Box f t own' kids' []) = hsize f + (lenN own' + lenN (file_bytes kids'))).
    { rewrite box_size_eq by exact Ht. cbn [box_form payload]. rewrite app_nil_r, lenN_app. reflexivity. }
    rewrite BS in L. cbn [payload] in FT1. rewrite app_nil_r in FT1. change (flat_map box_bytes kids') with (file_bytes kids') in FT1.
    destruct (kids_again kids slack post (anc ++ [t]) qt' (last && match slack with [] => true | _ => false end) IH SL WK)
      with (pre := pre ++ header f t (lenN (payload b)) ++ own) (keys := keys') (w := w2) (b0 := b0) (fs := f2 :: fs)
      as (vs & w3 & V & H3 & C3); auto.
    { intros Z. apply andb_prop in Z. destruct Z as [Z1 Z2]. rewrite (HL Z1), app_nil_r. destruct slack; [reflexivity|discriminate]. }
    { rewrite HD. unfold b. rewrite box_bytes_eq. cbn [box_form box_type payload]. rewrite <- !app_assoc. reflexivity. }
    { fold kids'. cbn [render]. unfold fr_bytes, f2. cbn [fr_hdr fr_body]. rewrite lenN_app, lenN_app, HH. clear - L. lia. }
    fold kids' in H3.
    rewrite V. cbn [add fr_info fr_hdr fr_body f2] in H3. clearbody kids'.
    set (f3 := mkfr (fr_info f1) (fr_hdr f1) (own' ++ file_bytes kids')) in *.
    (* EndBox *)
    assert (F3 : fr_form f3 = f) by exact FF.
    destruct (end_call w3 b0 f3 fs H3 C3) as (a4 & w4 & E4 & H4 & C4).
    { rewrite F3. intros Z. exact (FT1 Z). }
    { cbn [render]. unfold fr_bytes. cbn [f3 fr_hdr fr_body]. rewrite lenN_app, lenN_app, lenN_app, HH.
      change (2 ^ 62) with 4611686018427387904 in *. change (2 ^ 63) with 9223372036854775808. clear - L. lia. }
    rewrite (call_ok _ _ _ _ _ _ _ E4). cbn [run]. exists w4.
    split; [reflexivity|]. split; [reflexivity|].
    assert (CL : fr_close f3 = box_bytes (Box f t own' kids' [])).
    { unfold fr_close. rewrite F3. change (bi_type (fr_info f3)) with (bi_type (fr_info f1)). rewrite TF. cbn [f3 fr_body].
      rewrite box_bytes_eq. cbn [box_form box_type payload]. rewrite app_nil_r. reflexivity. }
    rewrite <- CL. split; [exact H4|exact C4].
  Qed.

  Lemma file_again : forall l pre qt keys w b0,
    data = pre ++ flat_map box_bytes l -> list_wf true l ->
    holds w (b0, []) -> calm w ->
    Forall (again_ok data) (list_file data ctx0 qt keys (lenN pre) l) ->
    Forall fits (again_file data qt keys (lenN pre) l) ->
    lenN b0 + lenN (file_bytes (again_file data qt keys (lenN pre) l)) < 2 ^ 62 ->
    exists vs w',
      walk_file data ctx0 handler qt keys (lenN pre) l tt (mkest w false) = Some (Ok vs, mkest w' false) /\
      holds w' (b0 ++ file_bytes (again_file data qt keys (lenN pre) l), []) /\ calm w'.
  Proof.
    induction l as [|b r IH]; intros pre qt keys w b0 HD HW H C Q F L.
    - exists [], w. cbn [walk_file again_file file_bytes flat_map]. rewrite app_nil_r. auto.
    - cbn [list_file walk_file again_file flat_map] in *. apply list_wf_cons in HW. destruct HW as [W1 W2].
      destruct (match enter data ctx0 [] qt keys (lenN pre) b with Ok x => x | _ => (qt, keys) end) as [q1 k1] eqn:E1.
      apply Forall_app in Q. destruct Q as [Q1 Q2].
      pose proof (Forall_inv F) as F1. apply Forall_inv_tail in F.
      assert (A : at_place data pre (flat_map box_bytes r) (true && match r with [] => true | _ => false end) b).
      { split; [exact HD|]. split; [exact W1|]. intros Z. destruct r; [reflexivity|discriminate]. }
      set (b' := abox [] qt keys (lenN pre) b) in *.
      change (file_bytes (b' :: again_file data q1 k1 (lenN pre + box_size b) r))
        with (box_bytes b' ++ file_bytes (again_file data q1 k1 (lenN pre + box_size b) r)) in L |- *.
      rewrite lenN_app in L.
      destruct (all_again b [] qt keys pre _ _ w b0 [] A H C Q1 F1) as (qt' & keys' & w1 & E & W & H1 & C1).
      { fold b'. cbn [render]. unfold box_size. clear - L. lia. }
      fold b' in H1.
      rewrite W. rewrite E in E1. injection E1 as -> ->. cbn [add] in H1.
      assert (OB : lenN pre + box_size b = lenN (pre ++ box_bytes b)) by (rewrite lenN_app; reflexivity).
      rewrite OB in Q2, F, L |- *.
      destruct (IH (pre ++ box_bytes b) q1 k1 w1 _ ltac:(rewrite HD, <- app_assoc; reflexivity) W2 H1 C1) as (vs & w2 & V & H2 & C2); auto.
      { rewrite lenN_app. clear - L. lia. }
      rewrite V. exists (tt :: vs), w2. split; [reflexivity|]. rewrite <- app_assoc in H2. auto.
  Qed.

  (** ** The tree that is written is well-formed *)
  Lemma wf_weaken : forall b last, box_wf false b -> box_wf last b.
  Proof.
    induction b as [f t own kids slack IH] using box_ind2. intros last H.
    apply box_wf_eq in H. apply box_wf_eq. destruct H as (H1 & H2 & H3 & H4 & H5). cbn [andb] in H5.
    split; [exact H1|]. split; [exact H2|]. split; [exact H3|]. split.
    - intros F. specialize (H4 F). discriminate.
    - destruct (last && match slack with [] => true | _ => false end); [|exact H5].
      clear - IH H5. induction kids as [|k r IHr]; [exact I|].
      pose proof (Forall_inv IH) as I1. apply Forall_inv_tail in IH.
      destruct r as [|k2 r]; [exact (I1 true H5)|]. destruct H5 as [A B]. split; [exact A|]. exact (IHr IH B).
  Qed.
  Lemma list_wf_weaken : forall l last last', list_wf last l -> (last = true -> last' = true) -> list_wf last' l.
  Proof.
    induction l as [|k r IH]; intros last last' H I; [exact Logic.I|].
    destruct r as [|k2 r].
    - cbn [list_wf] in *. destruct last; [rewrite I by reflexivity; exact H|now apply wf_weaken].
    - destruct H as [A B]. split; [exact A|]. exact (IH _ _ B I).
  Qed.
  Lemma again_type : forall anc qt keys o b, box_type (abox anc qt keys o b) = box_type b.
  Proof.
    intros anc qt keys o [f t own kids slack]. rewrite again_box_eq. cbv zeta.
    destruct (match enter data ctx0 anc qt keys o (Box f t own kids slack) with Ok x => x | _ => (qt, keys) end) as [q k].
    destruct (whole _ _); reflexivity.
  Qed.
  Lemma again_kids_nil : forall anc qt keys o l, again_kids anc qt keys o l = [] -> l = [].
  Proof. intros anc qt keys o [|k r]; [reflexivity|discriminate]. Qed.
  Lemma wf_again : forall b anc qt keys o last, box_wf last b -> fits (abox anc qt keys o b) -> box_wf last (abox anc qt keys o b).
  Proof.
    induction b as [f t own kids slack IH] using box_ind2. intros anc qt keys o last W F.
    rewrite again_box_eq in *. cbv zeta in *.
    destruct (match enter data ctx0 anc qt keys o (Box f t own kids slack) with Ok x => x | _ => (qt, keys) end) as [q k].
    destruct (whole t (ctx_of ctx0 q k anc)); [exact W|].
    apply box_wf_eq in W. destruct W as (W1 & W2 & W3 & W4 & W5).
    apply fits_eq in F. destruct F as [F1 F2]. apply box_wf_eq.
    split; [exact W1|]. split; [reflexivity|]. split; [exact F1|]. split; [exact W4|].
    rewrite andb_true_r.
    apply (list_wf_weaken _ _ last) in W5; [|now destruct last].
    clear - IH W5 F2. revert F2. generalize (o + hsize f + lenN own) as o1. generalize k as k1.
    induction kids as [|kd r IHr]; intros k1 o1 F2; [exact I|].
    pose proof (Forall_inv IH) as I1. apply Forall_inv_tail in IH. cbn [again_kids] in F2.
    pose proof (Forall_inv F2) as G1. apply Forall_inv_tail in F2.
    destruct r as [|k2 r].
    - cbn [again_kids list_wf]. apply I1; [exact W5|exact G1].
    - destruct W5 as [A B].
      change (list_wf last (abox (anc ++ [t]) q k1 o1 kd :: again_kids (anc ++ [t]) q
                (match enter data ctx0 (anc ++ [t]) q k1 o1 kd with Ok x => snd x | _ => k1 end) (o1 + box_size kd) (k2 :: r))).
      specialize (IHr IH B _ _ F2).
      destruct (again_kids (anc ++ [t]) q _ (o1 + box_size kd) (k2 :: r)) as [|k3 r3] eqn:EK; [apply again_kids_nil in EK; discriminate EK|].
      split; [apply I1; [exact A|exact G1]|exact IHr].
  Qed.
  Lemma wf_again_file : forall l qt keys o, list_wf true l -> Forall fits (again_file data qt keys o l) ->
    list_wf true (again_file data qt keys o l).
  Proof.
    induction l as [|b r IH]; intros qt keys o W F; [exact I|]. cbn [again_file] in *.
    destruct (match enter data ctx0 [] qt keys o b with Ok x => x | _ => (qt, keys) end) as [q k].
    pose proof (Forall_inv F) as F1. apply Forall_inv_tail in F.
    destruct r as [|b2 r].
    - cbn [again_file list_wf] in *. now apply wf_again.
    - destruct W as [A B]. specialize (IH _ _ _ B F).
      destruct (again_file data q k (o + box_size b) (b2 :: r)) as [|k3 r3] eqn:EK.
      + cbn [again_file] in EK. destruct (match enter data ctx0 [] q k (o + box_size b) b2 with Ok x => x | _ => (q, k) end). discriminate EK.
      + split; [now apply wf_again|exact IH].
  Qed.

  (** ** It has the same contents *)
  Variable data' : list byte.
  Hypothesis data'_61 : lenN data' < 2 ^ 61.

  Fixpoint same_kids (anc : list btype) (qt : bool) (keys : Z) (o o' : N) (l l' : list box) {struct l} : Prop :=
    match l, l' with
    | [], [] => True
    | k :: r, k' :: r' =>
        same_box data data' anc qt keys o o' k k' /\
        same_kids anc qt (match enter data ctx0 anc qt keys o k with Ok x => snd x | _ => keys end)
                  (o + box_size k) (o' + box_size k') r r'
    | _, _ => False
    end.
  Lemma same_box_eq : forall anc qt keys o o' f t own kids slack f' t' own' kids' slack',
    same_box data data' anc qt keys o o' (Box f t own kids slack) (Box f' t' own' kids' slack') <->
    exists qt1 keys1,
      enter data ctx0 anc qt keys o (Box f t own kids slack) = Ok (qt1, keys1) /\
      enter data' ctx0 anc qt keys o' (Box f' t' own' kids' slack') = Ok (qt1, keys1) /\
      let c := ctx_of ctx0 qt1 keys1 anc in
      if whole t c then Box f' t' own' kids' slack' = Box f t own kids slack
      else
        f' = f /\ t' = t /\ slack' = [] /\
        (exists d x, decoded data c o (Box f t own kids slack) = Ok (d, x, lenN own) /\
                     decoded data' c o' (Box f' t' own' kids' slack') = Ok (d, x, lenN own')) /\
        same_kids (anc ++ [t]) qt1 keys1 (o + hsize f + lenN own) (o' + hsize f + lenN own') kids kids'.
  Proof.
    intros. cbn [same_box]. cbv zeta.
    assert (E : forall qt1 keys1 o1 o2 l l',
      (fix same_kids (keys : Z) (o o' : N) (l l' : list box) {struct l} : Prop :=
               match l, l' with
               | [], [] => True
               | k :: r, k' :: r' =>
                   same_box data data' (anc ++ [t]) qt1 keys o o' k k' /\
                   same_kids (match enter data ctx0 (anc ++ [t]) qt1 keys o k with Ok x => snd x | _ => keys end)
                             (o + box_size k) (o' + box_size k') r r'
               | _, _ => False
               end) keys1 o1 o2 l l' = same_kids (anc ++ [t]) qt1 keys1 o1 o2 l l').
    { clear. intros qt1 keys1 o1 o2 l. revert keys1 o1 o2. induction l as [|k r IH]; intros; destruct l'; try reflexivity.
      cbn [same_kids]. rewrite IH. reflexivity. }
    split; intros (q & k & H1 & H2 & H3); exists q, k; (split; [exact H1|]; split; [exact H2|]);
      destruct (whole t (ctx_of ctx0 q k anc)); try exact H3;
      destruct H3 as (G1 & G2 & G3 & G4 & G5); repeat (split; [assumption|]).
    - rewrite <- E. exact G5.
    - rewrite E. exact G5.
  Qed.

  Definition sames (b : box) : Prop := forall anc qt keys pre post last pre' post',
    at_place data pre post last b ->
    Forall (again_ok data) (list_box data ctx0 anc qt keys (lenN pre) b) ->
    data' = pre' ++ box_bytes (abox anc qt keys (lenN pre) b) ++ post' ->
    same_box data data' anc qt keys (lenN pre) (lenN pre') b (abox anc qt keys (lenN pre) b).

  Lemma told_ok : forall anc qt keys o b, Forall (again_ok data) (list_box data ctx0 anc qt keys o b) ->
    exists x, enter data ctx0 anc qt keys o b = Ok x.
  Proof.
    intros anc qt keys o [f t own kids slack] Q. rewrite list_box_eq in Q. cbv zeta in Q.
    destruct (match enter data ctx0 anc qt keys o (Box f t own kids slack) with Ok x => x | _ => (qt, keys) end) as [q1 k1].
    apply Forall_inv in Q. destruct Q as [Q _]. exact Q.
  Qed.

  Lemma kids_same : forall kids slack post anc qt last, Forall sames kids ->
    list_wf last kids -> (last = true -> slack ++ post = []) -> forall pre keys pre' post',
    data = pre ++ flat_map box_bytes kids ++ slack ++ post ->
    Forall (again_ok data) (list_kids data ctx0 anc qt keys (lenN pre) kids) ->
    data' = pre' ++ file_bytes (again_kids anc qt keys (lenN pre) kids) ++ post' ->
    same_kids anc qt keys (lenN pre) (lenN pre') kids (again_kids anc qt keys (lenN pre) kids).
  Proof.
    intros kids slack post anc qt last W. revert last. induction W as [|k r Wk Wr IH]; intros last HW HL pre keys pre' post' HD Q HD'.
    - exact I.
    - cbn [list_kids again_kids flat_map same_kids] in *. apply Forall_app in Q. destruct Q as [Q1 Q2].
      apply list_wf_cons in HW. destruct HW as [W1 W2].
      assert (A : at_place data pre (flat_map box_bytes r ++ slack ++ post) (last && match r with [] => true | _ => false end) k).
      { split; [|split].
        - rewrite HD, <- app_assoc. reflexivity.
        - exact W1.
        - intros Z. apply andb_prop in Z. destruct Z as [Z1 Z2]. destruct r; [|discriminate]. cbn. auto. }
      set (k' := abox anc qt keys (lenN pre) k) in *.
      set (keys2 := match enter data ctx0 anc qt keys (lenN pre) k with Ok x => snd x | _ => keys end) in *.
      change (file_bytes (k' :: again_kids anc qt keys2 (lenN pre + box_size k) r))
        with (box_bytes k' ++ file_bytes (again_kids anc qt keys2 (lenN pre + box_size k) r)) in HD'.
      split.
      + apply (Wk anc qt keys pre _ _ pre' (file_bytes (again_kids anc qt keys2 (lenN pre + box_size k) r) ++ post') A Q1).
        rewrite HD', <- app_assoc. reflexivity.
      + assert (OB : lenN pre + box_size k = lenN (pre ++ box_bytes k)) by (rewrite lenN_app; reflexivity).
        assert (OB' : lenN pre' + box_size k' = lenN (pre' ++ box_bytes k')) by (rewrite lenN_app; reflexivity).
        rewrite OB in Q2, HD' |- *. rewrite OB'.
        apply (IH last W2 HL _ _ _ post'); auto.
        * rewrite HD, <- !app_assoc. reflexivity.
        * rewrite HD', <- !app_assoc. reflexivity.
  Qed.

  Lemma some_box : forall last l, list_wf last l -> l <> [] -> 8 <= lenN (flat_map box_bytes l).
  Proof.
    intros last [|k r] W N; [congruence|]. apply list_wf_cons in W. destruct W as [W _]. apply wf_type in W.
    cbn [flat_map]. rewrite lenN_app. pose proof (box_size_eq k W) as S. pose proof (hsize_8 (box_form k)). unfold box_size in S.
    clear - S H. lia.
  Qed.
  Lemma some_again : forall last anc qt keys o l, list_wf last l -> l <> [] -> 8 <= lenN (file_bytes (again_kids anc qt keys o l)).
  Proof.
    intros last anc qt keys o [|k r] W N; [congruence|]. apply list_wf_cons in W. destruct W as [W _]. apply wf_type in W.
    cbn [again_kids]. rewrite <- (again_type anc qt keys o k) in W.
    unfold file_bytes. cbn [flat_map]. rewrite lenN_app. pose proof (box_size_eq _ W) as S.
    pose proof (hsize_8 (box_form (abox anc qt keys o k))). unfold box_size in S.
    clear - S H. lia.
  Qed.

  Lemma all_same : forall b, sames b.
  Proof.
    induction b as [f t own kids slack IH] using box_ind2.
    intros anc qt keys pre post last pre' post' A Q HD'.
    destruct (told_ok _ _ _ _ _ Q) as [[qt1 keys1] E].
    rewrite again_box_eq, list_box_eq in *. cbv zeta in *. rewrite E in *. cbv iota in *.
    set (b := Box f t own kids slack) in *.
    pose proof (Forall_inv Q) as [_ Q1]. apply Forall_inv_tail in Q.
    unfold b in Q1. cbn [e_box e_info bi_ctx info bi_offset] in Q1. fold b in Q1.
    set (c := ctx_of ctx0 qt1 keys1 anc) in *.
    destruct (whole t c) eqn:WT.
    { apply same_box_eq. exists qt1, keys1. fold b. split; [exact E|]. split.
      - apply (enter_same data data' anc qt keys (lenN pre) (lenN pre') b b qt1 keys1 eq_refl E).
        fold c. change (box_type b) with t. rewrite WT. discriminate.
      - cbv zeta. fold c. rewrite WT. reflexivity. }
    destruct (Q1 eq_refl) as [(d & x & D & RW & CK) SL]. clear Q1.
    pose proof A as (HD & HW & HL). pose proof (wf_type _ _ HW) as Ht. change (box_type b) with t in Ht.
    pose proof HW as HW0. apply box_wf_eq in HW0. destruct HW0 as (_ & _ & WS & _ & WK).
    destruct (own_again _ _ _ _ _ _ _ _ A D RW) as [M R]. change (box_type b) with t in M, R.
    assert (AF : again_fields data c (lenN pre) b = snd (marshal std_registry t c x [])) by (rewrite M; reflexivity).
    set (own' := again_fields data c (lenN pre) b) in *. clearbody own'.
    assert (PRE : lenN pre + hsize f + lenN own = lenN (pre ++ header f t (lenN (payload b)) ++ own)).
    { rewrite !lenN_app, lenN_header by exact Ht. clear. lia. }
    assert (PL : lenN (payload b) = lenN own + lenN (flat_map box_bytes kids) + lenN slack).
    { unfold b. cbn [payload]. rewrite !lenN_app. clear. lia. }
    rewrite PRE in Q, HD' |- *.
    pose proof (some_box _ kids WK) as SB.
    pose proof (some_again _ (anc ++ [t]) qt1 keys1 (lenN (pre ++ header f t (lenN (payload b)) ++ own)) kids WK) as SA.
    pose proof (kids_same kids slack post (anc ++ [t]) qt1 (last && match slack with [] => true | _ => false end) IH WK) as KS.
    set (kids' := again_kids (anc ++ [t]) qt1 keys1 (lenN (pre ++ header f t (lenN (payload b)) ++ own)) kids) in *.
    set (b' := Box f t own' kids' []) in *.
    assert (PL' : lenN (payload b') = lenN own' + lenN (file_bytes kids')).
    { unfold b'. cbn [payload]. rewrite app_nil_r, lenN_app. reflexivity. }
    assert (PB : box_bytes b' = header f t (lenN (payload b')) ++ own' ++ file_bytes kids').
    { rewrite box_bytes_eq. unfold b' at 1 2 4. cbn [box_form box_type payload]. rewrite app_nil_r. reflexivity. }
    (* its fields *)
    assert (DD : decoded data' c (lenN pre') b' = Ok (d, x, lenN own')).
    { unfold decoded. change (box_type b') with t. change (box_form b') with f.
      replace (lenN pre' + hsize f) with (lenN (pre' ++ header f t (lenN (payload b')))) by (rewrite lenN_app, lenN_header by exact Ht; reflexivity).
      assert (DE : data' = (pre' ++ header f t (lenN (payload b'))) ++ own' ++ file_bytes kids' ++ post').
      { rewrite HD', PB, <- !app_assoc. reflexivity. }
      rewrite DE at 1. rewrite R; [reflexivity| | |].
      - rewrite <- !lenN_app in *. rewrite <- app_assoc. rewrite <- DE. exact data'_61.
      - rewrite PL', lenN_app. clear. lia.
      - rewrite PL'. destruct kids as [|k r] eqn:EK.
        + left. unfold kids'. cbn [again_kids file_bytes flat_map]. rewrite lenN_nil. apply N.add_0_r.
        + rewrite <- EK in *. right. assert (NN : kids <> []) by (rewrite EK; discriminate).
          specialize (SA NN). specialize (SB NN).
          split; [clear - SA; lia|]. split; [rewrite PL; clear - SB; lia|].
          destruct CK as [CK|[CK|CK]]; [contradiction|now left|]. right.
          rewrite AF, CK. unfold b. cbn [payload]. symmetry. apply takeN_app_exact. reflexivity. }
    apply same_box_eq. exists qt1, keys1. fold b b'. split; [exact E|]. split.
    - apply (enter_same data data' anc qt keys (lenN pre) (lenN pre') b b' qt1 keys1 eq_refl E).
      intros _. fold c. exists d, x, (lenN own), (lenN own'). split; [exact D|exact DD].
    - cbv zeta. fold c. rewrite WT. split; [reflexivity|]. split; [reflexivity|]. split; [reflexivity|].
      split; [exists d, x; split; [exact D|exact DD]|].
      replace (lenN pre' + hsize f + lenN own') with (lenN (pre' ++ header f t (lenN (payload b')) ++ own'))
        by (rewrite !lenN_app, lenN_header by exact Ht; clear; lia).
      rewrite PRE. apply (KS) with (post' := post'); auto.
      + intros Z. apply andb_prop in Z. destruct Z as [Z1 Z2]. rewrite (HL Z1), app_nil_r. destruct slack; [reflexivity|discriminate].
      + rewrite HD. unfold b. rewrite box_bytes_eq. cbn [box_form box_type payload]. rewrite <- !app_assoc. reflexivity.
      + rewrite HD', PB, <- !app_assoc. reflexivity.
  Qed.

  Lemma file_same : forall l pre qt keys pre',
    data = pre ++ flat_map box_bytes l -> list_wf true l ->
    Forall (again_ok data) (list_file data ctx0 qt keys (lenN pre) l) ->
    data' = pre' ++ file_bytes (again_file data qt keys (lenN pre) l) ->
    same_file data data' qt keys (lenN pre) (lenN pre') l (again_file data qt keys (lenN pre) l).
  Proof.
    induction l as [|b r IH]; intros pre qt keys pre' HD HW Q HD'; [exact I|].
    cbn [list_file again_file same_file flat_map] in *. apply list_wf_cons in HW. destruct HW as [W1 W2].
    destruct (match enter data ctx0 [] qt keys (lenN pre) b with Ok x => x | _ => (qt, keys) end) as [q1 k1] eqn:E1.
    apply Forall_app in Q. destruct Q as [Q1 Q2].
    assert (A : at_place data pre (flat_map box_bytes r) (true && match r with [] => true | _ => false end) b).
    { split; [exact HD|]. split; [exact W1|]. intros Z. destruct r; [reflexivity|discriminate]. }
    set (b' := abox [] qt keys (lenN pre) b) in *.
    change (file_bytes (b' :: again_file data q1 k1 (lenN pre + box_size b) r))
      with (box_bytes b' ++ file_bytes (again_file data q1 k1 (lenN pre + box_size b) r)) in HD'.
    split.
    - exact (all_same b [] qt keys pre _ _ pre' _ A Q1 HD').
    - assert (OB : lenN pre + box_size b = lenN (pre ++ box_bytes b)) by (rewrite lenN_app; reflexivity).
      assert (OB' : lenN pre' + box_size b' = lenN (pre' ++ box_bytes b')) by (rewrite lenN_app; reflexivity).
      rewrite OB in Q2, HD' |- *. rewrite OB'.
      apply IH; auto.
      + rewrite HD, <- app_assoc. reflexivity.
      + rewrite HD', <- app_assoc. reflexivity.
  Qed.

  (** ** Once more *)
  Definition twice (b : box) : Prop := forall anc qt keys pre post last pre' post',
    at_place data pre post last b ->
    Forall (again_ok data) (list_box data ctx0 anc qt keys (lenN pre) b) ->
    Forall closed (list_box data ctx0 anc qt keys (lenN pre) b) ->
    data' = pre' ++ box_bytes (abox anc qt keys (lenN pre) b) ++ post' ->
    again_box data' anc qt keys (lenN pre') (abox anc qt keys (lenN pre) b) = abox anc qt keys (lenN pre) b /\
    enter data' ctx0 anc qt keys (lenN pre') (abox anc qt keys (lenN pre) b) = enter data ctx0 anc qt keys (lenN pre) b /\
    Forall (again_ok data') (list_box data' ctx0 anc qt keys (lenN pre') (abox anc qt keys (lenN pre) b)).
End Again.

Section Twice.
  Variable data : list byte.
  Hypothesis data_45 : lenN data < 2 ^ 45.
  Variable data' : list byte.
  Hypothesis data'_61 : lenN data' < 2 ^ 61.

  Lemma kids_twice : forall kids slack post anc qt last, Forall (twice data data') kids ->
    list_wf last kids -> (last = true -> slack ++ post = []) -> forall pre keys pre' post',
    data = pre ++ flat_map box_bytes kids ++ slack ++ post ->
    Forall (again_ok data) (list_kids data ctx0 anc qt keys (lenN pre) kids) ->
    Forall closed (list_kids data ctx0 anc qt keys (lenN pre) kids) ->
    data' = pre' ++ file_bytes (again_kids data anc qt keys (lenN pre) kids) ++ post' ->
    again_kids data' anc qt keys (lenN pre') (again_kids data anc qt keys (lenN pre) kids) = again_kids data anc qt keys (lenN pre) kids /\
    Forall (again_ok data') (list_kids data' ctx0 anc qt keys (lenN pre') (again_kids data anc qt keys (lenN pre) kids)).
  Proof.
    intros kids slack post anc qt last W. revert last. induction W as [|k r Wk Wr IH]; intros last HW HL pre keys pre' post' HD Q QC HD'.
    - split; [reflexivity|constructor].
    - cbn [list_kids again_kids flat_map] in *. apply Forall_app in Q. destruct Q as [Q1 Q2].
      apply Forall_app in QC. destruct QC as [C1 C2].
      apply list_wf_cons in HW. destruct HW as [W1 W2].
      assert (A : at_place data pre (flat_map box_bytes r ++ slack ++ post) (last && match r with [] => true | _ => false end) k).
      { split; [|split].
        - rewrite HD, <- app_assoc. reflexivity.
        - exact W1.
        - intros Z. apply andb_prop in Z. destruct Z as [Z1 Z2]. destruct r; [|discriminate]. cbn. auto. }
      set (k' := again_box data anc qt keys (lenN pre) k) in *.
      set (keys2 := match enter data ctx0 anc qt keys (lenN pre) k with Ok x => snd x | _ => keys end) in *.
      change (file_bytes (k' :: again_kids data anc qt keys2 (lenN pre + box_size k) r))
        with (box_bytes k' ++ file_bytes (again_kids data anc qt keys2 (lenN pre + box_size k) r)) in HD'.
      destruct (Wk anc qt keys pre _ _ pre' (file_bytes (again_kids data anc qt keys2 (lenN pre + box_size k) r) ++ post') A Q1 C1) as (T1 & T2 & T3).
      { rewrite HD', <- app_assoc. reflexivity. }
      fold k' in T1, T2, T3. rewrite T1, T2. fold keys2.
      assert (OB : lenN pre + box_size k = lenN (pre ++ box_bytes k)) by (rewrite lenN_app; reflexivity).
      assert (OB' : lenN pre' + box_size k' = lenN (pre' ++ box_bytes k')) by (rewrite lenN_app; reflexivity).
      rewrite OB in Q2, C2, HD' |- *. rewrite OB'.
      destruct (IH last W2 HL (pre ++ box_bytes k) keys2 (pre' ++ box_bytes k') post') as [I1 I2]; auto.
      { rewrite HD, <- !app_assoc. reflexivity. }
      { rewrite HD', <- !app_assoc. reflexivity. }
      rewrite I1. split; [reflexivity|]. apply Forall_app. split; [exact T3|exact I2].
  Qed.

  Lemma all_twice : forall b, twice data data' b.
  Proof.
    induction b as [f t own kids slack IH] using box_ind2.
    intros anc qt keys pre post last pre' post' A Q QC HD'.
    pose proof (all_same data data_45 data' data'_61 _ anc qt keys pre post last pre' post' A Q HD') as S.
    destruct (told_ok data _ _ _ _ _ Q) as [[qt1 keys1] E].
    rewrite (again_box_eq data) in *. rewrite list_box_eq in Q, QC. cbv zeta in *. rewrite E in *. cbv iota in *.
    set (b := Box f t own kids slack) in *.
    pose proof (Forall_inv Q) as [_ Q1]. apply Forall_inv_tail in Q.
    pose proof (Forall_inv QC) as C1. apply Forall_inv_tail in QC. unfold closed, b in C1.
    unfold b in Q1. cbn [e_box e_info bi_ctx info bi_offset] in Q1, C1. fold b in Q1.
    set (c := ctx_of ctx0 qt1 keys1 anc) in *.
    destruct (whole t c) eqn:WT.
    { unfold b in S. apply same_box_eq in S. fold b in S. destruct S as (q & k & S1 & S2 & _). rewrite E in S1. injection S1 as <- <-.
      unfold b in *. rewrite again_box_eq. cbv zeta. rewrite S2. fold c. rewrite WT.
      split; [reflexivity|]. split; [reflexivity|]. rewrite list_box_eq. cbv zeta. rewrite S2. fold c. rewrite (C1 eq_refl). cbn [list_kids].
      constructor; [|constructor]. split; [cbn [e_told]; eauto|]. cbn [e_box e_info bi_ctx info]. rewrite WT. discriminate. }
    destruct (Q1 eq_refl) as [(d & x & D & RW & CK) SL]. clear Q1 C1.
    pose proof A as (HD & HW & HL). pose proof (wf_type _ _ HW) as Ht. change (box_type b) with t in Ht.
    pose proof HW as HW0. apply box_wf_eq in HW0. destruct HW0 as (_ & _ & WS & _ & WK).
    destruct (own_again data data_45 _ _ _ _ _ _ _ _ A D RW) as [M _]. change (box_type b) with t in M.
    set (own' := again_fields data c (lenN pre) b) in *. clearbody own'.
    assert (PRE : lenN pre + hsize f + lenN own = lenN (pre ++ header f t (lenN (payload b)) ++ own)).
    { rewrite !lenN_app, lenN_header by exact Ht. clear. lia. }
    rewrite PRE in Q, QC, HD', S |- *.
    pose proof (kids_twice kids slack post (anc ++ [t]) qt1 (last && match slack with [] => true | _ => false end) IH WK) as KT.
    set (kids' := again_kids data (anc ++ [t]) qt1 keys1 (lenN (pre ++ header f t (lenN (payload b)) ++ own)) kids) in *.
    unfold b in S. apply same_box_eq in S. fold b in S. destruct S as (q & k & S1 & S2 & S3). rewrite E in S1. injection S1 as <- <-.
    cbv zeta in S3. fold c in S3. rewrite WT in S3. destruct S3 as (_ & _ & _ & (d2 & x2 & D2 & D3) & _).
    rewrite D in D2. injection D2 as <- <-.
    set (b' := Box f t own' kids' []) in *.
    assert (PB : box_bytes b' = header f t (lenN (payload b')) ++ own' ++ file_bytes kids').
    { rewrite box_bytes_eq. unfold b' at 1 2 4. cbn [box_form box_type payload]. rewrite app_nil_r. reflexivity. }
    destruct (KT) with (pre := pre ++ header f t (lenN (payload b)) ++ own) (keys := keys1)
      (pre' := pre' ++ header f t (lenN (payload b')) ++ own') (post' := post') as [K1 K2]; auto.
    { intros Z. apply andb_prop in Z. destruct Z as [Z1 Z2]. rewrite (HL Z1), app_nil_r. destruct slack; [reflexivity|discriminate]. }
    { rewrite HD. unfold b. rewrite box_bytes_eq. cbn [box_form box_type payload]. rewrite <- !app_assoc. reflexivity. }
    { rewrite HD', PB, <- !app_assoc. reflexivity. }
    fold kids' in K1, K2.
    assert (PRE' : lenN pre' + hsize f + lenN own' = lenN (pre' ++ header f t (lenN (payload b')) ++ own')).
    { rewrite !lenN_app, lenN_header by exact Ht. clear. lia. }
    rewrite <- PRE' in K1, K2.
    assert (AF : again_fields data' c (lenN pre') b' = own').
    { unfold again_fields. rewrite D3. change (box_type b') with t. rewrite M. reflexivity. }
    split; [|split].
    - unfold b' at 1. rewrite again_box_eq. cbv zeta. fold b'. rewrite S2. fold c. rewrite WT, AF, K1. reflexivity.
    - exact S2.
    - unfold b' at 1. rewrite list_box_eq. cbv zeta. fold b'. rewrite S2. fold c. constructor; [|exact K2].
      split; [cbn [e_told]; eauto|]. unfold b' at 1. cbn [e_box e_info bi_ctx info bi_offset]. fold b'. intros _.
      split; [|now left]. exists d, x. split; [exact D3|]. split; [exact RW|]. right. right. rewrite M. reflexivity.
  Qed.

  Lemma file_twice : forall l pre qt keys pre',
    data = pre ++ flat_map box_bytes l -> list_wf true l ->
    Forall (again_ok data) (list_file data ctx0 qt keys (lenN pre) l) ->
    Forall closed (list_file data ctx0 qt keys (lenN pre) l) ->
    data' = pre' ++ file_bytes (again_file data qt keys (lenN pre) l) ->
    again_file data' qt keys (lenN pre') (again_file data qt keys (lenN pre) l) = again_file data qt keys (lenN pre) l /\
    Forall (again_ok data') (list_file data' ctx0 qt keys (lenN pre') (again_file data qt keys (lenN pre) l)).
  Proof.
    induction l as [|b r IH]; intros pre qt keys pre' HD HW Q QC HD'; [split; [reflexivity|constructor]|].
    cbn [list_file again_file flat_map] in *. apply list_wf_cons in HW. destruct HW as [W1 W2].
    destruct (match enter data ctx0 [] qt keys (lenN pre) b with Ok x => x | _ => (qt, keys) end) as [q1 k1] eqn:E1.
    apply Forall_app in Q. destruct Q as [Q1 Q2]. apply Forall_app in QC. destruct QC as [C1 C2].
    assert (A : at_place data pre (flat_map box_bytes r) (true && match r with [] => true | _ => false end) b).
    { split; [exact HD|]. split; [exact W1|]. intros Z. destruct r; [reflexivity|discriminate]. }
    set (b' := again_box data [] qt keys (lenN pre) b) in *.
    change (file_bytes (b' :: again_file data q1 k1 (lenN pre + box_size b) r))
      with (box_bytes b' ++ file_bytes (again_file data q1 k1 (lenN pre + box_size b) r)) in HD'.
    destruct (all_twice b [] qt keys pre _ _ pre' _ A Q1 C1 HD') as (T1 & T2 & T3). fold b' in T1, T2, T3.
    assert (OB : lenN pre + box_size b = lenN (pre ++ box_bytes b)) by (rewrite lenN_app; reflexivity).
    assert (OB' : lenN pre' + box_size b' = lenN (pre' ++ box_bytes b')) by (rewrite lenN_app; reflexivity).
    rewrite OB in Q2, C2, HD' |- *.
    destruct (IH (pre ++ box_bytes b) q1 k1 (pre' ++ box_bytes b')) as [I1 I2]; auto.
    { rewrite HD, <- app_assoc. reflexivity. }
    { rewrite HD', <- app_assoc. reflexivity. }
    cbn [again_file list_file]. rewrite T1, T2, E1, OB', I1. split; [reflexivity|].
    apply Forall_app. split; [exact T3|exact I2].
  Qed.
End Twice.
