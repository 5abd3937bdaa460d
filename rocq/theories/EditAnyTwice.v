(** edit with the same options once more. *)
From Verif Require Import Base BaseProofs BitIO BitIOProofs Schema Structs Methods Registry Marshal Unmarshal Decode DecodeFacts BoxInfo ReadTree Text.
From Verif Require Import SpecCodec UnmarshalProofs VersionFacts SpecTotal PropUnmarshal SpecLossless SpecReencode PropLossless.
From Verif Require Import SpecTree SpecExtract TreeProofs PropTree PropExtract PropExtractPayload
     Edit SpecEdit EditProofs EditTime PropEdit SpecEditAgain EditAgain SpecEditAny EditAny.
Local Open Scope string_scope.
Local Open Scope list_scope.
Local Open Scope N_scope.

(** ** The decoding of a tfdt box *)
Lemma take_app : forall n p b r, lenN b = n -> d_take n (p, b ++ r) = Ok (b, (p + n, r)).
Proof.
  intros n p b r H. unfold d_take. cbn [fst snd]. rewrite takeN_app_exact, skipN_app_exact by (symmetry; exact H).
  rewrite lenN_app. replace (n <=? lenN b + lenN r) with true by (symmetry; apply N.leb_le; lia). reflexivity.
Qed.
Lemma uint_app : forall fuel w n p b r, lenN b = n -> n <> 0 -> exists k, k = w64 (bits_to_N b) mod 2 ^ w /\ d_uint fuel w false n (p, b ++ r) = Ok (VUint k, (p + n, r)).
Proof.
  intros fuel w n p b r H Z. eexists. split; [reflexivity|]. unfold d_uint, dbind. destruct (n =? 0) eqn:E; [apply N.eqb_eq in E; contradiction|].
  rewrite take_app by exact H. reflexivity.
Qed.
Section Step.
  Variables (fuel : nat) (rname : string) (versions : list N) (ctx : context).
  Local Notation dflds := (dec_flds fuel rname versions ctx).
  Local Notation dval := (dec_val fuel rname versions ctx).
  Lemma dec_step : forall rt lim base sname (cfo : bool) self f t rest st size len cur x st1,
    let root := box_of rt self in
    let env := if cfo then mkenv self (get_version root) (get_flags root) ctx else mkenv root (get_version root) (get_flags root) ctx in
    let cn := if cfo then sname else rname in
    resolve_size cn env f = Some size -> resolve_len cn env f = Some len ->
    is_target (get_version root) (get_flags root) cn env f = true ->
    hook_of cn (f_name f) = HNone -> lookup (f_name f) self = Some cur ->
    dval root lim base f size len t cur st = Ok (x, st1) ->
    is_fullbox t && negb (version_in versions (get_version (box_of rt (update (f_name f) x self)))) = false ->
    dflds rt lim base sname cfo self (FCons f t rest) st = dflds rt lim base sname cfo (update (f_name f) x self) rest st1.
  Proof.
    intros rt lim base sname cfo self f t rest st size len cur x st1 root env cn H1 H2 H3 H4 H5 H6 H7. rewrite dec_flds_cons'. cbv zeta.
    fold root. fold env. fold cn. rewrite H1, H2, H3. unfold dbind, dpos. rewrite H4. cbn [d_hook]. unfold dret. cbv beta iota. rewrite H5. cbv beta iota.
    fold root. rewrite H6. cbv beta iota zeta. rewrite H7. reflexivity.
  Qed.
  Lemma dec_skip : forall rt lim base sname (cfo : bool) self f t rest st size len,
    let root := box_of rt self in
    let env := if cfo then mkenv self (get_version root) (get_flags root) ctx else mkenv root (get_version root) (get_flags root) ctx in
    let cn := if cfo then sname else rname in
    resolve_size cn env f = Some size -> resolve_len cn env f = Some len ->
    is_target (get_version root) (get_flags root) cn env f = false ->
    dflds rt lim base sname cfo self (FCons f t rest) st = dflds rt lim base sname cfo self rest st.
  Proof.
    intros rt lim base sname cfo self f t rest st size len root env cn H1 H2 H3. rewrite dec_flds_cons'. cbv zeta.
    fold root. fold env. fold cn. rewrite H1, H2, H3. reflexivity.
  Qed.
End Step.
Lemma d_map3 : forall f x y z p a b c r p1 p2 p3 k1 k2 k3,
  f x (p, a ++ b ++ c ++ r) = Ok (k1, (p1, b ++ c ++ r)) -> f y (p1, b ++ c ++ r) = Ok (k2, (p2, c ++ r)) -> f z (p2, c ++ r) = Ok (k3, (p3, r)) ->
  d_map f [x; y; z] (p, a ++ b ++ c ++ r) = Ok ([k1; k2; k3], (p3, r)).
Proof. intros. cbn [d_map]. unfold dbind. rewrite H, H0, H1. reflexivity. Qed.


Lemma tfdt_dec : forall fuel ctx size v a b c t r, lenN v = 8 -> lenN a = 8 -> lenN b = 8 -> lenN c = 8 ->
  (bits_to_N v = 0 /\ lenN t = 32 \/ bits_to_N v = 1 /\ lenN t = 64) ->
  4 + lenN t / 8 <= size -> size < 2 ^ 61 ->
  exists x, decode fuel tfdt_def size ctx (zero_flds (bd_flds tfdt_def)) (v ++ a ++ b ++ c ++ t ++ r) = Ok (x, 4 + lenN t / 8) /\
    rewritable tfdt_def x = true.
Proof.
  intros fuel ctx size v a b c t r Hv Ha Hb Hc Ht S1 S2.
  assert (W : w64 (size * 8) = size * 8).
  { unfold w64, W64. apply N.mod_small. change (2 ^ 61) with 2305843009213693952 in S2. lia. }
  assert (S3 : 32 + lenN t <= size * 8).
  { clear - S1 Ht. assert (T : lenN t = 32 \/ lenN t = 64) by tauto. destruct T as [T|T]; rewrite T in *; [change (4 + 32 / 8) with 8 in S1|change (4 + 64 / 8) with 12 in S1]; lia. }
  unfold decode. rewrite W. clear W S1 S2. generalize dependent (size * 8). intros lim S3.
  assert (Z : d_before (bd_name tfdt_def) (set_version anyVersion (zero_flds (bd_flds tfdt_def))) =
    fun st => Ok ((false, [("FullBox", VStruct [("Version", VUint 255); ("Flags", VList [VUint 0; VUint 0; VUint 0])]);
                           ("BaseMediaDecodeTimeV0", VUint 0); ("BaseMediaDecodeTimeV1", VUint 0)]), st)) by (vm_compute; reflexivity).
  rewrite Z. clear Z.
  let d := eval vm_compute in tfdt_def in change tfdt_def with d. cbn [bd_name bd_flds bd_versions].
  destruct (uint_app fuel 8 8 0 v (a ++ b ++ c ++ t ++ r) Hv ltac:(discriminate)) as (k0 & K0 & E0).
  destruct (uint_app fuel 8 8 8 a (b ++ c ++ t ++ r) Ha ltac:(discriminate)) as (k1 & _ & E1).
  destruct (uint_app fuel 8 8 16 b (c ++ t ++ r) Hb ltac:(discriminate)) as (k2 & _ & E2).
  destruct (uint_app fuel 8 8 24 c (t ++ r) Hc ltac:(discriminate)) as (k3 & _ & E3).
  change (0 + 8) with 8 in E0. change (8 + 8) with 16 in E1. change (16 + 8) with 24 in E2. change (24 + 8) with 32 in E3.
  erewrite dec_step with (size := 0) (len := 4294967295) (st1 := (32, t ++ r)) (x := VStruct [("Version", VUint k0); ("Flags", VList [VUint k1; VUint k2; VUint k3])]); try reflexivity.
  2:{ rewrite dec_val_struct. change (negb (0 =? 0) && (0 mod 8 =? 0)) with false. cbv iota. unfold dbind at 1.
      erewrite dec_step with (size := 8) (len := 4294967295) (st1 := (8, a ++ b ++ c ++ t ++ r)) (x := VUint k0); try reflexivity; [|exact E0].
      erewrite dec_step with (size := 8) (len := 4294967295) (st1 := (32, t ++ r)) (x := VList [VUint k1; VUint k2; VUint k3]); try reflexivity.
      cbn [dec_val f_varint]. unfold dbind at 1. erewrite d_map3; [reflexivity|exact E1|exact E2|exact E3]. }
  2:{ destruct Ht as [[Ht _]|[Ht _]]; rewrite Ht in K0; vm_compute in K0; subst k0; reflexivity. }
  destruct Ht as [[Hn Ht]|[Hn Ht]]; rewrite Hn in K0; vm_compute in K0; subst k0.
  - destruct (uint_app fuel 32 32 32 t r Ht ltac:(discriminate)) as (k4 & _ & E4).
    erewrite dec_step with (size := 32) (len := 4294967295) (st1 := (64, r)) (x := VUint k4); try reflexivity; [|exact E4].
    erewrite dec_skip with (size := 64) (len := 4294967295); try reflexivity. cbn [dec_flds]. unfold dret. eexists.
    rewrite Ht in *. change (64 mod 8 =? 0) with true. cbn [negb]. replace (lim <? 64) with false by (symmetry; apply N.ltb_ge; exact S3). split; reflexivity.
  - destruct (uint_app fuel 64 64 32 t r Ht ltac:(discriminate)) as (k4 & _ & E4).
    erewrite dec_skip with (size := 32) (len := 4294967295); try reflexivity.
    erewrite dec_step with (size := 64) (len := 4294967295) (st1 := (96, r)) (x := VUint k4); try reflexivity; [|exact E4].
    cbn [dec_flds]. unfold dret. eexists.
    rewrite Ht in *. change (96 mod 8 =? 0) with true. cbn [negb]. replace (lim <? 96) with false by (symmetry; apply N.ltb_ge; exact S3). split; reflexivity.
Qed.

Lemma bits_split : forall v a b c t r, bits_of_bytes ((v :: a :: b :: c :: t) ++ r) =
  bits_of_byte v ++ bits_of_byte a ++ bits_of_byte b ++ bits_of_byte c ++ bits_of_bytes t ++ bits_of_bytes r.
Proof. intros. cbn [app]. rewrite !bits_of_bytes_cons, bits_of_bytes_app. reflexivity. Qed.
Lemma lenN_byte : forall v, lenN (bits_of_byte v) = 8.
Proof. intros v. unfold lenN. now rewrite bits_of_byte_length. Qed.

(** the two layouts of the fields *)
Definition tfdt_bytes (own : list byte) : Prop := exists v a b c t, own = v :: a :: b :: c :: t /\
  (b2N v = 0 /\ lenN t = 4 \/ b2N v = 1 /\ lenN t = 8).
Lemma tfdt_unmarshal : forall data pos ctx size own post, skipN pos data = own ++ post -> tfdt_bytes own ->
  pos <= lenN data -> lenN data < 2 ^ 62 -> lenN own <= size -> size < 2 ^ 61 ->
  exists x pos', unmarshal_any std_registry data (bt "tfdt") size ctx pos = (Ok (tfdt_def, x, lenN own), pos') /\
    rewritable tfdt_def x = true /\ marshal std_registry (bt "tfdt") ctx x [] = (Ok (lenN own), own).
Proof.
  intros data pos ctx size own post E (v & a & b & c & t & EO & K) Hp Hd S1 S2.
  assert (LO : lenN own = 4 + lenN t) by (rewrite EO, !lenN_cons; lia).
  assert (LB : lenN (bits_of_bytes t) = 8 * lenN t) by apply lenN_bits_of_bytes.
  assert (L8 : lenN (bits_of_bytes t) / 8 = lenN t) by (rewrite LB, N.mul_comm; apply N.div_mul; discriminate).
  destruct (tfdt_dec (dfuel data) ctx size (bits_of_byte v) (bits_of_byte a) (bits_of_byte b) (bits_of_byte c) (bits_of_bytes t) (bits_of_bytes post)
    (lenN_byte v) (lenN_byte a) (lenN_byte b) (lenN_byte c)) as (x & D & RW).
  { rewrite bits_to_N_byte, LB. clear - K. destruct K as [[K1 K2]|[K1 K2]]; rewrite K2; [left|right]; now split. }
  { rewrite L8, <- LO. exact S1. }
  { exact S2. }
  rewrite L8, <- LO, <- bits_split, <- EO, <- E in D.
  pose proof (unmarshal_any_decode (bt "tfdt") ctx tfdt_def data size pos (tfdt_found ctx) Hp Hd) as U. cbv zeta in U. rewrite D in U.
  destruct (unmarshal_any std_registry data (bt "tfdt") size ctx pos) as [[[[d' x'] n]|e| |] pos'] eqn:UM; [|destruct U; discriminate|discriminate..].
  destruct U as (-> & U & _). injection U as <- <-. exists x, pos'. split; [reflexivity|]. split; [exact RW|].
  pose proof (C12_lossless _ _ _ _ _ _ _ _ _ Hp Hd tfdt_plain UM) as M. rewrite M, E, takeN_app_exact; reflexivity.
Qed.
(** what can have been read *)
Lemma tfdt_read : forall data size ctx pos d x n pos', pos <= lenN data -> lenN data < 2 ^ 62 ->
  unmarshal_any std_registry data (bt "tfdt") size ctx pos = (Ok (d, x, n), pos') -> tfdt_bytes (takeN n (skipN pos data)).
Proof.
  intros data size ctx pos d x n pos' Hp Hd H.
  pose proof (unmarshal_any_def _ _ _ _ _ _ _ _ _ H) as G. rewrite tfdt_found in G. apply some_inj in G. subst d.
  destruct (payload_rewritten data Hd (options (Some 0) None) eq_refl _ _ _ _ _ _ _ _ Hp tfdt_plain H) as [_ L].
  assert (F : full_box tfdt_def = true) by (vm_compute; reflexivity).
  assert (NM : bd_name tfdt_def <> "Meta") by (vm_compute; discriminate).
  destruct (C11_never_succeeds_unsupported _ _ _ _ _ _ _ _ _ Hp Hd H F NM) as [V (ver & Hv & Ev)].
  assert (B : bd_versions tfdt_def = [0; 1]) by (vm_compute; reflexivity). rewrite B in V. clear B F NM H.
  set (own := takeN n (skipN pos data)) in *.
  cbn [cf_time options] in L. change (0 =? UNoValue) with false in L. unfold new_time in L.
  change (bt_eqb (bt "tfdt") (bt "tfdt")) with true in L. cbv iota in L.
  rewrite lenN_app, lenN_takeN in L.
  assert (L4 : lenN own = 8 /\ be_to_N (takeN 1 own) = 0 \/ lenN own = 12 /\ be_to_N (takeN 1 own) <> 0).
  { destruct (be_to_N (takeN 1 own) =? 0) eqn:E; rewrite lenN_N_to_be in L; [apply N.eqb_eq in E|apply N.eqb_neq in E]; clear - L E; lia. }
  assert (W : exists v a b c t, own = v :: a :: b :: c :: t).
  { assert (Z : 4 <= lenN own) by (clear - L4; lia). clearbody own. clear - Z.
    destruct own as [|v [|a [|b [|c t]]]]; try (exfalso; revert Z; rewrite ?lenN_cons, ?lenN_nil; clear; lia). eauto 6. }
  destruct W as (v & a & b & c & t & W). exists v, a, b, c, t. split; [exact W|].
  assert (EV : ver = v).
  { rewrite nthN_skipN in Hv. destruct (skipN pos data) as [|y r] eqn:S; [discriminate Hv|]. injection Hv as ->.
    assert (N1 : n <> 0). { intros Z. apply (f_equal (@lenN byte)) in W. unfold own in W. rewrite Z, lenN_takeN, !lenN_cons, N.min_0_l in W. clear - W. lia. }
    assert (T : takeN 1 own = [v]) by (rewrite W; reflexivity). unfold own in T.
    rewrite takeN_takeN in T. replace (N.min 1 n) with 1 in T by (clear - N1; lia).
    assert (T' : takeN 1 (ver :: r) = [ver]) by (destruct r; reflexivity). rewrite T' in T. now injection T. }
  rewrite Ev, EV in V.
  assert (BE : be_to_N (takeN 1 own) = b2N v). { rewrite W. clear. change (takeN 1 (v :: a :: b :: c :: t)) with [v]. unfold be_to_N. cbn. reflexivity. }
  rewrite BE in L4. rewrite W, !lenN_cons in L4.
  destruct V as [V|[V|[V|[]]]].
  - discriminate V.
  - left. clear - V L4. lia.
  - right. clear - V L4. lia.
Qed.
Lemma take4 : forall (a b c d : byte) t, takeN 4 (a :: b :: c :: d :: t) = [a; b; c; d].
Proof. intros a b c d [|e t]; reflexivity. Qed.
Lemma tfdt_new : forall time own, tfdt_bytes own -> tfdt_bytes (new_time time (bt "tfdt") own) /\
  new_time time (bt "tfdt") (new_time time (bt "tfdt") own) = new_time time (bt "tfdt") own.
Proof.
  intros [v|] own H; [|now split]. destruct H as (ver & a & b & c & t & -> & K). unfold new_time.
  change (bt_eqb (bt "tfdt") (bt "tfdt")) with true. cbv iota.
  rewrite take4. change (takeN 1 (ver :: a :: b :: c :: t)) with [ver].
  set (new := if be_to_N [ver] =? 0 then N_to_be 4 (v mod 2 ^ 32) else N_to_be 8 v).
  cbn [app]. rewrite take4. change (takeN 1 (ver :: a :: b :: c :: new)) with [ver].
  split; [|reflexivity]. exists ver, a, b, c, new. split; [reflexivity|].
  assert (BE : be_to_N [ver] = b2N ver) by (unfold be_to_N; cbn; reflexivity).
  unfold new. rewrite BE. destruct K as [[K _]|[K _]]; rewrite K; [left|right]; (split; [reflexivity|]); apply lenN_N_to_be.
Qed.

Section Twice.
  Variable data : list byte.
  Hypothesis data_45 : lenN data < 2 ^ 45.
  Variable dropped : btype -> bool.
  Hypothesis keeps_ftyp : dropped (bt "ftyp") = false.
  Hypothesis keeps_keys : dropped (bt "keys") = false.
  Variable cfg : config.
  Variable time : option N.
  Hypothesis time_fits : cf_time cfg < 2 ^ 64.
  Hypothesis time_ok : (if cf_time cfg =? UNoValue then None else Some (cf_time cfg)) = time.
  Variable data' : list byte.
  Hypothesis data'_61 : lenN data' < 2 ^ 61.
  Local Notation ybox := (any_box data dropped time).
  Local Notation ykids := (any_kids data dropped time).

  (** what is written for [b] is written again as it is, tells the same about the file,
      and meets the hypotheses *)
  Definition settled (anc : list btype) (qt : bool) (keys : Z) (o' : N) (told : res (bool * Z)) (l' : list box) : Prop :=
    (l' = [] /\ told = Ok (qt, keys)) \/
    exists b', l' = [b'] /\ any_box data' dropped time anc qt keys o' b' = [b'] /\
      enter data' ctx0 anc qt keys o' b' = told /\
      Forall (any_ok data' dropped) (list_box data' ctx0 anc qt keys o' b').
  Definition twice_any (b : box) : Prop := forall anc qt keys pre post last pre' post',
    at_place data pre post last b ->
    Forall (any_ok data dropped) (list_box data ctx0 anc qt keys (lenN pre) b) ->
    Forall closed (list_box data ctx0 anc qt keys (lenN pre) b) ->
    data' = pre' ++ file_bytes (ybox anc qt keys (lenN pre) b) ++ post' ->
    settled anc qt keys (lenN pre') (enter data ctx0 anc qt keys (lenN pre) b) (ybox anc qt keys (lenN pre) b).

  Lemma file_bytes_one : forall b, file_bytes [b] = box_bytes b.
  Proof. intros b. unfold file_bytes. cbn [flat_map]. apply app_nil_r. Qed.

  Lemma kids_twice_any : forall kids slack post anc qt last, Forall twice_any kids ->
    list_wf last kids -> (last = true -> slack ++ post = []) -> forall pre keys pre' post',
    data = pre ++ flat_map box_bytes kids ++ slack ++ post ->
    Forall (any_ok data dropped) (list_kids data ctx0 anc qt keys (lenN pre) kids) ->
    Forall closed (list_kids data ctx0 anc qt keys (lenN pre) kids) ->
    data' = pre' ++ file_bytes (ykids anc qt keys (lenN pre) kids) ++ post' ->
    any_kids data' dropped time anc qt keys (lenN pre') (ykids anc qt keys (lenN pre) kids) = ykids anc qt keys (lenN pre) kids /\
    Forall (any_ok data' dropped) (list_kids data' ctx0 anc qt keys (lenN pre') (ykids anc qt keys (lenN pre) kids)).
  Proof.
    intros kids slack post anc qt last W. revert last. induction W as [|k r Wk Wr IH]; intros last HW HL pre keys pre' post' HD Q QC HD'.
    - split; [reflexivity|constructor].
    - cbn [list_kids any_kids flat_map] in *. apply Forall_app in Q. destruct Q as [Q1 Q2].
      apply Forall_app in QC. destruct QC as [C1 C2].
      apply list_wf_cons in HW. destruct HW as [W1 W2].
      assert (A : at_place data pre (flat_map box_bytes r ++ slack ++ post) (last && match r with [] => true | _ => false end) k).
      { split; [|split].
        - rewrite HD, <- app_assoc. reflexivity.
        - exact W1.
        - intros Z. apply andb_prop in Z. destruct Z as [Z1 Z2]. destruct r; [|discriminate]. cbn. auto. }
      rewrite file_bytes_app, <- app_assoc in HD'.
      specialize (Wk anc qt keys pre _ _ pre' _ A Q1 C1 HD').
      set (keys2 := match enter data ctx0 anc qt keys (lenN pre) k with Ok x => snd x | _ => keys end) in *.
      assert (OB : lenN pre + box_size k = lenN (pre ++ box_bytes k)) by (rewrite lenN_app; reflexivity).
      rewrite OB in Q2, C2, HD' |- *.
      specialize (IH last W2 HL (pre ++ box_bytes k) keys2).
      destruct Wk as [[Z E]|(k' & Z & T1 & T2 & T3)]; rewrite Z in *.
      + cbn [file_bytes flat_map app] in HD' |- *. unfold keys2 in *. rewrite E in *. cbn [snd] in *.
        apply (IH pre' post'); auto. rewrite HD, <- !app_assoc. reflexivity.
      + rewrite file_bytes_one in HD'. cbn [app any_kids list_kids]. rewrite T1, T2. fold keys2.
        assert (OB' : lenN pre' + box_size k' = lenN (pre' ++ box_bytes k')) by (rewrite lenN_app; reflexivity).
        rewrite OB'.
        destruct (IH (pre' ++ box_bytes k') post') as [I1 I2]; auto.
        { rewrite HD, <- !app_assoc. reflexivity. }
        { rewrite HD', <- !app_assoc. reflexivity. }
        rewrite I1. split; [reflexivity|]. apply Forall_app. split; [exact T3|exact I2].
  Qed.

  Lemma all_twice_any : forall b, twice_any b.
  Proof.
    induction b as [f t own kids slack IH] using box_ind2.
    intros anc qt keys pre post last pre' post' A Q QC HD'.
    pose proof (all_kept data data_45 dropped keeps_ftyp keeps_keys cfg time time_fits time_ok data' data'_61 _ anc qt keys pre post last pre' post' A Q HD') as S.
    apply kept_box_eq in S.
    destruct (told_any data dropped _ _ _ _ _ Q) as [[qt1 keys1] E].
    rewrite any_box_eq in *. rewrite list_box_eq in Q, QC. cbv zeta in *. rewrite E in *. cbv iota in *.
    set (b := Box f t own kids slack) in *.
    pose proof (Forall_inv Q) as [_ Q1]. apply Forall_inv_tail in Q.
    pose proof (Forall_inv QC) as C1. apply Forall_inv_tail in QC. unfold closed, b in C1.
    unfold b in Q1. cbn [e_box e_info bi_ctx info bi_offset] in Q1, C1. fold b in Q1.
    set (c := ctx_of ctx0 qt1 keys1 anc) in *.
    destruct (dropped t) eqn:DT.
    { left. destruct S as [_ S]. split; [reflexivity|exact S]. }
    right. destruct S as (b' & EB & q & k & S1 & S2 & S3). injection S1 as <- <-. cbv zeta in S3. fold c in S3.
    destruct (whole t c) eqn:WT.
    { injection EB as <-. exists b. split; [reflexivity|]. unfold b in *. rewrite any_box_eq. cbv zeta. rewrite S2. fold c. rewrite DT, WT.
      split; [reflexivity|]. split; [reflexivity|]. rewrite list_box_eq. cbv zeta. rewrite S2. fold c. rewrite (C1 eq_refl). cbn [list_kids].
      constructor; [|constructor]. split; [cbn [e_told]; eauto|]. cbn [e_box e_info bi_ctx info]. rewrite WT. discriminate. }
    destruct (Q1 eq_refl eq_refl) as [(d & x & D & RW & CK) SL]. clear Q1 C1.
    pose proof A as (HD & HW & HL). pose proof (wf_type _ _ HW) as Ht. change (box_type b) with t in Ht.
    pose proof HW as HW0. apply box_wf_eq in HW0. destruct HW0 as (_ & _ & WS & _ & WK).
    destruct (own_again data data_45 _ _ _ _ _ _ _ _ A D RW) as [M _]. change (box_type b) with t in M.
    destruct (own_any data data_45 cfg time time_fits time_ok _ _ _ _ _ _ _ _ _ _ _ A D RW) as [_ OW]. fold b in OW.
    assert (PRE : lenN pre + hsize f + lenN own = lenN (pre ++ header f t (lenN (payload b)) ++ own)).
    { rewrite !lenN_app, lenN_header by exact Ht. clear. lia. }
    rewrite PRE in Q, QC, HD', EB |- *.
    pose proof (kids_twice_any kids slack post (anc ++ [t]) qt1 (last && match slack with [] => true | _ => false end) IH WK) as KT.
    set (kids' := ykids (anc ++ [t]) qt1 keys1 (lenN (pre ++ header f t (lenN (payload b)) ++ own)) kids) in *.
    set (own' := any_fields data time c (lenN pre) b) in *.
    injection EB as EB. destruct S3 as (own2 & kids2 & S3 & (d2 & x2 & D2 & D3) & _).
    rewrite <- EB in S3. injection S3 as <- <-. rewrite D in D2. injection D2 as <- <-. subst b'.
    set (b' := Box f t own' kids' []) in *.
    assert (PB : file_bytes [b'] = header f t (lenN (payload b')) ++ own' ++ file_bytes kids').
    { rewrite file_bytes_one, box_bytes_eq. unfold b' at 1 2 4. cbn [box_form box_type payload]. rewrite app_nil_r. reflexivity. }
    assert (PL' : lenN (payload b') = lenN own' + lenN (file_bytes kids')).
    { unfold b'. cbn [payload]. rewrite app_nil_r, lenN_app. reflexivity. }
    assert (DE : data' = (pre' ++ header f t (lenN (payload b'))) ++ own' ++ file_bytes kids' ++ post').
    { rewrite HD', PB, <- !app_assoc. reflexivity. }
    destruct (KT) with (pre := pre ++ header f t (lenN (payload b)) ++ own) (keys := keys1)
      (pre' := pre' ++ header f t (lenN (payload b')) ++ own') (post' := post') as [K1 K2]; auto.
    { intros Z. apply andb_prop in Z. destruct Z as [Z1 Z2]. rewrite (HL Z1), app_nil_r. destruct slack; [reflexivity|discriminate]. }
    { rewrite HD. unfold b. rewrite box_bytes_eq. cbn [box_form box_type payload]. rewrite <- !app_assoc. reflexivity. }
    { rewrite DE, <- !app_assoc. reflexivity. }
    fold kids' in K1, K2.
    assert (PRE' : lenN pre' + hsize f + lenN own' = lenN (pre' ++ header f t (lenN (payload b')) ++ own')).
    { rewrite !lenN_app, lenN_header by exact Ht. clear. lia. }
    rewrite <- PRE' in K1, K2.
    (* its fields *)
    assert (F : exists d3 x3, decoded data' c (lenN pre') b' = Ok (d3, x3, lenN own') /\ rewritable d3 x3 = true /\
      snd (marshal std_registry t c x3 []) = own' /\ new_time time t own' = own').
    { destruct (retimed time t) eqn:RT.
      2:{ exists d, x. split; [exact D3|]. split; [exact RW|]. rewrite new_time_kept by exact RT. rewrite M, OW. split; reflexivity. }
      assert (T : t = bt "tfdt").
      { destruct time as [v|]; [|discriminate RT]. now apply bytes_eqb_eq. }
      assert (TB : tfdt_bytes own).
      { unfold decoded in D.
        destruct (unmarshal_any std_registry data (box_type b) (lenN (payload b)) c (lenN pre + hsize (box_form b))) as [r0 p'] eqn:U.
        cbn [fst] in D. subst r0. change (box_type b) with t in U. change (box_form b) with f in U. rewrite T in U at 1.
        destruct (place_size data (data_small data data_45) _ _ _ _ A) as (LD & LH & _ & LS). change (box_form b) with f in LH.
        apply tfdt_read in U; [|clear - LD LH; lia|exact (data_small data data_45)].
        replace own with (takeN (lenN own) (skipN (lenN pre + hsize f) data)); [exact U|].
        rewrite HD. unfold b. rewrite box_bytes_eq. cbn [box_form box_type payload]. rewrite <- !app_assoc, app_assoc.
        rewrite skipN_app_exact by (rewrite lenN_app, lenN_header by exact Ht; reflexivity).
        rewrite takeN_app_exact; reflexivity. }
      destruct (tfdt_new time own TB) as [N1 N2]. rewrite <- T in N1, N2. rewrite <- OW in N1, N2.
      assert (LP : lenN (pre' ++ header f t (lenN (payload b'))) = lenN pre' + hsize f) by (rewrite lenN_app, lenN_header by exact Ht; reflexivity).
      assert (LE : lenN data' = lenN pre' + hsize f + (lenN own' + lenN (file_bytes kids') + lenN post')).
      { rewrite DE, lenN_app, LP, !lenN_app. clear. lia. }
      destruct (tfdt_unmarshal data' (lenN pre' + hsize f) c (lenN (payload b')) own' (file_bytes kids' ++ post')) as (x3 & p3 & U3 & R3 & M3); auto.
      { rewrite DE at 1. now rewrite skipN_app_exact. }
      { rewrite LE. clear. lia. }
      { clear - data'_61. change (2 ^ 61) with 2305843009213693952 in data'_61. change (2 ^ 62) with 4611686018427387904. lia. }
      { rewrite PL'. clear. lia. }
      { rewrite PL'. clear - LE data'_61. change (2 ^ 61) with 2305843009213693952 in *. lia. }
      exists tfdt_def, x3. split; [|split; [exact R3|split; [|exact N2]]].
      - unfold decoded. change (box_type b') with t. change (box_form b') with f. rewrite T, U3. reflexivity.
      - rewrite T, M3. reflexivity. }
    destruct F as (d3 & x3 & F1 & F2 & F3 & F4).
    assert (AF : any_fields data' time c (lenN pre') b' = own').
    { unfold any_fields. rewrite F1. change (box_type b') with t. rewrite F3. exact F4. }
    exists b'. split; [reflexivity|]. split; [|split].
    - unfold b' at 1. rewrite any_box_eq. cbv zeta. fold b'. rewrite S2. fold c. rewrite DT, WT, AF, K1. reflexivity.
    - exact S2.
    - unfold b' at 1. rewrite list_box_eq. cbv zeta. fold b'. rewrite S2. fold c. constructor; [|exact K2].
      split; [cbn [e_told]; eauto|]. unfold b' at 1. cbn [e_box e_info bi_ctx info bi_offset]. fold b'. intros _ _.
      split; [|now left]. exists d3, x3. split; [exact F1|]. split; [exact F2|]. right. right. exact F3.
  Qed.

  Lemma file_twice_any : forall l pre qt keys pre',
    data = pre ++ flat_map box_bytes l -> list_wf true l ->
    Forall (any_ok data dropped) (list_file data ctx0 qt keys (lenN pre) l) ->
    Forall closed (list_file data ctx0 qt keys (lenN pre) l) ->
    data' = pre' ++ file_bytes (any_file data dropped time qt keys (lenN pre) l) ->
    any_file data' dropped time qt keys (lenN pre') (any_file data dropped time qt keys (lenN pre) l) = any_file data dropped time qt keys (lenN pre) l /\
    Forall (any_ok data' dropped) (list_file data' ctx0 qt keys (lenN pre') (any_file data dropped time qt keys (lenN pre) l)).
  Proof.
    induction l as [|b r IH]; intros pre qt keys pre' HD HW Q QC HD'; [split; [reflexivity|constructor]|].
    cbn [list_file any_file flat_map] in *. apply list_wf_cons in HW. destruct HW as [W1 W2].
    destruct (match enter data ctx0 [] qt keys (lenN pre) b with Ok x => x | _ => (qt, keys) end) as [q1 k1] eqn:E1.
    apply Forall_app in Q. destruct Q as [Q1 Q2]. apply Forall_app in QC. destruct QC as [C1 C2].
    assert (A : at_place data pre (flat_map box_bytes r) (true && match r with [] => true | _ => false end) b).
    { split; [exact HD|]. split; [exact W1|]. intros Z. destruct r; [reflexivity|discriminate]. }
    rewrite file_bytes_app in HD'.
    pose proof (all_twice_any b [] qt keys pre _ _ pre' _ A Q1 C1 HD') as T.
    assert (OB : lenN pre + box_size b = lenN (pre ++ box_bytes b)) by (rewrite lenN_app; reflexivity).
    rewrite OB in Q2, C2, HD' |- *.
    specialize (IH (pre ++ box_bytes b) q1 k1).
    destruct T as [[Z E]|(b' & Z & T1 & T2 & T3)]; rewrite Z in *.
    - cbn [file_bytes flat_map app] in HD' |- *. rewrite E in E1. injection E1 as <- <-.
      apply (IH pre'); auto. rewrite HD, <- app_assoc. reflexivity.
    - rewrite file_bytes_one in HD'.
      assert (OB' : lenN pre' + box_size b' = lenN (pre' ++ box_bytes b')) by (rewrite lenN_app; reflexivity).
      destruct (IH (pre' ++ box_bytes b')) as [I1 I2]; auto.
      { rewrite HD, <- app_assoc. reflexivity. }
      { rewrite HD', <- app_assoc. reflexivity. }
      cbn [app any_file list_file]. rewrite T1, T2, E1, OB', I1. split; [reflexivity|].
      apply Forall_app. split; [exact T3|exact I2].
  Qed.
End Twice.
