From Verif Require Import Base BaseProofs Schema Registry BoxInfo SpecHeader.
Local Open Scope monad_scope.
Local Open Scope N_scope.
Ltac Zify.zify_post_hook ::= Z.to_euclidean_division_equations.

Lemma s_copy_app : forall data pos p tail n, skipN pos data = p ++ tail -> n = lenN p ->
  0 < n < 9223372036854775808 ->
  s_copy data n pos = (Ok p, pos + n).
Proof.
  intros data pos p tail n E -> L. unfold s_copy. rewrite E, takeN_app_exact by auto.
  destruct (N.eqb_spec (lenN p) 0); [lia|]. destruct (N.leb_spec 9223372036854775808 (lenN p)); [lia|].
  cbn [orb]. rewrite N.eqb_refl. reflexivity.
Qed.
Lemma s_copy_short : forall data pos n, lenN (skipN pos data) < n -> n < 9223372036854775808 ->
  s_copy data n pos = (Err EEOF, pos + lenN (skipN pos data)).
Proof.
  intros data pos n L B. unfold s_copy.
  destruct (N.eqb_spec n 0); [lia|]. destruct (N.leb_spec 9223372036854775808 n); [lia|].
  cbn [orb]. rewrite takeN_all by lia.
  destruct (N.eqb_spec (lenN (skipN pos data)) n); [lia|reflexivity].
Qed.
Lemma takeN4_hdr : forall n (t : list byte), takeN 4 (N_to_be 4 n ++ t) = N_to_be 4 n.
Proof. intros. apply takeN_app_exact. rewrite lenN_N_to_be. reflexivity. Qed.
Lemma skipN4_hdr : forall n (t : list byte), skipN 4 (N_to_be 4 n ++ t) = t.
Proof. intros. apply skipN_app_exact. rewrite lenN_N_to_be. reflexivity. Qed.
Lemma be4 : forall n, n < 2 ^ 32 -> be_to_N (N_to_be 4 n) = n.
Proof. intros. rewrite be_to_N_to_be. apply N.mod_small. exact H. Qed.
Lemma be8 : forall n, n < 2 ^ 64 -> be_to_N (N_to_be 8 n) = n.
Proof. intros. rewrite be_to_N_to_be. apply N.mod_small. exact H. Qed.

(** the first eight bytes *)
Lemma read_box_info_8 : forall data pos n type tail,
  n < 2 ^ 32 -> lenN type = 4 -> lenN data < 2 ^ 63 ->
  skipN pos data = N_to_be 4 n ++ type ++ tail ->
  read_box_info data pos =
  (if n =? 0 then
     (if 8 + lenN tail =? 0 then (Err (EMsg "invalid size"), pos + 8)
      else (Ok (mkbi pos (8 + lenN tail) 8 type true ctx0), pos + 8))
   else if n =? 1 then
     (l <- s_copy data 8 ;;
      let size' := be_to_N l in
      if size' =? 0 then fail (EMsg "invalid size")
      else ret (mkbi pos size' 16 type false ctx0)) (pos + 8)
   else (Ok (mkbi pos n 8 type false ctx0), pos + 8)).
Proof.
  intros data pos n type tail Hn Ht Hd E.
  unfold read_box_info. unfold bind at 1, get.
  unfold bind at 1.
  assert (lenN (N_to_be 4 n ++ type) = 8) as L8 by (rewrite lenN_app, lenN_N_to_be, Ht; reflexivity).
  rewrite app_assoc in E.
  rewrite (s_copy_app data pos (N_to_be 4 n ++ type) tail SmallHeaderSize E)
    by (unfold SmallHeaderSize; try rewrite L8; lia).
  cbv zeta. rewrite takeN4_hdr, skipN4_hdr, be4 by auto.
  change SmallHeaderSize with 8. change LargeHeaderSize with 16. change (16 - 8) with 8.
  destruct (n =? 0) eqn:Z; [|destruct (n =? 1); [|reflexivity]].
  - assert (lenN (skipN pos data) = 8 + lenN tail) as Ls.
    { rewrite E, lenN_app, L8. lia. }
    rewrite lenN_skipN in Ls.
    assert (sub64 (lenN data) pos = 8 + lenN tail) as Sz.
    { unfold sub64, W64. change (2 ^ 63) with 9223372036854775808 in Hd.
      rewrite (N.mod_small pos) by lia. lia. }
    rewrite Sz. unfold bind, put, seek_to_payload, s_seek; cbn [bi_offset bi_hsize].
    unfold w64, W64. change (2 ^ 63) with 9223372036854775808 in Hd.
    rewrite N.mod_small by lia.
    destruct (N.ltb_spec (pos + 8) 9223372036854775808); [|lia].
    destruct (8 + lenN tail =? 0); reflexivity.
  - reflexivity.
Qed.

Lemma skip_hdr8 : forall data pos n type tail, lenN type = 4 ->
  skipN pos data = N_to_be 4 n ++ type ++ tail -> skipN (pos + 8) data = tail.
Proof.
  intros data pos n type tail H E. rewrite <- skipN_skipN, E, app_assoc.
  apply skipN_app_exact. rewrite lenN_app, lenN_N_to_be, H. reflexivity.
Qed.

Lemma read_box_info_spec : forall data pos o, lenN data < 2 ^ 63 ->
  iso_header (skipN pos data) o ->
  exists pos', read_box_info data pos =
    (match o with
     | Ok (size, h, type, e) => Ok (mkbi pos size h type e ctx0)
     | Err e => Err e
     | _ => Panic
     end, pos') /\
    (forall size h type e, o = Ok (size, h, type, e) -> pos' = pos + h).
Proof.
  intros data pos o Hd H. remember (skipN pos data) as rest eqn:E.
  destruct H as [rest L|size type tail Hs Ht|size type tail Hs Ht|type tail Ht Hl|type tail Ht|type tail Ht];
    symmetry in E.
  - eexists. split; [|discriminate].
    unfold read_box_info. unfold bind at 1, get. unfold bind at 1.
    rewrite s_copy_short by (unfold SmallHeaderSize; try rewrite E; lia). reflexivity.
  - rewrite (read_box_info_8 data pos size type tail) by (auto; lia).
    destruct (N.eqb_spec size 0); [lia|]. destruct (N.eqb_spec size 1); [lia|].
    eexists; split; [reflexivity|]. intros ? ? ? ? [= <- <- <- <-]; auto.
  - rewrite (read_box_info_8 data pos 1 type (N_to_be 8 size ++ tail)) by (auto; reflexivity).
    cbn [N.eqb Pos.eqb]. unfold bind at 1.
    rewrite (s_copy_app data (pos + 8) (N_to_be 8 size) tail);
      [|eapply skip_hdr8; eauto|now rewrite lenN_N_to_be|lia].
    cbv zeta. rewrite be8 by lia. destruct (N.eqb_spec size 0); [lia|].
    eexists; split; [reflexivity|]. intros ? ? ? ? [= <- <- <- <-]; lia.
  - rewrite (read_box_info_8 data pos 1 type tail) by (auto; reflexivity).
    cbn [N.eqb Pos.eqb]. unfold bind at 1.
    rewrite s_copy_short; [eexists; split; [reflexivity|discriminate]| |lia].
    erewrite skip_hdr8; eauto.
  - rewrite (read_box_info_8 data pos 1 type (N_to_be 8 0 ++ tail)) by (auto; reflexivity).
    cbn [N.eqb Pos.eqb]. unfold bind at 1.
    rewrite (s_copy_app data (pos + 8) (N_to_be 8 0) tail);
      [|eapply skip_hdr8; eauto|now rewrite lenN_N_to_be|lia].
    eexists; split; [reflexivity|discriminate].
  - rewrite (read_box_info_8 data pos 0 type tail) by (auto; reflexivity).
    cbn [N.eqb]. destruct (N.eqb_spec (8 + lenN tail) 0); [lia|].
    eexists; split; [reflexivity|]. intros ? ? ? ? [= <- <- <- <-]; auto.
Qed.

Lemma iso_header_total : forall rest, exists o, iso_header rest o.
Proof.
  intros rest. destruct (N.lt_ge_cases (lenN rest) 8) as [L|L].
  { exists (Err EEOF). now constructor. }
  assert (exists n type tail, n < 2 ^ 32 /\ lenN type = 4 /\ rest = N_to_be 4 n ++ type ++ tail)
    as (n & type & tail & Hn & Ht & ->).
  { exists (be_to_N (takeN 4 rest)), (takeN 4 (skipN 4 rest)), (skipN 4 (skipN 4 rest)).
    assert (lenN (takeN 4 rest) = 4) as L4 by (rewrite lenN_takeN; lia).
    split; [|split].
    - pose proof (be_to_N_lt (takeN 4 rest)) as B. rewrite L4 in B. exact B.
    - rewrite lenN_takeN, lenN_skipN. lia.
    - pose proof (N_to_be_to_N (takeN 4 rest)) as E.
      assert (List.length (takeN 4 rest) = 4%nat) as Ln by (unfold lenN in L4; lia).
      rewrite Ln in E. rewrite E, takeN_skipN, takeN_skipN. reflexivity. }
  destruct (N.eq_dec n 0) as [->|N0]; [eexists; now constructor|].
  destruct (N.eq_dec n 1) as [->|N1]; [|eexists; constructor; auto; lia].
  destruct (N.lt_ge_cases (lenN tail) 8) as [L8|L8].
  { eexists; eapply ih_large_short; auto. }
  assert (tail = N_to_be 8 (be_to_N (takeN 8 tail)) ++ skipN 8 tail) as E8.
  { assert (lenN (takeN 8 tail) = 8) as L' by (rewrite lenN_takeN; lia).
    pose proof (N_to_be_to_N (takeN 8 tail)) as E.
    assert (List.length (takeN 8 tail) = 8%nat) as Ln by (unfold lenN in L'; lia).
    rewrite Ln in E. rewrite E, takeN_skipN. reflexivity. }
  pose proof (be_to_N_lt (takeN 8 tail)) as B.
  rewrite lenN_takeN in B. replace (N.min 8 (lenN tail)) with 8 in B by lia.
  rewrite E8. destruct (N.eq_dec (be_to_N (takeN 8 tail)) 0) as [Z|Z].
  - rewrite Z. eexists; now eapply ih_large_zero.
  - eexists; eapply ih_large; auto. change (8 * 8) with 64 in B. lia.
Qed.

(** ** writing *)
Lemma overwrite_in : forall d pos p, pos <= lenN d ->
  overwrite d pos p = takeN pos d ++ p ++ skipN (pos + lenN p) d.
Proof.
  intros d pos p H. destruct p as [|b p]; cbn [overwrite].
  - rewrite lenN_nil, N.add_0_r. cbn [app]. now rewrite takeN_skipN.
  - replace (pos - lenN d) with 0 by lia. reflexivity.
Qed.

Definition header_len (bi : boxinfo) : N := lenN (header_bytes bi).

Lemma header_len_cases : forall bi, lenN (bi_type bi) = 4 ->
  header_len bi = if negb (bi_eof bi) && (negb (bi_size bi <? W32) || (bi_hsize bi =? 16)) then 16 else 8.
Proof.
  intros bi H. unfold header_len, header_bytes. change LargeHeaderSize with 16.
  destruct (bi_eof bi); cbn [negb andb].
  - rewrite lenN_app, lenN_N_to_be, H. reflexivity.
  - destruct (bi_size bi <? W32), (bi_hsize bi =? 16); cbn [negb andb orb];
      rewrite ?lenN_app, ?lenN_N_to_be, H; reflexivity.
Qed.

(** [bi] is representable in the header form that its fields select. *)
Definition representable (bi : boxinfo) : Prop :=
  lenN (bi_type bi) = 4 /\ bi_size bi < 2 ^ 64 /\
  bi_hsize bi = header_len bi /\
  (bi_eof bi = false -> (bi_hsize bi = 8 -> 2 <= bi_size bi) /\ (bi_hsize bi = 16 -> 1 <= bi_size bi)).

Lemma header_bytes_iso : forall bi tail, representable bi ->
  iso_header (header_bytes bi ++ tail)
    (Ok (if bi_eof bi then 8 + lenN tail else bi_size bi, bi_hsize bi, bi_type bi, bi_eof bi)).
Proof.
  intros bi tail (Ht & Hs & Hh & Hv). rewrite header_len_cases in Hh by auto.
  unfold header_bytes. change LargeHeaderSize with 16.
  destruct (bi_eof bi) eqn:Ee; cbn [negb andb] in *.
  - rewrite Hh, <- app_assoc. now apply ih_to_eof.
  - destruct (Hv eq_refl) as [V1 V2].
    destruct (N.ltb_spec (bi_size bi) W32) as [L|L]; cbn [negb andb orb] in *.
    + destruct (bi_hsize bi =? 16) eqn:E16; cbn [negb andb orb] in *.
      * rewrite Hh, <- !app_assoc. apply ih_large; auto.
      * rewrite Hh, <- app_assoc. apply ih_small; auto.
    + rewrite Hh, <- !app_assoc. apply ih_large; auto.
Qed.

Lemma write_box_info_ok : forall bi d pos,
  write_box_info bi (new_ofile d pos) =
  (Ok (mkbi pos (w64 (sub64 (bi_size bi) (bi_hsize bi) + header_len bi)) (header_len bi)
            (bi_type bi) (bi_eof bi) ctx0),
   new_ofile (overwrite d pos (header_bytes bi)) (pos + header_len bi)).
Proof. reflexivity. Qed.

Lemma header_round_trip : forall bi d pos,
  representable bi -> pos <= lenN d -> pos + 16 <= 2 ^ 62 -> lenN d < 2 ^ 62 ->
  exists bi' d',
    write_box_info bi (new_ofile d pos) = (Ok bi', new_ofile d' (pos + bi_hsize bi)) /\
    bi' = mkbi pos (bi_size bi) (bi_hsize bi) (bi_type bi) (bi_eof bi) ctx0 /\
    takeN pos d' = takeN pos d /\
    skipN (pos + bi_hsize bi) d' = skipN (pos + bi_hsize bi) d /\
    lenN d' = N.max (lenN d) (pos + bi_hsize bi) /\
    read_box_info d' pos =
      (Ok (mkbi pos (if bi_eof bi then lenN d' - pos else bi_size bi) (bi_hsize bi)
                (bi_type bi) (bi_eof bi) ctx0), pos + bi_hsize bi).
Proof.
  intros bi d pos Hr Hp Hb Hd. pose proof Hr as (Ht & Hs & Hh & Hv).
  assert (bi_hsize bi = 8 \/ bi_hsize bi = 16) as H816.
  { rewrite Hh, header_len_cases by auto. destruct (_ && _); auto. }
  eexists. exists (overwrite d pos (header_bytes bi)).
  rewrite write_box_info_ok, <- Hh.
  assert (w64 (sub64 (bi_size bi) (bi_hsize bi) + bi_hsize bi) = bi_size bi) as E.
  { unfold w64, sub64, W64. change (2 ^ 64) with 18446744073709551616 in Hs.
    rewrite (N.mod_small (bi_hsize bi)) by lia. lia. }
  rewrite E. rewrite overwrite_in by auto. fold (header_len bi). rewrite <- Hh.
  assert (lenN (takeN pos d) = pos) as Lt by (rewrite lenN_takeN; lia).
  split; [reflexivity|]. split; [reflexivity|].
  split; [now rewrite takeN_app_exact|].
  split.
  { rewrite app_assoc, skipN_app_exact; auto. rewrite lenN_app, Lt, Hh. reflexivity. }
  set (d' := takeN pos d ++ header_bytes bi ++ skipN (pos + bi_hsize bi) d).
  assert (lenN d' = N.max (lenN d) (pos + bi_hsize bi)) as Ld.
  { unfold d'. rewrite !lenN_app, Lt, lenN_skipN. fold (header_len bi). rewrite <- Hh. lia. }
  split; [exact Ld|].
  destruct (read_box_info_spec d' pos
     (Ok (if bi_eof bi then 8 + lenN (skipN (pos + bi_hsize bi) d) else bi_size bi,
          bi_hsize bi, bi_type bi, bi_eof bi))) as (p' & E1 & E2).
  - rewrite Ld. lia.
  - unfold d'. rewrite skipN_app_exact by auto. now apply header_bytes_iso.
  - rewrite E1. rewrite (E2 _ _ _ _ eq_refl). f_equal. f_equal. f_equal.
    destruct (bi_eof bi) eqn:Ee; auto.
    rewrite lenN_skipN, Ld. rewrite header_len_cases, Ee in Hh by auto. cbn in Hh. lia.
Qed.

Lemma well_formed_representable : forall bi,
  well_formed_header (bi_size bi) (bi_hsize bi) (bi_type bi) (bi_eof bi) -> representable bi.
Proof.
  intros bi (Ht & Hs & H). unfold representable. split; [auto|]. split; [auto|].
  rewrite header_len_cases by auto.
  destruct H as [(-> & ->)|[(-> & -> & H)|(-> & -> & H)]]; cbn [negb andb].
  - split; [reflexivity|discriminate].
  - change W32 with (2 ^ 32). destruct (N.ltb_spec (bi_size bi) (2 ^ 32)); [|lia].
    split; [reflexivity|]. intros _; split; intros; lia.
  - rewrite N.eqb_refl, orb_true_r. split; [reflexivity|]. intros _; split; intros; lia.
Qed.

Lemma written_header_round_trip : forall bi d pos,
  well_formed_header (bi_size bi) (bi_hsize bi) (bi_type bi) (bi_eof bi) ->
  pos <= lenN d -> lenN d < 2 ^ 61 ->
  exists d' bi',
    write_box_info bi (new_ofile d pos) = (Ok bi', new_ofile d' (pos + bi_hsize bi)) /\
    takeN pos d' = takeN pos d /\
    skipN (pos + bi_hsize bi) d' = skipN (pos + bi_hsize bi) d /\
    read_box_info d' pos =
      (Ok (mkbi pos (if bi_eof bi then lenN d' - pos else bi_size bi) (bi_hsize bi)
                (bi_type bi) (bi_eof bi) ctx0), pos + bi_hsize bi).
Proof.
  intros bi d pos W Hp Hd.
  destruct (header_round_trip bi d pos (well_formed_representable _ W) Hp)
    as (bi' & d' & H1 & H2 & H3 & H4 & H5 & H6).
  - change (2 ^ 61) with 2305843009213693952 in Hd. change (2 ^ 62) with 4611686018427387904. lia.
  - change (2 ^ 61) with 2305843009213693952 in Hd. change (2 ^ 62) with 4611686018427387904. lia.
  - exists d', bi'. auto.
Qed.

Lemma write_returns_what_is_read : forall bi d pos,
  well_formed_header (bi_size bi) (bi_hsize bi) (bi_type bi) (bi_eof bi) ->
  pos <= lenN d -> lenN d < 2 ^ 61 ->
  (bi_eof bi = true -> bi_size bi = N.max (lenN d) (pos + 8) - pos) ->
  exists bi' f',
    write_box_info bi (new_ofile d pos) = (Ok bi', f') /\
    fst (read_box_info (o_data f') pos) = Ok bi'.
Proof.
  intros bi d pos W Hp Hd He.
  destruct (header_round_trip bi d pos (well_formed_representable _ W) Hp)
    as (bi' & d' & H1 & H2 & H3 & H4 & H5 & H6).
  - change (2 ^ 61) with 2305843009213693952 in Hd. change (2 ^ 62) with 4611686018427387904. lia.
  - change (2 ^ 61) with 2305843009213693952 in Hd. change (2 ^ 62) with 4611686018427387904. lia.
  - exists bi'. eexists. split; [exact H1|]. cbn [o_data new_ofile]. rewrite H6. cbn [fst].
    f_equal. subst bi'. f_equal. destruct (bi_eof bi) eqn:E; auto.
    rewrite He by auto. rewrite H5. destruct W as (_ & _ & [(_ & ->)|[(C & _)|(C & _)]]); congruence.
Qed.
