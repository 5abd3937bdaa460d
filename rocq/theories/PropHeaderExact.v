(** C05, exactly: for which BoxInfo values WriteBoxInfo returns what ReadBoxInfo
    reads back at the same place. *)
From Verif Require Import Base BaseProofs Schema Registry BoxInfo SpecHeader HeaderProofs.
Local Open Scope monad_scope.
Local Open Scope string_scope.
Local Open Scope list_scope.
Local Open Scope N_scope.

(** What ReadBoxInfo finds where any header was just written. *)
Lemma read_written : forall bi d pos o,
  pos <= lenN d -> lenN d < 2 ^ 61 -> header_len bi <= 16 ->
  iso_header (header_bytes bi ++ skipN (pos + header_len bi) d) o ->
  fst (read_box_info (overwrite d pos (header_bytes bi)) pos) =
    match o with
    | Ok (size, h, type, e) => Ok (mkbi pos size h type e ctx0)
    | Err e => Err e
    | _ => Panic
    end.
Proof.
  intros bi d pos o Hp Hd Hl H.
  rewrite overwrite_in by auto. fold (header_len bi).
  assert (lenN (takeN pos d) = pos) as Lt by (rewrite lenN_takeN; lia).
  destruct (read_box_info_spec (takeN pos d ++ header_bytes bi ++ skipN (pos + header_len bi) d) pos o)
    as (p' & E & _).
  - rewrite !lenN_app, Lt, lenN_skipN. fold (header_len bi).
    change (2 ^ 61) with 2305843009213693952 in Hd. change (2 ^ 63) with 9223372036854775808. lia.
  - now rewrite skipN_app_exact.
  - rewrite E. reflexivity.
Qed.

(** [rest] is what lies between the position and the end of the file once an
    8-byte header is written. *)
Theorem C05_exact : forall (bi : boxinfo) (d : list byte) (pos : N),
  lenN (bi_type bi) = 4 -> bi_size bi < 2 ^ 64 -> bi_hsize bi < 2 ^ 64 ->
  pos <= lenN d -> lenN d < 2 ^ 61 ->
  let rest := N.max (lenN d) (pos + 8) - pos in
  exists bi' f',
    write_box_info bi (new_ofile d pos) = (Ok bi', f') /\
    (fst (read_box_info (o_data f') pos) = Ok bi' <->
     if bi_eof bi then (bi_size bi + 8) mod 2 ^ 64 = (bi_hsize bi + rest) mod 2 ^ 64
     else (bi_hsize bi = 8 /\ 2 <= bi_size bi < 2 ^ 32) \/ (bi_hsize bi = 16 /\ 1 <= bi_size bi)).
Proof.
  intros bi d pos Ht Hs Hh Hp Hd rest.
  rewrite write_box_info_ok. do 2 eexists. split; [reflexivity|]. cbn [o_data new_ofile].
  pose proof (header_len_cases bi Ht) as HL. change W32 with (2 ^ 32) in HL.
  change (2 ^ 61) with 2305843009213693952 in Hd.
  change (2 ^ 64) with 18446744073709551616 in *.
  assert (header_len bi <= 16) as L16 by (rewrite HL; destruct (_ && _); lia).
  destruct (iso_header_total (header_bytes bi ++ skipN (pos + header_len bi) d)) as (o0 & _).
  destruct (bi_eof bi) eqn:Ee; cbn [negb andb] in HL.
  - rewrite (read_written bi d pos (Ok (8 + lenN (skipN (pos + header_len bi) d), 8, bi_type bi, true))); auto.
    2: { unfold header_bytes. rewrite Ee, <- app_assoc. now apply ih_to_eof. }
    rewrite HL, lenN_skipN.
    replace (8 + (lenN d - (pos + 8))) with rest by (unfold rest; lia).
    assert (rest < 18446744073709551616) as R by (unfold rest; lia).
    unfold w64, sub64, W64. rewrite (N.mod_small (bi_hsize bi)) by auto.
    generalize dependent rest. intros rest R.
    split; intros H.
    + injection H. intros Hz. clear H. zify. Z.div_mod_to_equations. lia.
    + do 2 f_equal. zify. Z.div_mod_to_equations. lia.
  - destruct (N.ltb_spec (bi_size bi) (2 ^ 32)) as [L|L]; cbn [negb orb andb] in HL.
    + destruct (N.eqb_spec (bi_hsize bi) 16) as [E16|E16].
      * destruct (N.eq_dec (bi_size bi) 0) as [Z|Z].
        -- rewrite (read_written bi d pos (Err (EMsg "invalid size"))); auto.
           2: { unfold header_bytes. rewrite Ee, E16, Z. cbn. rewrite <- !app_assoc.
                now apply ih_large_zero. }
           split; [discriminate|]. intros [(? & ?)|(? & ?)]; lia.
        -- rewrite (read_written bi d pos (Ok (bi_size bi, 16, bi_type bi, false))); auto.
           2: { unfold header_bytes. rewrite Ee, E16. change (16 =? LargeHeaderSize) with true.
                rewrite andb_false_r, <- !app_assoc. apply ih_large; auto; lia. }
           split; [intros _; right; lia|]. intros _. rewrite HL, E16. do 2 f_equal.
           unfold w64, sub64, W64. rewrite (N.mod_small 16) by lia. lia.
      * assert (header_bytes bi = N_to_be 4 (bi_size bi) ++ bi_type bi) as HB.
        { unfold header_bytes. rewrite Ee. change W32 with (2 ^ 32). change LargeHeaderSize with 16.
          destruct (N.ltb_spec (bi_size bi) (2 ^ 32)); [|lia].
          destruct (N.eqb_spec (bi_hsize bi) 16); [lia|]. reflexivity. }
        assert (header_len bi = 8) as H8 by exact HL.
        destruct (N.le_gt_cases 2 (bi_size bi)) as [G|G].
        -- rewrite (read_written bi d pos (Ok (bi_size bi, 8, bi_type bi, false))); auto.
           2: { rewrite HB, <- app_assoc. apply ih_small; auto. }
           rewrite H8. unfold w64, sub64, W64. rewrite (N.mod_small (bi_hsize bi)) by auto.
           change (2 ^ 32) with 4294967296 in *.
           split; intros H.
           ++ injection H. intros Hz. clear H. left. split; [|lia].
              zify. Z.div_mod_to_equations. lia.
           ++ destruct H as [(-> & _)|(? & _)]; [|lia]. do 2 f_equal. lia.
        -- split; [|intros [(? & ?)|(? & ?)]; lia]. intros H. exfalso.
           destruct (iso_header_total (header_bytes bi ++ skipN (pos + header_len bi) d)) as (o & Ho).
           rewrite (read_written bi d pos o) in H; auto. rewrite H8 in H.
           destruct o as [[[[size h] type] e]| | |]; try discriminate.
           injection H as Hz1 Hz2 Hz3 Hz4.
           rewrite HB, <- app_assoc in Ho.
           remember (N_to_be 4 (bi_size bi) ++ bi_type bi ++ skipN (pos + header_len bi) d) as l eqn:El.
           remember (Ok (size, h, type, e)) as ok eqn:Eo.
           destruct Ho; try discriminate; injection Eo; intros; subst; try lia; try congruence.
           apply (f_equal (takeN 4)) in El.
           rewrite !takeN_app_exact in El by now rewrite lenN_N_to_be.
           apply (f_equal be_to_N) in El. rewrite !be4 in El by lia. lia.
    + rewrite (read_written bi d pos (Ok (bi_size bi, 16, bi_type bi, false))); auto.
      2: { unfold header_bytes. rewrite Ee. change W32 with (2 ^ 32).
           destruct (N.ltb_spec (bi_size bi) (2 ^ 32)); [lia|]. cbn [andb].
           rewrite <- !app_assoc. apply ih_large; auto.
           change (2 ^ 32) with 4294967296 in *. lia. }
      rewrite HL. unfold w64, sub64, W64. rewrite (N.mod_small (bi_hsize bi)) by auto.
      change (2 ^ 32) with 4294967296 in *.
      split; intros H.
      * injection H. intros Hz. clear H. right. split; [|lia]. zify. Z.div_mod_to_equations. lia.
      * destruct H as [(? & ?)|(-> & _)]; [lia|]. do 2 f_equal. lia.
Qed.
Print Assumptions C05_exact.

(** A box of 2^33 bytes described with an 8-byte header is written with 16. *)
Example C05_exact_case :
  let bi := mkbi 0 8589934592 8 (bytes_of_string "mdat") false ctx0 in
  lenN (bi_type bi) = 4 /\ bi_size bi < 2 ^ 64 /\ bi_hsize bi < 2 ^ 64 /\
  fst (write_box_info bi (new_ofile [] 0)) =
    Ok (mkbi 0 8589934600 16 (bytes_of_string "mdat") false ctx0) /\
  fst (read_box_info (o_data (snd (write_box_info bi (new_ofile [] 0)))) 0) =
    Ok (mkbi 0 8589934592 16 (bytes_of_string "mdat") false ctx0).
Proof. vm_compute. repeat split. Qed.
