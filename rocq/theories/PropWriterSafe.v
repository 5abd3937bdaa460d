(** C33, C34, C35: a Writer does not damage what is finished. *)
From Verif Require Import Base BaseProofs Schema Structs Registry Unmarshal BoxInfo ReadTree Writer SpecHeader HeaderProofs SpecTree TreeProofs
     SpecWriter WriterProofs PropWriter.
Local Open Scope string_scope.
Local Open Scope list_scope.
Local Open Scope N_scope.
Local Open Scope monad_scope.

Definition abs (st : list byte * list frame) : list (form * N) :=
  map (fun f => (fr_form f, hsize (fr_form f) + lenN (fr_body f))) (snd st).
Definition len_of (st : list byte * list frame) : N := lenN (render (fst st) (snd st)).
Lemma abs_add : forall l st, abs (add l st) = grow (lenN l) (abs st).
Proof.
  intros l [b0 [|f r]]; [reflexivity|]. unfold abs. cbn [add snd map grow]. f_equal.
  unfold fr_form. cbn [fr_info fr_body]. rewrite lenN_app. f_equal. lia.
Qed.
Lemma len_add : forall l st, len_of (add l st) = len_of st + lenN l.
Proof.
  intros l [b0 fs]. pose proof (render_add l b0 fs) as R. unfold len_of. destruct (add l (b0, fs)) as [b f].
  cbn [fst snd]. rewrite R, lenN_app. reflexivity.
Qed.
(** in every file that keeps what [st] has, [bytes] are at offset [o] *)
Definition fixed (st : list byte * list frame) (o : N) (bytes : list byte) : Prop :=
  forall d, keeps st d -> takeN (lenN bytes) (skipN o d) = bytes.
Lemma keeps_tail_slice : forall a f l d,
  keeps_tail (a ++ [mkfr (fr_info f) (fr_hdr f) (fr_body f ++ l)]) d ->
  exists x y, d = x ++ l ++ y /\ lenN x = lenN (flat_map fr_bytes (a ++ [f])).
Proof.
  induction a as [|g r IH]; intros f l d H; cbn [app keeps_tail flat_map] in *.
  - destruct H as (h & tl & E & L & _). cbn [fr_body fr_hdr] in *. exists (h ++ fr_body f), tl.
    rewrite E, <- !app_assoc. split; [reflexivity|]. unfold fr_bytes. rewrite !lenN_app, lenN_nil. lia.
  - destruct H as (h & tl & E & L & K). destruct (IH _ _ _ K) as (x & y & E2 & L2).
    exists (h ++ fr_body g ++ x), y. rewrite E, E2, <- !app_assoc. split; [reflexivity|].
    unfold fr_bytes at 1. rewrite !lenN_app in *. lia.
Qed.
Lemma added_fixed : forall l st, fixed (add l st) (len_of st) l.
Proof.
  intros l [b0 fs] d H. unfold len_of. cbn [fst snd].
  assert (G : exists x y, d = x ++ l ++ y /\ lenN x = lenN (render b0 fs)).
  { rewrite render_flat. destruct fs as [|f r]; cbn [add keeps rev] in H.
    - destruct H as (tl & E & _). exists b0, tl. rewrite E, <- app_assoc. cbn. rewrite app_nil_r. auto.
    - destruct H as (tl & E & K). destruct (keeps_tail_slice _ _ _ _ K) as (x & y & E2 & L2).
      exists (b0 ++ x), y. rewrite E, E2, <- !app_assoc. split; [reflexivity|]. cbn [rev]. rewrite !lenN_app, L2. reflexivity. }
  destruct G as (x & y & -> & L). rewrite skipN_app_exact by (symmetry; exact L). now apply takeN_app_exact.
Qed.

(** a closed box *)
Definition whole (bi : boxinfo) (bytes : list byte) : Prop :=
  exists f content, bytes = header f (bi_type bi) (lenN content) ++ content /\ lenN (bi_type bi) = 4 /\
    bi_size bi = hsize f + lenN content /\ bi_hsize bi = hsize f /\ bi_eof bi = eof_of f /\ bi_ctx bi = ctx0 /\
    (f = Small -> bi_size bi < 2 ^ 32).

Lemma run_keeps : forall ops rest w st r w', holds w st -> sizes_ok (abs st) (ops ++ rest) ->
  len_of st + volume (ops ++ rest) < 2 ^ 63 -> exec_all ops w = (r, w') ->
  keeps st (o_data (wr_file w')) /\
  match r with
  | Ok outs => exists st', holds w' st' /\ (forall d, keeps st' d -> keeps st d) /\
      sizes_ok (abs st') rest /\ len_of st' + volume rest < 2 ^ 63 /\
      Forall (fun bi => exists bytes, whole bi bytes /\ fixed st' (bi_offset bi) bytes) (ended outs)
  | _ => True
  end.
Proof.
  induction ops as [|o ops IH]; intros rest w st r w' H S V E.
  - cbn in E. injection E as <- <-. cbn [app] in *. split.
    + destruct st as [b0 fs]. destruct H as (H1 & _). rewrite H1, <- (app_nil_r (render b0 fs)). apply keeps_render.
    + exists st. repeat split; auto. constructor.
  - rewrite exec_cons in E. cbn [app] in S, V.
    (* one call; if it succeeds the rest goes on from the state [st1] *)
    assert (ONE : forall B x, exec o w = (x, B) -> match x with
         | Ok y => exists st1, holds B st1 /\ (forall d, keeps st1 d -> keeps st d) /\
             sizes_ok (abs st1) (ops ++ rest) /\ len_of st1 + volume (ops ++ rest) < 2 ^ 63 /\
             match y with Ended bi => exists bytes, whole bi bytes /\ fixed st1 (bi_offset bi) bytes | _ => True end
         | _ => keeps st (o_data (wr_file B)) end).
    { intros w1 x Ex. destruct o as [bi|l|src bi|]; cbn [sizes_ok volume] in S, V.
      - destruct S as [S1 S2]. destruct st as [b0 fs]. pose proof (start_outcome bi w b0 fs H S1) as O.
        rewrite Ex in O. unfold outcome in O. cbn [fst snd] in O.
        destruct x as [y|e| |]; [|apply O|apply O|contradiction].
        cbv zeta in O. destruct O as [[-> O] _]. destruct (opened_ok (render b0 fs) bi S1) as [_ FF].
        set (f := opened_frame (lenN (render b0 fs)) bi) in *.
        exists (b0, f :: fs). split; [exact O|]. split; [apply keeps_push|]. split.
        + unfold abs. cbn [snd map]. rewrite FF. cbn [f fr_body opened_frame]. rewrite lenN_nil, N.add_0_r. exact S2.
        + split; [|exact I]. unfold len_of in *. cbn [fst snd render] in *. rewrite lenN_app. unfold fr_bytes.
          cbn [f fr_body fr_hdr opened_frame]. rewrite app_nil_r, header_form by exact S1.
          pose proof (hsize_8 (form_of bi)). lia.
      - pose proof (put_outcome l w st H) as O. rewrite Ex in O. unfold outcome in O. cbn [fst snd] in O.
        destruct x as [y|e| |]; [|apply O|apply O|contradiction]. destruct O as [[-> O] _].
        exists (add l st). split; [exact O|]. split; [apply keeps_add|]. rewrite abs_add, len_add.
        split; [exact S|]. split; [lia|exact I].
      - pose proof (copy_outcome src bi w st H) as O. rewrite Ex in O. unfold outcome in O. cbn [fst snd] in O.
        destruct x as [y|e| |]; [|apply O|apply O|contradiction]. destruct O as [(-> & _ & O) _].
        exists (add (cut src bi) st). split; [exact O|]. split; [apply keeps_add|]. rewrite abs_add, len_add.
        split; [exact S|]. split; [lia|exact I].
      - destruct st as [b0 [|f fs]].
        + rewrite (end_empty w b0 H) in Ex. injection Ex as <- <-.
          destruct H as (H1 & _). rewrite H1, <- (app_nil_r (render b0 [])). apply keeps_render.
        + unfold abs in S. cbn [snd map] in S. destruct S as [S1 S2].
          assert (S1' : fr_form f = Small -> 8 + lenN (fr_body f) < 2 ^ 32).
          { intros X. specialize (S1 X). rewrite X in S1. exact S1. }
          unfold len_of in V. cbn [fst snd] in V.
          pose proof (end_outcome w b0 f fs H S1' ltac:(lia)) as O. rewrite Ex in O. unfold outcome in O. cbn [fst snd] in O.
          destruct x as [y|e| |]; [|apply O|apply O|contradiction]. destruct O as [[-> O] _].
          destruct H as (_ & _ & _ & [FO _]). destruct FO as (F1 & F2 & F3 & F4 & F5).
          assert (LC : lenN (fr_close f) = hsize (fr_form f) + lenN (fr_body f)).
          { unfold fr_close. rewrite lenN_app, lenN_header by exact F4. reflexivity. }
          exists (add (fr_close f) (b0, fs)). split; [exact O|]. split.
          { intros d. apply keeps_close. rewrite F3. apply lenN_header. exact F4. }
          rewrite abs_add, len_add, LC. split; [exact S2|]. split.
          { unfold len_of. cbn [fst snd]. cbn [render] in V. unfold fr_bytes in V. rewrite !lenN_app, F3 in V. lia. }
          exists (fr_close f). split.
          * exists (fr_form f), (fr_body f). unfold fr_end. cbn [bi_type bi_size bi_hsize bi_eof bi_ctx].
            repeat split; auto.
            { unfold fr_form, eof_of. destruct (bi_eof (fr_info f)); [reflexivity|]. destruct (_ =? _); reflexivity. }
          * cbn [fr_end bi_offset]. rewrite F1. apply (added_fixed (fr_close f) (b0, fs)). }
    destruct (exec o w) as [x w1]. specialize (ONE w1 x eq_refl).
    destruct x as [y|e| |]; try (injection E as <- <-; split; [exact ONE|exact I]).
    destruct ONE as (st1 & H1 & K1 & S1 & V1 & Y1).
    destruct (exec_all ops w1) as [r2 w2] eqn:E2.
    destruct (IH rest w1 st1 r2 w2 H1 S1 V1 E2) as [KA KB].
    assert (w' = w2) as -> by (destruct r2; injection E; auto).
    split; [apply K1, KA|].
    destruct r2 as [outs|e| |]; injection E as <-; try exact I.
    destruct KB as (st' & Ha & Hb & Hc & Hd & He). exists st'. repeat split; auto.
    destruct y; cbn [ended]; auto. constructor; [|exact He].
    destruct Y1 as (bytes & Wb & Fb). exists bytes. split; [exact Wb|]. intros d Kd. apply Fb, Hb, Kd.
Qed.

(** C33.  Any file [d], any program (split anywhere into a part that succeeds and a
    part that may stop with an error at any call), any pattern of write faults:
    the data that was there is unchanged, and every box that EndBox has closed is
    whole: its bytes are its header followed by the same content as right after
    EndBox, and ReadBoxInfo there returns what EndBox returned (for a box of size
    0 the size is the distance to the end of the file). *)
Theorem C33_finished_data_stays : forall d faults ops1 ops2 outs w1 r w2,
  sizes_ok [] (ops1 ++ ops2) -> lenN d + volume (ops1 ++ ops2) < 2 ^ 62 ->
  exec_all ops1 (at_end d faults) = (Ok outs, w1) -> exec_all ops2 w1 = (r, w2) ->
  takeN (lenN d) (o_data (wr_file w2)) = d /\
  forall bi, In bi (ended outs) ->
    (exists bytes, whole bi bytes /\ lenN bytes = bi_size bi /\
       takeN (bi_size bi) (skipN (bi_offset bi) (o_data (wr_file w1))) = bytes /\
       takeN (bi_size bi) (skipN (bi_offset bi) (o_data (wr_file w2))) = bytes) /\
    (lenN (o_data (wr_file w2)) < 2 ^ 63 -> bi_eof bi = false ->
       fst (read_box_info (o_data (wr_file w2)) (bi_offset bi)) = Ok bi).
Proof.
  intros d faults ops1 ops2 outs w1 r w2 S V E1 E2.
  change (2 ^ 62) with 4611686018427387904 in V.
  assert (H0 : holds (at_end d faults) (d, [])) by (repeat split).
  destruct (run_keeps ops1 ops2 _ (d, []) _ _ H0 S ltac:(change (2 ^ 63) with 9223372036854775808; unfold len_of; cbn [fst snd render]; lia) E1)
    as [_ (st & H1 & K1 & S1 & V1 & W1)].
  destruct (run_keeps ops2 [] w1 st r w2 H1 ltac:(rewrite app_nil_r; exact S1) ltac:(rewrite app_nil_r; exact V1) E2) as [K2 _].
  assert (K1' : keeps st (o_data (wr_file w1))).
  { destruct st as [b0 fs]. destruct H1 as (X & _). rewrite X, <- (app_nil_r (render b0 fs)). apply keeps_render. }
  split.
  - apply K1 in K2. destruct K2 as (tl & -> & _). now apply takeN_app_exact.
  - intros bi I. rewrite Forall_forall in W1. destruct (W1 bi I) as (bytes & Wh & Fx).
    assert (L : lenN bytes = bi_size bi).
    { destruct Wh as (f & content & -> & Ht & Hs & _). rewrite lenN_app, lenN_header by exact Ht. symmetry. exact Hs. }
    split; [exists bytes; rewrite <- L; auto|].
    intros LB EO. specialize (Fx _ K2). destruct Wh as (f & content & B & Ht & Hs & Hh & He & Hc & Hsm).
    assert (SK : exists y, skipN (bi_offset bi) (o_data (wr_file w2)) = bytes ++ y).
    { exists (skipN (lenN bytes) (skipN (bi_offset bi) (o_data (wr_file w2)))). rewrite <- Fx at 1. now rewrite takeN_skipN. }
    destruct SK as [y SK].
    assert (SL : bi_size bi < 2 ^ 63).
    { apply (f_equal (@lenN _)) in SK. rewrite lenN_skipN, lenN_app, L in SK. lia. }
    change (2 ^ 63) with 9223372036854775808 in SL.
    assert (IH : iso_header (skipN (bi_offset bi) (o_data (wr_file w2))) (Ok (bi_size bi, bi_hsize bi, bi_type bi, bi_eof bi))).
    { rewrite SK, B, <- app_assoc, Hh, He, Hs. destruct f; cbn [header hsize eof_of] in *.
      - rewrite <- app_assoc. apply ih_small; [|exact Ht]. specialize (Hsm eq_refl). lia.
      - rewrite <- !app_assoc. apply ih_large; [|exact Ht]. change (2 ^ 64) with 18446744073709551616. lia.
      - congruence. }
    destruct (read_box_info_spec _ _ _ LB IH) as (p' & R & _). rewrite R. cbn [fst].
    destruct bi as [o s h t e c]. cbn in Hc |- *. now rewrite Hc.
Qed.
Print Assumptions C33_finished_data_stays.

(** Two boxes are closed ([free] and [skip] in [moov]); then the call that closes
    [moov] fails after writing 3 bytes of the header. *)
Definition early : list op := takeN 9 prog.
Definition late : list op := skipN 9 prog.
Definition faulty : list (option N) := repeat None 9 ++ [Some 3].
Example C33_case :
  match exec_all early (at_end [] faulty) with
  | (Ok outs, w1) =>
      match exec_all late w1 with
      | (r, w2) => (r, ended outs, lenN (o_data (wr_file w1)), takeN 24 (skipN 16 (o_data (wr_file w1))), takeN 24 (skipN 16 (o_data (wr_file w2))))
                   = (Err EWrite, [mkbi 32 11 8 (bt "free") false ctx0; mkbi 43 16 16 (bt "skip") false ctx0], 59,
                      hex "000000016d6f6f7600000000000000000000000b66726565", hex "000000016d6f6f7600000000000000000000000b66726565")
      end
  | _ => False
  end.
Proof. vm_compute. reflexivity. Qed.
Example C33_case_sizes : sizes_ok [] (early ++ late) /\ lenN ([] : list byte) + volume (early ++ late) < 2 ^ 62.
Proof. vm_compute. repeat split; intros; congruence. Qed.

(** C35.  CopyBox at the end of the file appends the [Size] bytes found at
    [Offset] of the source; it fails if they are not all there, and without write
    faults only then.  What was there before is in any case unchanged. *)
Lemma chunks_panic : forall k p w, fst (w_chunks k p w) <> Panic.
Proof.
  induction k as [|k IH]; intros p w; [discriminate|]. cbn [w_chunks]. destruct p as [|x p]; [discriminate|].
  unfold bind, w_write, lift_o, o_write. destruct (o_faults (wr_file w)) as [|[j|] r]; cbn [fst snd]; try discriminate; apply IH.
Qed.
Lemma copy_panic : forall src bi w, fst (copy_box src bi w) <> Panic.
Proof.
  intros src bi w. unfold copy_box. destruct (_ <=? bi_offset bi); [discriminate|]. destruct (_ <=? bi_size bi); [discriminate|].
  cbv zeta. set (p := takeN _ _). unfold bind. pose proof (chunks_panic (S (List.length p)) p w) as Q.
  destruct (w_chunks _ p w) as [[]]; cbn [fst] in *; try discriminate; [|auto]. destruct (_ =? _); discriminate.
Qed.
Lemma chunks_stack : forall k p f stk,
  fst (w_chunks k p (mkwr f stk)) = fst (w_chunks k p (mkwr f [])) /\
  wr_file (snd (w_chunks k p (mkwr f stk))) = wr_file (snd (w_chunks k p (mkwr f []))) /\
  wr_stack (snd (w_chunks k p (mkwr f stk))) = stk.
Proof.
  induction k as [|k IH]; intros p f stk; [repeat split|]. cbn [w_chunks]. destruct p as [|x p]; [repeat split|].
  set (q := x :: p). unfold bind, w_write, lift_o. cbn [wr_file wr_stack].
  destruct (o_write (takeN 32768 q) f) as [[[]|e| |] f']; try (repeat split). apply IH. apply IH. apply IH.
Qed.
Lemma copy_stack : forall src bi f stk,
  fst (copy_box src bi (mkwr f stk)) = fst (copy_box src bi (mkwr f [])) /\
  wr_file (snd (copy_box src bi (mkwr f stk))) = wr_file (snd (copy_box src bi (mkwr f []))) /\
  wr_stack (snd (copy_box src bi (mkwr f stk))) = stk.
Proof.
  intros src bi f stk. unfold copy_box.
  destruct (_ <=? bi_offset bi); [repeat split|]. destruct (_ <=? bi_size bi); [repeat split|].
  cbv zeta. set (p := takeN _ _). unfold bind.
  destruct (chunks_stack (S (List.length p)) p f stk) as (A & B & C).
  destruct (w_chunks _ p (mkwr f stk)) as [r1 w1]. destruct (w_chunks _ p (mkwr f [])) as [r2 w2].
  cbn [fst snd] in *. subst r1. destruct r2; cbn [fst snd]; auto. destruct (_ =? _); auto.
Qed.
Theorem C35_copy_box : forall src bi d faults stk r w',
  copy_box src bi (mkwr (mkof d (lenN d) faults) stk) = (r, w') ->
  match r with
  | Ok _ => available src bi /\ o_data (wr_file w') = d ++ cut src bi /\
            o_pos (wr_file w') = lenN (o_data (wr_file w')) /\ wr_stack w' = stk
  | Err _ => takeN (lenN d) (o_data (wr_file w')) = d /\ (faults = [] -> ~ available src bi)
  | _ => False
  end.
Proof.
  intros src bi d faults stk r w' E.
  destruct (copy_stack src bi (mkof d (lenN d) faults) stk) as (A & B & C). rewrite E in A, B, C. cbn [fst snd] in *.
  assert (H : holds (mkwr (mkof d (lenN d) faults) []) (d, [])) by (repeat split).
  pose proof (copy_outcome src bi _ _ H) as O. cbn [exec] in O. unfold outcome, bind in O.
  destruct (copy_box src bi (mkwr (mkof d (lenN d) faults) [])) as [r0 w0]. cbn [fst snd] in *. subst r0.
  destruct r as [[]|e| |]; cbn [ret fst snd] in O.
  - destruct O as [(_ & Av & H1) _]. cbn [add] in H1. destruct H1 as (H1 & H2 & _). cbn [render] in *.
    rewrite B. rewrite H1, H2. auto.
  - destruct O as [K N]. cbn [keeps] in K. destruct K as (tl & K & _). rewrite B, K. split; [now apply takeN_app_exact|].
    intros ->. apply N. reflexivity.
  - apply (copy_panic src bi (mkwr (mkof d (lenN d) faults) stk)). now rewrite E.
  - contradiction.
Qed.
Print Assumptions C35_copy_box.
Example C35_case :
  (fst (copy_box (hex "0011223344") (mkbi 1 3 8 [] false ctx0) (mkwr (new_ofile (hex "ff") 1) [])),
   o_data (wr_file (snd (copy_box (hex "0011223344") (mkbi 1 3 8 [] false ctx0) (mkwr (new_ofile (hex "ff") 1) [])))),
   fst (copy_box (hex "0011223344") (mkbi 1 5 8 [] false ctx0) (mkwr (new_ofile (hex "ff") 1) [])),
   fst (copy_box (hex "0011223344") (mkbi 1 18446744073709551615 8 [] false ctx0) (mkwr (new_ofile (hex "ff") 1) [])))
  = (Ok tt, hex "ff112233", Err EEOF, Err (EMsg "failed to copy box")).
Proof. vm_compute. reflexivity. Qed.

(** C34.  A box with an 8-byte header that outgrew 4 GiB.  EndBox does return an
    error; but it has by then written a header of 16 bytes over the header of 8,
    so the first 8 bytes of the content are lost. *)
Theorem C34_outgrown_partial : forall d bi stk,
  bi_hsize bi = 8 -> bi_eof bi = false -> lenN (bi_type bi) = 4 ->
  bi_offset bi + 2 ^ 32 <= lenN d -> lenN d < 2 ^ 63 ->
  exists pos,
    end_box (mkwr (mkof d (lenN d) []) (bi :: stk)) =
      (Err (EMsg "header size changed"),
       mkwr (mkof (takeN (bi_offset bi) d ++
                   (N_to_be 4 1 ++ bi_type bi ++ N_to_be 8 (lenN d - bi_offset bi)) ++
                   skipN (bi_offset bi + 16) d) pos []) stk).
Proof.
  intros d bi stk Hh He Ht Hs Hd. change (2 ^ 63) with 9223372036854775808 in Hd. change (2 ^ 32) with 4294967296 in Hs.
  assert (X : sub64 (lenN d) (bi_offset bi) = lenN d - bi_offset bi).
  { unfold sub64, W64. rewrite (N.mod_small (bi_offset bi)) by lia.
    replace (lenN d + 18446744073709551616 - bi_offset bi) with (lenN d - bi_offset bi + 1 * 18446744073709551616) by lia.
    rewrite N.mod_add by lia. apply N.mod_small. lia. }
  assert (HB : header_bytes (set_size bi (lenN d - bi_offset bi)) = N_to_be 4 1 ++ bi_type bi ++ N_to_be 8 (lenN d - bi_offset bi)).
  { unfold header_bytes. cbn [set_size bi_eof bi_size bi_hsize bi_type]. rewrite He.
    destruct (N.ltb_spec (lenN d - bi_offset bi) W32) as [Y|Y]; [unfold W32 in Y; lia|reflexivity]. }
  set (hb := N_to_be 4 1 ++ bi_type bi ++ N_to_be 8 (lenN d - bi_offset bi)) in *.
  assert (Lh : lenN hb = 16) by (unfold hb; rewrite !lenN_app, !lenN_N_to_be, Ht; reflexivity).
  eexists. unfold end_box, write_box_info, bind, lift_o, o_tell, o_seek, ret, fail. cbn [wr_file wr_stack o_pos].
  rewrite X. cbn [wr_file wr_stack o_pos o_data o_faults]. cbn [set_size bi_offset].
  destruct (N.ltb_spec (bi_offset bi) 9223372036854775808) as [_|Y]; [|lia].
  cbn [wr_file wr_stack o_pos o_data o_faults]. rewrite HB. unfold o_write. cbn [o_faults o_data o_pos].
  cbn [bi_hsize set_size]. rewrite Lh, Hh. cbn [N.eqb Pos.eqb negb wr_file wr_stack]. rewrite overwrite_in by lia. rewrite Lh. reflexivity.
Qed.
Print Assumptions C34_outgrown_partial.
Lemma C34_after_put : forall payload,
  exec_all [OStart (mkbi 0 0 8 (bt "mdat") false ctx0); OPut payload] (at_end [] []) =
  (Ok [Started (mkbi 0 0 8 (bt "mdat") false ctx0); Wrote],
   mkwr (mkof (hex "000000006d646174" ++ payload) (8 + lenN payload) []) [mkbi 0 0 8 (bt "mdat") false ctx0]).
Proof.
  intros payload. rewrite exec_cons.
  assert (E : exec (OStart (mkbi 0 0 8 (bt "mdat") false ctx0)) (at_end [] []) =
     (Ok (Started (mkbi 0 0 8 (bt "mdat") false ctx0)), mkwr (mkof (hex "000000006d646174") 8 []) [mkbi 0 0 8 (bt "mdat") false ctx0])) by reflexivity.
  rewrite E, exec_cons. clear E. cbn [exec]. unfold bind, w_write, lift_o, o_write, ret. cbn [wr_file wr_stack o_faults o_data o_pos].
  pose proof (overwrite_end (hex "000000006d646174") payload) as O. change (lenN (hex "000000006d646174")) with 8 in O.
  rewrite O. reflexivity.
Qed.
(** an [mdat] whose content is 4 GiB of zeros: EndBox changes the content *)
Lemma C34_clobbered : forall tl : list byte, lenN tl = 4294967288 -> exists payload w1 w2,
  fst (exec_all [OStart (mkbi 0 0 8 (bt "mdat") false ctx0); OPut payload] (at_end [] [])) = Ok [Started (mkbi 0 0 8 (bt "mdat") false ctx0); Wrote] /\
  snd (exec_all [OStart (mkbi 0 0 8 (bt "mdat") false ctx0); OPut payload] (at_end [] [])) = w1 /\
  end_box w1 = (Err (EMsg "header size changed"), w2) /\
  takeN 8 (skipN 8 (o_data (wr_file w1))) = hex "0000000000000000" /\
  takeN 8 (skipN 8 (o_data (wr_file w2))) = hex "0000000100000008".
Proof.
  intros tl Ln.
  exists (hex "0000000000000000" ++ tl).
  rewrite (C34_after_put (hex "0000000000000000" ++ tl)). cbn [fst snd].
  set (d := hex "000000006d646174" ++ hex "0000000000000000" ++ tl).
  assert (Ld : 8 + lenN (hex "0000000000000000" ++ tl) = lenN d).
  { unfold d. rewrite !lenN_app. change (lenN (hex "000000006d646174")) with 8. reflexivity. }
  assert (Ld2 : lenN d = 4294967304).
  { rewrite <- Ld, lenN_app, Ln. reflexivity. }
  rewrite Ld.
  destruct (C34_outgrown_partial d (mkbi 0 0 8 (bt "mdat") false ctx0) [] eq_refl eq_refl eq_refl) as [pos E].
  { rewrite Ld2. cbn [bi_offset]. change (2 ^ 32) with 4294967296. lia. }
  { rewrite Ld2. reflexivity. }
  eexists. eexists. split; [reflexivity|]. split; [reflexivity|]. split; [exact E|].
  cbn [wr_file o_data bi_offset bi_type]. rewrite Ld2. split.
  - unfold d. rewrite skipN_app_exact by reflexivity. now apply takeN_app_exact.
  - rewrite takeN_0. cbn [app]. change (hex "0000000100000008") with (N_to_be 8 (4294967304 - 0)).
    generalize (skipN (0 + 16) d) as z. intros z.
    rewrite app_assoc, <- (app_assoc _ (N_to_be 8 _)).
    rewrite skipN_app_exact by reflexivity. now apply takeN_app_exact.
Qed.
Theorem C34_refuted : exists payload w1 w2,
  fst (exec_all [OStart (mkbi 0 0 8 (bt "mdat") false ctx0); OPut payload] (at_end [] [])) = Ok [Started (mkbi 0 0 8 (bt "mdat") false ctx0); Wrote] /\
  snd (exec_all [OStart (mkbi 0 0 8 (bt "mdat") false ctx0); OPut payload] (at_end [] [])) = w1 /\
  end_box w1 = (Err (EMsg "header size changed"), w2) /\
  takeN 8 (skipN 8 (o_data (wr_file w1))) = hex "0000000000000000" /\
  takeN 8 (skipN 8 (o_data (wr_file w2))) = hex "0000000100000008".
Proof. exact (C34_clobbered _ (eq_trans (lenN_repeat _ bzero (N.to_nat 4294967288)) (N2Nat.id _))). Qed.
Print Assumptions C34_refuted.
