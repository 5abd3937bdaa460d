(** C28: ReadData.  C27: files that end too early. *)
From Verif Require Import Base BaseProofs Schema Structs Registry Unmarshal BoxInfo ReadTree SpecTree Flow SpecTrace TraceProofs PropTrace.
Local Open Scope string_scope.
Local Open Scope list_scope.
Local Open Scope N_scope.
Local Open Scope monad_scope.

(** ** C28.  For a box with a payload size that makes sense: its payload, that is
    the [bi_size bi - bi_hsize bi] bytes behind the header, and their number; or an
    error if the stream ends before. *)
Theorem C28_read_data_partial : forall data bi pos,
  bi_hsize bi <= bi_size bi -> bi_size bi - bi_hsize bi < 2 ^ 63 -> bi_hsize bi < 2 ^ 64 ->
  bi_offset bi + bi_hsize bi < 2 ^ 63 ->
  let n := bi_size bi - bi_hsize bi in
  let payload := takeN n (skipN (bi_offset bi + bi_hsize bi) data) in
  fst (read_data data bi pos) =
    if n =? 0 then Ok ([], 0)
    else if bi_offset bi + bi_size bi <=? lenN data then Ok (payload, n) else Err EEOF.
Proof.
  intros data bi pos H1 H2 HH H3 n payload. change (2 ^ 63) with 9223372036854775808 in *.
  change (2 ^ 64) with 18446744073709551616 in *.
  unfold read_data, seek_to_payload, s_seek. unfold bind at 1.
  assert (W : w64 (bi_offset bi + bi_hsize bi) = bi_offset bi + bi_hsize bi) by (unfold w64, W64; apply N.mod_small; lia).
  rewrite W. destruct (N.ltb_spec (bi_offset bi + bi_hsize bi) 9223372036854775808); [|lia].
  assert (PZ : payload_size bi = n).
  { unfold payload_size, sub64, W64, n. rewrite (N.mod_small (bi_hsize bi)) by lia.
    replace (bi_size bi + 18446744073709551616 - bi_hsize bi) with (bi_size bi - bi_hsize bi + 1 * 18446744073709551616) by lia.
    rewrite N.mod_add by lia. apply N.mod_small. lia. }
  rewrite PZ. unfold bind, s_copy.
  destruct (N.eqb_spec n 0) as [E|E]; cbn [orb]; [rewrite E; reflexivity|].
  destruct (N.leb_spec 9223372036854775808 n); [unfold n in *; lia|].
  cbv zeta. rewrite lenN_takeN, lenN_skipN.
  destruct (N.leb_spec (bi_offset bi + bi_size bi) (lenN data)).
  - destruct (N.eqb_spec (N.min n (lenN data - (bi_offset bi + bi_hsize bi))) n); [reflexivity|unfold n in *; lia].
  - destruct (N.eqb_spec (N.min n (lenN data - (bi_offset bi + bi_hsize bi))) n); [unfold n in *; lia|reflexivity].
Qed.
Print Assumptions C28_read_data_partial.
Example C28_case :
  let bi := mkbi 2 12 8 (bt "mdat") false ctx0 in
  fst (read_data (hex "00000000000c6d6461740102030405") bi 9) = Ok (hex "01020304", 4) /\
  fst (read_data (hex "00000000000c6d646174010203") bi 9) = Err EEOF.
Proof. vm_compute. auto. Qed.

(** A size smaller than the header: nothing is written, and the number returned
    is 2^64 - 4, without an error. *)
Theorem C28_read_data_refuted :
  exists data bi, fst (read_box_info data 0) = Ok bi /\
    fst (read_data data bi 0) = Ok ([], 18446744073709551612).
Proof. exists (hex "000000046d64617401020304"), (mkbi 0 4 8 (bt "mdat") false ctx0). vm_compute. auto. Qed.
Print Assumptions C28_read_data_refuted.

(** Exactly: ReadData reports the number of bytes it wrote if and only if the size
    is at least the header's, and the payload is below 2^63 bytes. *)
Theorem C28_exact : forall data bi pos,
  bi_size bi < 2 ^ 64 -> bi_offset bi + bi_hsize bi < 2 ^ 63 ->
  ((forall payload n, fst (read_data data bi pos) = Ok (payload, n) -> n = lenN payload) <->
   bi_hsize bi <= bi_size bi /\ bi_size bi - bi_hsize bi < 2 ^ 63).
Proof.
  intros data bi pos H1 H3. split.
  - intros H. unfold read_data, seek_to_payload, s_seek in H.
    change (2 ^ 63) with 9223372036854775808 in *. change (2 ^ 64) with 18446744073709551616 in *.
    assert (W : w64 (bi_offset bi + bi_hsize bi) = bi_offset bi + bi_hsize bi) by (unfold w64, W64; apply N.mod_small; lia).
    unfold bind at 1 in H. rewrite W in H.
    destruct (N.ltb_spec (bi_offset bi + bi_hsize bi) 9223372036854775808); [|lia].
    assert (PZ : payload_size bi = if bi_hsize bi <=? bi_size bi then bi_size bi - bi_hsize bi
                                   else bi_size bi + 18446744073709551616 - bi_hsize bi).
    { unfold payload_size, sub64, W64. rewrite (N.mod_small (bi_hsize bi)) by lia.
      destruct (N.leb_spec (bi_hsize bi) (bi_size bi)); lia. }
    destruct (N.lt_ge_cases (payload_size bi) 9223372036854775808) as [L|L].
    + rewrite PZ in L. destruct (N.leb_spec (bi_hsize bi) (bi_size bi)); lia.
    + exfalso. specialize (H [] (payload_size bi)). unfold bind, s_copy in H.
      destruct (N.leb_spec 9223372036854775808 (payload_size bi)); [|lia].
      rewrite orb_true_r in H. specialize (H eq_refl). cbn in H. lia.
  - intros [A B] payload n E.
    rewrite C28_read_data_partial in E by (auto; change (2 ^ 63) with 9223372036854775808 in *; change (2 ^ 64) with 18446744073709551616; lia).
    cbv zeta in E. destruct (N.eqb_spec (bi_size bi - bi_hsize bi) 0); [now injection E as <- <-|].
    destruct (N.leb_spec (bi_offset bi + bi_size bi) (lenN data)); [|discriminate].
    injection E as <- <-. rewrite lenN_takeN, lenN_skipN. lia.
Qed.
Print Assumptions C28_exact.

(** ** C27.  A thorough handler reads the data of every box or expands it, and passes
    every error on; it refuses boxes with an absurd size, and QuickTime files,
    where a few bytes at the end of a box need not be there. *)
Definition thorough {St V P} (h : handler_t St V P) : Prop :=
  forall bi p q s,
    (exists s' e, h bi p q s = HFail s' e) \/
    (bi_hsize bi <= bi_size bi /\ bi_offset bi + bi_size bi < 2 ^ 63 /\ IsQuickTimeCompatible (bi_ctx bi) = false /\
     ((exists f, h bi p q s = HReadData (fun r => match r with Ok x => HRet s (f x) | Err e => HFail s e | _ => HFail s EEOF end)) \/
      (exists g q', h bi p q s = HExpand s q' (fun r s' => match r with Ok vs => HRet s' (g vs) | Err e => HFail s' e | _ => HFail s' EEOF end)))).

(** from [lo] to [hi], the data consists of whole boxes *)
Inductive whole_boxes (data : list byte) : N -> N -> Prop :=
| W_nil : forall lo, whole_boxes data lo lo
| W_cons : forall lo bi hi, fst (read_box_info data lo) = Ok bi -> lo + bi_size bi <= lenN data ->
    whole_boxes data (lo + bi_size bi) hi -> whole_boxes data lo hi.

Section Cut.
  Variable data : list byte.
  Hypothesis data_small : lenN data < 2 ^ 62.
  Context {St V P : Type}.
  Variable h : handler_t St V P.
  Hypothesis h_thorough : thorough h.

  Definition full_level (fuel : nat) : Prop :=
    forall root total pth ctx params lo s vs s', lev data h fuel root total pth ctx params lo s = (Ok vs, s') ->
      lo <= lenN data -> total < 2 ^ 64 ->
      if root : bool then exists hi, whole_boxes data lo hi /\ hi <= lenN data /\ no_header data hi
      else IsQuickTimeCompatible ctx = false -> lo + total <= lenN data.

  Lemma visit_full : forall fuel b ctx pth params s v b' s', full_level fuel -> inside data b ->
    visit data h (lev data h fuel false) (set_ctx b ctx) pth params s = (Ok (v, b'), s') ->
    bi_offset b + bi_size b <= lenN data /\ bi_hsize b <= bi_size b /\ IsQuickTimeCompatible (bi_ctx b') = false.
  Proof.
    intros fuel b ctx pth params s v b' s' IH I H. unfold visit in H.
    destruct (prep data (set_ctx b ctx) pth) as [bi|e| |] eqn:EP; try discriminate.
    destruct (prep_same data _ _ _ EP) as (c & Q).
    assert (QB : bi_size bi = bi_size b /\ bi_hsize bi = bi_hsize b /\ bi_offset bi = bi_offset b) by (subst bi; auto).
    destruct QB as (Q1 & Q2 & Q3). assert (Ib : inside data bi) by (subst bi; exact I).
    rewrite <- Q1, <- Q2, <- Q3. cbv zeta in H.
    pose proof data_small as DS. change (2 ^ 62) with 4611686018427387904 in DS.
    destruct (h_thorough bi (pth ++ [bi_type bi]) params s) as [(s1 & e & E)|(H1 & H2 & H3 & [(f & E)|(g & q & E)])].
    - rewrite E in H. discriminate.
    - change (2 ^ 63) with 9223372036854775808 in *. rewrite E in H. cbn [sem] in H.
      pose proof (C28_read_data_partial data bi 0 H1) as RD. cbv zeta in RD. change (2 ^ 63) with 9223372036854775808 in RD.
      change (2 ^ 64) with 18446744073709551616 in RD.
      destruct Ib as [Ib1 Ib2]. unfold dat in H. rewrite RD in H by lia.
      destruct (N.eqb_spec (bi_size bi - bi_hsize bi) 0).
      + destruct (fits _); [|discriminate]. assert (QQ : bi = b') by (now injection H). subst b'. split; [lia|auto].
      + destruct (N.leb_spec (bi_offset bi + bi_size bi) (lenN data)); [|discriminate].
        destruct (fits _); [|discriminate]. assert (QQ : bi = b') by (now injection H). subst b'. split; [lia|auto].
    - change (2 ^ 63) with 9223372036854775808 in *. rewrite E in H. cbn [sem] in H.
      destruct (dec_spec data data_small bi 0 Ib) as (p0 & _ & D).
      destruct (dec data bi) as [[[d x] n]|e| |] eqn:ED; try discriminate.
      destruct D as (-> & D1 & D2).
      assert (Hn : n <= bi_size bi - bi_hsize bi).
      { destruct Ib as [Ib1 Ib2]. unfold payload_size, sub64, W64 in D2. rewrite (N.mod_small (bi_hsize bi)) in D2 by lia.
        replace (bi_size bi + 18446744073709551616 - bi_hsize bi) with (bi_size bi - bi_hsize bi + 1 * 18446744073709551616) in D2 by lia.
        rewrite N.mod_add in D2 by lia. rewrite N.mod_small in D2 by lia. exact D2. }
      assert (SP : span bi n = bi_size bi - bi_hsize bi - n).
      { unfold span, sub64, W64. rewrite (N.mod_small (bi_offset bi + bi_hsize bi + n)) by lia.
        replace (bi_offset bi + bi_size bi + 18446744073709551616 - (bi_offset bi + bi_hsize bi + n))
          with (bi_size bi - bi_hsize bi - n + 1 * 18446744073709551616) by lia.
        rewrite N.mod_add by lia. apply N.mod_small. lia. }
      destruct (lev data h fuel false (span bi n) (pth ++ [bi_type bi]) (child_ctx (bi_type bi) (bi_ctx bi)) q (bi_offset bi + bi_hsize bi + n) s)
        as [[vs|e| |] s1] eqn:EL; try discriminate.
      destruct (fits _); [|discriminate]. assert (QQ : bi = b') by (now injection H). subst b'.
      assert (S64 : span bi n < 2 ^ 64) by (rewrite SP; change (2 ^ 64) with 18446744073709551616; lia).
      pose proof (IH _ _ _ _ _ _ _ _ _ EL D1 S64) as F. cbv iota in F.
      assert (QT : IsQuickTimeCompatible (child_ctx (bi_type bi) (bi_ctx bi)) = false).
      { unfold child_ctx. destruct (bt_eqb _ _); [exact H3|]. destruct (bt_eqb _ _); [exact H3|].
        destruct (_ && _ && _); [exact H3|]. destruct (bt_eqb _ _); exact H3. }
      specialize (F QT). rewrite SP in F. split; [lia|auto].
  Qed.
  Lemma all_full : forall fuel, full_level fuel.
  Proof.
    pose proof data_small as DS. change (2 ^ 62) with 4611686018427387904 in DS.
    induction fuel as [|fuel IH]; intros root total pth ctx params lo s vs s' H HL HT; [discriminate|]. cbn [lev] in H.
    destruct (root || (SmallHeaderSize <=? total)) eqn:ER.
    2:{ apply orb_false_iff in ER. destruct ER as [-> ER]. intros QT. rewrite QT in H.
        destruct (N.eqb_spec total 0); [lia|]. discriminate. }
    destruct (box_at_cases data data_small lo) as [(b & EB & BO & BI & _ & _ & _)|[[EB E]|[EB _]]]; rewrite EB in H; try discriminate.
    2:{ destruct root; [|discriminate]. exists lo. split; [constructor|]. split; [exact HL|exact E]. }
    destruct (negb root && (total <? bi_size b)) eqn:EN; [discriminate|].
    destruct (visit data h (lev data h fuel false) (set_ctx b ctx) pth params s) as [[[v b']|e| |] s1] eqn:EV; try discriminate.
    destruct (visit_full _ _ _ _ _ _ _ _ _ IH BI EV) as (F1 & F2 & F3). rewrite BO in F1.
    assert (NC : IsQuickTimeCompatible ctx = false -> IsQuickTimeCompatible (next_ctx b' ctx) = false).
    { intros Q. unfold next_ctx. rewrite F3. cbv zeta. destruct (bt_eqb _ _); exact Q. }
    assert (W : w64 (lo + bi_size b) = lo + bi_size b) by (unfold w64, W64; apply N.mod_small; lia).
    rewrite W in H.
    destruct (lev data h fuel root (sub64 total (bi_size b)) pth (next_ctx b' ctx) params (lo + bi_size b) s1) as [[vs2|e| |] s2] eqn:E2; try discriminate.
    pose proof (IH _ _ _ _ _ _ _ _ _ E2 F1 (N.mod_lt _ (2 ^ 64) ltac:(discriminate))) as F. clear E2. rename F into E2.
    destruct root.
    - destruct E2 as (hi & W1 & W2 & W3). exists hi. split; [|auto]. econstructor; eauto.
    - intros QT. specialize (E2 (NC QT)). cbn [negb andb] in EN. apply N.ltb_ge in EN.
      change (2 ^ 64) with 18446744073709551616 in HT. unfold sub64, W64 in E2. rewrite (N.mod_small (bi_size b)) in E2 by lia.
      replace (total + 18446744073709551616 - bi_size b) with (total - bi_size b + 1 * 18446744073709551616) in E2 by lia.
      rewrite N.mod_add in E2 by lia. rewrite N.mod_small in E2 by lia. lia.
  Qed.
End Cut.

(** With a thorough handler, success means that the file consists of whole boxes,
    with at most an incomplete header behind the last one. *)
Theorem C27_truncated_partial : forall data St V P (h : handler_t St V P) params pos s vs pos' s',
  lenN data < 2 ^ 62 -> thorough h ->
  read_box_structure std_registry data h params (pos, s) = (Ok vs, (pos', s')) ->
  exists hi, whole_boxes data 0 hi /\ hi <= lenN data /\ lenN data < hi + 16 /\ no_header data hi.
Proof.
  intros data St V P h params pos s vs pos' s' HD HT H.
  unfold read_box_structure, bind, lift_s, s_seek in H. cbn [fst snd] in H.
  change (0 <? 9223372036854775808) with true in H. cbv iota in H.
  destruct (lev_spec data HD h (tree_fuel data) true 0 [] ctx0 params 0 s) as (q1 & L1). rewrite L1 in H.
  destruct (lev data h _ _ _ _ _ _ _ _) as [r s1] eqn:EL. cbn [fst snd] in *. injection H as -> _ _.
  destruct (all_full data HD h HT _ _ _ _ _ _ _ _ _ _ EL) as (hi & W1 & W2 & W3); [lia|reflexivity|].
  exists hi. repeat split; auto. destruct W3 as [W3|[W3 _]]; lia.
Qed.
Print Assumptions C27_truncated_partial.

(** A thorough handler: expands moov, reads the rest *)
Definition reader : handler_t unit N unit := fun bi p q s =>
  if (bi_size bi <? bi_hsize bi) || (2 ^ 63 <=? bi_offset bi + bi_size bi) || IsQuickTimeCompatible (bi_ctx bi)
  then HFail s (EMsg "no") else
  if bt_eqb (bi_type bi) (bt "moov")
  then HExpand s q (fun r s' => match r with Ok vs => HRet s' (lenN vs) | Err e => HFail s' e | _ => HFail s' EEOF end)
  else HReadData (fun r => match r with Ok x => HRet s (snd x) | Err e => HFail s e | _ => HFail s EEOF end).
Lemma reader_thorough : thorough reader.
Proof.
  intros bi p q s. unfold reader.
  destruct (N.ltb_spec (bi_size bi) (bi_hsize bi)) as [|H1]; cbn [orb]; [left; eauto|].
  destruct (N.leb_spec (2 ^ 63) (bi_offset bi + bi_size bi)) as [|H2]; cbn [orb]; [left; eauto|].
  destruct (IsQuickTimeCompatible (bi_ctx bi)) eqn:H3; [left; eauto|].
  right. split; [exact H1|]. split; [exact H2|]. split; [reflexivity|].
  destruct (bt_eqb _ _); [right|left].
  - exists (fun vs => lenN vs), q. reflexivity.
  - exists snd. reflexivity.
Qed.
Example C27_case :
  let go s := fst (read_box_structure std_registry (hex s) reader tt (0, tt)) in
  (go "000000146d6f6f760000000c667265650102030400000009667265650f",
   go "000000146d6f6f760000000c66726565010203040000000966726565",
   go "000000146d6f6f760000000c6672656501020304000000096672656500000000096d6461",
   go "000000146d6f6f760000000c6672656501",
   go "000000146d6f6f760000000c") =
  (Ok [1; 1], Err EEOF, Ok [1; 1], Err EEOF, Err EEOF).
Proof. vm_compute. reflexivity. Qed.

(** The unrestricted statement fails twice: a file that ends inside a header is
    read without an error even by a thorough handler, and one that ends inside a
    top-level box is, by a handler that does not look at the payload. *)
Theorem C27_truncated_refuted :
  (exists data, fst (read_box_structure std_registry data reader tt (0, tt)) = Ok [0] /\
     data = hex "0000000866726565" ++ hex "000000096d6461") /\
  (exists data, fst (read_box_structure std_registry data (fun bi p q s => HRet s 0%N) tt (0, tt)) = Ok [0] /\
     data = takeN 12 (box_bytes (Box Small (bt "mdat") (hex "0102030405060708") [] []))).
Proof. split; eexists; split; try reflexivity; vm_compute; reflexivity. Qed.
Print Assumptions C27_truncated_refuted.
