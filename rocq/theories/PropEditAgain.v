(** C63: mp4tool edit without options keeps the contents of every box. *)
From Verif Require Import Base BaseProofs Schema Structs Methods Registry Marshal Unmarshal BoxInfo ReadTree Writer Text.
From Verif Require Import SpecTree SpecExtract SpecRoundTrip SpecReencode Reencode SpecWriter WriterProofs TreeProofs PropTree PropExtract
     Edit SpecEdit EditProofs PropEdit SpecEditAgain EditAgain.
Local Open Scope string_scope.
Local Open Scope list_scope.
Local Open Scope N_scope.

(** Any well-formed file whose boxes can be decoded, canonical or not: strings that
    end with their box, counted handler names, sizes of descriptors with needless
    groups or with fewer than four, QuickTime meta boxes, stray bytes in QuickTime
    files.  The command succeeds and writes a well-formed file with the same boxes
    in the same order, nested in the same way, each with the same type and form of
    header; boxes that are not copied are decoded to the same structures, by the
    same definitions, each field equal.
    Missing: boxes that are not [rewritable] (SpecReencode.v), for which it is
    false (below). *)
Theorem C63_edit_partial : forall ts,
  let data := file_bytes ts in
  let ts' := again_file data false 0 0 ts in
  lenN data < 2 ^ 45 -> list_wf true ts ->
  Forall (again_ok data) (list_file data ctx0 false 0 0 ts) ->
  Forall fits ts' -> lenN (file_bytes ts') < 2 ^ 61 ->
  edit_file no_options data = (Ok tt, file_bytes ts') /\
  list_wf true ts' /\
  same_file data (file_bytes ts') false 0 0 0 ts ts'.
Proof.
  intros ts data ts' HD HW Q F L.
  split; [|split].
  - destruct (file_again data HD ts [] false 0%Z (new_writer_of (new_ofile [] 0)) []) as (vs & w' & W & H & C).
    + reflexivity.
    + exact HW.
    + repeat split.
    + reflexivity.
    + exact Q.
    + exact F.
    + rewrite lenN_nil. change (lenN []) with 0. fold ts'. clear - L.
      change (2 ^ 61) with 2305843009213693952 in L. change (2 ^ 62) with 4611686018427387904. lia.
    + destruct (C21_walk _ _ _ (edit_handler no_options data) ts tt 0 _ _ _ (data_small data HD) HW W) as (p & E).
      unfold edit_file. fold data in E. rewrite E. cbn [snd e_panic e_w].
      destruct H as [H _]. cbn [render] in H. rewrite H. reflexivity.
  - apply wf_again_file; assumption.
  - exact (file_same data HD (file_bytes ts') L ts [] false 0%Z [] eq_refl HW Q eq_refl).
Qed.
Print Assumptions C63_edit_partial.

(** What it has written it leaves as it is. *)
Theorem C63_twice_partial : forall ts,
  let data := file_bytes ts in
  let ts' := again_file data false 0 0 ts in
  lenN data < 2 ^ 45 -> list_wf true ts ->
  Forall (again_ok data) (list_file data ctx0 false 0 0 ts) ->
  Forall closed (list_file data ctx0 false 0 0 ts) ->
  Forall fits ts' -> lenN (file_bytes ts') < 2 ^ 45 ->
  exists out, edit_file no_options data = (Ok tt, out) /\ edit_file no_options out = (Ok tt, out).
Proof.
  intros ts data ts' HD HW Q QC F L.
  assert (L1 : lenN (file_bytes ts') < 2 ^ 61).
  { clear - L. change (2 ^ 45) with 35184372088832 in L. change (2 ^ 61) with 2305843009213693952. lia. }
  destruct (C63_edit_partial ts HD HW Q F L1) as (E & W' & _).
  exists (file_bytes ts'). split; [exact E|].
  destruct (file_twice data HD (file_bytes ts') L1 ts [] false 0%Z [] eq_refl HW Q QC eq_refl) as [T1 T2].
  change (lenN []) with 0 in T1, T2. fold ts' in T1, T2.
  pose proof (C63_edit_partial ts' L W' T2) as E2. cbv zeta in E2. rewrite T1 in E2.
  destruct (E2 F L1) as (E3 & _). exact E3.
Qed.
Print Assumptions C63_twice_partial.

(** ** A file of which everything but [rewritable] holds *)
Definition name_hdlr : box :=
  Box Small (bt "hdlr") (hex "000000006d686c727669646500000000000000000000000003410042") [] [].
Definition name_again : box :=
  Box Small (bt "hdlr") (hex "000000006d686c727669646500000000000000000000000041004200") [] [].
Definition name_example : list box :=
  [ name_hdlr ].
Definition decodes (data : list byte) (e : entry) : Prop :=
  exists x d y, e_told e = Ok x /\
    decoded data (bi_ctx (e_info e)) (bi_offset (e_info e)) (e_box e) = Ok (d, y, lenN (payload (e_box e))).
Lemma decodes_b_ok : forall data l,
  forallb (fun e => match e_told e, decoded data (bi_ctx (e_info e)) (bi_offset (e_info e)) (e_box e) with
                    | Ok _, Ok (_, _, n) => n =? lenN (payload (e_box e))
                    | _, _ => false
                    end) l = true -> Forall (decodes data) l.
Proof.
  intros data l H. rewrite forallb_forall in H. rewrite Forall_forall. intros e I. apply H in I. unfold decodes.
  destruct (e_told e) as [x| | |]; try discriminate I. destruct (decoded data _ _ _) as [[[d y] n]| | |]; try discriminate I.
  apply N.eqb_eq in I. subst n. exists x, d, y. split; reflexivity.
Qed.
Theorem C63_name_refuted : exists ts,
  let data := file_bytes ts in
  let ts' := again_file data false 0 0 ts in
  list_wf true ts /\
  Forall (decodes data) (list_file data ctx0 false 0 0 ts) /\
  edit_file no_options data = (Ok tt, file_bytes ts') /\ list_wf true ts' /\
  ~ same_file data (file_bytes ts') false 0 0 0 ts ts'.
Proof.
  exists name_example. cbv zeta.
  assert (E : again_file (file_bytes name_example) false 0 0 name_example = [name_again]) by (vm_compute; reflexivity).
  rewrite E.
  split; [vm_compute; repeat split; intros; try discriminate; reflexivity|].
  split; [apply decodes_b_ok; vm_compute; reflexivity|].
  split; [vm_compute; reflexivity|].
  split; [vm_compute; repeat split; intros; try discriminate; reflexivity|].
  assert (E2 : match decoded (file_bytes name_example) ctx0 0 name_hdlr, decoded (file_bytes [name_again]) ctx0 0 name_again with
               | Ok (_, x, _), Ok (_, y, _) => val_eqb (VStruct x) (VStruct y)
               | _, _ => true
               end = false) by (vm_compute; reflexivity).
  assert (ET : enter (file_bytes name_example) ctx0 [] false 0 0 name_hdlr = Ok (false, 0%Z)) by (vm_compute; reflexivity).
  assert (EW : whole (bt "hdlr") ctx0 = false) by (vm_compute; reflexivity).
  clear E. generalize dependent (file_bytes [name_again]). generalize dependent (file_bytes name_example).
  intros data ET data' E2 [S _]. unfold name_hdlr, name_again in S. apply same_box_eq in S.
  destruct S as (q & k & S1 & _ & S3). fold name_hdlr name_again in S1, S3.
  rewrite ET in S1. injection S1 as <- <-. cbv zeta in S3. change (ctx_of ctx0 false 0 []) with ctx0 in S3.
  rewrite EW in S3. destruct S3 as (_ & _ & _ & (d & x & D1 & D2) & _). rewrite D1, D2 in E2.
  rewrite val_eqb_refl in E2. discriminate E2.
Qed.
Print Assumptions C63_name_refuted.

(** ** A file none of whose decoded boxes but a few is as Marshal writes it *)
Definition again_ok_b (data : list byte) (e : entry) : bool :=
  match e_told e with Ok _ => true | _ => false end &&
  match e_box e with
  | Box _ t own kids slack =>
      let c := bi_ctx (e_info e) in
      whole t c ||
      match decoded data c (bi_offset (e_info e)) (e_box e) with
      | Ok (d, x, n) =>
          (n =? lenN own) && rewritable d x &&
          (match kids with [] => true | _ => false end || String.eqb (bd_name d) "Meta" ||
           bytes_eqb (snd (marshal std_registry t c x [])) own)
      | _ => false
      end && match slack with [] => true | _ => IsQuickTimeCompatible c end
  end.
Lemma again_ok_b_ok : forall data l, forallb (again_ok_b data) l = true -> Forall (again_ok data) l.
Proof.
  intros data l H. rewrite forallb_forall in H. rewrite Forall_forall. intros e I. apply H in I.
  unfold again_ok_b in I. apply andb_prop in I. destruct I as [I1 I2]. split.
  - destruct (e_told e); try discriminate. eauto.
  - destruct (e_box e) as [f t own kids slack]. cbv zeta. intros W. rewrite W in I2. cbn [orb] in I2.
    apply andb_prop in I2. destruct I2 as [I2 I3]. split.
    + destruct (decoded data _ _ _) as [[[d x] n]| | |]; try discriminate I2. apply andb_prop in I2. destruct I2 as [I2 I4].
      apply andb_prop in I2. destruct I2 as [I2 I5]. apply N.eqb_eq in I2. subst n. exists d, x. split; [reflexivity|]. split; [exact I5|].
      apply orb_prop in I4. destruct I4 as [I4|I4]; [apply orb_prop in I4; destruct I4 as [I4|I4]|].
      * left. destruct kids; [reflexivity|discriminate].
      * right. left. now apply String.eqb_eq.
      * right. right. now apply bytes_eqb_eq.
    + destruct slack; auto.
Qed.
Definition closed_b (e : entry) : bool :=
  match e_box e with Box _ t _ kids _ => negb (whole t (bi_ctx (e_info e))) || match kids with [] => true | _ => false end end.
Lemma closed_b_ok : forall l, forallb closed_b l = true -> Forall closed l.
Proof.
  intros l H. rewrite forallb_forall in H. rewrite Forall_forall. intros e I. apply H in I.
  unfold closed_b in I. unfold closed. destruct (e_box e) as [f t own kids slack]. intros W. rewrite W in I. cbn [negb orb] in I.
  destruct kids; [reflexivity|discriminate I].
Qed.

(** A QuickTime file: a handler with a counted name, one whose name ends with the
    box, an esds with short sizes inside an mp4a, a url without its NUL, a subtitle
    sample entry with strings and a box after them, a meta box without version and
    flags, stray bytes at the end of udta, an unknown box, mdat to the end. *)
Definition again_hdlr (name : list byte) : box :=
  Box Small (bt "hdlr") (hex "000000006d686c7276696465000000000000000000000000" ++ name) [] [].
Definition again_tree (name1 name2 esds url meta stray : list byte) : list box :=
  [ Box Small (bt "ftyp") (hex "71742020000000007174202071742020") [] [];
    Box Small (bt "moov") []
      [ Box Small (bt "mdia") []
          [ again_hdlr name1;
            Box Large (bt "dinf") []
              [ Box Small (bt "dref") (hex "0000000000000001") [ Box Small (bt "url ") (hex "00000000" ++ url) [] [] ] [] ] [];
            Box Small (bt "stsd") (hex "0000000000000002")
              [ Box Small (bt "mp4a") (hex "000000000000000100000000000000000002001000000000bb800000")
                  [ Box Small (bt "esds") (hex "00000000" ++ esds) [] [] ] [];
                Box Small (bt "stpp") (hex "00000000000000016100006200")
                  [ Box Small (bt "btrt") (hex "000000010000000200000003") [] [] ] [] ] [] ] [];
        Box Small (bt "udta") [] [ Box Small (bt "meta") meta [ again_hdlr name2 ] [] ] stray;
        Box Small (bt "none") (hex "aabbcc") [] [] ] [];
    Box ToEnd (bt "mdat") (hex "0102030405") [] [] ].
Definition again_example : list box :=
  again_tree (hex "03414243") (hex "616263") (hex "038003000100") (hex "68747470") [] (hex "00000000").
Example C63_case :
  let data := file_bytes again_example in
  list_wf true again_example /\ lenN data = 314 /\
  Forall (again_ok data) (list_file data ctx0 false 0 0 again_example) /\
  Forall closed (list_file data ctx0 false 0 0 again_example) /\
  let ts' := again_file data false 0 0 again_example in
  ts' = again_tree (hex "41424300") (hex "61626300") (hex "0380808003000100") (hex "6874747000") (hex "00000000") [] /\
  Forall fits ts' /\ edit_file no_options data = (Ok tt, file_bytes ts').
Proof.
  cbv zeta.
  split; [vm_compute; repeat split; intros; try discriminate; reflexivity|].
  split; [vm_compute; reflexivity|].
  split; [apply again_ok_b_ok; vm_compute; reflexivity|].
  split; [apply closed_b_ok; vm_compute; reflexivity|].
  assert (E : again_file (file_bytes again_example) false 0 0 again_example =
    again_tree (hex "41424300") (hex "61626300") (hex "0380808003000100") (hex "6874747000") (hex "00000000") []) by (vm_compute; reflexivity).
  split; [exact E|]. split.
  - rewrite E. repeat constructor; vm_compute; repeat split; intros; try discriminate; reflexivity.
  - rewrite E. vm_compute. reflexivity.
Qed.
