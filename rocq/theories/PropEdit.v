(** C49: mp4tool edit. *)
From Verif Require Import Base BaseProofs Schema Structs Methods Registry Marshal Unmarshal BoxInfo ReadTree Writer Text.
From Verif Require Import SpecTree SpecExtract SpecLossless SpecWriter WriterProofs TreeProofs PropTree PropExtract
     Edit SpecEdit EditProofs EditTime.
Local Open Scope string_scope.
Local Open Scope list_scope.
Local Open Scope N_scope.

(** the text after -drop: names with commas between them *)
Definition comma : byte := ascii_of_N 44.
Fixpoint joined (names : list (list byte)) : list byte :=
  match names with
  | [] => []
  | [x] => x
  | x :: r => x ++ comma :: joined r
  end.

Lemma split_name : forall x, ~ In comma x -> split_comma x = [x].
Proof.
  induction x as [|c r IH]; intros H; [reflexivity|]. cbn [split_comma].
  destruct (N_of_ascii c =? 44) eqn:E.
  - exfalso. apply H. left. apply N.eqb_eq in E. rewrite <- (ascii_N_embedding c), E. reflexivity.
  - rewrite IH; [reflexivity|]. intros X. apply H. now right.
Qed.
Lemma split_name_comma : forall x s, ~ In comma x -> split_comma (x ++ comma :: s) = x :: split_comma s.
Proof.
  induction x as [|c r IH]; intros s H; [reflexivity|]. cbn [split_comma app].
  destruct (N_of_ascii c =? 44) eqn:E.
  - exfalso. apply H. left. apply N.eqb_eq in E. rewrite <- (ascii_N_embedding c), E. reflexivity.
  - rewrite IH; [reflexivity|]. intros X. apply H. now right.
Qed.
Lemma split_joined : forall names, names <> [] -> Forall (fun s => ~ In comma s) names -> split_comma (joined names) = names.
Proof.
  induction names as [|x r IH]; intros H F; [congruence|]. pose proof (Forall_inv F) as F1. apply Forall_inv_tail in F.
  destruct r as [|y r]; [cbn [joined]; now apply split_name|].
  change (joined (x :: y :: r)) with (x ++ comma :: joined (y :: r)).
  rewrite split_name_comma by assumption. f_equal. apply IH; [discriminate|assumption].
Qed.
Lemma name_not_empty : forall t, lenN t = 4 -> box_type_string t <> [].
Proof.
  intros t H. unfold box_type_string. destruct t as [|c r]; [discriminate|].
  destruct (forallb is_printable (c :: r)).
  - cbn [flat_map]. destruct (N_of_ascii c =? 169); discriminate.
  - discriminate.
Qed.

(** The options as the user gives them: a new decode time, names of boxes to drop. *)
Definition given (time : option N) (names : list (list byte)) : config :=
  options time (match names with [] => None | _ => Some (joined names) end).
Definition named_in (names : list (list byte)) (t : btype) : bool := existsb (fun x => bytes_eqb x (box_type_string t)) names.

Lemma given_drop : forall time names t, Forall (fun s => ~ In comma s) names -> lenN t = 4 ->
  boxes_exist (cf_drop (given time names)) (box_type_string t) = named_in names t.
Proof.
  intros time names t F L. unfold given, options, named_in, boxes_exist. cbn [cf_drop].
  destruct names as [|x r].
  - cbn [split_comma existsb]. pose proof (name_not_empty t L). destruct (box_type_string t); [congruence|reflexivity].
  - rewrite split_joined; [reflexivity|discriminate|exact F].
Qed.

(** With or without a new decode time, with or without boxes to drop: the command
    writes the file of the edited tree (SpecEdit.v). *)
Theorem C49_edit : forall time names ts,
  let data := file_bytes ts in
  let dropped := named_in names in
  match time with Some v => v < 2 ^ 64 - 1 | None => True end ->
  Forall (fun s => ~ In comma s) names ->
  lenN data < 2 ^ 62 -> list_wf true ts ->
  Forall (editable data dropped) (list_file data ctx0 false 0 0 ts) ->
  edit_file (given time names) data = (Ok tt, file_bytes (edit_boxes data dropped time false 0 0 ts)).
Proof.
  intros time names ts data dropped HT HN HD HW Q.
  set (cfg := given time names).
  assert (CT : cf_time cfg < 2 ^ 64 /\ (if cf_time cfg =? UNoValue then None else Some (cf_time cfg)) = time).
  { unfold cfg, given, options. cbn [cf_time]. clear - HT. destruct time as [v|].
    - change (2 ^ 64 - 1) with UNoValue in HT. change (2 ^ 64) with 18446744073709551616. unfold UNoValue in *.
      destruct (v =? 18446744073709551615) eqn:E; [apply N.eqb_eq in E; lia|]. split; [lia|reflexivity].
    - split; reflexivity. }
  destruct CT as [CT CE].
  assert (DO : forall t, lenN t = 4 -> boxes_exist (cf_drop cfg) (box_type_string t) = dropped t).
  { intros t L. apply given_drop; assumption. }
  destruct (file_edit data HD cfg dropped DO (payload_rewritten data HD cfg CT) ts [] false 0%Z
              (new_writer_of (new_ofile [] 0)) []) as (vs & w' & W & H & C).
  - reflexivity.
  - exact HW.
  - repeat split.
  - reflexivity.
  - apply N.le_refl.
  - exact Q.
  - destruct (C21_walk _ _ _ (edit_handler cfg data) ts tt 0 _ _ _ HD HW W) as (p & E).
    unfold edit_file. fold data in E. rewrite E. cbn [snd e_panic e_w].
    destruct H as [H _]. cbn [render] in H. rewrite H, CE. reflexivity.
Qed.
Print Assumptions C49_edit.

(** ** Without options *)
Section Identity.
  Variable data : list byte.
  Definition no_stray (e : entry) : Prop :=
    match e_box e with Box _ t _ _ slack => whole t (bi_ctx (e_info e)) = false -> slack = [] end.
  Lemma identity_kids : forall kids, Forall (fun b => forall anc qt keys o,
      Forall no_stray (list_box data ctx0 anc qt keys o b) ->
      edit_box data (named_in []) None anc qt keys o b = [b]) kids ->
    forall anc qt keys o, Forall no_stray (list_kids data ctx0 anc qt keys o kids) ->
    edit_kids data (given None []) (named_in []) anc qt keys o kids = kids.
  Proof.
    induction kids as [|k r IH]; intros F anc qt keys o Q; [reflexivity|].
    pose proof (Forall_inv F) as F1. apply Forall_inv_tail in F. cbn [list_kids edit_kids] in *.
    apply Forall_app in Q. destruct Q as [Q1 Q2].
    change (if cf_time (given None []) =? UNoValue then None else Some (cf_time (given None []))) with (@None N).
    rewrite (F1 _ _ _ _ Q1). rewrite (IH F _ _ _ _ Q2). reflexivity.
  Qed.
  Lemma identity_box : forall b anc qt keys o, Forall no_stray (list_box data ctx0 anc qt keys o b) ->
    edit_box data (named_in []) None anc qt keys o b = [b].
  Proof.
    induction b as [f t own kids slack IH] using box_ind2. intros anc qt keys o Q.
    pose proof (edit_box_eq data (given None []) (named_in []) anc qt keys o f t own kids slack) as E.
    change (if cf_time (given None []) =? UNoValue then None else Some (cf_time (given None []))) with (@None N) in E.
    rewrite E. clear E. rewrite list_box_eq in Q. cbv zeta in *.
    destruct (match enter data ctx0 anc qt keys o (Box f t own kids slack) with Ok x => x | _ => (qt, keys) end) as [qt' keys'].
    change (named_in [] t) with false. cbv iota.
    destruct (whole t (ctx_of ctx0 qt' keys' anc)) eqn:WT; [reflexivity|].
    pose proof (Forall_inv Q) as Q1. apply Forall_inv_tail in Q. unfold no_stray in Q1. cbn [e_box e_info bi_ctx info] in Q1.
    rewrite (Q1 WT). rewrite (identity_kids kids IH _ _ _ _ Q). reflexivity.
  Qed.
  Lemma identity_file : forall l qt keys o, Forall no_stray (list_file data ctx0 qt keys o l) ->
    edit_boxes data (named_in []) None qt keys o l = l.
  Proof.
    induction l as [|b r IH]; intros qt keys o Q; [reflexivity|]. cbn [list_file edit_boxes] in *.
    destruct (match enter data ctx0 [] qt keys o b with Ok x => x | _ => (qt, keys) end) as [q1 k1].
    apply Forall_app in Q. destruct Q as [Q1 Q2]. rewrite (identity_box _ _ _ _ _ Q1), (IH _ _ _ Q2). reflexivity.
  Qed.
End Identity.

(** the options that a command line without options gives *)
Definition no_options : config := options None None.
Theorem C49_identity : forall ts,
  let data := file_bytes ts in
  lenN data < 2 ^ 62 -> list_wf true ts ->
  Forall (editable data (fun _ => false)) (list_file data ctx0 false 0 0 ts) ->
  Forall no_stray (list_file data ctx0 false 0 0 ts) ->
  edit_file no_options data = (Ok tt, data).
Proof.
  intros ts data HD HW Q S.
  pose proof (C49_edit None [] ts I (Forall_nil _) HD HW) as H. cbv zeta in H.
  change (given None []) with no_options in H. unfold data. rewrite H by exact Q.
  rewrite identity_file by exact S. reflexivity.
Qed.
Print Assumptions C49_identity.

(** ** A file with supported and unsupported boxes, a 64-bit box, and a tfdt of
    each version; the decode time is replaced, two types of boxes are dropped. *)
Definition editable_b (data : list byte) (dropped : btype -> bool) (e : entry) : bool :=
  match e_told e with Ok _ => true | _ => false end &&
  match e_box e with
  | Box _ t own _ slack =>
      dropped t || whole t (bi_ctx (e_info e)) ||
      match decoded data (bi_ctx (e_info e)) (bi_offset (e_info e)) (e_box e) with
      | Ok (d, _, n) => (n =? lenN own) && plain_box d
      | _ => false
      end && match slack with [] => true | _ => IsQuickTimeCompatible (bi_ctx (e_info e)) end
  end.
Lemma editable_b_ok : forall data dropped l, forallb (editable_b data dropped) l = true -> Forall (editable data dropped) l.
Proof.
  intros data dropped l H. rewrite forallb_forall in H. rewrite Forall_forall. intros e I. apply H in I.
  unfold editable_b in I. apply andb_prop in I. destruct I as [I1 I2]. split.
  - destruct (e_told e); try discriminate. eauto.
  - destruct (e_box e) as [f t own kids slack]. intros D W. rewrite D, W in I2. cbn [orb] in I2.
    apply andb_prop in I2. destruct I2 as [I2 I3]. split.
    + destruct (decoded data _ _ _) as [[[d x] n]| | |]; try discriminate I2. apply andb_prop in I2. destruct I2 as [I2 I4].
      apply N.eqb_eq in I2. subst n. eauto.
    + destruct slack; auto.
Qed.
Definition no_stray_b (e : entry) : bool :=
  match e_box e with Box _ t _ _ slack => whole t (bi_ctx (e_info e)) || match slack with [] => true | _ => false end end.
Lemma no_stray_b_ok : forall l, forallb no_stray_b l = true -> Forall no_stray l.
Proof.
  intros l H. rewrite forallb_forall in H. rewrite Forall_forall. intros e I. apply H in I.
  unfold no_stray_b in I. unfold no_stray. destruct (e_box e) as [f t own kids slack]. intros W. rewrite W in I. cbn [orb] in I.
  destruct slack; [reflexivity|discriminate I].
Qed.

Definition edit_example : list box :=
  [ Box Small (bt "ftyp") (hex "69736f6d0000020069736f6d") [] [];
    Box Small (bt "moof") []
      [ Box Small (bt "mfhd") (hex "0000000000000007") [] [];
        Box Large (bt "traf") []
          [ Box Small (bt "tfdt") (hex "0000000000000001") [] [];
            Box Small (bt "tfdt") (hex "010000000000000000000002") [] [];
            Box Small (bt "none") (hex "aabbcc") [] [] ] [] ] [];
    Box Small (bt "free") (hex "00") [] [];
    Box ToEnd (bt "mdat") (hex "0102030405") [] [] ].
Example C49_case_identity :
  list_wf true edit_example /\ lenN (file_bytes edit_example) = 129 /\
  Forall (editable (file_bytes edit_example) (fun _ => false)) (list_file (file_bytes edit_example) ctx0 false 0 0 edit_example) /\
  Forall no_stray (list_file (file_bytes edit_example) ctx0 false 0 0 edit_example) /\
  edit_file no_options (file_bytes edit_example) = (Ok tt, file_bytes edit_example).
Proof.
  split; [vm_compute; repeat split; intros; try discriminate; reflexivity|].
  split; [vm_compute; reflexivity|].
  split; [apply editable_b_ok; vm_compute; reflexivity|].
  split; [apply no_stray_b_ok; vm_compute; reflexivity|].
  vm_compute. reflexivity.
Qed.
Example C49_case_options :
  let names := [bytes_of_string "free"; bytes_of_string "none"] in
  joined names = bytes_of_string "free,none" /\
  Forall (fun s => ~ In comma s) names /\
  Forall (editable (file_bytes edit_example) (named_in names)) (list_file (file_bytes edit_example) ctx0 false 0 0 edit_example) /\
  edit_file (given (Some 4311810305) names) (file_bytes edit_example) =
  (Ok tt, file_bytes
    [ Box Small (bt "ftyp") (hex "69736f6d0000020069736f6d") [] [];
      Box Small (bt "moof") []
        [ Box Small (bt "mfhd") (hex "0000000000000007") [] [];
          Box Large (bt "traf") []
            [ Box Small (bt "tfdt") (hex "0000000001010101") [] [];
              Box Small (bt "tfdt") (hex "010000000000000101010101") [] [] ] [] ] [];
      Box ToEnd (bt "mdat") (hex "0102030405") [] [] ]).
Proof.
  cbv zeta. split; [vm_compute; reflexivity|].
  split; [repeat constructor; vm_compute; intuition discriminate|].
  split; [apply editable_b_ok; vm_compute; reflexivity|].
  vm_compute. reflexivity.
Qed.

(** Stray bytes at the end of a container, which QuickTime files may have, are
    lost. *)
Definition stray_example : list box :=
  [ Box Small (bt "ftyp") (hex "71742020000000007174202071742020") [] [];
    Box Small (bt "moov") [] [ Box Small (bt "trak") [] [] [] ] (hex "00000000") ].
Theorem C49_stray :
  list_wf true stray_example /\
  Forall (editable (file_bytes stray_example) (fun _ => false)) (list_file (file_bytes stray_example) ctx0 false 0 0 stray_example) /\
  edit_file no_options (file_bytes stray_example) = (Ok tt, file_bytes
    [ Box Small (bt "ftyp") (hex "71742020000000007174202071742020") [] [];
      Box Small (bt "moov") [] [ Box Small (bt "trak") [] [] [] ] [] ]).
Proof.
  split; [vm_compute; repeat split; intros; try discriminate; reflexivity|].
  split; [apply editable_b_ok; vm_compute; reflexivity|].
  vm_compute. reflexivity.
Qed.
