(** C64: mp4tool edit with its options, on files that need not be canonical. *)
From Verif Require Import Base BaseProofs Schema Structs Methods Registry Marshal Unmarshal BoxInfo ReadTree Writer Text.
From Verif Require Import SpecTree SpecExtract SpecRoundTrip SpecReencode Reencode SpecWriter WriterProofs TreeProofs PropTree PropExtract
     Edit SpecEdit EditProofs EditTime PropEdit SpecEditAgain EditAgain PropEditAgain SpecEditAny EditAny.
Local Open Scope string_scope.
Local Open Scope list_scope.
Local Open Scope N_scope.

(** Any well-formed file whose boxes can be decoded, canonical or not (C63).  The
    command writes a well-formed file; the boxes of the named types are gone, with
    all that was in them; in tfdt boxes the decode time is the new one, in as many
    bytes as before, and nothing else is different; every other box is copied or is
    decoded to the same structure by the same definition.  The order and the nesting
    of the boxes are as they were.
    Missing: boxes that are not [rewritable] (C63_name_refuted), and dropping ftyp or
    keys boxes, which change the meaning of others (below). *)
Theorem C64_edit_partial : forall time names ts,
  let data := file_bytes ts in
  let dropped := named_in names in
  let ts' := any_file data dropped time false 0 0 ts in
  match time with Some v => v < 2 ^ 64 - 1 | None => True end ->
  Forall (fun s => ~ In comma s) names ->
  dropped (bt "ftyp") = false -> dropped (bt "keys") = false ->
  lenN data < 2 ^ 45 -> list_wf true ts ->
  Forall (any_ok data dropped) (list_file data ctx0 false 0 0 ts) ->
  Forall fits ts' -> lenN (file_bytes ts') < 2 ^ 61 ->
  edit_file (given time names) data = (Ok tt, file_bytes ts') /\
  list_wf true ts' /\
  kept_file data dropped time (file_bytes ts') false 0 0 0 ts ts'.
Proof.
  intros time names ts data dropped ts' HT HN KF KK HD HW Q F L.
  set (cfg := given time names).
  assert (CT : cf_time cfg < 2 ^ 64 /\ (if cf_time cfg =? UNoValue then None else Some (cf_time cfg)) = time).
  { unfold cfg, given, options. cbn [cf_time]. clear - HT. destruct time as [v|].
    - change (2 ^ 64 - 1) with UNoValue in HT. change (2 ^ 64) with 18446744073709551616. unfold UNoValue in *.
      destruct (v =? 18446744073709551615) eqn:E; [apply N.eqb_eq in E; lia|]. split; [lia|reflexivity].
    - split; reflexivity. }
  destruct CT as [CT CE].
  assert (DO : forall t, lenN t = 4 -> boxes_exist (cf_drop cfg) (box_type_string t) = dropped t).
  { intros t LT. apply given_drop; assumption. }
  split; [|split].
  - destruct (file_any data HD cfg dropped DO time CT CE ts [] false 0%Z (new_writer_of (new_ofile [] 0)) []) as (vs & w' & W & H & C).
    + reflexivity.
    + exact HW.
    + repeat split.
    + reflexivity.
    + exact Q.
    + exact F.
    + rewrite lenN_nil. change (lenN []) with 0. fold ts'. clear - L.
      change (2 ^ 61) with 2305843009213693952 in L. change (2 ^ 62) with 4611686018427387904. lia.
    + destruct (C21_walk _ _ _ (edit_handler cfg data) ts tt 0 _ _ _ (data_small data HD) HW W) as (p & E).
      unfold edit_file. fold data in E. rewrite E. cbn [snd e_panic e_w].
      destruct H as [H _]. cbn [render] in H. rewrite H. reflexivity.
  - apply wf_any_file; assumption.
  - exact (file_kept data HD dropped KF KK cfg time CT CE (file_bytes ts') L ts [] false 0%Z [] eq_refl HW Q eq_refl).
Qed.
Print Assumptions C64_edit_partial.

(** ** Dropping ftyp *)
(** A QuickTime sound sample description of version 1: without the ftyp box the
    additional fields are not read. *)
Definition ftyp_mp4a : box :=
  Box Small (bt "mp4a") (hex "000000000000000100010000000000000002001000000000bb80000000000400000000010000000200000002") [] [].
Definition ftyp_example : list box := [ Box Small (bt "ftyp") (hex "71742020000000007174202071742020") [] []; ftyp_mp4a ].
Definition the_fields (data : list byte) (e : entry) : option (list (string * val)) :=
  match decoded data (bi_ctx (e_info e)) (bi_offset (e_info e)) (e_box e) with Ok (_, x, _) => Some x | _ => None end.
Definition same_fields (a b : option (list (string * val))) : bool :=
  match a, b with Some x, Some y => val_eqb (VStruct x) (VStruct y) | None, None => true | _, _ => false end.
Theorem C64_ftyp_refuted : exists ts names ts',
  let data := file_bytes ts in
  let data' := file_bytes ts' in
  list_wf true ts /\ list_wf true ts' /\
  edit_file (given None names) data = (Ok tt, data') /\
  exists e e', In e (list_file data ctx0 false 0 0 ts) /\ In e' (list_file data' ctx0 false 0 0 ts') /\
    e_box e = e_box e' /\ the_fields data e <> None /\ the_fields data e <> the_fields data' e'.
Proof.
  exists ftyp_example, [bytes_of_string "ftyp"], [ftyp_mp4a]. cbv zeta.
  split; [vm_compute; repeat split; intros; try discriminate; reflexivity|].
  split; [vm_compute; repeat split; intros; try discriminate; reflexivity|].
  split; [vm_compute; reflexivity|].
  assert (E : match list_file (file_bytes ftyp_example) ctx0 false 0 0 ftyp_example,
                    list_file (file_bytes [ftyp_mp4a]) ctx0 false 0 0 [ftyp_mp4a] with
              | [_; e], [e'] =>
                  match the_fields (file_bytes ftyp_example) e with None => false | _ => true end &&
                  negb (same_fields (the_fields (file_bytes ftyp_example) e) (the_fields (file_bytes [ftyp_mp4a]) e'))
              | _, _ => false
              end = true) by (vm_compute; reflexivity).
  assert (E3 : map e_box (list_file (file_bytes ftyp_example) ctx0 false 0 0 ftyp_example) = ftyp_example) by (vm_compute; reflexivity).
  assert (E3' : map e_box (list_file (file_bytes [ftyp_mp4a]) ctx0 false 0 0 [ftyp_mp4a]) = [ftyp_mp4a]) by (vm_compute; reflexivity).
  destruct (list_file (file_bytes ftyp_example) ctx0 false 0 0 ftyp_example) as [|a [|e [|? ?]]]; try discriminate E.
  destruct (list_file (file_bytes [ftyp_mp4a]) ctx0 false 0 0 [ftyp_mp4a]) as [|e' [|? ?]]; try discriminate E.
  apply andb_prop in E. destruct E as [E4 E5]. apply negb_true_iff in E5.
  exists e, e'. split; [right; left; reflexivity|]. split; [left; reflexivity|]. split.
  { injection E3 as _ ->. injection E3' as ->. reflexivity. }
  split.
  - intros Z. rewrite Z in E4. discriminate E4.
  - intros Z. rewrite Z in E5. destruct (the_fields (file_bytes [ftyp_mp4a]) e') as [y|]; cbn [same_fields] in E5; [|discriminate E5].
    rewrite val_eqb_refl in E5. discriminate E5.
Qed.
Print Assumptions C64_ftyp_refuted.

(** ** The QuickTime file of C63 with a fragment: url and none boxes are dropped, the
    decode times replaced. *)
Definition any_ok_b (data : list byte) (dropped : btype -> bool) (e : entry) : bool :=
  match e_told e with Ok _ => true | _ => false end && (dropped (box_type (e_box e)) || again_ok_b data e).
Lemma any_ok_b_ok : forall data dropped l, forallb (any_ok_b data dropped) l = true -> Forall (any_ok data dropped) l.
Proof.
  intros data dropped l H. rewrite forallb_forall in H. rewrite Forall_forall. intros e I. apply H in I.
  unfold any_ok_b in I. apply andb_prop in I. destruct I as [I1 I2]. split.
  - destruct (e_told e); try discriminate. eauto.
  - apply orb_prop in I2. destruct (e_box e) as [f t own kids slack] eqn:EB. cbv zeta. intros DT W. destruct I2 as [I2|I2].
    + cbn [box_type] in I2. rewrite DT in I2. discriminate I2.
    + assert (A : Forall (again_ok data) [e]) by (apply again_ok_b_ok; cbn [forallb]; rewrite I2; reflexivity).
      apply Forall_inv in A. destruct A as [_ A]. rewrite EB in A. exact (A W).
Qed.
Definition any_fragment (v0 v1 : string) : list box :=
  [ Box Small (bt "moof") []
      [ Box Small (bt "traf") [] [ Box Small (bt "tfdt") (hex v0) [] []; Box Small (bt "tfdt") (hex v1) [] [] ] [] ] [] ].
Definition any_tree (name1 name2 esds meta stray : list byte) (v0 v1 : string) (l1 l2 : list box) : list box :=
  [ Box Small (bt "ftyp") (hex "71742020000000007174202071742020") [] [];
    Box Small (bt "moov") []
      ([ Box Small (bt "mdia") []
          [ again_hdlr name1;
            Box Large (bt "dinf") [] [ Box Small (bt "dref") (hex "0000000000000001") l1 [] ] [];
            Box Small (bt "stsd") (hex "0000000000000001")
              [ Box Small (bt "mp4a") (hex "000000000000000100000000000000000002001000000000bb800000")
                  [ Box Small (bt "esds") (hex "00000000" ++ esds) [] [] ] [] ] [] ] [];
        Box Small (bt "udta") [] [ Box Small (bt "meta") meta [ again_hdlr name2 ] [] ] stray ] ++ l2) [] ] ++
  any_fragment v0 v1 ++
  [ Box ToEnd (bt "mdat") (hex "0102030405") [] [] ].
Definition any_example : list box :=
  any_tree (hex "03414243") (hex "616263") (hex "038003000100") [] (hex "00000000")
    "0000000000000001" "010000000000000000000002"
    [ Box Small (bt "url ") (hex "0000000068747470") [] [] ] [ Box Small (bt "none") (hex "aabbcc") [] [] ].
Example C64_case :
  let data := file_bytes any_example in
  let names := [bytes_of_string "url "; bytes_of_string "none"] in
  list_wf true any_example /\ lenN data = 325 /\
  Forall (any_ok data (named_in names)) (list_file data ctx0 false 0 0 any_example) /\
  let ts' := any_file data (named_in names) (Some 4311810305) false 0 0 any_example in
  ts' = any_tree (hex "41424300") (hex "61626300") (hex "0380808003000100") (hex "00000000") []
    "0000000001010101" "010000000000000101010101" [] [] /\
  Forall fits ts' /\ edit_file (given (Some 4311810305) names) data = (Ok tt, file_bytes ts').
Proof.
  cbv zeta.
  split; [vm_compute; repeat split; intros; try discriminate; reflexivity|].
  split; [vm_compute; reflexivity|].
  split; [apply any_ok_b_ok; vm_compute; reflexivity|].
  assert (E : any_file (file_bytes any_example) (named_in [bytes_of_string "url "; bytes_of_string "none"]) (Some 4311810305) false 0 0 any_example =
    any_tree (hex "41424300") (hex "61626300") (hex "0380808003000100") (hex "00000000") []
      "0000000001010101" "010000000000000101010101" [] []) by (vm_compute; reflexivity).
  split; [exact E|]. split.
  - rewrite E. repeat constructor; vm_compute; repeat split; intros; try discriminate; reflexivity.
  - rewrite E. vm_compute. reflexivity.
Qed.
