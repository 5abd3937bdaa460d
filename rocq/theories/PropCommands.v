(** C67: the commands, run from the command line on well-formed files. *)
From Coq Require Import NArith ZArith Lia.
From Verif Require Import Base BaseProofs GoText Schema Structs Registry BoxInfo ReadTree Text SpecTree SpecExtract SpecWriter Edit SpecEdit PropEdit
     Tool SpecTool PropTool Cli SpecCli CliProofs PropCli.
Local Open Scope string_scope.
Local Open Scope list_scope.
Local Open Scope N_scope.

(** ** edit *)
(** Whatever the spelling of the options, the output is what C49 says.  The
    value 2^64 - 1 is excluded, and so are two names of one file: see below. *)
Theorem C67_edit_partial : forall w line os i o r time names ts,
  let data := file_bytes ts in
  Forall edit_option os -> consists_of os (i :: o :: r) line ->
  match last_setting "base_media_decode_time" os Some None, time with
  | Some s, Some v => number s v /\ v < 2 ^ 64 - 1
  | None, None => True
  | _, _ => False
  end ->
  last_setting "drop" os (fun s => s) [] = joined names -> Forall (fun s => ~ In comma s) names ->
  w_file w i = Some data -> w_create w o = true -> w_same w i o = false ->
  lenN data < 2 ^ 62 -> list_wf true ts -> Forall (editable data (named_in names)) (list_file data ctx0 false 0 0 ts) ->
  let p := mp4tool w (lit "alpha" :: lit "edit" :: line) in
  pr_exit p = Some 0 /\ pr_created p = Some (o, file_bytes (edit_boxes data (named_in names) time false 0 0 ts)) /\ pr_stdout p = [].
Proof.
  intros w line os i o r time names ts data F C T D N W1 W2 W3 L WF Q.
  set (t := match time with Some v => v | None => 2 ^ 64 - 1 end).
  assert (A : asks (lit "alpha" :: lit "edit" :: line) (EditFile t (joined names) i o)).
  { rewrite <- D. apply (ask_edit line os t i o r F C). clear - T. unfold t.
    destruct (last_setting "base_media_decode_time" os Some None), time; try contradiction; [|reflexivity].
    destruct T as [T1 T2]. split; [exact T1|]. change (2 ^ 64) with 18446744073709551616 in *. lia. }
  apply C66_asks in A; [|discriminate]. unfold mp4tool. rewrite A. cbn [perform]. unfold with_input. rewrite W1.
  unfold edit_process. rewrite W2, W3.
  assert (CF : mkcfg t (split_comma (joined names)) = given time names).
  { destruct names; reflexivity. }
  rewrite CF. pose proof (C49_edit time names ts) as H. cbv zeta in H. fold data in H. rewrite H; auto.
  clear - T. destruct (last_setting "base_media_decode_time" os Some None), time; try contradiction; [apply T|exact I].
Qed.
Print Assumptions C67_edit_partial.

(** One file under both names: os.Create has emptied it before it is read.  The
    exit code is 0 and everything is lost, whatever the file and the options. *)
Theorem C67_in_place_refuted : forall w line time drop i o data,
  asks (lit "alpha" :: lit "edit" :: line) (EditFile time drop i o) ->
  w_file w i = Some data -> w_create w o = true -> w_same w i o = true ->
  let p := mp4tool w (lit "alpha" :: lit "edit" :: line) in
  pr_exit p = Some 0 /\ pr_created p = Some (o, []).
Proof.
  intros w line time drop i o data A W1 W2 W3. apply C66_asks in A; [|discriminate].
  unfold mp4tool. rewrite A. cbn [perform]. unfold with_input. rewrite W1.
  unfold edit_process. rewrite W2, W3. split; reflexivity.
Qed.
Print Assumptions C67_in_place_refuted.

(** ** dump and extract *)
Theorem C67_dump : forall w line os f r names ts, let data := file_bytes ts in
  Forall dump_option os -> consists_of os (f :: r) line ->
  last_setting "full" os (fun s => s) [] = joined names -> Forall (fun s => ~ In comma s) names ->
  let style := style_of names (last_switch "a" os false) (last_switch "mdat" os false) (last_switch "free" os false)
                 (last_switch "offset" os false) (last_switch "hex" os false) (w_width w) in
  w_file w f = Some data -> lenN data < 2 ^ 48 -> list_wf true ts ->
  Forall (passable data (enters data style)) (reach_file data (enters data style) false 0 0 ts) ->
  let p := mp4tool w (lit "dump" :: line) in
  pr_exit p = Some 0 /\
  pr_stdout p = flat_map (line_of (w_graphic w) data style) (reach_file data (enters data style) false 0 0 ts) /\ pr_created p = None.
Proof.
  intros w line os f r names ts data F C D N style W L WF Q.
  pose proof (ask_dump line os f r F C) as A. apply C66_asks in A; [|discriminate].
  unfold mp4tool. rewrite A. cbn [perform]. unfold with_input. rewrite W. rewrite D.
  pose proof (C53_dump (w_graphic w) names (last_switch "a" os false) (last_switch "mdat" os false) (last_switch "free" os false)
                 (last_switch "offset" os false) (last_switch "hex" os false) (w_width w) ts N L WF Q) as H.
  unfold dump_with in H. unfold prints. fold data in H. rewrite H. split; [reflexivity|]. split; reflexivity.
Qed.
Print Assumptions C67_dump.
Theorem C67_extract : forall w line t f r ts, let data := file_bytes ts in
  consists_of [] (t :: f :: r) line -> List.length t = 4%nat ->
  w_file w f = Some data -> lenN data < 2 ^ 62 -> list_wf true ts ->
  Forall (passable data (looks_into data)) (reach_file data (looks_into data) false 0 0 ts) ->
  let p := mp4tool w (lit "extract" :: line) in
  pr_exit p = Some 0 /\
  pr_stdout p = flat_map (fun e => if bt_eqb (e_type e) t then box_bytes (e_box e) else [])
                  (reach_file data (looks_into data) false 0 0 ts) /\ pr_created p = None.
Proof.
  intros w line t f r ts data C T W L WF Q.
  pose proof (ask_extract line t f r C T) as A. apply C66_asks in A; [|discriminate].
  unfold mp4tool. rewrite A. cbn [perform]. unfold with_input. rewrite W.
  pose proof (C52_extract t ts L WF Q) as H. fold data in H.
  unfold prints. rewrite H. split; [reflexivity|]. split; reflexivity.
Qed.
Print Assumptions C67_extract.

(** ** Cases *)
Definition some_world (f : arg) (data : list byte) (same : bool) : world :=
  mkworld (fun p => if bytes_eqb p f then Some data else None) (fun _ => true) (fun _ _ => same) 180 (fun _ => true) 0 (fun _ l => l)
          (fun _ => 0) (fun _ => 0%Z).
Example C67_case :
  let line := map lit ["alpha"; "edit"; "--base_media_decode_time"; "4311810305"; "-drop=free,mdhd"; "in.mp4"; "out.mp4"] in
  let w := some_world (lit "in.mp4") (file_bytes edit_example) false in
  let names := [lit "free"; lit "mdhd"] in
  pr_created (mp4tool w line) =
    Some (lit "out.mp4", file_bytes (edit_boxes (file_bytes edit_example) (named_in names) (Some 4311810305) false 0 0 edit_example)) /\
  pr_exit (mp4tool w line) = Some 0.
Proof. vm_compute. split; reflexivity. Qed.
(** The greatest number of 64 bits cannot be set: it stands for no option. *)
Theorem C67_time_refuted : exists w line,
  let data := file_bytes edit_example in
  asks line (EditFile (2 ^ 64 - 1) [] (lit "in.mp4") (lit "out.mp4")) /\
  In (lit "-base_media_decode_time=18446744073709551615") line /\
  w_file w (lit "in.mp4") = Some data /\
  pr_exit (mp4tool w line) = Some 0 /\ pr_created (mp4tool w line) = Some (lit "out.mp4", data) /\
  file_bytes (edit_boxes data (fun _ => false) (Some (2 ^ 64 - 1)) false 0 0 edit_example) <> data.
Proof.
  exists (some_world (lit "in.mp4") (file_bytes edit_example) false),
         (map lit ["alpha"; "edit"; "-base_media_decode_time=18446744073709551615"; "in.mp4"; "out.mp4"]).
  split; [apply C66_asks; [discriminate|vm_compute; reflexivity]|].
  split; [cbn; auto|]. split; [reflexivity|]. split; [vm_compute; reflexivity|]. split; [vm_compute; reflexivity|].
  intros H. apply (f_equal (fun l => bytes_eqb l (file_bytes edit_example))) in H. rewrite bytes_eqb_refl in H. vm_compute in H. discriminate.
Qed.
Print Assumptions C67_time_refuted.
Example C67_case_dump :
  let w := some_world (lit "in.mp4") (file_bytes edit_example) false in
  let p := mp4tool w (map lit ["dump"; "-offset"; "-full"; "mdat"; "in.mp4"]) in
  pr_exit p = Some 0 /\ List.length (pr_stdout p) <> 0%nat.
Proof. vm_compute. split; [reflexivity|discriminate]. Qed.
