(** C64, once more: mp4tool edit with the same options on what it wrote. *)
From Verif Require Import Base BaseProofs Schema Structs Methods Registry Marshal Unmarshal BoxInfo ReadTree Writer Text.
From Verif Require Import SpecTree SpecExtract SpecRoundTrip SpecReencode Reencode SpecWriter WriterProofs TreeProofs PropTree PropExtract
     Edit SpecEdit EditProofs EditTime PropEdit SpecEditAgain EditAgain PropEditAgain SpecEditAny EditAny PropEditAny EditAnyTwice.
Local Open Scope string_scope.
Local Open Scope list_scope.
Local Open Scope N_scope.

(** A second run with the same options changes nothing: not the boxes that were
    encoded in another way the first time, not the decode times, and nothing is left
    to drop.  [closed]: a box that is copied is not read to have boxes in it.
    Missing: as in C64_edit_partial. *)
Theorem C64_twice_partial : forall time names ts,
  let data := file_bytes ts in
  let dropped := named_in names in
  let ts' := any_file data dropped time false 0 0 ts in
  match time with Some v => v < 2 ^ 64 - 1 | None => True end ->
  Forall (fun s => ~ In comma s) names ->
  dropped (bt "ftyp") = false -> dropped (bt "keys") = false ->
  lenN data < 2 ^ 45 -> list_wf true ts ->
  Forall (any_ok data dropped) (list_file data ctx0 false 0 0 ts) ->
  Forall closed (list_file data ctx0 false 0 0 ts) ->
  Forall fits ts' -> lenN (file_bytes ts') < 2 ^ 45 ->
  exists out, edit_file (given time names) data = (Ok tt, out) /\
    edit_file (given time names) out = (Ok tt, out).
Proof.
  intros time names ts data dropped ts' HT HN KF KK HD HW Q QC F L.
  assert (L61 : lenN (file_bytes ts') < 2 ^ 61).
  { clear - L. change (2 ^ 45) with 35184372088832 in L. change (2 ^ 61) with 2305843009213693952. lia. }
  destruct (C64_edit_partial time names ts HT HN KF KK HD HW Q F L61) as (E1 & W' & _).
  fold data dropped ts' in E1, W'. exists (file_bytes ts'). split; [exact E1|].
  set (cfg := given time names).
  assert (CT : cf_time cfg < 2 ^ 64 /\ (if cf_time cfg =? UNoValue then None else Some (cf_time cfg)) = time).
  { unfold cfg, given, options. cbn [cf_time]. clear - HT. destruct time as [v|].
    - change (2 ^ 64 - 1) with UNoValue in HT. change (2 ^ 64) with 18446744073709551616. unfold UNoValue in *.
      destruct (v =? 18446744073709551615) eqn:E; [apply N.eqb_eq in E; lia|]. split; [lia|reflexivity].
    - split; reflexivity. }
  destruct CT as [CT CE].
  destruct (file_twice_any data HD dropped KF KK cfg time CT CE (file_bytes ts') L61 ts [] false 0%Z [] eq_refl HW Q QC eq_refl) as [T1 T2].
  change (lenN []) with 0 in T1, T2. fold ts' in T1, T2.
  destruct (C64_edit_partial time names ts' HT HN KF KK L W' T2) as (E2 & _).
  - fold dropped. rewrite T1. exact F.
  - fold dropped. rewrite T1. exact L61.
  - fold dropped in E2. rewrite T1 in E2. exact E2.
Qed.
Print Assumptions C64_twice_partial.

(** the file of C64_case: the first run changes it, the second does not *)
Example C64_twice_case :
  let data := file_bytes any_example in
  let names := [bytes_of_string "url "; bytes_of_string "none"] in
  let ts' := any_file data (named_in names) (Some 4311810305) false 0 0 any_example in
  list_wf true any_example /\
  Forall (any_ok data (named_in names)) (list_file data ctx0 false 0 0 any_example) /\
  Forall closed (list_file data ctx0 false 0 0 any_example) /\
  Forall fits ts' /\ lenN (file_bytes ts') = 301 /\ lenN data = 325 /\
  edit_file (given (Some 4311810305) names) data = (Ok tt, file_bytes ts') /\
  edit_file (given (Some 4311810305) names) (file_bytes ts') = (Ok tt, file_bytes ts').
Proof.
  cbv zeta. destruct C64_case as (W & L & Q & E & F & R).
  split; [exact W|]. split; [exact Q|]. split; [apply closed_b_ok; vm_compute; reflexivity|].
  split; [exact F|]. rewrite E in R |- *. split; [vm_compute; reflexivity|]. split; [exact L|].
  split; [exact R|vm_compute; reflexivity].
Qed.
