(** C12: what Unmarshal accepted, Marshal writes again. *)
From Verif Require Import Base BaseProofs BitIO Schema Methods Registry Marshal Unmarshal Decode.
From Verif Require Import SpecCodec SpecLossless PropMarshal BitIOProofs UnmarshalProofs VersionFacts Causal MarshalProofs MarshalCount
     Shape Lossless PropUnmarshal Vectors.
Local Open Scope string_scope.
Local Open Scope list_scope.
Local Open Scope N_scope.
Ltac Zify.zify_post_hook ::= Z.to_euclidean_division_equations.

(** [plain_box d] (SpecLossless.v): integers, one-bit booleans, arrays, lists and
    structs of those.  [skipN pos data]: the stream from the position [pos] of
    the payload on; [n] is the number of bytes that Unmarshal consumed. *)
Theorem C12_lossless : forall data t size ctx pos d x n pos',
  pos <= lenN data -> lenN data < 2 ^ 62 -> plain_box d = true ->
  unmarshal_any std_registry data t size ctx pos = (Ok (d, x, n), pos') ->
  marshal std_registry t ctx x [] = (Ok n, takeN n (skipN pos data)).
Proof.
  intros data t size ctx pos d x n pos' Hp Hd PB H.
  pose proof (unmarshal_any_def _ _ _ _ _ _ _ _ _ H) as G.
  pose proof (unmarshal_any_decode t ctx d data size pos G Hp Hd) as U. cbv zeta in U.
  rewrite H in U. destruct U as (_ & U & _ & L).
  pose proof (all_defs_check _ _ _ _ _ eq_refl std_causal G) as HC. cbv beta in HC.
  pose proof (all_defs_check _ _ _ _ _ eq_refl std_nodup G) as HN. cbv beta in HN.
  pose proof (all_defs_check _ _ _ _ _ eq_refl std_plain G) as HP. cbv beta in HP.
  pose proof (all_defs_check _ _ _ _ _ eq_refl std_start G) as HS. cbv beta in HS.
  destruct (start_shaped d HN) as (S1 & S2 & S3).
  { apply orb_prop in HS. destruct HS as [HS|HS]; [now left|right].
    destruct (fullbox_of _); [discriminate|reflexivity]. }
  destruct (decode_lossless _ _ _ _ _ _ _ HC HN HP S1 S2 S3 PB U) as (b & r & E1 & E2 & E3).
  destruct (C06_marshal_layout std_registry t ctx d x b G E3) as (out & EO & M).
  { rewrite E2, N.mul_comm. apply N.mod_mul. discriminate. }
  assert (EL : 8 * lenN out = 8 * n).
  { rewrite <- E2, <- EO. now rewrite lenN_bits_of_bytes. }
  assert (Ln : lenN out = n) by lia.
  assert (T : takeN n (skipN pos data) = out).
  { apply bits_of_bytes_inj. rewrite <- takeN_bits_of_bytes, E1, EO, <- E2. now rewrite takeN_app_exact. }
  rewrite T, M, Ln. reflexivity.
Qed.
Print Assumptions C12_lossless.

(** Which registered definitions are plain: all but these. *)
Example C12_not_plain :
  map bd_name (filter (fun d => negb (plain_box d)) all_defs) =
    ["Url"; "Urn"; "Emsg"; "Hdlr"; "Meta";
     "XMLSubtitleSampleEntry"; "TextSubtitleSampleEntry"; "Esds";
     "WebVTTConfigurationBox"; "WebVTTSourceLabelBox"; "CueTimeBox";
     "CueIDBox"; "CueSettingsBox"; "CuePayloadBox"; "VTTAdditionalTextBox"] /\
  lenN (filter plain_box all_defs) = 142.
Proof. split; vm_compute; reflexivity. Qed.

(** A vmhd with an unusual graphics mode, a track fragment run with per-sample
    fields and a high profile avcC without the optional tail, all followed by
    bytes that they do not read. *)
Definition reencode (t : btype) (pos : N) (data : list byte) : option (bool * N * list byte) :=
  match unmarshal_any std_registry data t (lenN data - pos) ctx0 pos with
  | (Ok (d, x, n), _) =>
      match marshal std_registry t ctx0 x [] with
      | (Ok m, out) => Some (plain_box d, m, out)
      | _ => None
      end
  | _ => None
  end.
Example C12_case_vmhd :
  reencode (bt "vmhd") 1 (hex "aa00000001ff0111223344556699") =
  Some (true, 12, hex "00000001ff01112233445566").
Proof. vm_compute. reflexivity. Qed.
Example C12_case_trun :
  reencode (bt "trun") 0 (hex "0000030100000002fffffff000000001000000020000000300000004aabbcc") =
  Some (true, 28, hex "0000030100000002fffffff000000001000000020000000300000004").
Proof. vm_compute. reflexivity. Qed.
Example C12_case_avcC :
  reencode (bt "avcC") 0 (hex "0164002803e100026742010001680000") =
  Some (true, 14, hex "0164002803e10002674201000168").
Proof. vm_compute. reflexivity. Qed.
