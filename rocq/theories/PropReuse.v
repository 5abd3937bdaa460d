(** C60: Unmarshal into a box that has been used before. *)
From Verif Require Import Base BitIO Schema Structs Methods Registry Marshal Unmarshal SpecCodec
     SpecRoundTrip Decode SpecReuse.
From Verif Require Import BaseProofs BitIOProofs BitIOFacts MarshalProofs MarshalCount UnmarshalProofs
     DecodeFacts VersionFacts Causal Shape Total Typed ReuseFacts.
Local Open Scope string_scope.
Local Open Scope list_scope.
Local Open Scope N_scope.

(** The caller hands Unmarshal a box with any content ([used]).  It ends as with
    a fresh box: with the same error, or having read as many bytes.  Each field
    that the payload contains is then the same as in the fresh box; the others
    keep what they held before (the payload decides, not the old content: what
    the payload contains is a matter of the fresh result alone).
    The exception is sgpd of version 2: see [C60_sgpd_refuted]. *)
Theorem C60_used_box_partial : forall t ctx d data size used pos,
  get_box_def std_registry t ctx = Some d -> go_struct (bd_flds d) used ->
  pos <= lenN data -> lenN data < 2 ^ 62 ->
  (bd_name d = "Sgpd" -> option_map b2N (nthN pos data) <> Some 2) ->
  let fresh := zero_flds (bd_flds d) in
  match unmarshal_def d data size ctx used pos, unmarshal_def d data size ctx fresh pos with
  | (Ok (x, n), q), (Ok (y, n'), q') => n = n' /\ q = q' /\ map fst x = map fst y /\
      forall f, In f (finfos (bd_flds d)) -> left_or_read d ctx fresh used y x f
  | (Err e, _), (Err e', _) => e = e'
  | (Panic, _), (Panic, _) => True
  | (OutOfFuel, _), (OutOfFuel, _) => True
  | _, _ => False
  end.
Proof.
  intros t ctx d data size used pos G GU Hp Hd HS fresh.
  pose proof (all_defs_check _ _ _ _ _ eq_refl std_no_hdlr G) as Hh. cbv beta in Hh.
  pose proof (all_defs_check _ _ _ _ _ eq_refl std_reuse G) as Hr. cbv beta in Hr.
  pose proof (all_defs_check _ _ _ _ _ eq_refl std_meta G) as HM. cbv beta in HM. clear G.
  assert (HM' : bd_name d = "Meta" -> bd_flds d = FCons (plain_info "FullBox" 0 0 true) fb_ty FNil).
  { intros E. rewrite E in HM. cbn [String.eqb Ascii.eqb Bool.eqb implb] in HM. now apply sty_eqb_eq in HM. }
  pose proof (unmarshal_decode d data size ctx used pos Hp Hd Hh) as U1. cbv zeta in U1.
  pose proof (unmarshal_decode d data size ctx fresh pos Hp Hd Hh) as U2. cbv zeta in U2.
  rewrite skipN_bits_of_bytes in U1, U2.
  assert (HV : bd_name d = "Sgpd" -> match skipN pos data with v :: _ => b2N v <> 2 | [] => True end).
  { intros E. specialize (HS E). rewrite nthN_skipN in HS. destruct (skipN pos data) as [|v l]; [exact I|].
    intros X. apply HS. cbn. now rewrite X. }
  pose proof (reuse_decode (dfuel data) d size ctx fresh used (skipN pos data) Hr HM'
                (proj2 zero_go (bd_flds d)) GU HV) as R.
  destruct (unmarshal_def d data size ctx used pos) as [[[x n]|e| |] q],
           (unmarshal_def d data size ctx fresh pos) as [[[y n']|e'| |] q'];
    repeat match goal with X : _ /\ _ |- _ => destruct X as [? X] end;
    repeat match goal with X : decode _ _ _ _ _ _ = _ |- _ => rewrite X in R; clear X end;
    cbn in R; try contradiction; auto.
  destruct R as (-> & R1 & R2). repeat split; try lia; auto.
Qed.
Print Assumptions C60_used_box_partial.

(** What Unmarshal leaves is again a content to which the theorem applies. *)
Theorem C60_can_be_used_again : forall t ctx d data size used pos x n q,
  get_box_def std_registry t ctx = Some d -> go_struct (bd_flds d) used ->
  pos <= lenN data -> lenN data < 2 ^ 62 ->
  unmarshal_def d data size ctx used pos = (Ok (x, n), q) -> go_struct (bd_flds d) x.
Proof.
  intros t ctx d data size used pos x n q G GU Hp Hd H.
  pose proof (all_defs_check _ _ _ _ _ eq_refl std_no_hdlr G) as Hh. cbv beta in Hh.
  pose proof (all_defs_check _ _ _ _ _ eq_refl std_nodup G) as Hn. cbv beta in Hn.
  pose proof (all_defs_check _ _ _ _ _ eq_refl std_tk G) as Ht. cbv beta in Ht.
  pose proof (all_defs_check _ _ _ _ _ eq_refl std_fb_named G) as Hf. cbv beta in Hf. clear G.
  pose proof (unmarshal_decode d data size ctx used pos Hp Hd Hh) as U. cbv zeta in U. rewrite H in U.
  destruct U as (U & _). exact (decode_go _ _ _ _ _ _ _ _ Hn Ht (fb_named_ok d Hf) GU U).
Qed.
Print Assumptions C60_can_be_used_again.

(** ** sgpd of version 2 *)
Definition alst1 : list byte := hex "01000000616c73740000000400000001" ++ hex "00000000".
Definition alst2 : list byte := hex "02000000616c73740000000000000001" ++ hex "0000000000010002".
Definition def_of (t : string) : option boxdef := get_box_def std_registry (bt_str t) ctx0.

(** The payload is that of an sgpd box of version 2 with one alternative startup
    entry.  A fresh box takes it, all 24 bytes.  A box in which one of version 1
    with default_length 4 was read before takes 20 bytes of it and loses the
    entry's options: DefaultLength, which version 2 does not carry, still holds
    what the first payload had. *)
Theorem C60_sgpd_refuted : exists d used x y q,
  def_of "sgpd" = Some d /\
  unmarshal_def d alst1 20 ctx0 (zero_flds (bd_flds d)) 0 = (Ok (used, 20), q) /\
  unmarshal_def d alst2 24 ctx0 (zero_flds (bd_flds d)) 0 = (Ok (y, 24), 24) /\
  unmarshal_def d alst2 24 ctx0 used 0 = (Ok (x, 20), 20) /\
  lookup "AlternativeStartupEntries" x <> lookup "AlternativeStartupEntries" y.
Proof.
  exists (match def_of "sgpd" with Some d => d | None => mkdef "" FNil false PAlways [] end).
  exists (match def_of "sgpd" with
          | Some d => match unmarshal_def d alst1 20 ctx0 (zero_flds (bd_flds d)) 0 with (Ok (u, _), _) => u | _ => [] end
          | None => [] end).
  do 3 eexists. vm_compute. repeat (split; [reflexivity|]). discriminate.
Qed.
Print Assumptions C60_sgpd_refuted.

(** tfhd: first one with a base data offset (flag 1) and a default sample size
    (flag 16), then one with a default sample duration (flag 8): the duration is
    read, the other two keep their old values.  Marshal of the box does not write
    them. *)
Example C60_case :
  let p1 := hex "00000011000000020000000000000abc00000200" in
  let p2 := hex "0000000800000003000003e8" in
  match def_of "tfhd" with
  | Some d =>
      match unmarshal_def d p1 20 ctx0 (zero_flds (bd_flds d)) 0 with
      | (Ok (u, _), _) =>
          match unmarshal_def d p2 12 ctx0 u 0 with
          | (Ok (x, n), _) =>
              (n, lookup "TrackID" x, lookup "BaseDataOffset" x, lookup "DefaultSampleDuration" x,
               lookup "DefaultSampleSize" x, marshal_def d ctx0 x [])
          | _ => (0, None, None, None, None, (Panic, [])) end
      | _ => (0, None, None, None, None, (Panic, [])) end
  | None => (0, None, None, None, None, (Panic, []))
  end = (12, Some (VUint 3), Some (VUint 2748), Some (VUint 1000), Some (VUint 512), (Ok 12, p2)).
Proof. vm_compute. reflexivity. Qed.
