(** Reading sgpd boxes of version 1 with explicit description lengths. *)
From Verif Require Import Base BaseProofs BitIO BitIOProofs Schema Structs Methods Registry Marshal Unmarshal Decode UnmarshalProofs VersionFacts
     SpecCodec SpecRoundTrip PropRoundTrip PropHdlr.
Local Open Scope string_scope.
Local Open Scope list_scope.
Local Open Scope N_scope.
Local Open Scope dec_scope.
Definition sgpd_def := match get_box_def std_registry (bt "sgpd") ctx0 with Some d => d | None => item_def end.
Lemma sgpd_found : forall ctx, get_box_def std_registry (bt "sgpd") ctx = Some sgpd_def.
Proof. intros ctx. unfold get_box_def. vm_compute. reflexivity. Qed.

Lemma fld_skip : forall fuel rname vs ctx rt lim base sname (cfo : bool) (self : fields) f t rest (st : dst) size len,
  let root := box_of rt self in
  let env := if cfo then mkenv self (get_version root) (get_flags root) ctx
             else mkenv root (get_version root) (get_flags root) ctx in
  let cn := if cfo then sname else rname in
  resolve_size cn env f = Some size -> resolve_len cn env f = Some len ->
  is_target (get_version root) (get_flags root) cn env f = false ->
  dec_flds fuel rname vs ctx rt lim base sname cfo self (FCons f t rest) st =
  dec_flds fuel rname vs ctx rt lim base sname cfo self rest st.
Proof.
  intros fuel rname vs ctx rt lim base sname cfo self f t rest st size len root env cn H1 H2 H3.
  subst root env cn. rewrite dec_flds_cons. cbv zeta. rewrite H1, H2, H3. unfold dbind, dret. reflexivity.
Qed.
(** an error of the field is the error of the whole *)
Lemma fld_err : forall fuel rname vs ctx rt lim base sname (cfo : bool) (self : fields) f t rest (st : dst) size len cur e,
  let root := box_of rt self in
  let env := if cfo then mkenv self (get_version root) (get_flags root) ctx
             else mkenv root (get_version root) (get_flags root) ctx in
  let cn := if cfo then sname else rname in
  resolve_size cn env f = Some size -> resolve_len cn env f = Some len ->
  is_target (get_version root) (get_flags root) cn env f = true ->
  hook_of cn (f_name f) = HNone -> lookup (f_name f) self = Some cur ->
  dec_val fuel rname vs ctx (box_of rt self) lim base f size len t cur st = Err e ->
  dec_flds fuel rname vs ctx rt lim base sname cfo self (FCons f t rest) st = Err e.
Proof.
  intros fuel rname vs ctx rt lim base sname cfo self f t rest st size len cur e root env cn H1 H2 H3 H4 H5 H6.
  subst root env cn. rewrite dec_flds_cons. cbv zeta. rewrite H1, H2, H3, H4. cbn [d_hook].
  unfold dbind, dpos, dret. rewrite H5. cbv beta iota. rewrite H6. reflexivity.
Qed.

Fixpoint fld_ty (n : string) (fs : flds) : sty :=
  match fs with FNil => SBool | FCons f t r => if String.eqb (f_name f) n then t else fld_ty n r end.
Definition rdl : sty := Eval vm_compute in match fld_ty "RollDistancesL" (bd_flds sgpd_def) with SSlice u => u | _ => SBool end.

Lemma target_always : forall ver flags cn env f,
  (f_version f =? anyVersion) && (f_nVersion f =? anyVersion) && (f_optFlag f =? 0) && (f_nOptFlag f =? 0) && negb (f_optDyn f) = true ->
  is_target ver flags cn env f = true.
Proof.
  intros ver flags cn env f H. repeat (apply andb_prop in H; destruct H as [H ?]).
  unfold is_target. rewrite H, H3, H2, H1. destruct (f_optDyn f); [discriminate|]. now destruct (ver =? anyVersion).
Qed.
(** An entry with its length under the tag size=16: the 16 bits that the tag
    grants are not the 48 of the entry. *)
Lemma roll_entry : forall k vs ctx rt lim base f len st,
  exists e, dec_val k "Sgpd" vs ctx rt lim base f 16 len rdl (zero rdl) st = Err e.
Proof.
  intros k vs ctx rt lim base f len [p bits].
  unfold rdl at 2. cbn [zero zero_flds f_name]. unfold rdl. rewrite dec_val_struct.
  change (negb (16 =? 0) && (16 mod 8 =? 0)) with true. cbv iota.
  unfold dbind at 1, dpos at 1. cbn [fst].
  unfold dbind at 1.
  match goal with |- context [dec_flds ?a ?b ?c ?d ?e ?f ?g ?h ?i ?l ?fs ?st] => set (X := dec_flds a b c d e f g h i l fs st) end.
  assert (HX : match X with Ok (_, st') => fst st' = p + 48 | Err _ => True | _ => False end).
  { unfold X. clear X. destruct (32 <=? lenN bits) eqn:E1.
    - erewrite fld_step with (x := _) (st' := _); [|reflexivity|reflexivity|apply target_always; reflexivity|reflexivity|reflexivity| |reflexivity].
      2:{ cbn [dec_val f_varint f_size]. unfold d_uint. cbv iota. change (32 =? 0) with false. cbv iota.
          unfold dbind, d_take. cbn [fst snd]. rewrite E1. unfold dret. reflexivity. }
      destruct (16 <=? lenN (skipN 32 bits)) eqn:E2.
      + erewrite fld_step with (x := _) (st' := _); [|reflexivity|reflexivity|apply target_always; reflexivity|reflexivity|reflexivity| |reflexivity].
        2:{ cbn [dec_val f_varint f_size]. unfold d_int. cbv iota. change (16 =? 0) with false. cbv iota.
          unfold dbind, d_take. cbn [fst snd]. rewrite E2. unfold dret. reflexivity. }
        cbn [dec_flds]. unfold dret. cbn [fst]. lia.
      + erewrite fld_err; [exact I|reflexivity|reflexivity|apply target_always; reflexivity|reflexivity|reflexivity|].
        cbn [dec_val f_varint f_size]. unfold d_int. cbv iota. change (16 =? 0) with false. cbv iota.
        unfold dbind, d_take. cbn [fst snd]. rewrite E2. reflexivity.
    - erewrite fld_err; [exact I|reflexivity|reflexivity|apply target_always; reflexivity|reflexivity|reflexivity|].
      cbn [dec_val f_varint f_size]. unfold d_uint. cbv iota. change (32 =? 0) with false. cbv iota.
      unfold dbind, d_take. cbn [fst snd]. rewrite E1. reflexivity. }
  destruct X as [[x [q b]]|e| |]; try contradiction; [|now exists e].
  cbn [fst] in HX. subst q. unfold dbind, dpos. cbn [fst]. replace (p + 48 - p) with 48 by lia.
  change (48 =? 16) with false. cbv iota. unfold dfail. now eexists.
Qed.

Lemma dec_val_slice : forall k rn vs ctx rt lim base f size len u cur p bits,
  is_u8 u = false -> len = LengthUnlimited ->
  dec_val k rn vs ctx rt lim base f size len (SSlice u) cur (p, bits) =
   if negb (size =? 0) && negb (sub64 lim (p - base) mod size =? 0) then Err (EMsg "invalid alignment")
   else
     (xs <~ dwhile k (fun acc =>
             p <~ dpos ;;
             if lim <=? p - base then dret (inr acc)
             else acc' <~ (x <~ dec_val k rn vs ctx rt lim base f size len u (zero u) ;;
                           p <~ dpos ;;
                           if lim <? p - base then dfail (EMsg "failed to read array completely")
                           else dret (x :: acc)) ;; dret (inl acc')) [] ;;
     dret (VList (rev xs))) (p, bits).
Proof.
  intros k rn vs ctx rt lim base f size len u cur p bits H ->. cbn [dec_val]. unfold dbind at 1, dpos at 1. cbn [fst].
  cbv zeta. rewrite H, N.eqb_refl, andb_false_r. cbn [andb].
  destruct (negb (size =? 0) && _); reflexivity.
Qed.

Lemma roll_entries : forall k vs ctx rt lim f cur bits,
  k <> O -> 128 < lim ->
  exists e, dec_val k "Sgpd" vs ctx rt lim 0 f 16 LengthUnlimited (SSlice rdl) cur (128, bits) = Err e.
Proof.
  intros k vs ctx rt lim f cur bits K L. rewrite dec_val_slice by reflexivity. change (128 - 0) with 128.
  destruct (negb (16 =? 0) && _); [now eexists|].
  destruct k as [|k]; [now contradiction K|].
  destruct (roll_entry (S k) vs ctx rt lim 0 f LengthUnlimited (128, bits)) as [e E].
  exists e. cbn [dwhile]. unfold dbind, dpos. cbn [fst]. change (128 - 0) with 128.
  replace (lim <=? 128) with false by (symmetry; apply N.leb_gt; exact L). rewrite E. reflexivity.
Qed.

Lemma decode_roll : forall fuel ctx fl gt ec rest size,
  lenN fl = 3 -> gt = bt "roll" \/ gt = bt "prol" -> lenN ec = 4 -> size < 2 ^ 61 -> fuel <> O ->
  match decode fuel sgpd_def size ctx (zero_flds (bd_flds sgpd_def))
     (bits_of_bytes ([N2b 1] ++ fl ++ gt ++ [bzero; bzero; bzero; bzero] ++ ec ++ rest)) with
  | Ok (x, n) => size = 16 /\ n = 16
  | Err _ => size <> 16
  | _ => False
  end.
Proof.
  intros fuel ctx fl gt ec rest size L1 GT L2 LS FU.
  destruct fl as [|f1 [|f2 [|f3 [|]]]]; try (clear - L1; rewrite ?lenN_cons, ?lenN_nil in L1; lia).
  clear L1.
  assert (exists t1 t2 t3 t4, gt = [t1; t2; t3; t4]) as (t1 & t2 & t3 & t4 & EG) by (destruct GT as [->| ->]; do 4 eexists; reflexivity).
  assert (HF : bd_flds sgpd_def = FCons (plain_info "FullBox" 0 0 true) fb_ty
     (match bd_flds sgpd_def with FCons _ _ r => r | FNil => FNil end)) by (vm_compute; reflexivity).
  unfold decode.
  match goal with |- context[d_before ?a ?b] => let x := eval vm_compute in (d_before a b) in change (d_before a b) with x end.
  cbv beta iota.
  replace (bits_of_bytes ([N2b 1] ++ [f1; f2; f3] ++ gt ++ [bzero; bzero; bzero; bzero] ++ ec ++ rest))
    with (bits_of_bytes [N2b 1; f1; f2; f3] ++ bits_of_bytes (gt ++ [bzero; bzero; bzero; bzero] ++ ec ++ rest))
    by (rewrite <- bits_of_bytes_app; reflexivity).
  rewrite (decode_full_box _ _ _ _ _ _ _ _ _ _ _ HF) by (vm_compute; reflexivity).
  replace (version_in (bd_versions sgpd_def) (b2N (N2b 1))) with true by (vm_compute; reflexivity). cbv iota. clear HF.
  let d := eval vm_compute in sgpd_def in change sgpd_def with d.
  cbn [bd_name bd_versions bd_flds]. set (lim := w64 (size * 8)).
  (* GroupingType *)
  erewrite fld_step with (st' := (64, _)); [|reflexivity|reflexivity|reflexivity|reflexivity|reflexivity| |reflexivity].
  2:{ cbn [dec_val f_varint]. rewrite EG.
      erewrite dbind_ok.
      2:{ apply (uints_bytes 8 8 [[t1]; [t2]; [t3]; [t4]] _ 32).
          - intros v l r p H. apply uint_bytes; [exact H|reflexivity|clear; lia|clear; lia].
          - repeat constructor.
          - reflexivity. }
      reflexivity. }
  (* DefaultLength *)
  erewrite fld_step with (st' := (96, _)); [|reflexivity|reflexivity|reflexivity|reflexivity|reflexivity| |reflexivity].
  2:{ cbn [dec_val f_varint]. apply (uint_bytes 32 _ _ 64 32); [reflexivity|reflexivity|clear; lia|clear; lia]. }
  (* DefaultSampleDescriptionIndex *)
  assert (TT : [t1; t2; t3; t4] = bt "roll" \/ [t1; t2; t3; t4] = bt "prol") by (now rewrite <- EG). clear GT EG gt.
  assert (exists u1 u2 u3 u4, [t1; t2; t3; t4] = [u1; u2; u3; u4] /\
     (u1 = N2b 114 /\ u2 = N2b 111 /\ u3 = N2b 108 /\ u4 = N2b 108 \/ u1 = N2b 112 /\ u2 = N2b 114 /\ u3 = N2b 111 /\ u4 = N2b 108)) as (u1 & u2 & u3 & u4 & E & V).
  { exists t1, t2, t3, t4. split; [reflexivity|]. destruct TT as [X|X]; apply (f_equal (fun l => (nth 0 l bzero, nth 1 l bzero, nth 2 l bzero, nth 3 l bzero))) in X;
    cbn [nth] in X; injection X as -> -> -> ->; [left|right]; repeat split; reflexivity. }
  injection E as -> -> -> ->. clear TT.
  assert (VV : map b2N [u1; u2; u3; u4] = [114; 111; 108; 108] \/ map b2N [u1; u2; u3; u4] = [112; 114; 111; 108]) by
    (destruct V as [(-> & -> & -> & ->)|(-> & -> & -> & ->)]; [left|right]; vm_compute; reflexivity).
  clear V.
  erewrite fld_skip; [|reflexivity|reflexivity|reflexivity].
  (* EntryCount *)
  erewrite fld_step with (st' := (128, _)); [|reflexivity|reflexivity|reflexivity|reflexivity|reflexivity| |reflexivity].
  2:{ cbn [dec_val f_varint]. apply (uint_bytes 32 _ _ 96 32); [rewrite L2; reflexivity|reflexivity|clear; lia|clear; lia]. }
  match goal with |- context [dec_flds _ _ _ _ _ _ _ _ _ ?u _ _] => let v := eval cbv [update String.eqb Ascii.eqb Bool.eqb f_name map] in u in change u with v end.
  change (be_to_N [bzero; bzero; bzero; bzero]) with 0.
  change (be_to_N [u1]) with (b2N u1). change (be_to_N [u2]) with (b2N u2). change (be_to_N [u3]) with (b2N u3). change (be_to_N [u4]) with (b2N u4).
  assert (SZ : lim = size * 8).
  { unfold lim, w64. change (2 ^ 61) with 2305843009213693952 in LS. change W64 with 18446744073709551616. apply N.mod_small. lia. }
  clearbody lim.
  generalize (be_to_N ec). intros cnt. clear ec L2.
  cbn [map] in VV.
  assert (GV : [VUint (b2N u1); VUint (b2N u2); VUint (b2N u3); VUint (b2N u4)] = [VUint 114; VUint 111; VUint 108; VUint 108] \/
     [VUint (b2N u1); VUint (b2N u2); VUint (b2N u3); VUint (b2N u4)] = [VUint 112; VUint 114; VUint 111; VUint 108]).
  { destruct VV as [X|X]; injection X as -> -> -> ->; [left|right]; reflexivity. }
  clear VV.
  destruct GV as [GV|GV]; rewrite GV; clear GV u1 u2 u3 u4.
  all: (erewrite fld_skip; [|reflexivity|reflexivity|reflexivity]).
  (* RollDistancesL *)
  all: fold rdl.
  all: destruct (lim <=? 128) eqn:LL.
  Ltac off := erewrite fld_skip; [|reflexivity|reflexivity|reflexivity].
  Ltac list := rewrite dec_val_slice by reflexivity; cbn [f_size]; change (128 - 0) with 128.
  1, 3: destruct (negb (sub64 lim 128 mod 16 =? 0)) eqn:LM.
  all: try (erewrite fld_err; [|reflexivity|reflexivity|reflexivity|reflexivity|reflexivity|list; change (negb (16 =? 0)) with true; rewrite LM; reflexivity];
            intros ->; rewrite SZ in LM; vm_compute in LM; discriminate LM).
  all: match type of LL with
  | _ = true =>
     erewrite fld_step with (x := VList []) (st' := (128, bits_of_bytes rest));
     [|reflexivity|reflexivity|reflexivity|reflexivity|reflexivity
      |list; change (negb (16 =? 0)) with true; rewrite LM;
       destruct fuel as [|fu]; [now contradiction FU|]; cbn [dwhile]; unfold dbind, dpos, dret; cbn [fst];
       change (128 - 0) with 128; rewrite LL; reflexivity
      |reflexivity];
      do 7 off; cbn [dec_flds]; unfold dret; change (128 mod 8 =? 0) with true; cbn [negb];
      apply N.leb_le in LL; destruct (lim <? 128) eqn:LT;
      [apply N.ltb_lt in LT; lia|apply N.ltb_ge in LT; split; [lia|reflexivity]]
  | _ = false =>
     apply N.leb_gt in LL;
     match goal with |- context [dec_flds _ _ ?vs _ _ _ _ _ _ ?self (FCons ?f _ _) _] =>
       destruct (roll_entries fuel vs ctx self lim f (VList []) (bits_of_bytes rest) FU LL) as [e HE]
     end;
     erewrite fld_err; [|reflexivity|reflexivity|reflexivity|reflexivity|reflexivity|exact HE]; lia
  end.
Qed.

