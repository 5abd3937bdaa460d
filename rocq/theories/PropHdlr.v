(** C47: the name in a handler box. *)
From Verif Require Import Base BaseProofs BitIO BitIOProofs Schema Structs Methods Registry Marshal Unmarshal Decode UnmarshalProofs VersionFacts
     SpecCodec SpecRoundTrip PropRoundTrip.
Local Open Scope string_scope.
Local Open Scope list_scope.
Local Open Scope N_scope.

(** ** Stepping through the decoder *)
Lemma take_bytes : forall p l r n, n = 8 * lenN l ->
  d_take n (p, bits_of_bytes (l ++ r)) = Ok (bits_of_bytes l, (p + n, bits_of_bytes r)).
Proof.
  intros p l r n ->. unfold d_take. cbn [fst snd]. rewrite bits_of_bytes_app, lenN_app, lenN_bits_of_bytes.
  replace (8 * lenN l <=? 8 * lenN l + lenN (bits_of_bytes r)) with true by (symmetry; apply N.leb_le; lia).
  rewrite takeN_app_exact, skipN_app_exact by (now rewrite lenN_bits_of_bytes). reflexivity.
Qed.
Lemma dbind_ok : forall A B (m : D A) (k : A -> D B) st a st', m st = Ok (a, st') -> dbind m k st = k a st'.
Proof. intros. unfold dbind. rewrite H. reflexivity. Qed.
Lemma uint_bytes : forall w l r (p : N) size, 8 * lenN l = size -> (size =? 0) = false -> size <= 64 -> size <= w ->
  forall fuel, d_uint fuel w false size (p, bits_of_bytes (l ++ r)) = Ok (VUint (be_to_N l), (p + size, bits_of_bytes r)).
Proof.
  intros w l r p size L Z S W fuel. unfold d_uint. cbv iota. rewrite Z. unfold dbind. rewrite take_bytes by (now symmetry).
  unfold dret. do 3 f_equal. pose proof (be_to_N_lt l) as B. rewrite L in B. rewrite <- be_to_N_bits. unfold w64.
  change W64 with (2 ^ 64).
  rewrite (N.mod_small (be_to_N l) (2 ^ 64)); [apply N.mod_small|].
  - eapply N.lt_le_trans; [exact B|]. apply N.pow_le_mono_r; lia.
  - eapply N.lt_le_trans; [exact B|]. apply N.pow_le_mono_r; lia.
Qed.
(** an array of unsigned numbers *)
Lemma uints_bytes : forall (w size : N) (ls : list (list byte)) r (p : N) (dec : val -> D val) cur,
  (forall v l r p, 8 * lenN l = size -> dec v (p, bits_of_bytes (l ++ r)) = Ok (VUint (be_to_N l), (p + size, bits_of_bytes r))) ->
  Forall (fun l => 8 * lenN l = size) ls -> List.length cur = List.length ls ->
  d_map dec cur (p, bits_of_bytes (List.concat ls ++ r)) =
  Ok (map (fun l => VUint (be_to_N l)) ls, (p + size * lenN ls, bits_of_bytes r)).
Proof.
  intros w size ls r p dec cur H F. revert p cur. induction F as [|l ls Hl F IH]; intros p cur L.
  - destruct cur; [|discriminate]. cbn [d_map List.concat app map]. unfold dret. rewrite N.mul_0_r, N.add_0_r. reflexivity.
  - destruct cur as [|v cur]; [discriminate|]. cbn [d_map List.concat map]. rewrite <- app_assoc.
    erewrite dbind_ok by (apply H; exact Hl). injection L as L.
    erewrite dbind_ok by (apply IH; exact L). unfold dret. rewrite lenN_cons. do 3 f_equal. lia.
Qed.
Lemma fld_step : forall fuel rname vs ctx rt lim base sname (cfo : bool) (self : fields) f t rest (st : dst) size len cur x (st' : dst),
  let root := box_of rt self in
  let env := if cfo then mkenv self (get_version root) (get_flags root) ctx
             else mkenv root (get_version root) (get_flags root) ctx in
  let cn := if cfo then sname else rname in
  resolve_size cn env f = Some size -> resolve_len cn env f = Some len ->
  is_target (get_version root) (get_flags root) cn env f = true ->
  hook_of cn (f_name f) = HNone -> lookup (f_name f) self = Some cur ->
  dec_val fuel rname vs ctx (box_of rt self) lim base f size len t cur st = Ok (x, st') ->
  is_fullbox t && negb (version_in vs (get_version (box_of rt (update (f_name f) x self)))) = false ->
  dec_flds fuel rname vs ctx rt lim base sname cfo self (FCons f t rest) st =
  dec_flds fuel rname vs ctx rt lim base sname cfo (update (f_name f) x self) rest st'.
Proof.
  intros fuel rname vs ctx rt lim base sname cfo self f t rest st size len cur x st' root env cn H1 H2 H3 H4 H5 H6 H7.
  subst root env cn. rewrite dec_flds_cons. cbv zeta. rewrite H1, H2, H3, H4. cbn [d_hook].
  erewrite dbind_ok; [reflexivity|]. unfold dbind, dpos, dret. rewrite H5. cbv beta iota. rewrite H6, H7. reflexivity.
Qed.

Lemma Ok_inj : forall (A : Type) (a b : A), Ok a = Ok b -> b = a.
Proof. intros A a b H. congruence. Qed.

(** ** The handler box *)
Definition hdlr_def := match get_box_def std_registry (bt "hdlr") ctx0 with Some d => d | None => item_def end.
Lemma hdlr_found : forall ctx, get_box_def std_registry (bt "hdlr") ctx = Some hdlr_def.
Proof. intros ctx. unfold get_box_def. vm_compute. reflexivity. Qed.

(** what the package takes for the name: the bytes [rest] after the fixed fields,
    in a box whose pre_defined (QuickTime: component type) field is [pd] *)
Definition name_read (pd : N) (rest : list byte) : list byte :=
  match rest with
  | [] => []
  | c :: tl =>
      if negb (pd =? 0) && (2 <=? lenN rest) && (lenN rest =? (b2N c + 1) mod 256) then tl
      else take_until_nul rest
  end.

Lemma decode_hdlr : forall fuel ctx fl pd ty rs rest post,
  lenN fl = 3 -> lenN pd = 4 -> lenN ty = 4 -> lenN rs = 12 -> 24 + lenN rest < maxAlloc ->
  exists x,
  decode fuel hdlr_def (24 + lenN rest) ctx (zero_flds (bd_flds hdlr_def))
     (bits_of_bytes ([bzero] ++ fl ++ pd ++ ty ++ rs ++ rest ++ post)) = Ok (x, 24 + lenN rest) /\
  lookup "PreDefined" x = Some (VUint (be_to_N pd)) /\
  lookup "HandlerType" x = Some (bytes_val ty) /\
  lookup "Name" x = Some (VStr (name_read (be_to_N pd) rest)).
Proof.
  intros fuel ctx fl pd ty rs rest post L1 L2 L3 L4 LM.
  destruct fl as [|f1 [|f2 [|f3 [|]]]]; try (clear - L1; rewrite ?lenN_cons, ?lenN_nil in L1; lia).
  destruct ty as [|t1 [|t2 [|t3 [|t4 [|]]]]]; try (clear - L3; rewrite ?lenN_cons, ?lenN_nil in L3; lia).
  assert (exists s1 s2 s3, rs = s1 ++ s2 ++ s3 /\ lenN s1 = 4 /\ lenN s2 = 4 /\ lenN s3 = 4) as (s1 & s2 & s3 & -> & R1 & R2 & R3).
  { exists (takeN 4 rs), (takeN 4 (skipN 4 rs)), (skipN 8 rs). split.
    - rewrite <- (takeN_skipN _ rs 4) at 1. f_equal. rewrite <- (takeN_skipN _ (skipN 4 rs) 4) at 1. f_equal. apply skipN_skipN.
    - rewrite !lenN_takeN, !lenN_skipN, L4. repeat split; reflexivity. }
  clear L1 L3 L4.
  assert (HF : bd_flds hdlr_def = FCons (plain_info "FullBox" 0 0 true) fb_ty
     (match bd_flds hdlr_def with FCons _ _ r => r | FNil => FNil end)) by (vm_compute; reflexivity).
  unfold decode.
  match goal with |- context[d_before ?a ?b] => let x := eval vm_compute in (d_before a b) in change (d_before a b) with x end.
  cbv beta iota.
  replace (bits_of_bytes ([bzero] ++ [f1; f2; f3] ++ pd ++ [t1; t2; t3; t4] ++ (s1 ++ s2 ++ s3) ++ rest ++ post))
    with (bits_of_bytes [bzero; f1; f2; f3] ++ bits_of_bytes (pd ++ [t1; t2; t3; t4] ++ (s1 ++ s2 ++ s3) ++ rest ++ post))
    by (rewrite <- bits_of_bytes_app; reflexivity).
  rewrite (decode_full_box _ _ _ _ _ _ _ _ _ _ _ HF) by (vm_compute; reflexivity).
  change (version_in (bd_versions hdlr_def) (b2N bzero)) with true. cbv iota. clear HF.
  let d := eval vm_compute in hdlr_def in change hdlr_def with d.
  cbn [bd_name bd_versions bd_flds]. set (lim := w64 ((24 + lenN rest) * 8)).
  (* PreDefined *)
  erewrite fld_step with (st' := (64, _)); [|reflexivity|reflexivity|reflexivity|reflexivity|reflexivity| |reflexivity].
  2:{ cbn [dec_val f_varint]. apply (uint_bytes 32 pd _ 32 32); [rewrite L2; reflexivity|reflexivity|clear; lia|clear; lia]. }
  (* HandlerType *)
  erewrite fld_step with (st' := (96, _)); [|reflexivity|reflexivity|reflexivity|reflexivity|reflexivity| |reflexivity].
  2:{ cbn [dec_val f_varint].
      erewrite dbind_ok.
      2:{ apply (uints_bytes 8 8 [[t1]; [t2]; [t3]; [t4]] _ 64).
          - intros v l r p H. apply uint_bytes; [exact H|reflexivity|clear; lia|clear; lia].
          - repeat constructor.
          - reflexivity. }
      reflexivity. }
  (* Reserved *)
  erewrite fld_step with (st' := (192, _)); [|reflexivity|reflexivity|reflexivity|reflexivity|reflexivity| |reflexivity].
  2:{ cbn [dec_val f_varint].
      erewrite dbind_ok.
      2:{ replace (s1 ++ s2 ++ s3) with (List.concat [s1; s2; s3]) by (cbn [List.concat]; now rewrite app_nil_r).
          apply (uints_bytes 32 32 [s1; s2; s3] _ 96).
          - intros v l r p H. apply uint_bytes; [exact H|reflexivity|clear; lia|clear; lia].
          - repeat constructor; lia.
          - reflexivity. }
      reflexivity. }
  match goal with |- context [dec_flds _ _ _ _ _ _ _ _ _ ?u _ _] => let v := eval cbv [update String.eqb Ascii.eqb Bool.eqb f_name map] in u in change u with v end.
  (* Name *)
  set (self := [("FullBox", fb_val bzero f1 f2 f3); ("PreDefined", VUint (be_to_N pd)); _; _; _]).
  assert (HK : d_hook fuel HHdlrName (get_version self) self (sub64 lim (192 - 0)) (192, bits_of_bytes (rest ++ post)) =
     Ok ((true, update "Name" (VStr (name_read (be_to_N pd) rest)) self), (192 + 8 * lenN rest, bits_of_bytes post))).
  { assert (LF : sub64 lim (192 - 0) / 8 = lenN rest).
    { clear - LM. unfold lim, sub64, w64, maxAlloc in *. change W64 with 18446744073709551616 in *. change (192 - 0) with 192.
      change (2 ^ 48) with 281474976710656 in LM.
      rewrite (N.mod_small ((24 + lenN rest) * 8)) by lia.
      change (192 mod 18446744073709551616) with 192.
      replace ((24 + lenN rest) * 8 + 18446744073709551616 - 192) with (lenN rest * 8 + 1 * 18446744073709551616) by lia.
      rewrite N.mod_add by discriminate. rewrite N.mod_small by lia. apply N.div_mul. discriminate. }
    cbn [d_hook]. cbv zeta. rewrite LF.
    destruct rest as [|c tl].
    - change (lenN (@nil byte) =? 0) with true. cbv iota. unfold dret. reflexivity.
    - set (rst := c :: tl) in *. assert (LZ : (lenN rst =? 0) = false) by (unfold rst; rewrite lenN_cons; apply N.eqb_neq; lia).
      rewrite LZ. erewrite dbind_ok by (unfold d_has; reflexivity). cbn [fst snd].
      change (192 mod 8 =? 0) with true. rewrite bits_of_bytes_app, lenN_app, lenN_bits_of_bytes.
      replace (8 * lenN rst <=? 8 * lenN rst + lenN (bits_of_bytes post)) with true by (symmetry; apply N.leb_le; lia).
      cbn [andb negb]. replace (maxAlloc <=? lenN rst) with false by (symmetry; apply N.leb_gt; lia).
      erewrite dbind_ok.
      2:{ unfold d_bytes. cbn [fst snd]. change (192 mod 8 =? 0) with true. cbv iota. rewrite lenN_app, lenN_bits_of_bytes.
          replace (8 * lenN rst <=? 8 * lenN rst + lenN (bits_of_bytes post)) with true by (symmetry; apply N.leb_le; lia).
          rewrite takeN_app_exact, skipN_app_exact by (now rewrite lenN_bits_of_bytes). rewrite pack_bytes. reflexivity. }
      change (as_uint (lookup "PreDefined" self)) with (be_to_N pd).
      unfold rst at 1. cbv iota zeta. fold rst.
      assert (NR : (if negb (be_to_N pd =? 0) && (2 <=? lenN rst) && (lenN rst =? (b2N c + 1) mod 256)
                    then takeN (b2N c) tl else take_until_nul rst) = name_read (be_to_N pd) rst).
      { unfold name_read, rst. fold rst.
        destruct (negb (be_to_N pd =? 0) && (2 <=? lenN rst) && (lenN rst =? (b2N c + 1) mod 256)) eqn:EC; [|reflexivity].
        apply andb_prop in EC. destruct EC as [_ EC]. apply N.eqb_eq in EC.
        apply takeN_all. unfold rst in EC. rewrite lenN_cons in EC.
        pose proof (b2N_lt c) as BC. clear - EC BC.
        assert (b2N c + 1 < 256 \/ b2N c + 1 = 256) as [X|X] by lia.
        - rewrite N.mod_small in EC by exact X. lia.
        - rewrite X in EC. change (256 mod 256) with 0 in EC. lia. }
      rewrite NR. unfold dret. reflexivity. }
  exists (update "Name" (VStr (name_read (be_to_N pd) rest)) self). split; [|split; [|split]; reflexivity].
  assert (EQ : forall f, f_name f = "Name" -> f_sizeDyn f = false -> f_lenDyn f = false ->
    is_target (get_version self) (get_flags self) "Hdlr" (mkenv self (get_version self) (get_flags self) ctx) f = true ->
    dec_flds fuel "Hdlr" [0] ctx None lim 0 "Hdlr" true self (FCons f SStr FNil) (192, bits_of_bytes (rest ++ post)) =
    Ok (update "Name" (VStr (name_read (be_to_N pd) rest)) self, (192 + 8 * lenN rest, bits_of_bytes post))).
  { intros f F1 F2 F3 F4. rewrite dec_flds_cons. cbv zeta. cbn [box_of]. unfold resolve_size, resolve_len. rewrite F1, F2, F3, F4.
    change (hook_of "Hdlr" "Name") with HHdlrName.
    erewrite dbind_ok; [cbn [dec_flds]; unfold dret; reflexivity|].
    erewrite dbind_ok by (unfold dpos; reflexivity). cbn [fst]. erewrite dbind_ok by exact HK. reflexivity. }
  rewrite EQ by reflexivity.
  assert (A1 : (192 + 8 * lenN rest) mod 8 = 0).
  { replace (192 + 8 * lenN rest) with ((24 + lenN rest) * 8) by lia. apply N.mod_mul. discriminate. }
  assert (A2 : lim = 192 + 8 * lenN rest).
  { clear - LM. unfold lim, w64, maxAlloc in *. change W64 with 18446744073709551616. rewrite N.mod_small; lia. }
  rewrite A1, A2. change (negb (0 =? 0)) with false. cbv iota. rewrite N.ltb_irrefl.
  replace (192 + 8 * lenN rest) with ((24 + lenN rest) * 8) by lia. rewrite N.div_mul by discriminate. reflexivity.
Qed.

(** What Unmarshal makes of a handler box of version 0, whatever the bytes before
    and after it: the name is what [name_read] says. *)
Theorem C47_read : forall ctx pre post fl pd ty rs rest,
  lenN fl = 3 -> lenN pd = 4 -> lenN ty = 4 -> lenN rs = 12 -> 
  let payload := [bzero] ++ fl ++ pd ++ ty ++ rs ++ rest in
  lenN (pre ++ payload ++ post) < 2 ^ 48 ->
  exists d x,
    unmarshal_any std_registry (pre ++ payload ++ post) (bt "hdlr") (lenN payload) ctx (lenN pre) =
      (Ok (d, x, lenN payload), lenN pre + lenN payload) /\
    lookup "PreDefined" x = Some (VUint (be_to_N pd)) /\
    lookup "HandlerType" x = Some (bytes_val ty) /\
    lookup "Name" x = Some (VStr (name_read (be_to_N pd) rest)).
Proof.
  intros ctx pre post fl pd ty rs rest L1 L2 L3 L4 payload LD.
  assert (LP : lenN payload = 24 + lenN rest).
  { unfold payload. rewrite !lenN_app, L1, L2, L3, L4. change (lenN [bzero]) with 1. lia. }
  assert (LS : lenN pre + (lenN payload + lenN post) < 281474976710656) by (rewrite <- !lenN_app; exact LD).
  assert (EP : [bzero] ++ fl ++ pd ++ ty ++ rs ++ rest ++ post = payload ++ post) by (unfold payload; rewrite <- !app_assoc; reflexivity).
  destruct (decode_hdlr (dfuel (pre ++ payload ++ post)) ctx fl pd ty rs rest post L1 L2 L3 L4) as (x & D & X1 & X2 & X3).
  { unfold maxAlloc. lia. }
  exists hdlr_def, x. split; [|auto]. rewrite EP, <- LP in D. clearbody payload. clear - D LS LD.
  assert (P1 : lenN pre <= lenN (pre ++ payload ++ post)) by (rewrite lenN_app; lia).
  assert (P2 : lenN (pre ++ payload ++ post) < 2 ^ 62) by (eapply N.lt_trans; [exact LD|reflexivity]).
  pose proof (unmarshal_any_decode (bt "hdlr") ctx hdlr_def (pre ++ payload ++ post) (lenN payload) (lenN pre) (hdlr_found ctx) P1 P2) as U.
  cbv zeta in U. rewrite skipN_app_exact in U by reflexivity. rewrite D in U.
  destruct (unmarshal_any _ _ _ _ _ _) as [[[[d' x'] n']| | |] pos'].
  - destruct U as (-> & U & -> & _). apply Ok_inj in U.
    assert (x' = x) as -> by exact (f_equal fst U). assert (n' = lenN payload) as -> by exact (f_equal snd U). reflexivity.
  - destruct U as [U _]. clear - U. discriminate U.
  - clear - U. discriminate U.
  - clear - U. discriminate U.
Qed.
Print Assumptions C47_read.

(** ** The two kinds of handler boxes *)
(** ISO/IEC 14496-12: pre_defined = 0, handler_type, three reserved words, and
    a string that ends with a zero byte *)
Definition iso_hdlr (type name : list byte) : list byte :=
  [bzero] ++ repeat bzero 3 ++ repeat bzero 4 ++ type ++ repeat bzero 12 ++ name ++ [bzero].
(** QuickTime File Format: component type ("mhlr" or "dhlr"), component subtype,
    manufacturer, flags and flags mask, and a counted string *)
Definition qt_hdlr (component type manufacturer flags mask name : list byte) : list byte :=
  [bzero] ++ repeat bzero 3 ++ component ++ type ++ manufacturer ++ flags ++ mask ++ [N2b (lenN name)] ++ name.
Definition is_name (ctx : context) (payload type name : list byte) : Prop :=
  exists d x,
    unmarshal_any std_registry payload (bt "hdlr") (lenN payload) ctx 0 = (Ok (d, x, lenN payload), lenN payload) /\
    lookup "HandlerType" x = Some (bytes_val type) /\ lookup "Name" x = Some (VStr name).

Theorem C47_iso : forall ctx type name,
  lenN type = 4 -> Forall (fun c => c <> bzero) name -> lenN name < 2 ^ 47 ->
  is_name ctx (iso_hdlr type name) type name.
Proof.
  intros ctx type name LT NN LN.
  assert (U : take_until_nul (name ++ [bzero]) = name).
  { clear - NN. induction NN as [|c r H _ IH]; [reflexivity|]. cbn [app take_until_nul].
    destruct (N.eqb_spec (b2N c) 0) as [E|E]; [|now rewrite IH]. exfalso. apply H. apply b2N_inj. rewrite E. reflexivity. }
  assert (R : name_read (be_to_N (repeat bzero 4)) (name ++ [bzero]) = name).
  { unfold name_read. change (be_to_N (repeat bzero 4) =? 0) with true. cbn [negb andb]. rewrite U. destruct name; reflexivity. }
  destruct (C47_read ctx [] [] (repeat bzero 3) (repeat bzero 4) type (repeat bzero 12) (name ++ [bzero]) eq_refl eq_refl LT eq_refl)
    as (d & x & H & _ & H2 & H3).
  { cbn [app]. rewrite app_nil_r. cbn [app repeat]. rewrite ?lenN_cons, !lenN_app, ?lenN_cons, lenN_app, LT, lenN_cons, lenN_nil.
    change (2 ^ 48) with (2 ^ 47 * 2). lia. }
  exists d, x. rewrite app_nil_r in H. cbn [app lenN] in H. rewrite R in H3. split; [|split; assumption]. exact H.
Qed.
Print Assumptions C47_iso.

Theorem C47_counted_partial : forall ctx component type manufacturer flags mask name,
  lenN component = 4 -> lenN type = 4 -> lenN manufacturer = 4 -> lenN flags = 4 -> lenN mask = 4 ->
  component <> repeat bzero 4 -> lenN name < 255 ->
  is_name ctx (qt_hdlr component type manufacturer flags mask name) type name.
Proof.
  intros ctx component type man flags mask name LC LT L1 L2 L3 NC LN.
  assert (P : (be_to_N component =? 0) = false).
  { apply N.eqb_neq. intros E. apply NC. rewrite <- (N_to_be_to_N component), E.
    replace (List.length component) with 4%nat by (unfold lenN in LC; lia). reflexivity. }
  assert (R : name_read (be_to_N component) ([N2b (lenN name)] ++ name) = name).
  { unfold name_read. cbn [app]. rewrite P. cbn [negb andb].
    rewrite lenN_cons, b2N_N2b, (N.mod_small (lenN name) 256) by lia.
    rewrite (N.mod_small (lenN name + 1)) by lia. rewrite (N.add_comm (lenN name) 1), N.eqb_refl, andb_true_r.
    destruct (N.leb_spec 2 (1 + lenN name)) as [|X]; [reflexivity|].
    destruct name as [|c r]; [reflexivity|]. rewrite lenN_cons in X. lia. }
  destruct (C47_read ctx [] [] (repeat bzero 3) component type (man ++ flags ++ mask) ([N2b (lenN name)] ++ name) eq_refl LC LT)
    as (d & x & H & _ & H2 & H3).
  { rewrite !lenN_app, L1, L2, L3. reflexivity. }
  { cbn [app]. rewrite app_nil_r. rewrite ?lenN_cons, !lenN_app, ?lenN_cons, LC, LT, L1, L2, L3.
    change (lenN (repeat bzero 3)) with 3. change (2 ^ 48) with 281474976710656. lia. }
  exists d, x. rewrite R in H3. split; [|split; assumption].
  rewrite app_nil_r in H. rewrite <- !app_assoc in H. exact H.
Qed.
Print Assumptions C47_counted_partial.

(** the claim for counted strings of every length, 255 bytes included, is false:
    the length byte plus one is computed in 8 bits *)
Theorem C47_counted_refuted : exists component type manufacturer flags mask name : list byte,
  lenN component = 4 /\ lenN type = 4 /\ lenN manufacturer = 4 /\ lenN flags = 4 /\ lenN mask = 4 /\
  component <> repeat bzero 4 /\ lenN name < 256 /\
  ~ is_name ctx0 (qt_hdlr component type manufacturer flags mask name) type name.
Proof.
  exists (bytes_of_string "mhlr"), (bytes_of_string "soun"), (repeat bzero 4), (repeat bzero 4), (repeat bzero 4), (repeat (N2b 97) 255).
  repeat (split; [vm_compute; congruence|]). intros (d & x & H & _ & E).
  assert (X : match unmarshal_any std_registry
     (qt_hdlr (bytes_of_string "mhlr") (bytes_of_string "soun") (repeat bzero 4) (repeat bzero 4) (repeat bzero 4) (repeat (N2b 97) 255))
     (bt "hdlr") 280 ctx0 0 with
     | (Ok (_, x, _), _) => match lookup "Name" x with Some (VStr s) => lenN s =? 256 | _ => false end
     | _ => false end = true) by (vm_compute; reflexivity).
  change 280 with (lenN (qt_hdlr (bytes_of_string "mhlr") (bytes_of_string "soun") (repeat bzero 4) (repeat bzero 4) (repeat bzero 4) (repeat (N2b 97) 255))) in X.
  rewrite H in X. rewrite E in X. clear - X. vm_compute in X. discriminate X.
Qed.
Print Assumptions C47_counted_refuted.

Definition name_of (payload : list byte) : option (list byte) :=
  match unmarshal_any std_registry payload (bt "hdlr") (lenN payload) ctx0 0 with
  | (Ok (_, x, _), _) => match lookup "Name" x with Some (VStr s) => Some s | _ => None end
  | _ => None
  end.
Example C47_case :
  name_of (iso_hdlr (bytes_of_string "vide") (bytes_of_string "VideoHandler")) = Some (bytes_of_string "VideoHandler") /\
  name_of (qt_hdlr (bytes_of_string "mhlr") (bytes_of_string "vide") (bytes_of_string "appl") (repeat bzero 4) (repeat bzero 4)
             (bytes_of_string "Apple Video Media Handler")) = Some (bytes_of_string "Apple Video Media Handler") /\
  name_of (qt_hdlr (bytes_of_string "mhlr") (bytes_of_string "vide") (bytes_of_string "appl") (repeat bzero 4) (repeat bzero 4) []) = Some [].
Proof. repeat split; vm_compute; reflexivity. Qed.

(** Exactly the names of 255 bytes are the exception. *)
Lemma until_no_nul : forall l, Forall (fun c => b2N c <> 0) (take_until_nul l).
Proof.
  induction l as [|c l IH]; [constructor|]. cbn [take_until_nul].
  destruct (N.eqb_spec (b2N c) 0) as [E|E]; [constructor|]. constructor; [exact E|exact IH].
Qed.
Lemma until_all : forall l, Forall (fun c => b2N c <> 0) l -> take_until_nul l = l.
Proof.
  intros l H. induction H as [|c l E _ IH]; [reflexivity|]. cbn [take_until_nul].
  destruct (N.eqb_spec (b2N c) 0); [contradiction|]. now rewrite IH.
Qed.
Theorem C47_counted_exact : forall ctx component type manufacturer flags mask name,
  lenN component = 4 -> lenN type = 4 -> lenN manufacturer = 4 -> lenN flags = 4 -> lenN mask = 4 ->
  component <> repeat bzero 4 -> lenN name < 256 ->
  is_name ctx (qt_hdlr component type manufacturer flags mask name) type name <-> lenN name < 255.
Proof.
  intros ctx component type man flags mask name LC LT L1 L2 L3 NC LN. split.
  2: { intros H. now apply C47_counted_partial. }
  intros (d & x & H & _ & E). destruct (N.lt_ge_cases (lenN name) 255) as [L|L]; [exact L|exfalso].
  assert (L255 : lenN name = 255) by lia.
  destruct (C47_read ctx [] [] (repeat bzero 3) component type (man ++ flags ++ mask) ([N2b (lenN name)] ++ name) eq_refl LC LT)
    as (d' & x' & H' & _ & _ & H3).
  { rewrite !lenN_app, L1, L2, L3. reflexivity. }
  { rewrite !lenN_app. rewrite LC, LT, L1, L2, L3, L255. reflexivity. }
  rewrite app_nil_r in H'. rewrite <- !app_assoc in H'.
  change (unmarshal_any std_registry (qt_hdlr component type man flags mask name) (bt "hdlr")
            (lenN (qt_hdlr component type man flags mask name)) ctx 0 =
          (Ok (d', x', lenN (qt_hdlr component type man flags mask name)), 0 + lenN (qt_hdlr component type man flags mask name))) in H'.
  rewrite H in H'.
  injection H' as _ <-. rewrite E in H3. injection H3 as H3.
  unfold name_read in H3. cbn [app] in H3. rewrite lenN_cons, L255, b2N_N2b in H3.
  change (1 + 255 =? (255 mod 256 + 1) mod 256) with false in H3. rewrite andb_false_r in H3.
  cbv iota in H3. change (255 mod 256 =? 0) with false in H3. cbv iota in H3.
  assert (Z : Forall (fun c => b2N c <> 0) name).
  { rewrite H3. constructor; [rewrite b2N_N2b; discriminate|apply until_no_nul]. }
  rewrite (until_all name Z) in H3. apply (f_equal lenN) in H3. rewrite lenN_cons in H3. lia.
Qed.
Print Assumptions C47_counted_exact.
