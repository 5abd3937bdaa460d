(** From the decoder to Unmarshal, for the registered boxes. *)
From Verif Require Import Base BitIO Schema Structs Methods Registry Marshal Unmarshal SpecCodec
     SpecRoundTrip Decode.
From Verif Require Import BaseProofs BitIOProofs BitIOFacts MarshalProofs MarshalCount UnmarshalProofs
     DecodeFacts VersionFacts Causal RoundTripBase RoundTripProofs.
Local Open Scope string_scope.
Local Open Scope list_scope.
Local Open Scope N_scope.
Local Open Scope dec_scope.
Ltac Zify.zify_post_hook ::= Z.to_euclidean_division_equations.

(** ** Meta *)
Lemma layout_fb : forall rn root ctx o len x b,
  layout_val rn root ctx o 0 len fb_ty x = Some b -> lenN b = 32.
Proof.
  intros rn root ctx o len x b E. unfold fb_ty in E. destruct x as [| | | | | |l]; try discriminate.
  match type of E with layout_val _ _ _ _ _ _ (SStruct ?n ?c ?fs) _ = _ =>
    change (layout_flds rn root ctx None n c l fs = Some b) in E end.
  rewrite layout_flds_cons in E. cbn [owner] in E. rewrite plain_size, plain_len in E. cbn [obind] in E.
  unfold field_bits in E. rewrite <- is_target_enabled, plain_target in E. cbn [f_name plain_info] in E.
  change (hook_of "FullBox" "Version") with HNone in E. cbv iota in E.
  apply obind_some in E. destruct E as (b1 & E1 & E). apply obind_some in E. destruct E as (b2 & E2 & E).
  apply obind_some in E1. destruct E1 as (x1 & _ & E1). cbn [layout_val] in E1.
  destruct x1 as [n| | | | | |]; try discriminate. cbn [f_varint plain_info] in E1.
  destruct (uint_fits 8 n); [|discriminate]. cbn [andb] in E1.
  rewrite layout_flds_cons in E2. cbn [owner] in E2. rewrite plain_size, plain_len in E2. cbn [obind] in E2.
  unfold field_bits in E2. rewrite <- is_target_enabled, plain_target in E2. cbn [f_name plain_info] in E2.
  change (hook_of "FullBox" "Flags") with HNone in E2. cbv iota in E2.
  apply obind_some in E2. destruct E2 as (b3 & E3 & E2). cbn in E2.
  apply obind_some in E3. destruct E3 as (x3 & _ & E3).
  destruct x3 as [| | | |l3| |]; try discriminate.
  match type of E3 with layout_val _ _ _ ?f ?s ?ln _ _ = _ =>
    change ((if lenN l3 =? 3 then concat_bits (layout_val rn root ctx f s ln (SUint 8)) l3 else None) = Some b3) in E3 end.
  destruct (N.eqb_spec (lenN l3) 3) as [L3|]; [|discriminate].
  destruct (u8_bytes _ _ _ _ _ _ _ E3) as (bs & -> & ->).
  assert (LM : lenN (map (fun c : byte => VUint (b2N c)) bs) = lenN bs) by (unfold lenN; now rewrite map_length).
  assert (Eb1 : b1 = uint_bits 8 n) by (now injection E1). subst b1.
  assert (Eb2 : b2 = bits_of_bytes bs ++ []) by (now injection E2). subst b2.
  assert (Eb : b = uint_bits 8 n ++ bits_of_bytes bs ++ []) by (now injection E). subst b.
  rewrite app_nil_r, lenN_app, lenN_bits_of_bytes, lenN_uint_bits. lia.
Qed.

Definition is_fb1 (fs : flds) : bool := flds_eqb fs (FCons (plain_info "FullBox" 0 0 true) fb_ty FNil).
Lemma std_meta : forallb (fun d => implb (String.eqb (bd_name d) "Meta") (is_fb1 (bd_flds d))) all_defs = true.
Proof. vm_compute. reflexivity. Qed.

Lemma flags_zero : forall a b c : byte, flags_of_bytes [VUint (b2N a); VUint (b2N b); VUint (b2N c)] = 0 ->
  b2N a = 0 /\ b2N b = 0 /\ b2N c = 0.
Proof.
  intros a b c H. cbn [flags_of_bytes] in H. pose proof (b2N_lt a) as A. pose proof (b2N_lt b) as B.
  pose proof (b2N_lt c) as C.
  set (x := b2N a) in *. set (y := b2N b) in *. set (z := b2N c) in *. clearbody x y z.
  assert (T : forall n m k, m < 2 ^ k -> N.testbit m (n + k) = false).
  { intros n m k Hm. destruct (N.eq_dec m 0) as [->|Hz]; [apply N.bits_0|].
    apply N.bits_above_log2. apply N.log2_lt_pow2 in Hm; lia. }
  assert (X : x = 0).
  { apply N.bits_inj_0. intros n. assert (Q : N.testbit (N.lxor (N.lxor (N.shiftl x 16) (N.shiftl y 8)) z) (n + 16) = false)
      by (rewrite H; apply N.bits_0).
    rewrite !N.lxor_spec, N.shiftl_spec_high' in Q by lia. replace (n + 16 - 16) with n in Q by lia.
    rewrite (T n z 16) in Q by (change (2 ^ 16) with 65536; lia).
    rewrite N.shiftl_spec_high' in Q by lia. replace (n + 16 - 8) with (n + 8) in Q by lia.
    rewrite (T n y 8) in Q by exact B. now rewrite !xorb_false_r in Q. }
  subst x. rewrite N.shiftl_0_l, N.lxor_0_l in H.
  assert (Y : y = 0).
  { apply N.bits_inj_0. intros n. assert (Q : N.testbit (N.lxor (N.shiftl y 8) z) (n + 8) = false)
      by (rewrite H; apply N.bits_0).
    rewrite !N.lxor_spec, N.shiftl_spec_high' in Q by lia. replace (n + 8 - 8) with n in Q by lia.
    rewrite (T n z 8) in Q by exact C. now rewrite !xorb_false_r in Q. }
  subst y. rewrite N.shiftl_0_l, N.lxor_0_l in H. auto.
Qed.

Lemma decode_rt : forall d ctx v bits k r,
  causal true d && causal false d = true ->
  implb (String.eqb (bd_name d) "Meta") (is_fb1 (bd_flds d)) = true ->
  well_formed d ctx v = true ->
  layout (bd_name d) (bd_flds d) ctx v = Some bits -> (List.length bits < k)%nat ->
  decode k d (lenN bits / 8) ctx (zero_flds (bd_flds d)) (bits ++ r) = Ok (v, lenN bits / 8).
Proof.
  intros d ctx v bits k r HC HM W E K. unfold well_formed in W. rewrite E in W.
  apply andb_prop in W. destruct W as [W1 W]. apply andb_prop in W. destruct W as [W W6].
  apply andb_prop in W. destruct W as [W W5]. apply andb_prop in W. destruct W as [W W4].
  apply andb_prop in W. destruct W as [W2 W3]. apply strs_eqb_eq in W1. apply N.eqb_eq in W2. apply N.ltb_lt in W3.
  assert (C : causal (get_version v =? 0) d = true).
  { apply andb_prop in HC. destruct HC as [H1 H2]. destruct (get_version v =? 0); assumption. }
  clear HC. unfold causal in C.
  set (hf := str_in "FullBox" (names_of (bd_flds d))) in *.
  destruct (chk_flds _ _ _ _ _ _ _ _ _) as [Dend|] eqn:CE in C; [|discriminate].
  set (z := set_version anyVersion (zero_flds (bd_flds d))) in *.
  assert (Kz : map fst z = names_of (bd_flds d)).
  { unfold z. assert (G : map fst (zero_flds (bd_flds d)) = names_of (bd_flds d)).
    { clear. induction (bd_flds d) as [|f t r IH]; [reflexivity|]. cbn. now rewrite IH. }
    unfold set_version. destruct (fullbox_of _); [now rewrite keys_update|exact G]. }
  assert (DEC : dec_flds k (bd_name d) (bd_versions d) ctx None (lenN bits) 0 (bd_name d) true z (bd_flds d)
                  (0, bits ++ r) = Ok (v, (lenN bits, r))).
  { destruct (proj2 (rt_all k (bd_name d) (bd_versions d) ctx v W4) (bd_flds d) (Some hf) false [] true (bd_name d) []
               Dend None (Some 0) (lenN bits) 0 0 (lenN bits) v z z bits r) as (s' & Ed & Ks & Hs);
      auto; try lia; try congruence.
    - split; [reflexivity|]. split; [reflexivity|]. intros Hh I. rewrite W1 in I.
      apply str_in_In in I. unfold hf in Hh. congruence.
    - intros j [].
    - rewrite Ed. rewrite N.add_0_l. do 2 f_equal. apply fields_ext; [congruence| |].
      + rewrite Ks, W1. eapply chk_nodup. exact CE.
      + intros j Hj. apply Hs. eapply all_in_In; eauto. congruence. }
  change (2 ^ 51) with 2251799813685248 in W3.
  assert (LM : w64 (lenN bits / 8 * 8) = lenN bits) by (unfold w64, W64; lia).
  unfold decode. fold z. rewrite LM.
  assert (BF : d_before (bd_name d) z (0, bits ++ r) = Ok ((false, z), (0, bits ++ r))).
  { unfold d_before. destruct (String.eqb (bd_name d) "Meta") eqn:EM; [|reflexivity].
    cbn [implb] in HM, W5. apply andb_prop in W5. destruct W5 as [Wv Wf]. apply N.eqb_eq in Wv, Wf.
    apply (proj2 sty_eqb_eq) in HM.
    pose proof (set_version_fb d FNil HM) as Z. fold z in Z.
    (* the four bytes *)
    assert (L32 : lenN bits = 32).
    { unfold layout in E. rewrite HM in E. rewrite layout_flds_cons in E. cbn [owner] in E.
      rewrite plain_size, plain_len in E. cbn [obind] in E.
      unfold field_bits in E. rewrite <- is_target_enabled, plain_target in E. cbn [f_name plain_info] in E.
      apply String.eqb_eq in EM. rewrite EM in E.
      change (hook_of "Meta" "FullBox") with HNone in E. cbv iota in E.
      apply obind_some in E. destruct E as (b1 & E1 & E). apply obind_some in E1. destruct E1 as (x & _ & E1).
      apply layout_fb in E1. cbn in E. assert (Eb : bits = b1 ++ []) by (now injection E). subst bits.
      now rewrite app_nil_r. }
    assert (PB : exists a b c e, bits = bits_of_bytes [a; b; c; e]).
    { exists (byte_of_bits (firstn 8 bits)), (byte_of_bits (firstn 8 (skipn 8 bits))),
        (byte_of_bits (firstn 8 (skipn 16 bits))), (byte_of_bits (skipn 24 bits)).
      assert (L : List.length bits = 32%nat) by (unfold lenN in L32; lia).
      clear - L. do 33 (destruct bits as [|? bits]; try discriminate L).
      cbn [firstn skipn]. unfold bits_of_bytes. cbn [flat_map]. rewrite !bits_of_byte_of_bits by reflexivity.
      reflexivity. }
    destruct PB as (a & b & c & e & ->).
    rewrite Z in DEC. rewrite (decode_full_box k d FNil) in DEC; auto.
    2:{ apply String.eqb_eq in EM. rewrite EM. reflexivity. }
    destruct (version_in (bd_versions d) (b2N a)); [|discriminate]. cbn in DEC.
    assert (Ev : v = [("FullBox", fb_val a b c e)]) by (now injection DEC). subst v.
    unfold get_version, get_flags, fullbox_of in Wv, Wf. cbn [lookup String.eqb Ascii.eqb Bool.eqb fb_val as_uint] in Wv, Wf.
    change (b2N a = 0) in Wv. change (flags_of_bytes [VUint (b2N b); VUint (b2N c); VUint (b2N e)] = 0) in Wf.
    apply flags_zero in Wf. destruct Wf as (F1 & F2 & F3).
    pose proof (d_bytes_app [a; b; c; e] 0 r eq_refl) as DB. change (lenN [a; b; c; e]) with 4 in DB. rewrite DB.
    cbn [existsb]. rewrite Wv, F1, F2, F3. reflexivity. }
  rewrite BF. rewrite DEC. rewrite W2. cbn [N.eqb negb].
  rewrite N.ltb_irrefl. reflexivity.
Qed.

Lemma unmarshal_rt : forall t ctx d v bits out pre post,
  get_box_def std_registry t ctx = Some d -> well_formed d ctx v = true ->
  layout (bd_name d) (bd_flds d) ctx v = Some bits -> bits_of_bytes out = bits ->
  lenN pre + lenN out + lenN post < 2 ^ 62 ->
  unmarshal_any std_registry (pre ++ out ++ post) t (lenN out) ctx (lenN pre) =
    (Ok (d, v, lenN out), lenN pre + lenN out).
Proof.
  intros t ctx d v bits out pre post G W E EO L.
  pose proof (all_defs_check _ _ _ _ _ eq_refl std_causal G) as HC. cbv beta in HC.
  pose proof (all_defs_check _ _ _ _ _ eq_refl std_meta G) as HM. cbv beta in HM.
  assert (L1 : lenN (pre ++ out ++ post) < 2 ^ 62) by (rewrite !lenN_app; lia).
  assert (L2 : lenN pre <= lenN (pre ++ out ++ post)) by (rewrite !lenN_app; lia).
  pose proof (unmarshal_any_decode t ctx d (pre ++ out ++ post) (lenN out) (lenN pre) G L2 L1) as U.
  cbv zeta in U. rewrite skipN_app_exact in U by auto. rewrite bits_of_bytes_app, EO in U.
  assert (Lb : lenN bits = 8 * lenN out) by (subst bits; apply lenN_bits_of_bytes).
  assert (DR : decode (dfuel (pre ++ out ++ post)) d (lenN out) ctx (zero_flds (bd_flds d))
                 (bits ++ bits_of_bytes post) = Ok (v, lenN out)).
  { pose proof (decode_rt d ctx v bits (dfuel (pre ++ out ++ post)) (bits_of_bytes post) HC HM W E) as X.
    replace (lenN bits / 8) with (lenN out) in X by lia. apply X.
    unfold dfuel. rewrite !lenN_app. subst bits. rewrite bits_of_bytes_length. unfold lenN. lia. }
  rewrite DR in U.
  destruct (unmarshal_any std_registry (pre ++ out ++ post) t (lenN out) ctx (lenN pre)) as [[[[d' y] m]|e| |] q].
  - destruct U as (-> & U & -> & _). assert (X : y = v /\ m = lenN out) by (now injection U as <- <-).
    destruct X as [-> ->]. reflexivity.
  - destruct U as [U _]. discriminate.
  - discriminate.
  - discriminate.
Qed.
