(** C54: the command psshdump. *)
From Verif Require Import Base BaseProofs BitIO Schema Structs Methods Registry Marshal Unmarshal Decode BoxInfo ReadTree
     Extract Text GoText Stringify SpecCodec SpecLossless RoundTripBase RoundTripProofs LocateFacts Accessors SpecAccessors AccessorProofs
     TraceProofs SpecTrace Flow SpecTree TreeProofs PropTree SpecExtract PropExtract PropExtractPayload PropLookup PropStringify
     VersionFacts MarshalProofs Lossless UnmarshalProofs PropSafe PropTool Tool SpecTool ToolProofs.
Local Open Scope string_scope.
Local Open Scope list_scope.
Local Open Scope N_scope.

(** ** Base64 *)
Fixpoint groups (l : list byte) : list N :=
  match l with
  | a :: b :: c :: r =>
      let v := b2N a * 65536 + b2N b * 256 + b2N c in
      [v / 262144; v / 4096 mod 64; v / 64 mod 64; v mod 64] ++ groups r
  | [a; b] => let v := b2N a * 65536 + b2N b * 256 in [v / 262144; v / 4096 mod 64; v / 64 mod 64]
  | [a] => let v := b2N a * 65536 in [v / 262144; v / 4096 mod 64]
  | [] => []
  end.
Fixpoint fill (l : list byte) : nat * nat :=
  match l with _ :: _ :: _ :: r => fill r | [_; _] => (2, 1)%nat | [_] => (4, 2)%nat | [] => (0, 0)%nat end.
Lemma three_ind : forall (P : list byte -> Prop), P [] -> (forall a, P [a]) -> (forall a b, P [a; b]) ->
  (forall a b c r, P r -> P (a :: b :: c :: r)) -> forall l, P l.
Proof.
  intros P H0 H1 H2 H3 l. enough (G : forall n l, (List.length l < n)%nat -> P l) by (eapply G; apply Nat.lt_succ_diag_r).
  clear l. induction n as [|n IH]; intros l L; [lia|].
  destruct l as [|a [|b [|c r]]]; auto. apply H3, IH. cbn in L. lia.
Qed.
Lemma base64_groups : forall l, base64 l = map base64_digit (groups l) ++ repeat (N2b 61) (snd (fill l)).
Proof.
  apply three_ind; try reflexivity. intros a b c r IH. cbn [base64 groups fill]. cbv zeta. rewrite IH, map_app, <- app_assoc. reflexivity.
Qed.
Lemma digit_ok : forall g, g < 64 -> base64_digit g = nth (N.to_nat g) alphabet bzero.
Proof.
  intros g H.
  assert (C : forallb (fun k => Ascii.eqb (base64_digit (N.of_nat k)) (nth k alphabet bzero)) (seq 0 64) = true) by (vm_compute; reflexivity).
  rewrite forallb_forall in C. specialize (C (N.to_nat g)). rewrite N2Nat.id in C. apply Ascii.eqb_eq, C, in_seq. lia.
Qed.
Lemma groups_small : forall l, Forall (fun g => g < 64) (groups l).
Proof.
  assert (Q : forall a b c x y z, a = b2N x -> b = b2N y -> c = b2N z -> (a * 65536 + b * 256 + c) / 262144 < 64).
  { intros a b c x y z -> -> ->. pose proof (b2N_lt x). pose proof (b2N_lt y). pose proof (b2N_lt z).
    apply N.div_lt_upper_bound; lia. }
  assert (M : forall n, n mod 64 < 64) by (intros n; now apply N.mod_lt).
  apply three_ind.
  - constructor.
  - intros a. cbn [groups]. cbv zeta. pose proof (b2N_lt a). repeat constructor; auto. apply N.div_lt_upper_bound; lia.
  - intros a b. cbn [groups]. cbv zeta. pose proof (b2N_lt a). pose proof (b2N_lt b). repeat constructor; auto. apply N.div_lt_upper_bound; lia.
  - intros a b c r IH. cbn [groups]. cbv zeta. apply Forall_app. split; [|exact IH]. repeat constructor; auto. eapply Q; reflexivity.
Qed.
Lemma six : forall v, flat_map (N_to_bits 6) [v / 262144; v / 4096 mod 64; v / 64 mod 64; v mod 64] = N_to_bits 24 v.
Proof.
  intros v. cbn [flat_map]. rewrite app_nil_r.
  change 24%nat with (6 + (6 + (6 + 6)))%nat. rewrite !N_to_bits_app.
  change (2 ^ N.of_nat (6 + (6 + 6))) with 262144. change (2 ^ N.of_nat (6 + 6)) with 4096. change (2 ^ N.of_nat 6) with 64.
  assert (M : forall n, N_to_bits 6 (n mod 64) = N_to_bits 6 n) by (intros n; exact (N_to_bits_mod 6 n)).
  rewrite !M. reflexivity.
Qed.
Lemma three_bytes : forall a b c, bits_of_bytes [a; b; c] = N_to_bits 24 (b2N a * 65536 + b2N b * 256 + b2N c).
Proof.
  intros a b c. pose proof (b2N_lt a). pose proof (b2N_lt b). pose proof (b2N_lt c).
  change 24%nat with (8 + (8 + 8))%nat. rewrite !N_to_bits_app.
  change (2 ^ N.of_nat (8 + 8)) with 65536. change (2 ^ N.of_nat 8) with 256.
  unfold bits_of_bytes. cbn [flat_map]. rewrite !bits_of_byte_N, app_nil_r.
  set (v := b2N a * 65536 + b2N b * 256 + b2N c).
  assert (E1 : v / 65536 = b2N a) by (unfold v; symmetry; apply (N.div_unique _ _ _ (b2N b * 256 + b2N c)); lia).
  assert (E2 : v / 256 = b2N a * 256 + b2N b) by (unfold v; symmetry; apply (N.div_unique _ _ _ (b2N c)); lia).
  rewrite E1, E2. f_equal. f_equal.
  - rewrite <- (N_to_bits_mod 8 (b2N a * 256 + b2N b)). change (2 ^ N.of_nat 8) with 256. f_equal.
    apply (N.mod_unique _ _ (b2N a)); lia.
  - rewrite <- (N_to_bits_mod 8 v). change (2 ^ N.of_nat 8) with 256. f_equal.
    apply (N.mod_unique _ _ (b2N a * 256 + b2N b)); unfold v; lia.
Qed.
Lemma groups_bits : forall l, flat_map (N_to_bits 6) (groups l) = bits_of_bytes l ++ repeat false (fst (fill l)).
Proof.
  apply three_ind.
  - reflexivity.
  - intros a. pose proof (six (b2N a * 65536)) as S. pose proof (three_bytes a bzero bzero) as T.
    change (b2N bzero) with 0 in T. replace (b2N a * 65536 + 0 * 256 + 0) with (b2N a * 65536) in T by lia. rewrite <- T in S.
    cbn [groups fill fst]. cbv zeta. set (v := b2N a * 65536) in *.
    assert (Z : v / 64 mod 64 = 0 /\ v mod 64 = 0).
    { split.
      - replace v with (64 * (64 * (16 * b2N a))) by (unfold v; lia). rewrite (N.mul_comm 64), N.div_mul by discriminate.
        rewrite N.mul_comm. apply N.mod_mul. discriminate.
      - replace v with ((1024 * b2N a) * 64) by (unfold v; lia). apply N.mod_mul. discriminate. }
    destruct Z as [Z1 Z2]. rewrite Z1, Z2 in S.
    assert (E : bits_of_bytes [a; bzero; bzero] = bits_of_bytes [a] ++ repeat false 4 ++ repeat false 12).
    { unfold bits_of_bytes. cbn [flat_map]. rewrite <- !app_assoc. reflexivity. }
    rewrite E in S.
    change (flat_map (N_to_bits 6) [v / 262144; v / 4096 mod 64; 0; 0]) with
      (flat_map (N_to_bits 6) ([v / 262144; v / 4096 mod 64] ++ [0; 0])) in S.
    rewrite flat_map_app in S. change (flat_map (N_to_bits 6) [0; 0]) with (repeat false 12) in S.
    rewrite app_assoc in S. apply app_inv_tail in S. exact S.
  - intros a b. pose proof (six (b2N a * 65536 + b2N b * 256)) as S. pose proof (three_bytes a b bzero) as T.
    change (b2N bzero) with 0 in T. rewrite N.add_0_r in T. rewrite <- T in S.
    cbn [groups fill fst]. cbv zeta. set (v := b2N a * 65536 + b2N b * 256) in *.
    assert (Z2 : v mod 64 = 0).
    { replace v with ((1024 * b2N a + 4 * b2N b) * 64) by (unfold v; lia). apply N.mod_mul. discriminate. }
    rewrite Z2 in S.
    assert (E : bits_of_bytes [a; b; bzero] = bits_of_bytes [a; b] ++ repeat false 2 ++ repeat false 6).
    { unfold bits_of_bytes. cbn [flat_map]. rewrite <- !app_assoc. reflexivity. }
    rewrite E in S.
    change (flat_map (N_to_bits 6) [v / 262144; v / 4096 mod 64; v / 64 mod 64; 0]) with
      (flat_map (N_to_bits 6) ([v / 262144; v / 4096 mod 64; v / 64 mod 64] ++ [0])) in S.
    rewrite flat_map_app in S. change (flat_map (N_to_bits 6) [0]) with (repeat false 6) in S.
    rewrite app_assoc in S. apply app_inv_tail in S. exact S.
  - intros a b c r IH. cbn [groups fill]. cbv zeta. rewrite flat_map_app, IH, six, <- three_bytes, app_assoc. f_equal.
    unfold bits_of_bytes. cbn [flat_map]. rewrite app_nil_r, <- !app_assoc. reflexivity.
Qed.
Lemma groups_len : forall l, lenN (groups l ++ repeat 0 (snd (fill l))) mod 4 = 0.
Proof.
  apply three_ind; try reflexivity. intros a b c r IH. cbn [groups fill]. cbv zeta.
  rewrite <- app_assoc, lenN_app. change (lenN [_; _; _; _]) with (1 * 4). rewrite N.add_comm, N.mod_add by discriminate. exact IH.
Qed.
Lemma fill_small : forall l, (fst (fill l) < 6)%nat /\ (snd (fill l) < 4)%nat.
Proof. apply three_ind; intros; cbn [fill fst snd] in *; lia. Qed.

Theorem C54_base64 : forall l, base64_of l (base64 l).
Proof.
  intros l. exists (groups l), (fst (fill l)), (snd (fill l)). pose proof (fill_small l) as [F1 F2]. pose proof (groups_small l) as G.
  split; [exact G|]. split; [apply groups_bits|]. split; [exact F1|]. split; [|split; [exact F2|]].
  - rewrite base64_groups. f_equal. apply map_ext_in. intros g I. rewrite Forall_forall in G. now apply digit_ok, G.
  - pose proof (groups_len l) as L. rewrite base64_groups. rewrite lenN_app in *. unfold lenN in *.
    rewrite map_length, !repeat_length in *. exact L.
Qed.
Print Assumptions C54_base64.

(** ** The payload of a pssh box *)
Lemma step_on : forall rn root ctx top sname cfo self f t rest bits,
  let cn := fst (owner rn root ctx cfo sname self) in let env := snd (owner rn root ctx cfo sname self) in
  hook_of cn (f_name f) = HNone -> enabled (get_version root) (get_flags root) cn env f = true ->
  layout_flds rn root ctx top sname cfo self (FCons f t rest) = Some bits ->
  exists s len v b r, resolve_size cn env f = Some s /\ resolve_len cn env f = Some len /\
    lookup (f_name f) self = Some v /\ layout_val rn root ctx f s len t v = Some b /\
    layout_flds rn root ctx (option_map (fun n => n + lenN b) top) sname cfo self rest = Some r /\ bits = b ++ r.
Proof.
  intros rn root ctx top sname cfo self f t rest bits. cbv zeta. rewrite layout_cons.
  destruct (owner rn root ctx cfo sname self) as [cn env]. cbn [fst snd]. intros HK EN L.
  apply obind_some in L. destruct L as (s & E1 & L). apply obind_some in L. destruct L as (len & E2 & L).
  apply obind_some in L. destruct L as (b & E3 & L). apply obind_some in L. destruct L as (r & E4 & L).
  unfold field_bits in E3. rewrite EN, HK in E3. apply obind_some in E3. destruct E3 as (v & E3 & E5).
  exists s, len, v, b, r. repeat (split; [assumption|]). now injection L.
Qed.
Lemma step_off : forall rn root ctx top f t rest bits,
  enabled (get_version root) (get_flags root) rn (spec_env root ctx root) f = false ->
  layout_flds rn root ctx top rn false root (FCons f t rest) = Some bits ->
  layout_flds rn root ctx (option_map (fun n => n + 0) top) rn false root rest = Some bits.
Proof.
  intros rn root ctx top f t rest bits EN L. rewrite layout_cons in L. cbn [owner] in L.
  apply obind_some in L. destruct L as (s & E1 & L). apply obind_some in L. destruct L as (len & E2 & L).
  unfold field_bits in L. rewrite EN in L. cbn [obind] in L. apply obind_some in L. destruct L as (r & E4 & L). injection L as <-. exact E4.
Qed.
Definition pssh_def : boxdef := Eval vm_compute in the_def (bt "pssh").
Lemma pssh_the : the_def (bt "pssh") = pssh_def.
Proof. vm_compute. reflexivity. Qed.

(** the 16 bytes of each key ID *)
Lemma arr_bytes : forall rn root ctx f len n v b, layout_val rn root ctx f 8 len (SArr n (SUint 8)) v = Some b ->
  exists bs, v = VList (map (fun c => VUint (b2N c)) bs) /\ b = bits_of_bytes bs /\ lenN bs = n.
Proof.
  intros rn root ctx f len n v b H. destruct v as [| | | |l| |]; try discriminate.
  change ((if lenN l =? n then concat_bits (layout_val rn root ctx f 8 len (SUint 8)) l else None) = Some b) in H.
  destruct (N.eqb_spec (lenN l) n) as [E|]; [|discriminate]. destruct (u8_bytes _ _ _ _ _ _ _ H) as (bs & -> & ->).
  exists bs. repeat split. rewrite <- E. unfold lenN. now rewrite map_length.
Qed.
Lemma as_bytes_list : forall bs, as_bytes (Some (VList (map (fun c => VUint (b2N c)) bs))) = bs.
Proof.
  intros bs. cbn [as_bytes]. rewrite map_map. rewrite <- (map_id bs) at 2. apply map_ext. intros c. cbn [as_uint]. apply N2b_b2N.
Qed.

Lemma everywhere : forall ver flags cn env f, f_version f = 255 -> f_nVersion f = 255 -> f_optFlag f = 0 -> f_nOptFlag f = 0 ->
  f_optDyn f = false -> enabled ver flags cn env f = true.
Proof.
  intros ver flags cn env f H1 H2 H3 H4 H5. unfold enabled, version_allows, flags_allow, option_allows.
  rewrite H1, H2, H3, H4, H5. cbn. now rewrite orb_true_r.
Qed.
Lemma but_version_0 : forall ver flags cn env f, f_version f = 255 -> f_nVersion f = 0 -> f_optFlag f = 0 -> f_nOptFlag f = 0 ->
  f_optDyn f = false -> ver <> 255 -> enabled ver flags cn env f = negb (ver =? 0).
Proof.
  intros ver flags cn env f H1 H2 H3 H4 H5 V. unfold enabled, version_allows, flags_allow, option_allows.
  rewrite H1, H2, H3, H4, H5. unfold anyVersion. destruct (N.eqb_spec ver 255); [contradiction|].
  rewrite (N.eqb_sym 0 ver). destruct (ver =? 0); reflexivity.
Qed.
Ltac here L := apply step_on in L; [|reflexivity|apply everywhere; reflexivity].
Lemma bytes_mid : forall p b1 bs b2 off n, bits_of_bytes p = b1 ++ bits_of_bytes bs ++ b2 -> lenN b1 = 8 * off -> lenN bs = n ->
  bs = bytes_at p off n.
Proof.
  intros p b1 bs b2 off n E L1 L2. unfold bytes_at. apply bits_of_bytes_inj.
  rewrite (mid_bits p b1 (bits_of_bytes bs) b2 off n E L1); [reflexivity|]. now rewrite lenN_bits_of_bytes, L2.
Qed.

Lemma pssh_layout : forall ctx x p, lenN p < 2 ^ 62 ->
  layout (bd_name pssh_def) (bd_flds pssh_def) ctx x = Some (bits_of_bytes p) -> get_version x <> 255 ->
  (number_at p 0 1 = 0 \/ number_at p 20 4 <> 4294967295) ->
  get_version x = number_at p 0 1 /\ flag_bytes x = bytes_at p 1 3 /\
  (as_bytes (lookup "SystemID" x) = bytes_at p 4 16 /\ lenN (bytes_at p 4 16) = 16) /\
  as_Z (lookup "DataSize" x) = Z.of_N (number_at p (if number_at p 0 1 =? 0 then 20 else 24 + 16 * number_at p 20 4) 4).
Proof.
  intros ctx x p Hp L V KL.
  assert (FB : full_box pssh_def = true) by (vm_compute; reflexivity).
  destruct (head_ok pssh_def ctx x p FB L) as [HV _]. rewrite <- HV in V |- *.
  rewrite layout_top in L. unfold pssh_def in L. cbn [bd_flds bd_name] in L.
  (* FullBox *)
  here L. destruct L as (s1 & l1 & v1 & b1 & r1 & _ & _ & EV1 & EB1 & L & EQ1). cbn [f_name] in EV1.
  destruct v1 as [| | | | | |fb]; try discriminate EB1.
  match type of EB1 with layout_val ?a ?b ?c _ _ _ (SStruct ?n ?cc ?fs) _ = _ =>
    change (layout_flds a b c None n cc fb fs = Some b1) in EB1 end.
  here EB1. destruct EB1 as (s2 & l2 & v2 & b2 & r2 & ES2 & _ & EV2 & EB2 & L2 & EQ2). injection ES2 as <-.
  apply uint_val in EB2; [|reflexivity]. destruct EB2 as (_ & LB2 & _). clear EV2 v2.
  here L2. destruct L2 as (s3 & l3 & v3 & b3 & r3 & ES3 & _ & EV3 & EB3 & L3 & EQ3). injection ES3 as <-. cbn [f_name] in EV3.
  destruct (arr_bytes _ _ _ _ _ _ _ _ EB3) as (bs3 & -> & -> & LB3). clear EB3.
  assert (r3 = []) as -> by (cbn in L3; now injection L3 as <-). clear L3.
  (* SystemID *)
  here L. destruct L as (s4 & l4 & v4 & b4 & r4 & ES4 & _ & EV4 & EB4 & L & EQ4). injection ES4 as <-. cbn [f_name] in EV4.
  destruct (arr_bytes _ _ _ _ _ _ _ _ EB4) as (bs4 & -> & -> & LB4). clear EB4.
  rewrite app_nil_r in EQ3. subst r2 b1 r1. rewrite <- !app_assoc in EQ1.
  split; [reflexivity|]. split; [|split].
  - unfold flag_bytes, fullbox_of. rewrite EV1, EV3, as_bytes_list. eapply bytes_mid; [exact EQ1|exact LB2|exact LB3].
  - rewrite EV4, as_bytes_list. rewrite app_assoc in EQ1.
    assert (E4 : bs4 = bytes_at p 4 16).
    { eapply bytes_mid; [exact EQ1| |exact LB4]. rewrite lenN_app, lenN_bits_of_bytes, LB2, LB3. reflexivity. }
    rewrite <- E4. now split.
  - assert (LP : lenN (b2 ++ bits_of_bytes bs3 ++ bits_of_bytes bs4) = 8 * 20).
    { rewrite !lenN_app, !lenN_bits_of_bytes, LB2, LB3, LB4. reflexivity. }
    assert (EQ : bits_of_bytes p = (b2 ++ bits_of_bytes bs3 ++ bits_of_bytes bs4) ++ r4) by (rewrite <- !app_assoc; exact EQ1).
    revert LP EQ L. generalize (b2 ++ bits_of_bytes bs3 ++ bits_of_bytes bs4) as B. 
    match goal with |- context [layout_flds _ _ _ ?t _ _ _ _ = _] => generalize t end.
    clear - V HV Hp KL. intros top B LP EQ L.
    (* DataSize, after [off] bytes *)
    assert (K : forall top off B r, lenN B = 8 * off -> bits_of_bytes p = B ++ r ->
       layout_flds "Pssh" x ctx top "Pssh" false x
         (match bd_flds pssh_def with FCons _ _ (FCons _ _ (FCons _ _ (FCons _ _ l))) => l | l => l end) = Some r ->
       as_Z (lookup "DataSize" x) = Z.of_N (number_at p off 4)).
    { clear - Hp. intros top off B r LB EQ L. cbn [bd_flds pssh_def] in L.
      here L. destruct L as (s4 & l4 & v4 & b4 & r4 & ES4 & _ & EV4 & EB4 & L & EQ4). injection ES4 as <-. cbn [f_name] in EV4.
      assert (exists z, v4 = VInt z) as (z & ->) by (destruct v4; try discriminate EB4; eauto).
      apply int_val in EB4. destruct EB4 as (I1 & I2 & I3 & I4). cbn [as_Z] in I1, I3, I4.
      here L. destruct L as (s5 & l5 & v5 & b5 & r5 & ES5 & EL5 & EV5 & EB5 & L & EQ5). injection ES5 as <-.
      assert (l5 = as_uint (lookup "DataSize" x)) as ->.
      { change (Some (as_uint (lookup "DataSize" x)) = Some l5) in EL5. now injection EL5. }
      clear EL5. subst r r4.
      assert (NB : number_at p off 4 = bits_to_N b4).
      { apply number_bits. apply (mid_bits p B b4 (b5 ++ r5)); auto. }
      rewrite EV4 in *. cbn [as_Z as_uint] in *. rewrite NB.
      assert (Z1 : (-2147483648 <= z < 2147483648)%Z).
      { unfold int_fits in I4. apply andb_prop in I4. destruct I4 as [I4 I6]. apply andb_prop in I4. destruct I4 as [I4 I5].
        apply Z.leb_le in I5. apply Z.ltb_lt in I6. change (Z.of_N (2 ^ (32 - 1))) with 2147483648%Z in *. lia. }
      destruct (Z_lt_le_dec z 0) as [Ng|Ps].
      + exfalso. destruct v5 as [| | | |l| |]; try discriminate EB5.
        assert (EZ : ofZ 64 z = Z.to_N (z + 18446744073709551616)).
        { unfold ofZ. change (Z.of_N (2 ^ 64)) with 18446744073709551616%Z. f_equal.
          symmetry. apply (Z.mod_unique_pos _ _ (-1)); lia. }
        cbn [layout_val] in EB5. unfold LengthUnlimited in EB5.
        destruct (N.eqb_spec (ofZ 64 z) 4294967295); [lia|].
        destruct (N.leb_spec (ofZ 64 z) (lenN l)) as [LE|]; [|discriminate].
        assert (LB5 : lenN b5 = lenN (takeN (ofZ 64 z) l) * 8).
        { eapply concat_len; [|exact EB5]. intros v c H. destruct v; try discriminate H. cbn in H.
          destruct (_ && _); [|discriminate]. injection H as <-. reflexivity. }
        rewrite lenN_takeN in LB5. apply (f_equal lenN) in EQ. rewrite lenN_bits_of_bytes, !lenN_app in EQ.
        change (2 ^ 62) with 4611686018427387904 in Hp. lia.
      + rewrite I3. cbn [as_Z]. unfold ofZ. change (Z.of_N (2 ^ 32)) with 4294967296%Z. rewrite Z.mod_small by lia. lia. }
    rewrite HV in V |- *. destruct (N.eqb_spec (get_version x) 0) as [V0|V0].
    + apply step_off in L; [|rewrite but_version_0 by (reflexivity || exact V); now rewrite V0].
      apply step_off in L; [|rewrite but_version_0 by (reflexivity || exact V); now rewrite V0].
      exact (K _ 20 B r4 LP EQ L).
    + assert (VE : negb (get_version x =? 0) = true) by (apply negb_true_iff; now apply N.eqb_neq).
      apply step_on in L; [|reflexivity|rewrite but_version_0 by (reflexivity || exact V); exact VE].
      destruct L as (s5 & l5 & v5 & b5 & r5 & ES5 & _ & EV5 & EB5 & L & EQ5). injection ES5 as <-. cbn [f_name] in EV5.
      apply uint_val in EB5; [|reflexivity]. destruct EB5 as (U1 & U2 & U3).
      apply step_on in L; [|reflexivity|rewrite but_version_0 by (reflexivity || exact V); exact VE].
      destruct L as (s6 & l6 & v6 & b6 & r6 & ES6 & EL6 & EV6 & EB6 & L & EQ6). injection ES6 as <-.
      assert (l6 = as_uint (lookup "KIDCount" x)) as ->.
      { change (Some (as_uint (lookup "KIDCount" x)) = Some l6) in EL6. now injection EL6. }
      clear EL6. subst r4 r5. rewrite EV5 in EB6.
      assert (NB : number_at p 20 4 = as_uint (Some v5)).
      { rewrite <- U1. apply number_bits. apply (mid_bits p B b5 (b6 ++ r6)); auto. }
      assert (LB6 : lenN b6 = as_uint (Some v5) * 128).
      { destruct v6 as [| | | |l| |]; try discriminate EB6.
        match type of EB6 with layout_val ?rn ?rt ?c ?f ?s ?ln (SSlice ?t) _ = _ =>
          change ((if ln =? LengthUnlimited then concat_bits (layout_val rn rt c f s ln t) l
                   else if ln <=? lenN l then concat_bits (layout_val rn rt c f s ln t) (takeN ln l) else None) = Some b6) in EB6 end.
        assert (EL : forall n l b, concat_bits (layout_val "Pssh" x ctx
           (match bd_flds pssh_def with FCons _ _ (FCons _ _ (FCons _ _ (FCons f _ _))) => f | FCons f _ _ => f | FNil => plain_info "" 0 0 false end) 128 n
           (match bd_flds pssh_def with FCons _ _ (FCons _ _ (FCons _ _ (FCons _ (SSlice t) _))) => t | _ => SBool end)) l = Some b ->
           lenN b = lenN l * 128).
        { intros n l0 b H. eapply concat_len; [|exact H]. intros v c0 HV6.
          destruct v as [| | | | | |lk]; try discriminate HV6. cbn [bd_flds pssh_def] in HV6.
          match type of HV6 with layout_val ?a ?b ?c _ _ _ (SStruct ?n ?cc ?fs) _ = _ =>
            change (layout_flds a b c None n cc lk fs = Some c0) in HV6 end.
          here HV6. destruct HV6 as (s7 & l7 & v7 & b7 & r7 & ES7 & _ & _ & EB7 & L7 & EQ7). injection ES7 as <-.
          destruct (arr_bytes _ _ _ _ _ _ _ _ EB7) as (bs & _ & -> & LB7).
          assert (r7 = []) as -> by (cbn in L7; now injection L7 as <-). rewrite app_nil_r in EQ7. subst c0.
          rewrite lenN_bits_of_bytes, LB7. reflexivity. }
        unfold LengthUnlimited in EB6. destruct (N.eqb_spec (as_uint (Some v5)) 4294967295) as [EU|EU].
        - exfalso. destruct KL as [KL|KL]; [now apply V0; rewrite <- HV|]. rewrite NB, EU in KL. now apply KL.
        - destruct (N.leb_spec (as_uint (Some v5)) (lenN l)) as [LE|]; [|discriminate].
          pose proof (EL _ _ _ EB6) as Q. rewrite lenN_takeN in Q. lia. }
      rewrite NB. assert (LQ : lenN (B ++ b5 ++ b6) = 8 * (24 + 16 * as_uint (Some v5))) by (rewrite !lenN_app, LP, LB6, U2; lia).
      refine (K _ _ (B ++ b5 ++ b6) r6 LQ _ L). rewrite EQ, <- !app_assoc. reflexivity.
Qed.

(** ** The texts *)
Lemma sixteen : forall A (l : list A), lenN l = 16 -> exists a0 a1 a2 a3 a4 a5 a6 a7 a8 a9 b0 b1 b2 b3 b4 b5,
  l = [a0; a1; a2; a3; a4; a5; a6; a7; a8; a9; b0; b1; b2; b3; b4; b5].
Proof.
  intros A l H. assert (L : List.length l = 16%nat) by (unfold lenN in H; lia). clear H.
  do 16 (destruct l as [|? l]; [discriminate L|]). destruct l; [|discriminate L].
  do 16 eexists. reflexivity.
Qed.
Lemma bytes_sub : forall p off n o m, o + m <= n -> bytes_at (bytes_at p off n) o m = bytes_at p (off + o) m.
Proof.
  intros p off n o m H. unfold bytes_at. rewrite !takeN_firstn, !skipN_skipn, skipn_firstn_comm, firstn_firstn.
  rewrite Nat.min_l by lia. f_equal.
  assert (S : forall (l : list byte) a b, skipn a (skipn b l) = skipn (b + a) l).
  { intros l a b. revert l. induction b as [|b IH]; intros l; [reflexivity|]. destruct l; [now rewrite !skipn_nil|apply IH]. }
  rewrite S. f_equal. lia.
Qed.
Lemma sysid_ok : forall p off, lenN (bytes_at p off 16) = 16 -> sysid_text 0 (bytes_at p off 16) = uuid_text p off.
Proof.
  intros p off H. unfold uuid_text.
  rewrite <- (bytes_sub p off 16 4 2), <- (bytes_sub p off 16 6 2), <- (bytes_sub p off 16 8 2), <- (bytes_sub p off 16 10 6) by lia.
  replace (bytes_at p off 4) with (bytes_at (bytes_at p off 16) 0 4) by (rewrite bytes_sub by lia; f_equal; lia).
  destruct (sixteen _ _ H) as (a0 & a1 & a2 & a3 & a4 & a5 & a6 & a7 & a8 & a9 & b0 & b1 & b2 & b3 & b4 & b5 & ->).
  unfold bytes_at, hex_bytes. cbn [takeN skipN]. cbn. rewrite <- !app_assoc. reflexivity.
Qed.

Lemma pssh_selected : forall p, selected 0 [[bt "moov"; bt "pssh"]; [bt "moof"; bt "pssh"]] p = true ->
  p = [bt "moov"; bt "pssh"] \/ p = [bt "moof"; bt "pssh"].
Proof.
  intros p H. unfold selected in H. apply andb_prop in H. destruct H as [_ H]. cbn [skipn existsb] in H.
  assert (M : forall a b, bt_eqb a wildcard = false -> bt_eqb b wildcard = false -> matches [a; b] p = true -> p = [a; b]).
  { intros a b W1 W2 HM. destruct p as [|x [|y [|z p]]]; try discriminate; cbn [matches] in HM; rewrite W1 in HM;
      cbn [orb] in HM; try (apply andb_prop in HM; destruct HM as [_ HM]; discriminate).
    - rewrite W2 in HM. cbn [orb] in HM. apply andb_prop in HM. destruct HM as [H1 HM]. rewrite andb_true_r in HM.
      apply bt_eqb_iff in H1, HM. now subst.
    - rewrite andb_false_r in HM. rewrite andb_false_r in HM. discriminate. }
  apply orb_prop in H. destruct H as [H|H]; [left; apply M; [reflexivity|reflexivity|exact H]|].
  rewrite orb_false_r in H. right. apply M; [reflexivity|reflexivity|exact H].
Qed.

(** ** One box *)
Lemma place_read_raw : forall data pre post last b c pos, lenN data < 2 ^ 48 -> TreeProofs.at_place data pre post last b ->
  exists pos', (seek_to_start (info (lenN pre) b c) ;;; read_raw data (info (lenN pre) b c))%monad pos = (Ok (box_bytes b), pos').
Proof.
  intros data pre post last b c pos HD A.
  assert (D62 : lenN data < 2 ^ 62) by (change (2 ^ 48) with 281474976710656 in HD; change (2 ^ 62) with 4611686018427387904; lia).
  destruct (place_size data D62 _ _ _ _ A) as (S1 & S2 & _).
  destruct A as (E & W & _). change (2 ^ 48) with 281474976710656 in HD.
  unfold bind, seek_to_start, s_seek. cbn [bi_offset info].
  destruct (N.ltb_spec (lenN pre) 9223372036854775808); [|lia].
  unfold read_raw, maxAlloc. cbn [bi_size info]. destruct (N.leb_spec 281474976710656 (box_size b)); [lia|].
  assert (Z8 := hsize_8 (box_form b)). destruct (N.eqb_spec (box_size b) 0); [lia|].
  assert (T : takeN (box_size b) (skipN (lenN pre) data) = box_bytes b).
  { rewrite E, skipN_app_exact by reflexivity. apply takeN_app_exact. reflexivity. }
  rewrite T. change (lenN (box_bytes b)) with (box_size b). rewrite N.eqb_refl. eauto.
Qed.

Lemma pssh_plain : plain_box pssh_def = true. Proof. vm_compute. reflexivity. Qed.
Lemma pssh_unique : unique (bt "pssh") = true. Proof. vm_compute. reflexivity. Qed.

Lemma pssh_entry : forall data e, lenN data < 2 ^ 48 -> placed data e -> e_type e = bt "pssh" -> decodable_pssh data e ->
  exists dx, with_payload data (e_info e) = Ok (e_info e, dx) /\
    (forall i, pssh_text i (e_info e) (snd dx) (box_bytes (e_box e)) = pssh_report i e (base64 (box_bytes (e_box e)))) /\
    (forall pos, exists pos', (seek_to_start (e_info e) ;;; read_raw data (e_info e))%monad pos = (Ok (box_bytes (e_box e)), pos')).
Proof.
  intros data e HD (pre & post & last & A & EI) ET [(d & x & DE) KL].
  assert (D62 : lenN data < 2 ^ 62) by (change (2 ^ 48) with 281474976710656 in HD; change (2 ^ 62) with 4611686018427387904; lia).
  destruct (place_size data D62 _ _ _ _ A) as (S1 & S2 & _ & S3).
  exists (d, x). split; [|split].
  - unfold with_payload. destruct (place_read_payload data D62 pre post last (e_box e) (bi_ctx (e_info e)) 0 A) as (p' & R & _).
    rewrite <- EI in R. unfold e_decoded in DE. rewrite EI in DE. cbn [info bi_offset bi_ctx] in DE. rewrite R.
    cbn [fst]. rewrite DE. reflexivity.
  - intros i. cbn [snd].
    unfold e_decoded in DE. rewrite EI in DE. cbn [info bi_offset bi_ctx] in DE. unfold decoded in DE.
    destruct (unmarshal_any _ _ _ _ _ _) as [r pos'] eqn:U. cbn [fst] in DE. subst r.
    assert (BT : box_type (e_box e) = bt "pssh").
    { unfold e_type in ET. rewrite EI in ET. exact ET. }
    rewrite BT in U. pose proof (unmarshal_any_def _ _ _ _ _ _ _ _ _ U) as G.
    assert (d = pssh_def) as -> by (rewrite <- pssh_the; exact (the_def_ok _ _ _ pssh_unique G)). clear G.
    assert (Hp : lenN pre + hsize (box_form (e_box e)) <= lenN data) by lia.
    destruct (decoded_bits _ _ _ _ _ _ _ _ _ Hp D62 pssh_plain U) as [L _].
    rewrite (place_payload data _ _ _ _ A) in L.
    assert (FB : full_box pssh_def = true) by (vm_compute; reflexivity).
    assert (NM : bd_name pssh_def <> "Meta") by (intros Z; vm_compute in Z; discriminate Z).
    destruct (decoded_version _ _ _ _ _ _ _ _ _ Hp D62 U FB NM) as [VI _].
    set (p := payload (e_box e)) in *.
    assert (V : get_version x <> 255) by (intros Z; rewrite Z in VI; vm_compute in VI; discriminate VI).
    assert (P62 : lenN p < 2 ^ 62) by lia.
    assert (KL' : number_at p 0 1 = 0 \/ number_at p 20 4 <> 4294967295).
    { destruct KL as [KL|KL]; [now left|right]. intros Z. rewrite Z in KL. vm_compute in KL. discriminate KL. }
    destruct (pssh_layout _ _ _ P62 L V KL') as (Q1 & Q2 & (Q3 & Q4) & Q5).
    unfold pssh_text, pssh_report. fold p. cbv zeta. rewrite Q1, Q2, Q3, Q5, (sysid_ok p 4 Q4).
    assert (EZ : bi_size (e_info e) = box_size (e_box e)) by (rewrite EI; reflexivity). rewrite EZ.
    unfold hex_bytes.
    assert (IT : forall n, int_text (Z.of_N n) = dec_text n).
    { intros n. unfold int_text. destruct (Z.ltb_spec (Z.of_N n) 0); [lia|]. rewrite ?N2Z.id, ?Zabs2N.id; reflexivity. }
    rewrite IT. reflexivity.
  - intros pos. rewrite EI. cbn [info bi_ctx]. exact (place_read_raw data pre post last (e_box e) _ pos HD A).
Qed.

(** ** The command *)
Theorem C54_psshdump : forall ts,
  let data := file_bytes ts in
  let all := list_file data ctx0 false 0 0 ts in
  let found := filter (fun e => selected 0 pssh_paths (e_path e)) all in
  lenN data < 2 ^ 48 -> list_wf true ts ->
  Forall (readable data 0 pssh_paths) all -> Forall (decodable_pssh data) found ->
  exists codes, Forall2 (fun e s => base64_of (box_bytes (e_box e)) s) found codes /\
    psshdump_tool data = (Ok tt, reports 0 (combine found codes)).
Proof.
  intros ts data all found HD HW HR HF.
  assert (D62 : lenN data < 2 ^ 62) by (change (2 ^ 48) with 281474976710656 in HD; change (2 ^ 62) with 4611686018427387904; lia).
  exists (map (fun e => base64 (box_bytes (e_box e))) found). split.
  { clear. induction found as [|e r IH]; constructor; [apply C54_base64|exact IH]. }
  destruct (C29_extract ts pssh_paths 0 D62 HW ltac:(discriminate)) as (pos & EX).
  { repeat constructor; discriminate. }
  { exact HR. }
  fold data in EX. fold all in EX. fold found in EX.
  assert (TY : Forall (fun e => placed data e /\ e_type e = bt "pssh") found).
  { assert (PL : Forall (placed data) all).
    { apply (file_placed data ctx0 ts false 0%Z []); [exact HW|reflexivity]. }
    assert (TP : Forall (fun e => exists q, e_path e = q ++ [e_type e]) all) by apply list_file_types.
    apply Forall_forall. intros e I. unfold found in I. apply filter_In in I. destruct I as [I S].
    rewrite Forall_forall in PL, TP. split; [now apply PL|].
    destruct (TP e I) as (q & EQ). apply pssh_selected in S. rewrite EQ in S.
    destruct S as [S|S]; apply (f_equal (@rev btype)) in S; rewrite rev_app_distr in S; cbn [rev app] in S; injection S; auto. }
  unfold psshdump_tool. fold pssh_paths.
  assert (ST : Forall (fun bi => steady (bi_type bi) \/ bi_ctx bi = ctx0) (map e_info found)).
  { apply Forall_map. eapply Forall_impl; [|exact TY]. intros e [_ T]. left. unfold e_type in T. rewrite T.
    apply steady_b_ok. vm_compute. reflexivity. }
  pose proof (C30_payloads_partial data None pssh_paths 0 _ _ EX ST) as W.
  assert (ALL : exists dxs, all_of (map (with_payload data) (map e_info found)) = Ok (combine (map e_info found) dxs) /\
     List.length dxs = List.length found /\
     forall i pos, pssh_loop data i (combine (map e_info found) dxs) pos =
       (Ok tt, reports i (combine found (map (fun e => base64 (box_bytes (e_box e))) found)))).
  { clear - HD HF TY. induction found as [|e r IH].
    - exists []. repeat split.
    - destruct (IH (Forall_inv_tail HF) (Forall_inv_tail TY)) as (dxs & I1 & I2 & I3).
      destruct (Forall_inv TY) as [P T]. destruct (pssh_entry data e HD P T (Forall_inv HF)) as (dx & P1 & P2 & P3).
      exists (dx :: dxs). cbn [map combine all_of List.length]. rewrite P1, I1. split; [reflexivity|]. split; [now rewrite I2|].
      intros i pos. cbn [pssh_loop reports]. destruct dx as [d x]. destruct (P3 pos) as (pos' & R). rewrite R, I3. cbn [snd] in P2.
      now rewrite P2. }
  destruct ALL as (dxs & A1 & _ & A3). rewrite A1 in W.
  destruct (extract_boxes_with_payload _ _ _ _ _) as [r q]. cbn [fst] in W. subst r. apply A3.
Qed.
Print Assumptions C54_psshdump.

(** a moov box with a pssh box of version 0, a trak box with another one that is
    not looked for, and a moof box with a pssh box of version 1 and one key ID *)
Definition pssh_example : list box :=
  [ Box Small (bt "moov") []
      [ Box Small (bt "pssh") (hex "0000000000112233445566778899aabbccddeeff00000002beef") [] [];
        Box Small (bt "trak") []
          [ Box Small (bt "pssh") (hex "0000000000112233445566778899aabbccddeeff00000000") [] [] ] [] ] [];
    Box Small (bt "moof") []
      [ Box Large (bt "pssh")
          (hex "01000001ffeeddccbbaa998877665544332211000000000100000000000000000000000000000001" ++ hex "00000000") [] [] ] [] ].
Definition nl : text := [N2b 10].
Example C54_case :
  let data := file_bytes pssh_example in
  let all := list_file data ctx0 false 0 0 pssh_example in
  let found := filter (fun e => selected 0 pssh_paths (e_path e)) all in
  list_wf true pssh_example /\ lenN data = 150 /\
  Forall (readable data 0 pssh_paths) all /\ Forall (decodable_pssh data) found /\
  psshdump_tool data = (Ok tt,
    lit "0:" ++ nl ++ lit "  offset: 8" ++ nl ++ lit "  size: 34" ++ nl ++ lit "  version: 0" ++ nl ++
    lit "  flags: 0x000000" ++ nl ++ lit "  systemId: 00112233-4455-6677-8899-aabbccddeeff" ++ nl ++
    lit "  dataSize: 2" ++ nl ++
    lit "  base64: ""AAAAInBzc2gAAAAAABEiM0RVZneImaq7zN3u/wAAAAK+7w==""" ++ nl ++ nl ++
    lit "1:" ++ nl ++ lit "  offset: 90" ++ nl ++ lit "  size: 60" ++ nl ++ lit "  version: 1" ++ nl ++
    lit "  flags: 0x000001" ++ nl ++ lit "  systemId: ffeeddcc-bbaa-9988-7766-554433221100" ++ nl ++
    lit "  dataSize: 0" ++ nl ++
    lit "  base64: ""AAAAAXBzc2gAAAAAAAAAPAEAAAH/7t3Mu6qZiHdmVUQzIhEAAAAAAQAAAAAAAAAAAAAAAAAAAAEAAAAA""" ++ nl ++ nl).
Proof.
  cbv zeta.
  split; [vm_compute; repeat split; intros; try discriminate; reflexivity|].
  split; [vm_compute; reflexivity|].
  split; [apply readable_b_ok; vm_compute; reflexivity|].
  split; [|vm_compute; reflexivity].
  assert (B : forall data l, forallb (fun e => match e_decoded data e with Ok (_, _, n) => n =? lenN (payload (e_box e)) | _ => false end &&
      ((number_at (payload (e_box e)) 0 1 =? 0) || (number_at (payload (e_box e)) 20 4 <? 2 ^ 32 - 1))) l = true ->
    Forall (decodable_pssh data) l).
  { intros data l H. rewrite forallb_forall in H. apply Forall_forall. intros e I. apply H in I. apply andb_prop in I.
    destruct I as [I1 I2]. split.
    - destruct (e_decoded data e) as [[[d x] n]| | |]; try discriminate. apply N.eqb_eq in I1. subst n. eauto.
    - apply orb_prop in I2. destruct I2 as [I2|I2]; [left; now apply N.eqb_eq|right; now apply N.ltb_lt]. }
  apply B. vm_compute. reflexivity.
Qed.

(** ** On any input *)
(** psshdump allocates as many bytes as the header of the box says, before it
    reads them: a file of 56 bytes makes it panic. *)
Theorem C55_psshdump_refuted : exists data, lenN data = 56 /\ fst (psshdump_tool data) = Panic.
Proof.
  exists (hex "000000016d6f6f760008000000000010" ++ hex "00000001707373680008000000000000" ++
          hex "000000000000000000000000000000000000000000000000").
  split; vm_compute; reflexivity.
Qed.
Print Assumptions C55_psshdump_refuted.

(** That is the only way to a panic. *)
Theorem C55_psshdump_partial : forall data, lenN data < 2 ^ 48 -> fst (psshdump_tool data) = Panic ->
  exists l, fst (extract_boxes_with_payload std_registry data None pssh_paths 0) = Ok l /\
            Exists (fun x => 2 ^ 48 <= bi_size (fst x)) l.
Proof.
  intros data HD E. unfold psshdump_tool in E. fold pssh_paths in E.
  destruct (C51_extract data None pssh_paths 0 HD) as [_ NP]; [intros bi Z; discriminate Z|].
  destruct (extract_boxes_with_payload _ _ _ _ _) as [[l|e| |] q]; cbn [fst] in *; try discriminate E; [|now destruct NP].
  exists l. split; [reflexivity|]. clear NP. revert E. generalize 0 as i. revert q.
  induction l as [|[bi [d x]] r IH]; intros q i E; cbn [pssh_loop] in E; [discriminate E|].
  unfold bind in E. unfold seek_to_start, s_seek in E.
  destruct (bi_offset bi <? 9223372036854775808); cbn in E; [|discriminate E].
  unfold read_raw in E. change maxAlloc with 281474976710656 in E.
  destruct (N.leb_spec 281474976710656 (bi_size bi)) as [L|L].
  - apply Exists_cons_hd. exact L.
  - apply Exists_cons_tl. destruct (bi_size bi =? 0).
    + cbn [ret] in E. unfold ret in E. destruct (pssh_loop data (i + 1) r (bi_offset bi)) as [y out] eqn:F. eapply IH. now rewrite F.
    + destruct (_ =? bi_size bi); [|destruct (_ =? 0); discriminate E].
      match type of E with context [pssh_loop data (i + 1) r ?p] => destruct (pssh_loop data (i + 1) r p) as [y out] eqn:F end.
      eapply IH. now rewrite F.
Qed.
Print Assumptions C55_psshdump_partial.

(** Exactly: it panics at the first pssh box that declares 2^48 bytes or more, if
    all those before it are in the file as a whole. *)
Definition whole (data : list byte) (bi : boxinfo) : Prop :=
  bi_offset bi < 2 ^ 63 /\ (bi_size bi = 0 \/ bi_offset bi + bi_size bi <= lenN data).
Lemma pssh_loop_panics : forall data, lenN data < 2 ^ 48 -> forall l i pos,
  fst (pssh_loop data i l pos) = Panic <->
  exists before b after, l = before ++ b :: after /\ Forall (fun x => whole data (fst x)) before /\
    bi_offset (fst b) < 2 ^ 63 /\ 2 ^ 48 <= bi_size (fst b).
Proof.
  intros data HD. unfold whole. change (2 ^ 48) with 281474976710656 in *. change (2 ^ 63) with 9223372036854775808.
  induction l as [|[bi [d x]] r IH]; intros i pos; cbn [pssh_loop].
  - split; [discriminate|]. intros (before & b & after & E & _). destruct before; discriminate.
  - unfold bind, seek_to_start, s_seek.
    destruct (N.ltb_spec (bi_offset bi) 9223372036854775808) as [O|O].
    2: { split; [discriminate|]. intros (before & b & after & E & F & B & _). exfalso.
         destruct before as [|c before]; injection E as <- E; [cbn in B; lia|]. inversion F as [|? ? [Q _] _]. cbn in Q. lia. }
    unfold read_raw. change maxAlloc with 281474976710656.
    destruct (N.leb_spec 281474976710656 (bi_size bi)) as [L|L].
    { split; [|reflexivity]. intros _. exists [], (bi, (d, x)), r. repeat split; auto. }
    assert (C : forall q, whole data bi ->
      fst (pssh_loop data (i + 1) r q) = Panic <->
      exists before b after, (bi, (d, x)) :: r = before ++ b :: after /\
        Forall (fun x => bi_offset (fst x) < 9223372036854775808 /\
                         (bi_size (fst x) = 0 \/ bi_offset (fst x) + bi_size (fst x) <= lenN data)) before /\
        bi_offset (fst b) < 9223372036854775808 /\ 281474976710656 <= bi_size (fst b)).
    { intros q W. rewrite IH. split; intros (before & b & after & E & F & B & S).
      - exists ((bi, (d, x)) :: before), b, after. subst r. repeat split; auto.
      - destruct before as [|c before]; injection E as <- E; [cbn in S; lia|].
        exists before, b, after. inversion F; subst. auto. }
    destruct (N.eqb_spec (bi_size bi) 0) as [Z|Z].
    { unfold ret. destruct (pssh_loop data (i + 1) r (bi_offset bi)) as [y out] eqn:E.
      rewrite <- (C (bi_offset bi)), E; [reflexivity|]. split; auto. }
    rewrite lenN_takeN, lenN_skipN.
    destruct (N.eqb_spec (N.min (bi_size bi) (lenN data - bi_offset bi)) (bi_size bi)) as [M|M].
    + match goal with |- context [pssh_loop data (i + 1) r ?p] => destruct (pssh_loop data (i + 1) r p) as [y out] eqn:E;
        rewrite <- (C p), E; [reflexivity|] end. split; [exact O|right; lia].
    + split; [destruct (_ =? 0); discriminate|]. intros (before & b & after & E & F & B & S). exfalso.
      destruct before as [|c before]; injection E as <- E; [cbn in S; lia|].
      inversion F as [|? ? [_ Q] _]. cbn [fst] in Q. lia.
Qed.
Theorem C55_psshdump_exact : forall data, lenN data < 2 ^ 48 ->
  (fst (psshdump_tool data) = Panic <->
   exists l before b after,
     fst (extract_boxes_with_payload std_registry data None pssh_paths 0) = Ok l /\
     l = before ++ b :: after /\ Forall (fun x => whole data (fst x)) before /\
     bi_offset (fst b) < 2 ^ 63 /\ 2 ^ 48 <= bi_size (fst b)).
Proof.
  intros data HD. unfold psshdump_tool. fold pssh_paths.
  destruct (C51_extract data None pssh_paths 0 HD) as [_ NP]; [intros bi Z; discriminate Z|].
  destruct (extract_boxes_with_payload _ _ _ _ _) as [[l|e| |] q]; cbn [fst] in *.
  - rewrite pssh_loop_panics by exact HD. split.
    + intros (before & b & after & H). exists l, before, b, after. auto.
    + intros (l' & before & b & after & E & H). injection E as <-. eauto.
  - split; [discriminate|]. intros (l & before & b & after & E & _). discriminate E.
  - now destruct NP.
  - split; [discriminate|]. intros (l & before & b & after & E & _). discriminate E.
Qed.
Print Assumptions C55_psshdump_exact.
