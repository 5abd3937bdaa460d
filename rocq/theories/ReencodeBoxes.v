(** A decoded box of any registered type that is [rewritable] is well-formed in
    the sense of SpecRoundTrip.v: Marshal writes it and Unmarshal reads it back. *)
From Verif Require Import Base BitIO Schema Structs Methods Registry Marshal Unmarshal SpecCodec
     SpecRoundTrip SpecReencode Decode.
From Verif Require Import BaseProofs BitIOProofs BitIOFacts MarshalProofs MarshalCount UnmarshalProofs
     DecodeFacts VersionFacts Causal RoundTripBase RoundTripProofs Shape Lossless Truncate Reencode Total SizeProofs.
Local Open Scope string_scope.
Local Open Scope list_scope.
Local Open Scope N_scope.
Local Open Scope dec_scope.
Ltac Zify.zify_post_hook ::= Z.to_euclidean_division_equations.

(** ** Boxes without hooks *)
Lemma std_few : forallb (fun d => strs_flds (bd_flds d) <? 2 ^ 20) all_defs = true.
Proof. vm_compute. reflexivity. Qed.
Lemma std_unversioned : forallb (fun d => negb (str_in (bd_name d) gl_names) || full_box d ||
  match bd_versions d with [] => true | _ => false end) all_defs = true.
Proof. vm_compute. reflexivity. Qed.

Lemma decode_gl : forall k d ctx size bits x n,
  causal true d && causal false d = true ->
  nodup_names (names_of (bd_flds d)) && nodup_flds (bd_flds d) = true ->
  no_cp_flds (bd_flds d) = true -> strs_flds (bd_flds d) < 2 ^ 20 ->
  gl_flds (bd_name d) (bd_flds d) true (bd_name d) true (bd_flds d) (bd_flds d) = true ->
  map fst (set_version anyVersion (zero_flds (bd_flds d))) = names_of (bd_flds d) ->
  shaped_in (bd_flds d) (set_version anyVersion (zero_flds (bd_flds d))) ->
  bounded (bd_flds d) (set_version anyVersion (zero_flds (bd_flds d))) ->
  bd_name d <> "Meta" -> n < 2 ^ 45 -> version_in (bd_versions d) (get_version x) = true ->
  varints_fit_flds (bd_flds d) x = true ->
  decode k d size ctx (zero_flds (bd_flds d)) bits = Ok (x, n) ->
  well_formed d ctx x = true.
Proof.
  intros k d ctx size bits x n HC HN NC FW HP Kz Sz Bz NM Ln VI VF H.
  apply String.eqb_neq in NM.
  unfold decode in H. set (z := set_version anyVersion (zero_flds (bd_flds d))) in *.
  assert (BF : d_before (bd_name d) z (0, bits) = Ok ((false, z), (0, bits))) by (unfold d_before; now rewrite NM).
  rewrite BF in H. destruct (dec_flds _ _ _ _ _ _ _ _ _ _ _ _) as [[y [p r]]| | |] eqn:E; try discriminate.
  destruct (N.eqb_spec (p mod 8) 0) as [P8|]; [|discriminate]. cbn [negb] in H.
  destruct (N.ltb_spec (w64 (size * 8)) p) as [|Q]; [discriminate|].
  assert (X : y = x /\ p / 8 = n) by (now injection H as <- <-). destruct X as [-> <-]. clear H.
  apply andb_prop in HN. destruct HN as [N1 N2].
  assert (C : causal (get_version x =? 0) d = true).
  { apply andb_prop in HC. destruct HC. destruct (get_version x =? 0); assumption. }
  unfold causal in C. set (hf := str_in "FullBox" (names_of (bd_flds d))) in *.
  destruct (chk_flds _ _ _ _ _ _ _ _ _) as [Dend|] eqn:CE in C; [|discriminate].
  destruct (gl_frame _ _ _ _ _ _ _ _ _ _ _ _ _ _ _ _ _ HP E) as [Ks _].
  assert (LM : w64 (size * 8) < 2 ^ 64).
  { unfold w64, W64. change (2 ^ 64) with 18446744073709551616. lia. }
  destruct (proj2 (g_all k (bd_name d) (bd_versions d) ctx x (bd_flds d)) (bd_flds d) (Some hf) false [] true
     (bd_name d) (bd_flds d) true [] Dend None (Some 0) (w64 (size * 8)) 0 z x z 0 bits p r)
    as (lb & K1 & K2 & K3 & _ & _ & K6); auto; try lia.
  - split; [reflexivity|]. split; [reflexivity|]. split; [|reflexivity].
    intros Hh I. rewrite Ks, Kz in I. apply str_in_In in I. unfold hf in Hh. congruence.
  - unfold well_formed. fold z. rewrite Ks, Kz, strs_eqb_refl. cbn [andb]. unfold layout. rewrite K1, VI, NM.
    cbn [implb]. rewrite (K6 0 0 ltac:(reflexivity) ltac:(reflexivity) : rt_flds _ _ _ _ _ (lenN lb) _ _ _ _ _ = true).
    rewrite !andb_true_r. apply andb_true_intro.
    change (2 ^ 20) with 1048576 in FW. change (2 ^ 45) with 35184372088832 in Ln. change (2 ^ 51) with 2251799813685248.
    clear - K2 K3 P8 Ln FW. split; [apply N.eqb_eq; lia|apply N.ltb_lt; lia].
Qed.

(** ** Boxes with hooks, field by field *)
Fixpoint novar (f : finfo) (t : sty) : bool :=
  match t with
  | SUint _ => negb (f_varint f)
  | SPtr u | SArr _ u | SSlice u => novar f u
  | SStruct _ _ fs => novar_flds fs
  | _ => true
  end
with novar_flds (fs : flds) : bool :=
  match fs with FNil => true | FCons f t r => novar f t && novar_flds r end.
Lemma novar_fit : (forall t f v, novar f t = true -> varints_fit f t v = true) /\
  (forall fs l, novar_flds fs = true -> varints_fit_flds fs l = true).
Proof.
  apply sty_flds_mutind.
  - intros w f v H. cbn [novar] in H. destruct v; try reflexivity. cbn [varints_fit]. now rewrite H.
  - reflexivity.
  - reflexivity.
  - reflexivity.
  - intros n u IH f v H. destruct v; try reflexivity.
    match goal with |- varints_fit _ _ (VList ?l) = _ => change (forallb (varints_fit f u) l = true) end. apply forallb_forall. auto.
  - intros u IH f v H. destruct v; try reflexivity.
    match goal with |- varints_fit _ _ (VList ?l) = _ => change (forallb (varints_fit f u) l = true) end. apply forallb_forall. auto.
  - intros u IH f v H. destruct v as [| | | | |[y|]|]; try reflexivity. apply (IH f y H).
  - intros name cfo fs IH f v H. destruct v; try reflexivity. apply IH. exact H.
  - reflexivity.
  - intros f t IH r IHr l H. change (novar f t && novar_flds r = true) in H. apply andb_prop in H. destruct H as [H1 H2].
    change (match lookup (f_name f) l with Some v => varints_fit f t v | None => true end && varints_fit_flds r l = true).
    rewrite (IHr l H2), andb_true_r. destruct (lookup (f_name f) l); auto.
Qed.
Section Steps.
  Variables (k : nat) (rname : string) (vs : list N) (ctx : context) (lim : N).

  Lemma fld_any : forall (self : fields) f t rest st y st2 size len,
    let env := mkenv self (get_version self) (get_flags self) ctx in
    dec_flds k rname vs ctx None lim 0 rname true self (FCons f t rest) st = Ok (y, st2) ->
    resolve_size rname env f = Some size -> resolve_len rname env f = Some len ->
    is_target (get_version self) (get_flags self) rname env f = true ->
    exists (o : bool) self1 st1,
      d_hook k (hook_of rname (f_name f)) (get_version self) self (sub64 lim (fst st - 0)) st = Ok ((o, self1), st1) /\
      if o then dec_flds k rname vs ctx None lim 0 rname true self1 rest st1 = Ok (y, st2)
      else exists cur x st3, lookup (f_name f) self1 = Some cur /\
             dec_val k rname vs ctx self1 lim 0 f size len t cur st1 = Ok (x, st3) /\
             is_fullbox t && negb (version_in vs (get_version (update (f_name f) x self1))) = false /\
             dec_flds k rname vs ctx None lim 0 rname true (update (f_name f) x self1) rest st3 = Ok (y, st2).
  Proof.
    intros self f t rest st y st2 size len env H H1 H2 H3. subst env. rewrite dec_flds_cons in H. cbv zeta in H.
    cbn [box_of] in H. rewrite H1, H2, H3 in H. unfold dbind in H at 1. unfold dbind in H at 1. unfold dpos in H at 1.
    unfold dbind in H at 1.
    destruct (d_hook _ _ _ _ _ _) as [[[o self1] st1]| | |] eqn:E; try discriminate.
    exists o, self1, st1. split; [reflexivity|]. destruct o; [exact H|].
    destruct (lookup (f_name f) self1) as [cur|]; [|discriminate]. unfold dbind in H at 1.
    destruct (dec_val _ _ _ _ _ _ _ _ _ _ _ _ _) as [[x st3]| | |] eqn:E1; try discriminate.
    destruct (is_fullbox t && _) eqn:E2; [discriminate|]. exists cur, x, st3. repeat split; try assumption.
  Qed.
  Lemma fld_none : forall (self : fields) f t rest st y st2 size len cur,
    let env := mkenv self (get_version self) (get_flags self) ctx in
    dec_flds k rname vs ctx None lim 0 rname true self (FCons f t rest) st = Ok (y, st2) ->
    hook_of rname (f_name f) = HNone \/ get_version self = 0 /\ (hook_of rname (f_name f) = HEmsgSkip \/ hook_of rname (f_name f) = HEmsgData) ->
    resolve_size rname env f = Some size -> resolve_len rname env f = Some len ->
    is_target (get_version self) (get_flags self) rname env f = true ->
    lookup (f_name f) self = Some cur ->
    exists x st3,
      dec_val k rname vs ctx self lim 0 f size len t cur st = Ok (x, st3) /\
      is_fullbox t && negb (version_in vs (get_version (update (f_name f) x self))) = false /\
      dec_flds k rname vs ctx None lim 0 rname true (update (f_name f) x self) rest st3 = Ok (y, st2).
  Proof.
    intros self f t rest st y st2 size len cur env H HK H1 H2 H3 L.
    destruct (fld_any _ _ _ _ _ _ _ _ _ H H1 H2 H3) as (o & self1 & st1 & E & X). clear H.
    assert (Q : o = false /\ self1 = self /\ st1 = st).
    { destruct HK as [HK|[HV [HK|HK]]]; rewrite HK in E; cbn [d_hook] in E; rewrite ?HV in E; cbn [N.eqb negb] in E;
        unfold dret in E; injection E as <- <- <-; auto. }
    destruct Q as (-> & -> & ->). destruct X as (cur' & x & st3 & X1 & X2 & X3 & X4).
    assert (cur' = cur) by congruence. subst cur'. eauto 6.
  Qed.
  Lemma fld_absent : forall (self : fields) f t rest st y st2 size len,
    let env := mkenv self (get_version self) (get_flags self) ctx in
    dec_flds k rname vs ctx None lim 0 rname true self (FCons f t rest) st = Ok (y, st2) ->
    resolve_size rname env f = Some size -> resolve_len rname env f = Some len ->
    is_target (get_version self) (get_flags self) rname env f = false ->
    dec_flds k rname vs ctx None lim 0 rname true self rest st = Ok (y, st2).
  Proof.
    intros self f t rest st y st2 size len env H H1 H2 H3. subst env. rewrite dec_flds_cons in H. cbv zeta in H.
    cbn [box_of] in H. rewrite H1, H2, H3 in H. exact H.
  Qed.

  (** the value of a field that depends on nothing else *)
  Definition vok (root : fields) f size len t cur last v p p' lb : Prop :=
    layout_val rname root ctx f size len t v = Some lb /\
    (p + lenN lb) mod 8 = p' mod 8 /\ p <= p' /\ lenN lb <= 4 * (p' - p) + 8 * strs t /\
    forall pl rem, (hasslice t = true -> lim <= p' -> rem = 0) -> (last = true -> rem = 0) ->
      rt_val rname root ctx pl rem f size len t cur v = true.
  Lemma value_ok : forall (self : fields) f size len t cur p bits v p' bits',
    dec_val k rname vs ctx self lim 0 f size len t cur (p, bits) = Ok (v, (p', bits')) ->
    forall root last,
    chk_val rname (get_version root =? 0) false [] t = true ->
    gl_val rname FNil (Some size) (len =? LengthUnlimited) last f t = true ->
    nodup_val t = true -> no_cp_val t = true -> f_cp f = false -> novar f t = true ->
    shaped t cur -> lim < 2 ^ 64 -> p' <= lim ->
    exists lb, vok root f size len t cur last v p p' lb.
  Proof.
    intros self f size len t cur p bits v p' bits' H root last C G N0 NC CP VN S LM B.
    pose proof (proj1 novar_fit t f v VN) as VF.
    pose proof (mono_val k rname vs ctx t NC _ _ _ _ _ _ _ _ _ _ _ _ CP H) as M.
    destruct (proj1 (g_all k rname vs ctx root FNil) t false [] self lim 0 f size len (Some size) (len =? LengthUnlimited)
                last cur p bits v p' bits') as (lb & K1 & K2 & K3 & K4 & K5 & K6); auto; try lia.
    - split; [discriminate|]. intros j [].
    - split; [intros j n E; discriminate E|intros j E; discriminate E].
    - intros z E. assert (size = z) by congruence. lia.
    - intros E. apply N.eqb_eq in E. left. rewrite E. reflexivity.
    - exists lb. repeat split; auto.
  Qed.

  (** writing: the fields [fs] of the box value [x], and what is needed to read
      them back, when the fields before have [p] bits *)
  Variables (x cur : fields).
  Definition WR (p : N) (fs : flds) (lb : list bool) : Prop :=
    layout_flds rname x ctx (Some p) rname true x fs = Some lb /\
    rt_flds rname x ctx (Some p) p (lenN lb) rname true x cur fs = true.
  Lemma wr_nil : forall p, WR p FNil [].
  Proof. split; reflexivity. Qed.
  Lemma wr_step : forall p f t rest size len v c b lb last p0 p1,
    resolve_size rname (spec_env x ctx x) f = Some size -> resolve_len rname (spec_env x ctx x) f = Some len ->
    enabled (get_version x) (get_flags x) rname (spec_env x ctx x) f = true ->
    hook_of rname (f_name f) = HNone \/ get_version x = 0 /\ (hook_of rname (f_name f) = HEmsgSkip \/ hook_of rname (f_name f) = HEmsgData) ->
    lookup (f_name f) x = Some v -> lookup (f_name f) cur = Some c ->
    vok x f size len t c last v p0 p1 b -> 
    (hasslice t = true -> lb = []) -> (last = true -> lb = []) ->
    WR (p + lenN b) rest lb -> WR p (FCons f t rest) (b ++ lb).
  Proof.
    intros p f t rest size len v c b lb last p0 p1 H1 H2 H3 HK L1 L2 V A1 A2 [W1 W2].
    destruct V as (V1 & V2 & V3 & V4 & V5).
    assert (FB : field_bits rname x ctx (Some p) rname (spec_env x ctx x) x f (Some b) = Some b).
    { unfold field_bits. rewrite H3. destruct HK as [HK|[HV [HK|HK]]]; rewrite HK; rewrite ?HV; reflexivity. }
    split.
    - rewrite layout_flds_cons. unfold owner. rewrite H1, H2, L1. cbn [obind]. rewrite V1, FB. cbn [obind option_map].
      rewrite W1. reflexivity.
    - rewrite rt_flds_cons. unfold owner. rewrite H1, H2, L1, L2. cbv zeta. rewrite V1, FB, H3.
      cbn [option_map]. rewrite lenN_app. replace (lenN b + lenN lb - lenN b) with (lenN lb) by lia. rewrite W2, andb_true_r.
      assert (R : rt_val rname x ctx p (lenN lb) f size len t c v = true).
      { apply V5; intros E; [intros _; rewrite (A1 E)|rewrite (A2 E)]; reflexivity. }
      destruct HK as [HK|[HV [HK|HK]]]; rewrite HK; rewrite ?HV; exact R.
  Qed.
  Lemma wr_absent : forall p f t rest size len v lb,
    resolve_size rname (spec_env x ctx x) f = Some size -> resolve_len rname (spec_env x ctx x) f = Some len ->
    enabled (get_version x) (get_flags x) rname (spec_env x ctx x) f = false ->
    lookup (f_name f) x = Some v -> lookup (f_name f) cur = Some v ->
    WR p rest lb -> WR p (FCons f t rest) lb.
  Proof.
    intros p f t rest size len v lb H1 H2 H3 L1 L2 [W1 W2].
    assert (FB : forall o, field_bits rname x ctx (Some p) rname (spec_env x ctx x) x f o = Some []).
    { intros o. unfold field_bits. now rewrite H3. }
    split.
    - rewrite layout_flds_cons. unfold owner. rewrite H1, H2, L1. cbn [obind]. rewrite FB. cbn [obind option_map].
      rewrite lenN_nil, N.add_0_r, W1. reflexivity.
    - rewrite rt_flds_cons. unfold owner. rewrite H1, H2, L1, L2. cbv zeta. rewrite FB, H3.
      cbn [option_map]. rewrite lenN_nil, N.add_0_r, N.sub_0_r, W2, val_eqb_refl. reflexivity.
  Qed.
  Lemma wr_name : forall p f size len s c,
    resolve_size rname (spec_env x ctx x) f = Some size -> resolve_len rname (spec_env x ctx x) f = Some len ->
    enabled (get_version x) (get_flags x) rname (spec_env x ctx x) f = true ->
    hook_of rname (f_name f) = HHdlrName -> lookup (f_name f) x = Some (VStr s) -> lookup (f_name f) cur = Some c ->
    f_boxString f = false -> p mod 8 = 0 -> no_nul s = true ->
    negb (negb (as_uint (lookup "PreDefined" x) =? 0) &&
          match s with [] => false | b :: _ => lenN s + 1 =? (b2N b + 1) mod 256 end) = true ->
    WR p (FCons f SStr FNil) (cstring_bits s ++ []).
  Proof.
    intros p f size len s c H1 H2 H3 HK L1 L2 BS P8 NN NF.
    assert (LV : layout_val rname x ctx f size len SStr (VStr s) = Some (cstring_bits s)).
    { cbn [layout_val]. rewrite BS. reflexivity. }
    assert (FB : field_bits rname x ctx (Some p) rname (spec_env x ctx x) x f (Some (cstring_bits s)) = Some (cstring_bits s)).
    { unfold field_bits. now rewrite H3, HK. }
    split.
    - rewrite layout_flds_cons. unfold owner. rewrite H1, H2, L1. cbn [obind]. rewrite LV, FB. reflexivity.
    - rewrite rt_flds_cons. unfold owner. rewrite H1, H2, L1, L2. cbv zeta. rewrite LV, FB, H3, HK.
      rewrite app_nil_r, N.sub_diag, BS, NN, P8, NF. reflexivity.
  Qed.
  Lemma wr_skip : forall p f t rest size len v c lb,
    resolve_size rname (spec_env x ctx x) f = Some size -> resolve_len rname (spec_env x ctx x) f = Some len ->
    enabled (get_version x) (get_flags x) rname (spec_env x ctx x) f = true ->
    hook_of rname (f_name f) = HEmsgSkip -> get_version x = 1 ->
    lookup (f_name f) x = Some v -> lookup (f_name f) cur = Some c ->
    WR p rest lb -> WR p (FCons f t rest) lb.
  Proof.
    intros p f t rest size len v c lb H1 H2 H3 HK HV L1 L2 [W1 W2].
    assert (FB : forall o, field_bits rname x ctx (Some p) rname (spec_env x ctx x) x f o = Some []).
    { intros o. unfold field_bits. now rewrite H3, HK, HV. }
    split.
    - rewrite layout_flds_cons. unfold owner. rewrite H1, H2, L1. cbn [obind]. rewrite FB. cbn [obind option_map].
      rewrite lenN_nil, N.add_0_r, W1. reflexivity.
    - rewrite rt_flds_cons. unfold owner. rewrite H1, H2, L1, L2. cbv zeta. rewrite FB, H3, HK, HV.
      cbn [option_map N.eqb]. rewrite lenN_nil, N.add_0_r, N.sub_0_r, W2. reflexivity.
  Qed.
  Lemma wr_data : forall p f t size len v c b last p0 p1 s1 s2,
    resolve_size rname (spec_env x ctx x) f = Some size -> resolve_len rname (spec_env x ctx x) f = Some len ->
    enabled (get_version x) (get_flags x) rname (spec_env x ctx x) f = true ->
    hook_of rname (f_name f) = HEmsgData -> get_version x = 1 ->
    lookup (f_name f) x = Some v -> lookup (f_name f) cur = Some c ->
    lookup "SchemeIdUri" x = Some (VStr s1) -> lookup "Value" x = Some (VStr s2) ->
    no_nul s1 = true -> no_nul s2 = true -> p mod 8 = 0 ->
    vok x f size len t c last v p0 p1 b ->
    WR p (FCons f t FNil) ((cstring_bits s1 ++ cstring_bits s2 ++ b) ++ []).
  Proof.
    intros p f t size len v c b last p0 p1 s1 s2 H1 H2 H3 HK HV L1 L2 L3 L4 N1 N2 P8 V.
    destruct V as (V1 & V2 & V3 & V4 & V5).
    assert (FB : field_bits rname x ctx (Some p) rname (spec_env x ctx x) x f (Some b) =
                 Some (cstring_bits s1 ++ cstring_bits s2 ++ b)).
    { unfold field_bits. rewrite H3, HK, HV, P8, L3, L4. reflexivity. }
    split.
    - rewrite layout_flds_cons. unfold owner. rewrite H1, H2, L1. cbn [obind]. rewrite V1, FB. reflexivity.
    - rewrite rt_flds_cons. unfold owner. rewrite H1, H2, L1, L2. cbv zeta. rewrite V1, FB, H3, HK, HV, L3, L4, N1, N2, P8.
      cbn [N.eqb andb]. rewrite app_nil_r, N.sub_diag. rewrite V5; auto.
  Qed.
End Steps.

Definition flds_of (t : string) : flds :=
  match get_box_def std_registry (bt t) ctx0 with Some d => bd_flds d | None => FNil end.
Lemma std_hdlr : forallb (fun d => implb (String.eqb (bd_name d) "Hdlr") (flds_eqb (bd_flds d) (flds_of "hdlr"))) all_defs = true.
Proof. vm_compute. reflexivity. Qed.
Lemma std_emsg : forallb (fun d => implb (String.eqb (bd_name d) "Emsg")
  (flds_eqb (bd_flds d) (flds_of "emsg") && negb (match bd_versions d with [] => true | _ => false end) &&
   forallb (fun v => v <=? 1) (bd_versions d))) all_defs = true.
Proof. vm_compute. reflexivity. Qed.

Lemma mod_step : forall a p l p', a mod 8 = p mod 8 -> (p + l) mod 8 = p' mod 8 -> (a + l) mod 8 = p' mod 8.
Proof. intros. lia. Qed.

(** ** Handler boxes *)
Lemma decode_hdlr_wf : forall k d ctx size bits x n,
  bd_name d = "Hdlr" -> bd_flds d = flds_of "hdlr" ->
  shaped_in (bd_flds d) (set_version anyVersion (zero_flds (bd_flds d))) -> n < 2 ^ 45 -> name_fits x = true ->
  decode k d size ctx (zero_flds (bd_flds d)) bits = Ok (x, n) -> well_formed d ctx x = true.
Proof.
  intros k d ctx size bits x n EN EF SZ Ln NF H. unfold decode in H. unfold well_formed. rewrite EN, EF in *.
  change (d_before "Hdlr" (set_version anyVersion (zero_flds (flds_of "hdlr"))) (0, bits))
    with (Ok ((false, set_version anyVersion (zero_flds (flds_of "hdlr"))), (0, bits))) in H.
  cbv iota beta in H.
  let z := eval vm_compute in (set_version anyVersion (zero_flds (flds_of "hdlr"))) in
    change (set_version anyVersion (zero_flds (flds_of "hdlr"))) with z in *.
  let z := eval vm_compute in (flds_of "hdlr") in change (flds_of "hdlr") with z in *.
  set (lim := w64 (size * 8)) in *.
  assert (LM : lim < 2 ^ 64).
  { unfold lim, w64, W64. change (2 ^ 64) with 18446744073709551616. clear. lia. }
  match type of H with match ?m with _ => _ end = _ => destruct m as [[y [pe re]]| | |] eqn:E; try discriminate end.
  destruct (N.eqb_spec (pe mod 8) 0) as [P8|]; [|discriminate]. cbn [negb] in H.
  destruct (N.ltb_spec lim pe) as [|Q]; [discriminate|].
  assert (X : y = x /\ pe / 8 = n) by (now injection H as <- <-). destruct X as [-> <-]. clear H. rename E into H.
  clearbody lim.
  (* FullBox *)
  eapply fld_none in H; [|left; reflexivity|reflexivity|reflexivity|reflexivity|reflexivity].
  destruct H as (v0 & [p0 bits0] & D0 & FB & H).
  assert (M0 : p0 <= pe) by (eapply mono_flds; [|exact H]; reflexivity).
  cbn [f_size f_length] in D0.
  cbv [update String.eqb Ascii.eqb Bool.eqb f_name] in H, FB.
  (* PreDefined *)
  eapply fld_none in H; [|left; reflexivity|reflexivity|reflexivity|apply uncond_target; reflexivity|reflexivity].
  destruct H as (v1 & [p1 bits1] & D1 & _ & H).
  assert (M1 : p1 <= pe) by (eapply mono_flds; [|exact H]; reflexivity).
  cbn [f_size f_length] in D1.
  cbv [update String.eqb Ascii.eqb Bool.eqb f_name] in H.
  (* HandlerType *)
  eapply fld_none in H; [|left; reflexivity|reflexivity|reflexivity|apply uncond_target; reflexivity|reflexivity].
  destruct H as (v2 & [p2 bits2] & D2 & _ & H).
  assert (M2 : p2 <= pe) by (eapply mono_flds; [|exact H]; reflexivity).
  cbn [f_size f_length] in D2.
  cbv [update String.eqb Ascii.eqb Bool.eqb f_name] in H.
  (* Reserved *)
  eapply fld_none in H; [|left; reflexivity|reflexivity|reflexivity|apply uncond_target; reflexivity|reflexivity].
  destruct H as (v3 & [p3 bits3] & D3 & _ & H).
  assert (M3 : p3 <= pe) by (eapply mono_flds; [|exact H]; reflexivity).
  cbn [f_size f_length] in D3.
  cbv [update String.eqb Ascii.eqb Bool.eqb f_name] in H.
  (* Name *)
  eapply fld_any in H; [|reflexivity|reflexivity|apply uncond_target; reflexivity].
  destruct H as (o & self1 & [p4 bits4] & HK & H). cbn [f_name] in HK.
  change (hook_of "Hdlr" "Name") with HHdlrName in HK. cbn [d_hook fst] in HK. cbv zeta in HK.
  set (sz := sub64 lim (p3 - 0) / 8) in *. clearbody sz.
  match type of HK with (if _ then dret (true, update "Name" _ ?s) else _) _ = _ => set (self := s) in * end.
  assert (X : o = true /\ exists s, self1 = update "Name" (VStr s) self /\ lenN s <= sz /\ p4 = p3 + 8 * sz /\ p3 mod 8 = 0).
  { destruct (N.eqb_spec sz 0) as [->|NZ].
    - unfold dret in HK. assert (X : o = true /\ self1 = update "Name" (VStr []) self /\ p4 = p3) by (injection HK as <- <- <- <-; auto).
      destruct X as (-> & -> & ->). split; [reflexivity|]. exists []. rewrite N.mul_0_r, N.add_0_r.
      split; [reflexivity|]. split; [reflexivity|]. split; [reflexivity|].
      cbn [dec_flds] in H. unfold dret in H. assert (p3 = pe) by (injection H as _ <- _; reflexivity). congruence.
    - unfold dbind in HK at 1. unfold d_has in HK. cbn [fst snd] in HK.
      destruct (N.eqb_spec (p3 mod 8) 0) as [A8|]; [|discriminate]. cbn [andb] in HK.
      destruct (N.leb_spec (8 * sz) (lenN bits3)) as [LB|]; [|discriminate]. cbn [negb] in HK.
      destruct (maxAlloc <=? sz); [discriminate|]. unfold dbind in HK.
      destruct (d_bytes sz (p3, bits3)) as [[buf [pb bb]]| | |] eqn:EB; try discriminate.
      apply d_bytes_inv in EB. destruct EB as (EB1 & LBF & EB2).
      destruct buf as [|c tl]; [discriminate|]. cbv zeta in HK. unfold dret in HK.
      match type of HK with Ok (true, update "Name" (VStr ?s) _, _) = _ => set (nm := s) in * end.
      assert (X : o = true /\ self1 = update "Name" (VStr nm) self /\ p4 = p3 + 8 * sz) by (injection HK as <- <- <- <-; auto).
      destruct X as (-> & -> & ->). split; [reflexivity|]. exists nm. repeat split; auto. unfold nm.
      match goal with |- lenN (if ?c then _ else _) <= _ => destruct c end.
      + rewrite lenN_takeN. rewrite lenN_cons in LBF. lia.
      + rewrite <- LBF. apply take_until_nul_len. }
  destruct X as (-> & s & -> & Ls & E4 & A8). cbn [dec_flds] in H. unfold dret in H. cbv iota in H.
  assert (X : x = update "Name" (VStr s) self /\ pe = p4) by (injection H as <- <- _; auto).
  destruct X as [EX EP]. subst pe. clear H HK.
  cbv [update String.eqb Ascii.eqb Bool.eqb self] in EX.
  (* the values *)
  destruct SZ as ((c0 & L0 & S0) & (c1 & L1 & S1) & (c2 & L2 & S2) & (c3 & L3 & S3) & _).
  assert (Q0 : c0 = VStruct [("Version", VUint 255); ("Flags", VList [VUint 0; VUint 0; VUint 0])]) by (injection L0 as <-; reflexivity).
  assert (Q1 : c1 = VUint 0) by (injection L1 as <-; reflexivity).
  assert (Q2 : c2 = VList [VUint 0; VUint 0; VUint 0; VUint 0]) by (injection L2 as <-; reflexivity).
  assert (Q3 : c3 = VList [VUint 0; VUint 0; VUint 0]) by (injection L3 as <-; reflexivity).
  subst c0 c1 c2 c3. clear L0 L1 L2 L3.
  apply value_ok with (root := x) (last := false) in D0;
    [|reflexivity|reflexivity|reflexivity|reflexivity|reflexivity|reflexivity|exact S0|exact LM|exact (N.le_trans _ _ _ M0 Q)].
  apply value_ok with (root := x) (last := false) in D1;
    [|reflexivity|reflexivity|reflexivity|reflexivity|reflexivity|reflexivity|exact S1|exact LM|exact (N.le_trans _ _ _ M1 Q)].
  apply value_ok with (root := x) (last := false) in D2;
    [|reflexivity|reflexivity|reflexivity|reflexivity|reflexivity|reflexivity|exact S2|exact LM|exact (N.le_trans _ _ _ M2 Q)].
  apply value_ok with (root := x) (last := false) in D3;
    [|reflexivity|reflexivity|reflexivity|reflexivity|reflexivity|reflexivity|exact S3|exact LM|exact (N.le_trans _ _ _ M3 Q)].
  destruct D0 as (b0 & V0), D1 as (b1 & V1), D2 as (b2 & V2), D3 as (b3 & V3).
  pose proof (proj2 V0) as (T0 & U0 & W0 & _). pose proof (proj2 V1) as (T1 & U1 & W1 & _).
  pose proof (proj2 V2) as (T2 & U2 & W2 & _). pose proof (proj2 V3) as (T3 & U3 & W3 & _).
  cbn [strs strs_flds] in W0, W1, W2, W3.
  (* the name *)
  set (cur := [("FullBox", VStruct _); _; _; _; _]) in *.
  unfold name_fits in NF. rewrite EX in NF. cbn [lookup String.eqb Ascii.eqb Bool.eqb] in NF.
  apply andb_prop in NF. destruct NF as [NN NF].
  match goal with |- context [layout "Hdlr" ?fs ctx x] =>
    assert (W : WR "Hdlr" ctx x cur 0 fs (b0 ++ b1 ++ b2 ++ b3 ++ cstring_bits s ++ [])) end.
  { eapply (wr_step "Hdlr" ctx lim); [reflexivity|reflexivity|rewrite <- is_target_enabled; now apply uncond_target|
       left; reflexivity|rewrite EX; reflexivity|reflexivity|exact V0|discriminate|discriminate|].
    eapply (wr_step "Hdlr" ctx lim); [reflexivity|reflexivity|rewrite <- is_target_enabled; now apply uncond_target|
       left; reflexivity|rewrite EX; reflexivity|reflexivity|exact V1|discriminate|discriminate|].
    eapply (wr_step "Hdlr" ctx lim); [reflexivity|reflexivity|rewrite <- is_target_enabled; now apply uncond_target|
       left; reflexivity|rewrite EX; reflexivity|reflexivity|exact V2|discriminate|discriminate|].
    eapply (wr_step "Hdlr" ctx lim); [reflexivity|reflexivity|rewrite <- is_target_enabled; now apply uncond_target|
       left; reflexivity|rewrite EX; reflexivity|reflexivity|exact V3|discriminate|discriminate|].
    eapply wr_name; [reflexivity|reflexivity|rewrite <- is_target_enabled; now apply uncond_target|
       reflexivity|rewrite EX; reflexivity|reflexivity|reflexivity| |exact NN|].
    - transitivity (p3 mod 8); [|exact A8]. do 3 (eapply mod_step; [|eassumption]). exact T0.
    - rewrite EX. cbn [lookup String.eqb Ascii.eqb Bool.eqb]. clear - NF.
      apply orb_prop in NF. destruct NF as [NF|NF]; [now rewrite NF|].
      destruct s as [|c tl]; [now rewrite andb_false_r|]. set (l := c :: tl) in *. rewrite negb_andb.
      apply orb_true_intro. right. apply negb_true_iff, N.eqb_neq. intros X. pose proof (b2N_lt c).
      apply orb_prop in NF. destruct NF as [NF|NF].
      + apply negb_true_iff, N.eqb_neq in NF. lia.
      + apply N.eqb_eq in NF. lia. }
  destruct W as [Y1 Y2]. unfold layout. rewrite Y1, Y2.
  assert (VI : version_in (bd_versions d) (get_version x) = true).
  { rewrite EX. destruct (version_in (bd_versions d) _) eqn:EV in FB; [exact EV|discriminate FB]. }
  rewrite VI, EX at 1. cbn [map fst names_of f_name strs_eqb String.eqb Ascii.eqb Bool.eqb andb implb].
  rewrite !andb_true_r. apply andb_true_intro.
  assert (LS : lenN (cstring_bits s) = 8 * lenN s + 8).
  { unfold cstring_bits. rewrite lenN_bits_of_bytes, lenN_app, lenN_cons, lenN_nil. clear. lia. }
  rewrite !lenN_app, LS, lenN_nil. change (2 ^ 45) with 35184372088832 in Ln. change (2 ^ 51) with 2251799813685248.
  assert (TT : (0 + lenN b0 + lenN b1 + lenN b2 + lenN b3) mod 8 = 0).
  { transitivity (p3 mod 8); [|exact A8]. do 3 (eapply mod_step; [|eassumption]). exact T0. }
  assert (LN : p4 < 281474976710656) by (clear - Ln P8; lia).
  split; [apply N.eqb_eq|apply N.ltb_lt].
  - clear - TT. lia.
  - clear - U0 U1 U2 U3 W0 W1 W2 W3 LN E4 Ls. lia.
Qed.

(** ** Event message boxes *)
Lemma zstring_read : forall k p bits s p' bits', d_zstring k (p, bits) = Ok (s, (p', bits')) ->
  no_nul s = true /\ p mod 8 = 0 /\ p' = p + 8 * lenN s + 8.
Proof.
  intros k p bits s p' bits' H. unfold d_zstring in H. unfold dbind in H at 1.
  match type of H with match ?m with _ => _ end = _ => destruct m as [[r [q qb]]| | |] eqn:E; try discriminate end.
  unfold dret in H. assert (X : s = rev r /\ p' = q) by (injection H as <- <- _; auto). destruct X as [-> ->]. clear H.
  enough (X : forall n acc p bits r q qb,
    dwhile n (fun acc => b <~ d_bytes 1 ;;
      match b with [c] => if b2N c =? 0 then dret (inr acc) else dret (inl (c :: acc)) | _ => dpanic end) acc (p, bits) =
      Ok (r, (q, qb)) ->
    exists s', r = s' ++ acc /\ no_nul s' = true /\ p mod 8 = 0 /\ q = p + 8 * lenN s' + 8).
  { apply X in E. destruct E as (s' & -> & N1 & P8 & ->). rewrite app_nil_r. split; [now apply no_nul_rev|].
    split; [exact P8|]. unfold lenN at 2. rewrite rev_length. reflexivity. }
  clear. induction n as [|n IH]; intros acc p bits r q qb H; cbn [dwhile] in H; [discriminate|].
  unfold dbind in H. destruct (d_bytes 1 (p, bits)) as [[b [p1 bits1]]| | |] eqn:E; try discriminate.
  assert (P8 : p mod 8 = 0).
  { unfold d_bytes in E. cbn [fst] in E. destruct (N.eqb_spec (p mod 8) 0); [assumption|discriminate]. }
  apply d_bytes_inv in E. destruct E as (_ & Lb & ->).
  destruct b as [|c [|]]; try discriminate. unfold dret in H. destruct (b2N c =? 0) eqn:Z.
  - assert (X : r = acc /\ q = p + 8 * 1) by (injection H as <- <- _; auto). destruct X as [-> ->].
    exists []. rewrite lenN_nil. repeat split; auto. lia.
  - apply IH in H. destruct H as (s' & -> & N1 & P & ->). exists (s' ++ [c]).
    rewrite <- app_assoc. split; [reflexivity|]. rewrite lenN_app, lenN_cons, lenN_nil. split; [|split; [exact P8|lia]].
    unfold no_nul in *. rewrite forallb_app, N1. cbn [forallb]. rewrite Z. reflexivity.
Qed.

Lemma decode_emsg_wf : forall k d ctx size bits x n,
  bd_name d = "Emsg" -> bd_flds d = flds_of "emsg" ->
  (forall v, version_in (bd_versions d) v = true -> v <= 1) ->
  shaped_in (bd_flds d) (set_version anyVersion (zero_flds (bd_flds d))) -> n < 2 ^ 45 ->
  decode k d size ctx (zero_flds (bd_flds d)) bits = Ok (x, n) -> well_formed d ctx x = true.
Proof.
  intros k d ctx size bits x n EN EF VS SZ Ln H. unfold decode in H. unfold well_formed. rewrite EN, EF in *.
  change (d_before "Emsg" (set_version anyVersion (zero_flds (flds_of "emsg"))) (0, bits))
    with (Ok ((false, set_version anyVersion (zero_flds (flds_of "emsg"))), (0, bits))) in H.
  cbv iota beta in H.
  let z := eval vm_compute in (set_version anyVersion (zero_flds (flds_of "emsg"))) in
    change (set_version anyVersion (zero_flds (flds_of "emsg"))) with z in *.
  let z := eval vm_compute in (flds_of "emsg") in change (flds_of "emsg") with z in *.
  set (lim := w64 (size * 8)) in *.
  assert (LM : lim < 2 ^ 64).
  { unfold lim, w64, W64. change (2 ^ 64) with 18446744073709551616. clear. lia. }
  match type of H with match ?m with _ => _ end = _ => destruct m as [[y [pe re]]| | |] eqn:E; try discriminate end.
  destruct (N.eqb_spec (pe mod 8) 0) as [P8|]; [|discriminate]. cbn [negb] in H.
  destruct (N.ltb_spec lim pe) as [|Q]; [discriminate|].
  assert (X : y = x /\ pe / 8 = n) by (now injection H as <- <-). destruct X as [-> <-]. clear H. rename E into H.
  clearbody lim.
  set (cur := [("FullBox", VStruct _); _; _; _; _; _; _; _; _]) in *.
  (* FullBox *)
  eapply fld_none in H; [|left; reflexivity|reflexivity|reflexivity|reflexivity|reflexivity].
  destruct H as (v0 & [p0 bits0] & D0 & FB & H).
  assert (M0 : p0 <= pe) by (eapply mono_flds; [|exact H]; reflexivity).
  cbn [f_size f_length] in D0.
  assert (VI : forall l, version_in (bd_versions d) (get_version (("FullBox", v0) :: l)) = true).
  { intros l. cbv [update String.eqb Ascii.eqb Bool.eqb f_name cur] in FB.
    destruct (version_in (bd_versions d) _) eqn:EV in FB; [exact EV|discriminate FB]. }
  clear FB. unfold cur in H. cbv [update String.eqb Ascii.eqb Bool.eqb f_name] in H. fold cur in D0.
  set (ver := get_version [("FullBox", v0)]).
  assert (GV : forall l, get_version (("FullBox", v0) :: l) = ver) by reflexivity.
  assert (V1 : ver <= 1) by (apply VS; apply (VI [])). clearbody ver.
  destruct SZ as ((c0 & L0 & S0) & (c1 & L1 & S1) & (c2 & L2 & S2) & (c3 & L3 & S3) & (c4 & L4 & S4) & (c5 & L5 & S5) &
                  (c6 & L6 & S6) & (c7 & L7 & S7) & (c8 & L8 & S8) & _).
  assert (Q0 : c0 = VStruct [("Version", VUint 255); ("Flags", VList [VUint 0; VUint 0; VUint 0])]) by (injection L0 as <-; reflexivity).
  subst c0. clear c1 L1 S1 c2 L2 S2 c3 L3 S3 c4 L4 S4 c5 L5 S5 c6 L6 S6 c7 L7 S7 c8 L8 S8 L0.
  apply value_ok with (root := x) (last := false) in D0;
    [|reflexivity|reflexivity|reflexivity|reflexivity|reflexivity|reflexivity|exact S0|exact LM|exact (N.le_trans _ _ _ M0 Q)].
  destruct D0 as (b0 & V0). pose proof (proj2 V0) as (T0 & U0 & W0 & _). cbn [strs strs_flds] in W0.
  assert (ver = 0 \/ ver = 1) as [EV|EV] by (clear - V1; lia); rewrite EV in GV; clear V1 EV ver.
  - (* version 0 *)
    eapply fld_none in H; [|right; split; [apply GV|left; reflexivity]|reflexivity|reflexivity|apply uncond_target; reflexivity|reflexivity].
    destruct H as (v1 & [p1 bits1] & D1 & _ & H).
    assert (M1 : p1 <= pe) by (eapply mono_flds; [|exact H]; reflexivity).
    cbn [f_size f_length] in D1.
    cbv [update String.eqb Ascii.eqb Bool.eqb f_name] in H.
    apply value_ok with (root := x) (last := false) in D1;
      [|reflexivity|reflexivity|reflexivity|reflexivity|reflexivity|reflexivity|exact I|exact LM|exact (N.le_trans _ _ _ M1 Q)].
    destruct D1 as (b1 & V1). pose proof (proj2 V1) as (T1 & U1 & W1 & _). cbn [strs] in W1.
    eapply fld_none in H; [|right; split; [apply GV|left; reflexivity]|reflexivity|reflexivity|apply uncond_target; reflexivity|reflexivity].
    destruct H as (v2 & [p2 bits2] & D2 & _ & H).
    assert (M2 : p2 <= pe) by (eapply mono_flds; [|exact H]; reflexivity).
    cbn [f_size f_length] in D2.
    cbv [update String.eqb Ascii.eqb Bool.eqb f_name] in H.
    apply value_ok with (root := x) (last := false) in D2;
      [|reflexivity|reflexivity|reflexivity|reflexivity|reflexivity|reflexivity|exact I|exact LM|exact (N.le_trans _ _ _ M2 Q)].
    destruct D2 as (b2 & V2). pose proof (proj2 V2) as (T2 & U2 & W2 & _). cbn [strs] in W2.
    eapply fld_none in H; [|left; reflexivity|reflexivity|reflexivity|apply uncond_target; reflexivity|reflexivity].
    destruct H as (v3 & [p3 bits3] & D3 & _ & H).
    assert (M3 : p3 <= pe) by (eapply mono_flds; [|exact H]; reflexivity).
    cbn [f_size f_length] in D3.
    cbv [update String.eqb Ascii.eqb Bool.eqb f_name] in H.
    apply value_ok with (root := x) (last := false) in D3;
      [|reflexivity|reflexivity|reflexivity|reflexivity|reflexivity|reflexivity|exact I|exact LM|exact (N.le_trans _ _ _ M3 Q)].
    destruct D3 as (b3 & V3). pose proof (proj2 V3) as (T3 & U3 & W3 & _). cbn [strs] in W3.
    eapply fld_none in H; [|left; reflexivity|reflexivity|reflexivity|rewrite !GV; reflexivity|reflexivity].
    destruct H as (v4 & [p4 bits4] & D4 & _ & H).
    assert (M4 : p4 <= pe) by (eapply mono_flds; [|exact H]; reflexivity).
    cbn [f_size f_length] in D4.
    cbv [update String.eqb Ascii.eqb Bool.eqb f_name] in H.
    apply value_ok with (root := x) (last := false) in D4;
      [|reflexivity|reflexivity|reflexivity|reflexivity|reflexivity|reflexivity|exact I|exact LM|exact (N.le_trans _ _ _ M4 Q)].
    destruct D4 as (b4 & V4). pose proof (proj2 V4) as (T4 & U4 & W4 & _). cbn [strs] in W4.
    eapply fld_absent in H; [|reflexivity|reflexivity|rewrite !GV; reflexivity].
    eapply fld_none in H; [|left; reflexivity|reflexivity|reflexivity|apply uncond_target; reflexivity|reflexivity].
    destruct H as (v5 & [p5 bits5] & D5 & _ & H).
    assert (M5 : p5 <= pe) by (eapply mono_flds; [|exact H]; reflexivity).
    cbn [f_size f_length] in D5.
    cbv [update String.eqb Ascii.eqb Bool.eqb f_name] in H.
    apply value_ok with (root := x) (last := false) in D5;
      [|reflexivity|reflexivity|reflexivity|reflexivity|reflexivity|reflexivity|exact I|exact LM|exact (N.le_trans _ _ _ M5 Q)].
    destruct D5 as (b5 & V5). pose proof (proj2 V5) as (T5 & U5 & W5 & _). cbn [strs] in W5.
    eapply fld_none in H; [|left; reflexivity|reflexivity|reflexivity|apply uncond_target; reflexivity|reflexivity].
    destruct H as (v6 & [p6 bits6] & D6 & _ & H).
    assert (M6 : p6 <= pe) by (eapply mono_flds; [|exact H]; reflexivity).
    cbn [f_size f_length] in D6.
    cbv [update String.eqb Ascii.eqb Bool.eqb f_name] in H.
    apply value_ok with (root := x) (last := false) in D6;
      [|reflexivity|reflexivity|reflexivity|reflexivity|reflexivity|reflexivity|exact I|exact LM|exact (N.le_trans _ _ _ M6 Q)].
    destruct D6 as (b6 & V6). pose proof (proj2 V6) as (T6 & U6 & W6 & _). cbn [strs] in W6.
    eapply fld_none in H; [|right; split; [apply GV|right; reflexivity]|reflexivity|reflexivity|apply uncond_target; reflexivity|reflexivity].
    destruct H as (v7 & [p7 bits7] & D7 & _ & H).
    assert (M7 : p7 <= pe) by (eapply mono_flds; [|exact H]; reflexivity).
    cbn [f_size f_length] in D7.
    cbv [update String.eqb Ascii.eqb Bool.eqb f_name] in H.
    apply value_ok with (root := x) (last := false) in D7;
      [|reflexivity|reflexivity|reflexivity|reflexivity|reflexivity|reflexivity|exact I|exact LM|exact (N.le_trans _ _ _ M7 Q)].
    destruct D7 as (b7 & V7). pose proof (proj2 V7) as (T7 & U7 & W7 & _). cbn [strs] in W7.
    cbn [dec_flds] in H. unfold dret in H.
    match type of H with Ok (?l, (?p, _)) = _ =>
      assert (X : x = l /\ pe = p) by (injection H as <- <- _; auto) end.
    destruct X as [EX EP]. subst pe. clear H.
    assert (GX : get_version x = 0) by (rewrite EX; apply GV).
    match goal with |- context [layout "Emsg" ?fs ctx x] =>
      assert (W : WR "Emsg" ctx x cur 0 fs (b0 ++ b1 ++ b2 ++ b3 ++ b4 ++ b5 ++ b6 ++ b7 ++ [])) end.
    {
      eapply (wr_step "Emsg" ctx lim); [reflexivity|reflexivity|rewrite <- is_target_enabled; now apply uncond_target|left; reflexivity|rewrite EX; reflexivity|reflexivity|exact V0|discriminate|discriminate|].
      eapply (wr_step "Emsg" ctx lim); [reflexivity|reflexivity|rewrite <- is_target_enabled; now apply uncond_target|right; split; [exact GX|left; reflexivity]|rewrite EX; reflexivity|reflexivity|exact V1|discriminate|discriminate|].
      eapply (wr_step "Emsg" ctx lim); [reflexivity|reflexivity|rewrite <- is_target_enabled; now apply uncond_target|right; split; [exact GX|left; reflexivity]|rewrite EX; reflexivity|reflexivity|exact V2|discriminate|discriminate|].
      eapply (wr_step "Emsg" ctx lim); [reflexivity|reflexivity|rewrite <- is_target_enabled; now apply uncond_target|left; reflexivity|rewrite EX; reflexivity|reflexivity|exact V3|discriminate|discriminate|].
      eapply (wr_step "Emsg" ctx lim); [reflexivity|reflexivity|rewrite !GX; reflexivity|left; reflexivity|rewrite EX; reflexivity|reflexivity|exact V4|discriminate|discriminate|].
      eapply wr_absent; [reflexivity|reflexivity|rewrite !GX; reflexivity|rewrite EX; reflexivity|reflexivity|].
      eapply (wr_step "Emsg" ctx lim); [reflexivity|reflexivity|rewrite <- is_target_enabled; now apply uncond_target|left; reflexivity|rewrite EX; reflexivity|reflexivity|exact V5|discriminate|discriminate|].
      eapply (wr_step "Emsg" ctx lim); [reflexivity|reflexivity|rewrite <- is_target_enabled; now apply uncond_target|left; reflexivity|rewrite EX; reflexivity|reflexivity|exact V6|discriminate|discriminate|].
      eapply (wr_step "Emsg" ctx lim); [reflexivity|reflexivity|rewrite <- is_target_enabled; now apply uncond_target|right; split; [exact GX|right; reflexivity]|rewrite EX; reflexivity|reflexivity|exact V7|reflexivity|discriminate|].
      apply wr_nil. }
    destruct W as [Y1 Y2]. unfold layout. rewrite Y1, Y2.
    assert (VX : version_in (bd_versions d) (get_version x) = true) by (rewrite EX; apply VI).
    rewrite VX, EX at 1. cbn [map fst names_of f_name strs_eqb String.eqb Ascii.eqb Bool.eqb andb implb].
    rewrite !andb_true_r. apply andb_true_intro.
    rewrite !lenN_app, lenN_nil. change (2 ^ 45) with 35184372088832 in Ln. change (2 ^ 51) with 2251799813685248.
    assert (TT : (0 + lenN b0 + lenN b1 + lenN b2 + lenN b3 + lenN b4 + lenN b5 + lenN b6 + lenN b7) mod 8 = 0).
    { transitivity (p7 mod 8); [|exact P8]. do 7 (eapply mod_step; [|eassumption]). exact T0. }
    assert (LN : p7 < 281474976710656) by (clear - Ln P8; lia).
    split; [apply N.eqb_eq|apply N.ltb_lt].
    + clear - TT. lia.
    + clear - U0 U1 U2 U3 U4 U5 U6 U7 W0 W1 W2 W3 W4 W5 W6 W7 LN. lia.
  - (* version 1 *)
    eapply fld_any in H; [|reflexivity|reflexivity|apply uncond_target; reflexivity].
    destruct H as (o & self1 & st1 & HK & H).
    match type of HK with d_hook _ ?h _ ?s _ ?st = _ =>
      assert (X : o = true /\ self1 = s /\ st1 = st)
        by (change h with HEmsgSkip in HK; cbn [d_hook] in HK; rewrite GV in HK; unfold dret in HK; injection HK as <- <- <-; auto) end.
    destruct X as (-> & -> & ->). clear HK.
    eapply fld_any in H; [|reflexivity|reflexivity|apply uncond_target; reflexivity].
    destruct H as (o & self1 & st1 & HK & H).
    match type of HK with d_hook _ ?h _ ?s _ ?st = _ =>
      assert (X : o = true /\ self1 = s /\ st1 = st)
        by (change h with HEmsgSkip in HK; cbn [d_hook] in HK; rewrite GV in HK; unfold dret in HK; injection HK as <- <- <-; auto) end.
    destruct X as (-> & -> & ->). clear HK.
    eapply fld_none in H; [|left; reflexivity|reflexivity|reflexivity|apply uncond_target; reflexivity|reflexivity].
    destruct H as (v3 & [p3 bits3] & D3 & _ & H).
    assert (M3 : p3 <= pe) by (eapply mono_flds; [|exact H]; reflexivity).
    cbn [f_size f_length] in D3.
    cbv [update String.eqb Ascii.eqb Bool.eqb f_name] in H.
    apply value_ok with (root := x) (last := false) in D3;
      [|reflexivity|reflexivity|reflexivity|reflexivity|reflexivity|reflexivity|exact I|exact LM|exact (N.le_trans _ _ _ M3 Q)].
    destruct D3 as (b3 & V3). pose proof (proj2 V3) as (T3 & U3 & W3 & _). cbn [strs] in W3.
    eapply fld_absent in H; [|reflexivity|reflexivity|rewrite !GV; reflexivity].
    eapply fld_none in H; [|left; reflexivity|reflexivity|reflexivity|rewrite !GV; reflexivity|reflexivity].
    destruct H as (v4 & [p4 bits4] & D4 & _ & H).
    assert (M4 : p4 <= pe) by (eapply mono_flds; [|exact H]; reflexivity).
    cbn [f_size f_length] in D4.
    cbv [update String.eqb Ascii.eqb Bool.eqb f_name] in H.
    apply value_ok with (root := x) (last := false) in D4;
      [|reflexivity|reflexivity|reflexivity|reflexivity|reflexivity|reflexivity|exact I|exact LM|exact (N.le_trans _ _ _ M4 Q)].
    destruct D4 as (b4 & V4). pose proof (proj2 V4) as (T4 & U4 & W4 & _). cbn [strs] in W4.
    eapply fld_none in H; [|left; reflexivity|reflexivity|reflexivity|apply uncond_target; reflexivity|reflexivity].
    destruct H as (v5 & [p5 bits5] & D5 & _ & H).
    assert (M5 : p5 <= pe) by (eapply mono_flds; [|exact H]; reflexivity).
    cbn [f_size f_length] in D5.
    cbv [update String.eqb Ascii.eqb Bool.eqb f_name] in H.
    apply value_ok with (root := x) (last := false) in D5;
      [|reflexivity|reflexivity|reflexivity|reflexivity|reflexivity|reflexivity|exact I|exact LM|exact (N.le_trans _ _ _ M5 Q)].
    destruct D5 as (b5 & V5). pose proof (proj2 V5) as (T5 & U5 & W5 & _). cbn [strs] in W5.
    eapply fld_none in H; [|left; reflexivity|reflexivity|reflexivity|apply uncond_target; reflexivity|reflexivity].
    destruct H as (v6 & [p6 bits6] & D6 & _ & H).
    assert (M6 : p6 <= pe) by (eapply mono_flds; [|exact H]; reflexivity).
    cbn [f_size f_length] in D6.
    cbv [update String.eqb Ascii.eqb Bool.eqb f_name] in H.
    apply value_ok with (root := x) (last := false) in D6;
      [|reflexivity|reflexivity|reflexivity|reflexivity|reflexivity|reflexivity|exact I|exact LM|exact (N.le_trans _ _ _ M6 Q)].
    destruct D6 as (b6 & V6). pose proof (proj2 V6) as (T6 & U6 & W6 & _). cbn [strs] in W6.
    eapply fld_any in H; [|reflexivity|reflexivity|apply uncond_target; reflexivity].
    destruct H as (o & self1 & st1 & HK & H). cbn [f_name] in HK, H.
    change (hook_of "Emsg" "MessageData") with HEmsgData in HK. cbn [d_hook] in HK. rewrite GV in HK. cbn [N.eqb] in HK.
    unfold dbind in HK at 1. destruct (d_zstring k (p6, bits6)) as [[s1 [pa ba]]| | |] eqn:Z1; try discriminate.
    unfold dbind in HK at 1. destruct (d_zstring k (pa, ba)) as [[s2 [pb bb]]| | |] eqn:Z2; try discriminate.
    unfold dret in HK. cbv [update String.eqb Ascii.eqb Bool.eqb f_name] in HK.
    match type of HK with Ok ((_, ?l), _) = _ =>
      assert (X : o = false /\ self1 = l /\ st1 = (pb, bb)) by (injection HK as <- <- <-; auto) end.
    destruct X as (-> & -> & ->). clear HK.
    apply zstring_read in Z1. destruct Z1 as (N1 & A8 & EA).
    apply zstring_read in Z2. destruct Z2 as (N2 & _ & EB).
    destruct H as (c7 & v7 & [p7 bits7] & L7 & D7 & _ & H).
    assert (Q7 : c7 = VList []) by (injection L7 as <-; reflexivity). subst c7. clear L7.
    assert (M7 : p7 <= pe) by (eapply mono_flds; [|exact H]; reflexivity).
    cbn [f_size f_length] in D7.
    cbv [update String.eqb Ascii.eqb Bool.eqb f_name] in H.
    apply value_ok with (root := x) (last := false) in D7;
      [|reflexivity|reflexivity|reflexivity|reflexivity|reflexivity|reflexivity|exact I|exact LM|exact (N.le_trans _ _ _ M7 Q)].
    destruct D7 as (b7 & V7). pose proof (proj2 V7) as (T7 & U7 & W7 & _). cbn [strs] in W7.
    cbn [dec_flds] in H. unfold dret in H.
    match type of H with Ok (?l, (?p, _)) = _ =>
      assert (X : x = l /\ pe = p) by (injection H as <- <- _; auto) end.
    destruct X as [EX EP]. subst pe. clear H.
    assert (GX : get_version x = 1) by (rewrite EX; apply GV).
    match goal with |- context [layout "Emsg" ?fs ctx x] =>
      assert (W : WR "Emsg" ctx x cur 0 fs (b0 ++ b3 ++ b4 ++ b5 ++ b6 ++ (cstring_bits s1 ++ cstring_bits s2 ++ b7) ++ [])) end.
    {
      eapply (wr_step "Emsg" ctx lim); [reflexivity|reflexivity|rewrite <- is_target_enabled; now apply uncond_target|left; reflexivity|rewrite EX; reflexivity|reflexivity|exact V0|discriminate|discriminate|].
      eapply wr_skip; [reflexivity|reflexivity|rewrite <- is_target_enabled; now apply uncond_target|reflexivity|exact GX|rewrite EX; reflexivity|reflexivity|].
      eapply wr_skip; [reflexivity|reflexivity|rewrite <- is_target_enabled; now apply uncond_target|reflexivity|exact GX|rewrite EX; reflexivity|reflexivity|].
      eapply (wr_step "Emsg" ctx lim); [reflexivity|reflexivity|rewrite <- is_target_enabled; now apply uncond_target|left; reflexivity|rewrite EX; reflexivity|reflexivity|exact V3|discriminate|discriminate|].
      eapply wr_absent; [reflexivity|reflexivity|rewrite !GX; reflexivity|rewrite EX; reflexivity|reflexivity|].
      eapply (wr_step "Emsg" ctx lim); [reflexivity|reflexivity|rewrite !GX; reflexivity|left; reflexivity|rewrite EX; reflexivity|reflexivity|exact V4|discriminate|discriminate|].
      eapply (wr_step "Emsg" ctx lim); [reflexivity|reflexivity|rewrite <- is_target_enabled; now apply uncond_target|left; reflexivity|rewrite EX; reflexivity|reflexivity|exact V5|discriminate|discriminate|].
      eapply (wr_step "Emsg" ctx lim); [reflexivity|reflexivity|rewrite <- is_target_enabled; now apply uncond_target|left; reflexivity|rewrite EX; reflexivity|reflexivity|exact V6|discriminate|discriminate|].
      eapply wr_data; [reflexivity|reflexivity|rewrite <- is_target_enabled; now apply uncond_target|reflexivity|exact GX|
        rewrite EX; reflexivity|reflexivity|rewrite EX; reflexivity|rewrite EX; reflexivity|exact N1|exact N2| |exact V7].
      transitivity (p6 mod 8); [|exact A8]. do 4 (eapply mod_step; [|eassumption]). exact T0. }
    destruct W as [Y1 Y2]. unfold layout. rewrite Y1, Y2.
    assert (VX : version_in (bd_versions d) (get_version x) = true) by (rewrite EX; apply VI).
    rewrite VX, EX at 1. cbn [map fst names_of f_name strs_eqb String.eqb Ascii.eqb Bool.eqb andb implb].
    rewrite !andb_true_r. apply andb_true_intro.
    assert (LS : forall s, lenN (cstring_bits s) = 8 * lenN s + 8).
    { intros s. unfold cstring_bits. rewrite lenN_bits_of_bytes, lenN_app, lenN_cons, lenN_nil. clear. lia. }
    rewrite !lenN_app, !LS, lenN_nil. change (2 ^ 45) with 35184372088832 in Ln. change (2 ^ 51) with 2251799813685248.
    assert (TT : (0 + lenN b0 + lenN b3 + lenN b4 + lenN b5 + lenN b6) mod 8 = 0).
    { transitivity (p6 mod 8); [|exact A8]. do 4 (eapply mod_step; [|eassumption]). exact T0. }
    assert (T8 : lenN b7 mod 8 = 0) by (clear - T7 EA EB A8 P8; lia).
    assert (LN : p7 < 281474976710656) by (clear - Ln P8; lia).
    split; [apply N.eqb_eq|apply N.ltb_lt].
    + clear - TT T8. lia.
    + clear - U0 U3 U4 U5 U6 U7 W0 W3 W4 W5 W6 W7 EA EB LN. lia.
Qed.

(** ** Every registered type *)
Lemma decoded_fits : forall k d size ctx z bits x n, decode k d size ctx z bits = Ok (x, n) ->
  n * 8 <= w64 (size * 8).
Proof.
  intros k d size ctx z bits x n H. unfold decode in H.
  destruct (d_before _ _ _) as [[[o s1] st1]| | |]; try discriminate. destruct o.
  - assert (n = 0) by (injection H as _ <-; reflexivity). subst n. lia.
  - destruct (dec_flds _ _ _ _ _ _ _ _ _ _ _ _) as [[y [p r]]| | |]; try discriminate.
    destruct (negb _); [discriminate|]. destruct (N.ltb_spec (w64 (size * 8)) p); [discriminate|].
    assert (p / 8 = n) by (injection H as _ <-; reflexivity). lia.
Qed.
Lemma decode_meta_wf : forall k d ctx size bits x n,
  bd_name d = "Meta" -> bd_flds d = FCons (plain_info "FullBox" 0 0 true) fb_ty FNil -> version_in (bd_versions d) 0 = true ->
  decode k d size ctx (zero_flds (bd_flds d)) bits = Ok (x, n) -> well_formed d ctx x = true.
Proof.
  intros k d ctx size bits x n EN EF VI H.
  enough (E : x = [("FullBox", VStruct [("Version", VUint 0); ("Flags", VList [VUint 0; VUint 0; VUint 0])])]).
  { subst x. unfold well_formed. rewrite EN, EF.
    match goal with |- context [get_version ?l] => change (get_version l) with 0 end. rewrite VI. vm_compute. reflexivity. }
  assert (HH : hook_of (bd_name d) "FullBox" = HNone) by (rewrite EN; reflexivity).
  unfold decode in H. rewrite (set_version_fb d _ EF) in H. cbn [zero_flds] in H.
  unfold d_before in H. rewrite EN in H. change (String.eqb "Meta" "Meta") with true in H. cbv iota in H.
  destruct (d_bytes 4 (0, bits)) as [[buf [p1 r]]| | |] eqn:E; try discriminate.
  apply d_bytes_inv in E. destruct E as (-> & L4 & _).
  destruct (existsb _ buf) eqn:EX; [injection H as <- _; reflexivity|].
  destruct buf as [|b0 [|b1 [|b2 [|b3 [|]]]]]; try discriminate L4.
  2:{ exfalso. clear - L4. rewrite !lenN_cons in L4. lia. }
  cbn [existsb] in EX. apply orb_false_elim in EX. destruct EX as [Z0 EX]. apply orb_false_elim in EX. destruct EX as [Z1 EX].
  apply orb_false_elim in EX. destruct EX as [Z2 EX]. apply orb_false_elim in EX. destruct EX as [Z3 _].
  rewrite <- EN in H. rewrite (decode_full_box _ _ _ _ _ _ _ _ _ _ _ EF HH) in H.
  destruct (version_in (bd_versions d) (b2N b0)); [|discriminate]. cbn [dec_flds] in H. unfold dret in H.
  change (negb (32 mod 8 =? 0)) with false in H. cbv iota in H. destruct (w64 (size * 8) <? 32); [discriminate|].
  assert (E : x = [("FullBox", fb_val b0 b1 b2 b3)]) by (injection H as <- _; reflexivity). rewrite E. unfold fb_val.
  apply negb_false_iff, N.eqb_eq in Z0, Z1, Z2, Z3. rewrite Z0, Z1, Z2, Z3. reflexivity.
Qed.
Lemma std_meta0 : forallb (fun d => implb (String.eqb (bd_name d) "Meta")
  (flds_eqb (bd_flds d) (FCons (plain_info "FullBox" 0 0 true) fb_ty FNil) && version_in (bd_versions d) 0)) all_defs = true.
Proof. vm_compute. reflexivity. Qed.

Lemma decoded_well_formed : forall data t size ctx pos d x n pos',
  pos <= lenN data -> lenN data < 2 ^ 45 ->
  unmarshal_any std_registry data t size ctx pos = (Ok (d, x, n), pos') ->
  rewritable d x = true -> SpecLossless.plain_box d = false -> well_formed d ctx x = true.
Proof.
  intros data t size ctx pos d x n pos' Hp Hd H RW PB.
  assert (Hd' : lenN data < 2 ^ 62).
  { change (2 ^ 45) with 35184372088832 in Hd. change (2 ^ 62) with 4611686018427387904. lia. }
  pose proof (unmarshal_any_def _ _ _ _ _ _ _ _ _ H) as G.
  pose proof (unmarshal_any_decode t ctx d data size pos G Hp Hd') as U. cbv zeta in U.
  rewrite H in U. destruct U as (_ & U & _ & L).
  assert (Ln : n < 2 ^ 45) by (eapply N.le_lt_trans; [|exact Hd]; lia).
  pose proof (all_defs_check _ _ _ _ _ eq_refl std_causal G) as HC. cbv beta in HC.
  pose proof (all_defs_check _ _ _ _ _ eq_refl std_nodup G) as HN. cbv beta in HN.
  pose proof (all_defs_check _ _ _ _ _ eq_refl std_no_cp G) as NC. cbv beta in NC.
  pose proof (all_defs_check _ _ _ _ _ eq_refl std_start G) as HS. cbv beta in HS.
  pose proof (all_defs_check _ _ _ _ _ eq_refl std_gl G) as HG. cbv beta in HG.
  pose proof (all_defs_check _ _ _ _ _ eq_refl std_few G) as HF. cbv beta in HF.
  pose proof (all_defs_check _ _ _ _ _ eq_refl std_unversioned G) as HV. cbv beta in HV.
  pose proof (all_defs_check _ _ _ _ _ eq_refl gl_names_all G) as HA. cbv beta in HA.
  pose proof (all_defs_check _ _ _ _ _ eq_refl std_hdlr G) as HH. cbv beta in HH.
  pose proof (all_defs_check _ _ _ _ _ eq_refl std_emsg G) as HE. cbv beta in HE.
  pose proof (all_defs_check _ _ _ _ _ eq_refl std_meta0 G) as HM. cbv beta in HM.
  destruct (start_shaped d HN) as (S1 & S2 & S3).
  { apply orb_prop in HS. destruct HS as [HS|HS]; [now left|right].
    destruct (fullbox_of _); [discriminate|reflexivity]. }
  rewrite PB in HA. cbn [orb] in HA.
  pose proof (decoded_version t ctx data size pos d x n pos' Hp Hd' H) as DV.
  clear H G HS. unfold rewritable in RW. apply andb_prop in RW. destruct RW as [VF NF].
  apply str_in_In, in_app_or in HA. destruct HA as [HA|HA].
  - destruct HA as [EN|[EN|[EN|[]]]]; symmetry in EN.
    + rewrite EN in HE. cbn [String.eqb Ascii.eqb Bool.eqb implb] in HE.
      apply andb_prop in HE. destruct HE as [HE HE3]. apply andb_prop in HE. destruct HE as [HE1 HE2].
      apply sty_eqb_eq in HE1. eapply decode_emsg_wf; eauto.
      intros v HV'. unfold version_in in HV'. destruct (bd_versions d) as [|w l]; [discriminate|].
      apply existsb_exists in HV'. destruct HV' as (u & Iu & Eu). apply N.eqb_eq in Eu. subst u.
      rewrite forallb_forall in HE3. apply N.leb_le. now apply HE3.
    + rewrite EN in HH, NF. cbn [String.eqb Ascii.eqb Bool.eqb implb negb orb] in HH, NF.
      apply sty_eqb_eq in HH. eapply decode_hdlr_wf; eauto.
    + rewrite EN in HM. cbn [String.eqb Ascii.eqb Bool.eqb implb] in HM. apply andb_prop in HM. destruct HM as [HM1 HM2].
      apply sty_eqb_eq in HM1. eapply decode_meta_wf; eauto.
  - assert (NM : bd_name d <> "Meta") by (intros E; rewrite E in HA; cbn in HA; clear - HA; intuition discriminate).
    apply str_in_In in HA. rewrite HA in HG, HV. cbn [implb negb orb] in HG, HV. apply N.ltb_lt in HF.
    eapply decode_gl; eauto. destruct (full_box d).
    + now apply DV.
    + cbn [orb] in HV. destruct (bd_versions d); [reflexivity|discriminate].
Qed.

(** What was read, and a prefix of what was announced, is enough. *)
Lemma decoded_again : forall data t size ctx pos d x n pos' data' pos2 size',
  pos <= lenN data -> lenN data < 2 ^ 62 -> pos2 <= lenN data' -> lenN data' < 2 ^ 62 -> bd_name d <> "Meta" ->
  unmarshal_any std_registry data t size ctx pos = (Ok (d, x, n), pos') ->
  n <= size' -> size' * 8 <= w64 (size * 8) ->
  takeN n (skipN pos2 data') = takeN n (skipN pos data) ->
  unmarshal_any std_registry data' t size' ctx pos2 = (Ok (d, x, n), pos2 + n).
Proof.
  intros data t size ctx pos d x n pos' data' pos2 size' Hp Hd Hp2 Hd2 NM H L1 L2 ET.
  pose proof (unmarshal_any_def _ _ _ _ _ _ _ _ _ H) as G.
  pose proof (unmarshal_any_decode t ctx d data size pos G Hp Hd) as U. cbv zeta in U.
  rewrite H in U. destruct U as (_ & U & _ & L).
  pose proof (all_defs_check _ _ _ _ _ eq_refl std_nodup G) as HN. cbv beta in HN.
  pose proof (all_defs_check _ _ _ _ _ eq_refl std_no_cp G) as NC. cbv beta in NC.
  pose proof (all_defs_check _ _ _ _ _ eq_refl std_start G) as HS. cbv beta in HS.
  pose proof (all_defs_check _ _ _ _ _ eq_refl std_avc G) as HA. cbv beta in HA.
  destruct (start_shaped d HN) as (S1 & S2 & S3).
  { apply orb_prop in HS. destruct HS as [HS|HS]; [now left|right].
    destruct (fullbox_of _); [discriminate|reflexivity]. }
  assert (KY : forall j, In j (names_of (bd_flds d)) -> lookup j (set_version anyVersion (zero_flds (bd_flds d))) <> None).
  { intros j Hj. rewrite <- S1 in Hj. now apply lookup_In. }
  assert (EB : bits_of_bytes (skipN pos2 data') =
    takeN (8 * n) (bits_of_bytes (skipN pos data)) ++ bits_of_bytes (skipN n (skipN pos2 data'))).
  { rewrite <- (takeN_skipN _ (skipN pos2 data') n) at 1. rewrite bits_of_bytes_app. f_equal.
    rewrite ET, takeN_bits_of_bytes. reflexivity. }
  pose proof (unmarshal_any_decode t ctx d data' size' pos2 G Hp2 Hd2) as U2. cbv zeta in U2.
  rewrite EB in U2.
  rewrite (decode_truncate _ (dfuel data') d size size' ctx _ x n _ NC HA NM KY U L1 L2) in U2.
  - destruct (unmarshal_any std_registry data' t size' ctx pos2) as [[[[d' y] m]|e| |] q].
    + destruct U2 as (-> & U2 & -> & _). injection U2 as -> ->. reflexivity.
    + destruct U2 as [U2 _]. discriminate U2.
    + discriminate U2.
    + discriminate U2.
  - rewrite takeN_bits_of_bytes, <- ET. unfold dfuel.
    assert (Y : lenN (bits_of_bytes (takeN n (skipN pos2 data'))) <= 8 * lenN data').
    { rewrite lenN_bits_of_bytes, lenN_takeN, lenN_skipN. lia. }
    unfold lenN at 1 in Y. lia.
Qed.
