(** C16: sgpd with explicit description lengths. *)
From Verif Require Import Base BaseProofs BitIO BitIOProofs Schema Structs Methods Registry Marshal Unmarshal Decode UnmarshalProofs VersionFacts
     SpecCodec SpecRoundTrip PropRoundTrip PropHdlr MarshalProofs PropMarshal SgpdFacts.
Local Open Scope string_scope.
Local Open Scope list_scope.
Local Open Scope N_scope.

Definition sgpd_v (entries : list val) : list (string * val) :=
  [("FullBox", VStruct [("Version", VUint 1); ("Flags", VList [VUint 0; VUint 0; VUint 0])]);
   ("GroupingType", VList (map (fun b => VUint (b2N b)) (bt "roll")));
   ("DefaultLength", VUint 0); ("DefaultSampleDescriptionIndex", VUint 0);
   ("EntryCount", VUint (lenN entries)); ("RollDistances", VList []); ("RollDistancesL", VList entries);
   ("AlternativeStartupEntries", VList []); ("AlternativeStartupEntriesL", VList []);
   ("VisualRandomAccessEntries", VList []); ("VisualRandomAccessEntriesL", VList []);
   ("TemporalLevelEntries", VList []); ("TemporalLevelEntriesL", VList []); ("Unsupported", VList [])].
Definition roll (n : N) (z : Z) : val := VStruct [("DescriptionLength", VUint n); ("RollDistance", VInt z)].

(** The claim is false: the box with the one entry (length 2, roll distance -1)
    is written in 22 bytes, exactly as the standard says, and these bytes are
    rejected. *)
Theorem C16_sgpd_refuted : exists v out e pos,
  v = sgpd_v [roll 2 (-1)] /\
  marshal std_registry (bt "sgpd") ctx0 v [] = (Ok 22, out) /\
  out = hex "01000000726f6c6c0000000000000001" ++ hex "00000002ffff" /\
  unmarshal_any std_registry out (bt "sgpd") (lenN out) ctx0 0 = (Err e, pos).
Proof.
  exists (sgpd_v [roll 2 (-1)]), (hex "01000000726f6c6c0000000000000001" ++ hex "00000002ffff").
  do 2 eexists. split; [reflexivity|]. split; [vm_compute; reflexivity|]. split; [reflexivity|].
  vm_compute. reflexivity.
Qed.
Print Assumptions C16_sgpd_refuted.

(** Without entries there is nothing to reject. *)
Example C16_empty :
  match marshal std_registry (bt "sgpd") ctx0 (sgpd_v []) [] with
  | (Ok n, out) => match fst (unmarshal_any std_registry out (bt "sgpd") n ctx0 0) with Ok (_, _, m) => (n, m) | _ => (n, 0) end
  | _ => (0, 0)
  end = (16, 16).
Proof. vm_compute. reflexivity. Qed.

(** ** Every box *)
(** An sgpd box of version 1 with default_length 0: flags [a], [b], [c], grouping
    type [gt], entry count [cnt], entries [es] (description length, roll distance);
    [others]: what the fields of other grouping types hold. *)
Definition roll_entry_val (e : N * Z) : val := VStruct [("DescriptionLength", VUint (fst e)); ("RollDistance", VInt (snd e))].
Definition roll_box (a b c : N) (gt : list byte) (dsdi cnt : N) (es : list (N * Z)) (rd al all va val te tel un : val)
  : list (string * Schema.val) :=
  [("FullBox", VStruct [("Version", VUint 1); ("Flags", VList [VUint a; VUint b; VUint c])]);
   ("GroupingType", VList (map (fun b => VUint (b2N b)) gt));
   ("DefaultLength", VUint 0); ("DefaultSampleDescriptionIndex", VUint dsdi);
   ("EntryCount", VUint cnt); ("RollDistances", rd); ("RollDistancesL", VList (map roll_entry_val es));
   ("AlternativeStartupEntries", al); ("AlternativeStartupEntriesL", all);
   ("VisualRandomAccessEntries", va); ("VisualRandomAccessEntriesL", val);
   ("TemporalLevelEntries", te); ("TemporalLevelEntriesL", tel); ("Unsupported", un)].

Lemma lay_step : forall rn root ctx top sname cfo self f t rest cn env size len cur b r,
  owner rn root ctx cfo sname self = (cn, env) ->
  resolve_size cn env f = Some size -> resolve_len cn env f = Some len ->
  enabled (get_version root) (get_flags root) cn env f = true -> hook_of cn (f_name f) = HNone ->
  lookup (f_name f) self = Some cur -> layout_val rn root ctx f size len t cur = Some b ->
  (forall top', layout_flds rn root ctx top' sname cfo self rest = Some r) ->
  layout_flds rn root ctx top sname cfo self (FCons f t rest) = Some (b ++ r).
Proof.
  intros rn root ctx top sname cfo self f t rest cn env size len cur b r E H1 H2 H3 H4 H5 H6 H7.
  rewrite layout_flds_cons, E, H1, H2. cbn [obind]. unfold field_bits. rewrite H3, H4, H5. cbn [obind]. rewrite H6. cbn [obind].
  rewrite H7. reflexivity.
Qed.
Lemma lay_skip : forall rn root ctx top sname cfo self f t rest cn env size len r,
  owner rn root ctx cfo sname self = (cn, env) ->
  resolve_size cn env f = Some size -> resolve_len cn env f = Some len ->
  enabled (get_version root) (get_flags root) cn env f = false ->
  (forall top', layout_flds rn root ctx top' sname cfo self rest = Some r) ->
  layout_flds rn root ctx top sname cfo self (FCons f t rest) = Some r.
Proof.
  intros rn root ctx top sname cfo self f t rest cn env size len r E H1 H2 H3 H7.
  rewrite layout_flds_cons, E, H1, H2. cbn [obind]. unfold field_bits. rewrite H3. cbn [obind].
  rewrite H7. reflexivity.
Qed.

Lemma roll_layout : forall ctx a b c gt dsdi cnt es rd al all va va' te tel un,
  a < 256 -> b < 256 -> c < 256 -> cnt < 2 ^ 32 -> gt = bt "roll" \/ gt = bt "prol" ->
  Forall (fun e => fst e < 2 ^ 32 /\ (-32768 <= snd e < 32768)%Z) es ->
  exists ebits, lenN ebits = 48 * lenN es /\
  layout (bd_name sgpd_def) (bd_flds sgpd_def) ctx (roll_box a b c gt dsdi cnt es rd al all va va' te tel un) =
  Some (bits_of_bytes ([N2b 1] ++ (N_to_be 1 a ++ N_to_be 1 b ++ N_to_be 1 c) ++ gt ++ [bzero; bzero; bzero; bzero] ++ N_to_be 4 cnt) ++ ebits).
Proof.
  intros ctx a b c gt dsdi cnt es rd al all va va' te tel un A B C CN GT F.
  assert (EB : exists eb, lenN eb = 48 * lenN es /\ forall root f,
     concat_bits (layout_val "Sgpd" root ctx f 16 LengthUnlimited rdl) (map roll_entry_val es) = Some eb).
  { clear - F. induction F as [|[n z] es [Hn Hz] F (eb & L & IH)].
    - exists []. split; reflexivity.
    - exists ((uint_bits 32 n ++ int_bits 16 z) ++ eb). split.
      + rewrite lenN_app, L, lenN_cons. rewrite lenN_app. unfold uint_bits, int_bits. rewrite !lenN_N_to_bits. lia.
      + intros root f. cbn [map concat_bits]. rewrite IH. 
        assert (X : layout_val "Sgpd" root ctx f 16 LengthUnlimited rdl (roll_entry_val (n, z)) = Some (uint_bits 32 n ++ int_bits 16 z)).
        { unfold rdl, roll_entry_val. cbn [fst snd].
          match goal with |- layout_val _ _ _ _ _ _ (SStruct ?nm ?cf ?fs) (VStruct ?l) = _ =>
            change (layout_flds "Sgpd" root ctx None nm cf l fs = Some (uint_bits 32 n ++ int_bits 16 z)) end.
          eapply lay_step; [reflexivity|reflexivity|reflexivity|rewrite <- is_target_enabled; apply target_always; reflexivity|reflexivity|reflexivity| |].
          { cbn [layout_val f_varint f_size]. unfold uint_fits. replace (n <? 2 ^ 32) with true by (symmetry; apply N.ltb_lt; exact Hn). reflexivity. }
          intros top. rewrite <- (app_nil_r (int_bits 16 z)).
          eapply lay_step; [reflexivity|reflexivity|reflexivity|rewrite <- is_target_enabled; apply target_always; reflexivity|reflexivity|reflexivity| |].
          { cbn [layout_val f_varint f_size negb andb]. change (16 <=? 64) with true. cbn [andb].
            replace (int_fits 16 z) with true; [reflexivity|]. symmetry. unfold int_fits. cbn in Hz. apply andb_true_intro.
            change (Z.of_N (2 ^ (16 - 1))) with 32768%Z. change (1 <=? 16) with true.
            split; [cbn [andb]; apply Z.leb_le|apply Z.ltb_lt]; lia. }
          reflexivity. }
        rewrite X. reflexivity. }
  destruct EB as (eb & L & EB). exists eb. split; [exact L|].
  let d := eval vm_compute in sgpd_def in change sgpd_def with d.
  cbn [bd_name bd_flds]. unfold layout. set (v := roll_box _ _ _ _ _ _ _ _ _ _ _ _ _ _ _).
  rewrite !bits_of_bytes_app, !N_to_be_bits.
  replace (((bits_of_bytes [N2b 1] ++ (N_to_bits (8 * 1) a ++ N_to_bits (8 * 1) b ++ N_to_bits (8 * 1) c) ++ bits_of_bytes gt ++
     bits_of_bytes [bzero; bzero; bzero; bzero] ++ N_to_bits (8 * 4) cnt) ++ eb)) with
   ((uint_bits 8 1 ++ uint_bits 8 a ++ uint_bits 8 b ++ uint_bits 8 c) ++ bits_of_bytes gt ++
     uint_bits 32 0 ++ uint_bits 32 cnt ++ eb ++ []).
  2:{ change (uint_bits 8 1) with (bits_of_bytes [N2b 1]). change (uint_bits 32 0) with (bits_of_bytes [bzero; bzero; bzero; bzero]).
      rewrite app_nil_r, <- !app_assoc. reflexivity. }
  eapply lay_step; [reflexivity|reflexivity|reflexivity|reflexivity|reflexivity|reflexivity| |].
  { match goal with |- layout_val ?rn ?root _ _ _ _ (SStruct ?nm ?cf ?fs) (VStruct ?l) = ?r =>
      change (layout_flds rn root ctx None nm cf l fs = r) end.
    eapply lay_step; [reflexivity|reflexivity|reflexivity|rewrite <- is_target_enabled; apply target_always; reflexivity|reflexivity|reflexivity|reflexivity|].
    intros top. rewrite <- (app_nil_r (uint_bits 8 a ++ _)).
    eapply lay_step; [reflexivity|reflexivity|reflexivity|rewrite <- is_target_enabled; apply target_always; reflexivity|reflexivity|reflexivity| |reflexivity].
    cbn [layout_val f_varint f_size concat_bits]. change (lenN [VUint a; VUint b; VUint c] =? 3) with true. unfold uint_fits.
    change (2 ^ 8) with 256.
    replace (a <? 256) with true by (symmetry; apply N.ltb_lt; exact A).
    replace (b <? 256) with true by (symmetry; apply N.ltb_lt; exact B).
    replace (c <? 256) with true by (symmetry; apply N.ltb_lt; exact C). cbn [andb obind]. now rewrite app_nil_r. }
  intros top1. eapply lay_step; [reflexivity|reflexivity|reflexivity|reflexivity|reflexivity|reflexivity| |].
  { destruct GT as [->| ->]; vm_compute; reflexivity. }
  intros top2. eapply lay_step; [reflexivity|reflexivity|reflexivity|reflexivity|reflexivity|reflexivity|reflexivity|].
  intros top3. eapply lay_skip; [reflexivity|reflexivity|reflexivity|reflexivity|].
  intros top4. eapply lay_step; [reflexivity|reflexivity|reflexivity|reflexivity|reflexivity|reflexivity| |].
  { cbn [layout_val f_varint f_size]. unfold uint_fits. replace (cnt <? 2 ^ 32) with true by (symmetry; apply N.ltb_lt; exact CN). reflexivity. }
  clear top1 top2 top3 top4.
  destruct GT as [->| ->].
  all: intros top5; (eapply lay_skip; [reflexivity|reflexivity|reflexivity|reflexivity|]); intros top6.
  all: (eapply lay_step; [reflexivity|reflexivity|reflexivity|reflexivity|reflexivity|reflexivity|apply EB|]).
  all: intros top7; repeat (eapply lay_skip; [reflexivity|reflexivity|reflexivity|reflexivity|]; intros ?); reflexivity.
Qed.

(** A payload of an sgpd box of version 1 with default_length 0 and grouping type
    roll or prol, after any bytes [pre]: Unmarshal takes it if it is declared with
    16 bytes, that is without entries, and otherwise rejects it with an error.
    [rest] is whatever follows the fixed part: entries of any form, or nothing. *)
Theorem C16_payloads : forall ctx pre fl gt ec rest size,
  lenN fl = 3 -> gt = bt "roll" \/ gt = bt "prol" -> lenN ec = 4 -> size < 2 ^ 61 ->
  let data := pre ++ [N2b 1] ++ fl ++ gt ++ [bzero; bzero; bzero; bzero] ++ ec ++ rest in
  lenN data < 2 ^ 62 ->
  match unmarshal_any std_registry data (bt "sgpd") size ctx (lenN pre) with
  | (Ok (_, _, n), _) => size = 16 /\ n = 16
  | (Err _, _) => size <> 16
  | _ => False
  end.
Proof.
  intros ctx pre fl gt ec rest size L1 GT L2 LS data LD.
  assert (P1 : lenN pre <= lenN data) by (unfold data; rewrite lenN_app; lia).
  pose proof (unmarshal_any_decode (bt "sgpd") ctx sgpd_def data size (lenN pre) (sgpd_found ctx) P1 LD) as U.
  cbv zeta in U. assert (SK : skipN (lenN pre) data = [N2b 1] ++ fl ++ gt ++ [bzero; bzero; bzero; bzero] ++ ec ++ rest)
    by (unfold data; apply skipN_app_exact; reflexivity). rewrite SK in U. clear SK. clearbody data.
  assert (FU : dfuel data <> O) by (unfold dfuel; lia).
  pose proof (decode_roll (dfuel data) ctx fl gt ec rest size L1 GT L2 LS FU) as D.
  destruct (unmarshal_any std_registry data (bt "sgpd") size ctx (lenN pre)) as [[[[d x] n]|e| |] q].
  - destruct U as (_ & U & _). rewrite U in D. exact D.
  - destruct U as (U & _). rewrite U in D. exact D.
  - rewrite U in D. exact D.
  - rewrite U in D. exact D.
Qed.
Print Assumptions C16_payloads.

(** Every such box can be written, and what is written can be read back exactly
    when the list of entries is empty. *)
Theorem C16_written : forall ctx a b c gt dsdi cnt es rd al all va va' te tel un,
  a < 256 -> b < 256 -> c < 256 -> cnt < 2 ^ 32 -> gt = bt "roll" \/ gt = bt "prol" ->
  Forall (fun e => fst e < 2 ^ 32 /\ (-32768 <= snd e < 32768)%Z) es -> lenN es < 2 ^ 58 ->
  exists out,
    marshal std_registry (bt "sgpd") ctx (roll_box a b c gt dsdi cnt es rd al all va va' te tel un) [] = (Ok (16 + 6 * lenN es), out) /\
    match unmarshal_any std_registry out (bt "sgpd") (lenN out) ctx 0 with
    | (Ok (_, _, n), _) => es = [] /\ n = lenN out
    | (Err _, _) => es <> []
    | _ => False
    end.
Proof.
  intros ctx a b c gt dsdi cnt es rd al all va va' te tel un A B C CN GT F LE.
  destruct (roll_layout ctx a b c gt dsdi cnt es rd al all va va' te tel un A B C CN GT F) as (eb & L & E).
  assert (LG : lenN gt = 4) by (destruct GT as [->| ->]; reflexivity).
  set (hd := [N2b 1] ++ (N_to_be 1 a ++ N_to_be 1 b ++ N_to_be 1 c) ++ gt ++ [bzero; bzero; bzero; bzero] ++ N_to_be 4 cnt) in *.
  assert (LH : lenN hd = 16).
  { unfold hd. rewrite !lenN_app, !lenN_N_to_be, LG. reflexivity. }
  destruct (C06_marshal_layout std_registry (bt "sgpd") ctx sgpd_def _ _ (sgpd_found ctx) E) as (out & BO & M).
  { rewrite lenN_app, lenN_bits_of_bytes, LH, L. replace (8 * 16 + 48 * lenN es) with ((16 + 6 * lenN es) * 8) by lia. apply N.mod_mul. discriminate. }
  assert (LO : lenN out = 16 + 6 * lenN es).
  { apply (f_equal lenN) in BO. rewrite lenN_app, !lenN_bits_of_bytes, LH, L in BO. lia. }
  exists out. split; [rewrite <- LO; exact M|]. clear M E.
  assert (OUT : out = hd ++ skipN 16 out).
  { rewrite <- (takeN_skipN _ out 16) at 1. f_equal. apply bits_of_bytes_inj. rewrite <- takeN_bits_of_bytes, BO.
    rewrite takeN_app_exact; [reflexivity|]. now rewrite lenN_bits_of_bytes, LH. }
  change (2 ^ 58) with 288230376151711744 in LE.
  pose proof (C16_payloads ctx [] (N_to_be 1 a ++ N_to_be 1 b ++ N_to_be 1 c) gt (N_to_be 4 cnt) (skipN 16 out) (lenN out)) as P.
  cbv zeta in P.
  assert (EQ : [] ++ [N2b 1] ++ (N_to_be 1 a ++ N_to_be 1 b ++ N_to_be 1 c) ++ gt ++ [bzero; bzero; bzero; bzero] ++ N_to_be 4 cnt ++ skipN 16 out = out).
  { transitivity (hd ++ skipN 16 out); [|symmetry; exact OUT]. unfold hd. rewrite <- !app_assoc. cbn [app]. reflexivity. }
  rewrite EQ in P. clear EQ.
  specialize (P ltac:(rewrite !lenN_app, !lenN_N_to_be; reflexivity) GT ltac:(rewrite lenN_N_to_be; reflexivity)).
  specialize (P ltac:(rewrite LO; change (2 ^ 61) with 2305843009213693952; lia) ltac:(rewrite LO; change (2 ^ 62) with 4611686018427387904; lia)).
  change (lenN []) with 0 in P.
  destruct (unmarshal_any std_registry out (bt "sgpd") (lenN out) ctx 0) as [[[[d x] n]|e| |] q]; try exact P.
  - destruct P as [P ->]. split; [|symmetry; exact P]. clear - P LO. destruct es; [reflexivity|]. rewrite lenN_cons in LO. lia.
  - clear - P LO. intros ->. apply P. rewrite LO. reflexivity.
Qed.
Print Assumptions C16_written.


(** Two entries: 28 bytes are written, and rejected. *)
Example C16_case :
  let v := roll_box 0 0 0 (bt "prol") 0 2 [(2, (-1)%Z); (2, 5%Z)] (VList []) (VList []) (VList []) (VList []) (VList []) (VList []) (VList []) (VList []) in
  marshal std_registry (bt "sgpd") ctx0 v [] = (Ok 28, hex "0100000070726f6c0000000000000002" ++ hex "00000002ffff000000020005") /\
  fst (unmarshal_any std_registry (hex "0100000070726f6c0000000000000002" ++ hex "00000002ffff000000020005") (bt "sgpd") 28 ctx0 0)
  = Err (EMsg "invalid alignment").
Proof. split; vm_compute; reflexivity. Qed.
