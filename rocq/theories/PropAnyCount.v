(** C14, C10: eight bytes of trun decode into as many entries as they declare. *)
From Verif Require Import Base BaseProofs BitIO Schema Structs Methods Registry Marshal Unmarshal SpecCodec SpecRoundTrip.
From Verif Require Import BitIOProofs PropMarshal PropRoundTrip SpecSize VersionFacts.
Local Open Scope string_scope.
Local Open Scope list_scope.
Local Open Scope N_scope.

Lemma layout_step : forall rn root ctx top sname cfo self f t r cn env size len b bs,
  owner rn root ctx cfo sname self = (cn, env) -> resolve_size cn env f = Some size -> resolve_len cn env f = Some len ->
  field_bits rn root ctx top cn env self f (obind (lookup (f_name f) self) (layout_val rn root ctx f size len t)) = Some b ->
  layout_flds rn root ctx (option_map (fun n => n + lenN b) top) sname cfo self r = Some bs ->
  layout_flds rn root ctx top sname cfo self (FCons f t r) = Some (b ++ bs).
Proof.
  intros * O S L B R. cbn [layout_flds]. rewrite O, S, L.
  change (obind (field_bits rn root ctx top cn env self f (obind (lookup (f_name f) self) (layout_val rn root ctx f size len t)))
           (fun b0 => obind (layout_flds rn root ctx (option_map (fun n => n + lenN b0) top) sname cfo self r)
              (fun r0 => Some (b0 ++ r0))) = Some (b ++ bs)).
  rewrite B. cbn [obind]. rewrite R. reflexivity.
Qed.
Lemma rt_step : forall rn root ctx top p rem sname cfo self cur f t r cn env size len x c b,
  owner rn root ctx cfo sname self = (cn, env) -> resolve_size cn env f = Some size -> resolve_len cn env f = Some len ->
  lookup (f_name f) self = Some x -> lookup (f_name f) cur = Some c -> hook_of cn (f_name f) = HNone ->
  field_bits rn root ctx top cn env self f (layout_val rn root ctx f size len t x) = Some b ->
  (if enabled (get_version root) (get_flags root) cn env f
   then rt_val rn root ctx p (rem - lenN b) f size len t c x else val_eqb x c) = true ->
  rt_flds rn root ctx (option_map (fun n => n + lenN b) top) (p + lenN b) (rem - lenN b) sname cfo self cur r = true ->
  rt_flds rn root ctx top p rem sname cfo self cur (FCons f t r) = true.
Proof.
  intros * O S L X C K B V R. cbn [rt_flds]. rewrite O, S, L, X, C, B. cbv zeta. rewrite K, R, andb_true_r. exact V.
Qed.
Lemma concat_empty : forall enc e k, enc e = Some [] -> concat_bits enc (repeat e k) = Some [].
Proof. intros enc e k H. induction k as [|k IH]; [reflexivity|]. cbn [repeat concat_bits]. rewrite H, IH. reflexivity. Qed.

Definition entry : val :=
  VStruct [("SampleDuration", VUint 0); ("SampleSize", VUint 0); ("SampleFlags", VUint 0);
           ("SampleCompositionTimeOffsetV0", VUint 0); ("SampleCompositionTimeOffsetV1", VInt 0)].
Definition run (n : N) : fields :=
  [fullbox 0 0 0 0; ("SampleCount", VUint n); ("DataOffset", VInt 0); ("FirstSampleFlags", VUint 0);
   ("Entries", VList (repeat entry (N.to_nat n)))].
Definition trun_def : boxdef := Eval vm_compute in
  match get_box_def std_registry (bt "trun") ctx0 with Some d => d | None => mkdef "" FNil false PAlways [] end.
Lemma trun_is : get_box_def std_registry (bt "trun") ctx0 = Some trun_def.
Proof. vm_compute. reflexivity. Qed.

Fixpoint fld_at (i : nat) (fs : flds) : finfo * sty :=
  match fs, i with
  | FCons f t _, O => (f, t)
  | FCons _ _ r, S i => fld_at i r
  | FNil, _ => (plain_info "" 0 0 false, SBool)
  end.
Definition ef : finfo := Eval vm_compute in fst (fld_at 4 (bd_flds trun_def)).
Definition et : sty := Eval vm_compute in match snd (fld_at 4 (bd_flds trun_def)) with SSlice u => u | _ => SBool end.
Definition enc (n : N) : val -> option (list bool) := layout_val "Trun" (run n) ctx0 ef 0 n et.
Lemma enc_entry : forall n, enc n entry = Some [].
Proof. intros n. reflexivity. Qed.
Lemma entries_layout : forall n, n < 2 ^ 32 - 1 ->
  layout_val "Trun" (run n) ctx0 ef 0 n (SSlice et) (VList (repeat entry (N.to_nat n))) = Some [].
Proof.
  intros n Hn. cbn [layout_val]. fold (enc n). unfold LengthUnlimited.
  destruct (N.eqb_spec n 4294967295) as [->|_]; [lia|].
  assert (L : lenN (repeat entry (N.to_nat n)) = n) by (unfold lenN; rewrite repeat_length; lia).
  rewrite L, N.leb_refl, takeN_all by lia. apply concat_empty, enc_entry.
Qed.

Ltac field := eapply layout_step; [reflexivity|reflexivity|reflexivity| |].
Lemma run_layout : forall n, n < 2 ^ 32 - 1 ->
  layout (bd_name trun_def) (bd_flds trun_def) ctx0 (run n) = Some (repeat false 32 ++ uint_bits 32 n).
Proof.
  intros n Hn. unfold layout. change (bd_name trun_def) with "Trun".
  assert (F : uint_fits 32 n = true) by (apply N.ltb_lt; lia).
  replace (repeat false 32 ++ uint_bits 32 n) with (repeat false 32 ++ uint_bits 32 n ++ [] ++ [] ++ [] ++ []) by now rewrite !app_nil_r.
  unfold trun_def; cbn [bd_flds].
  field; [vm_compute; reflexivity|].
  field.
  { transitivity (if uint_fits 32 n && uint_fits 32 n then Some (uint_bits 32 n) else None); [reflexivity|now rewrite F]. }
  field; [reflexivity|]. field; [reflexivity|]. field; [|reflexivity].
  exact (entries_layout n Hn).
Qed.

Ltac back := eapply rt_step; [reflexivity|reflexivity|reflexivity|reflexivity|reflexivity|reflexivity| | |].
Lemma run_ok : forall n, n < 2 ^ 32 - 1 -> well_formed trun_def ctx0 (run n) = true.
Proof.
  intros n Hn. unfold well_formed. rewrite run_layout by exact Hn.
  assert (F : uint_fits 32 n = true) by (apply N.ltb_lt; lia).
  assert (L : lenN (repeat false 32 ++ uint_bits 32 n) = 64).
  { rewrite lenN_app. unfold uint_bits. rewrite lenN_N_to_bits. reflexivity. }
  rewrite L. change (strs_eqb (map fst (run n)) (names_of (bd_flds trun_def))) with true.
  change (version_in (bd_versions trun_def) (get_version (run n))) with true.
  change (implb _ _) with true. change (64 mod 8 =? 0) with true. change (64 <? 2 ^ 51) with true. cbn [andb].
  change (bd_name trun_def) with "Trun". set (cur := set_version anyVersion _). vm_compute in cur. subst cur.
  unfold trun_def; cbn [bd_flds].
  back; [vm_compute; reflexivity|reflexivity|].
  back.
  { transitivity (if uint_fits 32 n && uint_fits 32 n then Some (uint_bits 32 n) else None); [reflexivity|now rewrite F]. }
  { reflexivity. }
  back; [reflexivity|reflexivity|]. back; [reflexivity|reflexivity|].
  back; [exact (entries_layout n Hn)| |reflexivity].
  match goal with |- (if ?c then _ else _) = _ => change c with true end. cbv iota.
  match goal with |- rt_val _ _ _ ?p ?r _ _ _ _ _ _ = true => generalize p, r end. intros p r.
  change (rt_val "Trun" (run n) ctx0 p r ef 0 n (SSlice et) (VList []) (VList (repeat entry (N.to_nat n))) = true).
  cbn [rt_val]. fold (enc n). rewrite concat_empty by apply enc_entry. unfold LengthUnlimited.
  destruct (N.eqb_spec n 4294967295) as [->|_]; [lia|].
  rewrite repeat_length.
  assert (L' : lenN (repeat entry (N.to_nat n)) = n) by (unfold lenN; rewrite repeat_length; lia).
  rewrite L', N.eqb_refl. cbn [andb]. change (lenN (@nil bool)) with 0. rewrite N.add_0_r.
  generalize (N.to_nat n) as k. intros k. revert p r. induction k as [|k IH]; intros p r; [reflexivity|].
  cbn [repeat rt_list]. rewrite enc_entry. rewrite IH, andb_true_r. reflexivity.
Qed.

(** The exception of C14 is as bad as can be: any number of entries. *)
Theorem C14_any_count : forall n, n < 2 ^ 32 - 1 ->
  exists d x, unmarshal_any std_registry (hex "00000000" ++ N_to_be 4 n) (bt "trun") 8 ctx0 0 = (Ok (d, x, 8), 8) /\
    lookup "Entries" x = Some (VList (repeat entry (N.to_nat n))).
Proof.
  intros n Hn. exists trun_def, (run n). split; [|reflexivity].
  destruct (C07_round_trip (bt "trun") ctx0 trun_def (run n) trun_is (run_ok n Hn)) as (out & M & U).
  destruct (C06_marshal_layout std_registry (bt "trun") ctx0 trun_def (run n) _ trun_is (run_layout n Hn)) as (out' & B & M').
  { rewrite lenN_app. unfold uint_bits. rewrite lenN_N_to_bits. reflexivity. }
  rewrite M in M'. injection M' as _ <-.
  assert (E : out = hex "00000000" ++ N_to_be 4 n).
  { apply bits_of_bytes_inj. rewrite B, bits_of_bytes_app, N_to_be_bits. reflexivity. }
  assert (L : lenN out = 8) by (rewrite E, lenN_app, lenN_N_to_be; reflexivity).
  specialize (U [] []). rewrite L, app_nil_r, E in U. apply U. reflexivity.
Qed.
Print Assumptions C14_any_count.

Example C14_any_case : lookup "Entries" (run 2) = Some (VList [entry; entry]) /\
  hex "00000000" ++ N_to_be 4 2 = hex "0000000000000002" /\ 2 < 2 ^ 32 - 1.
Proof. vm_compute. auto. Qed.
