(** C49: what the edit command does with the payload of a box. *)
From Verif Require Import Base BaseProofs BitIO Schema Structs Methods Registry Marshal Unmarshal Decode.
From Verif Require Import SpecCodec SpecLossless PropMarshal BitIOProofs UnmarshalProofs VersionFacts Causal MarshalProofs MarshalCount
     RoundTripBase Shape Lossless PropUnmarshal PropLossless Edit SpecEdit.
Local Open Scope string_scope.
Local Open Scope list_scope.
Local Open Scope N_scope.

(** the layout behind C12_lossless *)
Lemma decoded_layout : forall data t size ctx pos d x n pos',
  pos <= lenN data -> lenN data < 2 ^ 62 -> plain_box d = true ->
  unmarshal_any std_registry data t size ctx pos = (Ok (d, x, n), pos') ->
  layout (bd_name d) (bd_flds d) ctx x = Some (bits_of_bytes (takeN n (skipN pos data))) /\
  lenN (takeN n (skipN pos data)) = n.
Proof.
  intros data t size ctx pos d x n pos' Hp Hd PB H.
  pose proof (unmarshal_any_def _ _ _ _ _ _ _ _ _ H) as G.
  pose proof (unmarshal_any_decode t ctx d data size pos G Hp Hd) as U. cbv zeta in U.
  rewrite H in U. destruct U as (_ & U & _ & L).
  pose proof (all_defs_check _ _ _ _ _ eq_refl std_causal G) as HC. cbv beta in HC.
  pose proof (all_defs_check _ _ _ _ _ eq_refl std_nodup G) as HN. cbv beta in HN.
  pose proof (all_defs_check _ _ _ _ _ eq_refl std_plain G) as HP. cbv beta in HP.
  pose proof (all_defs_check _ _ _ _ _ eq_refl std_start G) as HS. cbv beta in HS.
  destruct (start_shaped d HN) as (S1 & S2 & S3).
  { apply orb_prop in HS. destruct HS as [HS|HS]; [now left|right].
    destruct (fullbox_of _); [discriminate|reflexivity]. }
  destruct (decode_lossless _ _ _ _ _ _ _ HC HN HP S1 S2 S3 PB U) as (b & r & E1 & E2 & E3).
  destruct (C06_marshal_layout std_registry t ctx d x b G E3) as (out & EO & M).
  { rewrite E2, N.mul_comm. apply N.mod_mul. discriminate. }
  assert (EL : 8 * lenN out = 8 * n).
  { rewrite <- E2, <- EO. now rewrite lenN_bits_of_bytes. }
  assert (Ln : lenN out = n) by lia.
  assert (T : takeN n (skipN pos data) = out).
  { apply bits_of_bytes_inj. rewrite <- takeN_bits_of_bytes, E1, EO, <- E2. now rewrite takeN_app_exact. }
  rewrite T, EO. now split.
Qed.

Definition tfdt_def := match get_box_def std_registry (bt "tfdt") ctx0 with Some d => d | None => item_def end.
Lemma tfdt_found : forall ctx, get_box_def std_registry (bt "tfdt") ctx = Some tfdt_def.
Proof. intros ctx. unfold get_box_def. vm_compute. reflexivity. Qed.

Definition num_bits (n : N) (v : val) : option (list bool) :=
  match v with VUint x => if uint_fits n x then Some (uint_bits n x) else None | _ => None end.
Definition head_bits (v : val) : option (list bool) :=
  match v with
  | VStruct l =>
     obind (obind (lookup "Version" l) (num_bits 8)) (fun a =>
     obind (obind (lookup "Flags" l) (fun v =>
        match v with VList x => if lenN x =? 3 then concat_bits (num_bits 8) x else None | _ => None end)) (fun b =>
     Some (a ++ b)))
  | _ => None
  end.
Lemma concat_bits_ext : forall f g l, (forall x, f x = g x) -> concat_bits f l = concat_bits g l.
Proof. intros f g l E. induction l as [|x l IH]; cbn [concat_bits]; [reflexivity|]. rewrite E, IH. reflexivity. Qed.

Lemma num_ext : forall (n : N) v, match v with VUint x => if uint_fits n x && uint_fits n x then Some (uint_bits n x) else None | _ => None end =
  num_bits n v.
Proof. intros n v. destruct v; try reflexivity. cbn [num_bits]. now rewrite andb_diag. Qed.

Lemma obind_ext : forall (A B : Type) (x : option A) (f g : A -> option B), (forall a, f a = g a) -> obind x f = obind x g.
Proof. intros A B [a|] f g E; cbn; auto. Qed.
Lemma obind_assoc : forall (A B C : Type) (x : option A) (f : A -> option B) (g : B -> option C),
  obind (obind x f) g = obind x (fun a => obind (f a) g).
Proof. intros A B C [a|] f g; reflexivity. Qed.

Lemma tfdt_layout : forall ctx v, (get_version v =? 255) = false ->
  layout (bd_name tfdt_def) (bd_flds tfdt_def) ctx v =
  obind (obind (lookup "FullBox" v) head_bits) (fun h =>
  obind (if get_version v =? 0 then obind (lookup "BaseMediaDecodeTimeV0" v) (num_bits 32) else Some []) (fun a =>
  obind (if get_version v =? 1 then obind (lookup "BaseMediaDecodeTimeV1" v) (num_bits 64) else Some []) (fun b =>
  Some (h ++ a ++ b)))).
Proof.
  intros ctx v V.
  let d := eval vm_compute in tfdt_def in change tfdt_def with d.
  unfold layout.
  cbn [bd_name bd_flds layout_flds owner resolve_size resolve_len f_sizeDyn f_lenDyn f_size f_length obind f_name].
  unfold enabled, version_allows, flags_allow. cbn [f_optDyn f_optFlag f_nOptFlag f_version f_nVersion].
  unfold hook_of. cbn -[uint_fits uint_bits N.eqb get_version lookup].
  rewrite !orb_true_r.
  change (0 =? 0) with true. change (255 =? anyVersion) with true. change (1 =? anyVersion) with false.
  change (0 =? anyVersion) with false. change anyVersion with 255. rewrite V. cbn [andb orb].
  rewrite !andb_true_r, (N.eqb_sym 0), (N.eqb_sym 1).
  assert (H : forall w, match w with
    | VStruct l =>
        obind (obind (lookup "Version" l)
          (fun v1 => match v1 with VUint n => if uint_fits 8 n && uint_fits 8 n then Some (uint_bits 8 n) else None | _ => None end))
          (fun b => obind (obind (obind (lookup "Flags" l)
             (fun v1 => match v1 with
                | VList l0 => if lenN l0 =? 3 then concat_bits (fun v2 => match v2 with
                     | VUint n => if uint_fits 8 n && uint_fits 8 n then Some (uint_bits 8 n) else None | _ => None end) l0 else None
                | _ => None end)) (fun b0 => Some (b0 ++ []))) (fun r => Some (b ++ r)))
    | _ => None end = head_bits w).
  { intros w. destruct w as [| | | | | |l]; try reflexivity. cbn [head_bits].
    rewrite (obind_ext _ _ (lookup "Version" l) _ (num_bits 8)) by (intros; apply num_ext).
    apply obind_ext. intros a. rewrite !obind_assoc. apply obind_ext. intros w.
    destruct w; try reflexivity. rewrite !(concat_bits_ext _ (num_bits 8)) by (intros; apply num_ext).
    destruct (lenN l0 =? 3); [|reflexivity].
    destruct (concat_bits (num_bits 8) l0) as [b|]; [|reflexivity]. cbn [obind]. now rewrite app_nil_r. }
  rewrite (obind_ext _ _ (lookup "FullBox" v) _ head_bits) by exact H.
  apply obind_ext. intros h. rewrite !obind_assoc.
  rewrite (obind_ext _ _ (lookup "BaseMediaDecodeTimeV0" v) _ (num_bits 32)) by (intros; apply num_ext).
  apply obind_ext. intros a. rewrite !obind_assoc. cbn [obind].
  rewrite (obind_ext _ _ (lookup "BaseMediaDecodeTimeV1" v) _ (num_bits 64)) by (intros; apply num_ext).
  apply obind_ext. intros b. cbn [obind]. now rewrite app_nil_r.
Qed.

Lemma head_len : forall v h, head_bits v = Some h -> lenN h = 32.
Proof.
  intros v h H. destruct v as [| | | | | |l]; try discriminate. cbn [head_bits] in H.
  destruct (lookup "Version" l) as [x|]; [|discriminate]. cbn [obind] in H.
  destruct (num_bits 8 x) as [a|] eqn:A; [|discriminate]. cbn [obind] in H.
  destruct (lookup "Flags" l) as [y|]; [|discriminate]. cbn [obind] in H.
  destruct y as [| | | |fl| |]; try discriminate.
  destruct (lenN fl =? 3) eqn:L; [|discriminate].
  assert (W : forall z c, num_bits 8 z = Some c -> lenN c = 8).
  { intros z c E. destruct z; try discriminate. cbn [num_bits] in E. destruct (uint_fits 8 n); [|discriminate].
    injection E as <-. apply lenN_uint_bits. }
  assert (C : forall l c, concat_bits (num_bits 8) l = Some c -> lenN c = 8 * lenN l).
  { clear - W. induction l as [|z l IH]; intros c E; cbn [concat_bits] in E.
    - injection E as <-. reflexivity.
    - destruct (num_bits 8 z) as [p|] eqn:Z; [|discriminate]. cbn [obind] in E.
      destruct (concat_bits (num_bits 8) l) as [q|]; [|discriminate]. cbn [obind] in E. injection E as <-.
      rewrite lenN_app, (W z p Z), (IH q eq_refl), lenN_cons. lia. }
  destruct (concat_bits (num_bits 8) fl) as [b|] eqn:B; [|discriminate]. cbn [obind] in H. injection H as <-.
  apply N.eqb_eq in L. rewrite lenN_app, (W x a A), (C fl b B), L. reflexivity.
Qed.

Lemma version_update : forall k x v, k <> "FullBox" -> get_version (update k x v) = get_version v.
Proof. intros k x v H. unfold get_version, fullbox_of. rewrite lookup_update_other by congruence. reflexivity. Qed.

Lemma some_inj : forall (A : Type) (a b : A), Some a = Some b -> a = b.
Proof. intros A a b H. congruence. Qed.

Section Payload.
  Variable data : list byte.
  Hypothesis data_small : lenN data < 2 ^ 62.
  Variable cfg : config.
  Hypothesis time_fits : cf_time cfg < 2 ^ 64.
  Let time := if cf_time cfg =? UNoValue then None else Some (cf_time cfg).

  (** What is left of the payload of a box, once it has been read, changed and
      written. *)
  Lemma payload_rewritten : forall t ctx size pos d x n pos', pos <= lenN data -> plain_box d = true ->
    unmarshal_any std_registry data t size ctx pos = (Ok (d, x, n), pos') ->
    marshal std_registry t ctx (edit_fields cfg t x) [] = (Ok n, new_time time t (takeN n (skipN pos data))) /\
    lenN (new_time time t (takeN n (skipN pos data))) = lenN (takeN n (skipN pos data)).
  Proof.
    intros t ctx size pos d x n pos' Hp PB H.
    unfold edit_fields, new_time, time.
    destruct (cf_time cfg =? UNoValue) eqn:T; cbn [negb]; rewrite ?andb_false_r, ?andb_true_r.
    - split; [exact (C12_lossless data t size ctx pos d x n pos' Hp data_small PB H)|reflexivity].
    - destruct (bt_eqb t (bt "tfdt")) eqn:E.
      2:{ split; [exact (C12_lossless data t size ctx pos d x n pos' Hp data_small PB H)|reflexivity]. }
      apply bytes_eqb_eq in E. subst t.
      destruct (decoded_layout _ _ _ _ _ _ _ _ _ Hp data_small PB H) as [L Ln].
      pose proof (unmarshal_any_def _ _ _ _ _ _ _ _ _ H) as G.
      assert (D : d = tfdt_def) by (apply some_inj; rewrite <- G; apply tfdt_found).
      assert (F : full_box d = true) by (rewrite D; vm_compute; reflexivity).
      assert (NM : bd_name d <> "Meta").
      { rewrite D. let m := eval vm_compute in (bd_name tfdt_def) in change (bd_name tfdt_def) with m. clear. discriminate. }
      destruct (C11_never_succeeds_unsupported _ _ _ _ _ _ _ _ _ Hp data_small H F NM) as [V (ver & Hv & Ev)].
      assert (V' : get_version x = 0 \/ get_version x = 1).
      { assert (B : bd_versions d = [0; 1]) by (rewrite D; vm_compute; reflexivity). clear - B V.
        rewrite B in V. destruct V as [V|[V|[V|[]]]]; [discriminate V|auto|auto]. }
      clear V. rewrite D in L. set (own := takeN n (skipN pos data)) in *.
      assert (VB : (be_to_N (takeN 1 own) =? 0) = (get_version x =? 0) /\ 4 <= lenN own /\
                   forall h r, obind (lookup "FullBox" x) head_bits = Some h -> bits_of_bytes own = h ++ r ->
                     h = bits_of_bytes (takeN 4 own)).
      { assert (A : forall h r, obind (lookup "FullBox" x) head_bits = Some h -> bits_of_bytes own = h ++ r ->
                     h = bits_of_bytes (takeN 4 own)).
        { intros h r E1 E2. rewrite <- takeN_bits_of_bytes, E2.
          destruct (lookup "FullBox" x) as [fb|]; [|discriminate E1]. cbn [obind] in E1. pose proof (head_len fb h E1) as LH.
          replace (8 * 4) with (lenN h) by (rewrite LH; reflexivity). now rewrite takeN_app_exact. }
        assert (B : 4 <= lenN own).
        { rewrite tfdt_layout in L by (destruct V' as [V'|V']; rewrite V'; reflexivity).
          destruct (lookup "FullBox" x) as [fb|]; [|discriminate L]. cbn [obind] in L.
          destruct (head_bits fb) as [h|] eqn:HB; [|discriminate L]. cbn [obind] in L.
          pose proof (head_len fb h HB) as LH. clear - L LH.
          match type of L with obind ?o _ = _ => destruct o as [a|]; [|discriminate L] end. cbn [obind] in L.
          match type of L with obind ?o _ = _ => destruct o as [b|]; [|discriminate L] end. cbn [obind] in L.
          injection L as L. assert (Z : lenN (bits_of_bytes own) = lenN (h ++ a ++ b)) by now rewrite L.
          rewrite lenN_bits_of_bytes, lenN_app, LH in Z. lia. }
        split; [|now split]. rewrite Ev.
        assert (O : takeN 1 own = [ver]).
        { unfold own. rewrite takeN_takeN. replace (N.min 1 n) with 1 by (clear - B Ln; lia).
          rewrite nthN_skipN in Hv. destruct (skipN pos data) as [|y r]; [discriminate Hv|]. injection Hv as ->.
          destruct r; reflexivity. }
        rewrite O. clear. unfold be_to_N. cbn. reflexivity. }
      destruct VB as (VB & B4 & HH). rewrite VB. clear VB. clear H F NM G Hv Ev.
      set (v0 := get_version x) in *.
      assert (N5 : (get_version x =? 255) = false) by (fold v0; destruct V' as [V'|V']; rewrite V'; reflexivity).
      rewrite (tfdt_layout ctx x N5) in L. fold v0 in L.
      destruct (obind (lookup "FullBox" x) head_bits) as [h|] eqn:HB; [|discriminate L]. cbn [obind] in L.
      destruct V' as [V'|V'].
      + rewrite V' in L. change (0 =? 0) with true in L. change (0 =? 1) with false in L. cbv iota in L.
        rewrite V'. change (0 =? 0) with true. cbv iota.
        destruct (lookup "BaseMediaDecodeTimeV0" x) as [y|] eqn:LK; [|discriminate L]. cbn [obind] in L.
        destruct (num_bits 32 y) as [a|] eqn:NB; [|discriminate L]. cbn [obind] in L.
        apply some_inj in L. rewrite app_nil_r in L.
        assert (LA : lenN a = 32).
        { destruct y; try discriminate NB. cbn [num_bits] in NB. destruct (uint_fits 32 n0); [|discriminate NB].
          apply some_inj in NB. rewrite <- NB. apply lenN_uint_bits. }
        assert (EH := HH h a eq_refl (eq_sym L)).
        assert (LO : lenN own = 8).
        { assert (Z : lenN (bits_of_bytes own) = lenN (h ++ a)) by now rewrite L.
          rewrite lenN_bits_of_bytes, lenN_app, EH, lenN_bits_of_bytes, LA, lenN_takeN in Z. clear - Z B4. lia. }
        set (out := takeN 4 own ++ N_to_be 4 (cf_time cfg mod 2 ^ 32)).
        assert (LL : lenN out = 8).
        { unfold out. rewrite lenN_app, lenN_takeN, lenN_N_to_be, LO. reflexivity. }
        assert (LY : layout (bd_name tfdt_def) (bd_flds tfdt_def) ctx
                  (update "BaseMediaDecodeTimeV0" (VUint (w32 (cf_time cfg))) x) = Some (bits_of_bytes out)).
        { rewrite tfdt_layout; rewrite version_update by (clear; discriminate); [|exact N5]. fold v0. rewrite V'.
          change (0 =? 0) with true. change (0 =? 1) with false. cbv iota.
          rewrite lookup_update_other by (clear; discriminate).
          rewrite HB. cbn [obind]. rewrite lookup_update_same by (rewrite LK; clear; discriminate). cbn [obind num_bits].
          assert (UF : uint_fits 32 (w32 (cf_time cfg)) = true).
          { clear. unfold uint_fits, w32. change W32 with (2 ^ 32). apply N.ltb_lt. apply N.mod_lt. clear. discriminate. }
          rewrite UF. cbn [obind]. f_equal. unfold out. rewrite bits_of_bytes_app, <- EH, app_nil_r. f_equal.
          rewrite N_to_be_bits. reflexivity. }
        destruct (C06_marshal_layout std_registry (bt "tfdt") ctx tfdt_def _ _ (tfdt_found ctx) LY) as (o & EO & M).
        { rewrite lenN_bits_of_bytes, LL. reflexivity. }
        apply bits_of_bytes_inj in EO. subst o. split; [|now rewrite LL, LO].
        rewrite M, LL, <- Ln, LO. reflexivity.
      + rewrite V' in L. change (1 =? 0) with false in L. change (1 =? 1) with true in L. cbv iota in L.
        rewrite V'. change (1 =? 0) with false. cbv iota.
        cbn [obind] in L.
        destruct (lookup "BaseMediaDecodeTimeV1" x) as [y|] eqn:LK; [|discriminate L]. cbn [obind] in L.
        destruct (num_bits 64 y) as [a|] eqn:NB; [|discriminate L]. cbn [obind] in L.
        apply some_inj in L. cbn [app] in L.
        assert (LA : lenN a = 64).
        { destruct y; try discriminate NB. cbn [num_bits] in NB. destruct (uint_fits 64 n0); [|discriminate NB].
          apply some_inj in NB. rewrite <- NB. apply lenN_uint_bits. }
        assert (EH := HH h a eq_refl (eq_sym L)).
        assert (LO : lenN own = 12).
        { assert (Z : lenN (bits_of_bytes own) = lenN (h ++ a)) by now rewrite L.
          rewrite lenN_bits_of_bytes, lenN_app, EH, lenN_bits_of_bytes, LA, lenN_takeN in Z. clear - Z B4. lia. }
        set (out := takeN 4 own ++ N_to_be 8 (cf_time cfg)).
        assert (LL : lenN out = 12).
        { unfold out. rewrite lenN_app, lenN_takeN, lenN_N_to_be, LO. reflexivity. }
        assert (LY : layout (bd_name tfdt_def) (bd_flds tfdt_def) ctx
                  (update "BaseMediaDecodeTimeV1" (VUint (cf_time cfg)) x) = Some (bits_of_bytes out)).
        { rewrite tfdt_layout; rewrite version_update by (clear; discriminate); [|exact N5]. fold v0. rewrite V'.
          change (1 =? 0) with false. change (1 =? 1) with true. cbv iota.
          rewrite lookup_update_other by (clear; discriminate).
          rewrite HB. cbn [obind]. rewrite lookup_update_same by (rewrite LK; clear; discriminate). cbn [obind num_bits].
          assert (UF : uint_fits 64 (cf_time cfg) = true) by (apply N.ltb_lt; exact time_fits).
          rewrite UF. cbn [obind]. f_equal. unfold out. rewrite bits_of_bytes_app, <- EH. f_equal.
          rewrite N_to_be_bits. reflexivity. }
        destruct (C06_marshal_layout std_registry (bt "tfdt") ctx tfdt_def _ _ (tfdt_found ctx) LY) as (o & EO & M).
        { rewrite lenN_bits_of_bytes, LL. reflexivity. }
        apply bits_of_bytes_inj in EO. subst o. split; [|now rewrite LL, LO].
        rewrite M, LL, <- Ln, LO. reflexivity.
  Qed.
End Payload.
