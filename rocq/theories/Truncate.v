(** Decoding with a smaller payload size: as long as all that was read lies
    within the smaller size, the outcome is the same. *)
From Verif Require Import Base BitIO Schema Structs Methods Registry Marshal Unmarshal SpecCodec
     SpecRoundTrip Decode.
From Verif Require Import BaseProofs BitIOProofs BitIOFacts MarshalProofs MarshalCount UnmarshalProofs
     DecodeFacts VersionFacts Causal RoundTripBase RoundTripProofs.
Local Open Scope string_scope.
Local Open Scope list_scope.
Local Open Scope N_scope.
Local Open Scope dec_scope.
Ltac Zify.zify_post_hook ::= Z.to_euclidean_division_equations.

(** ** The extra fields of avcC
    [room cn fs]: the bits of the fields at the start of [fs] that are present
    whenever HighProfileFieldsEnabled is set *)
Definition high_f : string := "HighProfileFieldsEnabled".
Definition with_high (cn : string) (f : finfo) (t : sty) : bool :=
  (f_version f =? anyVersion) && (f_nVersion f =? anyVersion) && (f_optFlag f =? 0) && (f_nOptFlag f =? 0) &&
  (negb (f_optDyn f) || match m_opt cn (f_name f) with CFieldB j => String.eqb j high_f | _ => false end) &&
  match hook_of cn (f_name f) with HNone => true | _ => false end &&
  match t with SUint _ => negb (f_varint f) && negb (f_sizeDyn f) | _ => false end &&
  negb (String.eqb (f_name f) high_f).
Fixpoint room (cn : string) (fs : flds) : N :=
  match fs with
  | FNil => 0
  | FCons f t r => if with_high cn f t then f_size f + room cn r else 0
  end.
(** [top]: in the box struct itself *)
Fixpoint avc_val (rname : string) (t : sty) : bool :=
  match t with
  | SArr _ u | SSlice u | SPtr u => avc_val rname u
  | SStruct name cfo fs => avc_flds rname false (if cfo then name else rname) fs
  | _ => true
  end
with avc_flds (rname : string) (top : bool) (cn : string) (fs : flds) : bool :=
  match fs with
  | FNil => true
  | FCons f t r =>
      match hook_of cn (f_name f) with
      | HAvcHigh => top && (32 <=? room cn r)
      | _ => true
      end && avc_val rname t && avc_flds rname top cn r
  end.
Lemma std_avc : forallb (fun d => avc_flds (bd_name d) true (bd_name d) (bd_flds d)) all_defs = true.
Proof. vm_compute. reflexivity. Qed.

(** ** Bodies in step *)
Lemma dwhile_stay : forall A B (body : A -> D (A + B)) st,
  (forall a, exists a', body a st = Ok (inl a', st)) -> forall k a, dwhile k body a st = OutOfFuel.
Proof.
  intros A B body st H. induction k as [|k IH]; intros a; [reflexivity|]. cbn [dwhile]. unfold dbind.
  destruct (H a) as [a' E]. rewrite E. apply IH.
Qed.

Section Lim.
  Variables (k : nat) (rname : string) (versions : list N) (ctx : context).

  Lemma string_c_lim : forall lim lim' base, lim' <= lim -> forall n acc p bits v p' bits',
    base <= p -> p' <= base + lim' ->
    dwhile n (fun acc =>
           p <~ dpos ;;
           if lim <=? p - base then dret (inr acc)
           else c <~ d_take 8 ;;
                let b := N2b (bits_to_N c) in
                if b2N b =? 0 then dret (inr acc) else dret (inl (b :: acc))) acc (p, bits) =
      Ok (v : list byte, (p', bits')) ->
    p <= p' /\
    dwhile n (fun acc =>
           p <~ dpos ;;
           if lim' <=? p - base then dret (inr acc)
           else c <~ d_take 8 ;;
                let b := N2b (bits_to_N c) in
                if b2N b =? 0 then dret (inr acc) else dret (inl (b :: acc))) acc (p, bits) = Ok (v, (p', bits')).
  Proof.
    intros lim lim' base HL. induction n as [|n IH]; intros acc p bits v p' bits' B P H; cbn [dwhile] in *; [discriminate|].
    unfold dbind, dpos in H. unfold dbind, dpos. cbn [fst] in *.
    destruct (N.leb_spec lim (p - base)) as [L|L].
    - unfold dret in H. assert (E : v = acc /\ p' = p /\ bits' = bits) by (now injection H as <- <- <-).
      destruct E as (-> & -> & ->). split; [lia|]. destruct (N.leb_spec lim' (p - base)); [reflexivity|lia].
    - destruct (d_take 8 (p, bits)) as [[c [p1 bits1]]| | |] eqn:T; try discriminate.
      assert (Q : p1 = p + 8).
      { unfold d_take in T. cbn [fst snd] in T. destruct (8 <=? lenN bits); [|discriminate]. now injection T. }
      subst p1. cbv zeta in *. destruct (b2N (N2b (bits_to_N c)) =? 0) eqn:Z.
      + unfold dret in H. assert (E : v = acc /\ p' = p + 8 /\ bits' = bits1) by (now injection H as <- <- <-).
        destruct E as (-> & -> & ->). split; [lia|]. destruct (N.leb_spec lim' (p - base)); [lia|].
        rewrite T. cbv zeta. rewrite Z. reflexivity.
      + unfold dret in H. apply IH in H; try lia. destruct H as [H1 H2]. split; [lia|].
        destruct (N.leb_spec lim' (p - base)); [lia|]. rewrite T. cbv zeta. rewrite Z. exact H2.
  Qed.

  Definition TV (t : sty) : Prop := no_cp_val t = true -> avc_val rname t = true ->
    forall rt lim lim' base f size len cur p bits v p' bits', f_cp f = false ->
    base <= p -> lim < 2 ^ 64 -> lim' <= lim -> p' <= base + lim' ->
    dec_val k rname versions ctx rt lim base f size len t cur (p, bits) = Ok (v, (p', bits')) ->
    p <= p' /\
    dec_val k rname versions ctx rt lim' base f size len t cur (p, bits) = Ok (v, (p', bits')).
  Definition TF (fs : flds) : Prop := no_cp_flds fs = true ->
    forall top sname (cfo : bool) rt lim lim' base self p bits v p' bits',
    avc_flds rname top (if cfo then sname else rname) fs = true ->
    (top = true -> cfo = true /\ forall j, In j (names_of fs) -> lookup j self <> None) ->
    base <= p -> lim < 2 ^ 64 -> lim' <= lim -> p' <= base + lim' ->
    dec_flds k rname versions ctx rt lim base sname cfo self fs (p, bits) = Ok (v, (p', bits')) ->
    p <= p' /\
    dec_flds k rname versions ctx rt lim' base sname cfo self fs (p, bits) = Ok (v, (p', bits')).

  (** what is read when HighProfileFieldsEnabled is set *)
  Lemma room_read : forall fs sname rt lim base self p bits v p' bits',
    no_cp_flds fs = true ->
    lookup high_f self = Some (VBool true) ->
    dec_flds k rname versions ctx rt lim base sname true self fs (p, bits) = Ok (v, (p', bits')) ->
    p + room sname fs <= p'.
  Proof.
    induction fs as [|f t rest IH]; intros sname rt lim base self p bits v p' bits' NC Hh H.
    { assert (p' = p) by (now injection H). cbn [room]. lia. }
    assert (M : p <= p').
    { destruct (proj2 (dec_local rname versions ctx) (FCons f t rest) NC rt lim base sname true self k p bits v p' bits' H)
        as (c & _ & -> & _). lia. }
    cbn [room]. destruct (with_high sname f t) eqn:W; [|lia].
    unfold with_high in W.
    apply andb_prop in W. destruct W as [W W8]. apply andb_prop in W. destruct W as [W W7].
    apply andb_prop in W. destruct W as [W W6]. apply andb_prop in W. destruct W as [W W5].
    apply andb_prop in W. destruct W as [W W4]. apply andb_prop in W. destruct W as [W W3].
    apply andb_prop in W. destruct W as [W1 W2].
    destruct t as [w| | | | | | |]; try discriminate. apply andb_prop in W7. destruct W7 as [V7 D7].
    apply negb_true_iff in V7, D7.
    destruct (hook_of sname (f_name f)) eqn:HK; try discriminate. clear W6.
    change (negb (f_cp f) && no_cp_val (SUint w) && no_cp_flds rest = true) in NC.
    apply andb_prop in NC. destruct NC as [_ NC].
    rewrite dec_flds_cons in H. cbv zeta in H.
    set (root := box_of rt self) in *.
    set (env := mkenv self (get_version root) (get_flags root) ctx) in *.
    assert (T : is_target (get_version root) (get_flags root) sname env f = true).
    { rewrite is_target_enabled. unfold enabled, version_allows, flags_allow, option_allows.
      rewrite W1, W2, W3, W4. cbn [orb andb]. rewrite orb_true_r. cbn [andb].
      destruct (f_optDyn f); [|reflexivity]. cbn [negb orb] in W5.
      destruct (m_opt sname (f_name f)); try discriminate. apply String.eqb_eq in W5. subst.
      cbn [ceval]. unfold env. cbn [e_self]. rewrite Hh. reflexivity. }
    rewrite T in H. unfold resolve_size in H. rewrite D7 in H.
    destruct (resolve_len sname env f) as [len|]; [|discriminate].
    unfold dbind in H at 1. unfold dbind in H at 1. unfold dpos in H at 1. rewrite HK in H. cbn [d_hook] in H.
    unfold dbind in H at 1. unfold dret in H at 1.
    destruct (lookup (f_name f) self) as [cur|] eqn:LF; [|discriminate].
    unfold dbind in H at 1. cbn [dec_val is_fullbox andb] in H. rewrite V7 in H.
    destruct (d_uint k w false (f_size f) (p, bits)) as [[x [p1 bits1]]| | |] eqn:E; try discriminate.
    unfold dret in H.
    assert (P1 : p1 = p + f_size f).
    { unfold d_uint in E. destruct (f_size f =? 0); [discriminate|]. unfold dbind, d_take in E. cbn [fst snd] in E.
      destruct (f_size f <=? lenN bits); [|discriminate]. unfold dret in E. now injection E. }
    subst p1. apply IH in H; [lia|exact NC|].
    rewrite lookup_update_other; [exact Hh|]. intros E1. rewrite <- E1, String.eqb_refl in W8. discriminate.
  Qed.

  Lemma mono_val : forall t, no_cp_val t = true -> forall rt lim base f size len cur p bits v p' bits', f_cp f = false ->
    dec_val k rname versions ctx rt lim base f size len t cur (p, bits) = Ok (v, (p', bits')) -> p <= p'.
  Proof.
    intros t NC rt lim base f size len cur p bits v p' bits' CP H.
    destruct (proj1 (dec_local rname versions ctx) t NC rt lim base f size len cur CP k p bits v p' bits' H)
      as (c & _ & -> & _). lia.
  Qed.
  Lemma mono_flds : forall fs, no_cp_flds fs = true -> forall rt lim base sname cfo self p bits v p' bits',
    dec_flds k rname versions ctx rt lim base sname cfo self fs (p, bits) = Ok (v, (p', bits')) -> p <= p'.
  Proof.
    intros fs NC rt lim base sname cfo self p bits v p' bits' H.
    destruct (proj2 (dec_local rname versions ctx) fs NC rt lim base sname cfo self k p bits v p' bits' H)
      as (c & _ & -> & _). lia.
  Qed.

  Lemma map_lim : forall u, TV u -> no_cp_val u = true -> avc_val rname u = true ->
    forall rt lim lim' base f size len, f_cp f = false -> lim < 2 ^ 64 -> lim' <= lim ->
    forall cl p bits v p' bits', base <= p -> p' <= base + lim' ->
    d_map (dec_val k rname versions ctx rt lim base f size len u) cl (p, bits) = Ok (v, (p', bits')) ->
    p <= p' /\
    d_map (dec_val k rname versions ctx rt lim' base f size len u) cl (p, bits) = Ok (v, (p', bits')).
  Proof.
    intros u HV NC AV rt lim lim' base f size len CP L L'.
    induction cl as [|c cl IH]; intros p bits v p' bits' B P H; cbn [d_map] in *.
    - assert (E : p' = p) by (now injection H). split; [lia|exact H].
    - unfold dbind in H.
      destruct (dec_val _ _ _ _ _ _ _ _ _ _ _ c (p, bits)) as [[x [p1 bits1]]| | |] eqn:E1; try discriminate.
      destruct (d_map _ cl (p1, bits1)) as [[xs [p2 bits2]]| | |] eqn:E2; try discriminate.
      assert (E : p2 = p') by (now injection H). subst p2.
      pose proof (mono_val u NC _ _ _ _ _ _ _ _ _ _ _ _ CP E1) as M1.
      assert (M2 : p1 <= p').
      { destruct (local_map (fun k => dec_val k rname versions ctx rt lim base f size len u)
          (fun v => proj1 (dec_local rname versions ctx) u NC rt lim base f size len v CP) cl k p1 bits1 xs p' bits2 E2)
          as (c2 & _ & -> & _). lia. }
      destruct (HV NC AV rt lim lim' base f size len c p bits x p1 bits1) as [_ X1]; auto; try lia.
      destruct (IH p1 bits1 xs p' bits2) as [_ X2]; auto; try lia.
      split; [lia|]. unfold dbind. rewrite X1, X2. exact H.
  Qed.

  Lemma loop_lim : forall u, TV u -> no_cp_val u = true -> avc_val rname u = true ->
    forall rt lim lim' base f size len, f_cp f = false -> lim < 2 ^ 64 -> lim' <= lim ->
    forall n acc p bits v p' bits', base <= p -> p' <= base + lim' ->
    dloop n (elem k rname versions ctx rt lim base f size len u) acc (p, bits) = Ok (v, (p', bits')) ->
    p <= p' /\
    dloop n (elem k rname versions ctx rt lim' base f size len u) acc (p, bits) = Ok (v, (p', bits')).
  Proof.
    intros u HV NC AV rt lim lim' base f size len CP L L'.
    induction n as [|n IH]; intros acc p bits v p' bits' B P H; cbn [dloop] in *.
    - assert (E : p' = p) by (now injection H). split; [lia|exact H].
    - unfold dbind in H.
      destruct (elem _ _ _ _ _ lim _ _ _ _ _ _ _) as [[a [p1 bits1]]| | |] eqn:E1; try discriminate.
      unfold elem, dbind in E1.
      destruct (dec_val _ _ _ _ _ lim _ _ _ _ _ _ _) as [[x [p2 bits2]]| | |] eqn:E2; try discriminate.
      unfold dpos in E1. cbn [fst] in E1. destruct (N.ltb_spec lim (p2 - base)) as [|Q]; [discriminate|].
      assert (E : a = x :: acc /\ p1 = p2 /\ bits1 = bits2) by (now injection E1 as <- <- <-).
      destruct E as (-> & -> & ->). clear E1.
      pose proof (mono_val u NC _ _ _ _ _ _ _ _ _ _ _ _ CP E2) as M1.
      destruct (IH (x :: acc) p2 bits2 v p' bits') as [M2 X2]; auto; try lia.
      destruct (HV NC AV rt lim lim' base f size len (zero u) p bits x p2 bits2) as [_ X1]; auto; try lia.
      split; [lia|]. unfold dbind at 1. unfold elem at 1. unfold dbind at 1. rewrite X1. unfold dbind, dpos. cbn [fst].
      destruct (N.ltb_spec lim' (p2 - base)); [lia|]. exact X2.
  Qed.

  Lemma while_end : forall A (body : list A -> D (list A)) lim base n acc p bits v p' bits',
    dwhile n (fun acc => p <~ dpos ;;
                if lim <=? p - base then dret (inr acc)
                else acc' <~ body acc ;; dret (inl acc')) acc (p, bits) = Ok (v, (p', bits')) ->
    lim <= p' - base.
  Proof.
    intros A body lim base. induction n as [|n IH]; intros acc p bits v p' bits' H; cbn [dwhile] in H; [discriminate|].
    unfold dbind, dpos in H. cbn [fst] in H. destruct (N.leb_spec lim (p - base)) as [L|L].
    - unfold dret in H. assert (E : p' = p) by (now injection H). subst. exact L.
    - destruct (body acc (p, bits)) as [[a [p1 bits1]]| | |]; try discriminate. unfold dret in H. eauto.
  Qed.

  (** an unlimited list extends to the end *)
  Lemma slice_end : forall u, no_cp_val u = true ->
    forall rt lim base f size len cur p bits v p' bits', f_cp f = false ->
    base <= p -> lim < 2 ^ 64 -> p' <= base + lim -> len = LengthUnlimited ->
    dec_val k rname versions ctx rt lim base f size len (SSlice u) cur (p, bits) = Ok (v, (p', bits')) ->
    p' = base + lim.
  Proof.
    intros u NC rt lim base f size len cur p bits v p' bits' CP B L P U H.
    pose proof (mono_val (SSlice u) NC _ _ _ _ _ _ _ _ _ _ _ _ CP H) as M.
    rewrite dec_slice_eq in H. unfold dbind in H at 1. unfold dpos in H at 1. cbn [fst] in H. cbv zeta in H.
    rewrite sub64_sub in H by lia. rewrite U in H. rewrite N.eqb_refl in H. cbn [andb] in H.
    destruct (N.eqb_spec size 0) as [S0|S0]; cbn [negb andb] in H.
    2: destruct (N.eqb_spec ((lim - (p - base)) mod size) 0) as [MZ|]; cbn [negb] in H; [|discriminate].
    - subst size. rewrite andb_false_r in H. unfold dbind in H at 1.
      match type of H with match ?m with _ => _ end = _ =>
        destruct m as [[xs [p1 bits1]]| | |] eqn:E; try discriminate end.
      apply while_end in E. unfold dret in H. assert (p' = p1) by (now injection H). subst p1. lia.
    - destruct (((p - base) mod 8 =? 0) && is_u8 u && (size =? 8)) eqn:U8.
      + apply andb_prop in U8. destruct U8 as [_ S8]. apply N.eqb_eq in S8. subst size.
        set (total := w64 _ / 8) in H. unfold dbind, d_has in H.
        match type of H with (if negb ?c then _ else _) _ = _ => destruct c; [cbn [negb] in H|discriminate] end.
        destruct (N.leb_spec maxAlloc total) as [|TM]; [discriminate|].
        destruct (d_bytes total (p, bits)) as [[bs [p1 bits1]]| | |] eqn:E; try discriminate.
        unfold dret in H. assert (p' = p1) by (now injection H). subst p1.
        assert (TT : total * 8 = lim - (p - base)).
        { unfold total, w64, W64. change (2 ^ 64) with 18446744073709551616 in L. lia. }
        unfold d_bytes in E. cbn [fst snd] in E. destruct (p mod 8 =? 0).
        * destruct (8 * total <=? lenN bits); [|destruct (lenN bits =? 0); discriminate].
          assert (p' = p + 8 * total) by (now injection E). lia.
        * destruct (N.eqb_spec total 0) as [T0|]; [|discriminate]. assert (p' = p) by (now injection E). lia.
      + unfold dbind in H at 1.
        match type of H with match ?m with _ => _ end = _ =>
          destruct m as [[xs [p1 bits1]]| | |] eqn:E; try discriminate end.
        apply while_end in E. unfold dret in H. assert (p' = p1) by (now injection H). subst p1. lia.
  Qed.

  Lemma t_slice : forall u, TV u -> TV (SSlice u).
  Proof.
    intros u HV NC AV rt lim lim' base f size len cur p bits v p' bits' CP B L L' P H.
    pose proof (mono_val (SSlice u) NC _ _ _ _ _ _ _ _ _ _ _ _ CP H) as M. split; [exact M|].
    destruct (N.eqb_spec len LengthUnlimited) as [U|U].
    { assert (E : p' = base + lim).
      { apply (slice_end u NC rt lim base f size len cur p bits v p' bits' CP B L); auto. lia. }
      assert (lim' = lim) by lia. subst lim'. exact H. }
    rewrite dec_slice_eq in H |- *. unfold dbind in H at 1. unfold dpos in H at 1. cbn [fst] in H. cbv zeta in H.
    unfold dbind at 1. unfold dpos at 1. cbn [fst]. cbv zeta.
    apply N.eqb_neq in U. rewrite U in H |- *. cbn [andb] in H |- *.
    destruct (_ && is_u8 u && (size =? 8)); [exact H|].
    unfold dbind in H at 1. unfold dbind at 1.
    destruct (dloop (N.to_nat len) (elem k rname versions ctx rt lim base f size len u) [] (p, bits))
      as [[xs [p1 bits1]]| | |] eqn:E; try discriminate.
    unfold dret in H. assert (p' = p1) by (now injection H). subst p1.
    destruct (loop_lim u HV NC AV rt lim lim' base f size len CP L L' _ _ _ _ _ _ _ B P E) as [_ X]. rewrite X. exact H.
  Qed.

  Lemma hook_lim : forall h ver self left left' p bits b self1 p' bits', h <> HAvcHigh ->
    left' <= left -> p' <= p + left' ->
    d_hook k h ver self left (p, bits) = Ok ((b, self1), (p', bits')) ->
    d_hook k h ver self left' (p, bits) = Ok ((b, self1), (p', bits')).
  Proof.
    intros h ver self left left' p bits b self1 p' bits' NA L P H. destruct h; try contradiction; cbn [d_hook] in *; auto.
    cbv zeta in *. destruct (N.eqb_spec (left / 8) 0) as [Z|Z].
    { destruct (N.eqb_spec (left' / 8) 0); [exact H|lia]. }
    unfold dbind in H at 1. unfold d_has in H at 1. unfold dbind at 1. unfold d_has at 1.
    enough (E : left' / 8 = left / 8).
    { rewrite E. destruct (N.eqb_spec (left / 8) 0); [lia|]. unfold dbind, d_has. exact H. }
    assert (Q : p' = p + 8 * (left / 8)); [|lia].
    match type of H with (if negb ?c then _ else _) _ = _ => destruct c; [cbn [negb] in H|discriminate] end.
    destruct (maxAlloc <=? left / 8); [discriminate|]. unfold dbind in H.
    destruct (d_bytes (left / 8) (p, bits)) as [[bs [p1 bits1]]| | |] eqn:E; try discriminate.
    assert (p' = p1). { destruct bs; [discriminate|]. unfold dret in H. now injection H. }
    subst p1. unfold d_bytes in E. cbn [fst snd] in E. destruct (p mod 8 =? 0).
    - destruct (8 * (left / 8) <=? lenN bits); [|destruct (lenN bits =? 0); discriminate]. now injection E.
    - destruct (N.eqb_spec (left / 8) 0); [contradiction|discriminate].
  Qed.
  Lemma hook_mono : forall h ver self left p bits b self1 p' bits',
    d_hook k h ver self left (p, bits) = Ok ((b, self1), (p', bits')) -> p <= p'.
  Proof.
    intros h ver self left p bits b self1 p' bits' H. destruct (local_hook h ver self left k p bits _ p' bits' H) as (c & _ & -> & _). lia.
  Qed.
  Lemma hook_keys : forall h ver self left st b self1 st',
    d_hook k h ver self left st = Ok ((b, self1), st') -> map fst self1 = map fst self.
  Proof.
    intros h ver self left st b self1 st' H. destruct h; cbn [d_hook] in H.
    - unfold dret in H. now injection H as <- <- <-.
    - unfold dret in H. now injection H as <- <- <-.
    - destruct (ver =? 0); [unfold dret in H; now injection H as <- <- <-|]. unfold dbind in H.
      destruct (d_zstring k st) as [[a st1]| | |]; try discriminate.
      destruct (d_zstring k st1) as [[a2 st2]| | |]; try discriminate. unfold dret in H.
      assert (E : self1 = update "Value" (VStr a2) (update "SchemeIdUri" (VStr a) self)) by (now injection H).
      subst self1. now rewrite !keys_update.
    - cbv zeta in H. destruct (left / 8 =? 0).
      { unfold dret in H. assert (E : self1 = update "Name" (VStr []) self) by (now injection H). subst. apply keys_update. }
      unfold dbind in H at 1. destruct (d_has (left / 8) st) as [[ok st1]| | |]; try discriminate.
      destruct (negb ok); [discriminate|]. destruct (maxAlloc <=? left / 8); [discriminate|]. unfold dbind in H.
      destruct (d_bytes (left / 8) st1) as [[[|b0 bs] st2]| | |]; try discriminate. unfold dret in H.
      match type of H with Ok (true, ?u, _) = _ => assert (E : self1 = u) by (now injection H) end. subst. apply keys_update.
    - unfold dret in H. match type of H with Ok (true, ?u, _) = _ => assert (E : self1 = u) by (now injection H) end.
      subst. apply keys_update.
  Qed.

  Lemma t_all : (forall t, TV t) /\ (forall fs, TF fs).
  Proof.
    apply sty_flds_mutind.
    - intros w NC AV rt lim lim' base f size len cur p bits v p' bits' CP B L L' P H.
      split; [exact (mono_val (SUint w) NC _ _ _ _ _ _ _ _ _ _ _ _ CP H)|exact H].
    - intros w NC AV rt lim lim' base f size len cur p bits v p' bits' CP B L L' P H.
      split; [exact (mono_val (SInt w) NC _ _ _ _ _ _ _ _ _ _ _ _ CP H)|exact H].
    - intros NC AV rt lim lim' base f size len cur p bits v p' bits' CP B L L' P H.
      split; [exact (mono_val SBool NC _ _ _ _ _ _ _ _ _ _ _ _ CP H)|exact H].
    - intros NC AV rt lim lim' base f size len cur p bits v p' bits' CP B L L' P H.
      cbn [dec_val] in *. unfold d_string in *. rewrite CP in *. unfold d_string_c, dbind in *.
      match type of H with match ?m with _ => _ end = _ => destruct m as [[xs [p1 bits1]]| | |] eqn:E; try discriminate end.
      unfold dret in H. assert (p' = p1) by (now injection H). subst p1.
      apply (string_c_lim lim lim' base L' k [] p bits xs p' bits1 B P) in E. destruct E as [E1 E2].
      split; [exact E1|]. unfold dbind in E2. rewrite E2. exact H.
    - intros n u HV NC AV rt lim lim' base f size len cur p bits v p' bits' CP B L L' P H.
      cbn [dec_val no_cp_val avc_val] in *. destruct cur; try discriminate. unfold dbind in *.
      destruct (d_map _ l (p, bits)) as [[xs [p1 bits1]]| | |] eqn:E; try discriminate.
      unfold dret in H. assert (p' = p1) by (now injection H). subst p1.
      destruct (map_lim u HV NC AV rt lim lim' base f size len CP L L' l p bits xs p' bits1 B P E) as [E1 E2].
      split; [exact E1|]. rewrite E2. exact H.
    - exact t_slice.
    - intros u HV NC AV rt lim lim' base f size len cur p bits v p' bits' CP B L L' P H.
      cbn [dec_val no_cp_val avc_val] in *. unfold dbind in *.
      destruct (dec_val _ _ _ _ _ lim _ _ _ _ _ _ _) as [[x [p1 bits1]]| | |] eqn:E; try discriminate.
      unfold dret in H. assert (p' = p1) by (now injection H). subst p1.
      destruct (HV NC AV rt lim lim' base f size len _ _ _ _ _ _ CP B L L' P E) as [E1 E2].
      split; [exact E1|]. rewrite E2. exact H.
    - intros name cfo fs HF NC AV rt lim lim' base f size len cur p bits v p' bits' CP B L L' P H.
      pose proof (mono_val (SStruct name cfo fs) NC _ _ _ _ _ _ _ _ _ _ _ _ CP H) as M. split; [exact M|].
      destruct cur as [| | | | | |l]; try discriminate. rewrite dec_val_struct in H |- *.
      destruct (negb (size =? 0) && (size mod 8 =? 0)); [exact H|].
      unfold dbind in *.
      destruct (dec_flds _ _ _ _ _ lim _ _ _ _ _ _) as [[x [p1 bits1]]| | |] eqn:E; try discriminate.
      unfold dret in H. assert (p' = p1) by (now injection H). subst p1.
      change (avc_flds rname false (if cfo then name else rname) fs = true) in AV.
      destruct (HF NC false name cfo (Some rt) lim lim' base l p bits x p' bits1 AV) as [E1 E2]; auto; try discriminate.
      rewrite E2. exact H.
    - intros _ top sname cfo rt lim lim' base self p bits v p' bits' AV KY B L L' P H.
      split; [|exact H]. assert (p' = p) by (now injection H). lia.
    - intros f t HV rest HF NC top sname cfo rt lim lim' base self p bits v p' bits' AV KY B L L' P H.
      change (negb (f_cp f) && no_cp_val t && no_cp_flds rest = true) in NC.
      pose proof (mono_flds (FCons f t rest) NC _ _ _ _ _ _ _ _ _ _ _ H) as M. split; [exact M|].
      apply andb_prop in NC. destruct NC as [NC NCr]. apply andb_prop in NC. destruct NC as [CP NCt].
      apply negb_true_iff in CP.
      set (cn := if cfo then sname else rname) in *.
      change (match hook_of cn (f_name f) with HAvcHigh => top && (32 <=? room cn rest) | _ => true end &&
              avc_val rname t && avc_flds rname top cn rest = true) in AV.
      apply andb_prop in AV. destruct AV as [AV AVr]. apply andb_prop in AV. destruct AV as [AVh AVt].
      rewrite dec_flds_cons in H |- *. cbv zeta in H |- *.
      fold cn in H |- *. set (root := box_of rt self) in *.
      set (env := if cfo then mkenv self (get_version root) (get_flags root) ctx
                  else mkenv root (get_version root) (get_flags root) ctx) in *.
      destruct (resolve_size cn env f) as [size|]; [|discriminate].
      destruct (resolve_len cn env f) as [len|]; [|discriminate].
      (* what follows *)
      assert (CONT : forall s2 p1 bits1, map fst s2 = map fst self -> base <= p1 ->
        dec_flds k rname versions ctx rt lim base sname cfo s2 rest (p1, bits1) = Ok (v, (p', bits')) ->
        p1 <= p' /\ dec_flds k rname versions ctx rt lim' base sname cfo s2 rest (p1, bits1) = Ok (v, (p', bits'))).
      { intros s2 p1 bits1 K2 B1 Hd.
        apply (HF NCr top sname cfo rt lim lim' base s2 p1 bits1 v p' bits'); auto.
        intros Ht. destruct (KY Ht) as [K1 K3]. split; [exact K1|]. intros j Hj E.
        assert (I : In j (map fst self)).
        { destruct (in_dec string_dec j (map fst self)) as [I|I]; [exact I|].
          elim (K3 j); [now right|]. now apply lookup_None. }
        rewrite <- K2 in I. revert E. now apply lookup_In. }
      unfold dbind in H at 1. unfold dbind at 1.
      destruct (is_target (get_version root) (get_flags root) cn env f).
      2:{ unfold dret in *. apply CONT in H; auto. apply H. }
      unfold dbind in H at 1. unfold dpos in H at 1. cbn [fst] in H.
      unfold dbind at 1. unfold dpos at 1. cbn [fst].
      unfold dbind in H at 1. unfold dbind at 1.
      destruct (d_hook k (hook_of cn (f_name f)) (get_version root) self (sub64 lim (p - base)) (p, bits))
        as [[[b self1] [p1 bits1]]| | |] eqn:EH; try discriminate.
      pose proof (hook_mono _ _ _ _ _ _ _ _ _ _ EH) as MH.
      pose proof (hook_keys _ _ _ _ _ _ _ _ EH) as KH.
      (* the rest of the step *)
      assert (STEP : forall b self1 p1 bits1, map fst self1 = map fst self -> base <= p1 ->
        match (if b : bool then dret self1
               else match lookup (f_name f) self1 with
                    | None => dpanic
                    | Some cur =>
                        x <~ dec_val k rname versions ctx (box_of rt self1) lim base f size len t cur ;;
                        (if is_fullbox t && negb (version_in versions (get_version (box_of rt (update (f_name f) x self1))))
                         then dfail EUnsupportedVersion
                         else dret (update (f_name f) x self1))
                    end) (p1, bits1) with
        | Ok (a, st1) => dec_flds k rname versions ctx rt lim base sname cfo a rest st1
        | Err e => Err e | Panic => Panic | OutOfFuel => OutOfFuel end = Ok (v, (p', bits')) ->
        p1 <= p' /\
        match (if b then dret self1
               else match lookup (f_name f) self1 with
                    | None => dpanic
                    | Some cur =>
                        x <~ dec_val k rname versions ctx (box_of rt self1) lim' base f size len t cur ;;
                        (if is_fullbox t && negb (version_in versions (get_version (box_of rt (update (f_name f) x self1))))
                         then dfail EUnsupportedVersion
                         else dret (update (f_name f) x self1))
                    end) (p1, bits1) with
        | Ok (a, st1) => dec_flds k rname versions ctx rt lim' base sname cfo a rest st1
        | Err e => Err e | Panic => Panic | OutOfFuel => OutOfFuel end = Ok (v, (p', bits'))).
      { clear EH MH KH H b self1 p1 bits1. intros b self1 p1 bits1 K1 B1 H. destruct b.
        - unfold dret in *. apply CONT in H; auto.
        - destruct (lookup (f_name f) self1) as [cur|]; [|discriminate]. unfold dbind in *.
          destruct (dec_val k rname versions ctx (box_of rt self1) lim base f size len t cur (p1, bits1))
            as [[x [p2 bits2]]| | |] eqn:E; try discriminate.
          pose proof (mono_val t NCt _ _ _ _ _ _ _ _ _ _ _ _ CP E) as M2.
          destruct (is_fullbox t && _) eqn:FB; [discriminate|]. unfold dret in H.
          apply CONT in H; [|rewrite keys_update; exact K1|lia]. destruct H as [H1 H2].
          destruct (HV NCt AVt (box_of rt self1) lim lim' base f size len cur p1 bits1 x p2 bits2) as [_ X]; auto; try lia.
          split; [lia|]. rewrite X, FB. unfold dret. exact H2. }
      destruct (STEP b self1 p1 bits1 KH ltac:(lia) H) as [MR X].
      rewrite sub64_sub in EH by lia. rewrite (sub64_sub lim') by lia.
      destruct (hook_of cn (f_name f)) eqn:HK.
      1-4: rewrite (hook_lim _ _ _ (lim - (p - base)) (lim' - (p - base)) _ _ b self1 p1 bits1);
           [exact X|discriminate|lia|lia|exact EH].
      apply andb_prop in AVh. destruct AVh as [Ht Hr]. subst top. apply N.leb_le in Hr.
      destruct (KY eq_refl) as [-> K3]. unfold cn in *. clear cn.
      pose proof (hook_avc _ _ HK) as HN. fold high_f in HN.
      cbn [d_hook] in EH |- *. unfold dret in EH |- * at 1.
      match type of EH with Ok (true, update _ ?h0 _, _) = _ => set (hv := h0) in * end.
      assert (Q : b = true /\ self1 = update high_f hv self /\ p1 = p /\ bits1 = bits) by (now injection EH as <- <- <- <-).
      destruct Q as (-> & -> & -> & ->).
      enough (EQ : VBool ((32 <=? lim' - (p - base)) && high_profile (as_uint (lookup "Profile" self))) = hv).
      { rewrite EQ. exact X. }
      unfold hv in *. f_equal. destruct (high_profile _) eqn:HP; [|now rewrite !andb_false_r].
      rewrite !andb_true_r. destruct (N.leb_spec 32 (lim - (p - base))) as [Q|Q].
      + unfold dret in H at 1. apply room_read in H; [|exact NCr|].
        * destruct (N.leb_spec 32 (lim' - (p - base))); [reflexivity|lia].
        * apply lookup_update_same. rewrite <- HN. apply K3. now left.
      + destruct (N.leb_spec 32 (lim' - (p - base))); [lia|reflexivity].
  Qed.
End Lim.

(** The whole payload: [n] bytes are read of [size] announced ones; announcing
    any number between the two, on a stream that begins with the bits read, gives
    the same. *)
Lemma decode_truncate : forall k k' d size size' ctx bits x n r,
  no_cp_flds (bd_flds d) = true -> avc_flds (bd_name d) true (bd_name d) (bd_flds d) = true ->
  bd_name d <> "Meta" ->
  (forall j, In j (names_of (bd_flds d)) -> lookup j (set_version anyVersion (zero_flds (bd_flds d))) <> None) ->
  decode k d size ctx (zero_flds (bd_flds d)) bits = Ok (x, n) ->
  n <= size' -> size' * 8 <= w64 (size * 8) -> (List.length (takeN (8 * n) bits) < k')%nat ->
  decode k' d size' ctx (zero_flds (bd_flds d)) (takeN (8 * n) bits ++ r) = Ok (x, n).
Proof.
  intros k k' d size size' ctx bits x n r NC AV NM KY H Hn Hs HK.
  unfold decode in *. set (z := set_version anyVersion (zero_flds (bd_flds d))) in *.
  unfold d_before in *. apply String.eqb_neq in NM. rewrite NM in *.
  destruct (dec_flds _ _ _ _ _ _ _ _ _ _ _ (0, bits)) as [[y [p r0]]| | |] eqn:E; try discriminate.
  destruct (N.eqb_spec (p mod 8) 0) as [P8|]; [|discriminate]. cbn [negb] in H.
  destruct (N.ltb_spec (w64 (size * 8)) p) as [|Q]; [discriminate|].
  assert (X : y = x /\ p / 8 = n) by (now injection H as <- <-). destruct X as [-> <-]. clear H.
  assert (W : w64 (size * 8) < 2 ^ 64).
  { unfold w64, W64. change (2 ^ 64) with 18446744073709551616. lia. }
  assert (W' : w64 (size' * 8) = size' * 8).
  { unfold w64, W64 in *. change (2 ^ 64) with 18446744073709551616 in W. rewrite N.mod_small; lia. }
  destruct (proj2 (t_all k (bd_name d) (bd_versions d) ctx) (bd_flds d) NC true (bd_name d) true None
              (w64 (size * 8)) (w64 (size' * 8)) 0 z 0 bits x p r0) as [_ T]; auto; try lia.
  destruct (proj2 (dec_local (bd_name d) (bd_versions d) ctx) (bd_flds d) NC None (w64 (size' * 8)) 0 (bd_name d) true z
              k 0 bits x p r0 T) as (c & E1 & E2 & E3).
  rewrite N.add_0_l in E2.
  assert (EC : takeN (8 * (p / 8)) bits = c).
  { replace (8 * (p / 8)) with (lenN c) by lia. rewrite E1. apply takeN_app_exact. reflexivity. }
  rewrite EC in *. rewrite E3 by exact HK. rewrite P8. cbn [N.eqb negb].
  destruct (N.ltb_spec (w64 (size' * 8)) p); [lia|reflexivity].
Qed.
