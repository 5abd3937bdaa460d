(** Decoding with another payload size: as long as the announced end is more than
    four bytes away from what was read, the outcome does not depend on it. *)
From Verif Require Import Base BitIO Schema Structs Methods Registry Marshal Unmarshal SpecCodec
     SpecRoundTrip Decode.
From Verif Require Import BaseProofs BitIOProofs BitIOFacts MarshalProofs MarshalCount UnmarshalProofs
     DecodeFacts VersionFacts Causal RoundTripBase RoundTripProofs RoundTripMeta Truncate.
Local Open Scope string_scope.
Local Open Scope list_scope.
Local Open Scope N_scope.
Local Open Scope dec_scope.
Ltac Zify.zify_post_hook ::= Z.to_euclidean_division_equations.

Section Far.
  Variables (k : nat) (rname : string) (versions : list N) (ctx : context).

  Lemma string_c_far : forall lim lim' base n acc p bits v p' bits',
    base <= p -> p' + 32 <= base + lim -> p' + 32 <= base + lim' ->
    dwhile n (fun acc =>
           p <~ dpos ;;
           if lim <=? p - base then dret (inr acc)
           else c <~ d_take 8 ;;
                let b := N2b (bits_to_N c) in
                if b2N b =? 0 then dret (inr acc) else dret (inl (b :: acc))) acc (p, bits) =
      Ok (v : list byte, (p', bits')) ->
    p <= p' /\
    dwhile n (fun acc =>
           p <~ dpos ;;
           if lim' <=? p - base then dret (inr acc)
           else c <~ d_take 8 ;;
                let b := N2b (bits_to_N c) in
                if b2N b =? 0 then dret (inr acc) else dret (inl (b :: acc))) acc (p, bits) = Ok (v, (p', bits')).
  Proof.
    intros lim lim' base. induction n as [|n IH]; intros acc p bits v p' bits' B P P2 H; cbn [dwhile] in *; [discriminate|].
    unfold dbind, dpos in H. unfold dbind, dpos. cbn [fst] in *.
    destruct (N.leb_spec lim (p - base)) as [L|L].
    - unfold dret in H. assert (E : p' = p) by (now injection H). lia.
    - destruct (d_take 8 (p, bits)) as [[c [p1 bits1]]| | |] eqn:T; try discriminate.
      assert (Q : p1 = p + 8).
      { unfold d_take in T. cbn [fst snd] in T. destruct (8 <=? lenN bits); [|discriminate]. now injection T. }
      subst p1. cbv zeta in *. destruct (b2N (N2b (bits_to_N c)) =? 0) eqn:Z.
      + unfold dret in H. assert (E : v = acc /\ p' = p + 8 /\ bits' = bits1) by (now injection H as <- <- <-).
        destruct E as (-> & -> & ->). split; [lia|]. destruct (N.leb_spec lim' (p - base)); [lia|].
        rewrite T. cbv zeta. rewrite Z. reflexivity.
      + unfold dret in H. apply IH in H; try lia. destruct H as [H1 H2]. split; [lia|].
        destruct (N.leb_spec lim' (p - base)); [lia|]. rewrite T. cbv zeta. rewrite Z. exact H2.
  Qed.

  Definition EV (t : sty) : Prop := no_cp_val t = true ->
    forall rt lim lim' base f size len cur p bits v p' bits', f_cp f = false ->
    base <= p -> lim < 2 ^ 64 -> lim' < 2 ^ 64 -> p' + 32 <= base + lim -> p' + 32 <= base + lim' ->
    dec_val k rname versions ctx rt lim base f size len t cur (p, bits) = Ok (v, (p', bits')) ->
    dec_val k rname versions ctx rt lim' base f size len t cur (p, bits) = Ok (v, (p', bits')).
  Definition EF (fs : flds) : Prop := no_cp_flds fs = true ->
    forall sname (cfo : bool) rt lim lim' base self p bits v p' bits',
    base <= p -> lim < 2 ^ 64 -> lim' < 2 ^ 64 -> p' + 32 <= base + lim -> p' + 32 <= base + lim' ->
    dec_flds k rname versions ctx rt lim base sname cfo self fs (p, bits) = Ok (v, (p', bits')) ->
    dec_flds k rname versions ctx rt lim' base sname cfo self fs (p, bits) = Ok (v, (p', bits')).

  Lemma map_far : forall u, EV u -> no_cp_val u = true ->
    forall rt lim lim' base f size len, f_cp f = false -> lim < 2 ^ 64 -> lim' < 2 ^ 64 ->
    forall cl p bits v p' bits', base <= p -> p' + 32 <= base + lim -> p' + 32 <= base + lim' ->
    d_map (dec_val k rname versions ctx rt lim base f size len u) cl (p, bits) = Ok (v, (p', bits')) ->
    d_map (dec_val k rname versions ctx rt lim' base f size len u) cl (p, bits) = Ok (v, (p', bits')).
  Proof.
    intros u HV NC rt lim lim' base f size len CP L L'.
    induction cl as [|c cl IH]; intros p bits v p' bits' B P P2 H; cbn [d_map] in *; [exact H|].
    unfold dbind in H.
    destruct (dec_val _ _ _ _ _ _ _ _ _ _ _ c (p, bits)) as [[x [p1 bits1]]| | |] eqn:E1; try discriminate.
    destruct (d_map _ cl (p1, bits1)) as [[xs [p2 bits2]]| | |] eqn:E2; try discriminate.
    assert (E : p2 = p') by (now injection H). subst p2.
    pose proof (mono_val k rname versions ctx u NC _ _ _ _ _ _ _ _ _ _ _ _ CP E1) as M1.
    assert (M2 : p1 <= p').
    { destruct (local_map (fun k => dec_val k rname versions ctx rt lim base f size len u)
        (fun v => proj1 (dec_local rname versions ctx) u NC rt lim base f size len v CP) cl k p1 bits1 xs p' bits2 E2)
        as (c2 & _ & -> & _). lia. }
    pose proof (HV NC rt lim lim' base f size len c p bits x p1 bits1 CP B L L' ltac:(lia) ltac:(lia) E1) as X1.
    pose proof (IH p1 bits1 xs p' bits2 ltac:(lia) P P2 E2) as X2.
    unfold dbind. rewrite X1, X2. exact H.
  Qed.

  Lemma loop_far : forall u, EV u -> no_cp_val u = true ->
    forall rt lim lim' base f size len, f_cp f = false -> lim < 2 ^ 64 -> lim' < 2 ^ 64 ->
    forall n acc p bits v p' bits', base <= p -> p' + 32 <= base + lim -> p' + 32 <= base + lim' ->
    dloop n (elem k rname versions ctx rt lim base f size len u) acc (p, bits) = Ok (v, (p', bits')) ->
    p <= p' /\
    dloop n (elem k rname versions ctx rt lim' base f size len u) acc (p, bits) = Ok (v, (p', bits')).
  Proof.
    intros u HV NC rt lim lim' base f size len CP L L'.
    induction n as [|n IH]; intros acc p bits v p' bits' B P P2 H; cbn [dloop] in *.
    - assert (E : p' = p) by (now injection H). split; [lia|exact H].
    - unfold dbind in H.
      destruct (elem _ _ _ _ _ lim _ _ _ _ _ _ _) as [[a [p1 bits1]]| | |] eqn:E1; try discriminate.
      unfold elem, dbind in E1.
      destruct (dec_val _ _ _ _ _ lim _ _ _ _ _ _ _) as [[x [p2 bits2]]| | |] eqn:E2; try discriminate.
      unfold dpos in E1. cbn [fst] in E1. destruct (N.ltb_spec lim (p2 - base)) as [|Q]; [discriminate|].
      assert (E : a = x :: acc /\ p1 = p2 /\ bits1 = bits2) by (now injection E1 as <- <- <-).
      destruct E as (-> & -> & ->). clear E1.
      pose proof (mono_val k rname versions ctx u NC _ _ _ _ _ _ _ _ _ _ _ _ CP E2) as M1.
      destruct (IH (x :: acc) p2 bits2 v p' bits') as [M2 X2]; auto; try lia.
      pose proof (HV NC rt lim lim' base f size len (zero u) p bits x p2 bits2 CP B L L' ltac:(lia) ltac:(lia) E2) as X1.
      split; [lia|]. unfold dbind at 1. unfold elem at 1. unfold dbind at 1. rewrite X1. unfold dbind, dpos. cbn [fst].
      destruct (N.ltb_spec lim' (p2 - base)); [lia|]. exact X2.
  Qed.

  Lemma e_slice : forall u, EV u -> EV (SSlice u).
  Proof.
    intros u HV NC rt lim lim' base f size len cur p bits v p' bits' CP B L L' P P2 H.
    destruct (N.eqb_spec len LengthUnlimited) as [U|U].
    { assert (E : p' = base + lim).
      { apply (slice_end k rname versions ctx u NC rt lim base f size len cur p bits v p' bits' CP B L); auto. lia. }
      lia. }
    rewrite dec_slice_eq in H |- *. unfold dbind in H at 1. unfold dpos in H at 1. cbn [fst] in H. cbv zeta in H.
    unfold dbind at 1. unfold dpos at 1. cbn [fst]. cbv zeta.
    apply N.eqb_neq in U. rewrite U in H |- *. cbn [andb] in H |- *.
    destruct (_ && is_u8 u && (size =? 8)); [exact H|].
    unfold dbind in H at 1. unfold dbind at 1.
    destruct (dloop (N.to_nat len) (elem k rname versions ctx rt lim base f size len u) [] (p, bits))
      as [[xs [p1 bits1]]| | |] eqn:E; try discriminate.
    unfold dret in H. assert (p' = p1) by (now injection H). subst p1.
    destruct (loop_far u HV NC rt lim lim' base f size len CP L L' _ _ _ _ _ _ _ B P P2 E) as [_ X]. rewrite X. exact H.
  Qed.

  Lemma hook_far : forall h ver self left left' p bits b self1 p' bits',
    p' + 32 <= p + left -> p' + 32 <= p + left' ->
    d_hook k h ver self left (p, bits) = Ok ((b, self1), (p', bits')) ->
    d_hook k h ver self left' (p, bits) = Ok ((b, self1), (p', bits')).
  Proof.
    intros h ver self left left' p bits b self1 p' bits' P P2 H.
    pose proof (hook_mono _ _ _ _ _ _ _ _ _ _ _ H) as M.
    destruct h; cbn [d_hook] in *; auto.
    - cbv zeta in H. destruct (N.eqb_spec (left / 8) 0) as [Z|Z]; [clear - P M Z; lia|].
      unfold dbind in H at 1. unfold d_has in H at 1.
      match type of H with (if negb ?c then _ else _) _ = _ => destruct c; [cbn [negb] in H|discriminate] end.
      destruct (maxAlloc <=? left / 8); [discriminate|]. unfold dbind in H.
      destruct (d_bytes (left / 8) (p, bits)) as [[bs [p1 bits1]]| | |] eqn:E; try discriminate.
      assert (p' = p1). { destruct bs; [discriminate|]. unfold dret in H. now injection H. }
      subst p1. unfold d_bytes in E. cbn [fst snd] in E. destruct (p mod 8 =? 0).
      + destruct (8 * (left / 8) <=? lenN bits); [|destruct (lenN bits =? 0); discriminate].
        assert (Q : p' = p + 8 * (left / 8)) by (now injection E). clear - P Q. lia.
      + destruct (N.eqb_spec (left / 8) 0); [contradiction|discriminate].
    - rewrite <- H. unfold dret. do 4 f_equal. f_equal. f_equal.
      destruct (N.leb_spec 32 left'), (N.leb_spec 32 left); try reflexivity; clear - P P2 M H0 H1; lia.
  Qed.

  Lemma e_all : (forall t, EV t) /\ (forall fs, EF fs).
  Proof.
    apply sty_flds_mutind.
    - intros w NC rt lim lim' base f size len cur p bits v p' bits' CP B L L' P P2 H. exact H.
    - intros w NC rt lim lim' base f size len cur p bits v p' bits' CP B L L' P P2 H. exact H.
    - intros NC rt lim lim' base f size len cur p bits v p' bits' CP B L L' P P2 H. exact H.
    - intros NC rt lim lim' base f size len cur p bits v p' bits' CP B L L' P P2 H.
      cbn [dec_val] in *. unfold d_string in *. rewrite CP in *. unfold d_string_c, dbind in *.
      match type of H with match ?m with _ => _ end = _ => destruct m as [[xs [p1 bits1]]| | |] eqn:E; try discriminate end.
      unfold dret in H. assert (p' = p1) by (now injection H). subst p1.
      apply (string_c_far lim lim' base k [] p bits xs p' bits1 B P P2) in E. destruct E as [_ E2].
      unfold dbind in E2. rewrite E2. exact H.
    - intros n u HV NC rt lim lim' base f size len cur p bits v p' bits' CP B L L' P P2 H.
      cbn [dec_val no_cp_val] in *. destruct cur; try discriminate. unfold dbind in *.
      destruct (d_map _ l (p, bits)) as [[xs [p1 bits1]]| | |] eqn:E; try discriminate.
      unfold dret in H. assert (p' = p1) by (now injection H). subst p1.
      rewrite (map_far u HV NC rt lim lim' base f size len CP L L' l p bits xs p' bits1 B P P2 E). exact H.
    - exact e_slice.
    - intros u HV NC rt lim lim' base f size len cur p bits v p' bits' CP B L L' P P2 H.
      cbn [dec_val no_cp_val] in *. unfold dbind in *.
      destruct (dec_val _ _ _ _ _ lim _ _ _ _ _ _ _) as [[x [p1 bits1]]| | |] eqn:E; try discriminate.
      unfold dret in H. assert (p' = p1) by (now injection H). subst p1.
      rewrite (HV NC rt lim lim' base f size len _ _ _ _ _ _ CP B L L' P P2 E). exact H.
    - intros name cfo fs HF NC rt lim lim' base f size len cur p bits v p' bits' CP B L L' P P2 H.
      destruct cur as [| | | | | |l]; try discriminate. rewrite dec_val_struct in H |- *.
      destruct (negb (size =? 0) && (size mod 8 =? 0)); [exact H|].
      unfold dbind in *.
      destruct (dec_flds _ _ _ _ _ lim _ _ _ _ _ _) as [[x [p1 bits1]]| | |] eqn:E; try discriminate.
      unfold dret in H. assert (p' = p1) by (now injection H). subst p1.
      rewrite (HF NC name cfo (Some rt) lim lim' base l p bits x p' bits1 B L L' P P2 E). exact H.
    - intros _ sname cfo rt lim lim' base self p bits v p' bits' B L L' P P2 H. exact H.
    - intros f t HV rest HF NC sname cfo rt lim lim' base self p bits v p' bits' B L L' P P2 H.
      change (negb (f_cp f) && no_cp_val t && no_cp_flds rest = true) in NC.
      pose proof (mono_flds k rname versions ctx (FCons f t rest) NC _ _ _ _ _ _ _ _ _ _ _ H) as M.
      apply andb_prop in NC. destruct NC as [NC NCr]. apply andb_prop in NC. destruct NC as [CP NCt].
      apply negb_true_iff in CP.
      set (cn := if cfo then sname else rname) in *.
      rewrite dec_flds_cons in H |- *. cbv zeta in H |- *.
      fold cn in H |- *. set (root := box_of rt self) in *.
      set (env := if cfo then mkenv self (get_version root) (get_flags root) ctx
                  else mkenv root (get_version root) (get_flags root) ctx) in *.
      destruct (resolve_size cn env f) as [size|]; [|discriminate].
      destruct (resolve_len cn env f) as [len|]; [|discriminate].
      unfold dbind in H at 1. unfold dbind at 1.
      destruct (is_target (get_version root) (get_flags root) cn env f).
      2:{ unfold dret in *. exact (HF NCr sname cfo rt lim lim' base self p bits v p' bits' B L L' P P2 H). }
      unfold dbind in H at 1. unfold dpos in H at 1. cbn [fst] in H.
      unfold dbind at 1. unfold dpos at 1. cbn [fst].
      unfold dbind in H at 1. unfold dbind at 1.
      destruct (d_hook k (hook_of cn (f_name f)) (get_version root) self (sub64 lim (p - base)) (p, bits))
        as [[[b self1] [p1 bits1]]| | |] eqn:EH; try discriminate.
      pose proof (hook_mono _ _ _ _ _ _ _ _ _ _ _ EH) as MH.
      assert (STEP : p1 <= p' /\
        match (if b : bool then dret self1
               else match lookup (f_name f) self1 with
                    | None => dpanic
                    | Some cur =>
                        x <~ dec_val k rname versions ctx (box_of rt self1) lim' base f size len t cur ;;
                        (if is_fullbox t && negb (version_in versions (get_version (box_of rt (update (f_name f) x self1))))
                         then dfail EUnsupportedVersion
                         else dret (update (f_name f) x self1))
                    end) (p1, bits1) with
        | Ok (a, st1) => dec_flds k rname versions ctx rt lim' base sname cfo a rest st1
        | Err e => Err e | Panic => Panic | OutOfFuel => OutOfFuel end = Ok (v, (p', bits'))).
      { clear EH. assert (B1 : base <= p1) by lia. destruct b.
        - unfold dret in *. split; [exact (mono_flds k rname versions ctx rest NCr _ _ _ _ _ _ _ _ _ _ _ H)|].
          exact (HF NCr sname cfo rt lim lim' base self1 p1 bits1 v p' bits' B1 L L' P P2 H).
        - destruct (lookup (f_name f) self1) as [cur|]; [|discriminate]. unfold dbind in *.
          destruct (dec_val k rname versions ctx (box_of rt self1) lim base f size len t cur (p1, bits1))
            as [[x [p2 bits2]]| | |] eqn:E; try discriminate.
          pose proof (mono_val k rname versions ctx t NCt _ _ _ _ _ _ _ _ _ _ _ _ CP E) as M2.
          destruct (is_fullbox t && _) eqn:FB; [discriminate|]. unfold dret in H.
          pose proof (mono_flds k rname versions ctx rest NCr _ _ _ _ _ _ _ _ _ _ _ H) as M3.
          split; [lia|].
          rewrite (HV NCt (box_of rt self1) lim lim' base f size len cur p1 bits1 x p2 bits2 CP B1 L L' ltac:(lia) ltac:(lia) E), FB.
          unfold dret. exact (HF NCr sname cfo rt lim lim' base _ p2 bits2 v p' bits' ltac:(lia) L L' P P2 H). }
      destruct STEP as [MR X].
      rewrite sub64_sub in EH by lia. rewrite (sub64_sub lim') by lia.
      rewrite (hook_far _ _ _ (lim - (p - base)) (lim' - (p - base)) _ _ b self1 p1 bits1); [exact X|lia|lia|exact EH].
  Qed.
End Far.

Lemma decode_far : forall k k' d size size' ctx bits x n r,
  no_cp_flds (bd_flds d) = true -> bd_name d <> "Meta" ->
  decode k d size ctx (zero_flds (bd_flds d)) bits = Ok (x, n) ->
  size < 2 ^ 61 -> size' < 2 ^ 61 -> n + 4 <= size -> n + 4 <= size' -> (List.length (takeN (8 * n) bits) < k')%nat ->
  decode k' d size' ctx (zero_flds (bd_flds d)) (takeN (8 * n) bits ++ r) = Ok (x, n).
Proof.
  intros k k' d size size' ctx bits x n r NC NM H Hs Hs' L1 L2 HK.
  unfold decode in *. set (z := set_version anyVersion (zero_flds (bd_flds d))) in *.
  unfold d_before in *. apply String.eqb_neq in NM. rewrite NM in *.
  destruct (dec_flds _ _ _ _ _ _ _ _ _ _ _ (0, bits)) as [[y [p r0]]| | |] eqn:E; try discriminate.
  destruct (N.eqb_spec (p mod 8) 0) as [P8|]; [|discriminate]. cbn [negb] in H.
  destruct (N.ltb_spec (w64 (size * 8)) p) as [|Q]; [discriminate|].
  assert (X : y = x /\ p / 8 = n) by (now injection H as <- <-). destruct X as [-> <-]. clear H.
  assert (W : forall s, s < 2 ^ 61 -> w64 (s * 8) = s * 8 /\ s * 8 < 2 ^ 64).
  { intros s S. unfold w64, W64. change (2 ^ 61) with 2305843009213693952 in S. change (2 ^ 64) with 18446744073709551616.
    rewrite N.mod_small; clear - S; lia. }
  destruct (W size Hs) as [W1 W2]. destruct (W size' Hs') as [W3 W4]. clear W. rewrite W1 in *. rewrite W3 in *.
  pose proof (proj2 (e_all k (bd_name d) (bd_versions d) ctx) (bd_flds d) NC (bd_name d) true None
              (size * 8) (size' * 8) 0 z 0 bits x p r0 (N.le_refl 0) W2 W4 ltac:(clear - L1 P8; lia) ltac:(clear - L2 P8; lia) E) as T.
  destruct (proj2 (dec_local (bd_name d) (bd_versions d) ctx) (bd_flds d) NC None (size' * 8) 0 (bd_name d) true z
              k 0 bits x p r0 T) as (c & E1 & E2 & E3).
  rewrite N.add_0_l in E2.
  assert (EC : takeN (8 * (p / 8)) bits = c).
  { replace (8 * (p / 8)) with (lenN c) by (clear - E2 P8; lia). rewrite E1. apply takeN_app_exact. reflexivity. }
  rewrite EC in *. rewrite E3 by exact HK. rewrite P8. cbn [N.eqb negb].
  destruct (N.ltb_spec (size' * 8) p) as [G|G]; [clear - G L2 P8; lia|reflexivity].
Qed.

(** The same for UnmarshalAny. *)
Lemma decoded_far : forall data t size ctx pos d x n pos' data' pos2 size',
  pos <= lenN data -> lenN data < 2 ^ 62 -> pos2 <= lenN data' -> lenN data' < 2 ^ 62 -> bd_name d <> "Meta" ->
  unmarshal_any std_registry data t size ctx pos = (Ok (d, x, n), pos') ->
  size < 2 ^ 61 -> size' < 2 ^ 61 -> n + 4 <= size -> n + 4 <= size' ->
  takeN n (skipN pos2 data') = takeN n (skipN pos data) ->
  unmarshal_any std_registry data' t size' ctx pos2 = (Ok (d, x, n), pos2 + n).
Proof.
  intros data t size ctx pos d x n pos' data' pos2 size' Hp Hd Hp2 Hd2 NM H Hs Hs' L1 L2 ET.
  pose proof (unmarshal_any_def _ _ _ _ _ _ _ _ _ H) as G.
  pose proof (unmarshal_any_decode t ctx d data size pos G Hp Hd) as U. cbv zeta in U.
  rewrite H in U. destruct U as (_ & U & _ & L).
  pose proof (all_defs_check _ _ _ _ _ eq_refl std_no_cp G) as NC. cbv beta in NC.
  assert (EB : bits_of_bytes (skipN pos2 data') =
    takeN (8 * n) (bits_of_bytes (skipN pos data)) ++ bits_of_bytes (skipN n (skipN pos2 data'))).
  { rewrite <- (takeN_skipN _ (skipN pos2 data') n) at 1. rewrite bits_of_bytes_app. f_equal.
    rewrite ET, takeN_bits_of_bytes. reflexivity. }
  pose proof (unmarshal_any_decode t ctx d data' size' pos2 G Hp2 Hd2) as U2. cbv zeta in U2.
  rewrite EB in U2.
  rewrite (decode_far _ (dfuel data') d size size' ctx _ x n _ NC NM U Hs Hs' L1 L2) in U2.
  - destruct (unmarshal_any std_registry data' t size' ctx pos2) as [[[[d' y] m]|e| |] q].
    + destruct U2 as (-> & U2 & -> & _). injection U2 as -> ->. reflexivity.
    + destruct U2 as [U2 _]. discriminate U2.
    + discriminate U2.
    + discriminate U2.
  - rewrite takeN_bits_of_bytes, <- ET. unfold dfuel.
    assert (Y : lenN (bits_of_bytes (takeN n (skipN pos2 data'))) <= 8 * lenN data').
    { rewrite lenN_bits_of_bytes, lenN_takeN, lenN_skipN. clear. lia. }
    unfold lenN at 1 in Y. lia.
Qed.
