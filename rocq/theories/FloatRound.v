(** Rounding to nearest, in integers. *)
From Coq Require Import ZArith FloatClass SpecFloat Lia Bool.
From Verif Require Import Floats FloatFacts.
Local Open Scope Z_scope.

(** [r] is X / Y rounded down to an integer, with what is needed to round it to
    nearest: whether the rest is at least one half, and whether it is neither 0 nor
    one half *)
Definition rest_of (X Y : Z) (r : shr_record) : Prop :=
  let '(Build_shr_record m h s) := r in
  let rest := X - m * Y in
  0 <= m /\ 0 <= rest < Y /\
  (if h then Y <= 2 * rest else 2 * rest < Y) /\
  (if s then 2 * rest <> 0 /\ 2 * rest <> Y else 2 * rest = 0 \/ 2 * rest = Y).

Lemma rest_shr : forall X Y r, 0 < Y -> rest_of X Y r -> rest_of X (2 * Y) (shr_1 r).
Proof.
  intros X Y [m h s] HY (M & R & H & S). unfold shr_1.
  assert (C : forall m' b, m = 2 * m' + (if b : bool then 1 else 0) -> 0 <= m' ->
    rest_of X (2 * Y) (Build_shr_record m' b (h || s))).
  { intros m' b E M'. unfold rest_of. cbv zeta. split; [exact M'|].
    replace (X - m' * (2 * Y)) with ((X - m * Y) + (if b then Y else 0)) by (subst m; destruct b; ring).
    cbv zeta in R, H, S. generalize dependent (X - m * Y). clear - HY. intros q R H S.
    destruct b, h, s; cbn [orb]; lia. }
  destruct m as [|[p|p|]|p]; try lia.
  - apply (C 0 false); lia.
  - apply (C (Zpos p) true); lia.
  - apply (C (Zpos p) false); lia.
  - apply (C 0 true); lia.
Qed.
Lemma rest_iter : forall k X Y r, 0 < Y -> rest_of X Y r -> rest_of X (2 ^ Z.of_nat k * Y) (Nat.iter k shr_1 r).
Proof.
  induction k as [|k IH]; intros X Y r HY R.
  - change (2 ^ Z.of_nat 0) with 1. rewrite Z.mul_1_l. exact R.
  - cbn [Nat.iter nat_rect]. rewrite Nat2Z.inj_succ, Z.pow_succ_r, <- Z.mul_assoc by lia.
    apply rest_shr; [|now apply IH]. apply Z.mul_pos_pos; [apply Z.pow_pos_nonneg; lia|exact HY].
Qed.
(** the nearest integer *)
Lemma rest_round : forall X Y r, 0 < Y -> rest_of X Y r ->
  let n := round_nearest_even (shr_m r) (loc_of_shr_record r) in
  2 * Z.abs (n * Y - X) <= Y /\ (n = shr_m r \/ n = shr_m r + 1).
Proof.
  intros X Y [m h s] HY (M & R & H & S). cbn [shr_m]. unfold loc_of_shr_record.
  cbv zeta in *.
  assert (A : m * Y - X = - (X - m * Y)) by ring. assert (B : (m + 1) * Y - X = Y - (X - m * Y)) by ring.
  generalize dependent (X - m * Y). clear - HY. intros q R H S A B.
  destruct h, s; cbn [round_nearest_even]; try (split; [lia|auto]).
  destruct (Z.even m); split; auto; lia.
Qed.
Lemma rest_loc : forall X Y q, 0 < Y -> 0 <= q -> 0 <= X - q * Y < Y ->
  rest_of X Y (shr_record_of_loc q (new_location Y (X - q * Y))).
Proof.
  intros X Y q HY Hq R. set (k := X - q * Y) in *.
  assert (NL : new_location Y k = if k =? 0 then loc_Exact else loc_Inexact (Z.compare (2 * k) Y)).
  { clearbody k. clear Hq X q. unfold new_location, new_location_even, new_location_odd.
    assert (ZE : Zeq_bool k 0 = (k =? 0)) by (destruct k; reflexivity).
    destruct (Z.even Y) eqn:E; rewrite ZE; [reflexivity|]. destruct (Z.eqb_spec k 0); [reflexivity|]. f_equal.
    assert (O : Y mod 2 = 1) by (rewrite Zmod_odd, <- Z.negb_even, E; reflexivity).
    pose proof (Z.div_mod Y 2 ltac:(lia)) as D. rewrite O in D. set (y := Y / 2) in *.
    destruct (Z.compare_spec (2 * k + 1) Y); destruct (Z.compare_spec (2 * k) Y); try reflexivity; lia. }
  rewrite NL. destruct (Z.eqb_spec k 0) as [E|E].
  - unfold shr_record_of_loc, rest_of. fold k. lia.
  - destruct (Z.compare_spec (2 * k) Y); unfold shr_record_of_loc, rest_of; fold k; lia.
Qed.

Lemma digits_bounds : forall p, 2 ^ (Zpos (digits2_pos p) - 1) <= Zpos p < 2 ^ Zpos (digits2_pos p).
Proof.
  induction p as [p IH|p IH|]; cbn [digits2_pos]; [| |cbn; lia]; rewrite Pos2Z.inj_succ;
    replace (Z.succ (Zpos (digits2_pos p)) - 1) with (Z.succ (Zpos (digits2_pos p) - 1)) by lia;
    rewrite !Z.pow_succ_r by lia; lia.
Qed.

Section Near.
  Variables prec emax : Z.
  Hypothesis P : 2 <= prec.
  Hypothesis E : prec < emax.
  Lemma digits_unique : forall p k, 2 ^ (k - 1) <= Zpos p < 2 ^ k -> 0 <= k - 1 -> Zpos (digits2_pos p) = k.
  Proof.
    intros p k [A B] K. pose proof (digits_bounds p) as [C D]. set (d := Zpos (digits2_pos p)) in *.
    assert (1 <= d) by (unfold d; lia).
    assert (k - 1 < d) by (apply (Z.pow_lt_mono_r_iff 2); lia).
    assert (d - 1 < k) by (apply (Z.pow_lt_mono_r_iff 2); lia). lia.
  Qed.
  (** A number X / Y of at least [prec] digits, scaled by 2^e: the mantissa that it
      is rounded to is nearest. *)
  Lemma round_near : forall s q e l X Y, 0 < Y -> rest_of X Y (shr_record_of_loc (Zpos q) l) ->
    let n := Zpos (digits2_pos q) - prec in
    0 <= n -> emin prec emax <= n + e ->
    exists m c, (c = 0 \/ c = 1) /\
      binary_round_aux prec emax s (Zpos q) e l =
        (if e + n + c <=? emax - prec then S754_finite s m (e + n + c) else S754_infinity s) /\
      2 ^ (prec - 1) <= Zpos m < 2 ^ prec /\
      2 * Z.abs (Zpos m * 2 ^ c * (2 ^ n * Y) - X) <= 2 ^ n * Y /\
      2 ^ (prec - 1) * (2 ^ n * Y) <= X < 2 ^ prec * (2 ^ n * Y).
  Proof.
    intros s q e l X Y HY R n Hn HE.
    assert (PN : 0 < 2 ^ n) by (apply Z.pow_pos_nonneg; lia).
    assert (PY : 0 < 2 ^ n * Y) by nia.
    assert (P2 : 2 ^ prec = 2 * 2 ^ (prec - 1)) by (rewrite <- Z.pow_succ_r by lia; f_equal; lia).
    assert (P1 : 0 < 2 ^ (prec - 1)) by (apply Z.pow_pos_nonneg; lia).
    assert (SH : shr_fexp prec emax (Zpos q) e l = (Nat.iter (Z.to_nat n) shr_1 (shr_record_of_loc (Zpos q) l), e + n)).
    { unfold shr_fexp, fexp, Zdigits2. rewrite Z.max_l by lia. replace (Zpos (digits2_pos q) + e - prec - e) with n by lia.
      unfold shr. destruct n as [|p|p] eqn:EN; [|rewrite iter_pos_nat; reflexivity|lia].
      cbn [Z.to_nat Nat.iter nat_rect]. now rewrite Z.add_0_r. }
    unfold binary_round_aux. rewrite SH.
    pose proof (rest_iter (Z.to_nat n) X Y _ HY R) as R2. rewrite Z2Nat.id in R2 by lia.
    set (r := Nat.iter (Z.to_nat n) shr_1 _) in *.
    pose proof (rest_round X (2 ^ n * Y) r PY R2) as [NR NM]. cbv zeta in NR, NM.
    set (N := round_nearest_even (shr_m r) (loc_of_shr_record r)) in *.
    (* X *)
    assert (XB : 2 ^ (prec - 1) * (2 ^ n * Y) <= X < 2 ^ prec * (2 ^ n * Y)).
    { assert (Q : Zpos q * Y <= X < (Zpos q + 1) * Y).
      { destruct l as [|[]]; cbn [shr_record_of_loc rest_of] in R; cbv zeta in R; lia. }
      pose proof (digits_bounds q) as [D1 D2]. rewrite !Z.mul_assoc, <- !Z.pow_add_r by lia.
      replace (prec - 1 + n) with (Zpos (digits2_pos q) - 1) by lia. replace (prec + n) with (Zpos (digits2_pos q)) by lia. nia. }
    assert (MB : 2 ^ (prec - 1) <= shr_m r < 2 ^ prec).
    { destruct r as [m h b]. cbn [shr_m]. destruct R2 as (M0 & MR & _). clear - M0 MR XB PY. nia. }
    assert (NB : 2 ^ (prec - 1) <= N <= 2 ^ prec) by (clear - NM MB; lia).
    assert (NP : exists k, N = Zpos k) by (destruct N as [|k|k]; [lia|eauto|lia]). destruct NP as (k & EK).
    assert (N < 2 ^ prec \/ N = 2 ^ prec) as [C|C] by lia.
    - exists k, 0. split; [auto|]. rewrite EK. rewrite Z.add_0_r.
      rewrite (shr_fexp_none prec emax); [|lia|rewrite (digits_unique k prec); lia]. cbn [shr_m].
      change (2 ^ 0) with 1. rewrite Z.mul_1_r, <- EK. repeat split; try lia. 
    - exists (shl (Z.to_nat (prec - 1)) 1), 1. split; [auto|].
      assert (V : Zpos (shl (Z.to_nat (prec - 1)) 1) = 2 ^ (prec - 1)) by (rewrite shl_val, Z2Nat.id by lia; lia).
      assert (EN : N = Zpos (shl 1 (shl (Z.to_nat (prec - 1)) 1))) by (rewrite (shl_val 1), V; change (2 ^ Z.of_nat 1) with 2; lia).
      rewrite EN. rewrite (shr_fexp_some prec emax 1); [|lia|rewrite (digits_unique _ prec); lia]. cbn [shr_m].
      change (Z.of_nat 1) with 1. rewrite V. change (2 ^ 1) with 2.
      replace (2 ^ (prec - 1) * 2) with N by lia. repeat split; try lia.
  Qed.
End Near.
