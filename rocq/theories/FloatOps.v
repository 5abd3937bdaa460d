(** float64 operations on positive numbers: how far they are from the exact result. *)
From Coq Require Import ZArith FloatClass SpecFloat Lia Bool.
From Verif Require Import Floats FloatFacts FloatRound.
Local Open Scope Z_scope.

Notation U := (2 ^ 1074).
Lemma U_pos : 0 < U. Proof. apply Z.pow_pos_nonneg; lia. Qed.

(** a positive float with a full mantissa and an exponent in the given range *)
Definition full (f : float) (m : positive) (e lo hi : Z) : Prop :=
  f = S754_finite false m e /\ 2 ^ 52 <= Zpos m < 2 ^ 53 /\ lo <= e <= hi.
Definition val (m : positive) (e : Z) : Z := Zpos m * 2 ^ (e + 1074).

Lemma split_pow : forall a b, 0 <= a -> 0 <= b -> 2 ^ (a + b) = 2 ^ a * 2 ^ b.
Proof. intros. apply Z.pow_add_r; assumption. Qed.

Lemma of_int_near : forall n, 0 < n < 2 ^ 64 -> exists m e, full (float64_of n) m e (-52) 12 /\
  Z.abs (val m e - n * U) * 2 ^ 53 <= n * U /\ (n < 2 ^ 53 -> val m e = n * U).
Proof.
  intros n [N1 N2]. pose proof U_pos as HU. destruct n as [|p|p]; try lia. unfold float64_of, binary_normalize.
  pose proof (digits_bounds p) as [D1 D2]. set (d := Zpos (digits2_pos p)) in *.
  assert (Ld : d <= 64).
  { assert (d - 1 < 64) by (apply (Z.pow_lt_mono_r_iff 2); lia). lia. }
  destruct (Z.le_gt_cases d 53) as [C|C].
  - exists (shl (room 53 p) p), (d - 53).
    assert (R : Zpos (shl (room 53 p) p) = Zpos p * 2 ^ (53 - d)).
    { rewrite shl_val. unfold room. fold d. rewrite Z2Nat.id by lia. reflexivity. }
    assert (V : val (shl (room 53 p) p) (d - 53) = Zpos p * U).
    { unfold val. rewrite R, <- Z.mul_assoc, <- split_pow by lia. do 2 f_equal. lia. }
    split; [|split].
    + split; [apply (of_int_exact 53 1024); [lia|lia|exact C]|]. split; [|unfold d in *; lia]. rewrite R.
      replace (2 ^ 52) with (2 ^ (d - 1) * 2 ^ (53 - d)) by (rewrite <- split_pow by lia; f_equal; lia).
      replace (2 ^ 53) with (2 ^ d * 2 ^ (53 - d)) by (rewrite <- split_pow by lia; f_equal; lia).
      assert (0 < 2 ^ (53 - d)) by (apply Z.pow_pos_nonneg; lia). nia.
    + rewrite V, Z.sub_diag. change (Z.abs 0 * 2 ^ 53) with 0. apply Z.mul_nonneg_nonneg; lia.
    + intros _. exact V.
  - destruct (round_near 53 1024 ltac:(lia) false p 0 loc_Exact (Zpos p) 1 ltac:(lia)) as (m & c & Hc & EQ & MB & NR & XB).
    { cbn [shr_record_of_loc rest_of]. lia. }
    { fold d. lia. }
    { fold d. unfold emin. lia. }
    fold d in EQ, NR, XB. exists m, (d - 53 + c).
    assert (EB : binary_round 53 1024 false p 0 = S754_finite false m (d - 53 + c)).
    { unfold binary_round, shl_align, fexp. fold d. unfold emin. rewrite Z.add_0_r, Z.max_l by lia. rewrite Z.sub_0_r.
      destruct (d - 53) as [|k|k] eqn:K; [lia| |lia]. rewrite EQ. rewrite Z.add_0_l.
      destruct (Z.leb_spec (Zpos k + c) (1024 - 53)); [reflexivity|lia]. }
    assert (V : val m (d - 53 + c) = Zpos m * 2 ^ c * 2 ^ (d - 53) * U).
    { unfold val. rewrite <- !Z.mul_assoc, <- !split_pow by lia. do 2 f_equal. lia. }
    split; [|split].
    + split; [exact EB|]. split; [exact MB|lia].
    + rewrite V. rewrite Z.mul_1_r in *.
      replace (Zpos m * 2 ^ c * 2 ^ (d - 53) * U - Zpos p * U) with ((Zpos m * 2 ^ c * 2 ^ (d - 53) - Zpos p) * U) by ring.
      rewrite Z.abs_mul, (Z.abs_eq U) by lia. 
      assert (H : Z.abs (Zpos m * 2 ^ c * 2 ^ (d - 53) - Zpos p) * 2 ^ 53 <= Zpos p).
      { change (2 ^ 53) with (2 * 2 ^ 52). change (53 - 1) with 52 in XB. lia. }
      clear - H HU. nia.
    + intros L. assert (2 ^ 53 <= 2 ^ (d - 1)) by (apply Z.pow_le_mono_r; lia). lia.
Qed.

Lemma div_near : forall x y mx ex my ey, full x mx ex (-200) 200 -> full y my ey (-200) 200 ->
  exists m e, full (float64_div x y) m e (ex - ey - 53) (ex - ey - 51) /\
    Z.abs (val m e * val my ey - val mx ex * U) * 2 ^ 53 <= val mx ex * U /\
    (forall k, 0 < k < 2 ^ 32 -> val mx ex = k * val my ey -> val m e = k * U).
Proof.
  intros x y mx ex my ey (-> & MX & EX) (-> & MY & EY). pose proof U_pos as HU.
  unfold float64_div, SFdiv, SFdiv_core_binary, Zdigits2.
  assert (DX : Zpos (digits2_pos mx) = 53) by (apply digits_unique; [exact MX|lia]).
  assert (DY : Zpos (digits2_pos my) = 53) by (apply digits_unique; [exact MY|lia]).
  rewrite DX, DY. unfold fexp, emin. rewrite Z.max_l by lia. rewrite Z.min_l by lia.
  replace (53 + ex - (53 + ey) - 53) with (ex - ey - 53) by lia.
  replace (ex - ey - (ex - ey - 53)) with 53 by lia. rewrite Z.shiftl_mul_pow2 by lia.
  set (X := Zpos mx * 2 ^ 53). set (Y := Zpos my).
  pose proof (Z_div_mod X Y ltac:(unfold Y; lia)) as DM. destruct (Z.div_eucl X Y) as [q r]. destruct DM as [DM RB].
  assert (QB : 2 ^ 52 <= q < 2 ^ 54).
  { unfold X, Y in *. change (2 ^ 52) with 4503599627370496 in *. change (2 ^ 53) with 9007199254740992 in *. change (2 ^ 54) with 18014398509481984.
    split; nia. }
  assert (QP : exists p, q = Zpos p) by (destruct q as [|p|p]; [lia|eauto|lia]). destruct QP as (p & ->).
  pose proof (digits_bounds p) as [D1 D2].
  assert (DP : Zpos (digits2_pos p) = 53 \/ Zpos (digits2_pos p) = 54).
  { set (d := Zpos (digits2_pos p)) in *. assert (1 <= d) by (unfold d; lia).
    assert (d - 1 < 54) by (apply (Z.pow_lt_mono_r_iff 2); lia). assert (52 < d) by (apply (Z.pow_lt_mono_r_iff 2); lia). lia. }
  destruct (round_near 53 1024 ltac:(lia) false p (ex - ey - 53) (new_location Y r) X Y ltac:(unfold Y; lia)) as (m & c & Hc & EQ & MB & NR & XB).
  { replace r with (X - Zpos p * Y) by (rewrite DM; ring). apply rest_loc; [unfold Y; lia|lia|]. rewrite DM. lia. }
  { lia. }
  { unfold emin. lia. }
  set (n := Zpos (digits2_pos p) - 53) in *. assert (Hn : n = 0 \/ n = 1) by (unfold n; lia).
  exists m, (ex - ey - 53 + n + c). rewrite Bool.xorb_false_l.
  assert (SC : val m (ex - ey - 53 + n + c) * val my ey - val mx ex * U = (Zpos m * 2 ^ c * (2 ^ n * Y) - X) * 2 ^ (ex + 2095)).
  { unfold val, X, Y. rewrite Z.mul_sub_distr_r. f_equal.
    - transitivity (Zpos m * Zpos my * (2 ^ (ex - ey - 53 + n + c + 1074) * 2 ^ (ey + 1074))); [ring|].
      transitivity (Zpos m * Zpos my * (2 ^ c * (2 ^ n * 2 ^ (ex + 2095)))); [|ring].
      rewrite <- !split_pow by lia. do 2 f_equal. lia.
    - rewrite <- !Z.mul_assoc, <- !split_pow by lia. do 2 f_equal. lia. }
  assert (XU : val mx ex * U = X * 2 ^ (ex + 2095)).
  { unfold val, X. rewrite <- !Z.mul_assoc, <- !split_pow by lia. do 2 f_equal. lia. }
  assert (PS : 0 < 2 ^ (ex + 2095)) by (apply Z.pow_pos_nonneg; lia).
  split; [|split].
  - split; [|split; [exact MB|lia]]. rewrite EQ. destruct (Z.leb_spec (ex - ey - 53 + n + c) (1024 - 53)); [reflexivity|lia].
  - rewrite SC, XU, Z.abs_mul, (Z.abs_eq (2 ^ (ex + 2095))) by lia.
    assert (H : Z.abs (Zpos m * 2 ^ c * (2 ^ n * Y) - X) * 2 ^ 53 <= X).
    { change (2 ^ 53) with (2 * 2 ^ 52). change (53 - 1) with 52 in XB. lia. }
    clear - H PS. nia.
  - intros k K EK.
    (* the unit of the last place *)
    assert (PY : 0 < 2 ^ n * Y) by (apply Z.mul_pos_pos; [apply Z.pow_pos_nonneg; lia|unfold Y; lia]).
    assert (KX : X * 2 ^ (ex + 2095) = k * (Y * 2 ^ (ey + 2148))).
    { rewrite <- XU, EK. unfold val, Y. rewrite <- !Z.mul_assoc, <- split_pow by lia. do 3 f_equal. lia. }
    assert (EL : ex - ey - 53 + n <= 0).
    { destruct (Z.le_gt_cases (ex - ey - 53 + n) 0) as [|G]; [assumption|exfalso].
      assert (2 ^ 52 * (2 ^ n * Y) * 2 ^ (ex + 2095) <= k * (Y * 2 ^ (ey + 2148))) by (rewrite <- KX; apply Z.mul_le_mono_nonneg_r; lia).
      assert (T : 2 ^ (ex + 2095) = 2 ^ (ey + 2148) * 2 ^ (ex - ey - 53)) by (rewrite <- split_pow by lia; f_equal; lia).
      assert (T2 : 1 <= 2 ^ n * 2 ^ (ex - ey - 53)) by (rewrite <- split_pow by lia; apply (Z.pow_le_mono_r 2 0); lia).
      rewrite T in H. assert (PE : 0 < 2 ^ (ey + 2148)) by (apply Z.pow_pos_nonneg; lia).
      assert (H2 : 2 ^ 52 * (2 ^ n * 2 ^ (ex - ey - 53)) * (Y * 2 ^ (ey + 2148)) <= k * (Y * 2 ^ (ey + 2148))) by (clear - H; lia).
      assert (PYE : 0 < Y * 2 ^ (ey + 2148)) by (apply Z.mul_pos_pos; [unfold Y; lia|exact PE]).
      apply Z.mul_le_mono_pos_r in H2; [|exact PYE].
      change (2 ^ 52) with 4503599627370496 in H2. change (2 ^ 32) with 4294967296 in K. lia. }
    set (j := - (ex - ey - 53 + n)) in *.
    assert (XK : X = k * 2 ^ j * (2 ^ n * Y)).
    { apply (Z.mul_reg_r _ _ (2 ^ (ex + 2095))); [lia|]. rewrite KX.
      transitivity (k * Y * (2 ^ j * (2 ^ n * 2 ^ (ex + 2095)))); [|ring]. rewrite <- !split_pow by lia.
      rewrite Z.mul_assoc. do 2 f_equal. lia. }
    assert (MK : Zpos m * 2 ^ c = k * 2 ^ j).
    { rewrite XK in NR. replace (Zpos m * 2 ^ c * (2 ^ n * Y) - k * 2 ^ j * (2 ^ n * Y)) with ((Zpos m * 2 ^ c - k * 2 ^ j) * (2 ^ n * Y)) in NR by ring.
      rewrite Z.abs_mul, (Z.abs_eq (2 ^ n * Y)) in NR by lia. clear - NR PY. nia. }
    unfold val. replace (ex - ey - 53 + n + c + 1074) with (c + (1074 - j)) by lia. rewrite split_pow, Z.mul_assoc, MK by lia.
    rewrite <- Z.mul_assoc, <- split_pow by lia. do 2 f_equal. lia.
Qed.

(** multiplication by 8 *)
Lemma mul_8 : forall x mx ex, full x mx ex (-200) 200 -> full (float64_mul x (float64_of 8)) mx (ex + 3) (-197) 203.
Proof.
  intros x mx ex (-> & MX & EX). split; [|split; [exact MX|lia]].
  replace (float64_of 8) with (S754_finite false (shl 52 1) (-49)) by (vm_compute; reflexivity).
  unfold float64_mul, SFmul. rewrite Bool.xorb_false_l.
  replace (mx * shl 52 1)%positive with (shl 52 mx).
  2:{ apply Pos2Z.inj. rewrite Pos2Z.inj_mul, !shl_val. ring. }
  rewrite (round_exact 53 1024); [f_equal; lia|unfold emin; lia|apply digits_unique; [exact MX|lia]|lia].
Qed.

(** ** Comparison *)
Definition worth (f : float) (V : Z) : Prop :=
  (f = S754_zero false /\ V = 0) \/ exists m e, full f m e (-200) 200 /\ V = val m e.
Lemma val_pos : forall m e, -200 <= e -> 0 < val m e.
Proof. intros. unfold val. apply Z.mul_pos_pos; [lia|apply Z.pow_pos_nonneg; lia]. Qed.
Lemma val_lt : forall m e n k, 2 ^ 52 <= Zpos m < 2 ^ 53 -> 2 ^ 52 <= Zpos n < 2 ^ 53 -> -200 <= e -> e < k -> val m e < val n k.
Proof.
  intros m e n k M N E K. unfold val. replace (k + 1074) with ((k - e) + (e + 1074)) by lia. rewrite (split_pow (k - e)) by lia.
  assert (2 ^ 1 <= 2 ^ (k - e)) by (apply Z.pow_le_mono_r; lia).
  assert (0 < 2 ^ (e + 1074)) by (apply Z.pow_pos_nonneg; lia).
  change (2 ^ 52) with 4503599627370496 in *. change (2 ^ 53) with 9007199254740992 in *. change (2 ^ 1) with 2 in *.
  rewrite Z.mul_assoc. apply Z.mul_lt_mono_pos_r; [assumption|]. nia.
Qed.
Lemma lt_worth : forall f g V W, worth f V -> worth g W -> SFltb f g = (V <? W).
Proof.
  intros f g V W HF HG. unfold SFltb.
  destruct HF as [(-> & ->)|(m & e & (-> & M & E) & ->)]; destruct HG as [(-> & ->)|(n & k & (-> & N & K) & ->)]; cbn [SFcompare].
  - reflexivity.
  - symmetry. apply Z.ltb_lt. apply val_pos; lia.
  - symmetry. apply Z.ltb_ge. pose proof (val_pos m e). lia.
  - destruct (Z.compare_spec e k) as [C|C|C].
    + subst k. unfold val. assert (P : 0 < 2 ^ (e + 1074)) by (apply Z.pow_pos_nonneg; lia).
      change (Pos.compare_cont Eq m n) with (Pos.compare m n).
      destruct (Pos.compare_spec m n) as [H|H|H]; symmetry.
      * subst. apply Z.ltb_ge. lia.
      * apply Z.ltb_lt. apply Z.mul_lt_mono_pos_r; lia.
      * apply Z.ltb_ge. apply Z.mul_le_mono_nonneg_r; lia.
    + symmetry. apply Z.ltb_lt. apply val_lt; try assumption; lia.
    + symmetry. apply Z.ltb_ge. apply Z.lt_le_incl. apply val_lt; try assumption; lia.
Qed.

(** ** The integer parts of [m * 2 ^ e] *)
Lemma parts : forall m e, -1074 <= e -> Zpos m * 2 ^ Z.max 0 e * U = val m e * 2 ^ Z.max 0 (- e).
Proof.
  intros m e E. unfold val. rewrite <- !Z.mul_assoc, <- !split_pow by lia. do 2 f_equal. lia.
Qed.
Lemma floor_spec : forall a b u v, 0 < b -> 0 < u -> a * u = v * b -> a / b * u <= v < (a / b + 1) * u.
Proof.
  intros a b u v B P E. pose proof (Z.div_mod a b ltac:(lia)) as D. pose proof (Z.mod_pos_bound a b B) as R.
  set (q := a / b) in *. set (r := a mod b) in *. clearbody q r. subst a.
  assert (q * u * b <= v * b) by nia. assert (v * b < (q + 1) * u * b) by nia. split; nia.
Qed.
Lemma ceil_spec : forall a b u v, 0 < b -> 0 < u -> a * u = v * b -> (- (- a / b) - 1) * u < v <= - (- a / b) * u.
Proof.
  intros a b u v B P E. pose proof (floor_spec (- a) b u (- v) B P ltac:(lia)). lia.
Qed.
Lemma ceil_unique : forall u v s t, 0 < u -> (s - 1) * u < v <= s * u -> (t - 1) * u < v <= t * u -> s = t.
Proof. intros. nia. Qed.
