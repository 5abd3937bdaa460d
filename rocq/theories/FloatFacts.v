(** Quotients by powers of two are exact. *)
From Coq Require Import ZArith FloatClass SpecFloat Lia Bool.
From Verif Require Import Floats SpecFloats.
Local Open Scope Z_scope.

Definition shl (j : nat) (p : positive) : positive := Nat.iter j xO p.
Lemma shl_S : forall j p, shl (S j) p = xO (shl j p).
Proof. reflexivity. Qed.
Lemma shl_xO : forall j p, shl j (xO p) = xO (shl j p).
Proof. induction j as [|j IH]; intros p; [reflexivity|]. rewrite !shl_S, IH. reflexivity. Qed.
Lemma shl_val : forall j p, Zpos (shl j p) = Zpos p * 2 ^ Z.of_nat j.
Proof.
  induction j as [|j IH]; intros p; [cbn; lia|]. rewrite shl_S, Pos2Z.inj_xO, IH, Nat2Z.inj_succ, Z.pow_succ_r by lia. lia.
Qed.
Lemma shift_pos_shl : forall d p, shift_pos d p = shl (Pos.to_nat d) p.
Proof.
  intros d p. unfold shift_pos, shl. rewrite Pos2Nat.inj_iter. reflexivity.
Qed.
Lemma digits_shl : forall j p, Zpos (digits2_pos (shl j p)) = Zpos (digits2_pos p) + Z.of_nat j.
Proof.
  induction j as [|j IH]; intros p; [cbn; lia|]. rewrite shl_S. cbn [digits2_pos]. rewrite Pos2Z.inj_succ, IH. lia.
Qed.
Lemma iter_add : forall A (f : A -> A) a b x, Nat.iter (a + b) f x = Nat.iter a f (Nat.iter b f x).
Proof. intros A f a b x. induction a as [|a IH]; [reflexivity|]. cbn [Nat.iter Nat.add nat_rect]. now f_equal. Qed.
Lemma iter_pos_nat : forall A (f : A -> A) n x, SpecFloat.iter_pos f n x = Nat.iter (Pos.to_nat n) f x.
Proof.
  intros A f n. induction n as [n IH|n IH|]; intros x; cbn [SpecFloat.iter_pos].
  - rewrite !IH, Pos2Nat.inj_xI. rewrite <- iter_add.
    replace (S (2 * Pos.to_nat n)) with ((Pos.to_nat n + Pos.to_nat n) + 1)%nat by lia.
    now rewrite (iter_add _ _ _ 1).
  - rewrite !IH, Pos2Nat.inj_xO, <- iter_add. f_equal. lia.
  - reflexivity.
Qed.
Lemma shr_shl : forall j p, Nat.iter j shr_1 (Build_shr_record (Zpos (shl j p)) false false) = Build_shr_record (Zpos p) false false.
Proof.
  induction j as [|j IH]; intros p; [reflexivity|]. rewrite shl_S.
  replace (S j) with (j + 1)%nat by lia. rewrite iter_add. cbn [Nat.iter nat_rect shr_1 orb]. apply IH.
Qed.

Section Exact.
  Variables prec emax : Z.
  Hypothesis P : 2 <= prec.
  Hypothesis E : prec < emax.
  (** rounding a number with at most [prec] significant bits *)
  Lemma shr_fexp_none : forall m e, emin prec emax <= e -> Zpos (digits2_pos m) <= prec ->
    shr_fexp prec emax (Zpos m) e loc_Exact = (Build_shr_record (Zpos m) false false, e).
  Proof.
    intros m e L D. unfold shr_fexp, fexp, shr_record_of_loc, Zdigits2, shr.
    set (n := Z.max (Zpos (digits2_pos m) + e - prec) (emin prec emax) - e).
    assert (n <= 0) by (subst n; lia). destruct n; [reflexivity|lia|reflexivity].
  Qed.
  Lemma shr_fexp_some : forall j m e, emin prec emax <= e -> Zpos (digits2_pos m) = prec ->
    shr_fexp prec emax (Zpos (shl j m)) e loc_Exact = (Build_shr_record (Zpos m) false false, e + Z.of_nat j).
  Proof.
    intros [|j] m e L D.
    - cbn [shl Nat.iter]. rewrite Z.add_0_r. apply shr_fexp_none; lia.
    - unfold shr_fexp, fexp, shr_record_of_loc, Zdigits2, shr. rewrite digits_shl, D.
      replace (Z.max (prec + Z.of_nat (S j) + e - prec) (emin prec emax) - e) with (Zpos (Pos.of_succ_nat j)) by lia.
      rewrite iter_pos_nat, SuccNat2Pos.id_succ, shr_shl. f_equal; lia.
  Qed.
  Lemma round_exact : forall s j m e, emin prec emax <= e -> Zpos (digits2_pos m) = prec -> e + Z.of_nat j <= emax - prec ->
    binary_round_aux prec emax s (Zpos (shl j m)) e loc_Exact = S754_finite s m (e + Z.of_nat j).
  Proof.
    intros s j m e L D M. unfold binary_round_aux. rewrite shr_fexp_some by auto. cbn [shr_m loc_of_shr_record round_nearest_even].
    rewrite shr_fexp_none by lia. cbn [shr_m]. destruct (Z.leb_spec (e + Z.of_nat j) (emax - prec)); [reflexivity|lia].
  Qed.
  (** the float for an integer that fits in the mantissa *)
  Definition room (p : positive) : nat := Z.to_nat (prec - Zpos (digits2_pos p)).
  Lemma of_int_exact : forall s p, Zpos (digits2_pos p) <= prec ->
    binary_round prec emax s p 0 = S754_finite s (shl (room p) p) (Zpos (digits2_pos p) - prec).
  Proof.
    intros s p D. unfold binary_round, shl_align, fexp. rewrite Z.add_0_r.
    assert (ED : Zpos (digits2_pos (shl (room p) p)) = prec) by (rewrite digits_shl; unfold room; lia).
    rewrite Z.max_l by (unfold emin; lia). rewrite Z.sub_0_r.
    destruct (Zpos (digits2_pos p) - prec) as [|q|q] eqn:EQ.
    - assert (R : room p = 0%nat) by (unfold room; lia). rewrite R in *. cbn [shl Nat.iter] in *.
      change (Zpos p) with (Zpos (shl 0 p)). rewrite (round_exact s 0 p 0); [reflexivity|unfold emin; lia|exact ED|lia].
    - lia.
    - rewrite shift_pos_shl. replace (Pos.to_nat q) with (room p) by (unfold room; lia).
      change (Zpos (shl (room p) p)) with (Zpos (shl 0 (shl (room p) p))).
      rewrite (round_exact s 0); [f_equal; lia|unfold emin; lia|exact ED|lia].
  Qed.
  (** the quotient by 2^k *)
  Lemma div_exact : forall s p (k : Z), Zpos (digits2_pos p) <= prec -> 0 <= k -> emin prec emax + k + prec < 0 ->
    SFdiv prec emax (S754_finite s (shl (room p) p) (Zpos (digits2_pos p) - prec))
                    (S754_finite false (shl (Z.to_nat (prec - 1)) 1) (k + 1 - prec)) =
    S754_finite s (shl (room p) p) (Zpos (digits2_pos p) - prec - k).
  Proof.
    intros s p k D K M. unfold SFdiv, SFdiv_core_binary, Zdigits2.
    assert (ED : Zpos (digits2_pos (shl (room p) p)) = prec) by (rewrite digits_shl; unfold room; lia).
    assert (E2 : Zpos (digits2_pos (shl (Z.to_nat (prec - 1)) 1)) = prec) by (rewrite digits_shl; cbn [digits2_pos]; lia).
    rewrite ED, E2. unfold fexp. set (d := Zpos (digits2_pos p)) in *.
    assert (D1 : 1 <= d) by (unfold d; lia).
    rewrite (Z.max_l (prec + (d - prec) - (prec + (k + 1 - prec)) - prec)) by lia.
    rewrite Z.min_l by lia.
    replace (d - prec - (k + 1 - prec) - (prec + (d - prec) - (prec + (k + 1 - prec)) - prec)) with prec by lia.
    assert (PP : exists q, prec = Zpos q) by (destruct prec; [lia|eauto|lia]). destruct PP as (q & EQ).
    rewrite EQ at 1. cbv iota.
    assert (S1 : Z.shiftl (Zpos (shl (room p) p)) prec = Zpos (shl 1 (shl (room p) p)) * Zpos (shl (Z.to_nat (prec - 1)) 1)).
    { rewrite Z.shiftl_mul_pow2 by lia. rewrite (shl_val 1 (shl (room p) p)), (shl_val (Z.to_nat (prec - 1)) 1), Z2Nat.id by lia.
      replace (2 ^ prec) with (2 * 2 ^ (prec - 1)) by (rewrite <- Z.pow_succ_r by lia; f_equal; lia).
      change (2 ^ Z.of_nat 1) with 2. ring. }
    rewrite S1. set (y := Zpos (shl (Z.to_nat (prec - 1)) 1)). set (x := Zpos (shl 1 (shl (room p) p))).
    assert (DE : Z.div_eucl (x * y) y = (x, 0)).
    { pose proof (Z.div_mul x y ltac:(subst y; lia)) as A. pose proof (Z.mod_mul x y ltac:(subst y; lia)) as B.
      unfold Z.div in A. unfold Z.modulo in B. destruct (Z.div_eucl (x * y) y). congruence. }
    rewrite DE. unfold new_location. replace (if Z.even y then new_location_even y else new_location_odd y) with (new_location y) by reflexivity.
    assert (NL : new_location y 0 = loc_Exact) by (unfold new_location, new_location_even, new_location_odd; now destruct (Z.even y)).
    fold (new_location y). rewrite NL. unfold x.
    rewrite round_exact; [|lia|exact ED|lia]. rewrite Bool.xorb_false_r. f_equal. lia.
  Qed.
End Exact.

Lemma digits_small : forall p k, Zpos p < 2 ^ k -> 0 <= k -> Zpos (digits2_pos p) <= k.
Proof.
  assert (H : forall p, 2 ^ (Zpos (digits2_pos p) - 1) <= Zpos p).
  { induction p as [p IH|p IH|]; cbn [digits2_pos]; [| |reflexivity]; rewrite Pos2Z.inj_succ;
      replace (Z.succ (Zpos (digits2_pos p)) - 1) with (Z.succ (Zpos (digits2_pos p) - 1)) by lia;
      rewrite Z.pow_succ_r by lia; lia. }
  intros p k L K. specialize (H p). destruct (Z.le_gt_cases (Zpos (digits2_pos p)) k) as [|G]; [assumption|exfalso].
  assert (2 ^ k <= 2 ^ (Zpos (digits2_pos p) - 1)) by (apply Z.pow_le_mono_r; lia). lia.
Qed.
Lemma quotient : forall prec emax k f, 2 <= prec -> prec < emax -> 0 <= k -> emin prec emax + k + prec < 0 ->
  f = S754_finite false (shl (Z.to_nat (prec - 1)) 1) (k + 1 - prec) ->
  forall n, Z.abs n < 2 ^ prec -> is_quotient (SFdiv prec emax (binary_normalize prec emax n 0 false) f) n k.
Proof.
  intros prec emax k f P E K M F n L.
  assert (Q : forall s p, Zpos p < 2 ^ prec ->
    is_quotient (SFdiv prec emax (binary_round prec emax s p 0) f) (if s then Zneg p else Zpos p) k).
  { intros s p Lp. pose proof (digits_small p prec Lp ltac:(lia)) as D. subst f.
    rewrite of_int_exact, div_exact by auto. cbn [is_quotient].
    rewrite Z.max_l, Z.max_r by lia. rewrite Z.mul_1_r, shl_val. unfold room.
    rewrite Z2Nat.id by lia.
    replace (- (Zpos (digits2_pos p) - prec - k + k)) with (prec - Zpos (digits2_pos p)) by lia.
    destruct s; [|reflexivity]. change (Zneg p) with (- Zpos p). ring. }
  destruct n as [|p|p]; cbn [binary_normalize].
  - subst f. cbn. auto.
  - apply (Q false). exact L.
  - apply (Q true). exact L.
Qed.
Lemma quotient64 : forall n, Z.abs n < 2 ^ 53 -> is_quotient (float64_div (float64_of n) (float64_of 65536)) n 16.
Proof.
  apply (quotient 53 1024 16); [lia|lia|lia|reflexivity|vm_compute; reflexivity].
Qed.
Lemma quotient32 : forall n, Z.abs n < 2 ^ 24 -> is_quotient (float32_div (float32_of n) (float32_of 256)) n 8.
Proof.
  apply (quotient 24 128 8); [lia|lia|lia|reflexivity|vm_compute; reflexivity].
Qed.
