(** C61: the numbers in the playlists of the divide command. *)
From Coq Require Import ZArith FloatClass SpecFloat Lia Bool Permutation.
From Verif Require Import Base BaseProofs Schema Structs Registry Unmarshal BoxInfo Accessors Probe SpecProbe SpecTree TreeProofs SpecExtract PropExtract SpecTool ToolProofs SpecReport
  PropProbe PropReport AccessorProofs GoText ProbeTool Divide SpecDivide Floats FloatFacts FloatRound FloatOps DivideFloats SpecPlaylist PropDivide.
Local Open Scope string_scope.
Local Open Scope list_scope.
Local Open Scope Z_scope.

(** ** The duration as a float *)
Lemma seconds_zero : forall t, (0 < t < 2 ^ 32)%N -> float_seconds (mkseconds 0 t) = S754_zero false.
Proof.
  intros t T. destruct (of_int_near (Z.of_N t) ltac:(lia)) as (m & e & (F & M & E) & _).
  unfold float_seconds. cbn [sec_duration sec_timescale]. change (float64_of (Z.of_N 0)) with (S754_zero false). rewrite F. reflexivity.
Qed.
Lemma cancel_abs : forall a b c u, 0 < u -> Z.abs (a * u - b * u) * c <= b * u -> Z.abs (a - b) * c <= b.
Proof.
  intros a b c u P H. replace (a * u - b * u) with ((a - b) * u) in H by ring. rewrite Z.abs_mul, (Z.abs_eq u) in H by lia.
  apply (Z.mul_le_mono_pos_r _ _ u P). lia.
Qed.
Lemma seconds_near : forall d t, (0 < d < 2 ^ 32)%N -> (0 < t < 2 ^ 32)%N ->
  exists m e, full (float_seconds (mkseconds d t)) m e (-117) 13 /\
    Z.abs (val m e * Z.of_N t - Z.of_N d * U) * 2 ^ 53 <= Z.of_N d * U /\
    (forall k, Z.of_N d = k * Z.of_N t -> val m e = k * U).
Proof.
  intros d t D T. pose proof U_pos as HU.
  destruct (of_int_near (Z.of_N d) ltac:(lia)) as (mx & ex & (FX & MX & EX) & _ & VX).
  destruct (of_int_near (Z.of_N t) ltac:(lia)) as (my & ey & (FY & MY & EY) & _ & VY).
  specialize (VX ltac:(lia)). specialize (VY ltac:(lia)).
  destruct (div_near (float64_of (Z.of_N d)) (float64_of (Z.of_N t)) mx ex my ey) as (m & e & (F & M & E) & NR & XK).
  { split; [exact FX|]. split; [exact MX|lia]. }
  { split; [exact FY|]. split; [exact MY|lia]. }
  exists m, e. split; [split; [exact F|split; [exact M|lia]]|]. rewrite VX, VY in *. clear MX MY M. set (W := 2 ^ 53) in *. clearbody W.
  set (u := U) in *. clearbody u. split.
  - apply (cancel_abs _ _ _ u HU). replace (val m e * Z.of_N t * u - Z.of_N d * u * u) with (val m e * (Z.of_N t * u) - Z.of_N d * u * u) by ring. exact NR.
  - intros k K. apply XK; [|rewrite K; ring]. change (2 ^ 32) with 4294967296 in *. change (2 ^ 32)%N with 4294967296%N in *. nia.
Qed.

(** the value of the float, in units of 2 ^ -1074, is between the same whole numbers
    as the duration *)
Definition ceils (V : Z) (T : N) : Prop := (Z.of_N T - 1) * U < V <= Z.of_N T * U.
Lemma ceiling_spec : forall d, (0 < sec_timescale d)%N -> (0 < sec_duration d)%N ->
  (Z.of_N (ceiling d) - 1) * Z.of_N (sec_timescale d) < Z.of_N (sec_duration d) <= Z.of_N (ceiling d) * Z.of_N (sec_timescale d).
Proof.
  intros [d t]. unfold ceiling. cbn [sec_duration sec_timescale]. intros T D.
  pose proof (N.div_mod (d + t - 1) t ltac:(lia)) as Q. pose proof (N.mod_lt (d + t - 1) t ltac:(lia)) as R.
  set (q := ((d + t - 1) / t)%N) in *. set (r := ((d + t - 1) mod t)%N) in *. clearbody q r. nia.
Qed.
Lemma between : forall V T t d u W, 0 < u -> 0 < t -> 0 < d < W -> Z.abs (V * t - d * u) * W <= d * u ->
  (d = T * t -> V = T * u) -> (T - 1) * t < d <= T * t -> (T - 1) * u < V <= T * u.
Proof.
  intros V T t d u W HU HT HD NR XK [L R].
  assert (S1 : V * t < (d + 1) * u) by nia. assert (S2 : (d - 1) * u < V * t) by nia.
  destruct (Z.eq_dec d (T * t)) as [EQ|NE].
  - rewrite (XK EQ). nia.
  - assert (d + 1 <= T * t) by lia. assert ((T - 1) * t <= d - 1) by lia. split.
    + apply (Z.mul_lt_mono_pos_r t); [exact HT|]. nia.
    + apply Z.lt_le_incl. apply (Z.mul_lt_mono_pos_r t); [exact HT|]. nia.
Qed.
Lemma seconds_worth : forall d, timed d -> exists V, worth (float_seconds d) V /\ ceils V (ceiling d).
Proof.
  intros [d t] [D T]. cbn [sec_duration sec_timescale] in *. destruct (N.eq_dec d 0) as [->|NZ].
  - exists 0. split; [left; split; [now apply seconds_zero|reflexivity]|].
    replace (ceiling (mkseconds 0 t)) with 0%N; [unfold ceils; pose proof U_pos; lia|].
    unfold ceiling. cbn [sec_duration sec_timescale]. symmetry. apply N.div_small. lia.
  - destruct (seconds_near d t ltac:(lia) T) as (m & e & (F & M & E) & NR & XK). exists (val m e). split.
    + right. exists m, e. split; [|reflexivity]. split; [exact F|]. split; [exact M|lia].
    + pose proof (ceiling_spec (mkseconds d t) (proj1 T) ltac:(cbn [sec_duration]; lia)) as C. cbn [sec_duration sec_timescale] in C.
      apply (between _ _ (Z.of_N t) (Z.of_N d) U (2 ^ 53)); [apply U_pos|lia|lia|exact NR|apply XK|exact C].
Qed.

(** ** TARGETDURATION *)
Lemma ceils_mono : forall V W S T, ceils V S -> ceils W T -> V <= W -> (S <= T)%N.
Proof.
  unfold ceils. intros V W S T A B L. pose proof U_pos as P. set (u := U) in *. clearbody u.
  assert ((Z.of_N S - 1) * u < Z.of_N T * u) by lia. nia.
Qed.
Lemma max_worth : forall l f V T, Forall timed l -> worth f V -> ceils V T ->
  exists W, worth (fold_left (fun m d => if float64_gt (float_seconds d) m then float_seconds d else m) l f) W /\
            ceils W (N.max T (longest l)).
Proof.
  induction l as [|d r IH]; intros f V T HT HF HC; cbn [fold_left].
  - exists V. split; [exact HF|]. unfold longest. cbn [map fold_right]. now rewrite N.max_0_r.
  - destruct (seconds_worth d (Forall_inv HT)) as (Vd & Fd & Cd). unfold float64_gt at 2. rewrite (lt_worth _ _ _ _ HF Fd).
    change (longest (d :: r)) with (N.max (ceiling d) (longest r)). rewrite N.max_assoc.
    destruct (Z.ltb_spec V Vd) as [L|L].
    + rewrite (N.max_r T (ceiling d)) by (apply (ceils_mono _ _ _ _ HC Cd); lia). exact (IH _ _ _ (Forall_inv_tail HT) Fd Cd).
    + rewrite (N.max_l T (ceiling d)) by (apply (ceils_mono _ _ _ _ Cd HC); lia). exact (IH _ _ _ (Forall_inv_tail HT) HF HC).
Qed.
Lemma int_ceil_worth : forall u f V T, worth f V -> ceils V T -> (T < 2 ^ 63)%N -> int_ceil u f = Z.of_N T.
Proof.
  intros u f V T HF HC LT. pose proof U_pos as P. destruct HF as [(-> & ->)|(m & e & (-> & M & E) & ->)]; unfold int_ceil.
  - unfold ceils in HC. set (v := U) in *. clearbody v. nia.
  - set (z := - (- (Z.pos m * 2 ^ Z.max 0 e) / 2 ^ Z.max 0 (- e))).
    assert (EZ : z = Z.of_N T).
    { apply (ceil_unique U (val m e)); [exact P| |exact HC]. apply ceil_spec; [apply Z.pow_pos_nonneg; lia|exact P|apply parts; lia]. }
    rewrite EZ. destruct (Z.ltb_spec (Z.of_N T) (2 ^ 63)); [reflexivity|lia].
Qed.
Lemma ceiling_small : forall d, timed d -> (ceiling d < 2 ^ 32)%N.
Proof.
  intros [d t] [D T]. unfold ceiling. cbn [sec_duration sec_timescale] in *.
  pose proof (N.div_mod (d + t - 1) t ltac:(lia)) as Q. pose proof (N.mod_lt (d + t - 1) t ltac:(lia)) as R.
  set (q := ((d + t - 1) / t)%N) in *. set (r := ((d + t - 1) mod t)%N) in *. clearbody q r. nia.
Qed.
Lemma longest_small : forall l, Forall timed l -> (longest l < 2 ^ 32)%N.
Proof.
  unfold longest. induction 1 as [|d r H _ IH]; cbn [map fold_right]; [reflexivity|]. apply ceiling_small in H. lia.
Qed.
Theorem C61_target : forall unheld l, Forall timed l -> go_target_text unheld l = dec_text (longest l).
Proof.
  intros u l H. unfold go_target_text, max_duration.
  destruct (max_worth l (S754_zero false) 0 0%N H) as (W & HW & HC).
  { left. split; reflexivity. }
  { unfold ceils. pose proof U_pos. lia. }
  rewrite N.max_0_l in HC. pose proof (longest_small l H) as L.
  rewrite (int_ceil_worth u _ W (longest l) HW HC) by lia.
  unfold int_text. destruct (Z.ltb_spec (Z.of_N (longest l)) 0); [lia|]. now rewrite Zabs2N.id.
Qed.
Print Assumptions C61_target.

(** ** EXTINF *)
Lemma round_even_near : forall n d, (0 < d)%N -> 2 * Z.abs (Z.of_N (round_even n d) * Z.of_N d - Z.of_N n) <= Z.of_N d.
Proof.
  intros n d D. unfold round_even. pose proof (N.div_mod n d ltac:(lia)) as Q. pose proof (N.mod_lt n d ltac:(lia)) as R.
  set (q := (n / d)%N) in *. set (r := (n mod d)%N) in *. clearbody q r. subst n.
  destruct (N.ltb_spec (2 * r) d); cbn [orb]; [nia|]. destruct (N.eqb_spec (2 * r) d); cbn [andb]; [destruct (N.even q); nia|nia].
Qed.
Lemma extinf_near : forall q V t d u W, 0 < u -> 0 < t -> 0 < d -> 0 < W -> 2 * Z.abs (q * u - V * 1000000) <= u ->
  Z.abs (V * t - d * u) * W <= d * u -> 2 * W * Z.abs (q * t - 1000000 * d) <= W * t + 2000000 * d.
Proof.
  intros q V t d u W HU HT HD HW H1 H2.
  apply (Z.mul_le_mono_pos_r _ _ u HU).
  assert (A : 2 * Z.abs (q * u * t - V * 1000000 * t) <= u * t).
  { rewrite <- Z.mul_sub_distr_r, Z.abs_mul, (Z.abs_eq t) by lia. nia. }
  assert (B : Z.abs (q * t - 1000000 * d) * u = Z.abs ((q * u * t - V * 1000000 * t) + (V * t - d * u) * 1000000)).
  { rewrite <- (Z.abs_eq u) at 1 by lia. rewrite <- Z.abs_mul. f_equal. ring. }
  pose proof (Z.abs_triangle (q * u * t - V * 1000000 * t) ((V * t - d * u) * 1000000)) as TR.
  rewrite <- B, (Z.abs_mul _ 1000000) in TR. change (Z.abs 1000000) with 1000000 in TR.
  set (a := Z.abs (q * u * t - V * 1000000 * t)) in *. set (b := Z.abs (V * t - d * u)) in *. set (c := Z.abs (q * t - 1000000 * d)) in *.
  clearbody a b c. clear B H1. nia.
Qed.
Theorem C61_extinf : forall d, timed d -> exists q, go_seconds_text d = decimals q /\ is_millionths d q /\
  let error := Z.abs (Z.of_N q * Z.of_N (sec_timescale d) - 1000000 * Z.of_N (sec_duration d)) in
  2 ^ 54 * error <= 2 ^ 53 * Z.of_N (sec_timescale d) + 2000000 * Z.of_N (sec_duration d).
Proof.
  intros [d t] [D T]. cbn [sec_duration sec_timescale] in *. unfold go_seconds_text, is_millionths. cbn [sec_duration sec_timescale].
  destruct (N.eq_dec d 0) as [->|NZ].
  - exists 0%N. rewrite seconds_zero by exact T. split; [vm_compute; reflexivity|]. rewrite !Z.mul_0_l, Z.mul_0_r. change (Z.abs (0 - 0)) with 0. lia.
  - destruct (seconds_near d t ltac:(lia) T) as (m & e & (F & M & E) & NR & _). rewrite F. unfold verb_f.
    set (a := Z.pos m * 2 ^ Z.max 0 e). assert (PA : 0 < a) by (apply Z.mul_pos_pos; [lia|apply Z.pow_pos_nonneg; lia]).
    set (q := round_even (Z.abs_N a * 10 ^ 6) (2 ^ Z.to_N (- e))). exists q.
    assert (H1 : 2 * Z.abs (Z.of_N q * U - val m e * 1000000) <= U).
    { pose proof (round_even_near (Z.abs_N a * 10 ^ 6) (2 ^ Z.to_N (- e)) ltac:(apply N.neq_0_lt_0, N.pow_nonzero; discriminate)) as R. fold q in R.
      rewrite N2Z.inj_mul, N2Z.inj_pow, N2Z.inj_abs_N, (Z.abs_eq a) in R by lia. change (Z.of_N (10 ^ 6)) with 1000000 in R. change (Z.of_N 2) with 2 in R.
      replace (Z.of_N (Z.to_N (- e))) with (Z.max 0 (- e)) in R by lia. pose proof (parts m e ltac:(lia)) as PT. fold a in PT.
      assert (PB : 0 < 2 ^ Z.max 0 (- e)) by (apply Z.pow_pos_nonneg; lia). pose proof U_pos as HU.
      set (b := 2 ^ Z.max 0 (- e)) in *. set (u := U) in *. set (V := val m e) in *. clearbody b u V a q. clear - R PT PB HU.
      apply (Z.mul_le_mono_pos_r _ _ b PB).
      replace (2 * Z.abs (Z.of_N q * u - V * 1000000) * b) with (2 * Z.abs (Z.of_N q * b - a * 1000000) * u); [nia|].
      rewrite <- !Z.mul_assoc. f_equal. rewrite <- (Z.abs_eq u) at 1 by lia. rewrite <- (Z.abs_eq b) at 2 by lia. rewrite <- !Z.abs_mul. f_equal.
      replace ((Z.of_N q * b - a * 1000000) * u) with (Z.of_N q * b * u - a * u * 1000000) by ring. rewrite PT. ring. }
    pose proof (extinf_near (Z.of_N q) (val m e) (Z.of_N t) (Z.of_N d) U (2 ^ 53) U_pos ltac:(lia) ltac:(lia) ltac:(lia) H1 NR) as B.
    split; [|split].
    + unfold float_text. fold q. destruct (Z.ltb_spec a 0); [lia|]. reflexivity.
    + change (2 ^ 53) with 9007199254740992 in B. change (2 ^ 32)%N with 4294967296%N in *. lia.
    + exact B.
Qed.
Print Assumptions C61_extinf.

(** ** BANDWIDTH *)
Lemma rate_above : forall B VF V VS n t d u W, 5 <= W -> 0 < u -> 0 < t -> 0 < d -> 0 < n -> 0 <= B -> 0 < V -> B * u <= VF ->
  Z.abs (VF * V - 8 * VS * u) * W <= 8 * VS * u -> Z.abs (VS - n * u) * W <= n * u -> Z.abs (V * t - d * u) * W <= d * u ->
  B * d * W <= 8 * n * t * (W + 4).
Proof.
  intros B VF V VS n t d u W HW HU HT HD HN HB HV BF H1 H2 H3.
  assert (A1 : VF * V * W <= 8 * VS * u * (W + 1)) by nia. assert (A2 : VS * W <= n * u * (W + 1)) by nia.
  assert (A3 : d * u * (W - 1) <= V * t * W) by nia. clear H1 H2 H3.
  assert (B1 : B * u * V * W <= 8 * VS * u * (W + 1)) by nia.
  assert (B2 : B * V * W <= 8 * VS * (W + 1)) by (apply (Z.mul_le_mono_pos_r _ _ u HU); lia). clear A1 B1.
  assert (B3 : B * V * W * W <= 8 * (n * u * (W + 1)) * (W + 1)) by nia.
  assert (B4 : B * (V * t * W) * W <= 8 * n * t * u * ((W + 1) * (W + 1))) by nia. clear B2 B3 A2.
  assert (B5 : B * (d * u * (W - 1)) * W <= B * (V * t * W) * W) by (apply Z.mul_le_mono_nonneg_r; [lia|apply Z.mul_le_mono_nonneg_l; lia]).
  assert (B6 : (W + 1) * (W + 1) <= (W + 4) * (W - 1)) by nia.
  assert (B7 : 8 * n * t * u * ((W + 1) * (W + 1)) <= 8 * n * t * u * ((W + 4) * (W - 1))) by (apply Z.mul_le_mono_nonneg_l; nia).
  assert (P : 0 < u * (W - 1)) by nia. apply (Z.mul_le_mono_pos_r _ _ _ P). lia.
Qed.
Lemma rate_below : forall B VF V VS n t d u W, 5 <= W -> 0 < u -> 0 < t -> 0 < d -> 0 < n -> 0 <= B -> 0 < V -> VF < (B + 1) * u ->
  Z.abs (VF * V - 8 * VS * u) * W <= 8 * VS * u -> Z.abs (VS - n * u) * W <= n * u -> Z.abs (V * t - d * u) * W <= d * u ->
  8 * n * t * (W - 4) < (B + 1) * d * W.
Proof.
  intros B VF V VS n t d u W HW HU HT HD HN HB HV BF H1 H2 H3. set (C := B + 1) in *. assert (HC : 0 < C) by (unfold C; lia). clearbody C. clear B HB.
  assert (A1 : 8 * VS * u * (W - 1) <= VF * V * W) by nia. assert (A2 : n * u * (W - 1) <= VS * W) by nia.
  assert (A3 : V * t * W <= d * u * (W + 1)) by nia. clear H1 H2 H3.
  assert (B1 : VF * V * W < C * u * V * W) by (apply Z.mul_lt_mono_pos_r; [lia|apply Z.mul_lt_mono_pos_r; lia]).
  assert (B2 : 8 * VS * (W - 1) < C * V * W) by (apply (Z.mul_lt_mono_pos_r u); lia). clear A1 B1 BF.
  assert (B3 : 8 * (n * u * (W - 1)) * (W - 1) < C * V * W * W) by nia.
  assert (B4 : 8 * n * t * u * ((W - 1) * (W - 1)) < C * (V * t * W) * W) by nia. clear B2 B3 A2.
  assert (B5 : C * (V * t * W) * W <= C * (d * u * (W + 1)) * W) by (apply Z.mul_le_mono_nonneg_r; [lia|apply Z.mul_le_mono_nonneg_l; lia]).
  assert (B6 : (W - 4) * (W + 1) <= (W - 1) * (W - 1)) by nia.
  assert (B7 : 8 * n * t * u * ((W - 4) * (W + 1)) <= 8 * n * t * u * ((W - 1) * (W - 1))) by (apply Z.mul_le_mono_nonneg_l; nia).
  assert (P : 0 < u * (W + 1)) by nia. apply (Z.mul_lt_mono_pos_r _ _ _ P). lia.
Qed.
Theorem C61_bandwidth : forall unheld size d, rated size d ->
  let bits := go_bits_per_second unheld size d in at_most_rate size d bits /\ at_least_rate size d bits.
Proof.
  intros un n [d t] ((D & T) & DP & NB & RB). cbn [sec_duration sec_timescale] in *. unfold at_most_rate, at_least_rate, go_bits_per_second. cbn [sec_duration sec_timescale].
  destruct (seconds_near d t ltac:(lia) T) as (m & e & (F & M & E) & NR & _).
  destruct (N.eq_dec n 0) as [->|NZ].
  - change (float64_mul (float64_of (Z.of_N 0)) (float64_of 8)) with (S754_zero false). rewrite F.
    change (to_uint64 un (float64_div (S754_zero false) (S754_finite false m e))) with 0%N. lia.
  - destruct (of_int_near (Z.of_N n) ltac:(lia)) as (mx & ex & (FX & MX & EX) & NX & _).
    assert (F8 : full (float64_mul (float64_of (Z.of_N n)) (float64_of 8)) mx (ex + 3) (-197) 203) by (apply mul_8; split; [exact FX|split; [exact MX|lia]]).
    destruct F8 as (F8 & _ & _).
    destruct (div_near (float64_mul (float64_of (Z.of_N n)) (float64_of 8)) (float_seconds (mkseconds d t)) mx (ex + 3) m e) as (mf & ef & (FF & MF & EF) & NF & _).
    { split; [exact F8|]. split; [exact MX|lia]. }
    { split; [exact F|]. split; [exact M|lia]. }
    rewrite FF. unfold to_uint64.
    assert (V8 : val mx (ex + 3) = 8 * val mx ex).
    { unfold val. replace (ex + 3 + 1074) with (3 + (ex + 1074)) by lia. rewrite split_pow by lia. change (2 ^ 3) with 8. ring. }
    rewrite V8 in NF. pose proof U_pos as HU. pose proof (val_pos m e ltac:(lia)) as VP.
    pose proof (floor_spec (Z.pos mf * 2 ^ Z.max 0 ef) (2 ^ Z.max 0 (- ef)) U (val mf ef) ltac:(apply Z.pow_pos_nonneg; lia) HU (parts mf ef ltac:(lia))) as [LO HI].
    assert (ZP : 0 <= Z.pos mf * 2 ^ Z.max 0 ef / 2 ^ Z.max 0 (- ef)).
    { apply Z.div_pos; [|apply Z.pow_pos_nonneg; lia]. apply Z.mul_nonneg_nonneg; [lia|apply Z.pow_nonneg; lia]. }
    set (z := Z.pos mf * 2 ^ Z.max 0 ef / 2 ^ Z.max 0 (- ef)) in *. clearbody z.
    pose proof (rate_above z _ _ _ (Z.of_N n) (Z.of_N t) (Z.of_N d) U (2 ^ 53) ltac:(lia) HU ltac:(lia) ltac:(lia) ltac:(lia) ZP VP LO NF NX NR) as AB.
    pose proof (rate_below z _ _ _ (Z.of_N n) (Z.of_N t) (Z.of_N d) U (2 ^ 53) ltac:(lia) HU ltac:(lia) ltac:(lia) ltac:(lia) ZP VP HI NF NX NR) as BE.
    clear - AB BE ZP RB DP. change (2 ^ 53) with 9007199254740992 in *. change (2 ^ 51)%N with 2251799813685248%N. change (2 ^ 63)%N with 9223372036854775808%N in RB.
    assert (ZL : z < 2 ^ 64).
    { change (2 ^ 64) with 18446744073709551616. assert (z * Z.of_N d * 9007199254740992 < 9223372036854775808 * Z.of_N d * (9007199254740992 + 4)) by lia.
      assert (0 < Z.of_N d) by lia. nia. }
    destruct (Z.ltb_spec z (2 ^ 64)); [|lia]. split; lia.
Qed.
Print Assumptions C61_bandwidth.

(** ** The timescale of a track *)
Local Open Scope N_scope.
Lemma mdhd_timescale : forall data size ctx pos d x n pos', pos <= lenN data -> lenN data < 2 ^ 62 ->
  unmarshal_any std_registry data (bt "mdhd") size ctx pos = (Ok (d, x, n), pos') -> uint_of "Timescale" x < 2 ^ 32.
Proof.
  intros data size ctx pos d x n pos' Hp Hd H.
  assert (C : forall has, always (bt "mdhd") (fun d => two_versions d && (AccessorProofs.at_place has 0 false "Timescale" (12, 4) d &&
                                                                     AccessorProofs.at_place has 1 false "Timescale" (20, 4) d)) = true)
    by (intros has; vm_compute; reflexivity).
  destruct (decoded_two _ _ _ _ _ _ _ _ _ _ Hp Hd H (C (flag_test x))) as (P & _ & L & V & _). apply andb_prop in P. destruct P as [P0 P1].
  unfold uint_of. destruct V as [V|V].
  - rewrite <- V in P0. apply (AccessorProofs.at_place_ok ctx d x _ false _ 12 4 L P0).
  - rewrite <- V in P1. apply (AccessorProofs.at_place_ok ctx d x _ false _ 20 4 L P1).
Qed.
Lemma trak_timescale_small : forall data e, lenN data < 2 ^ 62 -> placed data e -> trak_timescale data e < 2 ^ 32.
Proof.
  intros data e D62 P. unfold trak_timescale, number_in. destruct (at_paths data e [["mdia"; "mdhd"]]) as [|z [|]] eqn:Z; try reflexivity.
  assert (I : In z (at_paths data e [["mdia"; "mdhd"]])) by (rewrite Z; now left). clear Z.
  apply filter_In in I. destruct I as [I S].
  pose proof (below_last data e) as BL. rewrite Forall_forall in BL. specialize (BL z I).
  apply selected1_in in S; [|repeat constructor]. destruct S as [_ [S|[]]].
  assert (T : e_type z = bt "mdhd").
  { rewrite <- BL. destruct (e_path z) as [|a p]; [discriminate S|]. cbn [skipn map] in S. subst p. reflexivity. }
  destruct P as (pre & post & lst & A & EI).
  assert (PZ : Forall (placed data) (below data e)).
  { unfold below. assert (EO : bi_offset (e_info e) = lenN pre) by (rewrite EI; reflexivity). rewrite EO. eapply box_placed. exact A. }
  rewrite Forall_forall in PZ. destruct (PZ z I) as (pre' & post' & lst' & A' & EI'). clear - T A' EI' D62.
  unfold fields_of, e_decoded, decoded.
  assert (EO : bi_offset (e_info z) = lenN pre') by (rewrite EI'; reflexivity). rewrite EO.
  assert (ET : box_type (e_box z) = bt "mdhd") by (rewrite <- T; unfold e_type; rewrite EI'; reflexivity). rewrite ET.
  pose proof (place_size data D62 pre' post' lst' (e_box z) A') as (S1 & S2 & _).
  destruct (unmarshal_any std_registry data (bt "mdhd") _ _ _) as [r q] eqn:U. cbn [fst]. destruct r as [[[d x] n]| | |]; try reflexivity.
  eapply mdhd_timescale; [|exact D62|exact U]. lia.
Qed.

(** ** The playlists *)
Lemma mdats_in : forall l m, In m (mdats l) -> In m l.
Proof.
  induction l as [|a r IH]; intros m H; [destruct H|]. cbn [mdats] in H. destruct (is_type "moof" a); [destruct H|].
  destruct (is_type "mdat" a); [destruct H as [H|H]; [now left|right; auto]|right; auto].
Qed.
Lemma fragments_in : forall l f m, In f (fragments l) -> In m (snd f) -> In m l.
Proof.
  induction l as [|a r IH]; intros f m H M; [destruct H|]. cbn [fragments] in H. destruct (is_type "moof" a).
  - destruct H as [<-|H]; right; [now apply mdats_in|eauto].
  - right. eauto.
Qed.
Lemma numbered_same : forall (l : list seconds) (qs : list N) i, Forall2 (fun d q => go_seconds_text d = decimals q) l qs ->
  flat_map (fun x => [ lit "#EXTINF:" ++ go_seconds_text (snd x) ++ lit ","; dec_text (fst x) ++ lit ".mp4" ]) (numbered i l) =
  flat_map (fun x => [ lit "#EXTINF:" ++ decimals (snd x) ++ lit ","; dec_text (fst x) ++ lit ".mp4" ]) (numbered i qs).
Proof.
  intros l qs i H. revert i. induction H as [|d q l qs E _ IH]; intros i; [reflexivity|]. cbn [numbered flat_map fst snd]. now rewrite E, IH.
Qed.
Lemma millionths_below : forall d q T, timed d -> is_millionths d q -> ceiling d <= T -> q <= 1000000 * T.
Proof.
  intros d q T [D TS] Q L. unfold is_millionths in Q. destruct (N.eq_dec (sec_duration d) 0) as [Z|Z].
  - rewrite Z in Q. assert (q = 0); [|lia]. nia.
  - pose proof (ceiling_spec d ltac:(lia) ltac:(lia)) as [_ C].
    assert (C2 : (Z.of_N (sec_duration d) <= Z.of_N T * Z.of_N (sec_timescale d))%Z) by nia. clear C L D. nia.
Qed.
Lemma longest_above : forall l d, In d l -> ceiling d <= longest l.
Proof.
  unfold longest. induction l as [|a r IH]; intros d I; [destruct I|]. cbn [map fold_right]. destruct I as [<-|I]; [lia|]. specialize (IH d I). lia.
Qed.
(** the playlist of a track *)
Theorem C61_playlist : forall unheld l, Forall timed l -> exists qs, Forall2 is_millionths l qs /\
  Forall (fun q => q <= 1000000 * longest l) qs /\        (* no duration exceeds the target duration *)
  track_list go_seconds_text (go_target_text unheld) l = playlist (longest l) qs.
Proof.
  intros un l H.
  assert (Q : exists qs, Forall2 (fun d q => go_seconds_text d = decimals q /\ is_millionths d q) l qs).
  { clear un. induction H as [|d r T _ (qs & IH)]; [exists []; constructor|]. destruct (C61_extinf d T) as (q & E & M & _). exists (q :: qs). constructor; auto. }
  destruct Q as (qs & Q). exists qs. split; [|split].
  - clear - Q. induction Q as [|d q l qs [_ M] _ IH]; constructor; auto.
  - assert (K : forall d, In d l -> ceiling d <= longest l) by (intros; now apply longest_above). set (T := longest l) in *. clearbody T. clear un.
    induction Q as [|d q l qs [_ M] _ IH]; constructor.
    + apply (millionths_below d); [exact (Forall_inv H)|exact M|apply K; now left].
    + apply IH; [exact (Forall_inv_tail H)|]. intros d' I. apply K. now right.
  - unfold track_list, playlist. rewrite C61_target by exact H. do 3 f_equal. f_equal. apply numbered_same.
    clear - Q. induction Q as [|d q l qs [E _] _ IH]; constructor; auto.
Qed.
Print Assumptions C61_playlist.

Lemma rate_up : forall size d a b, a <= b -> at_least_rate size d a -> at_least_rate size d b.
Proof. intros size d a b L H. unfold at_least_rate in *. eapply N.lt_le_trans; [exact H|]. apply N.mul_le_mono_r, N.mul_le_mono_r. lia. Qed.
Lemma highest : forall l x, In x l -> x <= fold_right N.max 0 l.
Proof. induction l as [|a r IH]; intros x I; [destruct I|]. cbn [fold_right]. destruct I as [<-|I]; [lia|]. specialize (IH x I). lia. Qed.
Lemma highest_in : forall l, fold_right N.max 0 l = 0 \/ In (fold_right N.max 0 l) l.
Proof.
  induction l as [|a r IH]; [now left|]. cbn [fold_right In]. destruct (N.max_spec a (fold_right N.max 0 r)) as [[_ ->]|[_ ->]]; [|now right; left].
  destruct IH as [->|I]; [left; reflexivity|now right; right].
Qed.
Theorem C61_divide : forall order unheld_uint64 unheld_int ts files, let data := file_bytes ts in
  (forall k l, Permutation (order k l) l) -> divisible ts ->
  let all := list_file data ctx0 false 0 0 ts in
  let traks := filter (fun e => selected 0 [[bt "moov"; bt "trak"]] (e_path e)) all in
  let tops := filter (fun e => (List.length (e_path e) =? 1)%nat) all in
  let known := filter (fun e => match trak_kind data e with Some _ => true | None => false end) traks in
  NoDup (map (trak_id data) known) -> NoDup (map (trak_kind data) known) ->
  go_divide unheld_uint64 unheld_int order data = (Ok tt, files) ->
  files Master = Some (movie_list (go_bits_per_second unheld_uint64) data traks tops) /\
  forall e k, In e traks -> trak_kind data e = Some k -> trak_timescale data e <> 0 ->
  let fs := fragments_of data (trak_id data e) tops in
  let l := map (fragment_seconds data (trak_timescale data e)) fs in
  (exists qs, Forall2 is_millionths l qs /\ Forall (fun q => q <= 1000000 * longest l) qs /\
     files (Of k Playlist) = Some (playlist (longest l) qs)) /\
  let bits := bandwidth (go_bits_per_second unheld_uint64) data (trak_timescale data e) fs in
  ((forall f m, In f fs -> In m (snd f) -> 0 < moof_duration data (fst f) /\
      8 * box_size (e_box m) * trak_timescale data e < 2 ^ 63 * moof_duration data (fst f)) ->
   (forall f m, In f fs -> In m (snd f) -> at_least_rate (box_size (e_box m)) (fragment_seconds data (trak_timescale data e) f) bits) /\
   (bits = 0 \/ exists f m, In f fs /\ In m (snd f) /\ at_most_rate (box_size (e_box m)) (fragment_seconds data (trak_timescale data e) f) bits)).
Proof.
  intros order u1 u2 ts files data OK (D62 & HW & HR & HM & SE & ST & SF) all traks tops known NI NK H.
  pose proof (C58_divide order _ _ _ ts files OK D62 HW HR HM SE ST SF NI NK H) as [DT DM _]. fold data all traks tops in DT, DM.
  split; [exact DM|]. intros e k I K Z fs l.
  assert (PL : Forall (placed data) all) by (apply (file_placed data ctx0) with (pre := []); [exact HW|reflexivity]).
  rewrite Forall_forall in PL.
  assert (TS : trak_timescale data e < 2 ^ 32) by (apply trak_timescale_small; [exact D62|]; apply PL; apply filter_In in I; apply I).
  assert (TM : forall f, timed (fragment_seconds data (trak_timescale data e) f)).
  { intros f. split; cbn [fragment_seconds sec_duration sec_timescale]; [|lia]. unfold moof_duration. apply N.mod_lt. discriminate. }
  split.
  - destruct (C61_playlist u2 l) as (qs & Q1 & Q2 & Q3).
    { unfold l. apply Forall_map, Forall_forall. intros f _. apply TM. }
    exists qs. split; [exact Q1|]. split; [exact Q2|]. destruct (DT e k I K) as (_ & P & _). rewrite P, <- Q3. reflexivity.
  - intros bits RT.
    assert (RD : forall f m, In f fs -> In m (snd f) -> rated (box_size (e_box m)) (fragment_seconds data (trak_timescale data e) f)).
    { intros f m If Im. destruct (RT f m If Im) as [R1 R2]. split; [apply TM|]. cbn [fragment_seconds sec_duration sec_timescale].
      split; [exact R1|]. split; [|exact R2]. unfold fs, fragments_of in If. apply filter_In in If. destruct If as [If _].
      pose proof (fragments_in _ _ _ If Im) as It. unfold tops in It. apply filter_In in It. destruct (PL m (proj1 It)) as (pre & post & lst & A & _).
      pose proof (place_size data D62 pre post lst (e_box m) A) as (S1 & _). pose proof (D62 : lenN data < 4611686018427387904) as D. change (2 ^ 64) with 18446744073709551616.
      clear - S1 D. lia. }
    unfold bits, bandwidth. split.
    + intros f m If Im. eapply rate_up; [|exact (proj2 (C61_bandwidth u1 _ _ (RD f m If Im)))]. apply highest. apply in_flat_map. exists f. split; [exact If|].
      apply in_map_iff. exists m. split; [reflexivity|exact Im].
    + match goal with |- ?x = 0 \/ _ => assert (HI : x = 0 \/ In x (flat_map (fun f => map (fun m => go_bits_per_second u1 (box_size (e_box m)) (fragment_seconds data (trak_timescale data e) f)) (snd f)) fs)) by apply highest_in end.
      destruct HI as [HI|HI]; [now left|right]. apply in_flat_map in HI. destruct HI as (f & If & HI). apply in_map_iff in HI. destruct HI as (m & E & Im).
      exists f, m. split; [exact If|]. split; [exact Im|]. rewrite <- E. exact (proj1 (C61_bandwidth u1 _ _ (RD f m If Im))).
Qed.
Print Assumptions C61_divide.

(** ** Cases *)
(** 1/3 s, 30 s of 90000ths and one of them less, one 90000th of a second more, the
    longest there is, and none *)
Example C61_case :
  let l := [mkseconds 1 3; mkseconds 2700000 90000; mkseconds 2699999 90000] in
  Forall timed l /\
  map go_seconds_text l = [lit "0.333333"; lit "30.000000"; lit "29.999989"] /\ map ceiling l = [1; 30; 30] /\
  (forall unheld, go_target_text unheld l = lit "30" /\ go_target_text unheld (mkseconds 2700001 90000 :: l) = lit "31") /\
  go_seconds_text (mkseconds 4294967295 7) = lit "613566756.428571" /\ go_seconds_text (mkseconds 0 7) = lit "0.000000" /\
  go_seconds_text (mkseconds 4294967295 4294967294) = lit "1.000000" /\
  forall unheld, go_target_text unheld [mkseconds 4294967295 4294967294] = lit "2".
Proof.
  cbv zeta. split; [repeat constructor|]. split; [vm_compute; reflexivity|]. split; [vm_compute; reflexivity|].
  split; [intros; split; vm_compute; reflexivity|]. repeat (split; [vm_compute; reflexivity|]). intros. vm_compute. reflexivity.
Qed.
Example C61_bandwidth_case : forall unheld,
  rated 1000001 (mkseconds 3 7) /\ go_bits_per_second unheld 1000001 (mkseconds 3 7) = 18666685 /\
  (* 18666685.33... bits per second *) 8 * 1000001 * 7 / 3 = 18666685 /\
  (* a fragment without a duration: what Go makes of infinity *)
  go_bits_per_second unheld 1000001 (mkseconds 0 7) = unheld (S754_infinity false) /\
  (* a track without a timescale *)
  go_bits_per_second unheld 1000001 (mkseconds 3 0) = 0 /\ go_bits_per_second unheld 1000001 (mkseconds 0 0) = unheld S754_nan /\
  go_seconds_text (mkseconds 3 0) = lit "+Inf" /\ go_seconds_text (mkseconds 0 0) = lit "NaN".
Proof. intros u. split; [split; [repeat constructor|split; [reflexivity|split; reflexivity]]|]. repeat split; vm_compute; reflexivity. Qed.
(** the file of C58 *)
Example C61_divide_case : forall unheld_uint64 unheld_int,
  divisible divide_tree /\
  let r := go_divide unheld_uint64 unheld_int in_order (file_bytes divide_tree) in
  fst r = Ok tt /\
  snd r (Of TVideo Playlist) = Some (playlist 3 [2000000; 3000000]) /\
  snd r (Of TVideo Playlist) = Some (lines [ lit "#EXTM3U"; lit "#EXT-X-VERSION:7"; lit "#EXT-X-TARGETDURATION:3"; lit "#EXT-X-PLAYLIST-TYPE:VOD";
    lit "#EXT-X-MAP:URI=""init.mp4"""; lit "#EXTINF:2.000000,"; lit "0.mp4"; lit "#EXTINF:3.000000,"; lit "1.mp4"; lit "#EXT-X-ENDLIST" ]) /\
  snd r (Of TAudio Playlist) = Some (playlist 1 [1000000]) /\
  snd r Master = Some (lines [ lit "#EXTM3U";
    lit "#EXT-X-MEDIA:TYPE=AUDIO,URI=""audio/playlist.m3u8"",GROUP-ID=""audio"",NAME=""audio"",AUTOSELECT=YES,CHANNELS=""2""";
    lit "#EXT-X-STREAM-INF:BANDWIDTH=40,CODECS=""avc1.64001f,mp4a.40.2"",RESOLUTION=640x360,AUDIO=""audio""";
    lit "video/playlist.m3u8" ]).
Proof. intros u1 u2. split; [divisible|]. cbv zeta. repeat (split; [vm_compute; reflexivity|]). vm_compute; reflexivity. Qed.
