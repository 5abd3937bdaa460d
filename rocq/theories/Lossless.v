(** Re-encoding what a plain box was decoded from gives the bits that were
    consumed. *)
From Verif Require Import Base BitIO Schema Structs Methods Registry Marshal Unmarshal SpecCodec
     SpecRoundTrip SpecLossless Decode.
From Verif Require Import BaseProofs BitIOProofs BitIOFacts MarshalProofs MarshalCount UnmarshalProofs
     DecodeFacts VersionFacts Causal RoundTripBase RoundTripProofs Shape.
Local Open Scope string_scope.
Local Open Scope list_scope.
Local Open Scope N_scope.
Local Open Scope dec_scope.
Ltac Zify.zify_post_hook ::= Z.to_euclidean_division_equations.

(** ** Bounds on dynamic sizes and lengths *)
(** an upper bound of the value of an expression, from bounds of the fields *)
Fixpoint ub (fs : flds) (e : mexp) : option N :=
  match e with
  | MConst n => Some n
  | MField j => match bound_of fs j with Some n => Some (n - 1) | None => None end
  | MIf _ a b => obind (ub fs a) (fun x => obind (ub fs b) (fun y => Some (N.max x y)))
  | MAdd a b => obind (ub fs a) (fun x => obind (ub fs b) (fun y => Some (x + y)))
  | MMul a b => obind (ub fs a) (fun x => obind (ub fs b) (fun y => Some (x * y)))
  | MMul32 a b => obind (ub fs a) (fun x => obind (ub fs b) (fun y => Some (x * y)))
  | MSub _ _ => None
  | MPanic => Some 0
  end.
Lemma ub_ok : forall fs l ver fl ctx, bounded fs l -> forall e n m, ub fs e = Some n ->
  meval (mkenv l ver fl ctx) e = Some m -> m <= n.
Proof.
  intros fs l ver fl ctx B. induction e; intros n0 m H M; cbn [ub meval] in *.
  - assert (n = n0) by congruence. assert (n = m) by congruence. lia.
  - cbn [e_self] in M. destruct (bound_of fs name) as [k|] eqn:E; [|discriminate]. apply (proj1 B) in E.
    assert (as_uint (lookup name l) = m) by congruence. assert (k - 1 = n0) by congruence. lia.
  - apply obind_some in H. destruct H as (x & Hx & H). apply obind_some in H. destruct H as (y & Hy & H).
    assert (N.max x y = n0) by congruence.
    destruct (ceval _ c); [specialize (IHe1 _ _ Hx M)|specialize (IHe2 _ _ Hy M)]; lia.
  - apply obind_some in H. destruct H as (x & Hx & H). apply obind_some in H. destruct H as (y & Hy & H).
    apply obind_some in M. destruct M as (x' & Mx & M). apply obind_some in M. destruct M as (y' & My & M).
    assert (x + y = n0) by congruence. assert (Em : w64 (x' + y') = m) by congruence.
    specialize (IHe1 _ _ Hx Mx). specialize (IHe2 _ _ Hy My). unfold w64, W64 in Em. lia.
  - discriminate.
  - apply obind_some in H. destruct H as (x & Hx & H). apply obind_some in H. destruct H as (y & Hy & H).
    apply obind_some in M. destruct M as (x' & Mx & M). apply obind_some in M. destruct M as (y' & My & M).
    assert (x * y = n0) by congruence. assert (Em : w64 (x' * y') = m) by congruence.
    specialize (IHe1 _ _ Hx Mx). specialize (IHe2 _ _ Hy My). unfold w64 in Em.
    assert (x' * y' <= x * y) by (apply N.mul_le_mono; auto).
    assert (m <= x' * y') by (subst m; apply N.mod_le; discriminate). lia.
  - apply obind_some in H. destruct H as (x & Hx & H). apply obind_some in H. destruct H as (y & Hy & H).
    apply obind_some in M. destruct M as (x' & Mx & M). apply obind_some in M. destruct M as (y' & My & M).
    assert (x * y = n0) by congruence. assert (Em : w32 (x' * y') = m) by congruence.
    specialize (IHe1 _ _ Hx Mx). specialize (IHe2 _ _ Hy My). unfold w32 in Em.
    assert (x' * y' <= x * y) by (apply N.mul_le_mono; auto).
    assert (m <= x' * y') by (subst m; apply N.mod_le; discriminate). lia.
  - discriminate.
Qed.

(** a number of bytes that does not wrap around when counted in bits, or is
    too large to be allocated *)
Definition len_fine (len : N) : Prop := len < 2 ^ 61 \/ maxAlloc <= w64 (len * 8) / 8.
Definition len_ok (fs : flds) (e : mexp) : bool :=
  match ub fs e with
  | Some n => n <? 2 ^ 61
  | None => match e with
            | MField j => sbound_of fs j
            | MSub (MField j) (MConst c) => sbound_of fs j && (c <? 2 ^ 32)
            | _ => false
            end
  end.
Lemma len_ok_fine : forall fs l ver fl ctx, bounded fs l -> forall e m, len_ok fs e = true ->
  meval (mkenv l ver fl ctx) e = Some m -> len_fine m.
Proof.
  intros fs l ver fl ctx B e m H M. unfold len_ok in H. destruct (ub fs e) as [n|] eqn:U.
  - left. apply N.ltb_lt in H. pose proof (ub_ok _ _ _ _ _ B _ _ _ U M). lia.
  - unfold len_fine, w64, W64, maxAlloc. change (2 ^ 61) with 2305843009213693952.
    assert (K : forall j, sbound_of fs j = true ->
      as_uint (lookup j l) < 4294967296 \/ 18446744069414584320 <= as_uint (lookup j l) < 18446744073709551616).
    { intros j Hj. apply (proj2 B) in Hj. unfold small_or_neg in Hj.
      change (2 ^ 64 - 2 ^ 32) with 18446744069414584320 in Hj. exact Hj. }
    destruct e; try discriminate.
    + cbn [meval e_self] in M. assert (as_uint (lookup name l) = m) by congruence. subst m. clear M U.
      specialize (K name H). clear B H. set (x := as_uint (lookup name l)) in *. clearbody x.
      destruct K; [left|right]; lia.
    + destruct e1; try discriminate. destruct e2; try discriminate. apply andb_prop in H. destruct H as [H1 H2].
      apply N.ltb_lt in H2. cbn [meval e_self obind] in M. specialize (K name H1).
      assert (Em : sub64 (as_uint (lookup name l)) n = m) by congruence. subst m. clear M U B H1.
      change (2 ^ 32) with 4294967296 in H2.
      set (x := as_uint (lookup name l)) in *. clearbody x. unfold sub64, W64.
      destruct (N.le_gt_cases n x), K; [left|right|right|right]; lia.
Qed.

(** ** The check on schemas *)
Section Check.
  Variables (rname : string) (rootfs : flds).
  (** [zub]: bound of the size; [lok]: the length is fine *)
  Fixpoint pl_val (zub : option N) (lok : bool) (f : finfo) (t : sty) : bool :=
    match t with
    | SUint w => negb (f_varint f) && (w <=? 64) && match zub with Some z => z <=? w | None => false end
    | SInt w => (w <=? 64) && match zub with Some z => z <=? w | None => false end
    | SBool => match zub with Some z => z <=? 1 | None => false end
    | SStr => false
    | SPtr u | SArr _ u => pl_val zub lok f u
    | SSlice u => (negb (is_u8 u) || lok) && pl_val zub lok f u
    | SStruct name cfo fs => pl_flds name cfo fs fs
    end
  with pl_flds (sname : string) (cfo : bool) (all fs : flds) : bool :=
    match fs with
    | FNil => true
    | FCons f t r =>
        let cn := if cfo then sname else rname in
        let bfs := if cfo then all else rootfs in
        match hook_of cn (f_name f) with
        | HNone => pl_val (if f_sizeDyn f then ub bfs (m_size cn (f_name f)) else Some (f_size f))
                     (if f_lenDyn f then len_ok bfs (m_len cn (f_name f)) else f_length f <? 2 ^ 61) f t
        | HAvcHigh => match t with SBool => true | _ => false end
        | _ => false
        end && pl_flds sname cfo all r
    end.
End Check.
Lemma std_plain : forallb (fun d => implb (plain_box d)
  (pl_flds (bd_name d) (bd_flds d) (bd_name d) true (bd_flds d) (bd_flds d))) all_defs = true.
Proof. vm_compute. reflexivity. Qed.

Lemma pl_flds_cons : forall rname rootfs sname cfo all f t r,
  pl_flds rname rootfs sname cfo all (FCons f t r) =
        let cn := if cfo : bool then sname else rname in
        let bfs := if cfo then all else rootfs in
        match hook_of cn (f_name f) with
        | HNone => pl_val rname rootfs (if f_sizeDyn f then ub bfs (m_size cn (f_name f)) else Some (f_size f))
                     (if f_lenDyn f then len_ok bfs (m_len cn (f_name f)) else f_length f <? 2 ^ 61) f t
        | HAvcHigh => match t with SBool => true | _ => false end
        | _ => false
        end && pl_flds rname rootfs sname cfo all r.
Proof. reflexivity. Qed.

(** ** Leaves *)
Lemma d_take_inv : forall n p bits b p' bits', d_take n (p, bits) = Ok (b, (p', bits')) ->
  bits = b ++ bits' /\ lenN b = n /\ p' = p + n.
Proof.
  intros n p bits b p' bits' H. unfold d_take in H. cbn [fst snd] in H.
  destruct (N.leb_spec n (lenN bits)); [|discriminate].
  assert (E : b = takeN n bits /\ p' = p + n /\ bits' = skipN n bits) by (now injection H as <- <- <-).
  destruct E as (-> & -> & ->). rewrite takeN_skipN, lenN_takeN. repeat split. lia.
Qed.
Lemma d_bytes_inv : forall n p bits b p' bits', d_bytes n (p, bits) = Ok (b, (p', bits')) ->
  bits = bits_of_bytes b ++ bits' /\ lenN b = n /\ p' = p + 8 * n.
Proof.
  intros n p bits b p' bits' H. unfold d_bytes in H. cbn [fst snd] in H.
  destruct (p mod 8 =? 0).
  - destruct (N.leb_spec (8 * n) (lenN bits)) as [L|].
    2:{ destruct (lenN bits =? 0); discriminate. }
    assert (E : b = pack (takeN (8 * n) bits) /\ p' = p + 8 * n /\ bits' = skipN (8 * n) bits)
      by (now injection H as <- <- <-).
    destruct E as (-> & -> & ->).
    assert (LT : lenN (takeN (8 * n) bits) = 8 * n) by (rewrite lenN_takeN; lia).
    assert (P : bits_of_bytes (pack (takeN (8 * n) bits)) = takeN (8 * n) bits).
    { apply (pack_bits (N.to_nat n) (takeN (8 * n) bits)). unfold lenN in LT. lia. }
    rewrite P, takeN_skipN. repeat split.
    assert (LB : lenN (bits_of_bytes (pack (takeN (8 * n) bits))) = 8 * n) by (now rewrite P).
    rewrite lenN_bits_of_bytes in LB. lia.
  - destruct (N.eqb_spec n 0) as [->|]; [|discriminate].
    assert (E : b = [] /\ p' = p /\ bits' = bits) by (now injection H as <- <- <-).
    destruct E as (-> & -> & ->). repeat split. lia.
Qed.

Lemma uint_bits_of : forall b, uint_bits (lenN b) (bits_to_N b) = b.
Proof. intros b. unfold uint_bits, lenN. rewrite Nat2N.id. apply N_to_bits_to_N. Qed.

Lemma d_uint_inv : forall k w size p bits v p' bits', w <= 64 -> size <= w ->
  d_uint k w false size (p, bits) = Ok (v, (p', bits')) ->
  exists b, bits = b ++ bits' /\ p' = p + lenN b /\ lenN b = size /\
            v = VUint (bits_to_N b) /\ bits_to_N b < 2 ^ size /\ bits_to_N b < 2 ^ w.
Proof.
  intros k w size p bits v p' bits' W S H. unfold d_uint in H.
  destruct (size =? 0); [discriminate|]. unfold dbind in H.
  destruct (d_take size (p, bits)) as [[b [p1 bits1]]| | |] eqn:E; try discriminate.
  apply d_take_inv in E. destruct E as (-> & Lb & ->). unfold dret in H.
  pose proof (bits_to_N_lt b) as B. rewrite Lb in B.
  assert (B2 : bits_to_N b < 2 ^ w).
  { eapply N.lt_le_trans; [exact B|]. apply N.pow_le_mono_r; [discriminate|exact S]. }
  assert (B3 : bits_to_N b < 2 ^ 64).
  { eapply N.lt_le_trans; [exact B2|]. apply N.pow_le_mono_r; [discriminate|exact W]. }
  unfold w64, W64 in H. change (2 ^ 64) with 18446744073709551616 in B3.
  rewrite (N.mod_small (bits_to_N b)) in H by exact B3. rewrite N.mod_small in H by exact B2.
  assert (E : v = VUint (bits_to_N b) /\ p' = p + size /\ bits' = bits1) by (now injection H as <- <- <-).
  destruct E as (-> & -> & ->). exists b. rewrite Lb. auto 10.
Qed.
(** any size, any width *)
Lemma d_uint_lt : forall k w var size st v st', d_uint k w var size st = Ok (v, st') ->
  as_uint (Some v) < 2 ^ w /\ (var = false -> as_uint (Some v) < 2 ^ size).
Proof.
  intros k w var size [p bits] v [p' bits'] H. unfold d_uint in H. destruct var.
  - unfold dbind in H. destruct (d_uvarint k (p, bits)) as [[n [q r]]| | |]; try discriminate.
    unfold dret in H. assert (E : v = VUint (n mod 2 ^ w)) by (now injection H). subst v.
    split; [|discriminate]. apply N.mod_lt. apply N.pow_nonzero. discriminate.
  - destruct (size =? 0); [discriminate|]. unfold dbind in H.
    destruct (d_take size (p, bits)) as [[b [p1 bits1]]| | |] eqn:E; try discriminate.
    apply d_take_inv in E. destruct E as (_ & Lb & _). unfold dret in H.
    assert (E : v = VUint (w64 (bits_to_N b) mod 2 ^ w)) by (now injection H). subst v.
    cbn [as_uint]. split; [apply N.mod_lt; apply N.pow_nonzero; discriminate|]. intros _.
    pose proof (bits_to_N_lt b) as B. rewrite Lb in B. unfold w64.
    apply N.le_lt_trans with (bits_to_N b); auto.
    apply N.le_trans with (bits_to_N b mod W64); apply N.mod_le; try discriminate.
    apply N.pow_nonzero; discriminate.
Qed.

Lemma twos_fits : forall b, lenN b <> 0 -> int_fits (lenN b) (twos (lenN b) b) = true /\
  ofZ (lenN b) (twos (lenN b) b) = bits_to_N b.
Proof.
  intros b Hl. destruct b as [|h b]; [now rewrite lenN_nil in Hl|]. rewrite lenN_cons in *.
  set (n := lenN b) in *.
  assert (V2 : bits_to_N (h :: b) = (if h then 2 ^ n else 0) + bits_to_N b).
  { change (h :: b) with ([h] ++ b). rewrite bits_to_N_app. fold n. destruct h; cbn [bits_to_N bits_to_N_acc]; lia. }
  pose proof (bits_to_N_lt b) as B. fold n in B.
  assert (P : 2 ^ (n + 1) = 2 * 2 ^ n) by (rewrite N.add_1_r, N.pow_succ_r'; reflexivity).
  unfold int_fits, twos, ofZ. rewrite V2. replace (n + 1 - 1) with n by lia.
  set (m := bits_to_N b) in *. clearbody m. rewrite P in *. set (q := 2 ^ n) in *.
  assert (Q : 1 <= q). { unfold q. assert (2 ^ n <> 0) by (apply N.pow_nonzero; discriminate). lia. }
  clearbody q n. clear V2 P. split.
  - destruct (N.leb_spec 1 (n + 1)); [|lia].
    destruct h.
    + destruct (Z.leb_spec (- Z.of_N q) (Z.of_N (q + m) - Z.of_N (2 * q))); [|lia].
      destruct (Z.ltb_spec (Z.of_N (q + m) - Z.of_N (2 * q)) (Z.of_N q)); [|lia]. reflexivity.
    + destruct (Z.leb_spec (- Z.of_N q) (Z.of_N (0 + m))); [|lia].
      destruct (Z.ltb_spec (Z.of_N (0 + m)) (Z.of_N q)); [|lia]. reflexivity.
  - destruct h.
    + assert (E : ((Z.of_N (q + m) - Z.of_N (2 * q)) mod Z.of_N (2 * q) = Z.of_N (q + m))%Z).
      { symmetry. apply Z.mod_unique with (-1)%Z; [left|]; lia. }
      rewrite E. lia.
    + rewrite Z.mod_small by lia. lia.
Qed.

(** ** Frame *)
Lemma pl_hook : forall rname rootfs sname (cfo : bool) all f t r,
  pl_flds rname rootfs sname cfo all (FCons f t r) = true ->
  (hook_of (if cfo then sname else rname) (f_name f) = HNone \/
   hook_of (if cfo then sname else rname) (f_name f) = HAvcHigh /\ f_name f = "HighProfileFieldsEnabled" /\ t = SBool) /\
  pl_flds rname rootfs sname cfo all r = true.
Proof.
  intros rname rootfs sname cfo all f t r H. rewrite pl_flds_cons in H. cbv zeta in H.
  apply andb_prop in H. destruct H as [H Hr]. split; [|exact Hr].
  destruct (hook_of _ (f_name f)) eqn:E; try discriminate; [now left|right].
  split; [reflexivity|]. split; [exact (hook_avc _ _ E)|]. destruct t; try discriminate. reflexivity.
Qed.

Lemma pl_frame : forall k rn vs ctx rootfs all rt lim base sname (cfo : bool) fs self st self' st',
  pl_flds rn rootfs sname cfo all fs = true ->
  dec_flds k rn vs ctx rt lim base sname cfo self fs st = Ok (self', st') ->
  map fst self' = map fst self /\
  forall j, ~ In j (names_of fs) -> lookup j self' = lookup j self.
Proof.
  intros k rn vs ctx rootfs all rt lim base sname cfo.
  induction fs as [|f t rest IH]; intros self st self' st' P H.
  { assert (self = self') by (now injection H). subst. auto. }
  destruct (pl_hook _ _ _ _ _ _ _ _ P) as [HK PR].
  rewrite dec_flds_cons in H. cbv zeta in H.
  destruct (resolve_size _ _ f) as [size|]; [|discriminate].
  destruct (resolve_len _ _ f) as [len|]; [|discriminate].
  unfold dbind in H at 1.
  match type of H with match ?m st with _ => _ end = _ => set (step := m) in H end.
  destruct (step st) as [[s1 st1]| | |] eqn:E; try discriminate.
  assert (L : map fst s1 = map fst self /\ forall j, j <> f_name f -> lookup j s1 = lookup j self).
  { unfold step in E. clear step H. destruct (is_target _ _ _ _ _).
    2:{ assert (self = s1) by (now injection E). subst. auto. }
    unfold dbind in E at 1. unfold dpos in E at 1. unfold dbind in E at 1.
    destruct HK as [HK|(HK & HN & _)]; rewrite HK in E; cbn [d_hook] in E; unfold dret in E at 1.
    - destruct (lookup (f_name f) self) as [cur|]; [|discriminate]. unfold dbind in E.
      destruct (dec_val _ _ _ _ _ _ _ _ _ _ _ _ _) as [[x st3]| | |]; try discriminate.
      destruct (_ && _); [discriminate|].
      assert (X : update (f_name f) x self = s1) by (now injection E). subst s1.
      split; [apply keys_update|]. intros j Hj. now apply lookup_update_other.
    - match type of E with dret ?a _ = _ => assert (X : a = s1) by (now injection E) end. subst s1.
      split; [apply keys_update|]. intros j Hj. apply lookup_update_other. congruence. }
  destruct L as [L1 L2]. destruct (IH s1 st1 self' st' PR H) as [I1 I2]. split; [congruence|].
  intros j Hj. cbn [names_of In] in Hj. rewrite I2 by tauto. apply L2. intros ->. tauto.
Qed.

(** ** Bounds are kept *)
Lemma dec_val_bound : forall k rn vs ctx rt lim base cn env f size len t cur st v st',
  resolve_size cn env f = Some size ->
  dec_val k rn vs ctx rt lim base f size len t cur st = Ok (v, st') ->
  (forall n, field_bound f t = Some n -> as_uint (Some v) < n) /\
  (match t with SInt w => (1 <=? w) && (w <=? 32) | _ => false end = true -> small_or_neg (as_uint (Some v))).
Proof.
  intros k rn vs ctx rt lim base cn env f size len t cur st v st' R H.
  destruct t; cbn [field_bound]; split; try discriminate.
  - intros n E. cbn [dec_val] in H. apply d_uint_lt in H. destruct H as [H1 H2].
    unfold resolve_size in R. destruct (f_sizeDyn f); cbn [orb] in E.
    + assert (2 ^ w = n) by congruence. now subst n.
    + assert (f_size f = size) by congruence. subst size.
      destruct (f_varint f); [assert (2 ^ w = n) by congruence; now subst n|].
      assert (X : 2 ^ N.min w (f_size f) = n) by congruence. subst n. specialize (H2 eq_refl).
      destruct (N.min_spec w (f_size f)) as [[_ ->]|[_ ->]]; assumption.
  - intros W. apply andb_prop in W. destruct W as [W1 W2]. apply N.leb_le in W1, W2.
    cbn [dec_val] in H. unfold d_int in H. destruct (f_varint f); [discriminate|].
    destruct (size =? 0); [discriminate|]. unfold dbind in H.
    destruct (d_take size st) as [[b st1]| | |]; try discriminate. unfold dret in H. cbv zeta in H.
    match type of H with Ok (VInt (toZ w ?m), _) = _ => set (mm := m) in H end.
    assert (X : v = VInt (toZ w mm)) by (now injection H). subst v. cbn [as_uint].
    assert (B : (- 2 ^ 31 <= toZ w mm < 2 ^ 31)%Z).
    { unfold toZ. assert (P : 2 ^ w = 2 * 2 ^ (w - 1)) by (rewrite <- N.pow_succ_r'; f_equal; lia).
      assert (Q : 2 ^ (w - 1) <= 2 ^ 31) by (apply N.pow_le_mono_r; lia).
      assert (M : mm mod 2 ^ w < 2 ^ w) by (apply N.mod_lt; apply N.pow_nonzero; discriminate).
      set (y := mm mod 2 ^ w) in *. clearbody y. clear mm H. rewrite P in *. clear P W1 W2.
      set (h := 2 ^ (w - 1)) in *. clearbody h. change (2 ^ 31) with 2147483648 in Q.
      change (2 ^ 31)%Z with 2147483648%Z. destruct (N.ltb_spec y h); lia. }
    set (z := toZ w mm) in *. clearbody z. clear H mm. unfold ofZ, small_or_neg.
    change (2 ^ 64 - 2 ^ 32) with 18446744069414584320. change (2 ^ 64) with 18446744073709551616.
    change (2 ^ 32) with 4294967296. change (2 ^ 31)%Z with 2147483648%Z in B.
    change (Z.of_N 18446744073709551616) with 18446744073709551616%Z.
    assert (E : (z mod 18446744073709551616 = if (z <? 0)%Z then z + 18446744073709551616 else z)%Z).
    { destruct (Z.ltb_spec z 0).
      - symmetry. apply Z.mod_unique with (-1)%Z; [left|]; lia.
      - apply Z.mod_small. lia. }
    rewrite E. destruct (Z.ltb_spec z 0); [right|left]; lia.
Qed.

(** ** Values *)
Section LL.
  Variables (k : nat) (rname : string) (versions : list N) (ctx : context) (root : fields) (rootfs : flds).
  Local Notation v0 := (get_version root =? 0).

  Definition LV (t : sty) : Prop := forall vf droot rd lim base f size len zub lok cur p bits v p' bits',
    chk_val rname v0 vf droot t = true -> agree_root root vf droot rd -> bounded rootfs rd ->
    pl_val rname rootfs zub lok f t = true -> (forall z, zub = Some z -> size <= z) ->
    (lok = true -> len_fine len) -> nodup_val t = true -> shaped t cur ->
    dec_val k rname versions ctx rd lim base f size len t cur (p, bits) = Ok (v, (p', bits')) ->
    exists b, bits = b ++ bits' /\ p' = p + lenN b /\ layout_val rname root ctx f size len t v = Some b.

  Definition LF (fs : flds) : Prop :=
    forall top vf droot cfo sname all D Dend rt ltop lim base selfd self p bits p' bits',
    chk_flds rname v0 top vf droot cfo sname D fs = Some Dend ->
    match top with
    | Some hf => rt = None /\ self = root /\ (hf = false -> ~ In "FullBox" (map fst self)) /\ all = rootfs
    | None => exists rd, rt = Some rd /\ agree_root root vf droot rd /\ bounded rootfs rd
    end ->
    (forall j, In j D -> ~ In j (names_of fs)) ->
    pl_flds rname rootfs sname cfo all fs = true -> nodup_flds fs = true ->
    shaped_in fs selfd -> bounded all selfd ->
    (forall j, In j (names_of fs) -> bound_of all j = bound_of fs j /\ sbound_of all j = sbound_of fs j) ->
    dec_flds k rname versions ctx rt lim base sname cfo selfd fs (p, bits) = Ok (self, (p', bits')) ->
    exists b, bits = b ++ bits' /\ p' = p + lenN b /\
      layout_flds rname root ctx ltop sname cfo self fs = Some b.

  Lemma ll_map : forall u, LV u -> forall vf droot rd lim base f size len zub lok,
    chk_val rname v0 vf droot u = true -> agree_root root vf droot rd -> bounded rootfs rd ->
    pl_val rname rootfs zub lok f u = true -> (forall z, zub = Some z -> size <= z) ->
    (lok = true -> len_fine len) -> nodup_val u = true ->
    forall cl p bits v p' bits', Forall (shaped u) cl ->
    d_map (dec_val k rname versions ctx rd lim base f size len u) cl (p, bits) = Ok (v, (p', bits')) ->
    lenN v = lenN cl /\
    exists b, bits = b ++ bits' /\ p' = p + lenN b /\
      concat_bits (layout_val rname root ctx f size len u) v = Some b.
  Proof.
    intros u HV vf droot rd lim base f size len zub lok C A B P Z L N0.
    induction cl as [|c cl IH]; intros p bits v p' bits' S H; cbn [d_map] in H.
    - assert (E : v = [] /\ p' = p /\ bits' = bits) by (now injection H as <- <- <-).
      destruct E as (-> & -> & ->). split; [reflexivity|]. exists []. rewrite lenN_nil, N.add_0_r. auto.
    - inversion S as [|? ? S1 S2]; subst. unfold dbind in H.
      destruct (dec_val _ _ _ _ _ _ _ _ _ _ _ c (p, bits)) as [[x [p1 bits1]]| | |] eqn:E1; try discriminate.
      destruct (d_map _ cl (p1, bits1)) as [[xs [p2 bits2]]| | |] eqn:E2; try discriminate.
      assert (E : v = x :: xs /\ p' = p2 /\ bits' = bits2) by (now injection H as <- <- <-).
      destruct E as (-> & -> & ->).
      destruct (HV vf droot rd lim base f size len zub lok c p bits x p1 bits1) as (b1 & -> & -> & L1); auto.
      destruct (IH _ _ _ _ _ S2 E2) as (LL & b2 & -> & -> & L2).
      split; [rewrite !lenN_cons; lia|]. exists (b1 ++ b2). rewrite <- app_assoc, lenN_app.
      split; [reflexivity|]. split; [lia|]. cbn [concat_bits]. rewrite L1. cbn [obind]. rewrite L2. reflexivity.
  Qed.

  Lemma concat_bits_app : forall f l m a b, concat_bits f l = Some a -> concat_bits f m = Some b ->
    concat_bits f (l ++ m) = Some (a ++ b).
  Proof.
    intros f. induction l as [|x l IH]; intros m a b Ha Hb; cbn [concat_bits app] in *.
    - assert (a = []) by congruence. subst. exact Hb.
    - apply obind_some in Ha. destruct Ha as (c & Hc & Ha). apply obind_some in Ha. destruct Ha as (d & Hd & Ha).
      assert (a = c ++ d) by congruence. subst a. rewrite Hc. cbn [obind]. rewrite (IH m d b) by auto. cbn [obind].
      now rewrite app_assoc.
  Qed.

  (** invariant of the two loops: the list read so far, in reverse *)
  Definition acc_ok (enc : val -> option (list bool)) (p0 : N) (bits0 : list bool) (acc : list val) (p : N)
      (bits : list bool) : Prop :=
    exists b, bits0 = b ++ bits /\ p = p0 + lenN b /\ concat_bits enc (rev acc) = Some b.

  Lemma ll_elem : forall u, LV u -> forall vf droot rd lim base f size len zub lok,
    chk_val rname v0 vf droot u = true -> agree_root root vf droot rd -> bounded rootfs rd ->
    pl_val rname rootfs zub lok f u = true -> (forall z, zub = Some z -> size <= z) ->
    (lok = true -> len_fine len) -> nodup_val u = true ->
    forall p0 bits0 acc p bits acc' p' bits',
    acc_ok (layout_val rname root ctx f size len u) p0 bits0 acc p bits ->
    elem k rname versions ctx rd lim base f size len u acc (p, bits) = Ok (acc', (p', bits')) ->
    lenN acc' = lenN acc + 1 /\ acc_ok (layout_val rname root ctx f size len u) p0 bits0 acc' p' bits'.
  Proof.
    intros u HV vf droot rd lim base f size len zub lok C A B P Z L N0 p0 bits0 acc p bits acc' p' bits'
           (b & -> & -> & Hc) H.
    unfold elem, dbind in H.
    destruct (dec_val _ _ _ _ _ _ _ _ _ _ _ _ _) as [[x [p1 bits1]]| | |] eqn:E1; try discriminate.
    unfold dpos in H. cbn [fst] in H. destruct (lim <? p1 - base); [discriminate|].
    assert (E : acc' = x :: acc /\ p' = p1 /\ bits' = bits1) by (now injection H as <- <- <-).
    destruct E as (-> & -> & ->).
    destruct (HV vf droot rd lim base f size len zub lok (zero u) (p0 + lenN b) bits x p1 bits1)
      as (b1 & -> & -> & L1); auto.
    { now apply (proj1 zero_shaped). }
    split; [apply lenN_cons|]. exists (b ++ b1). rewrite <- app_assoc, lenN_app. split; [reflexivity|].
    split; [lia|]. cbn [rev]. apply concat_bits_app; auto. cbn [concat_bits]. rewrite L1. cbn [obind].
    now rewrite app_nil_r.
  Qed.

  Lemma ll_loop : forall u, LV u -> forall vf droot rd lim base f size len zub lok,
    chk_val rname v0 vf droot u = true -> agree_root root vf droot rd -> bounded rootfs rd ->
    pl_val rname rootfs zub lok f u = true -> (forall z, zub = Some z -> size <= z) ->
    (lok = true -> len_fine len) -> nodup_val u = true ->
    forall p0 bits0 n acc p bits acc' p' bits',
    acc_ok (layout_val rname root ctx f size len u) p0 bits0 acc p bits ->
    dloop n (elem k rname versions ctx rd lim base f size len u) acc (p, bits) = Ok (acc', (p', bits')) ->
    lenN acc' = lenN acc + N.of_nat n /\
    acc_ok (layout_val rname root ctx f size len u) p0 bits0 acc' p' bits'.
  Proof.
    intros u HV vf droot rd lim base f size len zub lok C A B P Z L N0 p0 bits0.
    induction n as [|n IH]; intros acc p bits acc' p' bits' K H; cbn [dloop] in H.
    - assert (E : acc' = acc /\ p' = p /\ bits' = bits) by (now injection H as <- <- <-).
      destruct E as (-> & -> & ->). split; [lia|auto].
    - unfold dbind in H.
      destruct (elem _ _ _ _ _ _ _ _ _ _ _ _ _) as [[a1 [p1 bits1]]| | |] eqn:E1; try discriminate.
      destruct (ll_elem u HV vf droot rd lim base f size len zub lok C A B P Z L N0 _ _ _ _ _ _ _ _ K E1) as [L1 K1].
      destruct (IH _ _ _ _ _ _ K1 H) as [L2 K2]. split; [lia|exact K2].
  Qed.
  Lemma ll_while : forall u, LV u -> forall vf droot rd lim base f size len zub lok,
    chk_val rname v0 vf droot u = true -> agree_root root vf droot rd -> bounded rootfs rd ->
    pl_val rname rootfs zub lok f u = true -> (forall z, zub = Some z -> size <= z) ->
    (lok = true -> len_fine len) -> nodup_val u = true ->
    forall p0 bits0 n acc p bits acc' p' bits',
    acc_ok (layout_val rname root ctx f size len u) p0 bits0 acc p bits ->
    dwhile n (fun acc => p <~ dpos ;;
                if lim <=? p - base then dret (inr acc)
                else acc' <~ elem k rname versions ctx rd lim base f size len u acc ;; dret (inl acc')) acc (p, bits)
      = Ok (acc', (p', bits')) ->
    acc_ok (layout_val rname root ctx f size len u) p0 bits0 acc' p' bits'.
  Proof.
    intros u HV vf droot rd lim base f size len zub lok C A B P Z L N0 p0 bits0.
    induction n as [|n IH]; intros acc p bits acc' p' bits' K H; cbn [dwhile] in H; [discriminate|].
    unfold dbind, dpos in H. cbn [fst] in H. destruct (lim <=? p - base).
    - unfold dret in H.
      assert (E : acc' = acc /\ p' = p /\ bits' = bits) by (now injection H as <- <- <-).
      destruct E as (-> & -> & ->). exact K.
    - destruct (elem _ _ _ _ _ _ _ _ _ _ _ _ _) as [[a1 [p1 bits1]]| | |] eqn:E1; try discriminate.
      unfold dret in H.
      destruct (ll_elem u HV vf droot rd lim base f size len zub lok C A B P Z L N0 _ _ _ _ _ _ _ _ K E1) as [L1 K1].
      exact (IH _ _ _ _ _ _ K1 H).
  Qed.

  Lemma layout_u8 : forall f len bs, f_varint f = false ->
    concat_bits (layout_val rname root ctx f 8 len (SUint 8)) (map (fun c : byte => VUint (b2N c)) bs) =
      Some (bits_of_bytes bs).
  Proof.
    intros f len bs V. induction bs as [|c bs IH]; [reflexivity|]. cbn [map concat_bits].
    rewrite IH. cbn [layout_val]. rewrite V. unfold uint_fits. change (2 ^ 8) with 256.
    destruct (N.ltb_spec (b2N c) 256) as [|Bad]; [|pose proof (b2N_lt c); lia]. cbn [andb obind].
    rewrite bits_of_bytes_cons, bits_of_byte_N. reflexivity.
  Qed.

  Lemma ll_slice : forall u, LV u -> LV (SSlice u).
  Proof.
    intros u HV vf droot rd lim base f size len zub lok cur p bits v p' bits' C A B P Z L N0 S H.
    rewrite dec_slice_eq in H. unfold dbind in H at 1. unfold dpos in H at 1. cbn [fst] in H. cbv zeta in H.
    cbn [chk_val nodup_val] in C, N0.
    change ((negb (is_u8 u) || lok) && pl_val rname rootfs zub lok f u = true) in P.
    apply andb_prop in P. destruct P as [P0 P].
    match type of H with (if ?c then dfail _ else _) _ = _ => destruct c; [discriminate|] end.
    destruct (((p - base) mod 8 =? 0) && is_u8 u && (size =? 8)) eqn:U8.
    - apply andb_prop in U8. destruct U8 as [U8 S8]. apply andb_prop in U8. destruct U8 as [P8 U8].
      rewrite U8 in P0. cbn [negb orb] in P0. specialize (L P0).
      apply N.eqb_eq in S8. apply is_u8_inv in U8. subst u size.
      set (total := w64 _ / 8) in H. unfold dbind, d_has in H.
      match type of H with (if negb ?c then _ else _) _ = _ => destruct c; [cbn [negb] in H|discriminate] end.
      destruct (N.leb_spec maxAlloc total) as [|TM]; [discriminate|].
      destruct (d_bytes total (p, bits)) as [[bs [p1 bits1]]| | |] eqn:E; try discriminate.
      apply d_bytes_inv in E. destruct E as (-> & Lb & ->). unfold dret in H.
      assert (E : v = VList (map (fun b : byte => VUint (b2N b)) bs) /\ p' = p + 8 * total /\ bits' = bits1)
        by (now injection H as <- <- <-).
      destruct E as (-> & -> & ->). exists (bits_of_bytes bs). rewrite lenN_bits_of_bytes, Lb.
      split; [reflexivity|]. split; [reflexivity|].
      cbn [pl_val] in P. apply andb_prop in P. destruct P as [P _]. apply andb_prop in P. destruct P as [P _].
      apply negb_true_iff in P.
      match goal with |- layout_val _ _ _ _ _ _ _ (VList ?l) = _ => set (vs := l) in *;
        change ((if len =? LengthUnlimited then concat_bits (layout_val rname root ctx f 8 len (SUint 8)) vs
          else if len <=? lenN vs then concat_bits (layout_val rname root ctx f 8 len (SUint 8)) (takeN len vs) else None)
          = Some (bits_of_bytes bs)) end.
      destruct (len =? LengthUnlimited); [now apply layout_u8|].
      assert (T : lenN vs = len).
      { unfold vs. assert (LM : lenN (map (fun c : byte => VUint (b2N c)) bs) = lenN bs)
          by (unfold lenN; now rewrite map_length). rewrite LM, Lb. unfold len_fine in L. unfold total in *.
        destruct L as [L|L]; [|lia]. clear - L. unfold w64, W64. change (2 ^ 61) with 2305843009213693952 in L. lia. }
      rewrite T, N.leb_refl, takeN_all by lia. now apply layout_u8.
    - clear U8 P0. unfold dbind in H at 1.
      assert (K0 : acc_ok (layout_val rname root ctx f size len u) p bits [] p bits).
      { exists []. cbn [rev concat_bits app]. rewrite lenN_nil, N.add_0_r. auto. }
      match type of H with match ?m with _ => _ end = _ =>
        destruct m as [[xs [p1 bits1]]| | |] eqn:E; try discriminate end.
      unfold dret in H.
      assert (EE : v = VList (rev xs) /\ p' = p1 /\ bits' = bits1) by (now injection H as <- <- <-).
      destruct EE as (-> & -> & ->).
      assert (LR : forall (l : list val), lenN (rev l) = lenN l) by (intros; unfold lenN; now rewrite rev_length).
      cbn [layout_val].
      destruct (N.eqb_spec len LengthUnlimited) as [Hu|Hu].
      + destruct (ll_while u HV vf droot rd lim base f size len zub lok C A B P Z L N0 p bits k [] p bits xs p1 bits1 K0 E)
          as (b & E1 & E2 & E3). exists b. auto.
      + destruct (ll_loop u HV vf droot rd lim base f size len zub lok C A B P Z L N0 p bits _ [] p bits xs p1 bits1 K0 E)
          as (EL & b & E1 & E2 & E3). exists b. rewrite lenN_nil, N2Nat.id, N.add_0_l in EL.
        split; [auto|]. split; [auto|]. rewrite LR, EL, N.leb_refl. rewrite takeN_all by (rewrite LR; lia). exact E3.
  Qed.

  Lemma ll_all : (forall t, LV t) /\ (forall fs, LF fs).
  Proof.
    apply sty_flds_mutind.
    - (* SUint *)
      intros w vf droot rd lim base f size len zub lok cur p bits v p' bits' C A B P Z L N0 S H.
      cbn [pl_val dec_val] in *. apply andb_prop in P. destruct P as [P P3]. apply andb_prop in P.
      destruct P as [P1 P2]. apply negb_true_iff in P1. apply N.leb_le in P2. rewrite P1 in H.
      destruct zub as [z|]; [|discriminate]. apply N.leb_le in P3. specialize (Z z eq_refl).
      apply d_uint_inv in H; try lia. destruct H as (b & -> & -> & Lb & -> & B1 & B2). exists b.
      split; [reflexivity|]. split; [reflexivity|]. cbn [layout_val]. rewrite P1. unfold uint_fits.
      apply N.ltb_lt in B1, B2. rewrite B1, B2. cbn [andb]. f_equal. subst size. apply uint_bits_of.
    - (* SInt *)
      intros w vf droot rd lim base f size len zub lok cur p bits v p' bits' C A B P Z L N0 S H.
      cbn [pl_val dec_val] in *. apply andb_prop in P. destruct P as [P1 P3]. apply N.leb_le in P1.
      destruct zub as [z|]; [|discriminate]. apply N.leb_le in P3. specialize (Z z eq_refl).
      unfold d_int in H. destruct (f_varint f) eqn:FV; [discriminate|].
      destruct (N.eqb_spec size 0) as [|S0]; [discriminate|]. unfold dbind in H.
      destruct (d_take size (p, bits)) as [[b [p1 bits1]]| | |] eqn:E; try discriminate.
      apply d_take_inv in E. destruct E as (-> & Lb & ->). unfold dret in H. cbv zeta in H.
      change (match b with
          | true :: _ => (Z.of_N (bits_to_N b) - Z.of_N (2 ^ size))%Z
          | _ => Z.of_N (bits_to_N b) end) with (twos size b) in H.
      destruct (twos_fits b) as [T1 T2]; [congruence|]. rewrite Lb in T1, T2.
      rewrite (toZ_ofZ w size) in H by (auto; lia).
      assert (E : v = VInt (twos size b) /\ p' = p + size /\ bits' = bits1) by (now injection H as <- <- <-).
      destruct E as (-> & -> & ->). exists b. rewrite Lb. split; [reflexivity|]. split; [reflexivity|].
      cbn [layout_val]. rewrite FV, T1. destruct (N.leb_spec size 64); [|lia]. cbn [negb andb].
      unfold int_bits. rewrite T2. f_equal. rewrite <- Lb. apply uint_bits_of.
    - (* SBool *)
      intros vf droot rd lim base f size len zub lok cur p bits v p' bits' C A B P Z L N0 S H.
      cbn [pl_val dec_val] in *. destruct zub as [z|]; [|discriminate]. apply N.leb_le in P. specialize (Z z eq_refl).
      unfold d_bool in H. destruct (N.eqb_spec size 0) as [|S0]; [discriminate|]. unfold dbind in H.
      destruct (d_take size (p, bits)) as [[b [p1 bits1]]| | |] eqn:E; try discriminate.
      apply d_take_inv in E. destruct E as (-> & Lb & ->). unfold dret in H.
      match type of H with Ok (?a, _) = _ =>
        assert (E : v = a /\ p' = p + size /\ bits' = bits1) by (now injection H as <- <- <-) end.
      destruct E as (-> & -> & ->). exists b. rewrite Lb. split; [reflexivity|]. split; [reflexivity|].
      assert (S1 : size = 1) by lia. subst size. cbn [layout_val]. destruct (N.leb_spec 1 8); [|lia].
      destruct b as [|x [|y b]]; rewrite ?lenN_cons, ?lenN_nil in *; try lia.
      cbn [existsb]. rewrite orb_false_r. reflexivity.
    - (* SStr *) discriminate.
    - (* SArr *)
      intros n u HV vf droot rd lim base f size len zub lok cur p bits v p' bits' C A B P Z L N0 S H.
      cbn [pl_val dec_val chk_val nodup_val] in *. destruct S as (cl & -> & Ln & S).
      unfold dbind in H. destruct (d_map _ cl (p, bits)) as [[xs [p1 bits1]]| | |] eqn:E; try discriminate.
      unfold dret in H.
      assert (EE : v = VList xs /\ p' = p1 /\ bits' = bits1) by (now injection H as <- <- <-).
      destruct EE as (-> & -> & ->).
      destruct (ll_map u HV vf droot rd lim base f size len zub lok C A B P Z L N0 _ _ _ _ _ _ S E)
        as (LL & b & E1 & E2 & E3).
      exists b. split; [auto|]. split; [auto|]. cbn [layout_val]. rewrite LL, Ln, N.eqb_refl. exact E3.
    - (* SSlice *) exact ll_slice.
    - (* SPtr *)
      intros u HV vf droot rd lim base f size len zub lok cur p bits v p' bits' C A B P Z L N0 S H.
      cbn [pl_val dec_val chk_val nodup_val] in *. unfold dbind in H.
      destruct (dec_val _ _ _ _ _ _ _ _ _ _ _ _ _) as [[x [p1 bits1]]| | |] eqn:E1; try discriminate.
      unfold dret in H.
      assert (EE : v = VPtr (Some x) /\ p' = p1 /\ bits' = bits1) by (now injection H as <- <- <-).
      destruct EE as (-> & -> & ->). cbn [layout_val].
      apply (HV vf droot rd lim base f size len zub lok (zero u) p bits x p1 bits1); auto.
      now apply (proj1 zero_shaped).
    - (* SStruct *)
      intros name cfo fs HF vf droot rd lim base f size len zub lok cur p bits v p' bits' C A B P Z L N0 S H.
      change (match chk_flds rname v0 None vf droot cfo name [] fs with
              | Some D => all_in (names_of fs) D | None => false end = true) in C.
      change (pl_flds rname rootfs name cfo fs fs = true) in P.
      change (nodup_names (names_of fs) && nodup_flds fs = true) in N0.
      apply andb_prop in N0. destruct N0 as [N1 N2].
      destruct (chk_flds _ _ _ _ _ _ _ _ _) as [Dend|] eqn:CE; [|discriminate].
      destruct S as (l & -> & Kl & Sl & Bl).
      assert (G : forall lim base x p1 bits1,
        dec_flds k rname versions ctx (Some rd) lim base name cfo l fs (p, bits) = Ok (x, (p1, bits1)) ->
        exists b, bits = b ++ bits1 /\ p1 = p + lenN b /\ layout_flds rname root ctx None name cfo x fs = Some b).
      { intros lim' base' x p1 bits1 E.
        apply (HF None vf droot cfo name fs [] Dend (Some rd) None lim' base' l x p bits p1 bits1); auto. eauto. }
      rewrite dec_val_struct in H. destruct (negb (size =? 0) && (size mod 8 =? 0)).
      + unfold dbind in H at 1. unfold dpos in H at 1. cbn [fst] in H. unfold dbind in H at 1.
        destruct (dec_flds _ _ _ _ _ _ _ _ _ _ _ _) as [[x [p1 bits1]]| | |] eqn:E; try discriminate.
        unfold dbind, dpos in H. cbn [fst] in H. destruct (p1 - p =? size); [|discriminate]. unfold dret in H.
        assert (EE : v = VStruct x /\ p' = p1 /\ bits' = bits1) by (now injection H as <- <- <-).
        destruct EE as (-> & -> & ->). apply (G _ _ _ _ _ E).
      + unfold dbind in H.
        destruct (dec_flds _ _ _ _ _ _ _ _ _ _ _ _) as [[x [p1 bits1]]| | |] eqn:E; try discriminate.
        unfold dret in H.
        assert (EE : v = VStruct x /\ p' = p1 /\ bits' = bits1) by (now injection H as <- <- <-).
        destruct EE as (-> & -> & ->). apply (G _ _ _ _ _ E).
    - (* FNil *)
      intros top vf droot cfo sname all D Dend rt ltop lim base selfd self p bits p' bits' C T HD P N0 S B HB H.
      assert (E : p' = p /\ bits' = bits) by (now injection H as <- <- <-).
      destruct E as (-> & ->). exists []. rewrite lenN_nil, N.add_0_r. auto.
    - (* FCons *)
      intros f t HV rest HF top vf droot cfo sname all D Dend rt ltop lim base selfd self p bits p' bits'
             C T HD P N0 S B HB H.
      destruct (pl_frame _ _ _ _ _ _ _ _ _ _ _ _ _ _ _ _ P H) as [Ks FR].
      destruct (pl_hook _ _ _ _ _ _ _ _ P) as [HK PR].
      rewrite chk_flds_cons in C. cbv zeta in C.
      match type of C with (if ?c then _ else _) = _ => destruct c eqn:CC; [|discriminate] end.
      apply andb_prop in CC. destruct CC as [CC C6]. apply andb_prop in CC. destruct CC as [CC C5].
      apply andb_prop in CC. destruct CC as [CC C4]. apply andb_prop in CC. destruct CC as [CC C3].
      apply andb_prop in CC. destruct CC as [C1 C2].
      apply negb_true_iff in C3, C4.
      assert (N4 : ~ In (f_name f) (names_of rest)) by (rewrite <- str_in_In; congruence).
      clear C3 C4.
      assert (HDx : forall j, In j D -> lookup j selfd = lookup j self).
      { intros j Hj. symmetry. apply FR. auto. }
      set (vfc := vf_at top vf D) in *. set (drc := dr_at top droot D) in *.
      set (rootd := box_of rt selfd).
      assert (A0 : agree_root root vfc drc rootd /\ bounded rootfs rootd).
      { destruct top as [hf|].
        - destruct T as (-> & -> & T & ->). unfold rootd. cbn [box_of]. split; [|exact B]. split; [|exact HDx]. intros Hv.
          unfold vfc, vf_at in Hv.
          assert (X : lookup "FullBox" selfd = lookup "FullBox" root).
          { apply orb_prop in Hv. destruct Hv as [Hv|Hv].
            - apply HDx. now apply str_in_In.
            - apply negb_true_iff in Hv. specialize (T Hv).
              rewrite (lookup_None "FullBox" root) by auto. apply lookup_None. now rewrite <- Ks. }
          unfold get_version, get_flags, fullbox_of. rewrite X. auto.
        - destruct T as (rd & -> & T & T2). exact (conj T T2). }
      destruct A0 as [A0 B0].
      rewrite dec_flds_cons in H. cbv zeta in H. fold rootd in H.
      rewrite layout_flds_cons.
      set (envd := if cfo then mkenv selfd (get_version rootd) (get_flags rootd) ctx
                   else mkenv rootd (get_version rootd) (get_flags rootd) ctx) in *.
      set (cn := if cfo then sname else rname) in *.
      destruct (owner rname root ctx cfo sname self) as [cn' env] eqn:OW.
      assert (Ecn : cn' = cn /\ env = (if cfo then spec_env root ctx self else spec_env root ctx root)).
      { unfold owner in OW. unfold cn. destruct cfo; injection OW as <- <-; auto. }
      destruct Ecn as [-> Eenv].
      assert (AE : agree_env (fdeps cn f) (fver cn f) envd env).
      { subst env envd. destruct A0 as [A1 A2].
        assert (HVV : fver cn f = true -> get_version rootd = get_version root /\ get_flags rootd = get_flags root).
        { intros Fv. rewrite Fv in C2. apply A1. now rewrite orb_false_r in C2. }
        destruct cfo; (split; [|split; [exact HVV|reflexivity]]); cbn [e_self spec_env]; intros j Hj;
          [apply HDx|apply A2]; eapply all_in_In; eauto. }
      destruct (fdeps_agree cn f envd env AE) as (ES & EL & ET).
      assert (ET' : is_target (get_version rootd) (get_flags rootd) cn envd f =
                    enabled (get_version root) (get_flags root) cn env f).
      { rewrite <- is_target_enabled. destruct cfo; subst env envd; exact ET. }
      rewrite <- ES, <- EL. unfold field_bits. rewrite <- ET'. clear ET ET' ES EL AE.
      assert (ZB : forall zz m, (if f_sizeDyn f then ub (if cfo then all else rootfs) (m_size cn (f_name f))
                    else Some (f_size f)) = Some zz -> resolve_size cn envd f = Some m -> m <= zz).
      { intros zz m Hz Hm. unfold resolve_size in Hm. destruct (f_sizeDyn f).
        - unfold envd in Hm. destruct cfo; eapply ub_ok; try exact Hm; try exact Hz; assumption.
        - assert (f_size f = zz) by congruence. assert (f_size f = m) by congruence. lia. }
      assert (LB : forall m, (if f_lenDyn f then len_ok (if cfo then all else rootfs) (m_len cn (f_name f))
                    else f_length f <? 2 ^ 61) = true -> resolve_len cn envd f = Some m -> len_fine m).
      { intros m Hz Hm. unfold resolve_len in Hm. destruct (f_lenDyn f).
        - unfold envd in Hm. destruct cfo; eapply len_ok_fine; try exact Hm; try exact Hz; assumption.
        - assert (f_length f = m) by congruence. subst m. left. now apply N.ltb_lt. }
      destruct (resolve_size cn envd f) as [size|] eqn:RS; [|discriminate].
      destruct (resolve_len cn envd f) as [len|] eqn:RL; [|discriminate].
      cbn [obind].
      change (nodup_val t && nodup_flds rest = true) in N0. apply andb_prop in N0. destruct N0 as [N1 N2].
      destruct S as [(c & Lc & Sc) Sr].
      assert (HNx : forall s2, (forall j, j <> f_name f -> lookup j s2 = lookup j selfd) -> shaped_in rest s2).
      { intros s2 H2. apply (shaped_in_ext rest selfd); auto. intros j Hj. apply H2. intros ->. contradiction. }
      assert (HBr : forall j, In j (names_of rest) -> bound_of all j = bound_of rest j /\ sbound_of all j = sbound_of rest j).
      { intros j Hj. destruct (HB j) as [Q1 Q2]; [now right|]. rewrite Q1, Q2. cbn [bound_of sbound_of].
        destruct (String.eqb_spec j (f_name f)) as [->|]; [contradiction|]. auto. }
      assert (HBf : bound_of all (f_name f) = field_bound f t /\ sbound_of all (f_name f) =
                    match t with SInt w => (1 <=? w) && (w <=? 32) | _ => false end).
      { destruct (HB (f_name f)) as [Q1 Q2]; [now left|]. rewrite Q1, Q2. cbn [bound_of sbound_of].
        rewrite String.eqb_refl. auto. }
      (* what follows *)
      assert (CONT : forall D' s2 b1 bits1, bits = b1 ++ bits1 ->
        chk_flds rname v0 top vf droot cfo sname D' rest = Some Dend ->
        (forall j, In j D' -> ~ In j (names_of rest)) ->
        (forall j, j <> f_name f -> lookup j s2 = lookup j selfd) -> bounded all s2 ->
        dec_flds k rname versions ctx rt lim base sname cfo s2 rest (p + lenN b1, bits1) = Ok (self, (p', bits')) ->
        lookup (f_name f) self = lookup (f_name f) s2 /\
        exists b2, bits1 = b2 ++ bits' /\ p' = p + lenN b1 + lenN b2 /\
          layout_flds rname root ctx (option_map (fun n => n + lenN b1) ltop) sname cfo self rest = Some b2).
      { intros D' s2 b1 bits1 -> Cr HD' H2 B2 Hd. split.
        { apply (pl_frame _ _ _ _ _ _ _ _ _ _ _ _ _ _ _ _ PR Hd). exact N4. }
        apply (HF top vf droot cfo sname all D' Dend rt (option_map (fun n => n + lenN b1) ltop) lim base s2 self
                 (p + lenN b1) bits1 p' bits'); auto. }
      assert (HDD : forall j, In j (f_name f :: D) -> ~ In j (names_of rest)).
      { intros j [<-|Hj]; [exact N4|]. intros I. apply (HD j Hj). now right. }
      unfold dbind in H at 1.
      destruct (is_target (get_version rootd) (get_flags rootd) cn envd f).
      2:{ (* absent *)
        unfold dret in H at 1.
        assert (Cr : chk_flds rname v0 top vf droot cfo sname (f_name f :: D) rest = Some Dend).
        { destruct HK as [HK|(HK & _)]; rewrite HK in C; [exact C|]. destruct (str_in "Profile" D); [exact C|discriminate]. }
        destruct (CONT (f_name f :: D) selfd [] bits) as (_ & b2 & E1 & E2 & E3); auto.
        { rewrite lenN_nil, N.add_0_r. exact H. }
        exists b2. rewrite lenN_nil, N.add_0_r in E2. split; [exact E1|]. split; [exact E2|].
        cbn [obind]. rewrite E3. cbn [obind app]. reflexivity. }
      unfold dbind in H at 1. unfold dpos in H at 1. unfold dbind in H at 1.
      destruct HK as [HK|(HK & HN & Ht)]; rewrite HK in C, H |- *; cbn [d_hook] in H; unfold dret in H at 1.
      + (* plain *)
        rewrite Lc in H. unfold dbind in H at 1. fold rootd in H.
        destruct (dec_val k rname versions ctx rootd lim base f size len t c (p, bits)) as [[x [p1 bits1]]| | |] eqn:E1;
          try discriminate.
        destruct (is_fullbox t && _); [discriminate|]. unfold dret in H.
        rewrite pl_flds_cons in P. cbv zeta in P. fold cn in P. rewrite HK in P. apply andb_prop in P. destruct P as [P _].
        destruct (HV vfc drc rootd lim base f size len _ _ c p bits x p1 bits1 C6 A0 B0 P
                    (fun z Hz => ZB z size Hz eq_refl) (fun Hl => LB len Hl eq_refl) N1 Sc E1)
          as (b1 & Eb1 & Ep1 & L1). subst p1.
        destruct (dec_val_bound _ _ _ _ _ _ _ _ _ _ _ _ _ _ _ _ _ RS E1) as [X1 X2].
        assert (LU : lookup (f_name f) (update (f_name f) x selfd) = Some x).
        { apply lookup_update_same. rewrite Lc. discriminate. }
        destruct (CONT (f_name f :: D) (update (f_name f) x selfd) b1 bits1 Eb1) as (Lf & b2 & -> & -> & E3); auto.
        { intros j Hj. now apply lookup_update_other. }
        { destruct HBf as [Q1 Q2]. split.
          - intros j n Hj. destruct (string_dec j (f_name f)) as [->|Nj].
            + rewrite LU. rewrite Q1 in Hj. now apply X1.
            + rewrite lookup_update_other by auto. now apply (proj1 B).
          - intros j Hj. destruct (string_dec j (f_name f)) as [->|Nj].
            + rewrite LU. rewrite Q2 in Hj. now apply X2.
            + rewrite lookup_update_other by auto. now apply (proj2 B). }
        exists (b1 ++ b2). rewrite <- app_assoc, lenN_app. split; [exact Eb1|]. split; [lia|].
        rewrite Lf, LU. cbn [obind]. rewrite L1. cbn [obind]. rewrite E3. reflexivity.
      + (* avcC *)
        subst t. destruct (str_in "Profile" D) eqn:PD; [|discriminate]. apply str_in_In in PD.
        set (hv := VBool _) in H.
        assert (LU : lookup "HighProfileFieldsEnabled" (update "HighProfileFieldsEnabled" hv selfd) = Some hv).
        { apply lookup_update_same. rewrite <- HN, Lc. discriminate. }
        destruct (CONT (f_name f :: D) (update "HighProfileFieldsEnabled" hv selfd) [] bits) as (Lf & b2 & E1 & E2 & E3); auto.
        { intros j Hj. apply lookup_update_other. congruence. }
        { destruct HBf as [Q1 Q2]. cbn [field_bound] in Q1. rewrite HN in Q1, Q2. split.
          - intros j n Hj. destruct (string_dec j "HighProfileFieldsEnabled") as [->|Nj]; [congruence|].
            rewrite lookup_update_other by auto. now apply (proj1 B).
          - intros j Hj. destruct (string_dec j "HighProfileFieldsEnabled") as [->|Nj]; [congruence|].
            rewrite lookup_update_other by auto. now apply (proj2 B). }
        { rewrite lenN_nil, N.add_0_r. exact H. }
        rewrite HN, LU in Lf. rewrite lenN_nil, N.add_0_r in E2.
        exists b2. split; [exact E1|]. split; [exact E2|].
        rewrite Lf. rewrite <- (HDx "Profile" PD). unfold hv. cbn [as_bool].
        rewrite high_profile_spec. rewrite lenN_nil in E3.
        destruct (32 <=? _), (is_high_profile _); cbn [andb implb obind app];
          rewrite lenN_nil, E3; reflexivity.
  Qed.
End LL.

Lemma decode_lossless : forall k d ctx size bits x n,
  causal true d && causal false d = true ->
  nodup_names (names_of (bd_flds d)) && nodup_flds (bd_flds d) = true ->
  implb (plain_box d) (pl_flds (bd_name d) (bd_flds d) (bd_name d) true (bd_flds d) (bd_flds d)) = true ->
  map fst (set_version anyVersion (zero_flds (bd_flds d))) = names_of (bd_flds d) ->
  shaped_in (bd_flds d) (set_version anyVersion (zero_flds (bd_flds d))) ->
  bounded (bd_flds d) (set_version anyVersion (zero_flds (bd_flds d))) ->
  plain_box d = true ->
  decode k d size ctx (zero_flds (bd_flds d)) bits = Ok (x, n) ->
  exists b r, bits = b ++ r /\ lenN b = 8 * n /\ layout (bd_name d) (bd_flds d) ctx x = Some b.
Proof.
  intros k d ctx size bits x n HC HN HP Kz Sz Bz PB H. rewrite PB in HP. cbn [implb] in HP.
  unfold decode in H. set (z := set_version anyVersion (zero_flds (bd_flds d))) in *.
  assert (BF : d_before (bd_name d) z (0, bits) = Ok ((false, z), (0, bits))).
  { unfold d_before. destruct (String.eqb_spec (bd_name d) "Meta") as [E|]; [|reflexivity].
    unfold plain_box in PB. rewrite E in PB. discriminate. }
  rewrite BF in H. destruct (dec_flds _ _ _ _ _ _ _ _ _ _ _ _) as [[y [p r]]| | |] eqn:E; try discriminate.
  destruct (N.eqb_spec (p mod 8) 0) as [P8|]; [|discriminate]. cbn [negb] in H.
  destruct (_ <? p); [discriminate|].
  assert (Q : y = x /\ p / 8 = n) by (now injection H as <- <-). destruct Q as [-> <-]. clear H.
  apply andb_prop in HN. destruct HN as [N1 N2].
  assert (C : causal (get_version x =? 0) d = true).
  { apply andb_prop in HC. destruct HC. destruct (get_version x =? 0); assumption. }
  unfold causal in C. set (hf := str_in "FullBox" (names_of (bd_flds d))) in *.
  destruct (chk_flds _ _ _ _ _ _ _ _ _) as [Dend|] eqn:CE in C; [|discriminate].
  destruct (pl_frame _ _ _ _ _ _ _ _ _ _ _ _ _ _ _ _ HP E) as [Ks _].
  destruct (proj2 (ll_all k (bd_name d) (bd_versions d) ctx x (bd_flds d)) (bd_flds d) (Some hf) false [] true
     (bd_name d) (bd_flds d) [] Dend None (Some 0) (w64 (size * 8)) 0 z x 0 bits p r) as (b & E1 & E2 & E3); auto.
  - split; [reflexivity|]. split; [reflexivity|]. split; [|reflexivity].
    intros Hh I. rewrite Ks, Kz in I. apply str_in_In in I. unfold hf in Hh. congruence.
  - exists b, r. split; [exact E1|]. split; [|exact E3]. lia.
Qed.
