(** Decoding the encoding of a single value: numbers, booleans, strings. *)
From Verif Require Import Base BitIO Schema Structs Methods Registry Marshal Unmarshal SpecCodec
     SpecRoundTrip Decode.
From Verif Require Import BaseProofs BitIOProofs BitIOFacts MarshalProofs UnmarshalProofs DecodeFacts VersionFacts.
Local Open Scope string_scope.
Local Open Scope list_scope.
Local Open Scope N_scope.
Local Open Scope dec_scope.
Ltac Zify.zify_post_hook ::= Z.to_euclidean_division_equations.

(** ** equality of values *)
Lemma val_ind' : forall P : val -> Prop,
  (forall n, P (VUint n)) -> (forall z, P (VInt z)) -> (forall b, P (VBool b)) ->
  (forall s, P (VStr s)) -> (forall l, Forall P l -> P (VList l)) ->
  P (VPtr None) -> (forall x, P x -> P (VPtr (Some x))) ->
  (forall l, Forall (fun kv => P (snd kv)) l -> P (VStruct l)) -> forall v, P v.
Proof.
  intros P H1 H2 H3 H4 H5 H6 H7 H8. fix F 1. intros [n|z|b|s|l|[x|]|l].
  - apply H1.
  - apply H2.
  - apply H3.
  - apply H4.
  - apply H5. induction l as [|x l IH]; [apply Forall_nil|apply Forall_cons; [apply F|exact IH]].
  - apply H7. apply F.
  - apply H6.
  - apply H8. induction l as [|[k x] l IH]; [apply Forall_nil|apply Forall_cons; [apply (F x)|exact IH]].
Qed.
Lemma val_eqb_eq : forall a b, val_eqb a b = true -> a = b.
Proof.
  induction a as [n|z|x|s|l IH| |x IH|l IH] using val_ind'; intros b H; destruct b as [n'|z'|x'|s'|l'|[x'|]|l'];
    cbn in H; try discriminate; try reflexivity.
  - apply N.eqb_eq in H. congruence.
  - apply Z.eqb_eq in H. congruence.
  - apply Bool.eqb_prop in H. congruence.
  - apply bytes_eqb_eq in H. congruence.
  - f_equal. revert l' H. induction IH as [|y l Hy HF IH2]; destruct l' as [|y' l']; try discriminate; auto.
    intros H. apply andb_prop in H. destruct H as [A B]. f_equal; auto.
  - f_equal. f_equal. auto.
  - f_equal. revert l' H. induction IH as [|[j y] l Hy HF IH2]; destruct l' as [|[j' y'] l']; try discriminate; auto.
    intros H. apply andb_prop in H. destruct H as [A B]. apply andb_prop in A. destruct A as [A1 A2].
    apply String.eqb_eq in A1. cbn [snd] in Hy. f_equal; auto. f_equal; auto.
Qed.

(** ** unsigned *)
Lemma lenN_uint_bits : forall size n, lenN (uint_bits size n) = size.
Proof. intros. unfold uint_bits. rewrite lenN_N_to_bits. lia. Qed.
Lemma bits_to_uint_bits : forall size n, bits_to_N (uint_bits size n) = n mod 2 ^ size.
Proof. intros. unfold uint_bits. rewrite bits_to_N_to_bits, N2Nat.id. reflexivity. Qed.

Lemma d_uint_rt : forall k w size n p r,
  1 <= size -> size <= 64 -> n < 2 ^ w -> n < 2 ^ size ->
  d_uint k w false size (p, uint_bits size n ++ r) = Ok (VUint n, (p + size, r)).
Proof.
  intros k w size n p r H1 H64 Hw Hs. unfold d_uint.
  destruct (N.eqb_spec size 0); [lia|]. unfold dbind.
  rewrite d_take_app by (now rewrite lenN_uint_bits). unfold dret. rewrite bits_to_uint_bits.
  unfold w64, W64. rewrite (N.mod_small n (2 ^ size)) by auto.
  rewrite (N.mod_small n) by (apply N.lt_le_trans with (2 ^ size); auto;
    change 18446744073709551616 with (2 ^ 64); apply N.pow_le_mono_r; lia).
  rewrite N.mod_small by auto. reflexivity.
Qed.

Definition vbody (val : N) : D (N + N) :=
      o <~ d_take 8 ;;
      let b := bits_to_N o in
      let val' := w64 (w64 (128 * val) + b mod 128) in
      dret (if b <? 128 then inr val' else inl val').
Lemma vbody_group : forall (h : bool) m p r val, val < 2 ^ 50 ->
  vbody val (p, (h :: uint_bits 7 m) ++ r) =
  Ok (if h then inl (128 * val + m mod 128) else inr (128 * val + m mod 128), (p + 8, r)).
Proof.
  intros h m p r val Hv. unfold vbody, dbind.
  rewrite d_take_app by (rewrite lenN_cons, lenN_uint_bits; reflexivity). unfold dret.
  assert (E : bits_to_N (h :: uint_bits 7 m) = (if h then 128 else 0) + m mod 128).
  { change (h :: uint_bits 7 m) with ([h] ++ uint_bits 7 m). rewrite bits_to_N_app, bits_to_uint_bits.
    rewrite lenN_uint_bits. change (2 ^ 7) with 128. destruct h; reflexivity. }
  rewrite E. change (2 ^ 50) with 1125899906842624 in Hv. unfold w64, W64.
  assert (E2 : (((128 * val) mod 18446744073709551616 + ((if h then 128 else 0) + m mod 128) mod 128)
                 mod 18446744073709551616) = 128 * val + m mod 128).
  { destruct h; lia. }
  rewrite E2. destruct h.
  - destruct (N.ltb_spec (128 + m mod 128) 128); [lia|]. reflexivity.
  - destruct (N.ltb_spec (0 + m mod 128) 128); [|lia]. reflexivity.
Qed.
Lemma d_varint_rt : forall k w size n p r, (32 < k)%nat -> n < 2 ^ w -> n < 2 ^ 28 ->
  d_uint k w true size (p, varint_bits n ++ r) = Ok (VUint n, (p + 32, r)).
Proof.
  intros k w size n p r Hk Hw Hn. unfold d_uint, d_uvarint.
  change (dwhile k (fun val => o <~ d_take 8 ;; _) 0) with (dwhile k vbody 0).
  destruct k as [|[|[|[|k]]]]; try lia. unfold dbind at 1. unfold varint_bits.
  rewrite <- !app_assoc. cbn [dwhile]. change (2 ^ 28) with 268435456 in Hn.
  change (2 ^ 21) with 2097152. change (2 ^ 14) with 16384. change (2 ^ 7) with 128.
  unfold dbind at 1. rewrite vbody_group by (vm_compute; reflexivity).
  unfold dbind at 1. rewrite vbody_group by (change (2 ^ 50) with 1125899906842624; lia).
  unfold dbind at 1. rewrite vbody_group by (change (2 ^ 50) with 1125899906842624; lia).
  unfold dbind at 1. rewrite vbody_group by (change (2 ^ 50) with 1125899906842624; lia).
  unfold dret.
  assert (E : 128 * (128 * (128 * (128 * 0 + n / 2097152 mod 128) + n / 16384 mod 128) + n / 128 mod 128)
            + n mod 128 = n) by lia.
  rewrite E, N.mod_small by auto. do 3 f_equal. lia.
Qed.

(** ** signed *)
Lemma toZ_ofZ : forall w size z, int_fits size z = true -> size <= w -> w <= 64 ->
  toZ w (ofZ 64 z) = z.
Proof.
  intros w size z F Hs Hw. unfold int_fits in F. apply andb_prop in F. destruct F as [F F3].
  apply andb_prop in F. destruct F as [F1 F2]. apply N.leb_le in F1. apply Z.leb_le in F2. apply Z.ltb_lt in F3.
  assert (M : (Z.of_N (2 ^ (size - 1)) <= Z.of_N (2 ^ (w - 1)))%Z).
  { apply N2Z.inj_le. apply N.pow_le_mono_r; lia. }
  assert (P : 2 ^ w = 2 * 2 ^ (w - 1)).
  { rewrite <- N.pow_succ_r'. f_equal. lia. }
  assert (Q : exists q, 2 ^ 64 = 2 ^ w * q).
  { exists (2 ^ (64 - w)). rewrite <- N.pow_add_r. f_equal. lia. }
  destruct Q as (q & Q). unfold toZ, ofZ.
  assert (E : Z.of_N (Z.to_N (z mod Z.of_N (2 ^ 64)) mod 2 ^ w) = (z mod Z.of_N (2 ^ w))%Z).
  { rewrite N2Z.inj_mod, Z2N.id by (apply Z.mod_pos_bound; lia). rewrite Q, N2Z.inj_mul.
    assert (P0 : 2 ^ w <> 0) by (apply N.pow_nonzero; lia).
    assert (q <> 0) by (intros ->; rewrite N.mul_0_r in Q; discriminate).
    symmetry. rewrite (Z.rem_mul_r z) by lia.
    rewrite Z.mul_comm, Z.mod_add by lia. now rewrite Z.mod_mod by lia. }
  set (m := Z.to_N (z mod Z.of_N (2 ^ 64)) mod 2 ^ w) in *. clearbody m. clear Q q.
  set (h := 2 ^ (w - 1)) in *. set (g := 2 ^ (size - 1)) in *. clearbody h g. rewrite P in *. clear P.
  assert (E2 : (z mod Z.of_N (2 * h) = if (z <? 0)%Z then z + 2 * Z.of_N h else z)%Z).
  { destruct (Z.ltb_spec z 0).
    - symmetry. apply Z.mod_unique with (-1)%Z; [left|]; clear E; lia.
    - apply Z.mod_small. clear E. lia. }
  rewrite E2 in E. clear E2.
  destruct (N.ltb_spec m h), (Z.ltb_spec z 0); lia.
Qed.

Lemma lenN_int_bits : forall size z, lenN (int_bits size z) = size.
Proof. intros. unfold int_bits. rewrite lenN_N_to_bits. lia. Qed.
Lemma twos_int_bits : forall size z, int_fits size z = true -> twos size (int_bits size z) = z.
Proof.
  intros size z F. unfold int_fits in F. apply andb_prop in F. destruct F as [F F3].
  apply andb_prop in F. destruct F as [F1 F2]. apply N.leb_le in F1. apply Z.leb_le in F2. apply Z.ltb_lt in F3.
  assert (V : Z.of_N (bits_to_N (int_bits size z)) = (z mod Z.of_N (2 ^ size))%Z).
  { unfold int_bits. rewrite bits_to_N_to_bits, N2Nat.id. unfold ofZ.
    assert (2 ^ size <> 0) by (apply N.pow_nonzero; lia).
    rewrite N2Z.inj_mod, Z2N.id by (apply Z.mod_pos_bound; lia). apply Z.mod_mod. lia. }
  pose proof (lenN_int_bits size z) as L. unfold twos.
  assert (P : 2 ^ size = 2 * 2 ^ (size - 1)).
  { rewrite <- N.pow_succ_r'. f_equal. lia. }
  set (b := int_bits size z) in *. clearbody b. destruct b as [|h b]; [rewrite lenN_nil in L; lia|].
  rewrite lenN_cons in L.
  assert (V2 : bits_to_N (h :: b) = (if h then 2 ^ (size - 1) else 0) + bits_to_N b).
  { change (h :: b) with ([h] ++ b). rewrite bits_to_N_app. replace (lenN b) with (size - 1) by lia.
    destruct h; cbn [bits_to_N bits_to_N_acc]; lia. }
  pose proof (bits_to_N_lt b) as B. replace (lenN b) with (size - 1) in B by lia.
  assert (V3 : (z mod Z.of_N (2 ^ size) = if (z <? 0)%Z then z + Z.of_N (2 ^ size) else z)%Z).
  { destruct (Z.ltb_spec z 0).
    - symmetry. apply Z.mod_unique with (-1)%Z; [left|]; lia.
    - apply Z.mod_small. lia. }
  rewrite V3 in V. destruct h; destruct (Z.ltb_spec z 0); lia.
Qed.

Lemma d_int_rt : forall w size z p r, int_fits size z = true -> size <= w -> w <= 64 ->
  d_int w false size (p, int_bits size z ++ r) = Ok (VInt z, (p + size, r)).
Proof.
  intros w size z p r F Hs Hw. unfold d_int.
  destruct (N.eqb_spec size 0) as [->|]; [discriminate|]. unfold dbind.
  rewrite d_take_app by (now rewrite lenN_int_bits). unfold dret. cbv zeta.
  change (match int_bits size z with
          | true :: _ => (Z.of_N (bits_to_N (int_bits size z)) - Z.of_N (2 ^ size))%Z
          | _ => Z.of_N (bits_to_N (int_bits size z)) end) with (twos size (int_bits size z)).
  rewrite twos_int_bits by auto. rewrite (toZ_ofZ w size) by auto. reflexivity.
Qed.

Lemma d_bool_rt : forall size b p r, 1 <= size ->
  d_bool size (p, bool_bits size b ++ r) = Ok (VBool b, (p + size, r)).
Proof.
  intros size b p r H. unfold d_bool. destruct (N.eqb_spec size 0); [lia|]. unfold dbind.
  rewrite d_take_app by (unfold bool_bits; rewrite lenN_repeat; lia). unfold dret.
  do 3 f_equal. unfold bool_bits. destruct (N.to_nat size) eqn:E; [lia|]. cbn [repeat existsb].
  destruct b; [reflexivity|]. cbn [orb]. clear. induction n0; auto.
Qed.

(** ** strings *)
Definition sbody (lim base : N) (acc : list byte) : D (list byte + list byte) :=
           p <~ dpos ;;
           if lim <=? p - base then dret (inr acc)
           else c <~ d_take 8 ;;
                let b := N2b (bits_to_N c) in
                if b2N b =? 0 then dret (inr acc) else dret (inl (b :: acc)).
Lemma sbody_byte : forall lim base acc p c r, p - base < lim ->
  sbody lim base acc (p, bits_of_byte c ++ r) =
  Ok (if b2N c =? 0 then inr acc else inl (c :: acc), (p + 8, r)).
Proof.
  intros lim base acc p c r H. unfold sbody, dbind, dpos. cbn [fst].
  destruct (N.leb_spec lim (p - base)); [lia|].
  rewrite d_take_app by (now rewrite lenN_bits_of_byte). cbv zeta.
  rewrite bits_to_N_byte, N2b_b2N. destruct (b2N c =? 0); reflexivity.
Qed.

Lemma sbody_run : forall lim base s k acc p r, no_nul s = true ->
  base <= p -> (p - base) + 8 * lenN s <= lim ->
  dwhile (List.length s + k) (sbody lim base) acc (p, bits_of_bytes s ++ r) =
  dwhile k (sbody lim base) (rev s ++ acc) (p + 8 * lenN s, r).
Proof.
  intros lim base. induction s as [|c s IH]; intros k acc p r Hn Hb Hl.
  - cbn [List.length Nat.add rev app bits_of_bytes flat_map]. f_equal. f_equal. rewrite lenN_nil. lia.
  - rewrite lenN_cons in *. cbn [no_nul forallb] in Hn. apply andb_prop in Hn. destruct Hn as [Hc Hn].
    apply negb_true_iff in Hc. cbn [List.length Nat.add dwhile]. unfold dbind.
    rewrite bits_of_bytes_cons, <- app_assoc, sbody_byte, Hc by lia.
    rewrite IH by (auto; lia). cbn [rev]. rewrite <- app_assoc. f_equal. f_equal. lia.
Qed.

Lemma d_cstring_rt : forall k lim base s p r, no_nul s = true ->
  base <= p -> (p - base) + 8 * (lenN s + 1) <= lim -> (8 * (List.length s + 1) < k)%nat ->
  d_string_c k lim base (p, cstring_bits s ++ r) = Ok (VStr s, (p + 8 * (lenN s + 1), r)).
Proof.
  intros k lim base s p r Hn Hb Hl Hk. unfold d_string_c.
  change (dwhile k (fun acc => p <~ dpos ;; _) []) with (dwhile k (sbody lim base) []).
  unfold dbind at 1. unfold cstring_bits. rewrite bits_of_bytes_app, <- app_assoc.
  replace k with (List.length s + S (k - List.length s - 1))%nat by lia.
  rewrite sbody_run by (auto; lia). cbn [dwhile]. unfold dbind.
  change (bits_of_bytes [bzero]) with (bits_of_byte bzero). rewrite sbody_byte by lia.
  change (b2N bzero =? 0) with true. cbv iota. unfold dret. rewrite app_nil_r, rev_involutive.
  do 3 f_equal. lia.
Qed.
Lemma d_boxstring_rt : forall k lim base s p r, no_nul s = true ->
  base <= p -> (p - base) + 8 * lenN s = lim -> (8 * List.length s < k)%nat ->
  d_string_c k lim base (p, bits_of_bytes s ++ r) = Ok (VStr s, (p + 8 * lenN s, r)).
Proof.
  intros k lim base s p r Hn Hb Hl Hk. unfold d_string_c.
  change (dwhile k (fun acc => p <~ dpos ;; _) []) with (dwhile k (sbody lim base) []).
  unfold dbind at 1.
  replace k with (List.length s + S (k - List.length s - 1))%nat by lia.
  rewrite sbody_run by (auto; lia). cbn [dwhile]. unfold dbind, sbody, dbind, dpos. cbn [fst].
  destruct (N.leb_spec lim (p + 8 * lenN s - base)); [|lia]. unfold dret.
  now rewrite app_nil_r, rev_involutive.
Qed.

Lemma d_bytes_app : forall l p r, p mod 8 = 0 ->
  d_bytes (lenN l) (p, bits_of_bytes l ++ r) = Ok (l, (p + 8 * lenN l, r)).
Proof.
  intros l p r H. unfold d_bytes. cbn [fst snd]. apply N.eqb_eq in H. rewrite H.
  rewrite lenN_app, lenN_bits_of_bytes.
  destruct (N.leb_spec (8 * lenN l) (8 * lenN l + lenN r)); [|lia].
  rewrite takeN_app_exact, skipN_app_exact by (now rewrite lenN_bits_of_bytes).
  now rewrite pack_bytes.
Qed.

Definition zbody (acc : list byte) : D (list byte + list byte) :=
      b <~ d_bytes 1 ;;
      match b with
      | [c] => if b2N c =? 0 then dret (inr acc) else dret (inl (c :: acc))
      | _ => dpanic
      end.
Lemma zbody_byte : forall acc p c r, p mod 8 = 0 ->
  zbody acc (p, bits_of_byte c ++ r) = Ok (if b2N c =? 0 then inr acc else inl (c :: acc), (p + 8, r)).
Proof.
  intros acc p c r H. unfold zbody, dbind.
  replace (bits_of_byte c) with (bits_of_bytes [c]) by (cbn; now rewrite app_nil_r).
  change 1 with (lenN [c]). rewrite d_bytes_app by auto. destruct (b2N c =? 0); reflexivity.
Qed.
Lemma d_zstring_rt : forall k s p r, no_nul s = true -> p mod 8 = 0 -> (8 * (List.length s + 1) < k)%nat ->
  d_zstring k (p, cstring_bits s ++ r) = Ok (s, (p + 8 * (lenN s + 1), r)).
Proof.
  intros k s p r Hn Hp Hk. unfold d_zstring.
  change (dwhile k (fun acc => b <~ d_bytes 1 ;; _) []) with (dwhile k zbody []).
  assert (G : forall s j acc p r, no_nul s = true -> p mod 8 = 0 ->
     dwhile (List.length s + j) zbody acc (p, bits_of_bytes s ++ r) =
     dwhile j zbody (rev s ++ acc) (p + 8 * lenN s, r)).
  { clear. induction s as [|c s IH]; intros j acc p r Hn Hp.
    - cbn [List.length Nat.add rev app bits_of_bytes flat_map]. f_equal. f_equal. rewrite lenN_nil. lia.
    - rewrite lenN_cons. cbn [no_nul forallb] in Hn. apply andb_prop in Hn. destruct Hn as [Hc Hn].
      apply negb_true_iff in Hc. cbn [List.length Nat.add dwhile]. unfold dbind.
      rewrite bits_of_bytes_cons, <- app_assoc, zbody_byte, Hc by lia.
      rewrite IH by (auto; lia). cbn [rev]. rewrite <- app_assoc. f_equal. f_equal. lia. }
  unfold dbind at 1. unfold cstring_bits. rewrite bits_of_bytes_app, <- app_assoc.
  replace k with (List.length s + S (k - List.length s - 1))%nat by lia.
  rewrite G by auto. cbn [dwhile]. unfold dbind.
  change (bits_of_bytes [bzero]) with (bits_of_byte bzero). rewrite zbody_byte by lia.
  change (b2N bzero =? 0) with true. cbv iota. unfold dret. rewrite app_nil_r, rev_involutive.
  do 3 f_equal. lia.
Qed.
