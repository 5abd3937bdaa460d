(** The writing side: Marshal against [layout]. *)
From Verif Require Import Base BaseProofs BitIO BitIOProofs SpecBitIO BitIOFacts
     Schema Methods Registry Marshal SpecCodec.
Local Open Scope string_scope.
Local Open Scope list_scope.
Local Open Scope N_scope.
Local Open Scope monad_scope.
Ltac Zify.zify_post_hook ::= Z.to_euclidean_division_equations.

Definition minv (s : mst) (bits : list bool) : Prop :=
  winv (m_w s) bits /\ m_wbits s = lenN bits.

Lemma minv_new : minv (mkmst (new_writer []) 0) [].
Proof. split; [apply winv_new|reflexivity]. Qed.

Lemma N_to_bits_ext : forall w a b, a mod 2 ^ N.of_nat w = b mod 2 ^ N.of_nat w ->
  N_to_bits w a = N_to_bits w b.
Proof. intros w a b H. rewrite <- (N_to_bits_mod w a), <- (N_to_bits_mod w b), H. reflexivity. Qed.

Lemma mod_pow2_le : forall n a b, a <= b -> (n mod 2 ^ b) mod 2 ^ a = n mod 2 ^ a.
Proof.
  intros n a b H. apply N.bits_inj; intros i.
  destruct (N.lt_ge_cases i a).
  - rewrite !N.mod_pow2_bits_low by lia. reflexivity.
  - rewrite !N.mod_pow2_bits_high by lia. reflexivity.
Qed.

Lemma N_to_bits_N2b : forall w n, (w <= 8)%nat -> N_to_bits w (b2N (N2b n)) = N_to_bits w n.
Proof.
  intros w n H. apply N_to_bits_ext. rewrite b2N_N2b. change 256 with (2 ^ 8).
  apply mod_pow2_le. lia.
Qed.

Lemma put_bits_ok : forall b size s bits, size <= 8 -> minv s bits ->
  exists s', put_bits b size s = (Ok tt, s') /\ minv s' (bits ++ uint_bits size (b2N b)).
Proof.
  intros b size s bits L [W C].
  destruct (write_bits_ok [b] size (m_w s) bits) as (w' & E & W'); auto.
  rewrite skipN_low_bits in W' by (unfold lenN; cbn [List.length]; lia).
  assert (be_to_N [b] = b2N b) as EB by (unfold be_to_N; cbn [be_to_N_acc]; lia).
  rewrite EB in W'. fold (uint_bits size (b2N b)) in W'.
  exists (mkmst w' (m_wbits s + size)). unfold put_bits, bind, lift_w, add_wbits.
  rewrite E. cbn [m_w m_wbits]. split; [reflexivity|]. split; [exact W'|].
  cbn [m_wbits]. rewrite C, lenN_app. unfold uint_bits. rewrite lenN_N_to_bits. lia.
Qed.

Lemma put_bits_any : forall b size s bits, minv s bits -> size <= 8 ->
  exists b', minv (snd (put_bits b size s)) (bits ++ b').
Proof.
  intros. destruct (put_bits_ok b size s bits) as (s' & E & H'); auto. rewrite E. eauto.
Qed.

(** the byte loop *)
Definition chunk_v (size val i : N) : N := if i + 8 <? size then N.shiftr val (size - (i + 8)) else val.
Definition chunk_sz (size i : N) : N := if size <? i + 8 then size - i else 8.

Lemma put_chunks_loop : forall size val adj m i s bits,
  (forall j, i <= j -> j < size ->
     uint_bits (chunk_sz size j) (adj (j =? 0) (chunk_sz size j) (chunk_v size val j)) =
     uint_bits (chunk_sz size j) (chunk_v size val j)) ->
  minv s bits -> i <= size -> (size - i + 7) / 8 = N.of_nat m ->
  exists i' s', loop_nat m (fun i =>
    let v := if i + 8 <? size then N.shiftr val (size - (i + 8)) else val in
    let sz := if size <? i + 8 then size - i else 8 in
    put_bits (N2b (adj (i =? 0) sz v)) sz ;;; ret (i + 8)) i s = (Ok i', s') /\
    minv s' (bits ++ uint_bits (size - i) val).
Proof.
  induction m; intros i s bits A I L Hm.
  - exists i, s. split; [reflexivity|]. replace (size - i) with 0 by lia.
    unfold uint_bits. cbn [N.to_nat N_to_bits]. now rewrite app_nil_r.
  - cbn [loop_nat]. unfold bind at 1. fold (chunk_v size val i). fold (chunk_sz size i).
    cbv zeta. unfold bind at 1.
    assert (chunk_sz size i <= 8) as L8.
    { unfold chunk_sz. destruct (N.ltb_spec size (i + 8)); lia. }
    destruct (put_bits_ok (N2b (adj (i =? 0) (chunk_sz size i) (chunk_v size val i)))
                (chunk_sz size i) s bits L8 I) as (s1 & E1 & I1).
    rewrite E1. cbn [ret].
    assert (uint_bits (chunk_sz size i)
              (b2N (N2b (adj (i =? 0) (chunk_sz size i) (chunk_v size val i)))) =
            uint_bits (chunk_sz size i) (chunk_v size val i)) as EU.
    { rewrite <- (A i) by lia. unfold uint_bits. apply N_to_bits_N2b. lia. }
    rewrite EU in I1.
    destruct (N.lt_ge_cases (i + 8) size) as [Lt|Ge].
    + destruct (IHm (i + 8) s1 _ ltac:(intros; apply A; lia) I1 ltac:(lia) ltac:(lia))
        as (i' & s' & E & I').
      exists i', s'. split; [exact E|]. rewrite <- app_assoc in I'.
      replace (uint_bits (chunk_sz size i) (chunk_v size val i) ++ uint_bits (size - (i + 8)) val)
        with (uint_bits (size - i) val) in I'; [exact I'|].
      unfold uint_bits, chunk_sz, chunk_v.
      destruct (N.ltb_spec size (i + 8)); [lia|]. destruct (N.ltb_spec (i + 8) size); [|lia].
      replace (N.to_nat (size - i)) with (N.to_nat 8 + N.to_nat (size - (i + 8)))%nat by lia.
      rewrite N_to_bits_app, N.shiftr_div_pow2, N2Nat.id. reflexivity.
    + assert (m = 0%nat) by lia. subst m. cbn [loop_nat ret].
      exists (i + 8), s1. split; [reflexivity|].
      replace (uint_bits (size - i) val) with (uint_bits (chunk_sz size i) (chunk_v size val i));
        [exact I1|].
      unfold chunk_sz, chunk_v. destruct (N.ltb_spec (i + 8) size); [lia|].
      destruct (N.ltb_spec size (i + 8)); [reflexivity|]. f_equal. lia.
Qed.

Lemma put_chunks_ok : forall size val adj s bits,
  (forall j, j < size ->
     uint_bits (chunk_sz size j) (adj (j =? 0) (chunk_sz size j) (chunk_v size val j)) =
     uint_bits (chunk_sz size j) (chunk_v size val j)) ->
  minv s bits ->
  exists i' s', put_chunks size val adj s = (Ok i', s') /\ minv s' (bits ++ uint_bits size val).
Proof.
  intros size val adj s bits A I. unfold put_chunks.
  destruct (put_chunks_loop size val adj (N.to_nat ((size + 7) / 8)) 0 s bits)
    as (i' & s' & E & I'); auto; try lia.
  exists i', s'. split; [rewrite loopN_nat; exact E|]. now rewrite N.sub_0_r in I'.
Qed.

(** for any value at all: the count keeps in step with the bits *)
Lemma put_chunks_any : forall size val adj s bits, minv s bits ->
  exists b, minv (snd (put_chunks size val adj s)) (bits ++ b).
Proof.
  intros size val adj. unfold put_chunks.
  assert (H : forall m i s bits, minv s bits -> exists b, minv (snd (loop_nat m (fun i =>
    let v := if i + 8 <? size then N.shiftr val (size - (i + 8)) else val in
    let sz := if size <? i + 8 then size - i else 8 in
    put_bits (N2b (adj (i =? 0) sz v)) sz ;;; ret (i + 8)) i s)) (bits ++ b)).
  { induction m; intros i s bits I; [exists []; now rewrite app_nil_r|].
    cbn [loop_nat]. cbv zeta. unfold bind at 1. unfold bind at 1.
    fold (chunk_v size val i). fold (chunk_sz size i).
    assert (chunk_sz size i <= 8) as L8.
    { unfold chunk_sz. destruct (N.ltb_spec size (i + 8)); lia. }
    destruct (put_bits_ok (N2b (adj (i =? 0) (chunk_sz size i) (chunk_v size val i)))
                (chunk_sz size i) s bits L8 I) as (s1 & E1 & I1).
    rewrite E1. cbn [ret]. destruct (IHm (i + 8) s1 _ I1) as (b & Hb).
    eexists. rewrite <- app_assoc in Hb. exact Hb. }
  intros. rewrite loopN_nat. now apply H.
Qed.

Lemma marshal_uint_ok : forall size n s bits, minv s bits ->
  exists s', marshal_uint false size n s = (Ok tt, s') /\ minv s' (bits ++ uint_bits size n).
Proof.
  intros. unfold marshal_uint.
  destruct (put_chunks_ok size n (fun _ _ v => v) s bits) as (i & s' & E & I); auto.
  exists s'. unfold bind. rewrite E. auto.
Qed.

Lemma lor_128 : forall n, N2b (N.lor (n mod 256) 128) = N2b (128 + n mod 128).
Proof.
  intros. apply b2N_inj. rewrite !b2N_N2b.
  assert (N.lor (n mod 256) 128 = 128 + n mod 128) as ->; [|reflexivity].
  assert (forall k : N, k < 256 -> N.lor k 128 = 128 + k mod 128) as K.
  { intros k Hk.
    assert (forallb (fun k => N.lor k 128 =? 128 + k mod 128) (map N.of_nat (seq 0 256)) = true) as F
      by (vm_compute; reflexivity).
    rewrite forallb_forall in F. apply N.eqb_eq, F.
    apply in_map_iff. exists (N.to_nat k). split; [lia|]. apply in_seq. lia. }
  rewrite K by (apply N.mod_lt; discriminate). f_equal. lia.
Qed.

Lemma varint_group : forall (b : bool) n, n < 128 ->
  uint_bits 8 ((if b then 128 else 0) + n) = b :: uint_bits 7 n.
Proof.
  intros b n H. unfold uint_bits. change (N.to_nat 8) with (1 + 7)%nat.
  rewrite N_to_bits_app. change (N.of_nat 7) with 7. change (2 ^ 7) with 128.
  change (N.to_nat 7) with 7%nat.
  replace (((if b then 128 else 0) + n) / 128) with (if b then 1 else 0) by (destruct b; lia).
  rewrite (N_to_bits_ext 7 ((if b then 128 else 0) + n) n).
  - destruct b; reflexivity.
  - change (2 ^ N.of_nat 7) with 128. destruct b; lia.
Qed.
Lemma uint_bits_mod : forall w n, uint_bits w (n mod 2 ^ w) = uint_bits w n.
Proof.
  intros. unfold uint_bits. apply N_to_bits_ext. rewrite N2Nat.id.
  apply N.mod_mod. apply N.pow_nonzero. discriminate.
Qed.

Lemma write_uvarint_ok : forall n s bits, minv s bits ->
  exists s', write_uvarint n s = (Ok tt, s') /\ minv s' (bits ++ varint_bits n).
Proof.
  intros n s bits I. unfold write_uvarint.
  assert (G : forall k, uint_bits 8 (b2N (N2b (N.lor (N.shiftr n k mod 256) 128))) =
              true :: uint_bits 7 (n / 2 ^ k)).
  { intros k. rewrite lor_128, b2N_N2b.
    rewrite N.mod_small by (pose proof (N.mod_lt (N.shiftr n k) 128); lia).
    rewrite (varint_group true) by (apply N.mod_lt; discriminate).
    change 128 with (2 ^ 7). now rewrite uint_bits_mod, N.shiftr_div_pow2. }
  assert (G0 : uint_bits 8 (b2N (N2b (N.land n 127))) = false :: uint_bits 7 n).
  { change 127 with (N.ones 7). rewrite N.land_ones, b2N_N2b.
    change (2 ^ 7) with 128.
    rewrite N.mod_small by (pose proof (N.mod_lt n 128); lia).
    rewrite <- (uint_bits_mod 7 n). change (2 ^ 7) with 128.
    rewrite <- (varint_group false (n mod 128)) by (apply N.mod_lt; discriminate).
    reflexivity. }
  unfold varint_bits.
  destruct (put_bits_ok (N2b (N.lor (N.shiftr n 21 mod 256) 128)) 8 s bits) as (s1 & E1 & I1); [lia|auto|].
  destruct (put_bits_ok (N2b (N.lor (N.shiftr n 14 mod 256) 128)) 8 s1 _ ltac:(lia) I1) as (s2 & E2 & I2).
  destruct (put_bits_ok (N2b (N.lor (N.shiftr n 7 mod 256) 128)) 8 s2 _ ltac:(lia) I2) as (s3 & E3 & I3).
  destruct (put_bits_ok (N2b (N.land n 127)) 8 s3 _ ltac:(lia) I3) as (s4 & E4 & I4).
  rewrite !G, G0 in I4. rewrite <- !app_assoc in I4.
  exists s4. unfold bind. rewrite E1, E2, E3, E4. split; [reflexivity|exact I4].
Qed.

(** ** signed values *)
Lemma uint_bits_ext : forall w a b, (forall i, i < w -> N.testbit a i = N.testbit b i) ->
  uint_bits w a = uint_bits w b.
Proof.
  intros w a b H. unfold uint_bits. apply N_to_bits_ext. rewrite N2Nat.id.
  apply N.bits_inj; intros i. destruct (N.lt_ge_cases i w).
  - rewrite !N.mod_pow2_bits_low by auto. auto.
  - rewrite !N.mod_pow2_bits_high by auto. reflexivity.
Qed.
Lemma testbit_ofZ : forall w z i, i < w -> N.testbit (ofZ w z) i = Z.testbit z (Z.of_N i).
Proof.
  intros w z i H. unfold ofZ. rewrite <- N2Z.inj_testbit.
  rewrite N2Z.inj_pow. change (Z.of_N 2) with 2%Z.
  rewrite Z2N.id by (apply Z.mod_pos_bound; apply Z.pow_pos_nonneg; lia).
  apply Z.mod_pow2_bits_low. lia.
Qed.
Lemma testbit_sign : forall z k, (- 2 ^ k <= z < 2 ^ k)%Z -> (0 <= k)%Z ->
  Z.testbit z k = (z <? 0)%Z.
Proof.
  intros z k H K. rewrite Z.testbit_eqb by auto.
  assert (0 < 2 ^ k)%Z by (apply Z.pow_pos_nonneg; lia).
  destruct (Z.ltb_spec z 0).
  - replace (z / 2 ^ k)%Z with (-1)%Z; [reflexivity|].
    apply (Z.div_unique z (2 ^ k) (-1) (z + 2 ^ k)); lia.
  - rewrite Z.div_small by lia. reflexivity.
Qed.
Lemma int_fits_spec : forall size z, int_fits size z = true ->
  1 <= size /\ (- 2 ^ Z.of_N (size - 1) <= z < 2 ^ Z.of_N (size - 1))%Z.
Proof.
  unfold int_fits. intros size z H. rewrite !andb_true_iff in H. destruct H as [[H1 H2] H3].
  apply N.leb_le in H1. apply Z.leb_le in H2. apply Z.ltb_lt in H3.
  rewrite N2Z.inj_pow in *. auto.
Qed.
Lemma int_bits_64 : forall size z, size <= 64 -> uint_bits size (ofZ 64 z) = int_bits size z.
Proof.
  intros. unfold int_bits. fold (uint_bits size (ofZ size z)). apply uint_bits_ext.
  intros i Hi. rewrite !testbit_ofZ by lia. reflexivity.
Qed.

Lemma marshal_int_ok : forall size z s bits, size <= 64 -> int_fits size z = true -> minv s bits ->
  exists s', marshal_int false size z s = (Ok tt, s') /\ minv s' (bits ++ int_bits size z).
Proof.
  intros size z s bits L F I. unfold marshal_int. apply int_fits_spec in F. destruct F as [F1 F2].
  match goal with |- context [put_chunks size ?v ?a] =>
    destruct (put_chunks_ok size v a s bits) as (i & s' & E & I') end; auto.
  - intros j Hj. destruct (N.eqb_spec j 0) as [->|Hn]; [|reflexivity].
    set (sz := chunk_sz size 0). set (v := chunk_v size (ofZ 64 z) 0).
    assert (1 <= sz <= 8 /\ sz <= size) as Hsz.
    { unfold sz, chunk_sz. destruct (N.ltb_spec size (0 + 8)); lia. }
    assert (Hv : forall i, i < sz -> N.testbit v i = Z.testbit z (Z.of_N (i + (size - sz)))).
    { intros i Hi. unfold v, sz, chunk_v, chunk_sz in *.
      destruct (N.ltb_spec (0 + 8) size).
      - rewrite N.shiftr_spec by lia.
        destruct (N.ltb_spec size (0 + 8)); [lia|].
        rewrite testbit_ofZ by lia. try (f_equal; lia).
      - rewrite testbit_ofZ by (destruct (N.ltb_spec size (0 + 8)); lia).
        f_equal. destruct (N.ltb_spec size (0 + 8)); lia. }
    assert (Hs : N.testbit v (sz - 1) = (z <? 0)%Z).
    { rewrite Hv by lia. replace (sz - 1 + (size - sz)) with (size - 1) by lia.
      apply testbit_sign; [auto|lia]. }
    apply uint_bits_ext. intros i Hi.
    destruct (z <? 0)%Z.
    + rewrite N.lor_spec, N.pow2_bits_eqb. destruct (N.eqb_spec (sz - 1) i).
      * subst i. rewrite Hs. reflexivity.
      * apply orb_false_r.
    + rewrite N.sub_1_r, <- N.ones_equiv, N.land_spec.
      destruct (N.lt_ge_cases i (sz - 1)).
      * rewrite N.ones_spec_low by auto. apply andb_true_r.
      * replace i with (sz - 1) by lia. rewrite Hs. reflexivity.
  - exists s'. unfold bind. rewrite E. rewrite int_bits_64 in I' by auto. auto.
Qed.

Lemma marshal_bool_ok : forall size b s bits, size <= 8 -> minv s bits ->
  exists s', marshal_bool size b s = (Ok tt, s') /\ minv s' (bits ++ bool_bits size b).
Proof.
  intros size b s bits L I. unfold marshal_bool.
  destruct (put_bits_ok (if b then N2b 255 else N2b 0) size s bits L I) as (s' & E & I').
  exists s'. split; [exact E|].
  replace (bool_bits size b) with (uint_bits size (b2N (if b then N2b 255 else N2b 0))); [exact I'|].
  unfold bool_bits, uint_bits.
  assert (size = 0 \/ size = 1 \/ size = 2 \/ size = 3 \/ size = 4 \/ size = 5 \/ size = 6 \/
          size = 7 \/ size = 8) as D by lia.
  destruct b; repeat (destruct D as [->|D]; [reflexivity|]); subst; reflexivity.
Qed.

Lemma put_bytes_ok : forall l s bits, minv s bits ->
  exists s', put_bytes l s = (Ok tt, s') /\ minv s' (bits ++ bits_of_bytes l).
Proof.
  induction l; intros s bits I; cbn [put_bytes].
  - exists s. cbn. rewrite app_nil_r. auto.
  - destruct (put_bits_ok a 8 s bits) as (s1 & E1 & I1); [lia|auto|].
    destruct (IHl s1 _ I1) as (s2 & E2 & I2).
    exists s2. unfold bind. rewrite E1, E2. split; auto.
    rewrite <- app_assoc in I2. rewrite bits_of_bytes_cons, bits_of_byte_N. exact I2.
Qed.
Lemma marshal_string_ok : forall bs l s bits, minv s bits ->
  exists s', marshal_string bs l s = (Ok tt, s') /\
             minv s' (bits ++ (if bs then bits_of_bytes l else cstring_bits l)).
Proof.
  intros bs l s bits I. unfold marshal_string.
  destruct (put_bytes_ok l s bits I) as (s1 & E1 & I1).
  unfold bind. rewrite E1. destruct bs.
  - exists s1. auto.
  - destruct (put_bits_ok bzero 8 s1 _ ltac:(lia) I1) as (s2 & E2 & I2).
    exists s2. split; auto. unfold cstring_bits. rewrite bits_of_bytes_app, app_assoc.
    exact I2.
Qed.

(** ** the induction over types *)
Scheme sty_flds_ind := Induction for sty Sort Prop
  with flds_sty_ind := Induction for flds Sort Prop.
Combined Scheme sty_flds_mutind from sty_flds_ind, flds_sty_ind.

Lemma is_target_enabled : forall ver flags cn env f,
  is_target ver flags cn env f = enabled ver flags cn env f.
Proof.
  intros. unfold is_target, enabled, version_allows, flags_allow, option_allows.
  rewrite (N.eqb_sym (f_version f) ver), (N.eqb_sym (f_nVersion f) ver).
  destruct (ver =? anyVersion), (f_version f =? anyVersion), (ver =? f_version f),
    (f_nVersion f =? anyVersion), (ver =? f_nVersion f), (f_optFlag f =? 0),
    (N.land flags (f_optFlag f) =? 0), (f_nOptFlag f =? 0), (N.land flags (f_nOptFlag f) =? 0),
    (f_optDyn f), (ceval env (m_opt cn (f_name f))); reflexivity.
Qed.

Lemma high_profile_spec : forall n, high_profile n = is_high_profile n.
Proof.
  intros. unfold high_profile, is_high_profile. cbn [existsb].
  destruct (n =? 100), (n =? 110), (n =? 122), (n =? 144); reflexivity.
Qed.

Lemma obind_some : forall A B (x : option A) (f : A -> option B) b,
  obind x f = Some b -> exists a, x = Some a /\ f a = Some b.
Proof. intros A B [a|] f b H; [exists a; auto|discriminate]. Qed.

Lemma concat_bits_app : forall f l m b, concat_bits f (l ++ m) = Some b ->
  exists b1 b2, concat_bits f l = Some b1 /\ concat_bits f m = Some b2 /\ b = b1 ++ b2.
Proof.
  induction l as [|v l IH]; intros m b H; cbn [app concat_bits] in *.
  - exists [], b. auto.
  - apply obind_some in H. destruct H as (a & Ha & H).
    apply obind_some in H. destruct H as (c & Hc & [= <-]).
    destruct (IH _ _ Hc) as (b1 & b2 & -> & H2 & ->).
    exists (a ++ b1), b2. rewrite Ha. cbn. rewrite <- app_assoc. auto.
Qed.

Lemma iter_list_ok : forall (g : val -> option (list bool)) (m : val -> M mst unit),
  (forall v b s bits, g v = Some b -> minv s bits ->
     exists s', m v s = (Ok tt, s') /\ minv s' (bits ++ b)) ->
  forall l b s bits, concat_bits g l = Some b -> minv s bits ->
  exists s', iter_list m l s = (Ok tt, s') /\ minv s' (bits ++ b).
Proof.
  intros g m H. induction l as [|v l IH]; intros b s bits E I; cbn [concat_bits iter_list] in *.
  - injection E as <-. exists s. rewrite app_nil_r. auto.
  - apply obind_some in E. destruct E as (b1 & E1 & E).
    apply obind_some in E. destruct E as (b2 & E2 & [= <-]).
    destruct (H v b1 s bits E1 I) as (s1 & M1 & I1).
    destruct (IH b2 s1 _ E2 I1) as (s2 & M2 & I2).
    exists s2. unfold bind. rewrite M1, M2. rewrite <- app_assoc in I2. auto.
Qed.

(** bytes through the fast path *)
Lemma concat_u8 : forall f size len l b rn root ctx, f_varint f = false -> size = 8 ->
  concat_bits (layout_val rn root ctx f size len (SUint 8)) l = Some b ->
  b = bits_of_bytes (map (fun x => N2b (as_uint (Some x))) l).
Proof.
  intros f size len l b rn root ctx V ->. revert b.
  induction l as [|v l IH]; intros b E; cbn [concat_bits map] in *.
  - injection E as <-. reflexivity.
  - apply obind_some in E. destruct E as (b1 & E1 & E).
    apply obind_some in E. destruct E as (b2 & E2 & [= <-]).
    rewrite bits_of_bytes_cons. rewrite (IH _ E2). f_equal.
    cbn [layout_val] in E1. destruct v as [n| | | | | |]; try discriminate. rewrite V in E1.
    destruct (uint_fits 8 n && uint_fits 8 n); [|discriminate]. injection E1 as <-.
    cbn [as_uint]. now rewrite bits_of_N2b.
Qed.
Lemma concat_u8_varint : forall f size len l b rn root ctx, f_varint f = true -> size = 8 ->
  concat_bits (layout_val rn root ctx f size len (SUint 8)) l = Some b -> l = [] /\ b = [].
Proof.
  intros f size len l b rn root ctx V -> E. destruct l as [|v l]; [injection E as <-; auto|].
  cbn [concat_bits] in E. apply obind_some in E. destruct E as (b1 & E1 & _).
  cbn [layout_val] in E1. destruct v; try discriminate. rewrite V in E1. discriminate.
Qed.

Lemma ignore_err_ok : forall (m : M mst unit) s s', m s = (Ok tt, s') -> ignore_err m s = (Ok tt, s').
Proof. intros m s s' H. unfold ignore_err. now rewrite H. Qed.

Definition top_at (top : option N) (bits : list bool) : Prop :=
  match top with Some n => n = lenN bits | None => True end.

Lemma is_u8_inv : forall t, is_u8 t = true -> t = SUint 8.
Proof.
  intros t H. destruct t as [w| | | | | | |]; try discriminate. cbn in H.
  destruct w as [|p]; [discriminate|]. repeat (destruct p as [p|p|]; try discriminate).
  reflexivity.
Qed.

Lemma util_write_string_ok : forall p s bits, minv s bits -> lenN bits mod 8 = 0 ->
  exists s', util_write_string p s = (Ok tt, s') /\ winv (m_w s') (bits ++ cstring_bits p) /\
             m_wbits s' = m_wbits s.
Proof.
  intros p s bits [W C] A. unfold util_write_string.
  destruct (wr_write_ok p (m_w s) bits W A) as (w1 & E1 & W1).
  destruct (wr_write_ok [bzero] w1 _ W1) as (w2 & E2 & W2).
  { rewrite lenN_app, lenN_bits_of_bytes. lia. }
  exists (mkmst w2 (m_wbits s)). unfold bind, lift_w. rewrite E1. cbn [m_w m_wbits]. rewrite E2.
  cbn [m_w m_wbits]. split; [reflexivity|]. split; [|reflexivity].
  unfold cstring_bits. rewrite bits_of_bytes_app, app_assoc. exact W2.
Qed.

Lemma andb_3 : forall a b c, a && b && c = true -> a = true /\ b = true /\ c = true.
Proof. intros [] [] []; auto. Qed.

Lemma marshal_slice_ok : forall rn root ctx u f size len l b s bits,
  (forall v b s bits, layout_val rn root ctx f size len u v = Some b -> minv s bits ->
     exists s', marshal_val rn root ctx f size len u v s = (Ok tt, s') /\ minv s' (bits ++ b)) ->
  layout_val rn root ctx f size len (SSlice u) (VList l) = Some b -> minv s bits ->
  exists s', marshal_val rn root ctx f size len (SSlice u) (VList l) s = (Ok tt, s') /\
             minv s' (bits ++ b).
Proof.
  intros rn root ctx u f size len l b s bits IH E I. cbn [layout_val marshal_val] in *.
  assert (exists n, n <= lenN l /\ (if len =? LengthUnlimited then lenN l else len) = n /\
    concat_bits (layout_val rn root ctx f size len u) (takeN n l) = Some b /\
    negb (len =? LengthUnlimited) && (lenN l <? len) = false) as (n & Hn & En & Ec & Et).
  { destruct (len =? LengthUnlimited).
    - exists (lenN l). rewrite takeN_all by lia. split; [lia|auto].
    - destruct (N.leb_spec len (lenN l)); [|discriminate].
      exists len. split; [auto|]. split; [auto|]. split; [auto|].
      cbn [negb andb]. apply N.ltb_ge. auto. }
  rewrite Et, En.
  destruct (is_u8 u && (size =? 8) && (m_wbits s mod 8 =? 0)) eqn:F.
  - apply andb_3 in F. destruct F as (F1 & F2 & F3).
    apply is_u8_inv in F1. subst u. apply N.eqb_eq in F2, F3. subst size.
    assert (lenN (takeN n l) = n) as Ln by (rewrite lenN_takeN; lia).
    assert (b = bits_of_bytes (map (fun x => N2b (as_uint (Some x))) (takeN n l))) as ->.
    { destruct (f_varint f) eqn:V.
      - destruct (concat_u8_varint _ _ _ _ _ _ _ _ V eq_refl Ec) as [Z ->]. rewrite Z. reflexivity.
      - eapply concat_u8; eauto. }
    destruct I as [W C].
    destruct (wr_copy_ok (map (fun x => N2b (as_uint (Some x))) (takeN n l)) (m_w s) bits W)
      as (w' & E' & W'); [rewrite <- C; auto|].
    exists (mkmst w' (m_wbits s + n * 8)). unfold bind, lift_w, add_wbits. rewrite E'.
    cbn [m_w m_wbits]. split; [reflexivity|]. split; [exact W'|]. cbn [m_wbits].
    rewrite lenN_app, lenN_bits_of_bytes, lenN_map, Ln, C. lia.
  - apply (iter_list_ok (layout_val rn root ctx f size len u)); auto.
    intros v b' s' bits' E' I'. destruct (IH v b' s' bits' E' I') as (s2 & M & I2).
    exists s2. split; auto. now apply ignore_err_ok.
Qed.

Lemma layout_flds_cons : forall rn root ctx top sname cfo self f t rest,
  layout_flds rn root ctx top sname cfo self (FCons f t rest) =
  let (cn, env) := owner rn root ctx cfo sname self in
  obind (resolve_size cn env f) (fun size =>
  obind (resolve_len cn env f) (fun len =>
  obind (field_bits rn root ctx top cn env self f
           (obind (lookup (f_name f) self) (layout_val rn root ctx f size len t)))
   (fun b => obind (layout_flds rn root ctx (option_map (fun n => n + lenN b) top) sname cfo self rest)
                   (fun r => Some (b ++ r))))).
Proof. reflexivity. Qed.

Lemma marshal_flds_cons : forall rn root ctx sname cfo self f t rest,
  marshal_flds rn root ctx sname cfo self (FCons f t rest) =
  let env := cfo_env root ctx cfo self in
  let cn := cfo_name rn cfo sname in
  match resolve_size cn env f, resolve_len cn env f with
  | Some size, Some len =>
      (if is_target (get_version root) (get_flags root) cn env f then
         wo <- on_write (hook_of cn (f_name f)) (get_version root) self ;;
         add_wbits (fst wo) ;;;
         (if snd wo then ret tt
          else match lookup (f_name f) self with
               | Some v => marshal_val rn root ctx f size len t v
               | None => panic
               end)
       else ret tt) ;;;
      marshal_flds rn root ctx sname cfo self rest
  | _, _ => panic
  end.
Proof. reflexivity. Qed.

Lemma marshal_ok : forall rn root ctx,
  (forall t f size len v b s bits,
     layout_val rn root ctx f size len t v = Some b -> minv s bits ->
     exists s', marshal_val rn root ctx f size len t v s = (Ok tt, s') /\ minv s' (bits ++ b)) /\
  (forall fs top sname cfo self b s bits,
     layout_flds rn root ctx top sname cfo self fs = Some b -> minv s bits -> top_at top bits ->
     exists s', marshal_flds rn root ctx sname cfo self fs s = (Ok tt, s') /\ minv s' (bits ++ b)).
Proof.
  intros rn root ctx. apply sty_flds_mutind.
  - (* SUint *)
    intros w f size len v b s bits E I. cbn [layout_val marshal_val] in *.
    destruct v as [n| | | | | |]; try discriminate.
    destruct (f_varint f).
    + destruct ((size =? 0) && uint_fits w n && uint_fits 28 n); [|discriminate].
      injection E as <-. destruct (write_uvarint_ok n s bits I) as (s' & E & I').
      exists s'. split; auto. now apply ignore_err_ok.
    + destruct (uint_fits w n && uint_fits size n); [|discriminate].
      injection E as <-. now apply marshal_uint_ok.
  - (* SInt *)
    intros w f size len v b s bits E I. cbn [layout_val marshal_val] in *.
    destruct v as [|z| | | | |]; try discriminate.
    destruct (negb (f_varint f) && (size <=? 64) && int_fits size z) eqn:C; [|discriminate].
    apply andb_3 in C. destruct C as (C1 & C2 & C3). injection E as <-.
    destruct (f_varint f); [discriminate|]. apply N.leb_le in C2. now apply marshal_int_ok.
  - (* SBool *)
    intros f size len v b s bits E I. cbn [layout_val marshal_val] in *.
    destruct v as [| |x| | | |]; try discriminate.
    destruct (N.leb_spec size 8); [|discriminate]. injection E as <-. now apply marshal_bool_ok.
  - (* SStr *)
    intros f size len v b s bits E I. cbn [layout_val marshal_val] in *.
    destruct v as [| | |x| | |]; try discriminate. injection E as <-. now apply marshal_string_ok.
  - (* SArr *)
    intros n u IH f size len v b s bits E I. cbn [layout_val marshal_val] in *.
    destruct v as [| | | |l| |]; try discriminate.
    destruct (lenN l =? n); [|discriminate].
    eapply iter_list_ok; eauto.
  - (* SSlice *)
    intros u IH f size len v b s bits E I.
    destruct v as [| | | |l| |]; try discriminate.
    eapply marshal_slice_ok; eauto.
  - (* SPtr *)
    intros u IH f size len v b s bits E I. cbn [layout_val marshal_val] in *.
    destruct v as [| | | | |[x|]|]; try discriminate. eauto.
  - (* SStruct *)
    intros name cfo fs IH f size len v b s bits E I. cbn [layout_val marshal_val] in *.
    destruct v as [| | | | | |l]; try discriminate. eapply IH; eauto. exact Logic.I.
  - (* FNil *)
    intros top sname cfo self b s bits E I T. cbn [layout_flds marshal_flds] in *.
    injection E as <-. exists s. rewrite app_nil_r. auto.
  - (* FCons *)
    intros f t IHt rest IHr top sname cfo self b s bits E I T.
    rewrite layout_flds_cons in E. rewrite marshal_flds_cons. cbv zeta. unfold owner in E.
    assert (exists cn env, cn = cfo_name rn cfo sname /\ env = cfo_env root ctx cfo self /\
      (if cfo then (sname, spec_env root ctx self) else (rn, spec_env root ctx root)) = (cn, env))
      as (cn & env & Ecn & Eenv & Eo).
    { destruct cfo; do 2 eexists; split; [reflexivity| |reflexivity|]; split; reflexivity. }
    rewrite Eo in E. rewrite <- Ecn, <- Eenv. clear Eo.
    apply obind_some in E. destruct E as (size & -> & E).
    apply obind_some in E. destruct E as (len & -> & E).
    apply obind_some in E. destruct E as (b1 & E1 & E).
    apply obind_some in E. destruct E as (b2 & E2 & [= <-]).
    assert (exists s1, (if is_target (get_version root) (get_flags root) cn env f then
               wo <- on_write (hook_of cn (f_name f)) (get_version root) self ;;
               add_wbits (fst wo) ;;;
               (if snd wo then ret tt
                else match lookup (f_name f) self with
                     | Some v => marshal_val rn root ctx f size len t v
                     | None => panic
                     end)
             else ret tt) s = (Ok tt, s1) /\ minv s1 (bits ++ b1)) as (s1 & M1 & I1).
    { rewrite is_target_enabled. unfold field_bits in E1.
      destruct (enabled (get_version root) (get_flags root) cn env f);
        [|injection E1 as <-; exists s; rewrite app_nil_r; auto].
      assert (Hplain : forall b s bits,
        obind (lookup (f_name f) self) (layout_val rn root ctx f size len t) = Some b ->
        minv s bits ->
        exists s', match lookup (f_name f) self with
                   | Some v => marshal_val rn root ctx f size len t v
                   | None => panic
                   end s = (Ok tt, s') /\ minv s' (bits ++ b)).
      { intros b s0 bits0 Ep Ip. apply obind_some in Ep. destruct Ep as (v & -> & Ep). eauto. }
      assert (Hadd0 : forall s bits, minv s bits -> minv (mkmst (m_w s) (m_wbits s + 0)) bits).
      { intros s0 bits0 [W0 C0]. split; [exact W0|]. cbn [m_wbits]. lia. }
      destruct (hook_of cn (f_name f)); unfold bind at 1; cbn [on_write].
      - unfold ret at 1, bind, add_wbits; cbn [fst snd].
        apply Hplain; auto.
      - unfold ret at 1, bind, add_wbits; cbn [fst snd].
        destruct (get_version root =? 0); cbn [negb].
        + apply Hplain; auto.
        + injection E1 as <-. eexists. split; [reflexivity|]. rewrite app_nil_r. auto.
      - destruct (get_version root =? 0).
        + unfold ret at 1, bind, add_wbits; cbn [fst snd]. apply Hplain; auto.
        + destruct top as [n|]; [|discriminate]. cbn in T. subst n.
          destruct (N.eqb_spec (lenN bits mod 8) 0) as [A|]; [|discriminate].
          apply obind_some in E1. destruct E1 as (bp & Ep & [= <-]).
          set (x := as_bytes (lookup "SchemeIdUri" self)) in *.
          set (y := as_bytes (lookup "Value" self)) in *.
          destruct (util_write_string_ok x s bits I A) as (s1 & W1 & V1 & C1).
          destruct (util_write_string_ok y (mkmst (m_w s1) (lenN (bits ++ cstring_bits x)))
                     (bits ++ cstring_bits x)) as (s2 & W2 & V2 & C2).
          { split; [exact V1|reflexivity]. }
          { unfold cstring_bits. rewrite lenN_app, lenN_bits_of_bytes. lia. }
          assert (W2' : exists s2', util_write_string y s1 = (Ok tt, s2') /\
                    m_w s2' = m_w s2 /\ m_wbits s2' = m_wbits s1).
          { unfold util_write_string, bind, lift_w in W2 |- *. cbn [m_w m_wbits] in W2.
            destruct (wr_write y (m_w s1)) as [[] w1]; try discriminate. cbn [m_w] in *.
            destruct (wr_write [bzero] w1) as [[a0| | |] w2]; try discriminate. cbn [m_w] in *.
            destruct a0. injection W2 as <-. eexists. split; [reflexivity|]. split; reflexivity. }
          destruct W2' as (s2' & W2' & Ew & Ec).
          unfold bind. rewrite W1, W2'. cbn [fst snd ret add_wbits].
          destruct (Hplain bp (mkmst (m_w s2') (m_wbits s2' + (lenN x + lenN y + 2) * 8))
                      (bits ++ cstring_bits x ++ cstring_bits y)) as (s3 & M3 & I3); auto.
          { split; cbn [m_w m_wbits].
            - rewrite Ew, app_assoc. exact V2.
            - rewrite Ec, C1. destruct I as [_ ->]. unfold cstring_bits.
              rewrite !lenN_app, !lenN_bits_of_bytes, !lenN_app.
              change (lenN [bzero]) with 1. lia. }
          exists s3. split; [exact M3|]. rewrite <- !app_assoc in I3. exact I3.
      - unfold ret at 1, bind, add_wbits; cbn [fst snd].
        apply Hplain; auto.
      - rewrite <- high_profile_spec in E1.
        destruct (as_bool (lookup "HighProfileFieldsEnabled" self)),
          (high_profile (as_uint (lookup "Profile" self))); cbn [implb negb andb] in *;
          try discriminate; injection E1 as <-;
          (eexists; split; [reflexivity|]; rewrite app_nil_r; auto). }
    destruct (IHr (option_map (fun n => n + lenN b1) top) sname cfo self b2 s1 (bits ++ b1) E2 I1)
      as (s2 & M2 & I2).
    { destruct top as [n|]; cbn in *; [|exact Logic.I]. subst. now rewrite lenN_app. }
    exists s2. unfold bind at 1. rewrite M1. rewrite <- app_assoc in I2. split; auto.
Qed.

(** ** Marshal as a whole *)
Lemma marshal_def_ok : forall d ctx v bits,
  layout (bd_name d) (bd_flds d) ctx v = Some bits -> lenN bits mod 8 = 0 ->
  exists out, bits_of_bytes out = bits /\ marshal_def d ctx v [] = (Ok (lenN out), out).
Proof.
  intros d ctx v bits E A.
  destruct (proj2 (marshal_ok (bd_name d) v ctx) (bd_flds d) (Some 0) (bd_name d) true v bits
              _ [] E minv_new eq_refl) as (s' & M & [W C]).
  cbn [app] in *.
  exists (w_out (m_w s')). pose proof (winv_aligned _ _ W A) as EO.
  split; [exact EO|]. unfold marshal_def. rewrite M. rewrite C, A. cbn [N.eqb].
  f_equal. f_equal. rewrite <- EO, lenN_bits_of_bytes. lia.
Qed.
