(** Unmarshal is the function of Decode.v. *)
From Verif Require Import Base BaseProofs BitIO BitIOProofs Schema Methods Registry Marshal
     Unmarshal SpecCodec MarshalProofs Decode.
Local Open Scope string_scope.
Local Open Scope list_scope.
Local Open Scope N_scope.
Local Open Scope monad_scope.
Local Open Scope dec_scope.
Ltac Zify.zify_post_hook ::= Z.to_euclidean_division_equations.

Lemma dbind_assoc : forall A B C (m : D A) (f : A -> D B) (g : B -> D C) st,
  dbind (dbind m f) g st = dbind m (fun a => dbind (f a) g) st.
Proof. intros; unfold dbind; destruct (m st) as [[a s1]| | |]; auto. Qed.

  Lemma d_bytes_step : forall n st a st', d_bytes n st = Ok (a, st') ->
    lenN a = n /\ fst st' = fst st + 8 * n /\ snd st' = skipN (8 * n) (snd st) /\
    (n <> 0 -> fst st mod 8 = 0).
  Proof.
    intros n st a st' H. unfold d_bytes in H. destruct (N.eqb_spec (fst st mod 8) 0) as [A|A].
    - destruct (N.leb_spec (8 * n) (lenN (snd st))) as [L|L]; [|destruct (lenN (snd st) =? 0); discriminate].
      injection H as <- <-. cbn [fst snd]. repeat split; auto.
      assert (List.length (takeN (8 * n) (snd st)) = (8 * N.to_nat n)%nat) as E.
      { pose proof (lenN_takeN _ (snd st) (8 * n)) as E. unfold lenN in *. lia. }
      destruct (pack_bits _ _ E) as [_ E2]. unfold lenN. transitivity (N.of_nat (N.to_nat n)); [|lia]. now rewrite <- E2.
    - destruct (N.eqb_spec n 0) as [->|]; [|discriminate]. injection H as <- <-.
      rewrite skipN_0. repeat split; auto; lia.
  Qed.
  Lemma d_zstring_step : forall k st a st', d_zstring k st = Ok (a, st') ->
    fst st' = fst st + 8 * (lenN a + 1).
  Proof.
    intros k st a st' H. unfold d_zstring, dbind at 1 in H.
    destruct (dwhile k _ [] st) as [[x st1]| | |] eqn:E; try discriminate.
    injection H as <- <-. rewrite lenN_rev.
    assert (G : forall k acc st x st1,
      dwhile k (fun acc : list byte => b <~ d_bytes 1;;
             match b with
             | [c] => if b2N c =? 0 then dret (inr acc) else dret (inl (c :: acc))
             | _ => dpanic
             end) acc st = Ok (x, st1) -> fst st1 + 8 * lenN acc = fst st + 8 * (lenN x + 1)).
    { clear. induction k; intros acc st x st1 E; [discriminate|]. cbn [dwhile] in E.
      unfold dbind at 1, dbind at 1 in E.
      destruct (d_bytes 1 st) as [[b st2]| | |] eqn:B; try discriminate.
      apply d_bytes_step in B. destruct B as (L & F & _).
      destruct b as [|c [|c' b]]; try discriminate.
      destruct (b2N c =? 0); cbn [dret] in E.
      - injection E as <- <-. lia.
      - apply IHk in E. rewrite lenN_cons in E. lia. }
    apply G in E. rewrite lenN_nil in E. lia.
  Qed.


Section Agree.
  Variable data : list byte.
  Variable start : N.            (* bit position of the payload *)
  Hypothesis Hstart : start mod 8 = 0.
  Hypothesis Hdata : lenN data < 2 ^ 62.

  Definition rel (base : N) (s : ust) (st : dst) : Prop :=
    rd data (u_r s) (start + fst st) /\
    snd st = skipN (start + fst st) (bits_of_bytes data) /\
    start + fst st <= 8 * lenN data /\
    base <= fst st /\ u_rbits s = fst st - base.

  Lemma rel_len : forall base s st, rel base s st ->
    lenN (snd st) = 8 * lenN data - (start + fst st).
  Proof. intros base s st (_ & E & _). rewrite E, lenN_skipN, lenN_bits_of_bytes. lia. Qed.

  Definition agree_at {A} (base : N) (m : M ust A) (d : D A) s st : Prop :=
    match m s with
    | (Ok a, s') => exists st', d st = Ok (a, st') /\ rel base s' st'
    | (Err e, _) => d st = Err e
    | (Panic, _) => d st = Panic
    | (OutOfFuel, _) => d st = OutOfFuel
    end.
  Definition agree {A} (base : N) (m : M ust A) (d : D A) : Prop :=
    forall s st, rel base s st -> agree_at base m d s st.

  Lemma agree_ret : forall A base (a : A), agree base (ret a) (dret a).
  Proof. intros A base a s st H. exists st. auto. Qed.
  Lemma agree_fail : forall A base e, agree base (@fail ust A e) (dfail e).
  Proof. intros A base e s st H. reflexivity. Qed.
  Lemma agree_panic : forall A base, agree base (@panic ust A) dpanic.
  Proof. intros A base s st H. reflexivity. Qed.
  Lemma agree_bind : forall A B base (m : M ust A) (d : D A) (k : A -> M ust B) (e : A -> D B),
    agree base m d -> (forall a, agree base (k a) (e a)) -> agree base (bind m k) (dbind d e).
  Proof.
    intros A B base m d k e H1 H2 s st I. specialize (H1 s st I). unfold agree_at in *.
    unfold bind, dbind. destruct (m s) as [[a| | |] s1]; try now rewrite H1.
    destruct H1 as (st1 & E & I1). rewrite E. apply H2; auto.
  Qed.
  Lemma agree_loop : forall A base (body : A -> M ust A) (dbody : A -> D A),
    (forall a, agree base (body a) (dbody a)) ->
    forall n a, agree base (loopN n body a) (dloop (N.to_nat n) dbody a).
  Proof.
    intros A base body dbody H n a s st I. unfold agree_at. rewrite loopN_nat.
    revert a s st I. induction (N.to_nat n) as [|k IH]; intros a s st I.
    - exists st. auto.
    - cbn [loop_nat dloop]. apply (agree_bind _ _ base (body a) (dbody a)); auto.
  Qed.
  Lemma agree_while : forall A B base (body : A -> M ust (A + B)) (dbody : A -> D (A + B)),
    (forall a, agree base (body a) (dbody a)) ->
    forall p a, agree base (while p body a) (dwhile (Pos.to_nat p) dbody a).
  Proof.
    intros A B base body dbody H p a s st I. unfold while, agree_at. rewrite whileP_nat.
    revert a s st I. induction (Pos.to_nat p) as [|k IH]; intros a s st I; [reflexivity|].
    cbn [while_nat dwhile]. unfold bind, dbind. specialize (H a s st I). unfold agree_at in H.
    destruct (body a s) as [[[a1|b]| | |] s1]; try now rewrite H.
    - destruct H as (st1 & E & I1). rewrite E. apply IH; auto.
    - destruct H as (st1 & E & I1). rewrite E. exists st1. auto.
  Qed.
  Lemma agree_ext : forall A base (m m' : M ust A) (d d' : D A),
    (forall s, m s = m' s) -> (forall st, d st = d' st) -> agree base m d -> agree base m' d'.
  Proof. intros A base m m' d d' E1 E2 H s st I. unfold agree_at. rewrite <- E1, <- E2. apply H; auto. Qed.

  (** the count of bits read is the distance from the base *)
  Lemma rbits_bind : forall A (k : N -> M ust A) s, bind get_rbits k s = k (u_rbits s) s.
  Proof. reflexivity. Qed.
  Lemma dpos_bind : forall A (k : N -> D A) st, dbind dpos k st = k (fst st) st.
  Proof. reflexivity. Qed.
  Lemma agree_rbits : forall A base (k : N -> M ust A) (e : N -> D A),
    (forall p, base <= p -> agree base (k (p - base)) (e p)) ->
    agree base (bind get_rbits k) (dbind dpos e).
  Proof.
    intros A base k e H s st I. unfold agree_at, bind, get_rbits, dbind, dpos.
    destruct I as (I1 & I2 & I3 & I4 & I5). rewrite I5. apply H; [auto|]. repeat split; auto; apply I1.
  Qed.

  (** *** elementary reads *)
  Lemma agree_take : forall A B base n (g : list bool -> A) (h : list byte -> A)
                            (k : A -> M ust B) (e : A -> D B),
    (forall b, lenN b = n -> g b = h (pack (pad_bits b))) ->
    (forall a, agree base (k a) (e a)) ->
    agree base (bind (take_bits data n) (fun d => k (h d))) (dbind (d_take n) (fun b => e (g b))).
  Proof.
    intros A B base n g h k e Hg Hk s st I. unfold agree_at, take_bits, lift_r, bind, add_rbits, ret, dbind, d_take.
    pose proof (rel_len _ _ _ I) as L. destruct I as (I1 & I2 & I3 & I4 & I5).
    destruct (N.leb_spec n (lenN (snd st))) as [Hn|Hn].
    - destruct (read_bits_ok data n (u_r s) (start + fst st) I1) as (s' & E & R).
      { rewrite <- I2. auto. }
      rewrite E. cbn [u_r u_rbits]. rewrite <- I2.
      rewrite <- Hg by (rewrite lenN_takeN; lia).
      apply Hk. split; [|split; [|split; [|split]]]; cbn [u_r u_rbits fst snd].
      + now rewrite N.add_assoc.
      + rewrite I2, skipN_skipN. f_equal. lia.
      + lia.
      + lia.
      + lia.
    - destruct (read_bits_eof data n (u_r s) (start + fst st) I1) as (s' & E & _).
      { rewrite <- I2. auto. }
      rewrite E. reflexivity.
  Qed.

  Lemma rel_aligned : forall base s st, rel base s st -> fst st mod 8 = 0 ->
    r_width (u_r s) = 0 /\ 8 * r_pos (u_r s) = start + fst st.
  Proof.
    intros base s st (I1 & _) A. destruct (rd_aligned data (u_r s) (start + fst st) I1); lia.
  Qed.
  Lemma rel_unaligned : forall base s st, rel base s st -> fst st mod 8 <> 0 ->
    r_width (u_r s) <> 0.
  Proof.
    intros base s st (I1 & _) A. rewrite (rd_width _ _ _ I1). lia.
  Qed.

  Lemma pack_bytes : forall l, pack (bits_of_bytes l) = l.
  Proof.
    intros l. apply bits_of_bytes_inj.
    apply (pack_bits (List.length l)). apply bits_of_bytes_length.
  Qed.
  (** reading n bytes and counting them *)
  Lemma agree_bytes : forall base n,
    agree base (d <- lift_r (read_full data n) ;; add_rbits (n * 8) ;;; ret d) (d_bytes n).
  Proof.
    intros base n s st I. pose proof (rel_len _ _ _ I) as L.
    unfold agree_at, bind, lift_r, read_full, d_bytes.
    destruct (N.eqb_spec (fst st mod 8) 0) as [A|A].
    - destruct (rel_aligned _ _ _ I A) as [W P]. rewrite W. cbn [N.eqb].
      destruct I as (I1 & I2 & I3 & I4 & I5).
      assert (E : lenN (takeN n (skipN (r_pos (u_r s)) data)) = N.min n (lenN data - r_pos (u_r s))).
      { rewrite lenN_takeN, lenN_skipN. reflexivity. }
      destruct (N.leb_spec (8 * n) (lenN (snd st))) as [Hn|Hn].
      + replace (lenN (takeN n (skipN (r_pos (u_r s)) data)) =? n) with true
          by (symmetry; apply N.eqb_eq; lia).
        cbn [u_r u_rbits ret add_rbits]. eexists. split.
        * f_equal. f_equal.
          rewrite I2. replace (start + fst st) with (8 * r_pos (u_r s)) by lia.
          rewrite skipN_bits_of_bytes, takeN_bits_of_bytes. apply pack_bytes.
        * split; [|split; [|split; [|split]]]; cbn [u_r u_rbits fst snd].
          -- rewrite E. replace (start + (fst st + 8 * n)) with (8 * (r_pos (u_r s) + N.min n (lenN data - r_pos (u_r s)))) by lia.
             apply rd_at.
          -- rewrite I2, skipN_skipN. f_equal. lia.
          -- lia.
          -- lia.
          -- lia.
      + replace (lenN (takeN n (skipN (r_pos (u_r s)) data)) =? n) with false
          by (symmetry; apply N.eqb_neq; lia).
        destruct (N.eqb_spec (lenN (takeN n (skipN (r_pos (u_r s)) data))) 0) as [Z|Z].
        * replace (lenN (snd st) =? 0) with true; [reflexivity|]. symmetry. apply N.eqb_eq. lia.
        * replace (lenN (snd st) =? 0) with false; [reflexivity|]. symmetry. apply N.eqb_neq. lia.
    - pose proof (rel_unaligned _ _ _ I A) as W.
      destruct (N.eqb_spec (r_width (u_r s)) 0); [lia|].
      destruct (N.eqb_spec n 0) as [->|]; [|reflexivity].
      cbn [ret add_rbits u_r u_rbits]. exists st. split; [reflexivity|].
      destruct I as (I1 & I2 & I3 & I4 & I5). repeat split; cbn [u_r u_rbits]; auto; try apply I1. lia.
  Qed.
  (** readerHasSize followed by a failure when the size is missing *)
  Lemma agree_has_size : forall A base n (k : M ust A) (e : D A) s st, rel base s st ->
    (forall s, rel base s st -> fst st mod 8 = 0 -> 8 * n <= lenN (snd st) -> agree_at base k e s st) ->
    agree_at base (ok <- lift_r (reader_has_size data n) ;;
                if negb ok then fail (EMsg "not enough bits") else k)
               (ok <~ d_has n ;; if negb ok then dfail (EMsg "not enough bits") else e) s st.
  Proof.
    intros A base n k e s st I H. pose proof (rel_len _ _ _ I) as L.
    unfold agree_at, bind, lift_r, reader_has_size, seek_cur0, seek_end, seek_start, dbind, d_has.
    destruct (N.eqb_spec (fst st mod 8) 0) as [Al|Al]; cbn [andb].
    - destruct (rel_aligned _ _ _ I Al) as [W P]. rewrite W. cbn [N.eqb].
      pose proof I as (I1 & I2 & I3 & I4 & I5).
      change (2 ^ 62) with 4611686018427387904 in Hdata.
      replace (sub64 (lenN data) (r_pos (u_r s))) with (lenN data - r_pos (u_r s))
        by (unfold sub64, W64; lia).
      destruct (N.leb_spec (8 * n) (lenN (snd st))) as [Hn|Hn].
      + replace (lenN data - r_pos (u_r s) <? n) with false by (symmetry; apply N.ltb_ge; lia).
        replace (r_pos (u_r s) <? 9223372036854775808) with true by (symmetry; apply N.ltb_lt; lia).
        cbn [negb]. apply H; auto. repeat split; cbn [u_r u_rbits]; auto.
        * cbn [r_width]. lia.
        * cbn [r_width r_pos]. lia.
        * replace (start + fst st) with (8 * r_pos (u_r s)) by lia. apply rd_at.
      + replace (lenN data - r_pos (u_r s) <? n) with true by (symmetry; apply N.ltb_lt; lia).
        reflexivity.
    - pose proof (rel_unaligned _ _ _ I Al) as W.
      destruct (N.eqb_spec (r_width (u_r s)) 0); [lia|]. reflexivity.
  Qed.

  Lemma be_fold64_spec : forall l i, be_fold64 i l mod W64 = w64 (be_to_N_acc i l).
  Proof.
    unfold be_fold64, w64. induction l as [|b l IH]; intros i; cbn [fold_left be_to_N_acc]; [reflexivity|].
    rewrite IH. clear IH. rewrite !be_to_N_acc_bits, !bits_to_N_acc_shift.
    rewrite N.add_mod, N.mul_mod, N.mod_mod, <- N.mul_mod, <- N.add_mod by discriminate. reflexivity.
  Qed.
  Lemma be_fold64_cons : forall l i, l <> [] -> be_fold64 i l = w64 (be_to_N_acc i l).
  Proof.
    intros l i H. rewrite <- be_fold64_spec. destruct (exists_last H) as (l' & b & ->).
    unfold be_fold64. rewrite fold_left_app. cbn [fold_left]. unfold w64.
    now rewrite N.mod_mod by discriminate.
  Qed.
  Lemma pack_pad_nonempty : forall b, lenN b <> 0 -> pack (pad_bits b) <> [].
  Proof.
    intros b H E. pose proof (length_pack_pad b) as L. rewrite E in L. cbn [List.length] in L.
    unfold lenN in H. assert ((List.length b + 7) / 8 >= 1)%nat; [|lia].
    apply (Nat.div_le_mono 8 _ 8); lia.
  Qed.

  Lemma pos_fuel : Pos.to_nat (loop_fuel data) = N.to_nat (8 * lenN data + 9).
  Proof. unfold loop_fuel. lia. Qed.
  Notation fuel := (N.to_nat (8 * lenN data + 9)).

  Lemma agree_while_fuel : forall A B base (body : A -> M ust (A + B)) (dbody : A -> D (A + B)),
    (forall a, agree base (body a) (dbody a)) ->
    forall a, agree base (while (loop_fuel data) body a) (dwhile fuel dbody a).
  Proof. intros. rewrite <- pos_fuel. now apply agree_while. Qed.

  Lemma agree_uvarint : forall base, agree base (read_uvarint data) (d_uvarint fuel).
  Proof.
    intros base. unfold read_uvarint, d_uvarint. rewrite <- pos_fuel.
    apply agree_while. intros val.
    apply (agree_take N (N + N) base 8 bits_to_N be_to_N
      (fun b => ret (if b <? 128 then inr (w64 (w64 (128 * val) + b mod 128))
                     else inl (w64 (w64 (128 * val) + b mod 128))))
      (fun b => dret (if b <? 128 then inr (w64 (w64 (128 * val) + b mod 128))
                     else inl (w64 (w64 (128 * val) + b mod 128))))).
    - intros b _. now rewrite be_to_N_pack_pad.
    - intros. apply agree_ret.
  Qed.
  Lemma agree_uint : forall base w vi size,
    agree base (unmarshal_uint data w vi size) (d_uint fuel w vi size).
  Proof.
    intros base w [] size; unfold unmarshal_uint, d_uint.
    - apply agree_bind; [apply agree_uvarint|intros; apply agree_ret].
    - destruct (N.eqb_spec size 0) as [|Hs]; [apply agree_fail|].
      apply (agree_take N val base size (fun b => w64 (bits_to_N b)) (be_fold64 0)
               (fun x => ret (VUint (x mod 2 ^ w))) (fun x => dret (VUint (x mod 2 ^ w)))).
      + intros b L. rewrite be_fold64_cons by (apply pack_pad_nonempty; lia).
        f_equal. symmetry. apply be_to_N_pack_pad.
      + intros. apply agree_ret.
  Qed.

  (** *** sign extension *)
  Lemma testbit_land_pow2 : forall n k, negb (N.land n (2 ^ k) =? 0) = N.testbit n k.
  Proof.
    intros n k. destruct (N.testbit n k) eqn:T.
    - apply negb_true_iff, N.eqb_neq. intros E.
      assert (N.testbit (N.land n (2 ^ k)) k = true) as X.
      { rewrite N.land_spec, T, N.pow2_bits_true. reflexivity. }
      rewrite E, N.bits_0 in X. discriminate.
    - apply negb_false_iff, N.eqb_eq. apply N.bits_inj. intros i. rewrite N.bits_0, N.land_spec.
      destruct (N.eq_dec i k) as [->|]; [now rewrite T|].
      rewrite N.pow2_bits_false by auto. apply andb_false_r.
  Qed.
  Lemma pad_split : forall b h l, b = h :: l ->
    exists p r, pack (pad_bits b) = p :: r /\ 
      N.testbit (b2N p) ((lenN b - 1) mod 8) = h /\
      (h = true -> b2N p = 2 ^ ((lenN b - 1) mod 8) + b2N p mod 2 ^ ((lenN b - 1) mod 8)) /\
      8 * lenN r + (lenN b - 1) mod 8 + 1 = lenN b /\
      b2N p < 2 ^ ((lenN b - 1) mod 8 + 1).
  Proof.
    intros b h l E.
    destruct (pack (pad_bits b)) as [|p r] eqn:K.
    { exfalso. apply (pack_pad_nonempty b); auto. rewrite E, lenN_cons. lia. }
    exists p, r. split; [reflexivity|].
    pose proof (length_pack_pad b) as Lk. rewrite K in Lk. cbn [List.length] in Lk.
    assert (Lr : 8 * lenN r + (lenN b - 1) mod 8 + 1 = lenN b).
    { assert (lenN b <> 0) by (rewrite E, lenN_cons; lia).
      unfold lenN in *. rewrite <- (Nat2N.id (List.length b + 7)) in Lk.
      assert (N.of_nat (S (List.length r)) = (N.of_nat (List.length b) + 7) / 8) as Q.
      { rewrite Lk, Nat2N.id, Nat2N.inj_div, Nat2N.inj_add. reflexivity. }
      lia. }
    set (m := (lenN b - 1) mod 8) in *.
    assert (Hb : bits_of_bytes (p :: r) = pad_bits b) by (rewrite <- K; apply bits_of_pack_pad).
    assert (Hm : m < 8) by (unfold m; lia).
    (* the first byte: zeros, then the first bits of b *)
    assert (F : bits_of_byte p = repeat false (7 - N.to_nat m) ++ takeN (m + 1) b).
    { apply f_equal with (f := firstn 8) in Hb. cbn [bits_of_bytes flat_map] in Hb.
      rewrite firstn_app, bits_of_byte_length, Nat.sub_diag, firstn_O, app_nil_r in Hb.
      rewrite firstn_all2 in Hb by (rewrite bits_of_byte_length; lia).
      rewrite Hb. unfold pad_bits. 
      assert (((8 - List.length b mod 8) mod 8)%nat = (7 - N.to_nat m)%nat) as Q.
      { assert (lenN b <> 0) by (rewrite E, lenN_cons; lia).
        assert (N.of_nat ((8 - List.length b mod 8) mod 8) = 7 - m) as Q.
        { rewrite Nat2N.inj_mod, Nat2N.inj_sub, Nat2N.inj_mod. fold (lenN b).
          change (N.of_nat 8) with 8. unfold m. lia. }
        lia. }
      rewrite Q, firstn_app, repeat_length.
      rewrite firstn_all2 by (rewrite repeat_length; lia). f_equal.
      rewrite takeN_firstn. f_equal. lia. }
    assert (V : b2N p = bits_to_N (takeN (m + 1) b)).
    { rewrite <- bits_to_N_byte, F. apply bits_to_N_repeat_false. }
    assert (T : takeN (m + 1) b = h :: takeN m l).
    { rewrite E. cbn [takeN]. destruct (N.eqb_spec (m + 1) 0); [lia|]. f_equal. f_equal. lia. }
    assert (Lt : lenN (takeN m l) = m).
    { rewrite lenN_takeN. assert (lenN b = lenN l + 1) by (rewrite E, lenN_cons; lia).
      unfold m in *. lia. }
    assert (V2 : b2N p = (if h then 2 ^ m else 0) + bits_to_N (takeN m l)).
    { rewrite V, T. change (h :: takeN m l) with ([h] ++ takeN m l).
      rewrite bits_to_N_app, Lt. destruct h; unfold bits_to_N at 1; cbn [bits_to_N_acc]; lia. }
    pose proof (bits_to_N_lt (takeN m l)) as Bl. rewrite Lt in Bl.
    split; [|split; [|split; [auto|]]].
    - rewrite N.testbit_eqb, V2. destruct h.
      + rewrite <- (N.mul_1_l (2 ^ m)) at 1. rewrite N.div_add_l by (apply N.pow_nonzero; lia).
        rewrite N.div_small by auto. reflexivity.
      + rewrite N.add_0_l, N.div_small by auto. reflexivity.
    - intros ->. rewrite V2 at 1. f_equal. rewrite V2.
      rewrite <- (N.mul_1_l (2 ^ m)) at 1. rewrite N.add_comm, N.mod_add by (apply N.pow_nonzero; lia).
      now rewrite N.mod_small.
    - rewrite N.pow_add_r, V2. change (2 ^ 1) with 2. destruct h; lia.
  Qed.

  Definition range (n : nat) : list N := map N.of_nat (seq 0 n).
  Lemma range_In : forall n x, x < N.of_nat n -> In x (range n).
  Proof.
    intros n x H. apply in_map_iff. exists (N.to_nat x). split; [lia|]. apply in_seq. lia.
  Qed.
  Lemma lor_high : forall m p, m < 8 -> p < 256 -> p < 2 ^ (m + 1) -> 2 ^ m <= p ->
    N.lor p (255 - (2 ^ m - 1)) = p + (256 - 2 ^ (m + 1)).
  Proof.
    assert (C : forallb (fun m => forallb (fun p =>
      implb ((p <? 2 ^ (m + 1)) && (2 ^ m <=? p))
            (N.lor p (255 - (2 ^ m - 1)) =? p + (256 - 2 ^ (m + 1)))) (range 256)) (range 8) = true)
      by (vm_compute; reflexivity).
    intros m p Hm H256 Hp Hv. rewrite forallb_forall in C.
    specialize (C m (range_In 8 m Hm)). rewrite forallb_forall in C.
    specialize (C p (range_In 256 p H256)).
    apply N.ltb_lt in Hp. apply N.leb_le in Hv. rewrite Hp, Hv in C. cbn [andb implb] in C.
    now apply N.eqb_eq.
  Qed.

  Definition sign_ext (size : N) (d : list byte) : N :=
    let mask := 2 ^ ((size - 1) mod 8) in
    let '(sign, d') :=
        match d with
        | [] => (false, [])
        | b :: r => if negb (N.land (b2N b) mask =? 0)
                    then (true, N2b (N.lor (b2N b) (255 - (mask - 1))) :: r)
                    else (false, d)
        end in
    be_fold64 (if sign then W64 - 1 else 0) d'.
  Definition twos (size : N) (b : list bool) : Z :=
    match b with true :: _ => (Z.of_N (bits_to_N b) - Z.of_N (2 ^ size))%Z
               | _ => Z.of_N (bits_to_N b) end.

  Lemma sign_ext_spec : forall b, lenN b <> 0 ->
    sign_ext (lenN b) (pack (pad_bits b)) = ofZ 64 (twos (lenN b) b).
  Proof.
    intros b Hl. destruct b as [|h l] eqn:Eb; [now rewrite lenN_nil in Hl|]. rewrite <- Eb in *.
    destruct (pad_split b h l Eb) as (p & r & K & T & V & Lr & Bp).
    unfold sign_ext. rewrite K, testbit_land_pow2, T.
    set (m := (lenN b - 1) mod 8) in *.
    assert (Hm : m < 8) by (unfold m; lia).
    assert (Bk : be_to_N (p :: r) = bits_to_N b) by (rewrite <- K; apply be_to_N_pack_pad).
    unfold ofZ. change (Z.of_N (2 ^ 64)) with 18446744073709551616%Z.
    destruct h.
    - (* negative *)
      rewrite be_fold64_cons by discriminate. unfold w64, W64.
      assert (P : 2 ^ m <= b2N p) by lia.
      rewrite lor_high by (auto; apply b2N_lt).
      unfold twos. rewrite Eb, <- Eb.
      rewrite be_to_N_acc_bits. rewrite bits_of_bytes_cons, bits_to_N_acc_app.
      rewrite bits_to_N_acc_shift, (bits_to_N_acc_shift (bits_of_byte _)).
      rewrite bits_to_N_byte, b2N_N2b, lenN_bits_of_bytes.
      replace (lenN (bits_of_byte _)) with 8 by (unfold lenN; now rewrite bits_of_byte_length).
      pose proof (b2N_lt p) as B256.
      assert (Hpow : 2 ^ (m + 1) <= 256).
      { change 256 with (2 ^ 8). apply N.pow_le_mono_r; lia. }
      rewrite (N.mod_small (b2N p + (256 - 2 ^ (m + 1))) 256) by lia.
      assert (B2 : bits_to_N b = b2N p * 2 ^ (8 * lenN r) + bits_to_N (bits_of_bytes r)).
      { rewrite <- Bk, be_to_N_bits, bits_of_bytes_cons, bits_to_N_app, bits_to_N_byte, lenN_bits_of_bytes.
        reflexivity. }
      rewrite B2. clear B2 Bk.
      set (X := bits_to_N (bits_of_bytes r)). set (Y := 2 ^ (8 * lenN r)).
      replace (2 ^ lenN b) with (2 ^ (m + 1) * Y).
      2:{ unfold Y. rewrite <- N.pow_add_r. f_equal. lia. }
      change (2 ^ 8) with 256. change (18446744073709551616 - 1) with 18446744073709551615.
      (* (2^64-1)*256 + p + 256 - 2^(m+1), times Y, plus X *)
      set (q := 2 ^ (m + 1)) in *. clearbody q Y X.
      replace (Z.of_N (b2N p * Y + X) - Z.of_N (q * Y))%Z
        with (Z.of_N (b2N p) * Z.of_N Y + Z.of_N X - Z.of_N q * Z.of_N Y)%Z by lia.
      apply N2Z.inj. rewrite N2Z.inj_mod.
      rewrite Z2N.id by (apply Z.mod_pos_bound; lia).
      change (Z.of_N 18446744073709551616) with 18446744073709551616%Z.
      replace (Z.of_N ((18446744073709551615 * 256 + (b2N p + (256 - q))) * Y + X))
        with ((Z.of_N (b2N p) * Z.of_N Y + Z.of_N X - Z.of_N q * Z.of_N Y)
              + (256 * Z.of_N Y) * 18446744073709551616)%Z.
      { apply Z.mod_add. lia. }
      rewrite N2Z.inj_add, N2Z.inj_mul, !N2Z.inj_add, N2Z.inj_sub by lia. lia.
    - rewrite be_fold64_cons by discriminate.
      change (be_to_N_acc 0 (p :: r)) with (be_to_N (p :: r)). rewrite Bk.
      unfold twos. rewrite Eb, <- Eb.
      unfold w64, W64. apply N2Z.inj. rewrite N2Z.inj_mod.
      rewrite Z2N.id by (apply Z.mod_pos_bound; lia). reflexivity.
  Qed.

  Lemma agree_int : forall base w vi size,
    agree base (unmarshal_int data w vi size) (d_int w vi size).
  Proof.
    intros base w [] size; unfold unmarshal_int, d_int; [apply agree_fail|].
    destruct (N.eqb_spec size 0) as [|Hs]; [apply agree_fail|].
    apply (agree_ext _ base
      (bind (take_bits data size) (fun d => ret (VInt (toZ w (sign_ext size d)))))
      _
      (dbind (d_take size) (fun b => dret (VInt (toZ w (ofZ 64 (twos size b))))))).
    - intros s. apply bind_ext. intros d s1. unfold sign_ext.
      destruct d as [|b r]; [reflexivity|]. destruct (negb _); reflexivity.
    - intros st. reflexivity.
    - apply (agree_take N val base size (fun b => ofZ 64 (twos size b)) (sign_ext size)
               (fun x => ret (VInt (toZ w x))) (fun x => dret (VInt (toZ w x)))).
      + intros b L. rewrite <- L. symmetry. apply sign_ext_spec. lia.
      + intros. apply agree_ret.
  Qed.

  (** *** booleans, strings *)
  Lemma existsb_bits : forall l, existsb (fun b => negb (b2N b =? 0)) l = existsb (fun x => x) (bits_of_bytes l).
  Proof.
    induction l as [|b l IH]; [reflexivity|]. cbn [existsb]. rewrite bits_of_bytes_cons, existsb_app, IH.
    f_equal. destruct b as [[] [] [] [] [] [] [] []]; reflexivity.
  Qed.
  Lemma existsb_pad : forall b, existsb (fun x => x) (pad_bits b) = existsb (fun x : bool => x) b.
  Proof.
    intros b. unfold pad_bits. rewrite existsb_app.
    replace (existsb (fun x => x) (repeat false _)) with false; [reflexivity|].
    induction ((8 - List.length b mod 8) mod 8)%nat; [reflexivity|]. cbn. auto.
  Qed.
  Lemma agree_bool : forall base size, agree base (unmarshal_bool data size) (d_bool size).
  Proof.
    intros base size. unfold unmarshal_bool, d_bool.
    destruct (N.eqb_spec size 0) as [|Hs]; [apply agree_fail|].
    apply (agree_take bool val base size (existsb (fun x => x)) (existsb (fun b => negb (b2N b =? 0)))
             (fun x => ret (VBool x)) (fun x => dret (VBool x))).
    - intros b _. now rewrite existsb_bits, bits_of_pack_pad, existsb_pad.
    - intros. apply agree_ret.
  Qed.

  Lemma pack_pad_8 : forall b, lenN b = 8 -> pack (pad_bits b) = [N2b (bits_to_N b)].
  Proof.
    intros b L. rewrite pack_pad_spec. unfold lenN in L.
    replace (List.length b) with 8%nat by lia. reflexivity.
  Qed.

  Lemma agree_string_c : forall base usize,
    agree base (unmarshal_string_c data usize) (d_string_c fuel (w64 (usize * 8)) base).
  Proof.
    intros base usize. unfold unmarshal_string_c, d_string_c. rewrite <- pos_fuel.
    apply agree_bind; [|intros; apply agree_ret].
    apply agree_while. intros acc. apply agree_rbits. intros p Hp.
    destruct (w64 (usize * 8) <=? p - base); [apply agree_ret|].
    apply (agree_take (list byte) (list byte + list byte) base 8 (fun c => [N2b (bits_to_N c)]) (fun d => d)
      (fun c => match c with
                | [b] => if b2N b =? 0 then ret (inr acc) else ret (inl (b :: acc))
                | _ => panic end)
      (fun c => match c with
                | [b] => if b2N b =? 0 then dret (inr acc) else dret (inl (b :: acc))
                | _ => dpanic end)).
    - intros b L. now rewrite pack_pad_8.
    - intros [|b [|b' c]]; try apply agree_panic. destruct (b2N b =? 0); apply agree_ret.
  Qed.

  Lemma agree_map : forall base (f : val -> M ust val) (g : val -> D val),
    (forall v, agree base (f v) (g v)) -> forall l, agree base (map_list f l) (d_map g l).
  Proof.
    intros base f g H. induction l; cbn [map_list d_map]; [apply agree_ret|].
    apply agree_bind; [auto|]. intros x. apply agree_bind; [auto|]. intros; apply agree_ret.
  Qed.

  (** the reader alone, when the count is added later *)
  Definition relr (r : rst) (st : dst) : Prop := rel 0 (mkust r (fst st)) st.
  Lemma rel_relr : forall base s st, rel base s st -> relr (u_r s) st.
  Proof.
    intros base s st (I1 & I2 & I3 & I4 & I5). repeat split; cbn [u_r u_rbits]; auto; try apply I1; lia.
  Qed.
  Lemma relr_rel : forall base rb r st, relr r st -> base <= fst st -> rb = fst st - base ->
    rel base (mkust r rb) st.
  Proof.
    intros base rb r st (I1 & I2 & I3 & I4 & I5) L E. repeat split; cbn [u_r u_rbits]; auto; try apply I1.
  Qed.
  Definition agreeR {A} (m : M rst A) (d : D A) : Prop := forall r st, relr r st ->
    match m r with
    | (Ok a, r') => exists st', d st = Ok (a, st') /\ relr r' st'
    | (Err e, _) => d st = Err e
    | (Panic, _) => d st = Panic
    | (OutOfFuel, _) => d st = OutOfFuel
    end.
  Lemma agreeR_full : forall n, agreeR (read_full data n) (d_bytes n).
  Proof.
    intros n r st I. pose proof (agree_bytes 0 n _ st I) as H.
    unfold agree_at, bind, lift_r, add_rbits in H. cbn [u_r u_rbits] in H.
    destruct (read_full data n r) as [[a| | |] r']; auto.
    cbn [u_r u_rbits ret] in H. destruct H as (st' & E & I'). exists st'. split; auto.
    eapply rel_relr in I'. exact I'.
  Qed.
  Lemma agreeR_while : forall A B (body : A -> M rst (A + B)) (dbody : A -> D (A + B)),
    (forall a, agreeR (body a) (dbody a)) ->
    forall p a, agreeR (while p body a) (dwhile (Pos.to_nat p) dbody a).
  Proof.
    intros A B body dbody H p a s st I. unfold while. rewrite whileP_nat.
    revert a s st I. induction (Pos.to_nat p) as [|k IH]; intros a s st I; [reflexivity|].
    cbn [while_nat dwhile]. unfold bind, dbind. specialize (H a s st I).
    destruct (body a s) as [[[a1|b]| | |] s1]; try now rewrite H.
    - destruct H as (st1 & E & I1). rewrite E. apply IH; auto.
    - destruct H as (st1 & E & I1). rewrite E. exists st1. auto.
  Qed.
  Lemma agreeR_bind : forall A B (m : M rst A) (d : D A) (k : A -> M rst B) (e : A -> D B),
    agreeR m d -> (forall a, agreeR (k a) (e a)) -> agreeR (bind m k) (dbind d e).
  Proof.
    intros A B m d k e H1 H2 s st I. specialize (H1 s st I).
    unfold bind, dbind. destruct (m s) as [[a| | |] s1]; try now rewrite H1.
    destruct H1 as (st1 & E & I1). rewrite E. apply H2; auto.
  Qed.
  Lemma agreeR_ret : forall A (a : A), agreeR (ret a) (dret a).
  Proof. intros A a s st I. exists st. auto. Qed.
  Lemma agreeR_zstring : agreeR (util_read_string data) (d_zstring fuel).
  Proof.
    unfold util_read_string, d_zstring. rewrite <- pos_fuel.
    apply agreeR_bind; [|intros; apply agreeR_ret].
    apply agreeR_while. intros acc. apply agreeR_bind; [apply agreeR_full|].
    intros [|c [|c' b]]; try (intros r st I; reflexivity).
    destruct (b2N c =? 0); apply agreeR_ret.
  Qed.

  Lemma agree_pstring : forall base usize,
    agree base (try_read_pstring data usize) (d_pstring (w64 (usize * 8)) base).
  Proof.
    intros base usize. unfold try_read_pstring, d_pstring. apply agree_rbits. intros p Hp.
    cbv zeta. set (rem := sub64 (w64 (usize * 8)) (p - base) / 8).
    destruct (rem <? 2); [apply agree_ret|].
    intros s st I. unfold agree_at, bind at 1, lift_r, seek_cur0.
    destruct (N.eqb_spec (fst st mod 8) 0) as [A|A]; cbn [negb].
    - destruct (rel_aligned _ _ _ I A) as [W P]. rewrite W. cbn [N.eqb].
      unfold bind at 1. cbn [u_r]. pose proof (agreeR_full 1 _ _ (rel_relr _ _ _ I)) as F.
      unfold dbind. destruct (read_full data 1 (u_r s)) as [[b0| | |] r1] eqn:RF; try now rewrite F.
      destruct F as (st1 & E1 & I1). rewrite E1. cbn [u_rbits u_r].
      destruct (rem - 1 <? be_to_N b0).
      + unfold bind, seek_start. pose proof I as (J1 & J2 & J3 & J4 & J5).
        change (2 ^ 62) with 4611686018427387904 in Hdata.
        destruct (N.ltb_spec (r_pos (u_r s)) 9223372036854775808); [|lia].
        cbn [u_r u_rbits ret]. exists st. split; [reflexivity|].
        split; [|split; [|split; [|split]]]; cbn [u_r u_rbits]; auto.
        replace (start + fst st) with (8 * r_pos (u_r s)) by lia. apply rd_at.
      + unfold bind at 1. cbn [u_r u_rbits].
        pose proof (agreeR_full (be_to_N b0) _ _ I1) as F2.
        destruct (read_full data (be_to_N b0) r1) as [[buf| | |] r2]; try now rewrite F2.
        destruct F2 as (st2 & E2 & I2). rewrite E2.
        unfold bind, add_rbits, ret. cbn [u_r u_rbits]. exists st2. split; [reflexivity|].
        destruct (d_bytes_step _ _ _ _ E1) as (_ & Q1 & _).
        destruct (d_bytes_step _ _ _ _ E2) as (Q2 & Q3 & _).
        destruct I as (J1 & J2 & J3 & J4 & J5).
        apply relr_rel; [exact I2|lia|lia].
    - pose proof (rel_unaligned _ _ _ I A). destruct (N.eqb_spec (r_width (u_r s)) 0); [lia|]. reflexivity.
  Qed.

  Lemma agree_string : forall base usize cp,
    agree base (unmarshal_string data usize cp) (d_string fuel (w64 (usize * 8)) base cp).
  Proof.
    intros base usize []; unfold unmarshal_string, d_string; [|apply agree_string_c].
    apply agree_bind; [apply agree_pstring|]. intros [v|]; [apply agree_ret|apply agree_string_c].
  Qed.

  (** *** hooks, with the count they report *)
  Definition with_count {A} (h : N * bool * fields) (k : bool -> fields -> M ust A) : M ust A :=
    let '(rbits, override, self1) := h in add_rbits rbits ;;; k override self1.
  Lemma agree_hook : forall A base h ver self usize p (k : bool -> fields -> M ust A)
      (e : bool * fields -> D A),
    (h = HHdlrName -> base mod 8 = 0) ->
    (forall b l, agree base (k b l) (e (b, l))) ->
    forall s st, rel base s st -> p = fst st ->
    agree_at base
      (bind (on_read data h ver self (sub64 (w64 (usize * 8)) (p - base)))
            (fun h => with_count h k))
      (dbind (d_hook fuel h ver self (sub64 (w64 (usize * 8)) (p - base))) e) s st.
  Proof.
    intros A base h ver self usize p k e Hb Hk s st I Ep.
    set (left := sub64 (w64 (usize * 8)) (p - base)).
    assert (Z : forall b l, agree_at base (with_count (0, b, l) k) (e (b, l)) s st).
    { intros b l. unfold with_count, agree_at, bind, add_rbits. apply Hk.
      rewrite N.add_0_r. destruct s; exact I. }
    destruct h; cbn [on_read d_hook].
    - apply Z.
    - apply Z.
    - destruct (ver =? 0); [apply Z|].
      unfold agree_at, bind, lift_r.
      pose proof (agreeR_zstring _ _ (rel_relr _ _ _ I)) as F1. unfold dbind.
      destruct (util_read_string data (u_r s)) as [[a| | |] r1]; try now rewrite F1.
      destruct F1 as (st1 & E1 & I1). rewrite E1. cbn [u_r u_rbits].
      pose proof (agreeR_zstring _ _ I1) as F2.
      destruct (util_read_string data r1) as [[b| | |] r2]; try now rewrite F2.
      destruct F2 as (st2 & E2 & I2). rewrite E2. cbn [u_r u_rbits ret dret].
      unfold with_count, bind, add_rbits. cbn [u_r u_rbits].
      apply Hk. apply d_zstring_step in E1. apply d_zstring_step in E2.
      destruct I as (J1 & J2 & J3 & J4 & J5). apply relr_rel; [exact I2|lia|lia].
    - cbv zeta. destruct (N.eqb_spec (left / 8) 0) as [L0|L0]; [apply Z|].
      specialize (Hb eq_refl).
      set (K := if maxAlloc <=? left / 8 then panic
             else buf <- lift_r (read_full data (left / 8)) ;;
               match buf with
               | [] => panic
               | p :: tl =>
                   ret (left, true, update "Name" (VStr (
                     if negb (as_uint (lookup "PreDefined" self) =? 0) && (2 <=? left / 8)
                        && (left / 8 =? (b2N p + 1) mod 256)
                     then takeN (b2N p) tl else take_until_nul buf)) self)
               end).
      set (E := if maxAlloc <=? left / 8 then dpanic
             else buf <~ d_bytes (left / 8) ;;
               match buf with
               | [] => dpanic
               | p :: tl =>
                   dret (true, update "Name" (VStr (
                     if negb (as_uint (lookup "PreDefined" self) =? 0) && (2 <=? left / 8)
                        && (left / 8 =? (b2N p + 1) mod 256)
                     then takeN (b2N p) tl else take_until_nul buf)) self)
               end).
      assert (Q : agree_at base
        (ok <- lift_r (reader_has_size data (left / 8)) ;;
         if negb ok then fail (EMsg "not enough bits") else bind K (fun h => with_count h k))
        (ok <~ d_has (left / 8) ;;
         if negb ok then dfail (EMsg "not enough bits") else dbind E e) s st).
      { apply agree_has_size; [exact I|]. clear s I Z. intros s I Al Lb.
        unfold K, E. destruct (maxAlloc <=? left / 8); [reflexivity|].
        unfold agree_at, bind, lift_r.
        pose proof (agreeR_full (left / 8) _ _ (rel_relr _ _ _ I)) as F. unfold dbind.
        destruct (read_full data (left / 8) (u_r s)) as [[buf| | |] r1]; try now rewrite F.
        destruct F as (st1 & E1 & I1). rewrite E1. destruct buf as [|c tl]; [reflexivity|].
        cbn [ret dret]. unfold with_count, bind, add_rbits. cbn [u_r u_rbits].
        apply Hk. apply d_bytes_step in E1. destruct E1 as (_ & E1 & _).
        assert (left mod 8 = 0).
        { unfold left, sub64, w64, W64. destruct I as (J1 & J2 & J3 & J4 & J5). rewrite Ep. lia. }
        destruct I as (J1 & J2 & J3 & J4 & J5). apply relr_rel; [exact I1|lia|lia]. }
      unfold agree_at in *. rewrite bind_assoc, dbind_assoc.
      rewrite (bind_ext _ _ _ _ _ (fun ok => if negb ok then fail (EMsg "not enough bits")
                                     else bind K (fun h => with_count h k)) s).
      2:{ intros [] s'; reflexivity. }
      assert (X : forall st, dbind (d_has (left / 8)) (fun a => dbind
          (if negb a then dfail (EMsg "not enough bits") else E) e) st =
         dbind (d_has (left / 8)) (fun ok => if negb ok then dfail (EMsg "not enough bits")
                                     else dbind E e) st).
      { intros st'. unfold dbind at 1 3. destruct (d_has (left / 8) st') as [[[] ?]| | |]; reflexivity. }
      rewrite X. exact Q.
    - apply Z.
  Qed.

  Variable rname : string.
  Variable versions : list N.
  Variable ctx : context.

  (** a struct whose dynamic parts live outside byte boundaries must not use the
      hdlr hook *)
  Fixpoint no_hdlr_val (t : sty) : bool :=
    match t with
    | SArr _ u | SSlice u | SPtr u => no_hdlr_val u
    | SStruct name cfo fs => no_hdlr_flds (if cfo then name else rname) fs
    | _ => true
    end
  with no_hdlr_flds (cn : string) (fs : flds) : bool :=
    match fs with
    | FNil => true
    | FCons f t rest =>
        match hook_of cn (f_name f) with HHdlrName => false | _ => true end
        && no_hdlr_val t && no_hdlr_flds cn rest
    end.

  Fixpoint no_hdlr_inside (fs : flds) : bool :=
    match fs with
    | FNil => true
    | FCons f t rest => no_hdlr_val t && no_hdlr_inside rest
    end.

  Lemma unmarshal_flds_cons : forall rt usize sname cfo self f t rest,
    unmarshal_flds data rname versions ctx rt usize sname cfo self (FCons f t rest) =
    let root := box_of rt self in
    let env := if cfo then mkenv self (get_version root) (get_flags root) ctx
               else mkenv root (get_version root) (get_flags root) ctx in
    let cn := if cfo then sname else rname in
    match resolve_size cn env f, resolve_len cn env f with
    | Some size, Some len =>
        self' <-
          (if is_target (get_version root) (get_flags root) cn env f then
             rb <- get_rbits ;;
             h <- on_read data (hook_of cn (f_name f)) (get_version root) self
                    (sub64 (w64 (usize * 8)) rb) ;;
             with_count h (fun override self1 =>
             if override then ret self1
             else
               match lookup (f_name f) self1 with
               | None => panic
               | Some cur =>
                   x <- unmarshal_val data rname versions ctx (box_of rt self1) usize f size len t cur ;;
                   let self2 := update (f_name f) x self1 in
                   if is_fullbox t && negb (version_in versions (get_version (box_of rt self2)))
                   then fail EUnsupportedVersion
                   else ret self2
               end)
           else ret self) ;;
        unmarshal_flds data rname versions ctx rt usize sname cfo self' rest
    | _, _ => panic
    end.
  Proof. reflexivity. Qed.
  Lemma dec_flds_cons : forall fu rt lim base sname cfo self f t rest,
    dec_flds fu rname versions ctx rt lim base sname cfo self (FCons f t rest) =
    let root := box_of rt self in
    let env := if cfo then mkenv self (get_version root) (get_flags root) ctx
               else mkenv root (get_version root) (get_flags root) ctx in
    let cn := if cfo then sname else rname in
    match resolve_size cn env f, resolve_len cn env f with
    | Some size, Some len =>
        self' <~
          (if is_target (get_version root) (get_flags root) cn env f then
             p <~ dpos ;;
             h <~ d_hook fu (hook_of cn (f_name f)) (get_version root) self
                    (sub64 lim (p - base)) ;;
             let '(override, self1) := h in
             if override then dret self1
             else
               match lookup (f_name f) self1 with
               | None => dpanic
               | Some cur =>
                   x <~ dec_val fu rname versions ctx (box_of rt self1) lim base f size len t cur ;;
                   let self2 := update (f_name f) x self1 in
                   if is_fullbox t && negb (version_in versions (get_version (box_of rt self2)))
                   then dfail EUnsupportedVersion
                   else dret self2
               end
           else dret self) ;;
        dec_flds fu rname versions ctx rt lim base sname cfo self' rest
    | _, _ => dpanic
    end.
  Proof. reflexivity. Qed.

  Lemma unmarshal_val_struct : forall rt usize f size len name cfo fs l,
    unmarshal_val data rname versions ctx rt usize f size len (SStruct name cfo fs) (VStruct l) =
    if negb (size =? 0) && (size mod 8 =? 0) then
      rb <- get_rbits ;;
      (fun s => (Ok tt, mkust (u_r s) 0)) ;;;
      x <- unmarshal_flds data rname versions ctx (Some rt) (size / 8) name cfo l fs ;;
      rb2 <- get_rbits ;;
      (fun s => (Ok tt, mkust (u_r s) (rb + rb2))) ;;;
      if rb2 =? size then ret (VStruct x) else fail (EMsg "invalid alignment")
    else
      x <- unmarshal_flds data rname versions ctx (Some rt) usize name cfo l fs ;; ret (VStruct x).
  Proof. reflexivity. Qed.
  Lemma dec_val_struct : forall fu rt lim base f size len name cfo fs l,
    dec_val fu rname versions ctx rt lim base f size len (SStruct name cfo fs) (VStruct l) =
    if negb (size =? 0) && (size mod 8 =? 0) then
      p <~ dpos ;;
      x <~ dec_flds fu rname versions ctx (Some rt) (w64 size) p name cfo l fs ;;
      q <~ dpos ;;
      if q - p =? size then dret (VStruct x) else dfail (EMsg "invalid alignment")
    else
      x <~ dec_flds fu rname versions ctx (Some rt) lim base name cfo l fs ;; dret (VStruct x).
  Proof. reflexivity. Qed.

  Lemma copy_n_full : forall n r, n < 2 ^ 63 -> r_width r = 0 -> n <= lenN (skipN (r_pos r) data) ->
    copy_n data n r = read_full data n r.
  Proof.
    intros n r Hn W L. unfold copy_n, read_full. change (2 ^ 63) with 9223372036854775808 in Hn.
    destruct (N.leb_spec 9223372036854775808 n); [lia|]. rewrite orb_false_r.
    rewrite W. cbn [N.eqb].
    destruct (N.eqb_spec n 0) as [->|Hz].
    - rewrite takeN_0, lenN_nil. cbn [N.eqb]. f_equal. destruct r; cbn in *. f_equal; auto; lia.
    - replace (lenN (takeN n (skipN (r_pos r) data)) =? n) with true; [reflexivity|].
      symmetry. apply N.eqb_eq. rewrite lenN_takeN. lia.
  Qed.

  Lemma unmarshal_agree :
    (forall t rt usize base f size len cur, no_hdlr_val t = true ->
       agree base (unmarshal_val data rname versions ctx rt usize f size len t cur)
                  (dec_val fuel rname versions ctx rt (w64 (usize * 8)) base f size len t cur)) /\
    (forall fs rt usize base sname (cfo : bool) self,
       no_hdlr_flds (if cfo then sname else rname) fs = true \/ 
         (base mod 8 = 0 /\ no_hdlr_inside fs = true) ->
       agree base (unmarshal_flds data rname versions ctx rt usize sname cfo self fs)
                  (dec_flds fuel rname versions ctx rt (w64 (usize * 8)) base sname cfo self fs)).
  Proof.
    apply sty_flds_mutind.
    - intros; apply agree_uint.
    - intros; apply agree_int.
    - intros; apply agree_bool.
    - intros; apply agree_string.
    - intros n u IH rt usize base f size len cur H. cbn [unmarshal_val dec_val].
      destruct cur; try apply agree_panic. apply agree_bind; [|intros; apply agree_ret].
      apply agree_map. intros v. apply IH. exact H.
    - intros u IH rt usize base f size len cur H. cbn [unmarshal_val dec_val].
      apply agree_rbits. intros p Hp. cbv zeta.
      destruct ((len =? LengthUnlimited) && negb (size =? 0) && _); [apply agree_fail|].
      set (length := if len =? LengthUnlimited then if size =? 0 then 0 else _ else len).
      destruct (((p - base) mod 8 =? 0) && is_u8 u && (size =? 8)).
      + intros s st I. apply agree_has_size; [exact I|]. clear s I. intros s I Al Av.
        destruct (N.leb_spec maxAlloc (w64 (length * size) / 8)) as [|Hmax]; [reflexivity|].
        set (total := w64 (length * size) / 8) in *.
        destruct (rel_aligned _ _ _ I Al) as [W P].
        pose proof (rel_len _ _ _ I) as L.
        pose proof (agree_bytes base total s st I) as F. unfold agree_at, bind, lift_r, dbind in *.
        rewrite copy_n_full; auto.
        * destruct (read_full data total (u_r s)) as [[buf| | |] r1]; try now rewrite F.
          unfold add_rbits in *. cbn [u_r u_rbits ret] in *.
          destruct F as (st1 & E1 & I1). rewrite E1. exists st1. auto.
        * change (2 ^ 63) with 9223372036854775808. unfold maxAlloc in *. lia.
        * rewrite lenN_skipN. lia.
      + apply agree_bind; [|intros; apply agree_ret].
        assert (G : forall acc, agree base
           (x <- unmarshal_val data rname versions ctx rt usize f size len u (zero u) ;;
              r <- get_rbits ;;
              if w64 (usize * 8) <? r
              then fail (EMsg "failed to read array completely")
              else ret (x :: acc))
           (x <~ dec_val fuel rname versions ctx rt (w64 (usize * 8)) base f size len u (zero u) ;;
              p <~ dpos ;;
              if w64 (usize * 8) <? p - base
              then dfail (EMsg "failed to read array completely")
              else dret (x :: acc))).
        { intros acc. apply agree_bind; [apply IH; exact H|]. intros x. apply agree_rbits.
          intros q Hq. destruct (_ <? _); [apply agree_fail|apply agree_ret]. }
        destruct (len =? LengthUnlimited).
        * apply agree_while_fuel. intros acc. apply agree_rbits. intros q Hq.
          destruct (_ <=? _); [apply agree_ret|].
          apply agree_bind; [apply G|intros; apply agree_ret].
        * apply agree_loop. apply G.
    - intros u IH rt usize base f size len cur H. cbn [unmarshal_val dec_val].
      apply agree_bind; [apply IH; exact H|intros; apply agree_ret].
    - intros name cfo fs IH rt usize base f size len cur H.
      destruct cur; try apply agree_panic. rewrite unmarshal_val_struct, dec_val_struct.
      destruct (N.eqb_spec size 0) as [|Hs]; cbn [negb andb].
      { apply agree_bind; [apply IH; left; exact H|intros; apply agree_ret]. }
      destruct (N.eqb_spec (size mod 8) 0) as [H8|].
      2:{ apply agree_bind; [apply IH; left; exact H|intros; apply agree_ret]. }
      intros s st I. unfold agree_at, bind, get_rbits, dbind, dpos.
      pose proof I as (J1 & J2 & J3 & J4 & J5).
      specialize (IH (Some rt) (size / 8) (fst st) name cfo fs0 (or_introl H)
                     (mkust (u_r s) 0) st).
      replace (size / 8 * 8) with size in IH by lia.
      unfold agree_at in IH.
      destruct (unmarshal_flds data rname versions ctx (Some rt) (size / 8) name cfo fs0 fs
                  (mkust (u_r s) 0)) as [[x| | |] s1];
        try (rewrite IH; [reflexivity|]; repeat split; cbn [u_r u_rbits]; auto; try apply J1; lia).
      destruct IH as (st1 & E1 & (K1 & K2 & K3 & K4 & K5)).
      { repeat split; cbn [u_r u_rbits]; auto; try apply J1; lia. }
      rewrite E1. rewrite K5. destruct (fst st1 - fst st =? size); [|reflexivity].
      cbn [ret dret]. exists st1. split; [reflexivity|].
      repeat split; cbn [u_r u_rbits]; auto; try apply K1; lia.
    - intros. apply agree_ret.
    - intros f t IHt rest IHr rt usize base sname cfo self H.
      rewrite unmarshal_flds_cons, dec_flds_cons. cbv zeta.
      set (root := box_of rt self).
      set (cn := if cfo then sname else rname) in *.
      set (env := if cfo then mkenv self _ _ _ else _).
      destruct (resolve_size cn env f) as [size|]; [|apply agree_panic].
      destruct (resolve_len cn env f) as [len|]; [|apply agree_panic].
      assert (Hh : hook_of cn (f_name f) = HHdlrName -> base mod 8 = 0).
      { intros E. destruct H as [H|[H _]]; [|exact H].
        cbn [no_hdlr_flds] in H. rewrite E in H. discriminate. }
      assert (Ht : no_hdlr_val t = true).
      { destruct H as [H|[_ H]]; cbn [no_hdlr_flds no_hdlr_inside] in H.
        - apply andb_true_iff in H. destruct H as [H _]. now apply andb_true_iff in H.
        - now apply andb_true_iff in H. }
      apply agree_bind.
      2:{ intros self'. apply IHr. destruct H as [H|[Hb H]]; [left|right];
          cbn [no_hdlr_flds no_hdlr_inside] in H.
          - fold cn. now apply andb_true_iff in H.
          - split; auto. now apply andb_true_iff in H. }
      destruct (is_target _ _ _ _ _); [|apply agree_ret].
      intros s st I. unfold agree_at. rewrite rbits_bind, dpos_bind.
      pose proof I as (J1 & J2 & J3 & J4 & J5). rewrite J5.
      apply (agree_hook _ base (hook_of cn (f_name f)) (get_version root) self usize (fst st)
        (fun override self1 =>
             if override then ret self1
             else
               match lookup (f_name f) self1 with
               | None => panic
               | Some cur =>
                   x <- unmarshal_val data rname versions ctx (box_of rt self1) usize f size len t cur ;;
                   let self2 := update (f_name f) x self1 in
                   if is_fullbox t && negb (version_in versions (get_version (box_of rt self2)))
                   then fail EUnsupportedVersion
                   else ret self2
               end)); auto.
      intros b self1. destruct b; [apply agree_ret|].
      destruct (lookup (f_name f) self1) as [cur|]; [|apply agree_panic].
      apply agree_bind; [apply IHt; auto|]. intros x. cbv zeta.
      destruct (_ && _); [apply agree_fail|apply agree_ret].
  Qed.
End Agree.

(** ** Unmarshal as a whole *)
Definition dfuel (data : list byte) : nat := N.to_nat (8 * lenN data + 9).

Lemma before_agree : forall data pos sname self, pos <= lenN data -> lenN data < 2 ^ 62 ->
  match before_unmarshal data sname self (new_reader pos) with
  | (Ok (b, x), r) => d_before sname self (0, skipN (8 * pos) (bits_of_bytes data)) =
                      Ok ((b, x), (0, skipN (8 * pos) (bits_of_bytes data))) /\ r_pos r = pos
  | (Err e, _) => d_before sname self (0, skipN (8 * pos) (bits_of_bytes data)) = Err e
  | (Panic, _) => d_before sname self (0, skipN (8 * pos) (bits_of_bytes data)) = Panic
  | (OutOfFuel, _) => d_before sname self (0, skipN (8 * pos) (bits_of_bytes data)) = OutOfFuel
  end.
Proof.
  intros data pos sname self Hp Hd. unfold before_unmarshal, d_before.
  destruct (String.eqb sname "Meta"); [|split; reflexivity].
  assert (I : relr data (8 * pos) (new_reader pos) (0, skipN (8 * pos) (bits_of_bytes data))).
  { unfold relr, rel. cbn [fst snd u_r u_rbits]. rewrite N.add_0_r.
    split; [apply rd_new|]. repeat split; lia. }
  pose proof (agreeR_full data (8 * pos) ltac:(lia) Hd 4 _ _ I) as F.
  destruct (read_full data 4 (new_reader pos)) as [[buf| | |] r1] eqn:RF; try now rewrite F.
  destruct F as (st1 & E1 & I1). rewrite E1.
  assert (r_pos r1 = pos + 4).
  { unfold read_full, new_reader in RF. cbn [r_width r_pos r_octet N.eqb] in RF.
    set (l := lenN (takeN 4 (skipN pos data))) in *.
    destruct (N.eqb_spec l 4) as [E4|]; [|destruct (l =? 0); discriminate].
    injection RF as _ <-. cbn [r_pos]. lia. }
  destruct (existsb _ buf); (split; [reflexivity|]); cbn [r_pos]; lia.
Qed.

Lemma unmarshal_decode : forall d data size ctx dst0 pos,
  pos <= lenN data -> lenN data < 2 ^ 62 -> no_hdlr_inside (bd_name d) (bd_flds d) = true ->
  let dec := decode (dfuel data) d size ctx dst0 (skipN (8 * pos) (bits_of_bytes data)) in
  match unmarshal_def d data size ctx dst0 pos with
  | (Ok (x, n), pos') => dec = Ok (x, n) /\ pos' = pos + n /\ pos + n <= lenN data
  | (Err e, pos') => dec = Err e /\ (e = EUnsupportedVersion -> pos' = pos)
  | (Panic, _) => dec = Panic
  | (OutOfFuel, _) => dec = OutOfFuel
  end.
Proof.
  intros d data size ctx dst0 pos Hp Hd Hh dec. unfold dec, unmarshal_def, decode.
  pose proof (before_agree data pos (bd_name d) (set_version anyVersion dst0) Hp Hd) as B.
  destruct (before_unmarshal data (bd_name d) (set_version anyVersion dst0) (new_reader pos))
    as [[[b self]|e| |] r] eqn:EB; try now rewrite B.
  2:{ rewrite B. split; [reflexivity|]. intros ->. exfalso. clear - EB.
      unfold before_unmarshal in EB. destruct (String.eqb _ _); [|discriminate].
      destruct (read_full data 4 (new_reader pos)) as [[buf|e| |] r1] eqn:RF; try discriminate.
      - destruct (existsb _ _); discriminate.
      - injection EB as E1 _. subst. unfold read_full, new_reader in RF.
        cbn [r_width r_pos r_octet N.eqb] in RF.
        destruct (_ =? 4); [discriminate|]. destruct (_ =? 0); discriminate. }
  destruct B as [B1 B2]. rewrite B1. destruct b.
  { split; [reflexivity|]. lia. }
  rewrite B2.
  set (st0 := (0, skipN (8 * pos) (bits_of_bytes data)) : Decode.dst).
  assert (I : rel data (8 * pos) 0 (mkust (new_reader pos) 0) st0).
  { unfold rel, st0. cbn [fst snd u_r u_rbits]. rewrite N.add_0_r.
    split; [apply rd_new|]. repeat split; lia. }
  pose proof (proj2 (unmarshal_agree data (8 * pos) ltac:(lia) Hd (bd_name d) (bd_versions d) ctx)
                (bd_flds d) None size 0 (bd_name d) true self
                (or_intror (conj eq_refl Hh)) _ _ I) as A.
  unfold agree_at in A. fold (dfuel data) in A.
  destruct (unmarshal_flds data (bd_name d) (bd_versions d) ctx None size (bd_name d) true self
              (bd_flds d) (mkust (new_reader pos) 0)) as [[x|e| |] s1].
  - destruct A as ([p b1] & E & J). rewrite E. clear E.
    pose proof J as (J1 & J2 & J3 & J4 & J5). cbn [fst snd] in *. rewrite N.sub_0_r in J5. rewrite J5.
    destruct (N.eqb_spec (p mod 8) 0) as [A8|A8]; cbn [negb]; [|split; [reflexivity|discriminate]].
    destruct (N.ltb_spec (w64 (size * 8)) p); [split; [reflexivity|discriminate]|].
    split; [reflexivity|].
    destruct (rel_aligned data (8 * pos) ltac:(lia) Hd _ _ _ J A8) as [_ P]. cbn [fst] in P. lia.
  - rewrite A. destruct e; (split; [reflexivity|]); try discriminate; auto.
  - now rewrite A.
  - now rewrite A.
Qed.

Lemma decode_count : forall k d size ctx dst0 bits x n,
  decode k d size ctx dst0 bits = Ok (x, n) -> n <= size.
Proof.
  intros k d size ctx dst0 bits x n H. unfold decode in H.
  destruct (d_before _ _ _) as [[[[] y] st]| | |]; try discriminate.
  - injection H as _ <-. lia.
  - destruct (dec_flds _ _ _ _ _ _ _ _ _ _ _) as [[z [p b]]| | |]; try discriminate.
    destruct (negb _); [discriminate|].
    destruct (N.ltb_spec (w64 (size * 8)) p) as [|L]; [discriminate|].
    injection H as _ <-. unfold w64, W64 in L. lia.
Qed.
