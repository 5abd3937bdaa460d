(** C59: reading does not depend on how the reader delivers its data. *)
From Verif Require Import Base BaseProofs BitIO BitIOProofs Schema Unmarshal Stream.
Local Open Scope string_scope.
Local Open Scope list_scope.
Local Open Scope N_scope.
Local Open Scope monad_scope.

(** ** Kinds of readers *)
(** every call before the end of the data delivers something *)
Definition never_empty (m : manner) : Prop := forall i, 1 <= fst (m i).
(** io.EOF comes with a call of its own, not along with the last byte *)
Definition late_eof (m : manner) : Prop := forall i, snd (m i) = false.

(** ** What a caller can do: any number of calls, each chosen from the replies to
    the earlier ones.  For Unmarshal, ReadBoxInfo, the traversal, Probe and the
    scan for IDR frames see PropAnyReader.v. *)
Inductive call : Set :=
| CBits (n : N)        (* bitio.ReadBits(n) *)
| CFull (n : N)        (* io.ReadFull of n bytes *)
| CCopy (n : N)        (* io.CopyN of n bytes *)
| CString              (* util.ReadString *)
| CCur                 (* Seek(0, io.SeekCurrent) *)
| CEnd                 (* Seek(0, io.SeekEnd) *)
| CStart (x : N).      (* Seek(x, io.SeekStart) *)
Inductive reply : Set := RBytes (l : list byte) | RPos (n : N).
Inductive caller : Type :=
| Done
| Next (c : call) (k : res reply -> caller).

Definition bytes_reply {S} (x : M S (list byte)) : M S reply := l <- x ;; ret (RBytes l).
Definition pos_reply {S} (x : M S N) : M S reply := n <- x ;; ret (RPos n).

(** on a reader that fills every buffer *)
Definition plain_call (data : list byte) (c : call) : M rst reply :=
  match c with
  | CBits n => bytes_reply (read_bits data n)
  | CFull n => bytes_reply (read_full data n)
  | CCopy n => bytes_reply (copy_n data n)
  | CString => bytes_reply (util_read_string data)
  | CCur => pos_reply seek_cur0
  | CEnd => pos_reply (seek_end data)
  | CStart x => pos_reply (seek_start x)
  end.
(** on one that behaves like [m]; Seek does not depend on it *)
Definition same_seek {A} (x : M rst A) : M sst A := fun s =>
  let (a, r) := x (s_r s) in (a, mksst r (s_calls s)).
Definition stream_call (fuel : nat) (m : manner) (free : nat -> N) (data : list byte) (c : call) : M sst reply :=
  match c with
  | CBits n => bytes_reply (s_read_bits m data n)
  | CFull n => bytes_reply (s_read_full fuel m data n)
  | CCopy n => bytes_reply (s_copy_n fuel m free data n)
  | CString => bytes_reply (s_read_string fuel m data)
  | CCur => pos_reply (same_seek seek_cur0)
  | CEnd => pos_reply (same_seek (seek_end data))
  | CStart x => pos_reply (same_seek (seek_start x))
  end.
(** the replies a caller gets *)
Fixpoint plain_run (data : list byte) (p : caller) (s : rst) : list (res reply) :=
  match p with
  | Done => []
  | Next c k => let (a, s') := plain_call data c s in a :: plain_run data (k a) s'
  end.
Fixpoint stream_run (fuel : nat) (m : manner) (free : nat -> N) (data : list byte) (p : caller) (s : sst) : list (res reply) :=
  match p with
  | Done => []
  | Next c k => let (a, s') := stream_call fuel m free data c s in a :: stream_run fuel m free data (k a) s'
  end.

(** ** Equality up to the number of calls *)
Definition sim {A} (x : M sst A) (y : M rst A) : Prop := forall s, exists c,
  x s = (fst (y (s_r s)), mksst (snd (y (s_r s))) c).
Lemma sim_ret : forall A (a : A), sim (ret a) (ret a).
Proof. intros A a [r i]. exists i. reflexivity. Qed.
Lemma sim_bind : forall A B (x : M sst A) y (f : A -> M sst B) g, sim x y -> (forall a, sim (f a) (g a)) ->
  sim (bind x f) (bind y g).
Proof.
  intros A B x y f g X F s. destruct (X s) as [c E]. unfold bind. rewrite E.
  destruct (y (s_r s)) as [[a|e| |] r]; cbn [fst snd]; eauto.
  destruct (F a (mksst r c)) as [c' E']. cbn [s_r] in E'. eauto.
Qed.
Lemma sim_loop : forall A n (f : A -> M sst A) g, (forall a, sim (f a) (g a)) -> forall a, sim (loopN n f a) (loopN n g a).
Proof.
  intros A n f g F a s. rewrite !loopN_nat. revert a s. generalize (N.to_nat n). intros k.
  assert (K : forall a, sim (loop_nat k f a) (loop_nat k g a)).
  { induction k as [|k IH]; intros a; [apply sim_ret|]. cbn [loop_nat]. apply sim_bind; auto. }
  intros a s. apply K.
Qed.
Lemma sim_seek : forall A (x : M rst A), sim (same_seek x) x.
Proof. intros A x s. unfold same_seek. destruct (x (s_r s)) as [a r]. eexists. reflexivity. Qed.

(** ** Single calls *)
Lemma take1 : forall (l : list byte), takeN 1 l = match l with [] => [] | b :: _ => [b] end.
Proof. intros [|b [|c l]]; reflexivity. Qed.
Lemma under_one : forall m data s, never_empty m ->
  under_read m data 1 s =
  (match skipN (r_pos (s_r s)) data with [] => [] | b :: _ => [b] end,
   match skipN (r_pos (s_r s)) data with [] => true | [_] => snd (m (s_calls s)) | _ => false end,
   mksst (mkrst (r_pos (s_r s) + match skipN (r_pos (s_r s)) data with [] => 0 | _ => 1 end)
            (r_octet (s_r s)) (r_width (s_r s))) (S (s_calls s))).
Proof.
  intros m data s H. unfold under_read. rewrite N.min_l by apply H. rewrite take1.
  destruct (skipN (r_pos (s_r s)) data) as [|b [|c l]]; cbn [lenN List.length].
  - reflexivity.
  - rewrite andb_true_r. reflexivity.
  - replace (lenN [b] =? lenN (b :: c :: l)) with false by (symmetry; apply N.eqb_neq; unfold lenN; cbn; lia).
    rewrite andb_false_r. reflexivity.
Qed.
Lemma sim_bit : forall m data, never_empty m -> late_eof m -> sim (s_read_bit m data) (read_bit data).
Proof.
  intros m data NE LE [r i]. unfold s_read_bit, read_bit. cbn [s_r s_calls].
  destruct (r_width r =? 0) eqn:W; [|eexists; reflexivity].
  rewrite (under_one m data (mksst r i) NE), nthN_skipN. cbn [s_r s_calls].
  destruct (skipN (r_pos r) data) as [|b [|c l]]; cbn [hd_error].
  - rewrite N.add_0_r. destruct r. eexists. reflexivity.
  - rewrite LE. eexists. reflexivity.
  - eexists. reflexivity.
Qed.
Lemma sim_bits : forall m data n, never_empty m -> late_eof m -> sim (s_read_bits m data n) (read_bits data n).
Proof.
  intros m data n NE LE. unfold s_read_bits, read_bits. apply sim_bind; [|intros; apply sim_ret].
  apply sim_loop. intros a. apply sim_bind; [now apply sim_bit|intros; apply sim_ret].
Qed.

(** The bytes that a read loop has collected so far are the next ones of the data. *)
Definition so_far (data : list byte) (p n : N) (acc : list byte) (s : sst) : Prop :=
  acc = takeN (lenN acc) (skipN p data) /\ lenN acc <= lenN (skipN p data) /\ lenN acc <= n /\
  r_pos (s_r s) = p + lenN acc /\ r_width (s_r s) = 0.
Lemma take_plus : forall (l : list byte) a b, takeN (a + b) l = takeN a l ++ takeN b (skipN a l).
Proof.
  intros l a b. rewrite !takeN_firstn, skipN_skipn. rewrite N2Nat.inj_add. revert l.
  induction (N.to_nat a) as [|k IH]; intros l; [reflexivity|].
  destruct l as [|x l]; [now rewrite skipn_nil, !firstn_nil|]. cbn. now rewrite IH.
Qed.
Lemma take_len : forall (l : list byte) n, takeN (N.min n (lenN l)) l = takeN n l.
Proof.
  intros l n. transitivity (takeN n (takeN (lenN l) l)); [now rewrite takeN_takeN|]. now rewrite (takeN_all _ l (lenN l)) by lia.
Qed.

Lemma so_far_step : forall m data p n acc s len got eof s1, so_far data p n acc s -> len <= n - lenN acc ->
  under_read m data len s = (got, eof, s1) ->
  so_far data p n (acc ++ got) s1 /\ r_octet (s_r s1) = r_octet (s_r s) /\
  (eof = true -> lenN (acc ++ got) = lenN (skipN p data)) /\
  (never_empty m -> 1 <= len -> eof = false -> 1 <= lenN got) /\
  s_calls s1 = S (s_calls s).
Proof.
  intros m data p n acc s len got eof s1 (A & L & B & P & W) LN U. unfold under_read in U.
  rewrite P in U. rewrite <- skipN_skipN in U. injection U as <- <- <-. cbn [s_r s_calls r_pos r_octet r_width].
  set (av := skipN (lenN acc) (skipN p data)) in *. set (c := N.min len (fst (m (s_calls s)))) in *.
  assert (LA : lenN av = lenN (skipN p data) - lenN acc) by apply lenN_skipN.
  assert (LG : lenN (takeN c av) = N.min c (lenN av)) by apply lenN_takeN.
  assert (CL : c <= len) by (unfold c; lia).
  repeat split; cbn [s_r r_pos r_width]; auto.
  - rewrite lenN_app, LG.
    rewrite take_plus, <- A. fold av. f_equal. symmetry. apply take_len.
  - rewrite lenN_app. lia.
  - rewrite lenN_app. lia.
  - rewrite lenN_app. lia.
  - intros E. rewrite lenN_app. apply orb_prop in E. destruct E as [E|E].
    + apply N.eqb_eq in E. lia.
    + apply andb_prop in E. destruct E as [_ E]. apply N.eqb_eq in E. lia.
  - intros NE L1 E. apply orb_false_elim in E. destruct E as [E _]. apply N.eqb_neq in E.
    specialize (NE (s_calls s)). unfold c in *. lia.
Qed.
Lemma more_ok : forall m data p n fuel acc s, so_far data p n acc s -> 0 < n ->
  let r := read_full data n (mkrst p (r_octet (s_r s)) 0) in
  (never_empty m /\ lenN (skipN p data) < lenN acc + N.of_nat fuel \/ fst (s_read_more fuel m data n acc s) <> OutOfFuel) ->
  exists c, s_read_more fuel m data n acc s = (fst r, mksst (snd r) c).
Proof.
  intros m data p n fuel. induction fuel as [|k IH]; intros acc s F N0 r H.
  - pose proof F as (A & L & B & P & W). cbn [s_read_more] in *. destruct (N.leb_spec n (lenN acc)) as [C|C].
    + exists (s_calls s). unfold r, read_full. cbn [r_width r_pos r_octet]. rewrite N.eqb_refl.
      assert (n = lenN acc) by lia. subst n. rewrite <- A, N.eqb_refl. cbn [fst snd].
      destruct s as [[po oc wi] cs]. cbn in P, W |- *. subst. reflexivity.
    + destruct H as [[_ H]|H]; [|now destruct H]. cbn in H. lia.
  - pose proof F as (A & L & B & P & W). cbn [s_read_more] in *. destruct (N.leb_spec n (lenN acc)) as [C|C].
    + exists (s_calls s). unfold r, read_full. cbn [r_width r_pos r_octet]. rewrite N.eqb_refl.
      assert (n = lenN acc) by lia. subst n. rewrite <- A, N.eqb_refl. cbn [fst snd].
      destruct s as [[po oc wi] cs]. cbn in P, W |- *. subst. reflexivity.
    + unfold s_read in *. rewrite W in *. cbn [N.eqb] in *.
      destruct (under_read m data (n - lenN acc) s) as [[got eof] s1] eqn:U.
      destruct (so_far_step _ _ _ _ _ _ _ _ _ _ F (N.le_refl _) U) as (F1 & O1 & EO & NE & CA).
      destruct eof.
      * specialize (EO eq_refl). pose proof F1 as (A1 & L1 & B1 & P1 & W1).
        exists (s_calls s1). unfold r, read_full. cbn [r_width r_pos r_octet]. rewrite N.eqb_refl.
        assert (G : takeN n (skipN p data) = acc ++ got).
        { rewrite EO in A1. rewrite A1, !takeN_all by lia. reflexivity. }
        rewrite G.
        assert (S1 : s1 = mksst (mkrst (p + lenN (acc ++ got)) (r_octet (s_r s)) 0) (s_calls s1)).
        { destruct s1 as [[po oc wi] cs]. cbn in *. subst. reflexivity. }
        rewrite S1. cbn [s_calls].
        destruct (N.leb_spec n (lenN (acc ++ got))) as [C1|C1].
        -- replace (lenN (acc ++ got) =? n) with true by (symmetry; apply N.eqb_eq; lia). reflexivity.
        -- replace (lenN (acc ++ got) =? n) with false by (symmetry; apply N.eqb_neq; lia).
           destruct (lenN (acc ++ got) =? 0); reflexivity.
      * destruct (IH (acc ++ got) s1 F1 N0) as [c E].
        { destruct H as [[Hn H]|H]; [left; split; [exact Hn|]|right; exact H].
          specialize (NE Hn). rewrite lenN_app. specialize (NE ltac:(lia) eq_refl). lia. }
        rewrite O1 in E. exists c. exact E.
Qed.

(** [plenty data fuel]: enough for one call per byte and one more *)
Definition plenty (data : list byte) (fuel : nat) : Prop := lenN data < N.of_nat fuel.
Lemma sim_full : forall m data n fuel, never_empty m -> plenty data fuel ->
  sim (s_read_full fuel m data n) (read_full data n).
Proof.
  intros m data n fuel NE PL s. unfold s_read_full.
  destruct (N.eq_dec n 0) as [->|N0].
  { exists (s_calls s). destruct fuel; cbn [s_read_more]; (replace (0 <=? lenN (@nil byte)) with true by reflexivity);
      unfold read_full; destruct s as [[po oc wi] cs]; cbn [s_r r_width r_pos r_octet s_calls];
      rewrite takeN_0; cbn; rewrite N.add_0_r; destruct (N.eqb_spec wi 0) as [->|]; reflexivity. }
  destruct (N.eqb_spec (r_width (s_r s)) 0) as [W|W].
  - assert (F : so_far data (r_pos (s_r s)) n [] s).
    { repeat split; auto; try (cbn; lia). now rewrite takeN_0. }
    destruct (more_ok m data (r_pos (s_r s)) n fuel [] s F ltac:(lia)) as [c E].
    + left. split; [exact NE|]. unfold plenty in PL. rewrite lenN_skipN. cbn. lia.
    + exists c. rewrite E. destruct s as [[po oc wi] cs]. cbn in W |- *. subst. reflexivity.
  - destruct fuel; [unfold plenty in PL; cbn in PL; lia|]. exists (s_calls s). cbn [s_read_more].
    destruct (N.leb_spec n (lenN (@nil byte))) as [C|C]; [cbn in C; lia|].
    unfold s_read, read_full. rewrite (proj2 (N.eqb_neq _ _) W), (proj2 (N.eqb_neq _ _) N0). destruct s; reflexivity.
Qed.

Lemma copy_more_ok : forall m free data p n fuel acc s, so_far data p n acc s -> 0 < n < 9223372036854775808 ->
  (forall i, 1 <= free i) ->
  let r := copy_n data n (mkrst p (r_octet (s_r s)) 0) in
  (never_empty m /\ lenN (skipN p data) < lenN acc + N.of_nat fuel \/ fst (s_copy_more fuel m free data n acc s) <> OutOfFuel) ->
  exists c, s_copy_more fuel m free data n acc s = (fst r, mksst (snd r) c).
Proof.
  intros m free data p n fuel. induction fuel as [|k IH]; intros acc s F N0 FR r H; pose proof F as (A & L & B & P & W).
  - cbn [s_copy_more] in *. destruct (N.leb_spec n (lenN acc)) as [C|C].
    + exists (s_calls s). unfold r, copy_n. cbn [r_width r_pos r_octet].
      rewrite (proj2 (N.eqb_neq n 0)), (proj2 (N.leb_gt _ _)) by lia. cbn [orb]. rewrite N.eqb_refl.
      assert (n = lenN acc) by lia. subst n. rewrite <- A, N.eqb_refl. cbn [fst snd].
      destruct s as [[po oc wi] cs]. cbn in P, W |- *. subst. reflexivity.
    + destruct H as [[_ H]|H]; [|now destruct H]. cbn in H. lia.
  - cbn [s_copy_more] in *. destruct (N.leb_spec n (lenN acc)) as [C|C].
    + exists (s_calls s). unfold r, copy_n. cbn [r_width r_pos r_octet].
      rewrite (proj2 (N.eqb_neq n 0)), (proj2 (N.leb_gt _ _)) by lia. cbn [orb]. rewrite N.eqb_refl.
      assert (n = lenN acc) by lia. subst n. rewrite <- A, N.eqb_refl. cbn [fst snd].
      destruct s as [[po oc wi] cs]. cbn in P, W |- *. subst. reflexivity.
    + unfold s_read in *. rewrite W in *. cbn [N.eqb] in *. specialize (FR (s_calls s)) as FR1.
      destruct (under_read m data (N.min (free (s_calls s)) (n - lenN acc)) s) as [[got eof] s1] eqn:U.
      destruct (so_far_step _ _ _ _ _ _ _ _ _ _ F (N.le_min_r _ _) U) as (F1 & O1 & EO & NE & CA).
      destruct eof.
      * specialize (EO eq_refl). pose proof F1 as (A1 & L1 & B1 & P1 & W1).
        exists (s_calls s1). unfold r, copy_n. cbn [r_width r_pos r_octet].
        rewrite (proj2 (N.eqb_neq n 0)), (proj2 (N.leb_gt 9223372036854775808 n)) by lia. cbn [orb]. rewrite N.eqb_refl.
        assert (G : takeN n (skipN p data) = acc ++ got) by (rewrite EO in A1; rewrite A1, !takeN_all by lia; reflexivity).
        rewrite G.
        assert (S1 : s1 = mksst (mkrst (p + lenN (acc ++ got)) (r_octet (s_r s)) 0) (s_calls s1))
          by (destruct s1 as [[po oc wi] cs]; cbn in *; subst; reflexivity).
        rewrite S1. cbn [s_calls].
        destruct (N.leb_spec n (lenN (acc ++ got))) as [C1|C1].
        -- replace (lenN (acc ++ got) =? n) with true by (symmetry; apply N.eqb_eq; lia). reflexivity.
        -- replace (lenN (acc ++ got) =? n) with false by (symmetry; apply N.eqb_neq; lia). reflexivity.
      * destruct (IH (acc ++ got) s1 F1 N0 FR) as [c E].
        { destruct H as [[Hn H]|H]; [left; split; [exact Hn|]|right; exact H].
          specialize (NE Hn). rewrite lenN_app. specialize (NE ltac:(lia) eq_refl). lia. }
        rewrite O1 in E. exists c. exact E.
Qed.
Lemma sim_copy : forall m free data n fuel, never_empty m -> (forall i, 1 <= free i) -> plenty data fuel ->
  sim (s_copy_n fuel m free data n) (copy_n data n).
Proof.
  intros m free data n fuel NE FR PL s. unfold s_copy_n.
  destruct ((n =? 0) || (9223372036854775808 <=? n)) eqn:Z.
  { exists (s_calls s). unfold copy_n. rewrite Z. destruct s; reflexivity. }
  apply orb_false_elim in Z. destruct Z as [Z0 Z1]. apply N.eqb_neq in Z0. apply N.leb_gt in Z1.
  destruct (N.eqb_spec (r_width (s_r s)) 0) as [W|W].
  - assert (F : so_far data (r_pos (s_r s)) n [] s) by (repeat split; auto; try (cbn; lia); now rewrite takeN_0).
    destruct (copy_more_ok m free data (r_pos (s_r s)) n fuel [] s F ltac:(lia) FR) as [c E].
    + left. split; [exact NE|]. unfold plenty in PL. rewrite lenN_skipN. cbn. lia.
    + exists c. rewrite E. destruct s as [[po oc wi] cs]. cbn in W |- *. subst. reflexivity.
  - destruct fuel; [unfold plenty in PL; cbn in PL; lia|]. exists (s_calls s). cbn [s_copy_more].
    destruct (N.leb_spec n (lenN (@nil byte))) as [C|C]; [cbn in C; lia|].
    unfold s_read, copy_n. rewrite (proj2 (N.eqb_neq _ _) W), (proj2 (N.eqb_neq _ _) Z0), (proj2 (N.leb_gt _ _) Z1). destruct s; reflexivity.
Qed.

Lemma sim_string : forall m data fuel, never_empty m -> late_eof m -> plenty data fuel ->
  sim (s_read_string fuel m data) (util_read_string data).
Proof.
  intros m data fuel NE LE PL.
  set (body := fun acc : list byte => bind (read_full data 1) (fun b => match b with
      | [c] => if b2N c =? 0 then ret (inr acc) else ret (inl (c :: acc)) | _ => panic end)).
  assert (K : forall k j acc b s, lenN (skipN (r_pos (s_r s)) data) < N.of_nat k ->
    lenN (skipN (r_pos (s_r s)) data) < N.of_nat j -> exists c,
    s_read_string_more k m data b acc s =
      let r := bind (while (Pos.of_succ_nat j) body acc) (fun l => ret (rev l)) (s_r s) in (fst r, mksst (snd r) c)).
  { induction k as [|k IH]; intros j acc b s H1 H2; [lia|]. destruct j as [|j]; [lia|].
    cbn [s_read_string_more]. unfold s_read. cbv zeta.
    assert (ER : bind (while (Pos.of_succ_nat (S j)) body acc) (fun l => ret (rev l)) (s_r s) =
      match body acc (s_r s) with
      | (Ok (inl a1), s') => bind (while (Pos.of_succ_nat j) body a1) (fun l => ret (rev l)) s'
      | (Ok (inr l), s') => (Ok (rev l), s')
      | (Err e, s') => (Err e, s')
      | (Panic, s') => (Panic, s')
      | (OutOfFuel, s') => (OutOfFuel, s')
      end).
    { unfold bind. rewrite while_unfold. destruct (body acc (s_r s)) as [[[]| | |] ?]; reflexivity. }
    rewrite ER. clear ER.
    assert (BD : body acc (s_r s) = match read_full data 1 (s_r s) with
      | (Ok [c], s') => (Ok (if b2N c =? 0 then inr acc else inl (c :: acc)), s')
      | (Ok _, s') => (Panic, s')
      | (Err e, s') => (Err e, s')
      | (Panic, s') => (Panic, s')
      | (OutOfFuel, s') => (OutOfFuel, s')
      end).
    { unfold body, bind. destruct (read_full data 1 (s_r s)) as [[[|x [|y l]]| | |] ?]; try reflexivity. destruct (b2N x =? 0); reflexivity. }
    rewrite BD. clear BD. unfold read_full.
    destruct (r_width (s_r s) =? 0) eqn:W.
    - rewrite (under_one m data s NE). rewrite take1. destruct s as [[po oc wi] cs]. cbn [s_r s_calls r_pos r_octet r_width] in *.
      apply N.eqb_eq in W. subst wi.
      destruct (skipN po data) as [|x l] eqn:SK; cbn [lenN List.length N.of_nat].
      + exists (S cs). cbn. rewrite N.add_0_r. reflexivity.
      + replace (match l with [] => snd (m cs) | _ :: _ => false end) with false by (destruct l; [now rewrite LE|reflexivity]).
        cbn [hd]. change (N.pos (Pos.of_succ_nat 0)) with 1. change (1 =? 1) with true. cbv iota beta.
        destruct (b2N x =? 0) eqn:X0.
        * eexists. reflexivity.
        * assert (SK1 : skipN (po + 1) data = l) by (rewrite <- skipN_skipN, SK; destruct l; reflexivity).
          assert (LX : lenN (x :: l) = 1 + lenN l) by (unfold lenN; cbn [List.length]; lia).
          destruct (IH j (x :: acc) x (mksst (mkrst (po + 1) oc 0) (S cs))) as [c E].
          -- cbn [s_r r_pos]. rewrite SK1. lia.
          -- cbn [s_r r_pos]. rewrite SK1. lia.
          -- rewrite E. cbn [s_r]. exists c. reflexivity.
    - destruct s as [[po oc wi] cs]. exists cs. cbn. reflexivity. }
  intros s. unfold s_read_string, util_read_string.
  destruct (K fuel (N.to_nat (8 * lenN data + 8)) [] bzero s) as [c E].
  - unfold plenty in PL. rewrite lenN_skipN. lia.
  - rewrite N2Nat.id, lenN_skipN. lia.
  - exists c. rewrite E. cbv zeta. unfold loop_fuel.
    replace (Pos.of_succ_nat (N.to_nat (8 * lenN data + 8))) with (N.succ_pos (8 * lenN data + 8)); [reflexivity|].
    destruct (8 * lenN data + 8) as [|q] eqn:Q; [lia|]. cbn [N.succ_pos N.to_nat]. rewrite Pos.of_nat_succ, <- Pos2Nat.inj_succ, Pos2Nat.id. reflexivity.
Qed.

Lemma sim_call : forall m free data fuel c, never_empty m -> late_eof m -> (forall i, 1 <= free i) -> plenty data fuel ->
  sim (stream_call fuel m free data c) (plain_call data c).
Proof.
  intros m free data fuel c NE LE FR PL. destruct c; cbn [stream_call plain_call]; unfold bytes_reply, pos_reply;
    (apply sim_bind; [|intros; apply sim_ret]).
  - now apply sim_bits.
  - now apply sim_full.
  - now apply sim_copy.
  - now apply sim_string.
  - apply sim_seek.
  - apply sim_seek.
  - apply sim_seek.
Qed.

(** ** C59 *)
(** A caller gets the same replies from every reader that delivers at least a
    byte per call and reports io.EOF with a call of its own, however it splits
    the data. *)
Theorem C59_any_split_partial : forall m free data fuel p pos,
  never_empty m -> late_eof m -> (forall i, 1 <= free i) -> plenty data fuel ->
  stream_run fuel m free data p (mksst (new_reader pos) 0) = plain_run data p (new_reader pos).
Proof.
  intros m free data fuel p pos NE LE FR PL. change (new_reader pos) with (s_r (mksst (new_reader pos) 0)) at 2.
  generalize (mksst (new_reader pos) 0). induction p as [|c k IH]; intros s; [reflexivity|].
  cbn [stream_run plain_run]. destruct (sim_call m free data fuel c NE LE FR PL s) as [i E]. rewrite E.
  destruct (plain_call data c (s_r s)) as [a r]. cbn [fst snd]. f_equal. rewrite IH. reflexivity.
Qed.
Print Assumptions C59_any_split_partial.

(** io.ReadFull and io.CopyN are insensitive to everything: whatever the reader
    does within the contract, once they return they return the same. *)
Theorem C59_full_and_copy : forall m free data fuel n s, r_width (s_r s) = 0 -> 0 < n < 9223372036854775808 ->
  (forall i, 1 <= free i) ->
  (fst (s_read_full fuel m data n s) <> OutOfFuel -> exists c,
     s_read_full fuel m data n s = (fst (read_full data n (s_r s)), mksst (snd (read_full data n (s_r s))) c)) /\
  (fst (s_copy_n fuel m free data n s) <> OutOfFuel -> exists c,
     s_copy_n fuel m free data n s = (fst (copy_n data n (s_r s)), mksst (snd (copy_n data n (s_r s))) c)).
Proof.
  intros m free data fuel n s W H FR.
  assert (F : so_far data (r_pos (s_r s)) n [] s) by (repeat split; auto; try (cbn; lia); now rewrite takeN_0).
  assert (E : mkrst (r_pos (s_r s)) (r_octet (s_r s)) 0 = s_r s) by (destruct s as [[]]; cbn in *; now subst).
  split; intros Q.
  - destruct (more_ok m data (r_pos (s_r s)) n fuel [] s F ltac:(lia) (or_intror Q)) as [c R]. rewrite E in R. eauto.
  - unfold s_copy_n in *. rewrite (proj2 (N.eqb_neq n 0)), (proj2 (N.leb_gt _ _)) in * by lia. cbn [orb] in *.
    destruct (copy_more_ok m free data (r_pos (s_r s)) n fuel [] s F H FR (or_intror Q)) as [c R]. rewrite E in R. eauto.
Qed.
Print Assumptions C59_full_and_copy.

(** ReadBits never returns wrong bits: when it succeeds, it returns what it
    returns on a reader that fills every buffer. *)
Definition weak_sim {A} (x : M sst A) (y : M rst A) : Prop := forall s,
  (exists e, fst (x s) = Err e) \/ exists c, x s = (fst (y (s_r s)), mksst (snd (y (s_r s))) c).
Lemma weak_ret : forall A (a : A), weak_sim (ret a) (ret a).
Proof. intros A a [r i]. right. exists i. reflexivity. Qed.
Lemma weak_bind : forall A B (x : M sst A) y (f : A -> M sst B) g, weak_sim x y -> (forall a, weak_sim (f a) (g a)) ->
  weak_sim (bind x f) (bind y g).
Proof.
  intros A B x y f g X F s. unfold bind. destruct (X s) as [[e E]|[c E]].
  - left. exists e. destruct (x s) as [a s']. cbn in E. now subst.
  - rewrite E. destruct (y (s_r s)) as [[a|e| |] r]; cbn [fst snd]; eauto.
    destruct (F a (mksst r c)) as [?|[c' E']]; eauto.
Qed.
Lemma weak_loop : forall A n (f : A -> M sst A) g, (forall a, weak_sim (f a) (g a)) -> forall a, weak_sim (loopN n f a) (loopN n g a).
Proof.
  intros A n f g F a s. rewrite !loopN_nat. revert a s. generalize (N.to_nat n). intros k.
  assert (K : forall a, weak_sim (loop_nat k f a) (loop_nat k g a)).
  { induction k as [|k IH]; intros a; [apply weak_ret|]. cbn [loop_nat]. apply weak_bind; auto. }
  intros a s. apply K.
Qed.
Lemma weak_bit : forall m data, weak_sim (s_read_bit m data) (read_bit data).
Proof.
  intros m data [r i]. unfold s_read_bit, read_bit. cbn [s_r s_calls].
  destruct (r_width r =? 0) eqn:W; [|right; eexists; reflexivity].
  unfold under_read. cbn [s_r s_calls]. rewrite nthN_skipN.
  destruct (lenN (skipN (r_pos r) data) =? 0) eqn:L0; cbn [orb]; [left; eexists; reflexivity|].
  destruct (snd (m i) && _); [left; eexists; reflexivity|].
  destruct (N.eq_dec (fst (m i)) 0) as [->|NZ].
  - rewrite N.min_0_r, takeN_0. left. eexists. reflexivity.
  - rewrite N.min_l by lia. rewrite take1. destruct (skipN (r_pos r) data) as [|b l]; [discriminate|].
    right. eexists. reflexivity.
Qed.
Theorem C59_bits_never_wrong : forall m data n s v s',
  s_read_bits m data n s = (Ok v, s') -> read_bits data n (s_r s) = (Ok v, s_r s').
Proof.
  intros m data n s v s' E.
  assert (K : weak_sim (s_read_bits m data n) (read_bits data n)).
  { unfold s_read_bits, read_bits. apply weak_bind; [|intros; apply weak_ret].
    apply weak_loop. intros a. apply weak_bind; [apply weak_bit|intros; apply weak_ret]. }
  destruct (K s) as [[e Q]|[c Q]]; rewrite E in Q; [discriminate|].
  injection Q as -> ->. cbn [s_r]. now destruct (read_bits data n (s_r s)).
Qed.
Print Assumptions C59_bits_never_wrong.

(** ** Both conditions of [C59_any_split_partial] are needed. *)
(** A reader that reports io.EOF along with the last byte, as io.Reader allows,
    makes ReadBits fail although the data is there. *)
Theorem C59_early_eof_refuted : exists m data, never_empty m /\
  fst (read_bits data 8 (new_reader 0)) = Ok data /\
  fst (s_read_bits m data 8 (mksst (new_reader 0) 0)) = Err EEOF.
Proof.
  exists (fun _ => (1, true)), (hex "a5"). split; [intros i; cbn; lia|]. vm_compute. split; reflexivity.
Qed.
Print Assumptions C59_early_eof_refuted.
(** A call that delivers nothing, as io.Reader allows, makes util.ReadString
    take the byte before for another one: "ab" is read as "aab", without an error. *)
Theorem C59_empty_read_refuted : exists m data, late_eof m /\
  fst (util_read_string data (new_reader 0)) = Ok (hex "6162") /\
  fst (s_read_string 10 m data (mksst (new_reader 0) 0)) = Ok (hex "616162").
Proof.
  exists (fun i => (match i with 1%nat => 0 | _ => 1 end, false)), (hex "616200"). split; [intros i; reflexivity|].
  vm_compute. split; reflexivity.
Qed.
Print Assumptions C59_empty_read_refuted.

(** A caller that reads a count of bytes and then as many: with a reader that
    delivers one, two, one, two, ... bytes *)
Example C59_case :
  let m i := (if Nat.even i then 1 else 2, false) in
  let p := Next (CBits 8) (fun a => match a with
             | Ok (RBytes [n]) => Next (CFull (b2N n)) (fun _ => Next CString (fun _ => Next CEnd (fun _ => Next (CStart 1) (fun _ => Next (CCopy 9) (fun _ => Done)))))
             | _ => Done end) in
  stream_run 20 m (fun _ => 512) (hex "03aabbcc414200") p (mksst (new_reader 0) 0) =
  [Ok (RBytes (hex "03")); Ok (RBytes (hex "aabbcc")); Ok (RBytes (hex "4142")); Ok (RPos 7); Ok (RPos 1); Err EEOF].
Proof. vm_compute. reflexivity. Qed.
