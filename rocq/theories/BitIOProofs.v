(** Lemmas about the bit reader and writer. *)
From Verif Require Import Base BaseProofs BitIO.
Local Open Scope monad_scope.
Local Open Scope N_scope.
Ltac Zify.zify_post_hook ::= Z.to_euclidean_division_equations.

(** ** Writer: what has been written so far, as bits *)
Definition winv (s : wst) (bits : list bool) : Prop :=
  exists pend, (List.length pend < 8)%nat /\
    bits = bits_of_bytes (w_out s) ++ pend /\
    w_width s = lenN pend /\
    w_octet s = bits_to_N (pend ++ repeat false (8 - List.length pend)) /\
    w_faults s = [].

Lemma winv_new : winv (new_writer []) [].
Proof. exists []. repeat split; cbn; auto. lia. Qed.

Lemma write_bit_ok : forall b s bits, winv s bits ->
  exists s', write_bit b s = (Ok tt, s') /\ winv s' (bits ++ [b]).
Proof.
  intros b s bits (pend & L & -> & W & O & F).
  destruct s as [out oct wid fl]; cbn in W, O, F; subst.
  unfold write_bit, under_write; cbn [w_width w_octet w_out w_faults].
  destruct (Nat.eq_dec (List.length pend) 7) as [E|E].
  - assert (lenN pend = 7) as -> by (unfold lenN; lia). cbn [N.add N.eqb Pos.eqb].
    eexists; split; [reflexivity|].
    exists []. cbn [w_out w_octet w_width w_faults]. split; [cbn; lia|].
    split; [|repeat split].
    rewrite bits_of_bytes_app, app_nil_r, <- app_assoc. f_equal.
    cbn [bits_of_bytes flat_map]. rewrite app_nil_r.
    do 8 (destruct pend as [|? pend]; try discriminate).
    repeat match goal with x : bool |- _ => destruct x end; reflexivity.
  - assert (lenN pend + 1 =? 8 = false) as -> by (apply N.eqb_neq; unfold lenN; lia).
    eexists; split; [reflexivity|].
    exists (pend ++ [b]). cbn [w_out w_octet w_width w_faults].
    rewrite app_length; cbn [List.length]. split; [lia|].
    split; [now rewrite app_assoc|]. split; [unfold lenN; rewrite app_length; cbn; lia|].
    split; [|reflexivity].
    assert (lenN pend <=? 7 = true) as -> by (apply N.leb_le; unfold lenN; lia).
    do 7 (destruct pend as [|? pend]; [
      repeat match goal with x : bool |- _ => destruct x end; reflexivity|]).
    cbn in L, E. destruct pend; cbn in *; lia.
Qed.

Lemma write_bit_list_ok : forall l s bits, winv s bits ->
  exists s', write_bit_list l s = (Ok tt, s') /\ winv s' (bits ++ l).
Proof.
  induction l; intros s bits H; cbn [write_bit_list].
  - exists s; rewrite app_nil_r; auto.
  - destruct (write_bit_ok a s bits H) as (s1 & E1 & H1).
    destruct (IHl s1 _ H1) as (s2 & E2 & H2).
    exists s2. unfold bind; rewrite E1, E2. split; auto. now rewrite <- app_assoc in H2.
Qed.

Lemma write_bits_ok : forall d w s bits, w <= 8 * lenN d -> winv s bits ->
  exists s', write_bits d w s = (Ok tt, s') /\
             winv s' (bits ++ skipN (8 * lenN d - w) (bits_of_bytes d)).
Proof.
  intros. unfold write_bits. rewrite lenN_bits_of_bytes.
  destruct (N.leb_spec w (8 * lenN d)); [|lia]. now apply write_bit_list_ok.
Qed.

Lemma wr_write_ok : forall p s bits, winv s bits -> lenN bits mod 8 = 0 ->
  exists s', wr_write p s = (Ok tt, s') /\ winv s' (bits ++ bits_of_bytes p).
Proof.
  intros p s bits (pend & L & -> & W & O & F) A.
  rewrite lenN_app, lenN_bits_of_bytes in A.
  assert (pend = []) as ->. { apply lenN_0. assert (lenN pend < 8) by (unfold lenN; lia). lia. }
  rewrite app_nil_r in *. destruct s as [out oct wid fl]; cbn in W, O, F; subst.
  unfold wr_write, under_write; cbn [w_width w_octet w_out w_faults].
  change (lenN (@nil bool) =? 0) with true. cbv match.
  eexists; split; [reflexivity|]. exists []. cbn [w_out w_octet w_width w_faults].
  repeat split; cbn; auto; try lia. rewrite bits_of_bytes_app, app_nil_r; auto.
Qed.

Lemma write_chunks_ok : forall fuel p s bits, winv s bits -> lenN bits mod 8 = 0 ->
  (List.length p <= fuel)%nat ->
  exists s', write_chunks fuel p s = (Ok tt, s') /\ winv s' (bits ++ bits_of_bytes p).
Proof.
  induction fuel; intros p s bits H A L; cbn [write_chunks].
  - destruct p; [|cbn in L; lia]. exists s. rewrite app_nil_r. auto.
  - destruct p as [|b p]; [exists s; rewrite app_nil_r; auto|].
    destruct (wr_write_ok (takeN 32768 (b :: p)) s bits H A) as (s1 & E1 & H1).
    unfold bind. rewrite E1.
    destruct (IHfuel (skipN 32768 (b :: p)) s1 _ H1) as (s2 & E2 & H2).
    + rewrite lenN_app, lenN_bits_of_bytes. lia.
    + rewrite skipN_skipn, skipn_length. cbn [List.length] in *. lia.
    + exists s2. rewrite E2. split; auto.
      rewrite <- app_assoc, <- bits_of_bytes_app, takeN_skipN in H2. exact H2.
Qed.
Lemma wr_copy_ok : forall p s bits, winv s bits -> lenN bits mod 8 = 0 ->
  exists s', wr_copy p s = (Ok tt, s') /\ winv s' (bits ++ bits_of_bytes p).
Proof. intros. apply write_chunks_ok; auto. Qed.

Lemma winv_aligned : forall s bits, winv s bits -> lenN bits mod 8 = 0 ->
  bits_of_bytes (w_out s) = bits.
Proof.
  intros s bits (pend & L & -> & W & O & F) A.
  rewrite lenN_app, lenN_bits_of_bytes in A.
  assert (pend = []) as ->. { apply lenN_0. assert (lenN pend < 8) by (unfold lenN; lia). lia. }
  now rewrite app_nil_r.
Qed.

(** ** Reader: the position counted in bits *)
Definition rrem (data : list byte) (s : rst) : list bool :=
  skipn (8 - N.to_nat (r_width s)) (bits_of_byte (r_octet s)) ++ bits_of_bytes (skipN (r_pos s) data).
Definition rd (data : list byte) (s : rst) (bp : N) : Prop :=
  r_width s <= 7 /\ 8 * r_pos s = bp + r_width s /\
  rrem data s = skipN bp (bits_of_bytes data).

Lemma skipN_bits_of_bytes : forall l n,
  skipN (8 * n) (bits_of_bytes l) = bits_of_bytes (skipN n l).
Proof.
  induction l; intros n; [destruct n; reflexivity|].
  destruct (N.eq_dec n 0) as [->|H]; [now rewrite !skipN_0|].
  rewrite bits_of_bytes_cons, skipN_app_ge by (unfold lenN; rewrite bits_of_byte_length; lia).
  unfold lenN at 1; rewrite bits_of_byte_length.
  replace (8 * n - N.of_nat 8) with (8 * (n - 1)) by lia. rewrite IHl.
  cbn [skipN]. destruct (N.eqb_spec n 0); [lia|]. f_equal. f_equal. lia.
Qed.

Lemma rd_new : forall data pos, rd data (new_reader pos) (8 * pos).
Proof.
  intros; unfold rd, new_reader, rrem; cbn [r_pos r_octet r_width].
  split; [lia|]. split; [lia|]. rewrite skipN_bits_of_bytes. reflexivity.
Qed.
Lemma rd_at : forall data pos o, rd data (mkrst pos o 0) (8 * pos).
Proof.
  intros; unfold rd, rrem; cbn [r_pos r_octet r_width].
  split; [lia|]. split; [lia|]. rewrite skipN_bits_of_bytes.
  change (8 - N.to_nat 0)%nat with 8%nat. rewrite skipn_all2; [reflexivity|].
  rewrite bits_of_byte_length; lia.
Qed.
Lemma rd_aligned : forall data s bp, rd data s bp -> bp mod 8 = 0 ->
  r_width s = 0 /\ bp = 8 * r_pos s.
Proof. intros data s bp (A & B & C) H. lia. Qed.
Lemma rd_width : forall data s bp, rd data s bp -> r_width s = (8 - bp mod 8) mod 8.
Proof. intros data s bp (A & B & C). lia. Qed.
Lemma rd_pos : forall data s bp, rd data s bp -> r_pos s = (bp + 7) / 8.
Proof. intros data s bp (A & B & C). lia. Qed.

Lemma skipN_cons_inv : forall A (l : list A) n x r, skipN n l = x :: r ->
  n < lenN l /\ skipN (n + 1) l = r.
Proof.
  intros A l n x r H. split.
  - pose proof (lenN_skipN _ l n) as E. rewrite H, lenN_cons in E. lia.
  - rewrite <- skipN_skipN, H. cbn [skipN]. now rewrite skipN_0.
Qed.
Lemma nthN_skipN : forall A (l : list A) n, nthN n l = hd_error (skipN n l).
Proof.
  induction l; intros n; cbn [nthN skipN]; [reflexivity|].
  destruct (n =? 0); [reflexivity|apply IHl].
Qed.

Lemma read_bit_ok : forall data s bp b rest, rd data s bp ->
  skipN bp (bits_of_bytes data) = b :: rest ->
  exists s', read_bit data s = (Ok b, s') /\ rd data s' (bp + 1).
Proof.
  intros data s bp b rest (W & P & R) E. rewrite E in R.
  destruct (skipN_cons_inv _ _ _ _ _ E) as (_ & E').
  unfold read_bit. destruct (N.eqb_spec (r_width s) 0) as [Z|Z].
  - rewrite nthN_skipN. unfold rrem in R. rewrite Z in R.
    change (8 - N.to_nat 0)%nat with 8%nat in R.
    rewrite skipn_all2 in R by (rewrite bits_of_byte_length; lia). cbn [app] in R.
    destruct (skipN (r_pos s) data) as [|x tl] eqn:T; [discriminate|]. cbn [hd_error].
    rewrite bits_of_bytes_cons in R. destruct x as [x0 x1 x2 x3 x4 x5 x6 x7].
    injection R as R1 R2. cbn [bits_of_byte nth].
    rewrite R1. eexists; split; [reflexivity|].
    destruct (skipN_cons_inv _ _ _ _ _ T) as (_ & T').
    unfold rd, rrem; cbn [r_pos r_octet r_width]. split; [lia|]. split; [lia|].
    rewrite E', T', <- R2. reflexivity.
  - destruct s as [pos oct wid]; cbn [r_pos r_octet r_width] in *.
    unfold rrem in R; cbn [r_pos r_octet r_width] in R.
    assert (wid = 1 \/ wid = 2 \/ wid = 3 \/ wid = 4 \/ wid = 5 \/ wid = 6 \/ wid = 7) as Cs by lia.
    destruct oct as [x0 x1 x2 x3 x4 x5 x6 x7].
    decompose [or] Cs; subst wid; cbn in R; injection R as R1 R2; eexists;
      (split; [reflexivity || (cbn; rewrite R1; reflexivity)|]);
      unfold rd, rrem; cbn [r_pos r_octet r_width N.sub Pos.sub_mask Pos.pred_double Pos.double_mask Pos.succ_double_mask Pos.double_pred_mask Pos.pred_mask];
      (split; [lia|]); (split; [lia|]); rewrite E', <- R2; reflexivity.
Qed.

Lemma read_bit_eof : forall data s bp, rd data s bp ->
  skipN bp (bits_of_bytes data) = [] -> read_bit data s = (Err EEOF, s) /\ r_width s = 0.
Proof.
  intros data s bp (W & P & R) E. rewrite E in R. unfold rrem in R.
  apply app_eq_nil in R. destruct R as [R1 R2].
  assert (r_width s = 0) as Z.
  { apply f_equal with (f := @List.length bool) in R1.
    rewrite skipn_length, bits_of_byte_length in R1. cbn [List.length] in R1. lia. }
  split; auto. unfold read_bit. rewrite Z; cbn.
  rewrite nthN_skipN. destruct (skipN (r_pos s) data) as [|x l]; [reflexivity|].
  destruct x; discriminate.
Qed.

Definition rdbody (data : list byte) : list bool -> M rst (list bool) :=
  fun acc => b <- read_bit data ;; ret (b :: acc).

Lemma read_bit_loop : forall data k s bp acc, rd data s bp ->
  (k <= List.length (skipN bp (bits_of_bytes data)))%nat ->
  exists s', loop_nat k (rdbody data) acc s =
             (Ok (rev (firstn k (skipN bp (bits_of_bytes data))) ++ acc), s') /\
             rd data s' (bp + N.of_nat k).
Proof.
  induction k; intros s bp acc H L.
  - exists s. cbn [loop_nat firstn rev app]. replace (bp + N.of_nat 0) with bp by lia. auto.
  - destruct (skipN bp (bits_of_bytes data)) as [|b rest] eqn:E; [cbn in L; lia|].
    destruct (read_bit_ok _ _ _ _ _ H E) as (s1 & E1 & H1).
    destruct (skipN_cons_inv _ _ _ _ _ E) as (_ & E').
    destruct (IHk s1 (bp + 1) (b :: acc) H1) as (s2 & E2 & H2).
    { rewrite E'. cbn in L; lia. }
    exists s2. split.
    + rewrite loop_nat_ok with (a' := b :: acc) (s' := s1).
      * rewrite E2, E'. cbn [firstn rev]. rewrite <- app_assoc. reflexivity.
      * unfold rdbody, bind. rewrite E1. reflexivity.
    + replace (bp + N.of_nat (S k)) with (bp + 1 + N.of_nat k) by lia. auto.
Qed.
Lemma read_bit_loop_eof : forall data k s bp acc, rd data s bp ->
  (List.length (skipN bp (bits_of_bytes data)) < k)%nat ->
  exists s', loop_nat k (rdbody data) acc s = (Err EEOF, s') /\
     rd data s' (bp + lenN (skipN bp (bits_of_bytes data))) /\ r_width s' = 0.
Proof.
  induction k; intros s bp acc H L; [lia|].
  destruct (skipN bp (bits_of_bytes data)) as [|b rest] eqn:E.
  - exists s. destruct (read_bit_eof _ _ _ H E) as [E1 E2]. cbn [loop_nat].
    unfold bind at 1, rdbody, bind. rewrite E1. rewrite lenN_nil, N.add_0_r. auto.
  - destruct (read_bit_ok _ _ _ _ _ H E) as (s1 & E1 & H1).
    destruct (skipN_cons_inv _ _ _ _ _ E) as (_ & E').
    destruct (IHk s1 (bp + 1) (b :: acc) H1) as (s2 & E2 & H2 & H3).
    { rewrite E'. cbn in L; lia. }
    exists s2. split; [|split; auto].
    + rewrite loop_nat_ok with (a' := b :: acc) (s' := s1); auto.
      unfold rdbody, bind. rewrite E1. reflexivity.
    + rewrite E' in H2. rewrite lenN_cons. replace (bp + (lenN rest + 1)) with (bp + 1 + lenN rest) by lia. auto.
Qed.

Lemma read_bits_ok : forall data n s bp, rd data s bp ->
  n <= lenN (skipN bp (bits_of_bytes data)) ->
  exists s', read_bits data n s =
             (Ok (pack (pad_bits (takeN n (skipN bp (bits_of_bytes data))))), s') /\
             rd data s' (bp + n).
Proof.
  intros data n s bp H L.
  destruct (read_bit_loop data (N.to_nat n) s bp [] H) as (s' & E & H').
  { unfold lenN in L; lia. }
  exists s'. split.
  - unfold read_bits. unfold bind at 1. rewrite loopN_nat.
    change (fun acc : list bool => b <- read_bit data;; ret (b :: acc)) with (rdbody data).
    rewrite E. unfold ret. rewrite app_nil_r, rev_involutive, takeN_firstn. reflexivity.
  - replace (bp + n) with (bp + N.of_nat (N.to_nat n)) by lia. auto.
Qed.
Lemma read_bits_eof : forall data n s bp, rd data s bp ->
  lenN (skipN bp (bits_of_bytes data)) < n ->
  exists s', read_bits data n s = (Err EEOF, s') /\
     rd data s' (bp + lenN (skipN bp (bits_of_bytes data))) /\ r_width s' = 0.
Proof.
  intros data n s bp H L.
  destruct (read_bit_loop_eof data (N.to_nat n) s bp [] H) as (s' & E & H').
  { unfold lenN in L; lia. }
  exists s'. split; auto.
  unfold read_bits. unfold bind at 1. rewrite loopN_nat.
  change (fun acc : list bool => b <- read_bit data;; ret (b :: acc)) with (rdbody data).
  rewrite E. reflexivity.
Qed.

(** ** packing bits into bytes *)
Lemma pack_bits : forall k l, List.length l = (8 * k)%nat ->
  bits_of_bytes (pack l) = l /\ List.length (pack l) = k.
Proof.
  induction k; intros l H.
  - destruct l; [auto|cbn in H; lia].
  - do 8 (destruct l as [|? l]; [cbn in H; lia|]).
    cbn [pack]. destruct (IHk l) as [E1 E2]. { cbn in H; lia. }
    rewrite bits_of_bytes_cons, E1. cbn [List.length]. rewrite E2.
    split; auto. 
Qed.
Lemma pad_bits_length : forall l, exists k, List.length (pad_bits l) = (8 * k)%nat /\
  k = ((List.length l + 7) / 8)%nat.
Proof.
  intros l. unfold pad_bits. rewrite app_length, repeat_length.
  exists ((List.length l + 7) / 8)%nat. split; auto.
  set (n := List.length l).
  pose proof (Nat.div_mod n 8 ltac:(lia)). pose proof (Nat.mod_upper_bound n 8 ltac:(lia)).
  pose proof (Nat.div_mod (n + 7) 8 ltac:(lia)). pose proof (Nat.mod_upper_bound (n + 7) 8 ltac:(lia)).
  pose proof (Nat.div_mod (8 - n mod 8) 8 ltac:(lia)). pose proof (Nat.mod_upper_bound (8 - n mod 8) 8 ltac:(lia)).
  lia.
Qed.
Lemma bits_of_pack_pad : forall l, bits_of_bytes (pack (pad_bits l)) = pad_bits l.
Proof. intros. destruct (pad_bits_length l) as (k & H & _). apply (pack_bits k); auto. Qed.
Lemma length_pack_pad : forall l, List.length (pack (pad_bits l)) = ((List.length l + 7) / 8)%nat.
Proof. intros. destruct (pad_bits_length l) as (k & H & <-). apply (pack_bits k); auto. Qed.
Lemma bits_to_N_repeat_false : forall k l, bits_to_N (repeat false k ++ l) = bits_to_N l.
Proof. induction k; intros; [reflexivity|]. cbn [repeat app]. apply IHk. Qed.
Lemma be_to_N_pack_pad : forall l, be_to_N (pack (pad_bits l)) = bits_to_N l.
Proof.
  intros. rewrite be_to_N_bits, bits_of_pack_pad. unfold pad_bits. apply bits_to_N_repeat_false.
Qed.
Lemma pack_pad_aligned : forall d, pack (pad_bits (bits_of_bytes d)) = d.
Proof.
  intros. apply bits_of_bytes_inj. rewrite bits_of_pack_pad. unfold pad_bits.
  rewrite bits_of_bytes_length.
  replace ((8 - 8 * List.length d mod 8) mod 8)%nat with 0%nat; [reflexivity|].
  rewrite Nat.mul_comm, Nat.mod_mul by lia. reflexivity.
Qed.
Lemma pack_pad_spec : forall l,
  pack (pad_bits l) = N_to_be ((List.length l + 7) / 8) (bits_to_N l).
Proof.
  intros. rewrite <- be_to_N_pack_pad, <- length_pack_pad. symmetry. apply N_to_be_to_N.
Qed.

(** ** byte-wise reads *)
Lemma takeN_bits_of_bytes : forall l n, takeN (8 * n) (bits_of_bytes l) = bits_of_bytes (takeN n l).
Proof.
  induction l; intros n; [destruct n; reflexivity|].
  destruct (N.eq_dec n 0) as [->|H]; [now rewrite !takeN_0|].
  rewrite bits_of_bytes_cons, takeN_app_ge by (unfold lenN; rewrite bits_of_byte_length; lia).
  unfold lenN at 1; rewrite bits_of_byte_length.
  replace (8 * n - N.of_nat 8) with (8 * (n - 1)) by lia. rewrite IHl.
  cbn [takeN]. destruct (N.eqb_spec n 0); [lia|]. rewrite bits_of_bytes_cons.
  f_equal. f_equal. f_equal. lia.
Qed.
