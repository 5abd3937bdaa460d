From Verif Require Import Base BaseProofs BitIO BitIOProofs SpecBitIO.
Local Open Scope monad_scope.
Local Open Scope N_scope.
Ltac Zify.zify_post_hook ::= Z.to_euclidean_division_equations.

Lemma skipN_low_bits : forall d w, w <= 8 * lenN d ->
  skipN (8 * lenN d - w) (bits_of_bytes d) = N_to_bits (N.to_nat w) (be_to_N d).
Proof.
  intros d w H. rewrite be_to_N_bits.
  pose proof (N_to_bits_to_N (bits_of_bytes d)) as E.
  assert (List.length (bits_of_bytes d) = (N.to_nat (8 * lenN d - w) + N.to_nat w)%nat) as L.
  { rewrite bits_of_bytes_length. unfold lenN in *. lia. }
  rewrite <- E at 1. rewrite L, N_to_bits_app.
  apply skipN_app_exact. rewrite lenN_N_to_bits. lia.
Qed.

Lemma do_write_ok : forall o s bits, winv s bits -> ops_ok (lenN bits) [o] ->
  exists s', do_write o s = (Ok tt, s') /\ winv s' (bits ++ op_bits o).
Proof.
  intros [b|d w|p] s bits H [K _]; cbn [do_write op_bits].
  - now apply write_bit_ok.
  - rewrite <- skipN_low_bits by auto. now apply write_bits_ok.
  - now apply wr_write_ok.
Qed.
Lemma do_writes_ok : forall l s bits, winv s bits -> ops_ok (lenN bits) l ->
  exists s', do_writes l s = (Ok tt, s') /\ winv s' (bits ++ flat_map op_bits l).
Proof.
  induction l as [|o l IH]; intros s bits H K.
  - exists s. cbn. rewrite app_nil_r; auto.
  - destruct K as [K1 K2].
    destruct (do_write_ok o s bits H) as (s1 & E1 & H1); [split; [exact K1|exact I]|].
    rewrite <- lenN_app in K2.
    destruct (IH s1 _ H1 K2) as (s2 & E2 & H2).
    exists s2. cbn [do_writes flat_map]. unfold bind. rewrite E1, E2. split; auto.
    now rewrite <- app_assoc in H2.
Qed.

Lemma do_read_ok : forall data o s bp rest, rd data s bp -> ops_ok bp [o] ->
  skipN bp (bits_of_bytes data) = op_bits o ++ rest ->
  exists s', do_read data o s = (Ok (op_value o), s') /\ rd data s' (bp + lenN (op_bits o)).
Proof.
  intros data [b|d w|p] s bp rest H [K _] E; cbn [do_read op_bits op_value] in *.
  - destruct (read_bit_ok _ _ _ _ _ H E) as (s1 & E1 & H1).
    exists s1. unfold bind. rewrite E1. split; auto.
  - assert (lenN (N_to_bits (N.to_nat w) (be_to_N d)) = w) as L.
    { rewrite lenN_N_to_bits; lia. }
    destruct (read_bits_ok data w s bp H) as (s1 & E1 & H1).
    { rewrite E, lenN_app, L. lia. }
    exists s1. rewrite L. split; auto. rewrite E1, E.
    rewrite takeN_app_exact by auto. rewrite pack_pad_spec, N_to_bits_length, bits_to_N_to_bits.
    rewrite N2Nat.id. do 3 f_equal.
    pose proof (N2Nat.inj_div (w + 7) 8) as Q. rewrite Q. f_equal. lia.
  - destruct (rd_aligned _ _ _ H K) as [W P]. unfold read_full. rewrite W. cbn [N.eqb].
    rewrite P, skipN_bits_of_bytes in E.
    assert (takeN (lenN p) (skipN (r_pos s) data) = p) as T.
    { apply bits_of_bytes_inj. rewrite <- takeN_bits_of_bytes, E.
      apply takeN_app_exact. now rewrite lenN_bits_of_bytes. }
    rewrite T, N.eqb_refl. eexists; split; [reflexivity|].
    rewrite lenN_bits_of_bytes, P.
    replace (8 * r_pos s + 8 * lenN p) with (8 * (r_pos s + lenN p)) by lia. apply rd_at.
Qed.
Lemma ops_ok_mod : forall l n m, n mod 8 = m mod 8 -> ops_ok n l -> ops_ok m l.
Proof.
  induction l as [|o l IH]; intros n m E H; [exact I|].
  destruct H as [H1 H2]. split.
  - destruct o; auto. lia.
  - apply IH with (2 := H2). rewrite N.add_mod, E, <- N.add_mod by lia. reflexivity.
Qed.
Lemma do_reads_ok : forall l data s bp rest, rd data s bp -> ops_ok bp l ->
  skipN bp (bits_of_bytes data) = flat_map op_bits l ++ rest ->
  exists s', do_reads data l s = (Ok (map op_value l), s') /\
             rd data s' (bp + lenN (flat_map op_bits l)).
Proof.
  induction l as [|o l IH]; intros data s bp rest H K E.
  - exists s. cbn. rewrite N.add_0_r. auto.
  - destruct K as [K1 K2]. cbn [flat_map] in E. rewrite <- app_assoc in E.
    destruct (do_read_ok data o s bp _ H ltac:(split; [exact K1|exact I]) E) as (s1 & E1 & H1).
    destruct (IH data s1 _ rest H1 K2) as (s2 & E2 & H2).
    { rewrite <- skipN_skipN, E. now apply skipN_app_exact. }
    exists s2. cbn [do_reads map flat_map]. unfold bind. rewrite E1, E2.
    split; auto. now rewrite lenN_app, N.add_assoc.
Qed.

Lemma bit_round_trip : forall l pre post,
  ops_ok 0 l -> lenN (flat_map op_bits l) mod 8 = 0 ->
  exists s s',
    do_writes l (new_writer []) = (Ok tt, s) /\
    bits_of_bytes (w_out s) = flat_map op_bits l /\
    do_reads (pre ++ w_out s ++ post) l (new_reader (lenN pre)) = (Ok (map op_value l), s') /\
    r_pos s' = lenN pre + lenN (w_out s) /\ r_width s' = 0.
Proof.
  intros l pre post K A.
  destruct (do_writes_ok l (new_writer []) [] winv_new K) as (s & E & H).
  cbn [app] in H. pose proof (winv_aligned _ _ H A) as B.
  destruct (do_reads_ok l (pre ++ w_out s ++ post) (new_reader (lenN pre)) (8 * lenN pre)
              (bits_of_bytes post)) as (s' & E' & H').
  - apply rd_new.
  - apply ops_ok_mod with (n := 0); auto. rewrite N.mul_comm, N.mod_mul by lia. reflexivity.
  - rewrite skipN_bits_of_bytes, skipN_app_exact, bits_of_bytes_app, B by auto. reflexivity.
  - exists s, s'. repeat split; auto.
    + rewrite <- B, lenN_bits_of_bytes in H'.
      replace (8 * lenN pre + 8 * lenN (w_out s)) with (8 * (lenN pre + lenN (w_out s))) in H' by lia.
      destruct (rd_aligned _ _ _ H') as [H1 H2]; [rewrite N.mul_comm; apply N.mod_mul; lia|lia].
    + rewrite <- B, lenN_bits_of_bytes in H'.
      replace (8 * lenN pre + 8 * lenN (w_out s)) with (8 * (lenN pre + lenN (w_out s))) in H' by lia.
      destruct (rd_aligned _ _ _ H') as [H1 H2]; [rewrite N.mul_comm; apply N.mod_mul; lia|auto].
Qed.

Lemma writer_emits_prefix : forall l, ops_ok 0 l ->
  exists s, do_writes l (new_writer []) = (Ok tt, s) /\
    bits_of_bytes (w_out s) =
      takeN (8 * (lenN (flat_map op_bits l) / 8)) (flat_map op_bits l).
Proof.
  intros l K. destruct (do_writes_ok l (new_writer []) [] winv_new K) as (s & E & H).
  exists s; split; auto. cbn [app] in H.
  destruct H as (pend & L & -> & _). rewrite lenN_app, lenN_bits_of_bytes.
  assert (lenN pend < 8) by (unfold lenN; lia).
  replace ((8 * lenN (w_out s) + lenN pend) / 8) with (lenN (w_out s)) by lia.
  rewrite takeN_app_exact; auto. now rewrite lenN_bits_of_bytes.
Qed.

Lemma unaligned_write : forall l p, ops_ok 0 l ->
  exists s, do_writes l (new_writer []) = (Ok tt, s) /\
    (lenN (flat_map op_bits l) mod 8 <> 0 -> wr_write p s = (Err EAlign, s)) /\
    (lenN (flat_map op_bits l) mod 8 = 0 ->
       exists s', wr_write p s = (Ok tt, s') /\ w_out s' = w_out s ++ p).
Proof.
  intros l p K. destruct (do_writes_ok l (new_writer []) [] winv_new K) as (s & E & H).
  exists s; split; auto. cbn [app] in H.
  destruct H as (pend & L & -> & W & _ & F). rewrite lenN_app, lenN_bits_of_bytes.
  assert (lenN pend < 8) by (unfold lenN; lia).
  unfold wr_write. split; intros A.
  - destruct (N.eqb_spec (w_width s) 0); auto. exfalso. apply A. lia.
  - destruct (N.eqb_spec (w_width s) 0); [|exfalso; lia].
    unfold under_write. rewrite F. eexists; split; reflexivity.
Qed.

Lemma unaligned_read : forall data pos l n rest,
  ops_ok 0 l -> 0 < n ->
  bits_of_bytes (skipN pos data) = flat_map op_bits l ++ rest ->
  exists v s, do_reads data l (new_reader pos) = (Ok v, s) /\
    (lenN (flat_map op_bits l) mod 8 <> 0 ->
       read_full data n s = (Err EAlign, s) /\ copy_n data n s =
         (if 9223372036854775808 <=? n then Ok [] else Err EAlign, s) /\
       seek_cur0 s = (Err EAlign, s)) /\
    (lenN (flat_map op_bits l) mod 8 = 0 ->
       let p := pos + lenN (flat_map op_bits l) / 8 in
       seek_cur0 s = (Ok p, s) /\
       (n <= lenN data - p ->
        exists s', read_full data n s = (Ok (takeN n (skipN p data)), s') /\ r_pos s' = p + n)).
Proof.
  intros data pos l n rest K Hn E.
  destruct (do_reads_ok l data (new_reader pos) (8 * pos) rest) as (s & E1 & H).
  - apply rd_new.
  - apply ops_ok_mod with (n := 0); auto. rewrite N.mul_comm, N.mod_mul by lia. reflexivity.
  - now rewrite skipN_bits_of_bytes.
  - exists (map op_value l), s. split; auto.
    set (k := lenN (flat_map op_bits l)) in *.
    split; intros A.
    + assert (r_width s <> 0) as W. { rewrite (rd_width _ _ _ H). lia. }
      unfold read_full, copy_n, seek_cur0.
      destruct (N.eqb_spec (r_width s) 0); [contradiction|].
      destruct (N.eqb_spec n 0); [lia|]. cbn [orb].
      destruct (9223372036854775808 <=? n); auto.
    + destruct (rd_aligned _ _ _ H) as [W P]. { lia. }
      assert (r_pos s = pos + k / 8) as Q by lia.
      cbv zeta. rewrite <- Q.
      unfold read_full, seek_cur0. rewrite W; cbn [N.eqb]. split; auto.
      intros L. assert (lenN (takeN n (skipN (r_pos s) data)) = n) as T.
      { rewrite lenN_takeN, lenN_skipN. lia. }
      rewrite T, N.eqb_refl. eexists; split; [reflexivity|]. reflexivity.
Qed.
