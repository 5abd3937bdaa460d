(** C02, absolute seeks: Seek from the start or from the end of the stream drops the
    bits that are left of the current byte. *)
From Verif Require Import Base BitIO SpecBitIO AnyReaderProofs PropBitIO.

(** two readers at the same place: the byte last read counts only if bits of it are left *)
Definition level (s r : rst) : Prop :=
  r_pos s = r_pos r /\ r_width s = r_width r /\ (r_width s <> 0 -> r_octet s = r_octet r).
Lemma level_bit : forall data, alike level (read_bit data) (read_bit data).
Proof.
  intros data [p o w] [p' o' w'] (E1 & E2 & E3). cbn in E1, E2, E3. subst p' w'. unfold read_bit. cbn [r_pos r_width r_octet].
  destruct (w =? 0) eqn:Z.
  - destruct (nthN p data); (split; [reflexivity|]); repeat split; cbn [snd r_width r_octet]; auto.
  - apply N.eqb_neq in Z. rewrite <- (E3 Z). split; [reflexivity|]. now repeat split.
Qed.
Lemma level_bits : forall data n, alike level (read_bits data n) (read_bits data n).
Proof.
  intros data n. unfold read_bits. apply a_bind; [|intros; apply a_ret]. apply a_loopN. intros acc.
  apply a_bind; [apply level_bit|intros; apply a_ret].
Qed.
Lemma level_full : forall data n, alike level (read_full data n) (read_full data n).
Proof.
  intros data n [p o w] [p' o' w'] (E1 & E2 & E3). cbn in E1, E2, E3. subst p' w'. unfold read_full. cbn [r_pos r_width r_octet]. cbv zeta.
  destruct (w =? 0) eqn:Z.
  - destruct (lenN _ =? n); [|destruct (lenN _ =? 0)]; (split; [reflexivity|]); repeat split; cbn [snd r_width r_octet]; intros G; now elim G.
  - destruct (n =? 0); (split; [reflexivity|]); now repeat split.
Qed.
Lemma level_reads : forall data l, alike level (do_reads data l) (do_reads data l).
Proof.
  intros data l. induction l as [|o l IH]; cbn [do_reads]; [apply a_ret|]. apply a_bind; [|intros x; apply a_bind; [exact IH|intros; apply a_ret]].
  destruct o; cbn [do_read]; [apply a_bind; [apply level_bit|intros; apply a_ret]|apply level_bits|apply level_full].
Qed.
(** Whatever the state of the reader, even in the middle of a byte: Seek from the start
    succeeds, unless the offset is negative as an int64, and then it changes nothing;
    Seek to the end succeeds and returns the length.  Any reads that follow give what
    they give on a reader that has just been made at the new position. *)
Theorem C02_absolute_seek : forall data s l,
  (forall x, x < 2 ^ 63 -> exists s', seek_start x s = (Ok x, s') /\
     fst (do_reads data l s') = fst (do_reads data l (new_reader x)) /\
     r_pos (snd (do_reads data l s')) = r_pos (snd (do_reads data l (new_reader x))) /\
     r_width (snd (do_reads data l s')) = r_width (snd (do_reads data l (new_reader x)))) /\
  (forall x, 2 ^ 63 <= x -> exists e, seek_start x s = (Err e, s)) /\
  exists s', seek_end data s = (Ok (lenN data), s') /\
     fst (do_reads data l s') = fst (do_reads data l (new_reader (lenN data))) /\
     r_pos (snd (do_reads data l s')) = r_pos (snd (do_reads data l (new_reader (lenN data)))) /\
     r_width (snd (do_reads data l s')) = r_width (snd (do_reads data l (new_reader (lenN data)))).
Proof.
  intros data s l. unfold seek_start, seek_end.
  assert (K : forall p, let s' := mkrst p (r_octet s) 0 in fst (do_reads data l s') = fst (do_reads data l (new_reader p)) /\
     r_pos (snd (do_reads data l s')) = r_pos (snd (do_reads data l (new_reader p))) /\
     r_width (snd (do_reads data l s')) = r_width (snd (do_reads data l (new_reader p)))).
  { intros p s'. destruct (level_reads data l s' (new_reader p)) as [E (E1 & E2 & _)].
    - repeat split. intros G. now elim G.
    - now repeat split. }
  split; [|split].
  - intros x L. apply N.ltb_lt in L. change (2 ^ 63) with 9223372036854775808 in L. rewrite L. eexists. split; [reflexivity|]. apply K.
  - intros x L. apply N.ltb_ge in L. change (2 ^ 63) with 9223372036854775808 in L. rewrite L. now eexists.
  - eexists. split; [reflexivity|]. apply K.
Qed.
Print Assumptions C02_absolute_seek.
(** twelve bits are read from the second byte, four are left; Seek to the third byte, and 24 bits are read *)
Example C02_seek_case :
  let s := snd (read_bits ex_data 12 (new_reader 1)) in
  r_width s = 4 /\ exists s', seek_start 3 s = (Ok 3, s') /\
  do_reads ex_data [WBits (hex "000000") 24] s' = (Ok [hex "c0ffee"], snd (do_reads ex_data [WBits (hex "000000") 24] (new_reader 3))).
Proof. vm_compute. split; [reflexivity|]. eexists. split; reflexivity. Qed.
