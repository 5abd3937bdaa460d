(** C01, C02: bit level input and output. *)
From Verif Require Import Base BitIO SpecBitIO BitIOFacts.

(** C01.  Any sequence of writes that fills whole bytes succeeds; the bytes are
    the concatenation of the bit groups; reading them back with the same widths
    from anywhere in a stream gives the values and stops right behind them. *)
Theorem C01_bit_round_trip : forall l pre post,
  ops_ok 0 l -> lenN (flat_map op_bits l) mod 8 = 0 ->
  exists s s',
    do_writes l (new_writer []) = (Ok tt, s) /\
    bits_of_bytes (w_out s) = flat_map op_bits l /\
    do_reads (pre ++ w_out s ++ post) l (new_reader (lenN pre)) = (Ok (map op_value l), s') /\
    r_pos s' = lenN pre + lenN (w_out s) /\ r_width s' = 0.
Proof. exact bit_round_trip. Qed.
Print Assumptions C01_bit_round_trip.

(** Without padding, exactly the complete bytes have reached the writer. *)
Theorem C01_complete_bytes : forall l, ops_ok 0 l ->
  exists s, do_writes l (new_writer []) = (Ok tt, s) /\
    bits_of_bytes (w_out s) =
      takeN (8 * (lenN (flat_map op_bits l) / 8)) (flat_map op_bits l).
Proof. exact writer_emits_prefix. Qed.
Print Assumptions C01_complete_bytes.

Definition ex_ops : list wop :=
  [WBit true; WBits (hex "ff35") 11; WBits (hex "0a") 4; WBytes (hex "c0ffee"); WBits (hex "7") 0;
   WBits (hex "123456") 24].
Example C01_hypotheses : ops_ok 0 ex_ops /\ lenN (flat_map op_bits ex_ops) mod 8 = 0.
Proof. vm_compute. repeat split; discriminate. Qed.
Example C01_values : map op_value ex_ops =
  [hex "01"; hex "0735"; hex "0a"; hex "c0ffee"; []; hex "123456"].
Proof. vm_compute. reflexivity. Qed.
Example C01_bytes : w_out (snd (do_writes ex_ops (new_writer []))) = hex "f35ac0ffee123456".
Proof. vm_compute. reflexivity. Qed.

(** C02.  After any sequence of writes, a byte-wise write in the middle of a byte
    is refused and changes nothing; at a byte boundary it is passed through. *)
Theorem C02_unaligned_write : forall l p, ops_ok 0 l ->
  exists s, do_writes l (new_writer []) = (Ok tt, s) /\
    (lenN (flat_map op_bits l) mod 8 <> 0 -> wr_write p s = (Err EAlign, s)) /\
    (lenN (flat_map op_bits l) mod 8 = 0 ->
       exists s', wr_write p s = (Ok tt, s') /\ w_out s' = w_out s ++ p).
Proof. exact unaligned_write. Qed.
Print Assumptions C02_unaligned_write.

(** After any successful sequence of reads, a byte-wise read (io.ReadFull or
    io.CopyN) or a relative seek in the middle of a byte is refused and changes
    nothing; at a byte boundary they act on the stream at the byte reached.
    (io.CopyN with a negative count does nothing at all.) *)
Theorem C02_unaligned_read : forall data pos l n rest,
  ops_ok 0 l -> 0 < n ->
  bits_of_bytes (skipN pos data) = flat_map op_bits l ++ rest ->
  exists v s, do_reads data l (new_reader pos) = (Ok v, s) /\
    (lenN (flat_map op_bits l) mod 8 <> 0 ->
       read_full data n s = (Err EAlign, s) /\ copy_n data n s =
         (if 9223372036854775808 <=? n then Ok [] else Err EAlign, s) /\
       seek_cur0 s = (Err EAlign, s)) /\
    (lenN (flat_map op_bits l) mod 8 = 0 ->
       let p := pos + lenN (flat_map op_bits l) / 8 in
       seek_cur0 s = (Ok p, s) /\
       (n <= lenN data - p ->
        exists s', read_full data n s = (Ok (takeN n (skipN p data)), s') /\ r_pos s' = p + n)).
Proof. exact unaligned_read. Qed.
Print Assumptions C02_unaligned_read.

Definition ex_data : list byte := hex "00f35ac0ffee12345699".
Example C02_hypotheses :
  ops_ok 0 (firstn 2 ex_ops) /\
  bits_of_bytes (skipN 1 ex_data) =
    flat_map op_bits (firstn 2 ex_ops) ++ skipn 12 (bits_of_bytes (skipN 1 ex_data)) /\
  lenN (flat_map op_bits (firstn 2 ex_ops)) mod 8 = 4.
Proof. vm_compute. repeat split; discriminate. Qed.
