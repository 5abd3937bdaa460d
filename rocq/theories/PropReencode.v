(** C62: a box that was read can be written and is the same when read again. *)
From Verif Require Import Base BaseProofs BitIO Schema Structs Methods Registry Marshal Unmarshal
     SpecCodec SpecRoundTrip SpecLossless SpecReencode RoundTripMeta PropRoundTrip PropLossless ReencodeBoxes Vectors.
From Verif Require Import BitIOProofs Decode UnmarshalProofs VersionFacts.
Local Open Scope string_scope.
Local Open Scope list_scope.
Local Open Scope N_scope.

(** The box [x] that Unmarshal made of any payload it accepts, of any registered
    type, in any context, at any place in a stream: Marshal accepts it, and
    wherever its output is put Unmarshal makes the same [x] of it, consuming all
    of it.  The payload need not be canonical: it may have bytes left over,
    strings that end with the box rather than with a NUL, integers of variable
    length with needless groups, a counted handler name, a QuickTime meta box.
    [rewritable] (SpecReencode.v) excludes two kinds of values, for which the
    statement is false (below). *)
Theorem C62_reencode_partial : forall data t size ctx pos d x n pos',
  pos <= lenN data -> lenN data < 2 ^ 45 ->
  unmarshal_any std_registry data t size ctx pos = (Ok (d, x, n), pos') ->
  rewritable d x = true ->
  exists out,
    marshal std_registry t ctx x [] = (Ok (lenN out), out) /\
    forall pre post, lenN pre + lenN out + lenN post < 2 ^ 62 ->
      unmarshal_any std_registry (pre ++ out ++ post) t (lenN out) ctx (lenN pre) =
        (Ok (d, x, lenN out), lenN pre + lenN out).
Proof.
  intros data t size ctx pos d x n pos' Hp Hd H RW.
  assert (Hd' : lenN data < 2 ^ 62).
  { change (2 ^ 45) with 35184372088832 in Hd. change (2 ^ 62) with 4611686018427387904. clear - Hd. lia. }
  pose proof (unmarshal_any_def _ _ _ _ _ _ _ _ _ H) as G.
  destruct (plain_box d) eqn:PB.
  - pose proof (C12_lossless _ _ _ _ _ _ _ _ _ Hp Hd' PB H) as M.
    pose proof (unmarshal_any_decode t ctx d data size pos G Hp Hd') as U. cbv zeta in U.
    rewrite H in U. destruct U as (_ & U & _ & L). apply decoded_fits in U.
    assert (LO : lenN (takeN n (skipN pos data)) = n) by (rewrite lenN_takeN, lenN_skipN; clear - L; lia).
    assert (NM : bd_name d <> "Meta") by (intros E; unfold plain_box in PB; rewrite E in PB; discriminate).
    exists (takeN n (skipN pos data)). rewrite LO. split; [exact M|]. intros pre post LP.
    apply (decoded_again data t size ctx pos d x n pos' (pre ++ takeN n (skipN pos data) ++ post) (lenN pre) n Hp Hd');
      auto.
    + rewrite lenN_app. clear. lia.
    + rewrite !lenN_app, LO. clear - LP. lia.
    + clear. lia.
    + rewrite skipN_app_exact by reflexivity. rewrite takeN_app_exact by (now rewrite LO). reflexivity.
  - pose proof (decoded_well_formed _ _ _ _ _ _ _ _ _ Hp Hd H RW PB) as W.
    exact (C07_round_trip t ctx d x G W).
Qed.
Print Assumptions C62_reencode_partial.

(** What was consumed determines the box: on any stream that has the same [n]
    bytes at the place, and with any announced size from the [n] bytes that were
    consumed up to the one that was announced, Unmarshal makes the same box.
    (Meta boxes are excepted: of a QuickTime meta box nothing is consumed, but
    its first four bytes are looked at.) *)
Theorem C62_consumed_suffices : forall data t size ctx pos d x n pos' data' pos2 size',
  pos <= lenN data -> lenN data < 2 ^ 62 -> size < 2 ^ 61 -> bd_name d <> "Meta" ->
  unmarshal_any std_registry data t size ctx pos = (Ok (d, x, n), pos') ->
  pos2 <= lenN data' -> lenN data' < 2 ^ 62 -> n <= size' <= size ->
  takeN n (skipN pos2 data') = takeN n (skipN pos data) ->
  unmarshal_any std_registry data' t size' ctx pos2 = (Ok (d, x, n), pos2 + n).
Proof.
  intros data t size ctx pos d x n pos' data' pos2 size' Hp Hd Hs NM H Hp2 Hd2 [L1 L2] ET.
  apply (decoded_again data t size ctx pos d x n pos' data' pos2 size'); auto.
  unfold w64, W64. change (2 ^ 61) with 2305843009213693952 in Hs. rewrite N.mod_small; clear - Hs L2; lia.
Qed.
Print Assumptions C62_consumed_suffices.

(** ** The excluded values *)
Definition read_twice (t : string) (payload : list byte) : option (list (string * val) * list byte * list (string * val)) :=
  match unmarshal_any std_registry payload (bt t) (lenN payload) ctx0 0 with
  | (Ok (_, x, _), _) =>
      match marshal std_registry (bt t) ctx0 x [] with
      | (Ok _, out) =>
          match unmarshal_any std_registry out (bt t) (lenN out) ctx0 0 with
          | (Ok (_, y, _), _) => Some (x, out, y)
          | _ => None
          end
      | _ => None
      end
  | _ => None
  end.
Definition rewritable_payload (t : string) (payload : list byte) : option bool :=
  match unmarshal_any std_registry payload (bt t) (lenN payload) ctx0 0 with
  | (Ok (d, x, _), _) => Some (rewritable d x)
  | _ => None
  end.

(** A QuickTime handler name "A\000B" with its count: the part after the NUL is
    lost.  A name of two bytes that begins with the byte 2: its first byte is
    taken for the count. *)
Definition hdlr_head : list byte := hex "000000006d686c7276696465000000000000000000000000".
Theorem C62_name_refuted : exists payload x out y,
  read_twice "hdlr" payload = Some (x, out, y) /\ lookup "Name" x <> lookup "Name" y.
Proof.
  exists (hdlr_head ++ hex "03410042").
  eexists _, _, _. split; [vm_compute; reflexivity|]. vm_compute. discriminate.
Qed.
Theorem C62_name_count_refuted : exists payload x out y,
  read_twice "hdlr" payload = Some (x, out, y) /\ lookup "Name" x <> lookup "Name" y.
Proof.
  exists (hdlr_head ++ hex "02410000").
  eexists _, _, _. split; [vm_compute; reflexivity|]. vm_compute. discriminate.
Qed.
(** A descriptor whose size field has five groups of seven bits and is 2^28. *)
Definition esds_big : list byte := hex "00000000038180808000000100".
Theorem C62_varint_refuted : exists payload x out y,
  read_twice "esds" payload = Some (x, out, y) /\ lookup "Descriptors" x <> lookup "Descriptors" y.
Proof.
  exists esds_big. eexists _, _, _. split; [vm_compute; reflexivity|]. vm_compute. discriminate.
Qed.
Print Assumptions C62_name_refuted.
Print Assumptions C62_name_count_refuted.
Print Assumptions C62_varint_refuted.
Example C62_excluded :
  rewritable_payload "hdlr" (hdlr_head ++ hex "03410042") = Some false /\
  rewritable_payload "hdlr" (hdlr_head ++ hex "02410000") = Some false /\
  rewritable_payload "esds" esds_big = Some false.
Proof. vm_compute. auto. Qed.

(** ** Cases *)
(** A counted name, a name without its NUL, a descriptor size written with a
    needless group, a QuickTime meta box, a data entry location without its NUL:
    none is written as it was read, all are the same when read again. *)
Definition again (t : string) (payload : list byte) : option (bool * bool) :=
  match read_twice t payload with
  | Some (x, out, y) => Some (bytes_eqb payload out, val_eqb (VStruct x) (VStruct y))
  | None => None
  end.
Example C62_cases :
  map (fun p => (again (fst p) (snd p), rewritable_payload (fst p) (snd p)))
    [("hdlr", hdlr_head ++ hex "03414243");
     ("hdlr", hdlr_head ++ hex "414243");
     ("esds", hex "00000000038003000100");
     ("meta", hex "0000001868646c72");
     ("url ", hex "0000000068747470");
     ("emsg", hex "01000000000000010000000000000002000000030000000441004200ff00")] =
  [(Some (false, true), Some true); (Some (false, true), Some true); (Some (false, true), Some true);
   (Some (false, true), Some true); (Some (false, true), Some true); (Some (true, true), Some true)].
Proof. vm_compute. reflexivity. Qed.
(** every payload of the Go unit tests is rewritable *)
Example C62_case_go_tests :
  forallb (fun v => let bin := hex (vc_bin v) in
    match unmarshal_any std_registry bin (vc_type v) (lenN bin) (vc_ctx v) 0 with
    | (Ok (d, x, n), _) => rewritable d x
    | _ => false
    end) vectors = true.
Proof. vm_compute. reflexivity. Qed.
