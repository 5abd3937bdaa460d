(** C06, C08: what Marshal writes, and the count it returns. *)
From Verif Require Import Base BaseProofs BitIO Schema Methods Registry Marshal
     SpecCodec MarshalProofs MarshalCount.
Local Open Scope string_scope.
Local Open Scope list_scope.
Local Open Scope N_scope.

(** C06.  [layout] (SpecCodec.v) is the declared layout of a box: the
    concatenation of the enabled fields.  It is [None] for values that the
    declaration cannot hold (wrong Go type, number too wide, list shorter than
    its count).  The last argument of [marshal] says that no underlying Write
    fails.  [R] is any registration history. *)
Theorem C06_marshal_layout : forall (R : registry) (t : btype) (ctx : context) d v bits,
  get_box_def R t ctx = Some d ->
  layout (bd_name d) (bd_flds d) ctx v = Some bits ->
  lenN bits mod 8 = 0 ->
  exists out, bits_of_bytes out = bits /\ marshal R t ctx v [] = (Ok (lenN out), out).
Proof.
  intros R t ctx d v bits G L A. unfold marshal. rewrite G. exact (marshal_def_ok d ctx v bits L A).
Qed.
Print Assumptions C06_marshal_layout.

Definition fullbox (ver a b c : N) : string * val :=
  ("FullBox", VStruct [("Version", VUint ver); ("Flags", VList [VUint a; VUint b; VUint c])]).

(** An edit list of version 1 with two entries, one of them starting at -1. *)
Definition elst_v1 : fields :=
  let entry d t r := VStruct [("SegmentDurationV0", VUint 0); ("MediaTimeV0", VInt 0);
                      ("SegmentDurationV1", VUint d); ("MediaTimeV1", VInt t);
                      ("MediaRateInteger", VInt r); ("MediaRateFraction", VInt 0)] in
  [fullbox 1 0 0 0; ("EntryCount", VUint 2);
   ("Entries", VList [entry 5000000000 (-1)%Z 1%Z; entry 1000 2%Z (-2)%Z])].
Example C06_case_elst :
  match get_box_def std_registry (bt "elst") ctx0 with
  | Some d => layout (bd_name d) (bd_flds d) ctx0 elst_v1
  | None => None
  end = Some (bits_of_bytes
    (hex "0100000000000002000000012a05f200ffffffffffffffff0001000000000000000003e80000000000000002fffe0000")) /\
  marshal std_registry (bt "elst") ctx0 elst_v1 [] =
    (Ok 48, hex "0100000000000002000000012a05f200ffffffffffffffff0001000000000000000003e80000000000000002fffe0000").
Proof. split; vm_compute; reflexivity. Qed.

(** Optional fields: a tenc box with a constant initialisation vector, and the
    same box without. *)
Definition tenc (per_sample : N) (iv : list N) : fields :=
  [fullbox 1 0 0 0; ("Reserved", VUint 0); ("DefaultCryptByteBlock", VUint 1);
   ("DefaultSkipByteBlock", VUint 9); ("DefaultIsProtected", VUint 1);
   ("DefaultPerSampleIVSize", VUint per_sample);
   ("DefaultKID", VList (map VUint [0;1;2;3;4;5;6;7;8;9;10;11;12;13;14;15]));
   ("DefaultConstantIVSize", VUint 3); ("DefaultConstantIV", VList (map VUint iv))].
Example C06_case_tenc :
  marshal std_registry (bt "tenc") ctx0 (tenc 0 [7;8;9]) [] =
    (Ok 28, hex "0100000000190100000102030405060708090a0b0c0d0e0f03070809") /\
  marshal std_registry (bt "tenc") ctx0 (tenc 8 [7;8;9]) [] =
    (Ok 24, hex "0100000000190108000102030405060708090a0b0c0d0e0f").
Proof. split; vm_compute; reflexivity. Qed.

(** C08.  Any value at all, also one with numbers too wide for their fields or
    too long lists. *)
Theorem C08_marshal_count : forall (t : btype) (ctx : context) v n out,
  marshal std_registry t ctx v [] = (Ok n, out) -> n = lenN out.
Proof. exact std_marshal_count. Qed.
Print Assumptions C08_marshal_count.

(** the same for any registration whose booleans are at most a byte wide *)
Theorem C08_marshal_count_any : forall d (ctx : context) v n out,
  bool_ok_flds (bd_flds d) = true ->
  marshal_def d ctx v [] = (Ok n, out) -> n = lenN out.
Proof. exact marshal_count. Qed.
Print Assumptions C08_marshal_count_any.

(** a count field too wide for its 32 bits and a list longer than the count *)
Example C08_case :
  marshal std_registry (bt "stco") ctx0
    [fullbox 0 0 0 0; ("EntryCount", VUint 1); ("ChunkOffset", VList [VUint 8589934593; VUint 5])] []
  = (Ok 12, hex "000000000000000100000001").
Proof. vm_compute; reflexivity. Qed.
