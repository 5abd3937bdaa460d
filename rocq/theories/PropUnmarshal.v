(** C09, C11, C17: what Unmarshal consumes, what it looks at, and versions.

    [unmarshal_any std_registry data t size ctx pos]: UnmarshalAny on a stream
    with the contents [data], positioned at [pos], for a box of type [t] whose
    payload has [size] bytes; the result comes with the final stream position. *)
From Verif Require Import Base BaseProofs BitIO Schema Methods Registry Marshal Unmarshal
     SpecCodec VersionFacts Decode UnmarshalProofs.
Local Open Scope string_scope.
Local Open Scope list_scope.
Local Open Scope N_scope.

(** C09.  The streams considered are shorter than 2^62 bytes (Go offsets are
    int64) and the position is inside the stream. *)
Theorem C09_unmarshal_count : forall data t size ctx pos d x n pos',
  pos <= lenN data -> lenN data < 2 ^ 62 ->
  unmarshal_any std_registry data t size ctx pos = (Ok (d, x, n), pos') ->
  n <= size /\ pos' = pos + n /\ pos' <= lenN data.
Proof.
  intros data t size ctx pos d x n pos' Hp Hd H.
  pose proof (unmarshal_any_decode t ctx d data size pos
                (unmarshal_any_def _ _ _ _ _ _ _ _ _ H) Hp Hd) as U. cbv zeta in U.
  rewrite H in U. destruct U as (_ & U & -> & L). apply decode_count in U. auto.
Qed.
Print Assumptions C09_unmarshal_count.

(** a payload of 14 bytes of which the stts definition reads 8 *)
Example C09_case :
  exists d x, unmarshal_any std_registry
     (hex "ffff0000000000000000aabbccddeeff") (bt "stts") 14 ctx0 2 = (Ok (d, x, 8), 10).
Proof. do 2 eexists. vm_compute. reflexivity. Qed.

(** C11.  [full_box d]: the struct begins with the embedded FullBox; for every
    registered struct this is the case or there is no FullBox in it at all
    (std_full_box).  An empty version list means that any version will do.
    A meta box is not covered: its first four bytes decide whether it has the
    FullBox fields at all (see C11_meta). *)
Theorem C11_unsupported_rejected : forall data t size ctx pos d ver,
  get_box_def std_registry t ctx = Some d -> full_box d = true -> bd_name d <> "Meta" ->
  pos + 4 <= lenN data -> lenN data < 2 ^ 62 -> nthN pos data = Some ver ->
  bd_versions d <> [] -> ~ In (b2N ver) (bd_versions d) ->
  unmarshal_any std_registry data t size ctx pos = (Err EUnsupportedVersion, pos).
Proof.
  intros data t size ctx pos d ver G F M Hp Hd Hv Hne Hni.
  apply (unsupported_rejected t ctx d data size pos ver); auto.
  unfold version_in. destruct (bd_versions d); [congruence|].
  apply Bool.not_true_iff_false. intros X. apply existsb_exists in X. destruct X as (y & Iy & Ey).
  apply N.eqb_eq in Ey. subst. auto.
Qed.
Print Assumptions C11_unsupported_rejected.

Theorem C11_never_succeeds_unsupported : forall data t size ctx pos d x n pos',
  pos <= lenN data -> lenN data < 2 ^ 62 ->
  unmarshal_any std_registry data t size ctx pos = (Ok (d, x, n), pos') ->
  full_box d = true -> bd_name d <> "Meta" ->
  (bd_versions d = [] \/ In (get_version x) (bd_versions d)) /\
  exists ver, nthN pos data = Some ver /\ get_version x = b2N ver.
Proof.
  intros data t size ctx pos d x n pos' Hp Hd H F M.
  destruct (decoded_version t ctx data size pos d x n pos' Hp Hd H F M) as [V B]. split.
  - unfold version_in in V. destruct (bd_versions d); [now left|right].
    apply existsb_exists in V. destruct V as (y & Iy & Ey). apply N.eqb_eq in Ey. now subst.
  - destruct (nthN pos data) as [ver|]; [|discriminate]. injection B as B. exists ver. auto.
Qed.
Print Assumptions C11_never_succeeds_unsupported.

Example C11_case :
  unmarshal_any std_registry (hex "00000001000000000000000000000000") (bt "trun") 13 ctx0 3
    = (Err EUnsupportedVersion, 3) -> False.
Proof. vm_compute. discriminate. Qed.
Example C11_case_rejected : exists d, get_box_def std_registry (bt "trun") ctx0 = Some d /\
  full_box d = true /\ bd_name d <> "Meta" /\ bd_versions d = [0; 1] /\
  unmarshal_any std_registry (hex "00000002000000000000000000000000") (bt "trun") 13 ctx0 3
    = (Err EUnsupportedVersion, 3).
Proof. eexists. repeat split; vm_compute; congruence. Qed.

(** The exception: a meta box with version 7 is taken for a QuickTime meta box,
    which has no version. *)
Example C11_meta : exists d x,
  unmarshal_any std_registry (hex "07000000") (bt "meta") 4 ctx0 0 = (Ok (d, x, 0), 0) /\
  bd_versions d = [0] /\ get_version x = 0.
Proof. do 2 eexists. repeat split; vm_compute; reflexivity. Qed.

(** C17.  The payload is [takeN size (skipN pos data)].  Full statement: the
    theorem below without the hypothesis on meta boxes; it is false, see
    C17_meta_refuted. *)
Theorem C17_payload_only_partial : forall data1 data2 t size ctx pos1 pos2 d x n pos',
  pos1 <= lenN data1 -> lenN data1 < 2 ^ 62 -> pos2 <= lenN data2 -> lenN data2 < 2 ^ 62 ->
  takeN size (skipN pos1 data1) = takeN size (skipN pos2 data2) ->
  (bd_name d = "Meta" -> 4 <= size) ->
  unmarshal_any std_registry data1 t size ctx pos1 = (Ok (d, x, n), pos') ->
  unmarshal_any std_registry data2 t size ctx pos2 = (Ok (d, x, n), pos2 + n).
Proof. intros. eapply unmarshal_local; [exact H|exact H1|exact H0| | | |]; eauto. Qed.
Print Assumptions C17_payload_only_partial.

Example C17_case : exists d x,
  unmarshal_any std_registry (hex "0000000000000001000000050000000a") (bt "stts") 16 ctx0 0
    = (Ok (d, x, 16), 16) /\
  unmarshal_any std_registry (hex "ffff0000000000000001000000050000000aeeee") (bt "stts") 16 ctx0 2
    = (Ok (d, x, 16), 18).
Proof. do 2 eexists. split; vm_compute; reflexivity. Qed.

(** Without the guard on meta the statement is false: a meta box of 3 bytes is
    read or refused according to the byte after it. *)
Theorem C17_meta_refuted : exists data1 data2 size d x,
  takeN size data1 = takeN size data2 /\
  unmarshal_any std_registry data1 (bt "meta") size ctx0 0 = (Ok (d, x, 0), 0) /\
  fst (unmarshal_any std_registry data2 (bt "meta") size ctx0 0) = Err (EMsg "overrun error").
Proof.
  exists (hex "00000001"), (hex "00000000"), 3. do 2 eexists.
  repeat split; vm_compute; reflexivity.
Qed.
Print Assumptions C17_meta_refuted.

(** Exactly the meta boxes with less than 4 bytes of payload are the exception. *)
Theorem C17_meta_exact : forall size,
  (forall data1 data2 ctx pos1 pos2 d x n pos',
     pos1 <= lenN data1 -> lenN data1 < 2 ^ 62 -> pos2 <= lenN data2 -> lenN data2 < 2 ^ 62 ->
     takeN size (skipN pos1 data1) = takeN size (skipN pos2 data2) ->
     unmarshal_any std_registry data1 (bt "meta") size ctx pos1 = (Ok (d, x, n), pos') ->
     unmarshal_any std_registry data2 (bt "meta") size ctx pos2 = (Ok (d, x, n), pos2 + n)) <->
  4 <= size.
Proof.
  intros size. split.
  - intros H. destruct (N.le_gt_cases 4 size) as [L|L]; [exact L|exfalso].
    assert (G : exists d x, unmarshal_any std_registry (hex "00000001") (bt "meta") size ctx0 0 = (Ok (d, x, 0), 0) /\
                  fst (unmarshal_any std_registry (hex "00000000") (bt "meta") size ctx0 0) = Err (EMsg "overrun error")).
    { assert (C : size = 0 \/ size = 1 \/ size = 2 \/ size = 3) by lia.
      destruct C as [-> | [-> | [-> | ->]]]; do 2 eexists; split; vm_compute; reflexivity. }
    destruct G as (d & x & G1 & G2).
    assert (E : takeN size (skipN 0 (hex "00000001")) = takeN size (skipN 0 (hex "00000000"))).
    { assert (C : size = 0 \/ size = 1 \/ size = 2 \/ size = 3) by lia.
      destruct C as [-> | [-> | [-> | ->]]]; vm_compute; reflexivity. }
    specialize (H (hex "00000001") (hex "00000000") ctx0 0 0 d x 0 0).
    rewrite H in G2; [discriminate G2|vm_compute; congruence|vm_compute; reflexivity|vm_compute; congruence|vm_compute; reflexivity|exact E|exact G1].
  - intros L data1 data2 ctx pos1 pos2 d x n pos' H1 H2 H3 H4 E U.
    eapply C17_payload_only_partial; [exact H1|exact H2|exact H3|exact H4|exact E|auto|exact U].
Qed.
Print Assumptions C17_meta_exact.
