(** C69: an error of Seek does not go unnoticed either: the operation fails, with
    that error or with one of two of the package's own. *)
From Verif Require Import Base BaseProofs BitIO Schema Structs Registry Unmarshal BoxInfo ReadTree Extract Probe Text Stringify Tool Stream PropStream
  AnyReader AnyReaderProofs PropAnyReader Failing SpecFailing FailingProofs PropFailing.
Local Open Scope string_scope.
Local Open Scope list_scope.
Local Open Scope N_scope.
Local Open Scope monad_scope.

Section Ops.
  Variables (m : manner) (fails : nat -> bool) (e0 e1 : err) (free lands : nat -> N) (data : list byte).
  Variable c0 : nat.
  Lemma of_seek_fails : forall A (z : M rst A), or_fails (reported e0 e1) (bad fails c0) (since c0) (f_seek fails e1 lands z) z.
  Proof.
    intros A z s r [E L]. subst r. unfold f_seek. destruct (fails (s_calls s)) eqn:G.
    - left. apply failed_i; [right; now left|]. exists (s_calls s). cbn [s_calls]. split; [split; [exact L|apply Nat.lt_succ_diag_r]|exact G].
    - right. destruct (z (s_r s)) as [a r]. split; [reflexivity|]. split; [reflexivity|]. cbn [s_calls snd]. now apply Nat.le_le_succ_r.
  Qed.
  Lemma more_errors : forall A (x : M sst A) (z : M rst A),
    or_fails (eq e0) (bad fails c0) (since c0) x z -> or_fails (reported e0 e1) (bad fails c0) (since c0) x z.
  Proof.
    intros A x z X s r H. destruct (X s r H) as [[(e & Ee & E) B]|K]; [left|now right].
    split; [exists e; split; [left; now symmetry|exact E]|exact B].
  Qed.
  Hypothesis ne : e0 <> EEOF.
  Lemma faulty_may_fail : forall fuel, fair m free data fuel ->
    may_fail (reported e0 e1) (faulty_reader m fails e0 free data e1 lands fuel) data (bad fails c0) (bad_t fails c0) (since c0) (since_t c0).
  Proof.
    intros fuel H. pose proof (failing_may_fail m fails e0 free data ne c0 fuel H) as F.
    split; cbn [o_new o_under o_bits o_full o_copy o_string o_cur o_end o_start o_move faulty_reader].
    - exact (m_new _ _ _ _ _ _ _ F).
    - exact (m_under _ _ _ _ _ _ _ F).
    - intros n. apply more_errors, (m_bits _ _ _ _ _ _ _ F).
    - intros n. apply more_errors, (m_full _ _ _ _ _ _ _ F).
    - intros n. apply more_errors, (m_copy _ _ _ _ _ _ _ F).
    - apply more_errors, (m_string _ _ _ _ _ _ _ F).
    - intros s r K. unfold f_seek_cur. destruct (r_width (s_r s) =? 0); [now apply of_seek_fails|right; now apply of_seek].
    - apply of_seek_fails.
    - intros x. apply of_seek_fails.
    - intros f. apply of_seek_fails.
    - exact (m_bad _ _ _ _ _ _ _ F).
    - intros f [pos calls] B. unfold attempt, raw. cbn [o_new o_under o_move faulty_reader failing_reader stream_reader fst snd].
      unfold f_seek. cbn [s_calls s_r]. destruct (fails calls); (split; [eexists; reflexivity|]); cbn [fst snd s_r s_calls];
        (eapply failed_more; [exact B|apply Nat.le_refl|cbn; apply Nat.le_succ_diag_r]).
    - left. right. right. now left.
    - left. right. right. now right.
  Qed.
End Ops.
Lemma ros_of : forall A fails e0 e1 (x : M (N * nat) A) y,
  (forall c0, or_fails (reported e0 e1) (bad_t fails c0) (since_t c0) x y) -> reports_or_same fails e0 e1 x y.
Proof.
  intros A fails e0 e1 x y X pos calls. specialize (X calls (pos, calls) pos (conj eq_refl (Nat.le_refl _))).
  destruct (x (pos, calls)) as [r [pos' calls']]. exists r, pos', calls'. split; [reflexivity|].
  destruct X as [[(e & Ee & E) B]|[E [K L]]]; [left; split; [now exists e|exact B]|right]. cbn [fst snd] in *. subst. now destruct (y pos).
Qed.
Lemma ros_with_of : forall St A fails e0 e1 (x : M ((N * nat) * St) A) y,
  (forall c0, or_fails (reported e0 e1) (BP (bad_t fails c0)) (QP (since_t c0)) x y) -> reports_or_same_with fails e0 e1 x y.
Proof.
  intros St A fails e0 e1 x y X pos calls st. specialize (X calls ((pos, calls), st) (pos, st) (conj (conj eq_refl (Nat.le_refl _)) eq_refl)).
  destruct (x ((pos, calls), st)) as [r [[pos' calls'] st']]. exists r, pos', calls', st'. split; [reflexivity|].
  destruct X as [[(e & Ee & E) B]|[E [[K L] K2]]]; [left; split; [now exists e|exact B]|right]. cbn [fst snd] in *. subst. now destruct (y (pos, st)) as [? []].
Qed.
Lemma no_eof : forall e0 e1, e0 <> EEOF -> e1 <> EEOF -> ~ reported e0 e1 EEOF.
Proof. intros e0 e1 n0 n1 [E|[E|[E|E]]]; congruence. Qed.

(** ** The operations.  Unmarshal into any struct with any content, and UnmarshalAny
    with any registry *)
Theorem C69_unmarshal : forall m fails e0 e1 free lands data fuel, fair m free data fuel -> e0 <> EEOF -> e1 <> EEOF ->
  let O := faulty_reader m fails e0 free data e1 lands fuel in
  (forall d size ctx dst, reports_or_same fails e0 e1 (g_unmarshal O (loop_fuel data) d size ctx dst) (unmarshal_def d data size ctx dst)) /\
  (forall R t size ctx, reports_or_same fails e0 e1 (g_unmarshal_any O (loop_fuel data) R t size ctx) (unmarshal_any R data t size ctx)).
Proof.
  intros m fails e0 e1 free lands data fuel H ne ne1 O. split; intros; apply ros_of; intros c0;
    pose proof (faulty_may_fail m fails e0 e1 free lands data c0 ne fuel H) as F.
  - exact (e_unmarshal _ _ _ _ _ _ _ F d size ctx dst).
  - exact (e_unmarshal_any _ _ _ _ _ _ _ F R t size ctx).
Qed.
Print Assumptions C69_unmarshal.
(** ReadBoxInfo; ReadBoxStructure and ReadBoxStructureFromInternal with any handler
    that returns the errors that ReadPayload, ReadData or Expand give it *)
Theorem C69_traversal : forall m fails e0 e1 free lands data fuel, fair m free data fuel -> e0 <> EEOF -> e1 <> EEOF ->
  let O := faulty_reader m fails e0 free data e1 lands fuel in
  reports_or_same fails e0 e1 (g_read_box_info O) (read_box_info data) /\
  forall R St V P (h : handler_t St V P),
    (forall e, reported e0 e1 e -> forall bi pth params s, passes e (h bi pth params s)) -> forall params,
    reports_or_same_with fails e0 e1 (g_read_box_structure O (loop_fuel data) (tree_fuel data) R h params)
                       (read_box_structure R data h params) /\
    forall bi, reports_or_same_with fails e0 e1 (g_read_box_structure_from_internal O (loop_fuel data) (tree_fuel data) R h bi params)
                       (read_box_structure_from_internal R data h bi params).
Proof.
  intros m fails e0 e1 free lands data fuel H ne ne1 O. pose proof (no_eof e0 e1 ne ne1) as N.
  split; [|intros R St V P h W params; split; [|intros bi]];
    [apply ros_of|apply ros_with_of..]; intros c0; pose proof (faulty_may_fail m fails e0 e1 free lands data c0 ne fuel H) as F.
  - exact (e_read_box_info _ _ _ _ _ _ _ F).
  - exact (e_read_box_structure _ _ _ _ _ _ _ F N R h W params).
  - exact (e_read_box_structure_from_internal _ _ _ _ _ _ _ F N R h W bi params).
Qed.
Print Assumptions C69_traversal.
(** ExtractBoxes, ExtractBoxesWithPayload, Probe and FindIDRFrames *)
Theorem C69_probe : forall m fails e0 e1 free lands data fuel, fair m free data fuel -> e0 <> EEOF -> e1 <> EEOF ->
  let O := faulty_reader m fails e0 free data e1 lands fuel in
  (forall R parent paths,
    reports_or_same fails e0 e1 (g_extract_boxes O (loop_fuel data) (tree_fuel data) R parent paths) (extract_boxes R data parent paths) /\
    reports_or_same fails e0 e1 (g_extract_boxes_with_payload O (loop_fuel data) (tree_fuel data) R parent paths)
                  (extract_boxes_with_payload R data parent paths)) /\
  (forall R, reports_or_same fails e0 e1 (g_probe O (loop_fuel data) (tree_fuel data) R) (probe R data)) /\
  (forall n tr, reports_or_same fails e0 e1 (g_find_idr_frames O n tr) (find_idr_frames_fuel data n tr)).
Proof.
  intros m fails e0 e1 free lands data fuel H ne ne1 O. pose proof (no_eof e0 e1 ne ne1) as N.
  split; [intros; split|split; intros]; apply ros_of; intros c0; pose proof (faulty_may_fail m fails e0 e1 free lands data c0 ne fuel H) as F.
  - exact (e_extract_boxes _ _ _ _ _ _ _ F N R parent paths).
  - exact (e_extract_boxes_with_payload _ _ _ _ _ _ _ F N R parent paths).
  - exact (e_probe _ _ _ _ _ _ _ F N R).
  - exact (e_find_idr_frames _ _ _ _ _ _ _ F n tr).
Qed.
Print Assumptions C69_probe.

(** ** What does not hold.  A file of a free box and a tfdt box; the handler reads
    each payload and returns how many bytes it is. *)
Definition reading : handler_t unit N unit := fun _ _ _ s =>
  HReadPayload (fun r => match r with Ok (_, _, n) => HRet s n | Err e => HFail s e | _ => HFail s EEOF end).
Definition jammed : err := EMsg "seek: input/output error".
Definition scan_seeking (e1 : err) (fails : nat -> bool) : res (list N) :=
  fst (g_read_box_structure (faulty_reader (fun _ => (100, false)) fails broken (fun _ => 512) tfdt_file e1 (fun _ => 3) 100)
    (loop_fuel tfdt_file) (tree_fuel tfdt_file) std_registry reading tt ((0, 0%nat), tt)).
Lemma reading_passes : forall e bi pth params s, passes e (reading bi pth params s).
Proof. intros e bi pth params s. cbn. split; [eexists; reflexivity|]. intros [[[d x] n]|e'| |]; exact I. Qed.
(** The error of Seek need not be the one that is returned: readerHasSize
    (marshaller.go:20-37) drops it, and the caller learns that there are not enough
    bits in a payload that is complete. *)
Theorem C69_masked_refuted :
  fair (fun _ => (100, false)) (fun _ => 512) tfdt_file 100 /\
  (forall e bi pth params s, passes e (reading bi pth params s)) /\
  fst (read_box_structure std_registry tfdt_file reading tt (0, tt)) = Ok [0; 8] /\
  scan_seeking jammed (fun i => Nat.eqb i 6) = Err (EMsg "not enough bits").
Proof.
  split; [split; [intros i; cbn; lia|split; [intros i; reflexivity|split; [intros; lia|vm_compute; reflexivity]]]|].
  split; [exact reading_passes|]. vm_compute. split; reflexivity.
Qed.
Print Assumptions C69_masked_refuted.
(** A Seek that fails with io.EOF ends ReadBoxStructure successfully, without the
    tfdt box. *)
Theorem C69_eof_refuted :
  fair (fun _ => (100, false)) (fun _ => 512) tfdt_file 100 /\
  scan_seeking EEOF (fun i => Nat.eqb i 10) = Ok [0] /\
  fst (read_box_structure std_registry tfdt_file reading tt (0, tt)) = Ok [0; 8].
Proof.
  split; [split; [intros i; cbn; lia|split; [intros i; reflexivity|split; [intros; lia|vm_compute; reflexivity]]]|].
  vm_compute. split; reflexivity.
Qed.
Print Assumptions C69_eof_refuted.

(** A reader that meets the hypotheses of the theorems: one of its calls fails, the one listed. *)
Example C69_case :
  fair (fun _ => (100, false)) (fun _ => 512) tfdt_file 100 /\ broken <> EEOF /\ jammed <> EEOF /\
  map (fun k => scan_seeking jammed (fun i => Nat.eqb i k)) [0; 1; 2; 9; 14; 15; 23; 24]%nat =
    [Err jammed; Err jammed; Ok [0; 8]; Err jammed; Err jammed; Err broken; Err jammed; Err jammed].
Proof.
  split; [split; [intros i; cbn; lia|split; [intros i; reflexivity|split; [intros; lia|vm_compute; reflexivity]]]|].
  split; [discriminate|]. split; [discriminate|]. vm_compute. reflexivity.
Qed.
