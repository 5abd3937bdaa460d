(** C70: the commands of mp4tool on a file that cannot be read to the end: edit, probe,
    extract and psshdump fail with the error of the reader, or write what they write
    for the contents of the file.  Not so extract when Seek fails. *)
From Verif Require Import Base BaseProofs BitIO Schema Structs Registry Unmarshal BoxInfo ReadTree Extract Text Tool ProbeTool Edit Stream PropStream
  AnyReader AnyReaderProofs PropAnyReader Failing SpecFailing FailingProofs PropFailing PropSeekFails ToolReader ToolReaderProofs.
Local Open Scope string_scope.
Local Open Scope list_scope.
Local Open Scope N_scope.

Lemma fow_of : forall Out fails (E : err -> Prop) x (y : res unit * Out),
  (forall c0 t, since_t c0 t 0 -> gives E (bad_t fails c0) (x t) y) -> fails_or_writes fails E x y.
Proof.
  intros Out fails E x y X calls. specialize (X calls (0, calls) (conj eq_refl (Nat.le_refl _))).
  destruct (x (0, calls)) as [[r out] [pos' calls']]. exists r, out, pos', calls'. split; [reflexivity|].
  destruct X as [(e & Ee & K & B)|K]; [left|right; exact K]. split; [now exists e|exact B].
Qed.

(** mp4tool edit with any options: when Read fails, and when Seek may fail too *)
Theorem C70_edit : forall m fails e0 free data fuel, fair m free data fuel -> e0 <> EEOF -> lenN data < 2 ^ 63 -> forall cfg,
  fails_or_writes fails (eq e0)
    (t_edit_file (failing_reader m fails e0 free data fuel) (loop_fuel data) (tree_fuel data) cfg) (edit_file cfg data) /\
  forall e1 lands, e1 <> EEOF ->
  fails_or_writes fails (reported e0 e1)
    (t_edit_file (faulty_reader m fails e0 free data e1 lands fuel) (loop_fuel data) (tree_fuel data) cfg) (edit_file cfg data).
Proof.
  intros m fails e0 free data fuel H ne L cfg. split; [|intros e1 lands ne1]; apply fow_of; intros c0 t HT.
  - exact (edit_gives _ _ _ _ _ _ _ (failing_may_fail m fails e0 free data ne c0 fuel H) ne L cfg t HT).
  - exact (edit_gives _ _ _ _ _ _ _ (faulty_may_fail m fails e0 e1 free lands data c0 ne fuel H) (no_eof e0 e1 ne ne1) L cfg t HT).
Qed.
Print Assumptions C70_edit.
(** mp4tool psshdump, likewise *)
Theorem C70_psshdump : forall m fails e0 free data fuel, fair m free data fuel -> e0 <> EEOF ->
  fails_or_writes fails (eq e0)
    (t_psshdump_tool (failing_reader m fails e0 free data fuel) (loop_fuel data) (tree_fuel data)) (psshdump_tool data) /\
  forall e1 lands, e1 <> EEOF ->
  fails_or_writes fails (reported e0 e1)
    (t_psshdump_tool (faulty_reader m fails e0 free data e1 lands fuel) (loop_fuel data) (tree_fuel data)) (psshdump_tool data).
Proof.
  intros m fails e0 free data fuel H ne. split; [|intros e1 lands ne1]; apply fow_of; intros c0 t HT.
  - exact (psshdump_gives _ _ _ _ _ _ _ (failing_may_fail m fails e0 free data ne c0 fuel H) ne t HT).
  - exact (psshdump_gives _ _ _ _ _ _ _ (faulty_may_fail m fails e0 e1 free lands data c0 ne fuel H) (no_eof e0 e1 ne ne1) t HT).
Qed.
Print Assumptions C70_psshdump.
(** the report of mp4tool probe, likewise *)
Theorem C70_probe : forall m fails e0 free data fuel, fair m free data fuel -> e0 <> EEOF ->
  fails_or_same fails e0 (t_build_report (failing_reader m fails e0 free data fuel) (loop_fuel data) (tree_fuel data)) (build_report data) /\
  forall e1 lands, e1 <> EEOF ->
  reports_or_same fails e0 e1 (t_build_report (faulty_reader m fails e0 free data e1 lands fuel) (loop_fuel data) (tree_fuel data))
    (build_report data).
Proof.
  intros m fails e0 free data fuel H ne. split; [apply fos_of|intros e1 lands ne1; apply ros_of]; intros c0.
  - exact (report_same _ _ _ _ _ _ _ (failing_may_fail m fails e0 free data ne c0 fuel H) ne).
  - exact (report_same _ _ _ _ _ _ _ (faulty_may_fail m fails e0 e1 free lands data c0 ne fuel H) (no_eof e0 e1 ne ne1)).
Qed.
Print Assumptions C70_probe.
(** mp4tool extract of any box type, when Read fails.  The handler takes
    ErrUnsupportedBoxVersion for a box it cannot parse and goes on, so [e0] must not
    be this error. *)
Theorem C70_extract_partial : forall m fails e0 free data fuel, fair m free data fuel -> e0 <> EEOF -> e0 <> EUnsupportedVersion ->
  lenN data < 2 ^ 63 -> forall boxType,
  fails_or_writes fails (eq e0)
    (t_extract_tool (failing_reader m fails e0 free data fuel) (loop_fuel data) (tree_fuel data) boxType) (extract_tool data boxType).
Proof.
  intros m fails e0 free data fuel H ne nv L boxType. apply fow_of; intros c0 t HT.
  refine (extract_gives _ _ _ _ _ _ _ (failing_may_fail m fails e0 free data ne c0 fuel H) ne L _ nv boxType t HT).
  intros x. apply of_seek.
Qed.
Print Assumptions C70_extract_partial.

(** When Seek may fail it does not hold.  The file is a free box and a tfdt box, and
    the free box is extracted.  One call of Seek fails, the one that moves back to the
    start of the box, and leaves the stream at the fourth byte.  The command ignores the
    error (extract.go:59), prints eight bytes that are not the box, and succeeds. *)
Definition copying (e1 : err) (lands : N) (fails : nat -> bool) : res unit * list byte :=
  fst (t_extract_tool (faulty_reader (fun _ => (100, false)) fails broken (fun _ => 512) tfdt_file e1 (fun _ => lands) 100)
    (loop_fuel tfdt_file) (tree_fuel tfdt_file) (bt "free") (0, 0%nat)).
Theorem C70_extract_seek_refuted :
  fair (fun _ => (100, false)) (fun _ => 512) tfdt_file 100 /\ broken <> EEOF /\ jammed <> EEOF /\
  copying jammed 3 (fun i => Nat.eqb i 4) = (Ok tt, hex "0866726565000000") /\
  extract_tool tfdt_file (bt "free") = (Ok tt, hex "0000000866726565").
Proof.
  split; [split; [intros i; cbn; lia|split; [intros i; reflexivity|split; [intros; lia|vm_compute; reflexivity]]]|].
  split; [discriminate|]. split; [discriminate|]. vm_compute. split; reflexivity.
Qed.
Print Assumptions C70_extract_seek_refuted.

(** The same file edited, the base decode time of the tfdt box set to 86: a call of
    Read or of Seek fails, the one listed; and the file without its free box, when no
    call fails and the reader delivers one byte or two. *)
Definition editing (cfg : config) (m : manner) (fails : nat -> bool) : res unit * list byte :=
  fst (t_edit_file (faulty_reader m fails broken (fun _ => 512) tfdt_file jammed (fun _ => 3) 100)
    (loop_fuel tfdt_file) (tree_fuel tfdt_file) cfg (0, 0%nat)).
Example C70_case :
  fair (fun _ => (100, false)) (fun _ => 512) tfdt_file 100 /\ broken <> EEOF /\ broken <> EUnsupportedVersion /\ jammed <> EEOF /\
  lenN tfdt_file < 2 ^ 63 /\
  edit_file (mkcfg 86 []) tfdt_file = (Ok tt, hex "00000008667265650000001074666474" ++ hex "0000000000000056") /\
  map (fun k => fst (editing (mkcfg 86 []) (fun _ => (100, false)) (fun i => Nat.eqb i k))) [0; 2; 6; 16; 27; 28]%nat =
    [Err jammed; Ok tt; Err (EMsg "not enough bits"); Err broken; Err broken; Ok tt] /\
  editing (mkcfg 86 [bt "free"]) (fun i => (if Nat.even i then 1 else 2, false)) (fun _ => false) =
    (Ok tt, hex "0000001074666474" ++ hex "0000000000000056").
Proof.
  split; [split; [intros i; cbn; lia|split; [intros i; reflexivity|split; [intros; lia|vm_compute; reflexivity]]]|].
  split; [discriminate|]. split; [discriminate|]. split; [discriminate|]. split; [reflexivity|]. vm_compute. repeat split.
Qed.
