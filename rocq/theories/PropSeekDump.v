(** C69 for mp4tool dump, which goes on after ErrUnsupportedBoxVersion: an error of
    Seek does not go unnoticed there either. *)
From Verif Require Import Base BaseProofs BitIO Schema Structs Registry Unmarshal BoxInfo ReadTree Text GoText Stringify Tool Stream PropStream
  AnyReader AnyReaderProofs PropAnyReader Failing SpecFailing FailingProofs DriftProofs PropFailing PropSeekFails.
Local Open Scope string_scope.
Local Open Scope list_scope.
Local Open Scope N_scope.
Local Open Scope monad_scope.

Section Ops.
  Variables (m : manner) (fails : nat -> bool) (e0 e1 : err) (free lands : nat -> N) (data : list byte).
  Variable c0 : nat.
  Lemma but_seek : forall A (z : M rst A), or_fails (reported_but e0 e1) (bad fails c0) (since c0) (f_seek fails e1 lands z) z.
  Proof.
    intros A z s r [E L]. subst r. unfold f_seek. destruct (fails (s_calls s)) eqn:G.
    - left. apply failed_i; [right; now left|]. exists (s_calls s). cbn [s_calls]. split; [split; [exact L|apply Nat.lt_succ_diag_r]|exact G].
    - right. destruct (z (s_r s)) as [a r]. split; [reflexivity|]. split; [reflexivity|]. cbn [s_calls snd]. now apply Nat.le_le_succ_r.
  Qed.
  Lemma but_more : forall A (x : M sst A) (z : M rst A),
    or_fails (eq e0) (bad fails c0) (since c0) x z -> or_fails (reported_but e0 e1) (bad fails c0) (since c0) x z.
  Proof.
    intros A x z X s r H. destruct (X s r H) as [[(e & Ee & E) B]|K]; [left|now right].
    split; [exists e; split; [left; now symmetry|exact E]|exact B].
  Qed.
  Hypothesis ne : e0 <> EEOF.
  Lemma calm_may_fail : forall fuel, fair m free data fuel ->
    may_fail (reported_but e0 e1)
      (calm (faulty_reader m fails e0 free data e1 lands fuel) (o_move (failing_reader m fails e0 free data fuel)))
      data (bad fails c0) (bad_t fails c0) (since c0) (since_t c0).
  Proof.
    intros fuel H. pose proof (failing_may_fail m fails e0 free data ne c0 fuel H) as F.
    split; cbn [calm o_new o_under o_bits o_full o_copy o_string o_cur o_end o_start o_move faulty_reader].
    - exact (m_new _ _ _ _ _ _ _ F).
    - exact (m_under _ _ _ _ _ _ _ F).
    - intros n. apply but_more, (m_bits _ _ _ _ _ _ _ F).
    - intros n. apply but_more, (m_full _ _ _ _ _ _ _ F).
    - intros n. apply but_more, (m_copy _ _ _ _ _ _ _ F).
    - apply but_more, (m_string _ _ _ _ _ _ _ F).
    - intros s r K. unfold f_seek_cur. destruct (r_width (s_r s) =? 0); [now apply but_seek|right; now apply of_seek].
    - apply but_seek.
    - intros x. apply but_seek.
    - intros f. apply but_more, (m_move _ _ _ _ _ _ _ F).
    - exact (m_bad _ _ _ _ _ _ _ F).
    - exact (m_moves _ _ _ _ _ _ _ F).
    - left. right. now right.
    - right. intros f. apply (of_seek c0 unit (fun s => (Ok tt, mkrst (f (r_pos s)) (r_octet s) (r_width s)))).
  Qed.
End Ops.

(** ReadBoxStructure with any handler that returns the errors that ReadPayload, ReadData
    or Expand give it, or all but ErrUnsupportedBoxVersion *)
Theorem C69_handlers : forall m fails e0 e1 free lands data fuel, fair m free data fuel ->
  e0 <> EEOF -> e1 <> EEOF -> e0 <> EUnsupportedVersion -> e1 <> EUnsupportedVersion ->
  forall R St V P (h : handler_t St V P), (forall e, reported_but e0 e1 e -> forall bi pth params s, passes e (h bi pth params s)) -> forall params,
  reports_or_does fails e0 e1
    (g_read_box_structure (faulty_reader m fails e0 free data e1 lands fuel) (loop_fuel data) (tree_fuel data) R h params)
    (read_box_structure R data h params).
Proof.
  intros m fails e0 e1 free lands data fuel H ne ne1 nv nv1 R St V P h W params pos calls st.
  pose proof (calm_may_fail m fails e0 e1 free lands data calls ne fuel H) as F.
  assert (D : forall t, bad_t fails calls t -> exists n, since_t calls t n).
  { intros t (i & [I1 I2] & _). exists (fst t). split; [reflexivity|]. apply Nat.lt_le_incl. now apply Nat.le_lt_trans with i. }
  assert (N1 : ~ reported_but e0 e1 EEOF) by (intros [E|[E|E]]; congruence).
  assert (N2 : ~ reported_but e0 e1 EUnsupportedVersion) by (intros [E|[E|E]]; congruence).
  pose proof (p_read_box_structure (reported_but e0 e1) _ data _ _ _ _ _ F (fun f => but_seek fails e0 e1 lands calls _ _) D N1 N2 R h W params
    (pos, calls) pos st (ex_intro _ pos (conj eq_refl (Nat.le_refl _)))) as K.
  destruct (g_read_box_structure _ _ _ _ _ _ _) as [r [[pos' calls'] st']]. exists r, pos', calls', st'. split; [reflexivity|].
  destruct K as [[(e & Ee & E) B]|(E & _ & ES & L)]; cbn [fst snd] in *; [left; split; [exists e; now split|exact B]|right].
  split; [exact E|]. split; [exact ES|]. intros a Ea. exact (proj1 (L a Ea)).
Qed.
Print Assumptions C69_handlers.
(** mp4tool dump: the text it prints is in the state *)
Theorem C69_dump : forall m fails e0 e1 free lands data fuel graphic cfg, fair m free data fuel ->
  e0 <> EEOF -> e1 <> EEOF -> e0 <> EUnsupportedVersion -> e1 <> EUnsupportedVersion ->
  reports_or_does fails e0 e1
    (g_read_box_structure (faulty_reader m fails e0 free data e1 lands fuel) (loop_fuel data) (tree_fuel data) std_registry (dump_handler graphic cfg) tt)
    (read_box_structure std_registry data (dump_handler graphic cfg) tt).
Proof.
  intros m fails e0 e1 free lands data fuel graphic cfg H ne ne1 nv nv1.
  apply (C69_handlers m fails e0 e1 free lands data fuel H ne ne1 nv nv1). intros e Ee.
  assert (NV : e <> EUnsupportedVersion) by (destruct Ee as [E|[E|E]]; congruence).
  apply dump_passes. exact NV.
Qed.
Print Assumptions C69_dump.

(** A traf box with a tfdt box of version 2, which is not supported, dumped with -a.
    When the 17th call fails, the Seek that moves back after the version, dump prints
    what it prints when no call fails; when others fail, it fails. *)
Definition tfdt2 : list byte := hex "0000001874726166" ++ hex "0000001074666474" ++ hex "0200000000000005".
Definition dumping (fails : nat -> bool) : res unit * text :=
  let (r, x) := g_read_box_structure (faulty_reader (fun _ => (100, false)) fails broken (fun _ => 512) tfdt2 jammed (fun _ => 3) 100)
    (loop_fuel tfdt2) (tree_fuel tfdt2) std_registry (dump_handler (fun _ => false) (dump_options [] true false false false false 80)) tt
    ((0, 0%nat), mktst [] false) in
  (match r with Ok _ => Ok tt | Err e => Err e | Panic => Panic | OutOfFuel => OutOfFuel end, t_out (snd x)).
Definition dumped : text :=
  lit "[traf] Size=24" ++ [N2b 10] ++
  lit "  [tfdt] Size=16 (unsupported box version) Data=[0x02 0x00 0x00 0x00 0x00 0x00 0x00 0x05]" ++ [N2b 10].
Example C69_dump_case :
  fair (fun _ => (100, false)) (fun _ => 512) tfdt2 100 /\
  broken <> EEOF /\ jammed <> EEOF /\ broken <> EUnsupportedVersion /\ jammed <> EUnsupportedVersion /\
  dump_tool (fun _ => false) (dump_options [] true false false false false 80) tfdt2 = (Ok tt, dumped) /\
  dumping (fun _ => false) = (Ok tt, dumped) /\ dumping (fun i => Nat.eqb i 16) = (Ok tt, dumped) /\
  map (fun k => fst (dumping (fun i => Nat.eqb i k))) [0; 9; 13; 17; 22]%nat = [Err jammed; Err jammed; Err broken; Err jammed; Err broken].
Proof.
  split; [split; [intros i; cbn; lia|split; [intros i; reflexivity|split; [intros; lia|vm_compute; reflexivity]]]|].
  split; [discriminate|]. split; [discriminate|]. split; [discriminate|]. split; [discriminate|].
  split; [vm_compute; reflexivity|]. split; [vm_compute; reflexivity|]. split; [vm_compute; reflexivity|]. vm_compute. reflexivity.
Qed.
