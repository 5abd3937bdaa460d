(** C65: an error of the reader reaches the caller of a reading operation, and
    without one the operation does what it does on a reader that never fails. *)
From Verif Require Import Base BaseProofs BitIO Schema Structs Registry Unmarshal BoxInfo ReadTree Extract Probe Text Stringify Tool Stream PropStream
  AnyReader AnyReaderProofs PropAnyReader Failing SpecFailing FailingProofs.
Local Open Scope string_scope.
Local Open Scope list_scope.
Local Open Scope N_scope.
Local Open Scope monad_scope.

Section Ops.
  Variables (m : manner) (fails : nat -> bool) (e0 : err) (free : nat -> N) (data : list byte).
  Definition call_failed (c0 c1 : nat) : Prop := exists i, (c0 <= i < c1)%nat /\ fails i = true.
  (** against the reader that behaves the same and does not fail *)
  Definition err_or {A} (x y : M sst A) : Prop := forall s,
    (s_calls s <= s_calls (snd (y s)))%nat /\
    (fst (x s) = Err e0 /\ call_failed (s_calls s) (s_calls (snd (x s))) \/ x s = y s).
  Lemma eo_refl : forall A (x : M sst A), (forall s, (s_calls s <= s_calls (snd (x s)))%nat) -> err_or x x.
  Proof. intros A x X s. split; [apply X|now right]. Qed.
  Lemma eo_ret : forall A (a : A), err_or (ret a) (ret a).
  Proof. intros. apply eo_refl. intros s. apply Nat.le_refl. Qed.
  Lemma eo_bind : forall A C (x y : M sst A) (f g : A -> M sst C), err_or x y -> (forall a, err_or (f a) (g a)) -> err_or (bind x f) (bind y g).
  Proof.
    intros A C x y f g X F s. destruct (X s) as [L K]. unfold bind. destruct (y s) as [ry sy] eqn:Y. cbn [fst snd] in *. split.
    - destruct ry as [a|e| |]; try exact L. destruct (F a sy) as [L2 _]. eapply Nat.le_trans; eauto.
    - destruct K as [[E B]|E].
      + left. destruct (x s) as [rx sx]. cbn [fst snd] in *. subst rx. now split.
      + rewrite E. destruct ry as [a|e| |]; try now right. destruct (F a sy) as [_ [[E2 (i & [I1 I2] & I3)]|E2]]; [left|right; exact E2].
        split; [exact E2|]. exists i. split; [|exact I3]. split; [eapply Nat.le_trans; eauto|exact I2].
  Qed.
  Lemma eo_loopN : forall A n (f g : A -> M sst A), (forall a, err_or (f a) (g a)) -> forall a, err_or (loopN n f a) (loopN n g a).
  Proof.
    intros A [|p] f g F a; cbn [loopN]; [apply eo_ret|]. revert a. induction p as [q IH|q IH|]; intros a; cbn [loopP].
    - apply eo_bind; [apply F|]. intros a1. apply eo_bind; [apply IH|apply IH].
    - apply eo_bind; [apply IH|apply IH].
    - apply F.
  Qed.
  (** one call *)
  Lemma under_fails : forall s, call_failed (s_calls s) (S (s_calls s)) \/ fails (s_calls s) = false.
  Proof. intros s. destruct (fails (s_calls s)) eqn:E; [left|now right]. exists (s_calls s). split; [split; auto|exact E]. Qed.
  Lemma failed_more : forall a b c d, call_failed b c -> (a <= b)%nat -> (c <= d)%nat -> call_failed a d.
  Proof.
    intros a b c d (i & [I1 I2] & I3) L1 L2. exists i. split; [|exact I3].
    split; [eapply Nat.le_trans; eauto|eapply Nat.lt_le_trans; eauto].
  Qed.
  Lemma eo_bit : err_or (f_read_bit m fails e0 data) (s_read_bit m data).
  Proof.
    intros s. unfold f_read_bit, s_read_bit, f_under, under_read. cbv zeta. destruct (r_width (s_r s) =? 0); [|split; [apply Nat.le_refl|now right]].
    set (got := takeN _ _). set (eof := (_ || _)). split.
    - destruct eof; cbn; [auto|]. destruct got as [|b [|? ?]]; cbn; auto.
    - destruct (under_fails s) as [B|B].
      + destruct (fails (s_calls s)) eqn:G; [left; now split|right]. destruct eof; [reflexivity|]. destruct got as [|b [|? ?]]; reflexivity.
      + rewrite B. right. destruct eof; [reflexivity|]. destruct got as [|b [|? ?]]; reflexivity.
  Qed.
  Lemma eo_bits : forall n, err_or (f_read_bits m fails e0 data n) (s_read_bits m data n).
  Proof.
    intros n. unfold f_read_bits, s_read_bits. apply eo_bind; [|intros; apply eo_ret]. apply eo_loopN. intros acc.
    apply eo_bind; [apply eo_bit|intros; apply eo_ret].
  Qed.
  (** Read through bitio's reader *)
  Lemma read_cases : forall len s,
    (exists e, f_read m fails e0 data len s = (Err e, s) /\ s_read m data len s = (Err e, s)) \/
    exists got eof s1, s_read m data len s = (Ok (got, eof), s1) /\ s_calls s1 = S (s_calls s) /\
      f_read m fails e0 data len s = (Ok (got, if fails (s_calls s) then Some e0 else if eof then Some EEOF else None), s1).
  Proof.
    intros len s. unfold f_read, s_read, f_under. destruct (r_width (s_r s) =? 0); [right|left; now exists EAlign].
    destruct (under_read m data len s) as [[got eof] s1] eqn:U. exists got, eof, s1. unfold under_read in U. injection U as _ _ U.
    rewrite <- U. repeat split.
  Qed.
  Hypothesis ne : e0 <> EEOF.
  Lemma eo_more : forall fuel n acc, err_or (f_read_more m fails e0 data fuel n acc) (s_read_more fuel m data n acc).
  Proof.
    induction fuel as [|k IH]; intros n acc s; cbn [f_read_more s_read_more]; destruct (n <=? lenN acc) eqn:D;
      try (split; [apply Nat.le_refl|now right]).
    destruct (read_cases (n - lenN acc) s) as [(e & E1 & E2)|(got & eof & s1 & E1 & C & E2)]; rewrite E1, E2; cbv zeta.
    { split; [apply Nat.le_refl|now right]. }
    destruct (IH n (acc ++ got) s1) as [L K]. split.
    - destruct eof; cbn [snd]; [rewrite C; auto|]. eapply Nat.le_trans; [|exact L]. rewrite C. auto.
    - destruct (fails (s_calls s)) eqn:G.
      + destruct (n <=? lenN (acc ++ got)) eqn:D2.
        * right. destruct eof; [reflexivity|]. destruct k; cbn [s_read_more]; now rewrite D2.
        * left. assert (B : call_failed (s_calls s) (s_calls s1)) by (exists (s_calls s); rewrite C; auto).
          destruct e0; now split.
      + destruct eof; [right; reflexivity|]. destruct K as [[K B]|K]; [left|right; exact K].
        split; [exact K|]. eapply failed_more; [exact B| |apply Nat.le_refl]. rewrite C. auto.
  Qed.
  Lemma eo_copy_more : forall fuel n acc, err_or (f_copy_more m fails e0 free data fuel n acc) (s_copy_more fuel m free data n acc).
  Proof.
    induction fuel as [|k IH]; intros n acc s; cbn [f_copy_more s_copy_more]; destruct (n <=? lenN acc) eqn:D;
      try (split; [apply Nat.le_refl|now right]).
    destruct (read_cases (N.min (free (s_calls s)) (n - lenN acc)) s) as [(e & E1 & E2)|(got & eof & s1 & E1 & C & E2)]; rewrite E1, E2; cbv zeta.
    { split; [apply Nat.le_refl|now right]. }
    destruct (IH n (acc ++ got) s1) as [L K]. split.
    - destruct eof; cbn [snd]; [rewrite C; auto|]. eapply Nat.le_trans; [|exact L]. rewrite C. auto.
    - destruct (fails (s_calls s)) eqn:G.
      + destruct (n <=? lenN (acc ++ got)) eqn:D2.
        * right. destruct eof; [reflexivity|]. destruct k; cbn [s_copy_more]; now rewrite D2.
        * left. assert (B : call_failed (s_calls s) (s_calls s1)) by (exists (s_calls s); rewrite C; auto). now split.
      + destruct eof; [right; reflexivity|]. destruct K as [[K B]|K]; [left|right; exact K].
        split; [exact K|]. eapply failed_more; [exact B| |apply Nat.le_refl]. rewrite C. auto.
  Qed.
  Lemma eo_copy : forall fuel n, err_or (f_copy_n m fails e0 free data fuel n) (s_copy_n fuel m free data n).
  Proof.
    intros fuel n. unfold f_copy_n, s_copy_n. destruct ((n =? 0) || (9223372036854775808 <=? n)); [apply eo_ret|apply eo_copy_more].
  Qed.
  Lemma eo_string : forall fuel b acc, err_or (f_read_string_more m fails e0 data fuel b acc) (s_read_string_more fuel m data b acc).
  Proof.
    induction fuel as [|k IH]; intros b acc s; cbn [f_read_string_more s_read_string_more]; [split; [apply Nat.le_refl|now right]|].
    destruct (read_cases 1 s) as [(e & E1 & E2)|(got & eof & s1 & E1 & C & E2)]; rewrite E1, E2; cbv zeta.
    { split; [apply Nat.le_refl|now right]. }
    destruct (IH (hd b got) (hd b got :: acc) s1) as [L K]. split.
    - destruct eof; cbn [snd]; [rewrite C; auto|]. destruct (b2N (hd b got) =? 0); cbn [snd]; [rewrite C; auto|].
      eapply Nat.le_trans; [|exact L]. rewrite C. auto.
    - destruct (fails (s_calls s)) eqn:G.
      + left. split; [reflexivity|]. exists (s_calls s). cbn [snd]. rewrite C. auto.
      + destruct eof; [right; reflexivity|]. destruct (b2N (hd b got) =? 0); [right; reflexivity|].
        destruct K as [[K B]|K]; [left|right; exact K].
        split; [exact K|]. eapply failed_more; [exact B| |apply Nat.le_refl]. rewrite C. auto.
  Qed.

  (** against a position in the data *)
  Variable c0 : nat.
  Definition since (s : sst) (r : rst) : Prop := s_r s = r /\ (c0 <= s_calls s)%nat.
  Definition since_t (t : N * nat) (n : N) : Prop := fst t = n /\ (c0 <= snd t)%nat.
  Definition bad (s : sst) : Prop := call_failed c0 (s_calls s).
  Definition bad_t (t : N * nat) : Prop := call_failed c0 (snd t).
  Lemma of_err : forall A (x y : M sst A) (z : M rst A), err_or x y -> sim y z -> or_fails (eq e0) bad since x z.
  Proof.
    intros A x y z X Y s r [E L]. subst r. destruct (X s) as [L2 [[K B]|K]].
    - left. split; [now exists e0|]. eapply failed_more; [exact B|exact L|apply Nat.le_refl].
    - right. destruct (Y s) as [c E]. rewrite K. rewrite E in L2 |- *. split; [reflexivity|]. split; [reflexivity|].
      eapply Nat.le_trans; eauto.
  Qed.
  Lemma of_seek : forall A (z : M rst A), alike since (seeks z) z.
  Proof.
    intros A z s r [E L]. subst r. unfold seeks. destruct (z (s_r s)) as [a r]. split; [reflexivity|]. split; [reflexivity|exact L].
  Qed.
  Lemma failing_may_fail : forall fuel, fair m free data fuel ->
    may_fail (eq e0) (failing_reader m fails e0 free data fuel) data bad bad_t since since_t.
  Proof.
    intros fuel (NE & LE & FR & PL).
    split; cbn [o_new o_under o_bits o_full o_copy o_string o_cur o_end o_start o_move failing_reader stream_reader]; intros.
    - destruct H as [H L]. split; [now rewrite H|exact L].
    - destruct H as [H L]. split; [now rewrite <- H|exact L].
    - eapply of_err; [apply eo_bits|now apply sim_bits].
    - eapply of_err; [apply eo_more|now apply sim_full].
    - eapply of_err; [apply eo_copy|now apply sim_copy].
    - eapply of_err; [apply eo_string|now apply sim_string].
    - apply e_alike, of_seek.
    - apply e_alike, of_seek.
    - apply e_alike, of_seek.
    - apply e_alike, (of_seek unit (fun s => (Ok tt, mkrst (f (r_pos s)) (r_octet s) (r_width s)))).
    - exact H.
    - split; [eexists; reflexivity|exact H].
    - right. split; [apply of_seek|split; [apply of_seek|intros x; apply of_seek]].
    - right. intros f. apply (of_seek unit (fun s => (Ok tt, mkrst (f (r_pos s)) (r_octet s) (r_width s)))).
  Qed.
End Ops.
Lemma fos_of : forall A fails e0 (x : M (N * nat) A) y,
  (forall c0, or_fails (eq e0) (bad_t fails c0) (since_t c0) x y) -> fails_or_same fails e0 x y.
Proof.
  intros A fails e0 x y X pos calls. specialize (X calls (pos, calls) pos (conj eq_refl (Nat.le_refl _))).
  destruct (x (pos, calls)) as [r [pos' calls']]. exists r, pos', calls'. split; [reflexivity|].
  destruct X as [[(e & Ee & E) B]|[E [K L]]]; [left; subst e; now split|right]. cbn [fst snd] in *. subst. now destruct (y pos).
Qed.
Lemma fos_with_of : forall St A fails e0 (x : M ((N * nat) * St) A) y,
  (forall c0, or_fails (eq e0) (BP (bad_t fails c0)) (QP (since_t c0)) x y) -> fails_or_same_with fails e0 x y.
Proof.
  intros St A fails e0 x y X pos calls st. specialize (X calls ((pos, calls), st) (pos, st) (conj (conj eq_refl (Nat.le_refl _)) eq_refl)).
  destruct (x ((pos, calls), st)) as [r [[pos' calls'] st']]. exists r, pos', calls', st'. split; [reflexivity|].
  destruct X as [[(e & Ee & E) B]|[E [[K L] K2]]]; [left; subst e; now split|right]. cbn [fst snd] in *. subst. now destruct (y (pos, st)) as [? []].
Qed.

(** ** The operations.  Unmarshal into any struct with any content, and UnmarshalAny
    with any registry *)
Theorem C65_unmarshal : forall m fails e0 free data fuel, fair m free data fuel -> e0 <> EEOF ->
  let O := failing_reader m fails e0 free data fuel in
  (forall d size ctx dst, fails_or_same fails e0 (g_unmarshal O (loop_fuel data) d size ctx dst) (unmarshal_def d data size ctx dst)) /\
  (forall R t size ctx, fails_or_same fails e0 (g_unmarshal_any O (loop_fuel data) R t size ctx) (unmarshal_any R data t size ctx)).
Proof.
  intros m fails e0 free data fuel H ne O. split; intros; apply fos_of; intros c0;
    pose proof (failing_may_fail m fails e0 free data ne c0 fuel H) as F.
  - exact (e_unmarshal _ _ _ _ _ _ _ F d size ctx dst).
  - exact (e_unmarshal_any _ _ _ _ _ _ _ F R t size ctx).
Qed.
Print Assumptions C65_unmarshal.
(** ReadBoxInfo; ReadBoxStructure and ReadBoxStructureFromInternal with any handler
    that returns the error when ReadPayload, ReadData or Expand gives it [e0]
    ([passes], SpecFailing.v) *)
Theorem C65_traversal : forall m fails e0 free data fuel, fair m free data fuel -> e0 <> EEOF ->
  let O := failing_reader m fails e0 free data fuel in
  fails_or_same fails e0 (g_read_box_info O) (read_box_info data) /\
  forall R St V P (h : handler_t St V P), (forall bi pth params s, passes e0 (h bi pth params s)) -> forall params,
    fails_or_same_with fails e0 (g_read_box_structure O (loop_fuel data) (tree_fuel data) R h params)
                       (read_box_structure R data h params) /\
    forall bi, fails_or_same_with fails e0 (g_read_box_structure_from_internal O (loop_fuel data) (tree_fuel data) R h bi params)
                       (read_box_structure_from_internal R data h bi params).
Proof.
  intros m fails e0 free data fuel H ne O. split; [|intros R St V P h W params; split; [|intros bi]];
    [apply fos_of|apply fos_with_of..]; intros c0; pose proof (failing_may_fail m fails e0 free data ne c0 fuel H) as F.
  - exact (e_read_box_info _ _ _ _ _ _ _ F).
  - exact (e_read_box_structure _ _ _ _ _ _ _ F ne R h (fun e Ee => match Ee with eq_refl => W end) params).
  - exact (e_read_box_structure_from_internal _ _ _ _ _ _ _ F ne R h (fun e Ee => match Ee with eq_refl => W end) bi params).
Qed.
Print Assumptions C65_traversal.
(** ExtractBoxes, ExtractBoxesWithPayload, Probe and FindIDRFrames *)
Theorem C65_probe : forall m fails e0 free data fuel, fair m free data fuel -> e0 <> EEOF ->
  let O := failing_reader m fails e0 free data fuel in
  (forall R parent paths,
    fails_or_same fails e0 (g_extract_boxes O (loop_fuel data) (tree_fuel data) R parent paths) (extract_boxes R data parent paths) /\
    fails_or_same fails e0 (g_extract_boxes_with_payload O (loop_fuel data) (tree_fuel data) R parent paths)
                  (extract_boxes_with_payload R data parent paths)) /\
  (forall R, fails_or_same fails e0 (g_probe O (loop_fuel data) (tree_fuel data) R) (probe R data)) /\
  (forall n tr, fails_or_same fails e0 (g_find_idr_frames O n tr) (find_idr_frames_fuel data n tr)).
Proof.
  intros m fails e0 free data fuel H ne O.
  split; [intros; split|split; intros]; apply fos_of; intros c0; pose proof (failing_may_fail m fails e0 free data ne c0 fuel H) as F.
  - exact (e_extract_boxes _ _ _ _ _ _ _ F ne R parent paths).
  - exact (e_extract_boxes_with_payload _ _ _ _ _ _ _ F ne R parent paths).
  - exact (e_probe _ _ _ _ _ _ _ F ne R).
  - exact (e_find_idr_frames _ _ _ _ _ _ _ F n tr).
Qed.
Print Assumptions C65_probe.

(** ** Which handlers pass the error on *)
Lemma dump_passes : forall e0 graphic cfg, e0 <> EUnsupportedVersion ->
  forall bi pth params s, passes e0 (dump_handler graphic cfg bi pth params s).
Proof.
  intros e0 graphic cfg nv.
  assert (W : forall bi full line s, passes e0 (dump_raw bi full line s)).
  { intros bi full line s. unfold dump_raw. destruct full; [|exact I]. destruct (maxAlloc <=? payload_size bi); [exact I|].
    cbn [passes]. split; [eexists; reflexivity|]. intros [[d n]|e| |]; exact I. }
  intros bi pth params s. unfold dump_handler. cbv zeta. destruct (negb _ && _); [exact I|].
  destruct (is_supported _ _ _); [|apply W]. destruct (_ && _); [exact I|]. cbn [passes]. split.
  - destruct e0; try (eexists; reflexivity). now elim nv.
  - intros [[[d x] n]|e| |]; try exact I.
    + destruct (stringify _ _ _ _ _) as [str|e| |]; try exact I. cbn [passes]. split; [intros; eexists; reflexivity|].
      intros [vs|e| |] s'; exact I.
    + destruct e; try exact I. apply W.
Qed.
(** mp4tool dump returns the error, unless it is the package's own
    ErrUnsupportedBoxVersion, which it prints *)
Theorem C65_dump : forall m fails e0 free data fuel graphic cfg,
  fair m free data fuel -> e0 <> EEOF -> e0 <> EUnsupportedVersion ->
  fails_or_same_with fails e0
    (g_read_box_structure (failing_reader m fails e0 free data fuel) (loop_fuel data) (tree_fuel data) std_registry (dump_handler graphic cfg) tt)
    (read_box_structure std_registry data (dump_handler graphic cfg) tt).
Proof.
  intros m fails e0 free data fuel graphic cfg H ne nv.
  destruct (C65_traversal m fails e0 free data fuel H ne) as [_ K]. apply K. clear K.
  now apply dump_passes.
Qed.
Print Assumptions C65_dump.

(** ** io.EOF is not such an error: a reader that reports it early, after the free
    box, makes ReadBoxStructure succeed without the tfdt box. *)
Theorem C65_eof_refuted :
  fair (fun _ => (100, false)) (fun _ => 512) tfdt_file 100 /\
  let visit : handler_t (list btype) unit unit := fun bi _ _ s => HRet (s ++ [bi_type bi]) tt in
  (forall bi pth params s, passes EEOF (visit bi pth params s)) /\
  fst (g_read_box_structure (failing_reader (fun i => (if Nat.eqb i 1 then 0 else 100, false)) (fun i => Nat.eqb i 1) EEOF (fun _ => 512) tfdt_file 100)
     (loop_fuel tfdt_file) (tree_fuel tfdt_file) std_registry visit tt ((0, 0%nat), [])) = Ok [tt] /\
  fst (read_box_structure std_registry tfdt_file visit tt (0, [])) = Ok [tt; tt].
Proof.
  split; [split; [intros i; cbn; lia|split; [intros i; reflexivity|split; [intros; lia|vm_compute; reflexivity]]]|].
  cbv zeta. split; [intros; exact I|]. vm_compute. split; reflexivity.
Qed.
Print Assumptions C65_eof_refuted.

(** The same file, read in pieces of one and two bytes.  A failing tenth call: the
    error is returned.  A call that fails and delivers the last byte of the payload:
    io.ReadFull and io.CopyN do not report it. *)
Definition broken : err := EMsg "connection reset".
Definition pieces : manner := fun i => (if Nat.even i then 1 else 2, false).
Definition scan (m : manner) (fails : nat -> bool) : res (list N) :=
  fst (g_read_box_structure (failing_reader m fails broken (fun _ => 512) tfdt_file 100) (loop_fuel tfdt_file) (tree_fuel tfdt_file)
    std_registry (fun _ _ _ s => HReadPayload (fun r => match r with Ok (_, _, n) => HRet s n | Err e => HFail s e | _ => HFail s EEOF end))
    tt ((0, 0%nat), tt)).
Example C65_case :
  fair pieces (fun _ => 512) tfdt_file 100 /\ broken <> EEOF /\
  scan pieces (fun _ => false) = Ok [0; 8] /\
  scan pieces (fun i => Nat.eqb i 9) = Err broken /\
  scan (fun _ => (100, false)) (fun i => Nat.eqb i 0) = Ok [0; 8] /\
  scan (fun _ => (100, false)) (fun i => Nat.eqb i 5) = Err broken.
Proof. split; [exact C59_fair_case|]. split; [discriminate|]. vm_compute. repeat split. Qed.
