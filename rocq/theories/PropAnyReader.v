(** C59: what the reading operations of the package do on readers that deliver
    their data piecemeal. *)
From Verif Require Import Base BitIO Schema Structs Registry Unmarshal BoxInfo ReadTree Extract Probe Stream PropStream
  AnyReader AnyReaderProofs.
Local Open Scope string_scope.
Local Open Scope list_scope.
Local Open Scope N_scope.
Local Open Scope monad_scope.

(** A reader within the contract that delivers at least a byte per call, reports
    io.EOF with a call of its own, and otherwise splits the data as it likes.
    [free] is the room bytes.Buffer offers to io.CopyN, [fuel] bounds the loops
    over Read. *)
Definition fair (m : manner) (free : nat -> N) (data : list byte) (fuel : nat) : Prop :=
  never_empty m /\ late_eof m /\ (forall i, 1 <= free i) /\ plenty data fuel.
(** On it an operation gives the result, and leaves the stream at the place, of
    the reader that fills every buffer, however many calls were made before. *)
Definition same_on {A} (x : M (N * nat) A) (y : M N A) : Prop :=
  forall pos calls, exists calls', x (pos, calls) = (fst (y pos), (snd (y pos), calls')).
Definition same_with {St A} (x : M ((N * nat) * St) A) (y : M (N * St) A) : Prop :=
  forall pos calls st, exists calls',
    x ((pos, calls), st) = (fst (y (pos, st)), ((fst (snd (y (pos, st))), calls'), snd (snd (y (pos, st))))).

Lemma plain_faithful : forall data, faithful (plain_reader data) data eq eq.
Proof.
  intros data. split; cbn [o_new o_under o_bits o_full o_copy o_string o_cur o_end o_start o_move plain_reader]; intros;
    try (intros s1 s2 ->); subst; now try split.
Qed.
Definition at_same_place (s : sst) (r : rst) : Prop := s_r s = r.
Definition at_place (t : N * nat) (n : N) : Prop := fst t = n.
Lemma alike_sim : forall A (x : M sst A) y, sim x y -> alike at_same_place x y.
Proof. intros A x y X s r E. red in E. subst r. destruct (X s) as [c E]. rewrite E. now split. Qed.
Lemma stream_faithful : forall fuel m free data, fair m free data fuel ->
  faithful (stream_reader fuel m free data) data at_same_place at_place.
Proof.
  intros fuel m free data (NE & LE & FR & PL).
  split; cbn [o_new o_under o_bits o_full o_copy o_string o_cur o_end o_start o_move stream_reader]; intros;
    try (apply alike_sim).
  - red in H |- *. now subst.
  - red in H |- *. now subst.
  - now apply sim_bits.
  - now apply sim_full.
  - now apply sim_copy.
  - now apply sim_string.
  - apply sim_seek.
  - apply sim_seek.
  - apply sim_seek.
  - apply (sim_seek unit (fun s => (Ok tt, mkrst (f (r_pos s)) (r_octet s) (r_width s)))).
Qed.
Lemma same_alike : forall A (x : M (N * nat) A) y, alike at_place x y -> same_on x y.
Proof.
  intros A x y X pos calls. destruct (X (pos, calls) pos eq_refl) as [E K].
  destruct (x (pos, calls)) as [a [p c]]. cbn [fst snd] in E, K. red in K. cbn [fst] in K. subst. now exists c.
Qed.
Lemma same_alike_with : forall St A (x : M ((N * nat) * St) A) y, alike (QP at_place) x y -> same_with x y.
Proof.
  intros St A x y X pos calls st. destruct (X ((pos, calls), st) (pos, st)) as [E [K1 K2]]; [now split|].
  destruct (x ((pos, calls), st)) as [a [[p c] s]]. cbn [fst snd] in E, K1, K2. red in K1. cbn [fst] in K1. subst. now exists c.
Qed.
Lemma eq_alike : forall A (x y : M N A), alike eq x y -> forall pos, x pos = y pos.
Proof.
  intros A x y X pos. destruct (X pos pos eq_refl) as [E K]. destruct (x pos), (y pos). cbn [fst snd] in *. now subst.
Qed.
Lemma eq_alike_with : forall St A (x y : M (N * St) A), alike (QP eq) x y -> forall s, x s = y s.
Proof.
  intros St A x y X [pos st]. destruct (X (pos, st) (pos, st)) as [E [K1 K2]]; [now split|].
  destruct (x (pos, st)) as [a [p s]], (y (pos, st)) as [b [q u]]. cbn [fst snd] in *. now subst.
Qed.

(** ** The text of AnyReader.v is that of the model: on a reader that fills every
    buffer it is the same operation. *)
Theorem C59_text : forall data,
  (forall d size ctx dst pos,
     g_unmarshal (plain_reader data) (loop_fuel data) d size ctx dst pos = unmarshal_def d data size ctx dst pos) /\
  (forall R t size ctx pos,
     g_unmarshal_any (plain_reader data) (loop_fuel data) R t size ctx pos = unmarshal_any R data t size ctx pos) /\
  (forall pos, g_read_box_info (plain_reader data) pos = read_box_info data pos) /\
  (forall R St V P (h : handler_t St V P) params s,
     g_read_box_structure (plain_reader data) (loop_fuel data) (tree_fuel data) R h params s =
     read_box_structure R data h params s) /\
  (forall R St V P (h : handler_t St V P) bi params s,
     g_read_box_structure_from_internal (plain_reader data) (loop_fuel data) (tree_fuel data) R h bi params s =
     read_box_structure_from_internal R data h bi params s) /\
  (forall R parent paths pos,
     g_extract_boxes_with_payload (plain_reader data) (loop_fuel data) (tree_fuel data) R parent paths pos =
     extract_boxes_with_payload R data parent paths pos) /\
  (forall R pos, g_probe (plain_reader data) (loop_fuel data) (tree_fuel data) R pos = probe R data pos) /\
  (forall fuel tr pos, g_find_idr_frames (plain_reader data) fuel tr pos = find_idr_frames_fuel data fuel tr pos).
Proof.
  intros data. pose proof (plain_faithful data) as F.
  split; [|split; [|split; [|split; [|split; [|split; [|split]]]]]]; intros;
    try apply eq_alike_with; try apply eq_alike.
  - exact (a_unmarshal _ _ _ _ F d size ctx dst).
  - exact (a_unmarshal_any _ _ _ _ F R t size ctx).
  - exact (a_read_box_info _ _ _ _ F).
  - exact (a_read_box_structure _ _ _ _ F R h params).
  - exact (a_read_box_structure_from_internal _ _ _ _ F R h bi params).
  - exact (a_extract_boxes_with_payload _ _ _ _ F R parent paths).
  - exact (a_probe _ _ _ _ F R).
  - exact (a_find_idr_frames _ _ _ _ F fuel tr).
Qed.
Print Assumptions C59_text.

(** ** On a fair reader *)
(** Unmarshal into any struct with any content, and UnmarshalAny with any registry *)
Theorem C59_unmarshal : forall m free data fuel, fair m free data fuel ->
  (forall d size ctx dst, same_on (g_unmarshal (stream_reader fuel m free data) (loop_fuel data) d size ctx dst)
                                  (unmarshal_def d data size ctx dst)) /\
  (forall R t size ctx, same_on (g_unmarshal_any (stream_reader fuel m free data) (loop_fuel data) R t size ctx)
                                (unmarshal_any R data t size ctx)).
Proof.
  intros m free data fuel H. pose proof (stream_faithful fuel m free data H) as F.
  split; intros; apply same_alike; [exact (a_unmarshal _ _ _ _ F d size ctx dst)|exact (a_unmarshal_any _ _ _ _ F R t size ctx)].
Qed.
Print Assumptions C59_unmarshal.
(** ReadBoxInfo, ReadBoxStructure and ReadBoxStructureFromInternal with any handler *)
Theorem C59_traversal : forall m free data fuel, fair m free data fuel ->
  same_on (g_read_box_info (stream_reader fuel m free data)) (read_box_info data) /\
  forall R St V P (h : handler_t St V P) params,
    same_with (g_read_box_structure (stream_reader fuel m free data) (loop_fuel data) (tree_fuel data) R h params)
              (read_box_structure R data h params) /\
    forall bi, same_with (g_read_box_structure_from_internal (stream_reader fuel m free data) (loop_fuel data) (tree_fuel data) R h bi params)
              (read_box_structure_from_internal R data h bi params).
Proof.
  intros m free data fuel H. pose proof (stream_faithful fuel m free data H) as F.
  split; [|intros; split; [|intros bi]]; [apply same_alike|apply same_alike_with..].
  - exact (a_read_box_info _ _ _ _ F).
  - exact (a_read_box_structure _ _ _ _ F R h params).
  - exact (a_read_box_structure_from_internal _ _ _ _ F R h bi params).
Qed.
Print Assumptions C59_traversal.
(** ExtractBoxes, ExtractBoxesWithPayload, Probe and FindIDRFrames *)
Theorem C59_probe : forall m free data fuel, fair m free data fuel ->
  (forall R parent paths,
    same_on (g_extract_boxes (stream_reader fuel m free data) (loop_fuel data) (tree_fuel data) R parent paths)
            (extract_boxes R data parent paths) /\
    same_on (g_extract_boxes_with_payload (stream_reader fuel m free data) (loop_fuel data) (tree_fuel data) R parent paths)
            (extract_boxes_with_payload R data parent paths)) /\
  (forall R, same_on (g_probe (stream_reader fuel m free data) (loop_fuel data) (tree_fuel data) R) (probe R data)) /\
  (forall n tr, same_on (g_find_idr_frames (stream_reader fuel m free data) n tr) (find_idr_frames_fuel data n tr)).
Proof.
  intros m free data fuel H. pose proof (stream_faithful fuel m free data H) as F.
  split; [intros; split|split; intros]; apply same_alike.
  - exact (a_extract_boxes _ _ _ _ F R parent paths).
  - exact (a_extract_boxes_with_payload _ _ _ _ F R parent paths).
  - exact (a_probe _ _ _ _ F R).
  - exact (a_find_idr_frames _ _ _ _ F n tr).
Qed.
Print Assumptions C59_probe.

(** ** On readers that are not fair *)
(** A reader that reports io.EOF along with the last byte: a free box and a tfdt
    box; the second can be read from a bytes.Reader and not from this one. *)
Definition early : manner := fun _ => (100, true).
Definition tfdt_file : list byte := hex "00000008667265650000001074666474" ++ hex "0000000000001234".
Theorem C59_early_eof_unmarshal_refuted :
  never_empty early /\
  (exists x, fst (read_box_structure std_registry tfdt_file
     (fun _ _ _ s => HReadPayload (fun r => match r with Ok _ => HRet s tt | Err e => HFail s e | _ => HFail s EEOF end)) tt (0, tt)) = Ok x) /\
  fst (g_read_box_structure (stream_reader 100 early (fun _ => 512) tfdt_file) (loop_fuel tfdt_file) (tree_fuel tfdt_file) std_registry
     (fun _ _ _ s => HReadPayload (fun r => match r with Ok _ => HRet s tt | Err e => HFail s e | _ => HFail s EEOF end)) tt ((0, 0%nat), tt)) = Err EEOF.
Proof. split; [intros i; cbn; lia|]. split; [eexists|]; vm_compute; reflexivity. Qed.
Print Assumptions C59_early_eof_unmarshal_refuted.

(** A reader that once delivers nothing: Unmarshal of an emsg box of version 1
    succeeds, and gives another SchemeIdUri and other message data. *)
Definition lazy_once : manner := fun i => (if Nat.eqb i 25 then 0 else 100, false).
Definition emsg_payload : list byte :=
  hex "01000000" ++ hex "00000001" ++ hex "0000000000000002" ++ hex "00000003" ++ hex "00000004" ++ hex "6162006300" ++ hex "aabbcc".
Definition emsg_fields (r : res (boxdef * list (string * val) * N) ) : option (option val * option val * option val) :=
  match r with Ok (_, x, _) => Some (lookup "SchemeIdUri" x, lookup "Value" x, lookup "MessageData" x) | _ => None end.
Theorem C59_empty_read_unmarshal_refuted :
  late_eof lazy_once /\
  emsg_fields (fst (unmarshal_any std_registry emsg_payload (bt "emsg") (lenN emsg_payload) ctx0 0)) =
    Some (Some (VStr (hex "6162")), Some (VStr (hex "63")), Some (VList [VUint 0xaa; VUint 0xbb; VUint 0xcc])) /\
  emsg_fields (fst (g_unmarshal_any (stream_reader 100 lazy_once (fun _ => 512) emsg_payload) (loop_fuel emsg_payload)
     std_registry (bt "emsg") (lenN emsg_payload) ctx0 (0, 0%nat))) =
    Some (Some (VStr (hex "616162")), Some (VStr (hex "63")), Some (VList [VUint 0xaa; VUint 0xbb])).
Proof. split; [intros i; reflexivity|]. vm_compute. split; reflexivity. Qed.
Print Assumptions C59_empty_read_unmarshal_refuted.

(** The reader of C59_case, delivering one, two, one, two, ... bytes, is fair. *)
Example C59_fair_case : fair (fun i => (if Nat.even i then 1 else 2, false)) (fun _ => 512) tfdt_file 100.
Proof.
  split; [intros i; cbn [fst]; destruct (Nat.even i); lia|]. split; [intros i; reflexivity|]. split; [intros; lia|]. vm_compute. reflexivity.
Qed.
