(** C59: what the reading operations of the package do on a reader that does
    anything the contract of io.Reader allows. *)
From Verif Require Import Base BitIO Schema Structs Registry Unmarshal BoxInfo ReadTree Extract Accessors Probe Stream PropStream
  AnyReader AnyReaderProofs PropAnyReader AnyReaderWeak PropLookup.
Local Open Scope string_scope.
Local Open Scope list_scope.
Local Open Scope N_scope.
Local Open Scope monad_scope.

(** the result and the position of the reader that fills every buffer *)
Definition as_plain {A} (x : M (N * nat) A) (y : M N A) (pos : N) (calls : nat) : Prop :=
  exists calls', x (pos, calls) = (fst (y pos), (snd (y pos), calls')).
(** no result within [fuel] calls of Read: a reader that delivers nothing again and again *)
Definition stuck {A} (x : M (N * nat) A) (pos : N) (calls : nat) : Prop := fst (x (pos, calls)) = OutOfFuel.
Definition error {A} (x : M (N * nat) A) (pos : N) (calls : nat) : Prop := exists e, fst (x (pos, calls)) = Err e.

Lemma right_or_stuck : forall A (x : M (N * nat) A) y, at_most false at_place x y ->
  forall pos calls, as_plain x y pos calls \/ stuck x pos calls.
Proof.
  intros A x y X pos calls. unfold as_plain, stuck. destruct (X (pos, calls) pos eq_refl) as [U|[E K]].
  - right. destruct (fst (x (pos, calls))); cbn in U; try contradiction; [discriminate|reflexivity].
  - left. destruct (x (pos, calls)) as [a [p c]]. cbn [fst snd] in *. red in K. cbn in K. subst. now exists c.
Qed.
Lemma right_or_error : forall A (x : M (N * nat) A) y, at_most true at_place x y ->
  forall pos calls, as_plain x y pos calls \/ error x pos calls \/ stuck x pos calls.
Proof.
  intros A x y X pos calls. unfold as_plain, stuck, error. destruct (X (pos, calls) pos eq_refl) as [U|[E K]].
  - right. destruct (fst (x (pos, calls))) as [a|e| |]; cbn in U; try contradiction; [left; now exists e|now right].
  - left. destruct (x (pos, calls)) as [a [p c]]. cbn [fst snd] in *. red in K. cbn in K. subst. now exists c.
Qed.

(** ** The boxes of the package: all but emsg *)
Lemma find_def_all : forall (P : btype -> boxdef -> bool) t c l, forallb (fun x => P (fst x) (snd x)) l = true ->
  forall d, find_def t c l = Some d -> P t d = true.
Proof.
  intros P t c l. induction l as [|[t' d'] r IH]; intros A d E; [discriminate E|]. cbn [forallb fst snd] in A.
  apply andb_prop in A. destruct A as [A1 A2]. cbn [find_def] in E. destruct (bt_eqb t t' && pred_holds (bd_pred d') c) eqn:B.
  - injection E as <-. apply andb_prop in B. destruct B as [B _]. apply bt_eqb_iff in B. now subst.
  - now apply IH.
Qed.
Lemma std_plain : forall t, t <> bt "emsg" -> plain_type std_registry t.
Proof.
  intros t NE ctx d E. unfold get_box_def in E.
  destruct (find_def t ctx (rev std_registry)) as [d'|] eqn:F.
  - injection E as <-.
    assert (A : forallb (fun x : btype * boxdef => bt_eqb (fst x) (bt "emsg") || harmless (snd x)) (rev std_registry) = true) by (vm_compute; reflexivity).
    apply (find_def_all (fun t d => bt_eqb t (bt "emsg") || harmless d) t ctx _ A) in F.
    apply orb_prop in F. destruct F as [F|F]; [apply bt_eqb_iff in F; contradiction|exact F].
  - destruct (UnderIlst ctx); [|discriminate E].
    destruct ((1 <=? Z.of_N (be_to_N t))%Z && (Z.of_N (be_to_N t) <=? QuickTimeKeysMetaEntryCount ctx)%Z); [|discriminate E].
    injection E as <-. reflexivity.
Qed.

Section AnyManner.
  Variables (m : manner) (free : nat -> N) (data : list byte) (fuel : nat).
  Hypothesis FR : forall i, 1 <= free i.
  Notation O := (stream_reader fuel m free data).
  Notation lf := (loop_fuel data).
  Notation tf := (tree_fuel data).

  (** Unmarshal of a struct that is not Emsg and holds none (nothing else calls
      util.ReadString), into any content; UnmarshalAny of any box but emsg *)
  Theorem C59_never_wrong_unmarshal :
    (forall d size ctx dst pos calls, bd_name d <> "Emsg" -> no_emsg_flds (bd_flds d) = true ->
       let x := g_unmarshal O lf d size ctx dst in
       as_plain x (unmarshal_def d data size ctx dst) pos calls \/ error x pos calls \/ stuck x pos calls) /\
    (forall t size ctx pos calls, t <> bt "emsg" ->
       let x := g_unmarshal_any O lf std_registry t size ctx in
       as_plain x (unmarshal_any std_registry data t size ctx) pos calls \/ error x pos calls \/ stuck x pos calls).
  Proof.
    split.
    - intros d size ctx dst pos calls NE NN x. apply right_or_error, m_unmarshal; [exact FR|]. unfold harmless. rewrite NN.
      destruct (String.eqb_spec (bd_name d) "Emsg"); [contradiction|reflexivity].
    - intros t size ctx pos calls NE x. apply right_or_error, m_unmarshal_any; [exact FR|]. now apply std_plain.
  Qed.
  (** ReadBoxInfo and FindIDRFrames do not return a wrong error either *)
  Theorem C59_never_wrong_headers :
    (forall pos calls, as_plain (g_read_box_info O) (read_box_info data) pos calls \/ stuck (g_read_box_info O) pos calls) /\
    (forall n tr pos calls, let x := g_find_idr_frames O n tr in
       as_plain x (find_idr_frames_fuel data n tr) pos calls \/ stuck x pos calls).
  Proof.
    split; [intros pos calls|intros n tr pos calls x]; apply right_or_stuck; [now apply m_read_box_info|apply m_find_idr_frames].
  Qed.
  (** ExtractBoxes and ExtractBoxesWithPayload, if no path mentions emsg or any
      type and the parent is not emsg *)
  Theorem C59_never_wrong_extract : forall parent paths pos calls,
    (forall p t, In p paths -> In t p -> t <> bt "emsg" /\ t <> bt_any) ->
    (forall bi, parent = Some bi -> bi_type bi <> bt "emsg") ->
    (let x := g_extract_boxes O lf tf std_registry parent paths in
     as_plain x (extract_boxes std_registry data parent paths) pos calls \/ error x pos calls \/ stuck x pos calls) /\
    (let x := g_extract_boxes_with_payload O lf tf std_registry parent paths in
     as_plain x (extract_boxes_with_payload std_registry data parent paths) pos calls \/ error x pos calls \/ stuck x pos calls).
  Proof.
    intros parent paths pos calls H1 H2.
    assert (OK : ok_paths std_registry paths).
    { unfold ok_paths. rewrite Forall_forall. intros p IP. rewrite Forall_forall. intros t IT. destruct (H1 p t IP IT) as [A B].
      split; [exact B|now apply std_plain]. }
    assert (OP : ok_parent std_registry parent).
    { destruct parent as [bi|]; cbn; [apply std_plain; now apply H2|exact I]. }
    assert (PF : plain_type std_registry (bt "ftyp")) by (apply std_plain; vm_compute; discriminate).
    assert (PK : plain_type std_registry (bt "keys")) by (apply std_plain; vm_compute; discriminate).
    split; apply right_or_error; [eapply m_so|]; [apply m_extract_boxes|apply m_extract_boxes_with_payload]; assumption.
  Qed.
  Theorem C59_never_wrong_probe : forall pos calls,
    let x := g_probe O lf tf std_registry in
    as_plain x (probe std_registry data) pos calls \/ error x pos calls \/ stuck x pos calls.
  Proof.
    intros pos calls x.
    assert (G : forall paths, forallb (forallb (fun t => negb (bt_eqb t (bt "emsg")) && negb (bt_eqb t bt_any))) paths = true -> ok_paths std_registry paths).
    { intros paths A. unfold ok_paths. rewrite Forall_forall. intros p IP. rewrite Forall_forall. intros t IT.
      rewrite forallb_forall in A. specialize (A p IP). rewrite forallb_forall in A. specialize (A t IT).
      apply andb_prop in A. destruct A as [A1 A2]. split.
      - intros E. apply bt_eqb_iff in E. rewrite E in A2. discriminate A2.
      - apply std_plain. intros E. apply bt_eqb_iff in E. rewrite E in A1. discriminate A1. }
    apply right_or_error, m_probe;
      [exact FR|apply std_plain; vm_compute; discriminate|apply std_plain; vm_compute; discriminate|apply G; reflexivity..].
  Qed.
End AnyManner.
Print Assumptions C59_never_wrong_unmarshal.
Print Assumptions C59_never_wrong_headers.
Print Assumptions C59_never_wrong_extract.
Print Assumptions C59_never_wrong_probe.

(** All three outcomes occur: a reader that reports io.EOF along with the last
    byte fails on a tfdt box at the end of the data and not on one that is
    followed by a box; one that never delivers anything is stuck. *)
Definition tfdt_free : list byte := hex "0000001074666474" ++ hex "0000000000001234" ++ hex "0000000866726565".
Definition times (r : res (list (boxinfo * (boxdef * list (string * val))))) : res (list N) :=
  match r with
  | Ok l => Ok (map (fun x => uint_of "BaseMediaDecodeTimeV0" (snd (snd x))) l)
  | Err e => Err e
  | Panic => Panic
  | OutOfFuel => OutOfFuel
  end.
Definition decode_times (m : manner) (data : list byte) : res (list N) :=
  times (fst (g_extract_boxes_with_payload (stream_reader 100 m (fun _ => 512) data) (loop_fuel data) (tree_fuel data)
                std_registry None [[bt "tfdt"]] (0, 0%nat))).
Example C59_never_wrong_case :
  decode_times early tfdt_file = Err EEOF /\ decode_times early tfdt_free = Ok [0x1234] /\
  decode_times (fun _ => (0, false)) tfdt_free = OutOfFuel.
Proof. vm_compute. repeat split. Qed.
