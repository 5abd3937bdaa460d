(** C68: Marshal of a box that has been read does not panic, nor does edit. *)
From Verif Require Import Base BaseProofs BitIO Schema Structs Methods Registry Marshal Unmarshal SpecCodec GoText SpecStringify
     BoxInfo ReadTree Writer Text Edit UnmarshalProofs PropUnmarshal Causal Shape Total EditTime VersionFacts Typed PropSafe EditSafeProofs Tool SpecTool PropTool Cli SpecCli CliProofs PropCli.
Local Open Scope string_scope.
Local Open Scope list_scope.
Local Open Scope N_scope.

(** ** Marshal *)
(** Whatever the bytes a box was read from, and whatever the writer does, Marshal
    of the box returns: the number of bytes written, or an error. *)
Theorem C68_marshal : forall data t size ctx pos d x n pos' faults,
  pos <= lenN data -> lenN data < 2 ^ 62 ->
  unmarshal_any std_registry data t size ctx pos = (Ok (d, x, n), pos') ->
  (exists written, fst (marshal std_registry t ctx x faults) = Ok written) \/
  (exists e, fst (marshal std_registry t ctx x faults) = Err e).
Proof.
  intros data t size ctx pos d x n pos' faults P L H.
  pose proof (unmarshal_any_def _ _ _ _ _ _ _ _ _ H) as G. apply decoded_complete in H; try assumption.
  pose proof (marshal_calm std_registry t ctx d x faults G H) as C.
  destruct (fst (marshal std_registry t ctx x faults)) as [w|e| |]; try contradiction; eauto.
Qed.
Print Assumptions C68_marshal.

(** More generally, of any box in which each field that the box has holds a value
    of its type and no pointer is nil. *)
Theorem C68_complete : forall R t ctx d x faults,
  get_box_def R t ctx = Some d -> complete_box ctx d x = true ->
  (exists written, fst (marshal R t ctx x faults) = Ok written) \/
  (exists e, fst (marshal R t ctx x faults) = Err e).
Proof.
  intros R t ctx d x faults G H. pose proof (marshal_calm R t ctx d x faults G H) as C.
  destruct (fst (marshal R t ctx x faults)) as [w|e| |]; try contradiction; eauto.
Qed.
Print Assumptions C68_complete.

(** A box put together by a program is another matter: an esds box with an
    ES descriptor, of which the pointer is nil as in a new Descriptor. *)
Definition nil_esds : list (string * val) :=
  [ ("FullBox", VStruct [("Version", Schema.VUint 0); ("Flags", VList [Schema.VUint 0; Schema.VUint 0; Schema.VUint 0])]);
    ("Descriptors", VList [VStruct [("Tag", VInt 3); ("Size", Schema.VUint 0); ("ESDescriptor", VPtr None);
                                    ("DecoderConfigDescriptor", VPtr None); ("Data", VList [])]]) ].
Theorem C68_nil_refuted : fst (marshal std_registry (bt "esds") ctx0 nil_esds []) = Panic.
Proof. vm_compute. reflexivity. Qed.

(** ** edit *)
(** Whatever the bytes of the file and the options, edit does not panic. *)
Theorem C68_edit : forall time drop data, lenN data < 2 ^ 48 -> (forall v, time = Some v -> v < 2 ^ 64) ->
  fst (edit_file (options time drop) data) <> Panic.
Proof.
  intros time drop data L T. apply edit_calm; [exact L|]. destruct time as [v|]; [now apply T|]. reflexivity.
Qed.
Print Assumptions C68_edit.

(** From the command line: a request for edit, for extract, or for dump without
    -full, -a, -mdat and -free does not end in the exit code 2 of a panic.  (The
    other commands can panic: C55, C57, C58.) *)
Definition calm_request (a : action) : Prop :=
  match a with
  | EditFile _ _ _ _ | ExtractBox _ _ => True
  | Dump full all mdat free _ _ _ => full = [] /\ all = false /\ mdat = false /\ free = false
  | _ => False
  end.
Theorem C68_command : forall w args a, asks args a -> calm_request a ->
  (forall f data, w_file w f = Some data -> lenN data < 2 ^ 48) ->
  pr_exit (mp4tool w args) <> Some 2.
Proof.
  intros w args a A Q W E.
  assert (T : forall time drop i o, a = EditFile time drop i o -> time < 2 ^ 64).
  { clear - A. intros time drop i o ->. remember (EditFile time drop i o) as b eqn:B. destruct A; try discriminate B.
    injection B as -> _ _ _. destruct (last_setting _ _ _ _) as [v|]; [apply H1|rewrite H1; reflexivity]. }
  assert (I : exists f, input_of a = Some f) by (destruct a; try contradiction; eexists; reflexivity).
  destruct I as (f & I). destruct (w_file w f) as [data|] eqn:F.
  2:{ destruct (C66_no_input w args a f A I F) as (X & _). rewrite X in E. discriminate E. }
  apply (proj2 (proj2 (C66_exit w args a f data A I F))) in E. specialize (W f data F).
  destruct a as [| | | |full all mdat free offset hex input| | |t input|time drop i o|]; try contradiction.
  - destruct Q as (-> & -> & -> & ->). exact (C55_dump_partial (w_graphic w) offset hex (w_width w) data W E).
  - exact (C52_no_panic data t W E).
  - cbn [outcome] in E. destruct (w_create w o); [|discriminate E].
    refine (edit_calm _ _ _ _ E).
    + destruct (w_same w i o); [reflexivity|exact W].
    + exact (T _ _ _ _ eq_refl).
Qed.
Print Assumptions C68_command.

(** ** Cases *)
(** An esds box with nested descriptors, read and written again; edit of a file
    with a tfdt box, of one whose tfdt box has another version, and of one that
    ends in the middle of a trun box. *)
Definition esds_bytes : list byte := hex "00000000038080802200010004808080144015000000000003000000030005808080021210068080800102".
Definition tfdt_file : list byte := hex "0000001874726166" ++ hex "0000001074666474" ++ hex "0000000000000005".
Definition tfdt2_file : list byte := hex "0000001874726166" ++ hex "0000001074666474" ++ hex "0200000000000005".
Definition trun_file : list byte := hex "0000001c74726166" ++ hex "000000147472756e" ++ hex "000001000000000500000001".
Definition esds_again : bool :=
  match unmarshal_any std_registry esds_bytes (bt "esds") (lenN esds_bytes) ctx0 0 with
  | (Ok (_, x, n), _) =>
      (n =? lenN esds_bytes) &&
      match marshal std_registry (bt "esds") ctx0 x [] with
      | (Ok m, out) => (m =? lenN esds_bytes) && bytes_eqb out esds_bytes
      | _ => false
      end
  | _ => false
  end.
Example C68_case :
  esds_again = true /\
  edit_file (options (Some (2 ^ 32 + 7)) None) tfdt_file =
    (Ok tt, hex "0000001874726166" ++ hex "0000001074666474" ++ hex "0000000000000007") /\
  fst (edit_file (options (Some 7) None) tfdt2_file) = Err EUnsupportedVersion /\
  fst (edit_file (options None (Some (lit "free"))) trun_file) = Err EEOF.
Proof. split; [vm_compute; reflexivity|]. split; [vm_compute; reflexivity|]. split; vm_compute; reflexivity. Qed.
