(** C13, exactly: for which box types Marshal can miss a list that is shorter
    than declared. *)
From Verif Require Import Base BaseProofs BitIO Schema Structs Methods Registry Marshal SpecCodec SpecShort.
From Verif Require Import BitIOProofs MarshalProofs MarshalCount PropShort SpecReuse PropFaultsExact.
Local Open Scope string_scope.
Local Open Scope list_scope.
Local Open Scope N_scope.

(** types without lists, and types without lists inside elements of lists *)
Fixpoint no_list (t : sty) : bool :=
  match t with
  | SSlice _ => false
  | SArr _ u | SPtr u => no_list u
  | SStruct _ _ fs => no_list_flds fs
  | _ => true
  end
with no_list_flds (fs : flds) : bool :=
  match fs with FNil => true | FCons _ t r => no_list t && no_list_flds r end.
Fixpoint flat (t : sty) : bool :=
  match t with
  | SSlice u => no_list u
  | SArr _ u | SPtr u => flat u
  | SStruct _ _ fs => flat_flds fs
  | _ => true
  end
with flat_flds (fs : flds) : bool :=
  match fs with FNil => true | FCons _ t r => flat t && flat_flds r end.

Lemma existsb_false : forall A (p : A -> bool) l, (forall x, p x = false) -> existsb p l = false.
Proof. intros A p l H. induction l as [|x l IH]; [reflexivity|]. cbn [existsb]. now rewrite H, IH. Qed.
Lemma no_list_short : forall deep rn root ctx,
  (forall t f len v, no_list t = true -> short_val deep rn root ctx f len t v = false) /\
  (forall fs sname cfo self, no_list_flds fs = true -> short_flds deep rn root ctx sname cfo self fs = false).
Proof.
  intros deep rn root ctx. apply sty_flds_mutind; try (intros; destruct v; reflexivity).
  - intros n u IH f len v H. destruct v; try reflexivity. cbn [short_val]. apply existsb_false. intros x. now apply IH.
  - intros u IH f len v H. discriminate.
  - intros u IH f len v H. destruct v as [| | | | |[x|]|]; try reflexivity. cbn [short_val]. now apply IH.
  - intros name cfo fs IH f len v H. destruct v; try reflexivity. cbn [short_val]. now apply IH.
  - reflexivity.
  - intros f t IHt r IHr sname cfo self H. cbn [no_list_flds] in H. apply andb_prop in H. destruct H as [H1 H2].
    cbn [short_flds]. destruct (owner _ _ _ _ _ _) as [cn env]. rewrite (IHr _ _ _ H2), orb_false_r.
    destruct (enabled _ _ _ _ _); [|reflexivity]. destruct (resolve_len _ _ _); [|reflexivity].
    destruct (lookup _ _); [|reflexivity]. now apply IHt.
Qed.
Lemma existsb_ext : forall A (p q : A -> bool) l, (forall x, p x = q x) -> existsb p l = existsb q l.
Proof. intros A p q l H. induction l as [|x l IH]; [reflexivity|]. cbn [existsb]. now rewrite H, IH. Qed.
Lemma flat_short : forall rn root ctx,
  (forall t f len v, flat t = true -> short_val true rn root ctx f len t v = short_val false rn root ctx f len t v) /\
  (forall fs sname cfo self, flat_flds fs = true ->
     short_flds true rn root ctx sname cfo self fs = short_flds false rn root ctx sname cfo self fs).
Proof.
  intros rn root ctx. apply sty_flds_mutind; try (intros; destruct v; reflexivity).
  - intros n u IH f len v H. destruct v; try reflexivity. cbn [short_val]. apply existsb_ext. intros x. now apply IH.
  - intros u IH f len v H. destruct v as [| | | |l| |]; try reflexivity. cbn [short_val]. f_equal.
    rewrite andb_true_l, andb_false_l. apply existsb_false. intros x. now apply (proj1 (no_list_short true rn root ctx)).
  - intros u IH f len v H. destruct v as [| | | | |[x|]|]; try reflexivity. cbn [short_val]. now apply IH.
  - intros name cfo fs IH f len v H. destruct v; try reflexivity. cbn [short_val]. now apply IH.
  - reflexivity.
  - intros f t IHt r IHr sname cfo self H. cbn [flat_flds] in H. apply andb_prop in H. destruct H as [H1 H2].
    cbn [short_flds]. destruct (owner _ _ _ _ _ _) as [cn env]. rewrite (IHr _ _ _ H2). f_equal.
    destruct (enabled _ _ _ _ _); [|reflexivity]. destruct (resolve_len _ _ _); [|reflexivity].
    destruct (lookup _ _); [|reflexivity]. now apply IHt.
Qed.

(** The structs with lists inside elements of lists. *)
Definition nested : list string := ["HvcC"; "AVCDecoderConfiguration"; "Sgpd"; "Esds"; "Keys"].

(** For each a value with a list that has fewer elements than declared: NAL units
    of 2 bytes that declare 5, an alternative startup entry with one offset
    instead of two, a descriptor with 2 bytes of 7, a key with 1 byte of 4. *)
Definition fb1 (ver : N) : string * val := ("FullBox", VStruct [("Version", VUint ver); ("Flags", VList [VUint 0; VUint 0; VUint 0])]).
Definition shorts : list (string * list (string * val)) :=
  [("HvcC", [("ConfigurationVersion", VUint 1); ("GeneralProfileSpace", VUint 0); ("GeneralTierFlag", VBool false);
          ("GeneralProfileIdc", VUint 0);
          ("GeneralProfileCompatibility",
           VList
             [VBool false; VBool false; VBool false; VBool false; VBool false; VBool false; VBool false; VBool false; VBool false; 
              VBool false; VBool false; VBool false; VBool false; VBool false; VBool false; VBool false; VBool false; VBool false; 
              VBool false; VBool false; VBool false; VBool false; VBool false; VBool false; VBool false; VBool false; VBool false; 
              VBool false; VBool false; VBool false; VBool false; VBool false]);
          ("GeneralConstraintIndicator", VList [VUint 0; VUint 0; VUint 0; VUint 0; VUint 0; VUint 0]); ("GeneralLevelIdc", VUint 0);
          ("Reserved1", VUint 15); ("MinSpatialSegmentationIdc", VUint 0); ("Reserved2", VUint 63);
          ("ParallelismType", VUint 0); ("Reserved3", VUint 63); ("ChromaFormatIdc", VUint 1); ("Reserved4", VUint 31);
          ("BitDepthLumaMinus8", VUint 0); ("Reserved5", VUint 31); ("BitDepthChromaMinus8", VUint 0);
          ("AvgFrameRate", VUint 0); ("ConstantFrameRate", VUint 0); ("NumTemporalLayers", VUint 0);
          ("TemporalIdNested", VUint 3); ("LengthSizeMinusOne", VUint 3); ("NumOfNaluArrays", VUint 1);
          ("NaluArrays",
           VList
             [VStruct
                [("Completeness", VBool true); ("Reserved", VBool false); ("NaluType", VUint 32); ("NumNalus", VUint 1);
                 ("Nalus", VList [VStruct [("Length", VUint 5); ("NALUnit", VList [VUint 17; VUint 34])]])]])]);
   ("AVCDecoderConfiguration", avcc_v);
   ("Sgpd", [fb1 1; ("GroupingType", VList [VUint 97; VUint 108; VUint 115; VUint 116]); ("DefaultLength", VUint 12);
      ("DefaultSampleDescriptionIndex", VUint 0); ("EntryCount", VUint 1); ("RollDistances", VList []);
      ("RollDistancesL", VList []);
      ("AlternativeStartupEntries", VList [VStruct [("RollCount", VUint 2); ("FirstOutputSample", VUint 0);
         ("SampleOffset", VList [VUint 5]); ("Opts", VList [])]]);
      ("AlternativeStartupEntriesL", VList []); ("VisualRandomAccessEntries", VList []);
      ("VisualRandomAccessEntriesL", VList []); ("TemporalLevelEntries", VList []); ("TemporalLevelEntriesL", VList []);
      ("Unsupported", VList [])]);
   ("Esds", [fb1 0; ("Descriptors", VList [VStruct [("Tag", VInt 5); ("Size", VUint 7); ("ESDescriptor", VPtr None);
      ("DecoderConfigDescriptor", VPtr None); ("Data", VList [VUint 17; VUint 34])]])]);
   ("Keys", [fb1 0; ("EntryCount", VInt 1); ("Entries", VList [VStruct [("KeySize", VInt 12);
      ("KeyNamespace", VList [VUint 109; VUint 100; VUint 116; VUint 97]); ("KeyValue", VList [VUint 97])]])])].
Definition unnoticed (ctx : context) (d : boxdef) : bool :=
  existsb (fun x => let '(name, v) := x in
    String.eqb (bd_name d) name && go_struct_b (bd_flds d) v && short_box true d ctx v &&
    match marshal_def d ctx v [] with (Ok _, _) => true | _ => false end) shorts.
Lemma all_nested : forall ctx,
  forallb (fun d => if existsb (String.eqb (bd_name d)) nested then unnoticed ctx d else flat_flds (bd_flds d)) all_defs = true.
Proof. intros ctx. vm_compute. reflexivity. Qed.

(** C13, exactly.  The box types for which Marshal never reports success when any
    list, at any depth, has fewer elements than its declared count, are those
    whose struct is not among the five of [nested]. *)
Theorem C13_exact : forall t ctx d, get_box_def std_registry t ctx = Some d ->
  ((forall v faults n out, go_struct (bd_flds d) v -> short_box true d ctx v = true ->
      marshal std_registry t ctx v faults <> (Ok n, out))
   <-> ~ In (bd_name d) nested).
Proof.
  intros t ctx d G. pose proof (get_box_def_In _ _ _ _ G) as I. change (In d all_defs) in I.
  pose proof (all_nested ctx) as A. rewrite forallb_forall in A. specialize (A d I). split.
  - intros H L.
    assert (X : existsb (String.eqb (bd_name d)) nested = true).
    { apply existsb_exists. exists (bd_name d). split; [exact L|apply String.eqb_refl]. }
    rewrite X in A. unfold unnoticed in A. apply existsb_exists in A. destruct A as ([name v] & _ & A).
    apply andb_prop in A. destruct A as [A A4]. apply andb_prop in A. destruct A as [A A3].
    apply andb_prop in A. destruct A as [_ A2]. apply (proj2 go_b_sound) in A2.
    destruct (marshal_def d ctx v []) as [[n| | |] out] eqn:E1; try discriminate.
    apply (H v [] n out A2 A3). unfold marshal. rewrite G. exact E1.
  - intros L v faults n out _ S. destruct (existsb (String.eqb (bd_name d)) nested) eqn:X.
    + exfalso. apply L. apply existsb_exists in X. destruct X as (x & X & E). apply String.eqb_eq in E. now subst x.
    + apply (C13_short_list_partial t ctx d v faults n out G).
      unfold short_box in *. rewrite <- (proj2 (flat_short (bd_name d) v ctx) _ _ _ _ A). exact S.
Qed.
Print Assumptions C13_exact.

(** What is written of the descriptor with 2 bytes of 7: only tag and size. *)
Example C13_exact_case : exists v, In ("Esds", v) shorts /\
  marshal std_registry (bt "esds") ctx0 v [] = (Ok 9, hex "000000000580808007").
Proof. eexists. split; [right; right; right; left; reflexivity|vm_compute; reflexivity]. Qed.
(** A type on the other side: stts with one entry instead of two. *)
Example C13_exact_stts :
  match get_box_def std_registry (bt "stts") ctx0 with
  | Some d => go_struct_b (bd_flds d) (stts_v 2) && short_box true d ctx0 (stts_v 2) && negb (existsb (String.eqb (bd_name d)) nested)
  | None => false
  end = true.
Proof. vm_compute. reflexivity. Qed.
