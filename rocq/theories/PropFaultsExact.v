(** C15, exactly: for which box types Marshal can lose the failure of a write. *)
From Verif Require Import Base BaseProofs BitIO Schema Structs Methods Registry Marshal.
From Verif Require Import BitIOProofs MarshalProofs MarshalCount PropFaults SpecReuse VersionFacts FaultsExactProofs.
Local Open Scope string_scope.
Local Open Scope list_scope.
Local Open Scope N_scope.
Local Open Scope monad_scope.
Ltac Zify.zify_post_hook ::= Z.to_euclidean_division_equations.

(** The structs whose Marshal may report success although a write has failed:
    those with a list of something other than bytes or four two-bit numbers, and
    those with expandable sizes (esds). *)
Definition losing : list string :=
  ["Co64"; "Ctts"; "Elst"; "Ftyp"; "HvcC"; "Saio"; "AVCDecoderConfiguration"; "Sbgp"; "Sgpd"; "Sidx"; "Stco";
   "Stsc"; "Stss"; "Stsz"; "Stts"; "Styp"; "Tfra"; "Trun"; "Esds"; "Pssh"; "Keys"].

(** For each of them a value, and the number of writes before the one that fails. *)
Definition losses : list (string * list (string * val) * nat) :=
  [("Co64",
         [("FullBox", VStruct [("Version", VUint 0); ("Flags", VList [VUint 0; VUint 0; VUint 0])]);
          ("EntryCount", VUint 1); ("ChunkOffset", VList [VUint 12302652060662169617])], 8%nat);
        ("Ctts",
         [("FullBox", VStruct [("Version", VUint 0); ("Flags", VList [VUint 0; VUint 0; VUint 0])]);
          ("EntryCount", VUint 1);
          ("Entries", VList [VStruct [("SampleCount", VUint 2); ("SampleOffsetV0", VUint 3); ("SampleOffsetV1", VInt 0)]])],
         8%nat);
        ("Elst",
         [("FullBox", VStruct [("Version", VUint 0); ("Flags", VList [VUint 0; VUint 0; VUint 0])]);
          ("EntryCount", VUint 1);
          ("Entries",
           VList
             [VStruct
                [("SegmentDurationV0", VUint 2); ("MediaTimeV0", VInt 3); ("SegmentDurationV1", VUint 0);
                 ("MediaTimeV1", VInt 0); ("MediaRateInteger", VInt (-21829)); ("MediaRateFraction", VInt (-13091))]])], 8%nat);
        ("Ftyp",
         [("MajorBrand", VList [VUint 105; VUint 115; VUint 111; VUint 109]); ("MinorVersion", VUint 1);
          ("CompatibleBrands", VList [VStruct [("CompatibleBrand", VList [VUint 105; VUint 115; VUint 111; VUint 109])]])], 8%nat);
        ("HvcC",
         [("ConfigurationVersion", VUint 1); ("GeneralProfileSpace", VUint 0); ("GeneralTierFlag", VBool false);
          ("GeneralProfileIdc", VUint 0);
          ("GeneralProfileCompatibility",
           VList
             [VBool false; VBool false; VBool false; VBool false; VBool false; VBool false; VBool false; VBool false; VBool false; 
              VBool false; VBool false; VBool false; VBool false; VBool false; VBool false; VBool false; VBool false; VBool false; 
              VBool false; VBool false; VBool false; VBool false; VBool false; VBool false; VBool false; VBool false; VBool false; 
              VBool false; VBool false; VBool false; VBool false; VBool false]);
          ("GeneralConstraintIndicator", VList [VUint 0; VUint 0; VUint 0; VUint 0; VUint 0; VUint 0]); ("GeneralLevelIdc", VUint 0);
          ("Reserved1", VUint 15); ("MinSpatialSegmentationIdc", VUint 0); ("Reserved2", VUint 63);
          ("ParallelismType", VUint 0); ("Reserved3", VUint 63); ("ChromaFormatIdc", VUint 1); ("Reserved4", VUint 31);
          ("BitDepthLumaMinus8", VUint 0); ("Reserved5", VUint 31); ("BitDepthChromaMinus8", VUint 0);
          ("AvgFrameRate", VUint 0); ("ConstantFrameRate", VUint 0); ("NumTemporalLayers", VUint 0);
          ("TemporalIdNested", VUint 3); ("LengthSizeMinusOne", VUint 3); ("NumOfNaluArrays", VUint 1);
          ("NaluArrays",
           VList
             [VStruct
                [("Completeness", VBool true); ("Reserved", VBool false); ("NaluType", VUint 32); ("NumNalus", VUint 1);
                 ("Nalus", VList [VStruct [("Length", VUint 2); ("NALUnit", VList [VUint 17; VUint 34])]])]])], 24%nat);
        ("Saio",
         [("FullBox", VStruct [("Version", VUint 0); ("Flags", VList [VUint 0; VUint 0; VUint 0])]);
          ("AuxInfoType", VList [VUint 0; VUint 0; VUint 0; VUint 0]); ("AuxInfoTypeParameter", VUint 0);
          ("EntryCount", VUint 1); ("OffsetV0", VList [VUint 1122867]); ("OffsetV1", VList [])], 8%nat);
        ("AVCDecoderConfiguration",
         [("ConfigurationVersion", VUint 1); ("Profile", VUint 100); ("ProfileCompatibility", VUint 0);
          ("Level", VUint 31); ("Reserved", VUint 63); ("LengthSizeMinusOne", VUint 3); ("Reserved2", VUint 7);
          ("NumOfSequenceParameterSets", VUint 1);
          ("SequenceParameterSets", VList [VStruct [("Length", VUint 2); ("NALUnit", VList [VUint 1; VUint 2])]]);
          ("NumOfPictureParameterSets", VUint 1);
          ("PictureParameterSets", VList [VStruct [("Length", VUint 1); ("NALUnit", VList [VUint 170])]]);
          ("HighProfileFieldsEnabled", VBool false); ("Reserved3", VUint 0); ("ChromaFormat", VUint 0);
          ("Reserved4", VUint 0); ("BitDepthLumaMinus8", VUint 0); ("Reserved5", VUint 0);
          ("BitDepthChromaMinus8", VUint 0); ("NumOfSequenceParameterSetExt", VUint 0); ("SequenceParameterSetsExt", VList [])],
         6%nat);
        ("Sbgp",
         [("FullBox", VStruct [("Version", VUint 0); ("Flags", VList [VUint 0; VUint 0; VUint 0])]);
          ("GroupingType", VUint 1919904876); ("GroupingTypeParameter", VUint 0); ("EntryCount", VUint 1);
          ("Entries", VList [VStruct [("SampleCount", VUint 2864434397); ("GroupDescriptionIndex", VUint 287454020)]])], 12%nat);
        ("Sgpd",
         [("FullBox", VStruct [("Version", VUint 1); ("Flags", VList [VUint 0; VUint 0; VUint 0])]);
          ("GroupingType", VList [VUint 114; VUint 111; VUint 108; VUint 108]); ("DefaultLength", VUint 2);
          ("DefaultSampleDescriptionIndex", VUint 0); ("EntryCount", VUint 1); ("RollDistances", VList [VInt (-21829)]);
          ("RollDistancesL", VList []); ("AlternativeStartupEntries", VList []); ("AlternativeStartupEntriesL", VList []);
          ("VisualRandomAccessEntries", VList []); ("VisualRandomAccessEntriesL", VList []); ("TemporalLevelEntries", VList []);
          ("TemporalLevelEntriesL", VList []); ("Unsupported", VList [])], 16%nat);
        ("Sidx",
         [("FullBox", VStruct [("Version", VUint 0); ("Flags", VList [VUint 0; VUint 0; VUint 0])]);
          ("ReferenceID", VUint 1); ("Timescale", VUint 1); ("EarliestPresentationTimeV0", VUint 1);
          ("FirstOffsetV0", VUint 0); ("EarliestPresentationTimeV1", VUint 0); ("FirstOffsetV1", VUint 0);
          ("Reserved", VUint 0); ("ReferenceCount", VUint 1);
          ("References",
           VList
             [VStruct
                [("ReferenceType", VBool false); ("ReferencedSize", VUint 287454020); ("SubsegmentDuration", VUint 2864434397);
                 ("StartsWithSAP", VBool false); ("SAPType", VUint 1); ("SAPDeltaTime", VUint 19018564)]])], 28%nat);
        ("Stco",
         [("FullBox", VStruct [("Version", VUint 0); ("Flags", VList [VUint 0; VUint 0; VUint 0])]);
          ("EntryCount", VUint 1); ("ChunkOffset", VList [VUint 2864434397])], 8%nat);
        ("Stsc",
         [("FullBox", VStruct [("Version", VUint 0); ("Flags", VList [VUint 0; VUint 0; VUint 0])]);
          ("EntryCount", VUint 1);
          ("Entries",
           VList
             [VStruct
                [("FirstChunk", VUint 287454020); ("SamplesPerChunk", VUint 2864434397);
                 ("SampleDescriptionIndex", VUint 287454020)]])], 8%nat);
        ("Stss",
         [("FullBox", VStruct [("Version", VUint 0); ("Flags", VList [VUint 0; VUint 0; VUint 0])]);
          ("EntryCount", VUint 1); ("SampleNumber", VList [VUint 2864434397])], 8%nat);
        ("Stsz",
         [("FullBox", VStruct [("Version", VUint 0); ("Flags", VList [VUint 0; VUint 0; VUint 0])]);
          ("SampleSize", VUint 0); ("SampleCount", VUint 1); ("EntrySize", VList [VUint 2864434397])], 12%nat);
        ("Stts",
         [("FullBox", VStruct [("Version", VUint 0); ("Flags", VList [VUint 0; VUint 0; VUint 0])]);
          ("EntryCount", VUint 1); ("Entries", VList [VStruct [("SampleCount", VUint 2); ("SampleDelta", VUint 3)]])],
         8%nat);
        ("Styp",
         [("MajorBrand", VList [VUint 105; VUint 115; VUint 111; VUint 109]); ("MinorVersion", VUint 1);
          ("CompatibleBrands", VList [VStruct [("CompatibleBrand", VList [VUint 105; VUint 115; VUint 111; VUint 109])]])], 8%nat);
        ("Tfra",
         [("FullBox", VStruct [("Version", VUint 0); ("Flags", VList [VUint 0; VUint 0; VUint 0])]);
          ("TrackID", VUint 1); ("Reserved", VUint 0); ("LengthSizeOfTrafNum", VUint 0);
          ("LengthSizeOfTrunNum", VUint 0); ("LengthSizeOfSampleNum", VUint 0); ("NumberOfEntry", VUint 1);
          ("Entries",
           VList
             [VStruct
                [("TimeV0", VUint 287454020); ("MoofOffsetV0", VUint 1432778632); ("TimeV1", VUint 0);
                 ("MoofOffsetV1", VUint 0); ("TrafNumber", VUint 153); ("TrunNumber", VUint 170);
                 ("SampleNumber", VUint 187)]])], 16%nat);
        ("Trun",
         [("FullBox", VStruct [("Version", VUint 0); ("Flags", VList [VUint 0; VUint 1; VUint 0])]);
          ("SampleCount", VUint 1); ("DataOffset", VInt 0); ("FirstSampleFlags", VUint 0);
          ("Entries",
           VList
             [VStruct
                [("SampleDuration", VUint 287454020); ("SampleSize", VUint 0); ("SampleFlags", VUint 0);
                 ("SampleCompositionTimeOffsetV0", VUint 0); ("SampleCompositionTimeOffsetV1", VInt 0)]])], 8%nat);
        ("Esds",
         [("FullBox", VStruct [("Version", VUint 0); ("Flags", VList [VUint 0; VUint 0; VUint 0])]);
          ("Descriptors",
           VList
             [VStruct
                [("Tag", VInt 3); ("Size", VUint 3);
                 ("ESDescriptor",
                  VPtr
                    (Some
                       (VStruct
                          [("ESID", VUint 1); ("StreamDependenceFlag", VBool false); ("UrlFlag", VBool false);
                           ("OcrStreamFlag", VBool false); ("StreamPriority", VInt 0); ("DependsOnESID", VUint 0);
                           ("URLLength", VUint 0); ("URLString", VList []); ("OCRESID", VUint 0)])));
                 ("DecoderConfigDescriptor", VPtr None); ("Data", VList [])]])], 4%nat);
        ("Pssh",
         [("FullBox", VStruct [("Version", VUint 1); ("Flags", VList [VUint 0; VUint 0; VUint 0])]);
          ("SystemID",
           VList
             [VUint 1; VUint 2; VUint 3; VUint 4; VUint 5; VUint 6; VUint 7; VUint 8; VUint 9; VUint 10; VUint 11; VUint 12; 
              VUint 13; VUint 14; VUint 15; VUint 16]); ("KIDCount", VUint 1);
          ("KIDs",
           VList
             [VStruct
                [("KID",
                  VList
                    [VUint 1; VUint 2; VUint 3; VUint 4; VUint 5; VUint 6; VUint 7; VUint 8; VUint 1; VUint 2; VUint 3; VUint 4; 
                     VUint 5; VUint 6; VUint 7; VUint 8])]]); ("DataSize", VInt 0); ("Data", VList [])], 24%nat);
        ("Keys",
         [("FullBox", VStruct [("Version", VUint 0); ("Flags", VList [VUint 0; VUint 0; VUint 0])]);
          ("EntryCount", VInt 1);
          ("Entries",
           VList
             [VStruct
                [("KeySize", VInt 9); ("KeyNamespace", VList [VUint 109; VUint 100; VUint 116; VUint 97]);
                 ("KeyValue", VList [VUint 97])]])], 8%nat)].
Definition fails_after (k : nat) : list bool := repeat false k ++ [true].

(** ** The types that do not lose a failure *)
Definition flds_of (name : string) : flds :=
  match find (fun d => String.eqb (bd_name d) name) all_defs with Some d => bd_flds d | None => FNil end.
Definition offbyte : list string := ["Udta3GppString"; "Av1C"; "Colr"; "Tenc"; "VpcC"].

Lemma classes : forall d, In d all_defs -> ~ In (bd_name d) losing ->
  byte_lists_only (bd_flds d) = true \/ In d (filter (fun d => existsb (String.eqb (bd_name d)) ("Sdtp" :: offbyte)) all_defs).
Proof.
  assert (K : forallb (fun d => existsb (String.eqb (bd_name d)) losing || byte_lists_only (bd_flds d) ||
     existsb (String.eqb (bd_name d)) ("Sdtp" :: offbyte)) all_defs = true) by (vm_compute; reflexivity).
  intros d I N. rewrite forallb_forall in K. specialize (K d I). apply orb_prop in K. destruct K as [K|K].
  - apply orb_prop in K. destruct K as [E|E]; [|left; exact E].
    exfalso. apply N. apply existsb_exists in E. destruct E as (x & X & E). apply String.eqb_eq in E. now subst x.
  - right. apply filter_In. auto.
Qed.
Definition names_ok (fs : flds) : bool :=
  (fix go l := match l with [] => true | x :: r => negb (existsb (String.eqb x) r) && go r end) (map fst (fields_of fs)).
Lemma names_ok_sound : forall fs, names_ok fs = true -> NoDup (map fst (fields_of fs)).
Proof.
  intros fs. unfold names_ok. induction (map fst (fields_of fs)) as [|x l IH]; intros H; [constructor|].
  apply andb_prop in H. destruct H as [H1 H2]. constructor; [|auto].
  intros I. apply negb_true_iff in H1. assert (existsb (String.eqb x) l = true) by (apply existsb_exists; exists x; split; [exact I|apply String.eqb_refl]).
  congruence.
Qed.
Lemma seven : forall d, In d (filter (fun d => existsb (String.eqb (bd_name d)) ("Sdtp" :: offbyte)) all_defs) ->
  exists n, In n ("Sdtp" :: offbyte) /\ bd_name d = n /\ bd_flds d = flds_of n.
Proof.
  assert (K : forallb (fun d => flds_eqb (bd_flds d) (flds_of (bd_name d)))
            (filter (fun d => existsb (String.eqb (bd_name d)) ("Sdtp" :: offbyte)) all_defs) = true) by (vm_compute; reflexivity).
  intros d I. rewrite forallb_forall in K. specialize (K d I). apply sty_eqb_eq in K. apply filter_In in I. destruct I as [_ I].
  apply existsb_exists in I. destruct I as (n & I & E). apply String.eqb_eq in E. subst n. eauto.
Qed.

(** what [lay] looks at: is the field always there; is it whole bytes; how many bits *)
Definition always (f : finfo) : bool :=
  (f_version f =? anyVersion) && (f_nVersion f =? anyVersion) && (f_optFlag f =? 0) && (f_nOptFlag f =? 0) && negb (f_optDyn f).
Definition plain (rn : string) (f : finfo) : bool :=
  negb (f_varint f) && match hook_of rn (f_name f) with HNone => true | _ => false end.
Fixpoint stats (rn : string) (fs : flds) : list (bool * bool * option N * bool) :=
  match fs with
  | FNil => []
  | FCons f t r => (always f, rep_val true f t, bits_val f t, plain rn f) :: stats rn r
  end.
Fixpoint lay3 (l : list (bool * bool * option N * bool)) (on : list bool) (k : N) : option N :=
  match l, on with
  | (alw, rep, bits, ok) :: r, b :: on' =>
      if alw || b then
        if ok then
          if rep && (k =? 0) then lay3 r on' 0
          else match bits with Some n => lay3 r on' ((k + n) mod 8) | None => None end
        else None
      else lay3 r on' k
  | _, _ => Some k
  end.
Definition target (rn : string) (root : list (string * val)) (ctx : context) (f : finfo) : bool :=
  is_target (get_version root) (get_flags root) rn (mkenv root (get_version root) (get_flags root) ctx) f.
Lemma always_on : forall rn root ctx f, always f = true -> target rn root ctx f = true.
Proof.
  intros rn root ctx f A. unfold always in A. repeat (apply andb_prop in A; destruct A as [A ?]).
  unfold target, is_target. apply negb_true_iff in H. rewrite H, H0, H1, H2, A.
  cbn [negb andb orb]. now rewrite andb_false_r.
Qed.
Lemma lay_lay3 : forall rn root ctx fs k,
  lay rn root ctx fs k = lay3 (stats rn fs) (map (target rn root ctx) (finfos fs)) k.
Proof.
  intros rn root ctx fs. induction fs as [|f t r IH]; intros k; [reflexivity|].
  cbn [lay stats lay3 finfos map]. fold (target rn root ctx f).
  assert (E : always f || target rn root ctx f = target rn root ctx f).
  { destruct (always f) eqn:A; [|reflexivity]. now rewrite (always_on _ root ctx _ A). }
  rewrite E. destruct (target rn root ctx f); [|apply IH]. unfold plain.
  destruct (f_varint f); destruct (hook_of rn (f_name f)); cbn [negb andb]; try reflexivity.
  destruct (_ && _); [apply IH|]. destruct (bits_val f t); [apply IH|reflexivity].
Qed.
Ltac computed x := let y := eval vm_compute in x in
  let E := fresh in assert (E : x = y) by (vm_compute; reflexivity); rewrite E in *; clear E.
Lemma colr_same : forall v ctx d, target "Colr" v ctx (nth 4 (finfos (flds_of "Colr")) d) = target "Colr" v ctx (nth 5 (finfos (flds_of "Colr")) d).
Proof.
  intros v ctx d. computed (finfos (flds_of "Colr")). cbn [nth]. unfold target, is_target.
  cbn [f_version f_nVersion f_optFlag f_nOptFlag f_optDyn f_name]. reflexivity.
Qed.
Lemma lays : forall n, In n offbyte -> forall v ctx, exists k, lay n v ctx (flds_of n) 0 = Some k.
Proof.
  intros n I v ctx. rewrite lay_lay3.
  assert (C : n = "Colr" -> nth 4 (map (target n v ctx) (finfos (flds_of n))) (target n v ctx (plain_info "" 0 0 true)) =
                            nth 5 (map (target n v ctx) (finfos (flds_of n))) (target n v ctx (plain_info "" 0 0 true))).
  { intros ->. rewrite !map_nth. apply colr_same. }
  assert (L : List.length (map (target n v ctx) (finfos (flds_of n))) = List.length (finfos (flds_of n))) by apply map_length.
  generalize dependent (target n v ctx (plain_info "" 0 0 true)).
  generalize dependent (map (target n v ctx) (finfos (flds_of n))). intros on L dflt C.
  unfold offbyte, In in I.
  repeat match type of I with _ \/ _ => destruct I as [<-|I] end; [..|destruct I].
  all: match type of L with _ = ?x => computed x end.
  all: match goal with |- context [stats ?x ?y] => computed (stats x y) end.
  all: repeat (destruct on as [|? on]; [discriminate L|]).
  3: cbn [nth] in C; specialize (C eq_refl); subst; destruct b0, b1, b2, b4, b5, b6.
  all: clear - on; try (eexists; vm_compute; reflexivity).
  destruct b6, b7; eexists; vm_compute; reflexivity.
Qed.
Lemma offbyte_names : forall n, In n offbyte -> names_ok (flds_of n) = true.
Proof.
  assert (K : forallb (fun n => names_ok (flds_of n)) offbyte = true) by (vm_compute; reflexivity).
  intros n. rewrite forallb_forall in K. apply K.
Qed.

Definition honest_def (d : boxdef) : Prop := forall ctx v faults n out, go_struct (bd_flds d) v ->
  marshal_def d ctx v faults = (Ok n, out) -> marshal_def d ctx v [] = (Ok n, out).

Lemma offbyte_honest : forall d, In (bd_name d) offbyte -> bd_flds d = flds_of (bd_name d) -> honest_def d.
Proof.
  intros d I E ctx v faults n out G H. unfold marshal_def in *.
  destruct (lays _ I v ctx) as [k L]. rewrite E in *.
  pose proof (at_lay (bd_name d) v ctx _ 0 k eq_refl L (go_lookup _ _ G (names_ok_sound _ (offbyte_names _ I)))) as A.
  destruct (marshal_flds _ _ _ _ _ _ _ _) as [[[]| | |] s] eqn:Q; try discriminate.
  apply A in Q; [|reflexivity]. destruct Q as [Q _].
  change (clean (mkmst (new_writer faults) 0)) with (mkmst (new_writer []) 0) in Q. rewrite Q. exact H.
Qed.

Definition sdtp_full : finfo := match flds_of "Sdtp" with FCons f _ _ => f | FNil => plain_info "" 0 0 false end.
Definition sdtp_samples : finfo := match flds_of "Sdtp" with FCons _ _ (FCons f _ _) => f | _ => plain_info "" 0 0 false end.
Definition sample_flds : flds :=
  FCons (plain_info "IsLeading" 0 2 false) (SUint 8) (FCons (plain_info "SampleDependsOn" 1 2 false) (SUint 8)
  (FCons (plain_info "SampleIsDependedOn" 2 2 false) (SUint 8) (FCons (plain_info "SampleHasRedundancy" 3 2 false) (SUint 8) FNil))).
Lemma sdtp_form : flds_of "Sdtp" =
  FCons (plain_info "FullBox" 0 0 true) fb_ty
  (FCons (plain_info "Samples" 1 8 false) (SSlice (SStruct "SdtpSampleElem" false sample_flds)) FNil).
Proof. vm_compute. reflexivity. Qed.
Lemma sample_elem : forall root ctx f size len x, go_value (SStruct "SdtpSampleElem" false sample_flds) x ->
  exists a b c e, forall s, marshal_val "Sdtp" root ctx f size len (SStruct "SdtpSampleElem" false sample_flds) x s = elem4 a b c e s.
Proof.
  intros root ctx f size len x (l & -> & G). unfold sample_flds in G.
  destruct l as [|[n1 v1] [|[n2 v2] [|[n3 v3] [|[n4 v4] [|]]]]]; cbn [go_struct] in G; try tauto.
  destruct G as (-> & [a ->] & -> & [b ->] & -> & [c ->] & -> & [e ->] & _). exists a, b, c, e. intros s.
  unfold sample_flds. cbn [marshal_val marshal_flds].
  assert (T : forall g, always g = true -> forall ver fl cn env, is_target ver fl cn env g = true).
  { intros g A ver fl cn env. unfold always in A. repeat (apply andb_prop in A; destruct A as [A ?]).
    unfold is_target. apply negb_true_iff in H. rewrite H, H0, H1, H2, A.
    cbn [negb andb orb]. now rewrite andb_false_r. }
  rewrite !T by reflexivity.
  cbn [resolve_size resolve_len plain_info f_sizeDyn f_lenDyn f_size f_length f_name f_varint cfo_name].
  change (hook_of "Sdtp" "IsLeading") with HNone. change (hook_of "Sdtp" "SampleDependsOn") with HNone.
  change (hook_of "Sdtp" "SampleIsDependedOn") with HNone. change (hook_of "Sdtp" "SampleHasRedundancy") with HNone.
  cbn [on_write lookup String.eqb Ascii.eqb Bool.eqb].
  unfold elem4. fold (put2 a). fold (put2 b). fold (put2 c). fold (put2 e).
  unfold bind, ret, add_wbits. cbn [fst snd].
  assert (Z : forall q, mkmst (m_w q) (m_wbits q + 0) = q) by (intros [w q]; cbn; now rewrite N.add_0_r).
  rewrite Z. destruct (put2 a s) as [[[]| | |] s1]; try reflexivity. rewrite Z.
  destruct (put2 b s1) as [[[]| | |] s2]; try reflexivity. rewrite Z.
  destruct (put2 c s2) as [[[]| | |] s3]; try reflexivity. rewrite Z.
  destruct (put2 e s3) as [[[]| | |] s4]; reflexivity.
Qed.
Lemma flds_split : forall rn root ctx sname cfo self f t rest s,
  marshal_flds rn root ctx sname cfo self (FCons f t rest) s =
  (marshal_flds rn root ctx sname cfo self (FCons f t FNil) ;;; marshal_flds rn root ctx sname cfo self rest) s.
Proof.
  intros. rewrite !marshal_flds_cons. cbv zeta. destruct (resolve_size _ _ _); [|reflexivity].
  destruct (resolve_len _ _ _); [|reflexivity]. 
  match goal with |- bind ?m _ s = _ => generalize m end. intros m. unfold bind. cbn [marshal_flds]. unfold ret.
  destruct (m s) as [[[]| | |] s1]; reflexivity.
Qed.
Lemma sdtp_honest : forall d, bd_name d = "Sdtp" -> bd_flds d = flds_of "Sdtp" -> honest_def d.
Proof.
  intros d N E ctx v faults n out G H. unfold marshal_def in *. rewrite N, E, sdtp_form in *. clear E.
  set (t1 := fb_ty) in *. set (f1 := plain_info "FullBox" 0 0 true) in *.
  set (f2 := plain_info "Samples" 1 8 false) in *. set (u := SStruct "SdtpSampleElem" false sample_flds) in *.
  rewrite (flds_split "Sdtp" v ctx "Sdtp" true v f1 t1) in *. unfold bind in *.
  set (one := FCons f1 t1 FNil) in *.
  assert (R1 : rep_flds true one = true) by reflexivity. assert (B1 : bool_ok_flds one = true) by reflexivity.
  pose proof (proj2 (marshal_good true "Sdtp" v ctx) one "Sdtp" true v R1) as [A1 A2].
  pose proof (proj2 (marshal_steady "Sdtp" v ctx) one "Sdtp" true v B1) as A3.
  destruct (marshal_flds "Sdtp" v ctx "Sdtp" true v one (mkmst (new_writer faults) 0)) as [[[]| | |] s1] eqn:E1; try discriminate.
  assert (AL : al true (mkmst (new_writer faults) 0)) by (intros _; reflexivity).
  pose proof (A1 _ _ _ AL E1) as C1. pose proof (A2 _ _ _ AL E1 eq_refl) as W1.
  change (clean (mkmst (new_writer faults) 0)) with (mkmst (new_writer []) 0) in C1. rewrite C1.
  assert (S1 : sound 0 s1).
  { destruct (A3 _ _ minv_new) as (b & I & L). rewrite C1 in I, L. cbn [snd] in I, L. split; [exact W1|].
    destruct I as (pend & P & Eb & Wd & _). change (w_width (m_w (clean s1))) with (w_width (m_w s1)) in Wd.
    change (m_wbits (clean s1)) with (m_wbits s1) in L. rewrite Wd.
    assert (Q : lenN ([] ++ b) = 8 * lenN (w_out (m_w (clean s1))) + lenN pend) by (rewrite Eb, lenN_app, lenN_bits_of_bytes; reflexivity).
    unfold lenN in P, Q, L |- *. clear - P Q L W1. lia. }
  clear A1 A2 A3.
  assert (GV : exists l, lookup "Samples" v = Some (VList l) /\ Forall (go_value u) l).
  { destruct v as [|[n1 v1] [|[n2 v2] [|]]]; cbn [go_struct] in G; try tauto.
    destruct G as (-> & _ & -> & (l & -> & F) & _). exists l. split; [reflexivity|exact F]. }
  destruct GV as (l & Lk & F). rewrite marshal_flds_cons in *. cbv zeta in *.
  assert (T : is_target (get_version v) (get_flags v) (cfo_name "Sdtp" true "Sdtp") (cfo_env v ctx true v) f2 = true).
  { apply (always_on "Sdtp" v ctx f2). reflexivity. }
  rewrite T in *. clear T.
  change (resolve_size (cfo_name "Sdtp" true "Sdtp") (cfo_env v ctx true v) f2) with (Some 8) in *.
  change (resolve_len (cfo_name "Sdtp" true "Sdtp") (cfo_env v ctx true v) f2) with (Some LengthUnlimited) in *.
  change (hook_of (cfo_name "Sdtp" true "Sdtp") (f_name f2)) with HNone in *. cbn [on_write] in *.
  change (f_name f2) with "Samples" in *. rewrite Lk in *.
  unfold bind, ret, add_wbits in *. cbn [fst snd] in *.
  assert (Z : forall q, mkmst (m_w q) (m_wbits q + 0) = q) by (intros [w q]; cbn; now rewrite N.add_0_r).
  rewrite !Z in *.
  assert (M : forall s, marshal_val "Sdtp" v ctx f2 8 LengthUnlimited (SSlice u) (VList l) s =
     iter_list (fun x => ignore_err (marshal_val "Sdtp" v ctx f2 8 LengthUnlimited u x)) (takeN (lenN l) l) s).
  { intros s. cbn [marshal_val]. rewrite N.eqb_refl. reflexivity. }
  rewrite !M in *.
  destruct (elems_loop (marshal_val "Sdtp" v ctx f2 8 LengthUnlimited u) (takeN (lenN l) l)) as [K _].
  { rewrite takeN_all by lia. rewrite Forall_forall in *. intros x X. apply sample_elem. now apply F. }
  destruct (K s1 S1) as (s2 & I1 & [I2|I2]); rewrite I1 in H.
  - rewrite I2. exact H.
  - exfalso. cbn [marshal_flds] in H. unfold ret in H. rewrite I2 in H. discriminate.
Qed.

(** ** The types that do *)
Fixpoint go_value_b (t : sty) (v : val) : bool :=
  match t, v with
  | SUint _, VUint _ | SInt _, VInt _ | SBool, VBool _ | SStr, VStr _ => true
  | SArr n u, VList l => (lenN l =? n) && forallb (go_value_b u) l
  | SSlice u, VList l => forallb (go_value_b u) l
  | SPtr u, VPtr None => true
  | SPtr u, VPtr (Some x) => go_value_b u x
  | SStruct _ _ fs, VStruct l => go_struct_b fs l
  | _, _ => false
  end
with go_struct_b (fs : flds) (l : list (string * val)) : bool :=
  match fs, l with
  | FNil, [] => true
  | FCons f t r, (n, v) :: m => String.eqb n (f_name f) && go_value_b t v && go_struct_b r m
  | _, _ => false
  end.
Lemma go_b_sound : (forall t v, go_value_b t v = true -> go_value t v) /\
  (forall fs l, go_struct_b fs l = true -> go_struct fs l).
Proof.
  assert (FA : forall u, (forall v, go_value_b u v = true -> go_value u v) -> forall l, forallb (go_value_b u) l = true -> Forall (go_value u) l).
  { intros u IH l H. rewrite forallb_forall in H. apply Forall_forall. auto. }
  apply sty_flds_mutind.
  - intros w v H. destruct v; try discriminate. cbn. eauto.
  - intros w v H. destruct v; try discriminate. cbn. eauto.
  - intros v H. destruct v; try discriminate. cbn. eauto.
  - intros v H. destruct v; try discriminate. cbn. eauto.
  - intros n u IH v H. destruct v as [| | | |l| |]; try discriminate. cbn [go_value_b] in H. apply andb_prop in H. destruct H as [H1 H2].
    apply N.eqb_eq in H1. exists l. auto.
  - intros u IH v H. destruct v as [| | | |l| |]; try discriminate. cbn [go_value_b] in H. exists l. auto.
  - intros u IH v H. destruct v as [| | | | |[x|]|]; try discriminate; [|left; reflexivity]. right. exists x. auto.
  - intros name cfo fs IH v H. destruct v as [| | | | | |l]; try discriminate. exists l. split; [reflexivity|]. auto.
  - intros l H. destruct l; [exact I|discriminate].
  - intros f t IHt r IHr l H. destruct l as [|[n v] l]; [discriminate|]. cbn [go_struct_b] in H.
    apply andb_prop in H. destruct H as [H H3]. apply andb_prop in H. destruct H as [H1 H2]. apply String.eqb_eq in H1.
    cbn [go_struct]. auto.
Qed.
Definition loses (ctx : context) (d : boxdef) : bool :=
  existsb (fun x => let '(name, v, k) := x in
    String.eqb (bd_name d) name && go_struct_b (bd_flds d) v &&
    match marshal_def d ctx v (fails_after k), marshal_def d ctx v [] with
    | (Ok _, out), (Ok _, out') => negb (bytes_eqb out out')
    | _, _ => false
    end) losses.
Lemma all_lose : forall ctx, forallb (fun d => implb (existsb (String.eqb (bd_name d)) losing) (loses ctx d)) all_defs = true.
Proof. intros ctx. vm_compute. reflexivity. Qed.

(** C15, exactly.  Of the registered box types and the metadata items, those for
    which the claim holds -- when Marshal reports success although the writer was
    failing, it has written exactly what it writes when no write fails -- are
    those whose struct is not among the 21 of [losing].  The claim is for the
    values a Go variable of the struct's type can hold. *)
Theorem C15_exact : forall t ctx d, get_box_def std_registry t ctx = Some d ->
  ((forall v faults n out, go_struct (bd_flds d) v ->
      marshal std_registry t ctx v faults = (Ok n, out) -> marshal std_registry t ctx v [] = (Ok n, out))
   <-> ~ In (bd_name d) losing).
Proof.
  intros t ctx d G. pose proof (get_box_def_In _ _ _ _ G) as I. change (In d all_defs) in I. split.
  - intros H L. pose proof (all_lose ctx) as A. rewrite forallb_forall in A. specialize (A d I).
    assert (X : existsb (String.eqb (bd_name d)) losing = true).
    { apply existsb_exists. exists (bd_name d). split; [exact L|apply String.eqb_refl]. }
    rewrite X in A. change (implb true (loses ctx d)) with (loses ctx d) in A. unfold loses in A.
    apply existsb_exists in A. destruct A as ([[name v] k] & _ & A).
    apply andb_prop in A. destruct A as [A A3]. apply andb_prop in A. destruct A as [_ A2].
    apply (proj2 go_b_sound) in A2.
    destruct (marshal_def d ctx v (fails_after k)) as [[n| | |] out] eqn:E1; try discriminate.
    destruct (marshal_def d ctx v []) as [[n'| | |] out'] eqn:E2; try discriminate.
    assert (F : marshal std_registry t ctx v (fails_after k) = (Ok n, out)) by (unfold marshal; rewrite G; exact E1).
    apply (H _ _ _ _ A2) in F. unfold marshal in F. rewrite G, E2 in F. injection F as <- <-.
    rewrite (proj2 (bytes_eqb_eq out' out') eq_refl) in A3. discriminate.
  - intros L v faults n out V H. destruct (classes d I L) as [B|B].
    + exact (C15_write_failures_partial t ctx d v faults n out G B H).
    + destruct (seven d B) as (name & N & E1 & E2). unfold marshal in *. rewrite G in *.
      destruct N as [<-|N].
      * exact (sdtp_honest d E1 E2 ctx v faults n out V H).
      * subst name. exact (offbyte_honest d N E2 ctx v faults n out V H).
Qed.
Print Assumptions C15_exact.

(** In numbers: 21 of the 156 registrations lose failures. *)
Example C15_exact_count :
  (lenN std_registry, lenN (filter (fun x => existsb (String.eqb (bd_name (snd x))) losing) std_registry)) = (156, 21).
Proof. vm_compute. reflexivity. Qed.
(** tenc, in the class without losses, is really hit by failures: the call that
    fails and the outcome. *)
Definition tenc_v : list (string * val) :=
  [("FullBox", VStruct [("Version", VUint 0); ("Flags", VList [VUint 0; VUint 0; VUint 0])]);
   ("Reserved", VUint 0); ("DefaultCryptByteBlock", VUint 1); ("DefaultSkipByteBlock", VUint 9);
   ("DefaultIsProtected", VUint 1); ("DefaultPerSampleIVSize", VUint 0);
   ("DefaultKID", VList (repeat (VUint 7) 16)); ("DefaultConstantIVSize", VUint 2); ("DefaultConstantIV", VList [VUint 1; VUint 2])].
Example C15_exact_case :
  go_struct (flds_of "Tenc") tenc_v /\
  map (fun k => fst (marshal std_registry (bt "tenc") ctx0 tenc_v (fails_after k))) [4; 5; 24; 25; 26]%nat =
  [Err EWrite; Err EWrite; Err EWrite; Err EWrite; Ok 27].
Proof. split; [apply (proj2 go_b_sound); vm_compute; reflexivity|vm_compute; reflexivity]. Qed.
