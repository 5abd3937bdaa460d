(** C13: Marshal and lists that are shorter than declared. *)
From Verif Require Import Base BaseProofs BitIO Schema Methods Registry Marshal SpecCodec SpecShort.
From Verif Require Import BitIOProofs BitIOFacts MarshalProofs MarshalCount.
Local Open Scope string_scope.
Local Open Scope list_scope.
Local Open Scope N_scope.
Local Open Scope monad_scope.

(** the fields that some method writes itself, or not at all, are not lists *)
Definition scalar (t : sty) : bool := match t with SStr | SBool | SUint _ | SInt _ => true | _ => false end.
Fixpoint hs_val (rname : string) (t : sty) : bool :=
  match t with
  | SArr _ u | SSlice u | SPtr u => hs_val rname u
  | SStruct name cfo fs => hs_flds rname name cfo fs
  | _ => true
  end
with hs_flds (rname sname : string) (cfo : bool) (fs : flds) : bool :=
  match fs with
  | FNil => true
  | FCons f t r =>
      match hook_of (if cfo then sname else rname) (f_name f) with
      | HNone | HEmsgData | HHdlrName => true
      | HEmsgSkip | HAvcHigh => scalar t
      end && hs_val rname t && hs_flds rname sname cfo r
  end.
Lemma std_hs : forallb (fun d => hs_flds (bd_name d) (bd_name d) true (bd_flds d)) all_defs = true.
Proof. vm_compute. reflexivity. Qed.

Definition notok {A} (r : res A) : Prop := match r with Ok _ => False | _ => True end.
Lemma notok_bind : forall S A B (m : M S A) (k : A -> M S B) s,
  (notok (fst (m s)) \/ forall a s', notok (fst (k a s'))) -> notok (fst ((bind m k) s)).
Proof.
  intros S A B m k s H. unfold bind. destruct (m s) as [[a|e| |] s1]; cbn [fst notok] in *; try exact I.
  destruct H as [H|H]; [destruct H|apply H].
Qed.
Lemma notok_iter : forall g (l : list val), (exists x, In x l /\ forall s, notok (fst (g x s))) ->
  forall s, notok (fst (iter_list g l s)).
Proof.
  intros g. induction l as [|y l IH]; intros (x & I1 & H) s; [destruct I1|]. cbn [iter_list]. apply notok_bind.
  destruct I1 as [->|I1]; [left; apply H|right]. intros _ s'. apply IH. eauto.
Qed.
Lemma short_flds_cons : forall deep rn root ctx sname cfo self f t rest,
  short_flds deep rn root ctx sname cfo self (FCons f t rest) =
  let (cn, env) := owner rn root ctx cfo sname self in
  match enabled (get_version root) (get_flags root) cn env f, resolve_len cn env f, lookup (f_name f) self with
  | true, Some len, Some v => short_val deep rn root ctx f len t v
  | _, _, _ => false
  end || short_flds deep rn root ctx sname cfo self rest.
Proof. reflexivity. Qed.

Lemma marshal_short : forall rn root ctx,
  (forall t f size len v s, hs_val rn t = true -> short_val false rn root ctx f len t v = true ->
     notok (fst (marshal_val rn root ctx f size len t v s))) /\
  (forall fs sname cfo self s, hs_flds rn sname cfo fs = true -> short_flds false rn root ctx sname cfo self fs = true ->
     notok (fst (marshal_flds rn root ctx sname cfo self fs s))).
Proof.
  intros rn root ctx. apply sty_flds_mutind; try discriminate; try (intros; destruct v; discriminate).
  - intros n u IH f size len v s Hs H. destruct v as [| | | |l| |]; try discriminate.
    cbn [short_val marshal_val hs_val] in *. apply existsb_exists in H. destruct H as (x & I1 & H).
    apply notok_iter. exists x. split; [exact I1|]. intros s'. now apply IH.
  - intros u IH f size len v s Hs H. destruct v as [| | | |l| |]; try discriminate.
    cbn [short_val marshal_val andb] in *. rewrite orb_false_r in H. rewrite H. exact I.
  - intros u IH f size len v s Hs H. destruct v as [| | | | |[x|]|]; try discriminate.
    cbn [short_val marshal_val hs_val] in *. now apply IH.
  - intros name cfo fs IH f size len v s Hs H. destruct v as [| | | | | |l]; try discriminate.
    apply IH; [exact Hs|exact H].
  - intros f t IHt rest IHr sname cfo self s Hs H. rewrite short_flds_cons in H. rewrite marshal_flds_cons.
    change (match hook_of (if cfo then sname else rn) (f_name f) with
      | HNone | HEmsgData | HHdlrName => true | HEmsgSkip | HAvcHigh => scalar t end
      && hs_val rn t && hs_flds rn sname cfo rest = true) in Hs.
    apply andb_prop in Hs. destruct Hs as [Hs H3]. apply andb_prop in Hs. destruct Hs as [H1 H2].
    assert (O : owner rn root ctx cfo sname self = (cfo_name rn cfo sname, cfo_env root ctx cfo self))
      by (destruct cfo; reflexivity).
    rewrite O in H. change (if cfo then sname else rn) with (cfo_name rn cfo sname) in H1.
    set (cn := cfo_name rn cfo sname) in *. set (env := cfo_env root ctx cfo self) in *.
    cbv zeta. destruct (resolve_size cn env f) as [size|]; [|exact I].
    destruct (resolve_len cn env f) as [len|]; [|exact I].
    apply notok_bind. apply orb_prop in H. destruct H as [H|H]; [left|right; intros _ s'; now apply IHr].
    rewrite is_target_enabled. destruct (enabled _ _ _ _ _); [|discriminate].
    destruct (lookup (f_name f) self) as [v|]; [|discriminate].
    assert (SC : scalar t = false) by (destruct t; try reflexivity; destruct v; discriminate).
    rewrite SC in H1.
    assert (OW : forall wo s', on_write (hook_of cn (f_name f)) (get_version root) self s = (Ok wo, s') -> snd wo = false).
    { intros wo s'. destruct (hook_of cn (f_name f)); try discriminate; cbn [on_write].
      - unfold ret. intros E. now injection E as <- <-.
      - destruct (get_version root =? 0); [unfold ret; intros E; now injection E as <- <-|].
        unfold bind. destruct (util_write_string _ s) as [[] s1]; try discriminate.
        destruct (util_write_string _ s1) as [[] s2]; try discriminate. intros E. now injection E as <- <-.
      - unfold ret. intros E. now injection E as <- <-. }
    unfold bind. destruct (on_write _ _ _ s) as [[wo| | |] s1]; try exact I.
    specialize (OW wo s1 eq_refl). cbn [add_wbits]. rewrite OW. now apply IHt.
Qed.

(** C13, for lists that are not themselves inside elements of a list: whatever
    the writer does, Marshal does not report success. *)
Theorem C13_short_list_partial : forall t ctx d v faults n out,
  get_box_def std_registry t ctx = Some d -> short_box false d ctx v = true ->
  marshal std_registry t ctx v faults <> (Ok n, out).
Proof.
  intros t ctx d v faults n out G H E. unfold marshal in E. rewrite G in E. unfold marshal_def in E.
  pose proof (all_defs_check _ _ _ _ _ eq_refl std_hs G) as HS. cbv beta in HS.
  pose proof (proj2 (marshal_short (bd_name d) v ctx) _ _ _ _ (mkmst (new_writer faults) 0) HS H) as Q.
  destruct (marshal_flds _ _ _ _ _ _ _ _) as [[] s]; try discriminate. exact Q.
Qed.
Print Assumptions C13_short_list_partial.

Definition stts_v (count : N) : list (string * val) :=
  [("FullBox", VStruct [("Version", VUint 0); ("Flags", VList [VUint 0; VUint 0; VUint 0])]);
   ("EntryCount", VUint count);
   ("Entries", VList [VStruct [("SampleCount", VUint 5); ("SampleDelta", VUint 6)]])].
(** stts with one entry: the counts 0 and 1 are written, 2 and more are refused *)
Example C13_case :
  match get_box_def std_registry (bt "stts") ctx0 with
  | Some d => map (fun c => (short_box false d ctx0 (stts_v c),
                             match fst (marshal std_registry (bt "stts") ctx0 (stts_v c) []) with Ok n => n | _ => 0 end))
                  [0; 1; 2; 1000]
  | None => []
  end = [(false, 8); (false, 16); (true, 0); (true, 0)].
Proof. vm_compute. reflexivity. Qed.

(** Inside the elements of a list the claim is false: an avcC box whose parameter
    set has two bytes and declares five is written, without the bytes of the set. *)
Definition avcc_v : list (string * val) :=
  [("ConfigurationVersion", VUint 1); ("Profile", VUint 66); ("ProfileCompatibility", VUint 0);
   ("Level", VUint 30); ("Reserved", VUint 63); ("LengthSizeMinusOne", VUint 3); ("Reserved2", VUint 7);
   ("NumOfSequenceParameterSets", VUint 1);
   ("SequenceParameterSets", VList [VStruct [("Length", VUint 5); ("NALUnit", VList [VUint 103; VUint 66])]]);
   ("NumOfPictureParameterSets", VUint 0); ("PictureParameterSets", VList []);
   ("HighProfileFieldsEnabled", VBool false); ("Reserved3", VUint 0); ("ChromaFormat", VUint 0);
   ("Reserved4", VUint 0); ("BitDepthLumaMinus8", VUint 0); ("Reserved5", VUint 0);
   ("BitDepthChromaMinus8", VUint 0); ("NumOfSequenceParameterSetExt", VUint 0);
   ("SequenceParameterSetsExt", VList [])].
Theorem C13_short_list_refuted : exists t ctx d v out,
  get_box_def std_registry t ctx = Some d /\ short_box true d ctx v = true /\
  marshal std_registry t ctx v [] = (Ok (lenN out), out).
Proof.
  assert (E : match get_box_def std_registry (bt "avcC") ctx0 with
              | Some d => short_box true d ctx0 avcc_v | None => false end = true) by (vm_compute; reflexivity).
  destruct (get_box_def std_registry (bt "avcC") ctx0) as [d|] eqn:G; [|discriminate].
  exists (bt "avcC"), ctx0, d, avcc_v, (hex "0142001effe1000500"). split; [exact G|]. split; [exact E|].
  vm_compute. reflexivity.
Qed.
Print Assumptions C13_short_list_refuted.
