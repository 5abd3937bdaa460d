(** C30: ExtractBoxesWithPayload returns, with each box, what ReadPayload returns
    for it. *)
From Verif Require Import Base BaseProofs Schema Structs Methods Registry Marshal Unmarshal BoxInfo ReadTree Extract
     MarshalProofs UnmarshalProofs Flow SpecTree SpecExtract PropExtract.
Local Open Scope string_scope.
Local Open Scope list_scope.
Local Open Scope N_scope.
Local Open Scope monad_scope.

(** ** Which decodings depend on the context.  Of all methods of the registered
    structs only those of AudioSampleEntry look at it. *)
Definition like_env (e e' : menv) : Prop :=
  e_self e = e_self e' /\ e_ver e = e_ver e' /\ e_flags e = e_flags e'.
Fixpoint cfree (c : mcond) : bool :=
  match c with
  | CQt | CWave => false
  | CNot a => cfree a
  | CAnd a b | COr a b => cfree a && cfree b
  | _ => true
  end.
Fixpoint mfree (m : mexp) : bool :=
  match m with
  | MIf c a b => cfree c && mfree a && mfree b
  | MAdd a b | MSub a b | MMul a b | MMul32 a b => mfree a && mfree b
  | _ => true
  end.
Lemma cfree_ok : forall e e' c, like_env e e' -> cfree c = true -> ceval e c = ceval e' c.
Proof.
  intros e e' c (H1 & H2 & H3). induction c; cbn [cfree ceval]; intros H; try discriminate;
    rewrite ?H1, ?H2, ?H3; auto; try (apply andb_prop in H; destruct H as [Ha Hb]).
  - now rewrite IHc.
  - now rewrite IHc1, IHc2.
  - now rewrite IHc1, IHc2.
Qed.
Lemma mfree_ok : forall e e' m, like_env e e' -> mfree m = true -> meval e m = meval e' m.
Proof.
  intros e e' m L. pose proof L as (H1 & H2 & H3). induction m; cbn [mfree meval]; intros H; rewrite ?H1; auto;
    try (apply andb_prop in H; destruct H as [Ha Hb]).
  - apply andb_prop in Ha. destruct Ha as [Hc Ha]. rewrite (cfree_ok e e') by auto.
    destruct (ceval e' c); auto.
  - now rewrite IHm1, IHm2.
  - now rewrite IHm1, IHm2.
  - now rewrite IHm1, IHm2.
  - now rewrite IHm1, IHm2.
Qed.
Lemma methods_free : forall cn f, String.eqb cn "AudioSampleEntry" = false ->
  mfree (m_size cn f) = true /\ mfree (m_len cn f) = true /\ cfree (m_opt cn f) = true.
Proof.
  intros cn f H. unfold m_size, m_len, m_opt. rewrite H. cbv zeta.
  repeat split;
    repeat (match goal with |- context [if ?b then _ else _] => destruct b end; try reflexivity).
Qed.

(** the struct with its own methods: all struct names but AudioSampleEntry *)
Fixpoint plain_sty (rname : string) (t : sty) : bool :=
  match t with
  | SArr _ u | SSlice u | SPtr u => plain_sty rname u
  | SStruct n cfo fs => plain_flds rname (if cfo then n else rname) fs
  | _ => true
  end
with plain_flds (rname cn : string) (fs : flds) : bool :=
  match fs with
  | FNil => true
  | FCons _ t rest => negb (String.eqb cn "AudioSampleEntry") && plain_sty rname t && plain_flds rname cn rest
  end.

(** ** Pointwise equality of computations *)
Lemma bind_ext : forall S A B (m m' : M S A) (k k' : A -> M S B),
  (forall s, m s = m' s) -> (forall a s, k a s = k' a s) -> forall s, bind m k s = bind m' k' s.
Proof. intros S A B m m' k k' H1 H2 s. unfold bind. rewrite H1. destruct (m' s) as [[a|e| |] s1]; auto. Qed.
Lemma loopP_ext : forall S A p (b b' : A -> M S A), (forall a s, b a s = b' a s) ->
  forall a s, loopP p b a s = loopP p b' a s.
Proof.
  intros S A p b b' H. induction p as [q IH|q IH|]; intros a s; cbn [loopP]; auto.
  - apply bind_ext; auto. intros a1 s1. apply bind_ext; auto.
  - apply bind_ext; auto.
Qed.
Lemma whileP_ext : forall S A B p (b b' : A -> M S (A + B)), (forall a s, b a s = b' a s) ->
  forall a s, whileP p b a s = whileP p b' a s.
Proof.
  intros S A B p b b' H. induction p as [q IH|q IH|]; intros a s; cbn [whileP]; auto.
  - apply bind_ext; auto. intros [a1|b1] s1; [|reflexivity]. apply bind_ext; auto.
    intros [a2|b2] s2; [apply IH|reflexivity].
  - apply bind_ext; auto. intros [a1|b1] s1; [apply IH|reflexivity].
Qed.
Lemma map_list_ext : forall (f f' : val -> M ust val) l, (forall v s, f v s = f' v s) ->
  forall s, map_list f l s = map_list f' l s.
Proof.
  intros f f' l H. induction l as [|v r IH]; intros s; [reflexivity|]. cbn [map_list].
  apply bind_ext; auto. intros x s1. apply bind_ext; auto.
Qed.

Section Ctx.
  Variable data : list byte.
  Variable rname : string.
  Variable versions : list N.
  Variables c c' : context.

  Lemma is_target_free : forall v fl cn e e' f, like_env e e' -> String.eqb cn "AudioSampleEntry" = false ->
    resolve_size cn e f = resolve_size cn e' f /\ resolve_len cn e f = resolve_len cn e' f /\
    is_target v fl cn e f = is_target v fl cn e' f.
  Proof.
    intros v fl cn e e' f L H. destruct (methods_free cn (f_name f) H) as (H1 & H2 & H3).
    unfold resolve_size, resolve_len, is_target.
    rewrite (mfree_ok e e' _ L H1), (mfree_ok e e' _ L H2), (cfree_ok e e' _ L H3). auto.
  Qed.

  Lemma unmarshal_free :
    (forall t, plain_sty rname t = true -> forall rt usize f size len (cur : val) (s : ust),
       unmarshal_val data rname versions c rt usize f size len t cur s =
       unmarshal_val data rname versions c' rt usize f size len t cur s) /\
    (forall fs rt usize sname (cfo : bool) self s, plain_flds rname (if cfo then sname else rname) fs = true ->
       unmarshal_flds data rname versions c rt usize sname cfo self fs s =
       unmarshal_flds data rname versions c' rt usize sname cfo self fs s).
  Proof.
    apply sty_flds_mutind; try reflexivity.
    - (* array *)
      intros n u IH H rt usize f size len cur s. cbn [unmarshal_val]. destruct cur; try reflexivity.
      apply bind_ext; auto. intros s1. apply map_list_ext. intros. now apply IH.
    - (* slice *)
      intros u IH H rt usize f size len cur s. cbn [unmarshal_val].
      apply bind_ext; auto. intros rb s1. cbv zeta.
      destruct (_ && _ && _); [reflexivity|]. destruct (_ && _ && _); [reflexivity|].
      apply bind_ext; auto. intros s2.
      assert (E : forall acc s3,
        (x <- unmarshal_val data rname versions c rt usize f size len u (zero u);;
         r <- get_rbits;; (if w64 (usize * 8) <? r then fail (EMsg "failed to read array completely") else ret (x :: acc))) s3 =
        (x <- unmarshal_val data rname versions c' rt usize f size len u (zero u);;
         r <- get_rbits;; (if w64 (usize * 8) <? r then fail (EMsg "failed to read array completely") else ret (x :: acc))) s3).
      { intros acc s3. apply bind_ext; auto; try (intros; now apply IH). }
      destruct (len =? LengthUnlimited).
      + unfold while. rewrite (whileP_ext _ _ _ _ _ (fun acc : list val =>
          r <- get_rbits;;
          if w64 (usize * 8) <=? r then ret (inr acc)
          else acc' <- (x <- unmarshal_val data rname versions c' rt usize f size len u (zero u);;
                        r <- get_rbits;; (if w64 (usize * 8) <? r then fail (EMsg "failed to read array completely") else ret (x :: acc))) ;;
               ret (inl acc'))); [reflexivity|].
        intros a s3. apply bind_ext; auto. intros r s4. destruct (w64 (usize * 8) <=? r); [reflexivity|].
        apply bind_ext; auto.
      + unfold loopN. destruct len; [reflexivity|]. apply loopP_ext. exact E.
    - (* pointer *)
      intros u IH H rt usize f size len cur s. cbn [unmarshal_val]. apply bind_ext; auto; try (intros; now apply IH).
    - (* struct *)
      intros n cfo fs IH H rt usize f size len cur s. cbn [unmarshal_val plain_sty] in *.
      destruct cur as [| | | | |l|]; try reflexivity.
      destruct (_ && _).
      + apply bind_ext; auto. intros rb s1. apply bind_ext; auto. intros _ s2. apply bind_ext; auto.
      + apply bind_ext; auto.
    - (* fields *)
      intros f t IHt rest IHr rt usize sname cfo self s H. cbn [plain_flds] in H.
      apply andb_prop in H. destruct H as [H H3]. apply andb_prop in H. destruct H as [H1 H2].
      apply negb_true_iff in H1.
      rewrite !unmarshal_flds_cons. cbv zeta. set (root := box_of rt self).
      set (cn := if cfo then sname else rname) in *.
      set (e := if cfo then mkenv self (get_version root) (get_flags root) c else mkenv root (get_version root) (get_flags root) c).
      set (e' := if cfo then mkenv self (get_version root) (get_flags root) c' else mkenv root (get_version root) (get_flags root) c').
      assert (L : like_env e e') by (unfold e, e'; destruct cfo; repeat split).
      destruct (is_target_free (get_version root) (get_flags root) cn e e' f L H1) as (E1 & E2 & E3).
      rewrite E1, E2, E3.
      destruct (resolve_size cn e' f) as [size|]; [|reflexivity].
      destruct (resolve_len cn e' f) as [len|]; [|reflexivity].
      apply bind_ext; [|intros; now apply IHr].
      intros s1. destruct (is_target (get_version root) (get_flags root) cn e' f); [|reflexivity].
      apply bind_ext; auto. intros rb s2. apply bind_ext; auto. intros [[rbits ov] self1] s3.
      unfold with_count. apply bind_ext; auto. intros _ s4.
      destruct ov; [reflexivity|]. destruct (lookup (f_name f) self1); [|reflexivity].
      apply bind_ext; auto; try (intros; now apply IHt).
  Qed.
End Ctx.

(** ** The theorem.  [steady t]: boxes of type [t] are read the same way wherever
    they are: the type has the same definition in every context, and this is not
    the audio sample entry. *)
Definition steady (t : btype) : Prop :=
  exists d, (forall c, get_box_def std_registry t c = Some d) /\ bd_name d <> "AudioSampleEntry".

Lemma find_def_in : forall t c R d, find_def t c R = Some d -> exists t', In (t', d) R.
Proof.
  induction R as [|[t' d'] R IH]; intros d H; cbn [find_def] in H; [discriminate|].
  destruct (_ && _).
  - injection H as <-. exists t'. now left.
  - destruct (IH _ H) as [t2 I]. exists t2. now right.
Qed.
Definition plain_def (d : boxdef) : bool :=
  String.eqb (bd_name d) "AudioSampleEntry" || plain_flds (bd_name d) (bd_name d) (bd_flds d).
Lemma all_plain : forallb (fun x => plain_def (snd x)) std_registry && plain_def item_def = true.
Proof. vm_compute. reflexivity. Qed.
Lemma get_plain : forall t c d, get_box_def std_registry t c = Some d -> plain_def d = true.
Proof.
  intros t c d H. pose proof all_plain as A. apply andb_prop in A. destruct A as [A1 A2].
  rewrite forallb_forall in A1. unfold get_box_def in H. destruct (find_def t c (rev std_registry)) as [d'|] eqn:F.
  - injection H as ->. apply find_def_in in F. destruct F as [t' I]. apply in_rev in I. apply (A1 _ I).
  - destruct (UnderIlst c); [|discriminate]. destruct (_ && _)%bool; [|discriminate]. injection H as <-. exact A2.
Qed.
Lemma steady_same : forall data t size c c' pos, steady t ->
  unmarshal_any std_registry data t size c pos = unmarshal_any std_registry data t size c' pos.
Proof.
  intros data t size c c' pos (d & H & NA). unfold unmarshal_any, new_box. rewrite !H.
  pose proof (get_plain t c d (H c)) as P. unfold plain_def in P. apply orb_prop in P.
  destruct P as [P|P]; [apply String.eqb_eq in P; contradiction|].
  unfold unmarshal_def. destruct (before_unmarshal _ _ _ _) as [[[[] self1]|e| |] r]; try reflexivity.
  rewrite (proj2 (unmarshal_free data (bd_name d) (bd_versions d) c c')) by exact P. reflexivity.
Qed.

(** all results, or the first failure *)
Fixpoint all_of {A} (l : list (res A)) : res (list A) :=
  match l with
  | [] => Ok []
  | Ok a :: r => match all_of r with Ok l' => Ok (a :: l') | x => x end
  | Err e :: _ => Err e
  | Panic :: _ => Panic
  | OutOfFuel :: _ => OutOfFuel
  end.
(** what ReadPayload returns in a handler that is called for the box *)
Definition with_payload (data : list byte) (bi : boxinfo) : res (boxinfo * (boxdef * list (string * val))) :=
  match fst (read_payload std_registry data bi 0) with
  | Ok (d, x, _) => Ok (bi, (d, x))
  | Err e => Err e | Panic => Panic | OutOfFuel => OutOfFuel
  end.

(** For any data, any parent and any patterns, provided the boxes found are of
    steady types or have the context the parent (or nobody) has. *)
Theorem C30_payloads_partial : forall data parent paths pos bis p,
  extract_boxes std_registry data parent paths pos = (Ok bis, p) ->
  Forall (fun bi => steady (bi_type bi) \/
                    bi_ctx bi = match parent with Some b => bi_ctx b | None => ctx0 end) bis ->
  fst (extract_boxes_with_payload std_registry data parent paths pos) = all_of (map (with_payload data) bis).
Proof.
  intros data parent paths pos bis p E F. unfold extract_boxes_with_payload, bind at 1. rewrite E.
  set (c := match parent with Some b => bi_ctx b | None => ctx0 end) in *. clearbody c. clear E pos.
  revert p. induction F as [|bi r H F IH]; intros p; [reflexivity|].
  cbn [payloads map all_of].
  assert (W : forall q, with_payload data bi =
    match fst ((seek_to_payload bi ;;; unmarshal_any std_registry data (bi_type bi) (payload_size bi) c) q) with
    | Ok (d, x, _) => Ok (bi, (d, x)) | Err e => Err e | Panic => Panic | OutOfFuel => OutOfFuel end).
  { intros q. unfold with_payload, read_payload, bind, seek_to_payload, s_seek.
    set (o := w64 (bi_offset bi + bi_hsize bi)). destruct (o <? 9223372036854775808); [|reflexivity].
    destruct H as [H|H]; [now rewrite (steady_same data _ _ _ c _ H)|now rewrite H]. }
  rewrite (W p). clear W H. unfold bind.
  destruct (seek_to_payload bi p) as [[a|e| |] p1]; cbn [fst]; try reflexivity.
  destruct (unmarshal_any std_registry data (bi_type bi) (payload_size bi) c p1) as [[[[d x] n]|e| |] p2]; cbn [fst]; try reflexivity.
  specialize (IH p2). destruct (payloads std_registry data c r p2) as [[l|e| |] p3]; cbn [fst] in *; rewrite <- IH; reflexivity.
Qed.
Print Assumptions C30_payloads_partial.

(** ** Which types are steady, and a case *)
Definition steady_b (t : btype) : bool :=
  match find (fun x => bt_eqb t (fst x)) (rev std_registry) with
  | Some (_, d) => match bd_pred d with PAlways => negb (String.eqb (bd_name d) "AudioSampleEntry") | _ => false end
  | None => false
  end.
Lemma steady_b_ok : forall t, steady_b t = true -> steady t.
Proof.
  intros t H. unfold steady_b in H. unfold steady, get_box_def.
  assert (G : forall R t' d, find (fun x => bt_eqb t (fst x)) R = Some (t', d) -> bd_pred d = PAlways ->
     forall c, find_def t c R = Some d).
  { induction R as [|[t1 d1] R IH]; intros t' d F P c; cbn [find find_def fst] in *; [discriminate|].
    destruct (bt_eqb t t1).
    - injection F as -> ->. rewrite P. reflexivity.
    - cbn [andb]. eapply IH; eauto. }
  destruct (find _ (rev std_registry)) as [[t' d]|] eqn:F; [|discriminate].
  destruct (bd_pred d) eqn:P; try discriminate. exists d. split.
  - intros c. rewrite (G _ _ _ F P c). reflexivity.
  - intros E. rewrite E in H. discriminate.
Qed.
(** the types with a definition that are not steady: sample entries of audio, boxes
    that have a definition inside of ilst or udta only *)
Definition unsteady : list btype :=
  nodup (list_eq_dec Ascii.ascii_dec) (filter (fun t => negb (steady_b t)) (map fst std_registry)).
Example C30_unsteady : filter (fun t => negb (is_ilst_meta t)) unsteady =
  map bt ["titl"; "dscp"; "perf"; "auth"; "ac-3"; "mp4a"; "enca"; "ipcm"; "fpcm"; "data"; "mean"; "name"; "Opus"].
Proof. vm_compute. reflexivity. Qed.

Definition pay_file : list box :=
  [ Box Small (bt "ftyp") (hex "71742020000000007174202069736f6d") [] [];
    Box Small (bt "moov") []
      [ Box Small (bt "trak") [] [ Box Small (bt "smhd") (hex "0000000080000000") [] [] ] [];
        Box Small (bt "trak") [] [ Box Small (bt "smhd") (hex "0000000001000000") [] [] ] [] ] [] ].
Definition pay_paths : list path := [ [bt "moov"; bt "trak"; bt "smhd"] ].
Example C30_case :
  match extract_boxes std_registry (file_bytes pay_file) None pay_paths 3 with
  | (Ok bis, _) =>
      forallb (fun bi => steady_b (bi_type bi)) bis = true /\
      map (fun r => match r with Ok (bi, (_, x)) => (bi_offset bi, IsQuickTimeCompatible (bi_ctx bi), lookup "Balance" x)
                               | _ => (0, false, None) end) (map (with_payload (file_bytes pay_file)) bis) =
      [ (40, true, Some (VInt (-32768))); (64, true, Some (VInt 256)) ]
  | _ => False
  end.
Proof. vm_compute. auto. Qed.

(** ** Without the condition the claim fails.  The payload is decoded with the
    context of the parent, or with an empty one, instead of the box's own. *)
(** an audio sample entry of a QuickTime file: the QuickTime fields are missing *)
Definition qt_file : list byte := file_bytes
  [ Box Small (bt "ftyp") (hex "717420200000000071742020") [] [];
    Box Small (bt "stsd") (hex "0000000000000001")
      [ Box Small (bt "mp4a")
          (hex "0000000000000001000100000000000000020010000000000000000000000400000004000000040000000002") [] [] ] [] ].
(** a title in the user data: not found *)
Definition udta_file : list byte := file_bytes
  [ Box Small (bt "udta") [] [ Box Small (bt "titl") (hex "00000000000041424300") [] [] ] [] ].
Definition silent (data : list byte) (q : path) (f : string) : option (option val * option val) :=
  match extract_boxes std_registry data None [q] 0 with
  | (Ok bis, _) =>
      match fst (extract_boxes_with_payload std_registry data None [q] 0), all_of (map (with_payload data) bis) with
      | Ok [(_, (_, x))], Ok [(_, (_, y))] => Some (lookup f x, lookup f y)
      | _, _ => None
      end
  | _ => None
  end.
Theorem C30_payloads_refuted :
  (exists data q f x y, silent data q f = Some (x, y) /\ x <> y) /\
  (exists data paths bis p l,
     extract_boxes std_registry data None paths 0 = (Ok bis, p) /\
     all_of (map (with_payload data) bis) = Ok l /\
     fst (extract_boxes_with_payload std_registry data None paths 0) = Err ENotFound).
Proof.
  split.
  - exists qt_file, [bt "stsd"; bt "mp4a"], "QuickTimeData".
    assert (H : match silent qt_file [bt "stsd"; bt "mp4a"] "QuickTimeData" with
                | Some (Some (VList x), Some (VList y)) => Some (lenN x, lenN y) | _ => None end = Some (0, 16))
      by (vm_compute; reflexivity).
    destruct (silent qt_file [bt "stsd"; bt "mp4a"] "QuickTimeData") as [[x y]|]; [|discriminate].
    exists x, y. split; [reflexivity|]. intros <-. destruct x as [[]|]; try discriminate. injection H. intros A B. congruence.
  - exists udta_file, [[bt "udta"; bt "titl"]].
    assert (H : match extract_boxes std_registry udta_file None [[bt "udta"; bt "titl"]] 0 with
                | (Ok bis, _) => match all_of (map (with_payload udta_file) bis) with Ok _ => true | _ => false end
                | _ => false end = true) by (vm_compute; reflexivity).
    destruct (extract_boxes std_registry udta_file None [[bt "udta"; bt "titl"]] 0) as [[bis|e| |] p]; try discriminate.
    exists bis, p. destruct (all_of (map (with_payload udta_file) bis)) as [l|e| |]; try discriminate.
    exists l. repeat split; vm_compute; reflexivity.
Qed.
Print Assumptions C30_payloads_refuted.
