(** divide on a reader that may fail: it fails as the reader does, or writes the
    files it writes for the contents of the input. *)
From Verif Require Import Base BaseProofs BitIO Schema Structs Methods Registry Unmarshal BoxInfo ReadTree Extract Accessors Probe Writer GoText ProbeTool Divide
  Stream AnyReader AnyReaderProofs Failing SpecFailing FailingProofs ToolReader ToolReaderProofs DivideReader.
Local Open Scope string_scope.
Local Open Scope list_scope.
Local Open Scope N_scope.
Local Open Scope monad_scope.

(** ** ExtractBoxWithPayload seeks first: where the stream is does not matter *)
Definition alike_from {S A} (m : M S A) (a b : S) : Prop := m a = m b \/ exists e, fst (m a) = Err e /\ fst (m b) = Err e.
Lemma from_bind : forall S A B (m : M S A) (k : A -> M S B) a b, alike_from m a b -> alike_from (bind m k) a b.
Proof.
  intros S A B m k a b [H|(e & H1 & H2)]; unfold alike_from, bind; [left; now rewrite H|right].
  exists e. destruct (m a) as [r1 s1], (m b) as [r2 s2]. cbn [fst] in *. now subst.
Qed.
Lemma from_seek : forall x a b, alike_from (s_seek x) a b.
Proof. intros x a b. unfold alike_from, s_seek. destruct (x <? _); [now left|right]. eexists. split; reflexivity. Qed.
Lemma from_lift : forall St A (m : M N A) a b (s : St), alike_from m a b -> alike_from (lift_s m) (a, s) (b, s).
Proof.
  intros St A m a b s [H|(e & H1 & H2)]; unfold alike_from, lift_s; cbn [fst snd]; [left; now rewrite H|right].
  exists e. destruct (m a), (m b). now split.
Qed.
Lemma from_extract : forall R data bi p a b, alike_from (extract_boxes_with_payload R data (Some bi) [p]) a b.
Proof.
  intros R data bi p a b. apply from_bind. unfold extract_boxes.
  destruct (existsb (fun p => match p with [] => true | _ => false end) [p]).
  { right. eexists. split; reflexivity. }
  cbv zeta. unfold alike_from.
  assert (K : alike_from (read_box_structure_from_internal R data (extract_handler true [p]) bi tt) (a, []) (b, [])).
  { unfold read_box_structure_from_internal. apply from_bind. unfold box_internal. apply from_bind, from_lift.
    unfold prepare. apply from_bind, from_seek. }
  destruct K as [K|(e & K1 & K2)]; [left; now rewrite K|right]. exists e.
  destruct (read_box_structure_from_internal R data _ bi tt (a, [])) as [r1 [x1 y1]].
  destruct (read_box_structure_from_internal R data _ bi tt (b, [])) as [r2 [x2 y2]]. cbn [fst] in *. subst. now split.
Qed.

(** ** the operations of the handler do not panic by themselves *)
Definition calm (s : dst) : Prop := ds_stop s = Ok tt.
Definition steady {A} (m : M dst A) : Prop := forall s, ds_stop (snd (m s)) = ds_stop s.
Lemma steady_bind : forall A B (m : M dst A) (k : A -> M dst B), steady m -> (forall a, steady (k a)) -> steady (bind m k).
Proof. intros A B m k H K s. unfold bind. specialize (H s). destruct (m s) as [[a|e| |] s1]; cbn [snd] in *; auto. now rewrite K. Qed.
Lemma steady_ret : forall A (a : A), steady (ret a). Proof. intros A a s. reflexivity. Qed.
Lemma steady_panic : forall A, steady (@panic dst A). Proof. intros A s. reflexivity. Qed.
Lemma steady_for : forall A B (f : N -> B -> A -> M dst A), (forall i x a, steady (f i x a)) -> forall l i a, steady (for_each f i l a).
Proof. intros A B f H l. induction l as [|x r IH]; intros i a; cbn [for_each]; [apply steady_ret|]. apply steady_bind; auto. Qed.
Lemma steady_range : forall order A (f : N -> A -> M dst A), (forall x a, steady (f x a)) -> forall a, steady (range order f a).
Proof. intros order A f H a s. unfold range, visit. rewrite (steady_for A N (fun _ id a => f id a) (fun _ => H)). reflexivity. Qed.
Lemma steady_init : forall A id (m : M ofile A), steady (init_op id m).
Proof. intros A id m s. unfold init_op. destruct (find_track id s); [|reflexivity]. cbv zeta. destruct (m _). reflexivity. Qed.
Lemma steady_seg : forall A id (m : M ofile A), steady (seg_op id m).
Proof. intros A id m s. unfold seg_op. destruct (find_track id s); [|reflexivity]. cbv zeta. destruct (m _). reflexivity. Qed.
Lemma steady_add : forall id n m, steady (add_size id n m).
Proof. intros id n m. unfold add_size. destruct (get_bi id m) as [[o b]|]; [apply steady_ret|apply steady_panic]. Qed.
Lemma steady_headers : forall order bi mine, steady (write_headers order bi mine).
Proof.
  intros order bi mine. apply steady_range. intros id m. destruct (mine id); [|apply steady_ret].
  apply steady_bind; [apply steady_init|intros o]. apply steady_bind; [apply steady_init|intros b]. apply steady_ret.
Qed.
Lemma steady_children : forall order vals m, steady (add_children order vals m).
Proof.
  intros order vals m. apply steady_for. intros i v x. destruct v as [ci|]; [|apply steady_panic].
  apply steady_range. intros id y. apply steady_add.
Qed.
Lemma steady_rewrite : forall order mine m, steady (rewrite_headers order mine m).
Proof.
  intros order mine m. apply steady_range. intros id x. destruct (mine id); [|apply steady_ret].
  destruct (get_bi id x) as [[o b]|]; [|apply steady_panic].
  apply steady_bind; [apply steady_init|intros _]. apply steady_bind; [apply steady_init|intros b']. apply steady_ret.
Qed.

Lemma assoc_at : forall S A B C (m : M S A) (f : A -> M S B) (g : B -> M S C) x,
  bind (bind m f) g x = bind m (fun a => bind (f a) g) x.
Proof. intros S A B C m f g x. unfold bind. destruct (m x) as [[a|e| |] y]; reflexivity. Qed.

Lemma after_set : forall S A B (g : S -> S) (f : S -> M S A) (h : A -> M S B) y,
  bind (bind (fun x => (Ok tt, g x)) (fun _ => bind get f)) h y = bind (f (g y)) h (g y).
Proof. reflexivity. Qed.
(** the state given to a handler is forgotten: it puts its own *)
Fixpoint forgets {St V P} (p : hprog St V P) : Prop :=
  match p with
  | HRet _ _ | HFail _ _ => True
  | HReadData k => forall r, forgets (k r)
  | HMove _ k => forgets k
  | _ => False
  end.
Lemma read_data_ends : forall data bi n, fst (read_data data bi n) <> Panic /\ fst (read_data data bi n) <> OutOfFuel.
Proof. intros data bi n. 
  unfold read_data, bind, seek_to_payload, s_seek, s_copy, ret. destruct (N.ltb _ _); [|split; discriminate]. cbn [fst].
  destruct (orb _ _); [split; discriminate|]. cbv zeta. destruct (N.eqb _ _); split; discriminate.
Qed.
Lemma forgets_run : forall St V P (R : registry) data bi e (p : hprog St V P), forgets p ->
  forall co n s s', run_handler R data bi e co p (n, s) = run_handler R data bi e co p (n, s').
Proof.
  intros St V P R data bi e p. induction p as [s0 v|s0 x|k IH|k IH|s0 q k IH|pos k IH]; intros G co n s s'; cbn [forgets] in G; try contradiction; cbn [run_handler]; try reflexivity.
  - unfold bind, attempt, lift_s. cbn [fst snd]. pose proof (read_data_ends data bi n) as [E1 E2].
    destruct (read_data data bi n) as [[a|x| |] n']; cbn [fst] in *; [|now apply IH..| |]; [now apply IH|congruence..].
  - unfold bind. cbn [fst snd]. now apply IH.
Qed.
Lemma forgets_segment : forall bi s, forgets (copy_segment bi s).
Proof.
  intros bi s. unfold copy_segment, dcall. destruct (seg_op _ _ _) as [[b|e| |] s1]; cbn [forgets]; auto.
  intros [[d n]|e| |]; cbn [forgets]; auto. destruct (seg_op _ _ _) as [[c|e| |] s2]; cbn [forgets]; auto.
Qed.

Section Divide.
  Context {S T : Type} (er : err -> Prop) (O : reader S T) (data : list byte) (BS : S -> Prop) (BT : T -> Prop) (QS : S -> rst -> Prop) (QT : T -> N -> Prop).
  Hypothesis F : may_fail er O data BS BT QS QT.
  Hypothesis ne : ~ er EEOF.
  Hypothesis short : lenN data < 9223372036854775808.
  Notation lf := (loop_fuel data).
  Notation tf := (tree_fuel data).
  Variable order : N -> list N -> list N.
  Variable bits_per_second : N -> seconds -> N.
  Variable seconds_text : seconds -> text.
  Variable target_text : list seconds -> text.

  Lemma e_only_box : forall bi p, or_fails er BT QT (t_only_box O lf tf bi p) (only_box data bi p).
  Proof.
    intros bi p. apply e_bind; [exact (e_extract_boxes_with_payload _ _ _ _ _ _ _ F ne std_registry (Some bi) [p])|].
    intros [|[b [d x]] [|y r]]; first [apply e_ret|apply e_fail].
  Qed.
  Lemma e_new_track : forall bi, or_fails er BT QT (t_new_track O lf tf bi) (new_track data bi).
  Proof.
    intros bi. unfold t_new_track, new_track. apply e_bind; [apply e_only_box|intros tkhd].
    apply e_bind; [apply e_only_box|intros mdhd]. cbv zeta.
    apply e_bind; [exact (e_extract_boxes_with_payload _ _ _ _ _ _ _ F ne std_registry (Some bi) (stsd_path "avc1"))|intros [|[b [d x]] r]; [|apply e_ret]].
    apply e_bind; [exact (e_extract_boxes _ _ _ _ _ _ _ F ne std_registry (Some bi) (stsd_path "mp4a"))|intros [|b r]; [|apply e_ret]].
    apply e_bind; [exact (e_extract_boxes_with_payload _ _ _ _ _ _ _ F ne std_registry (Some bi) (stsd_path "encv"))|intros [|[b [d x]] r]; [|apply e_ret]].
    apply e_bind; [exact (e_extract_boxes _ _ _ _ _ _ _ F ne std_registry (Some bi) (stsd_path "enca"))|intros [|b r]; apply e_ret].
  Qed.
  Lemma e_track_map : or_fails er BT QT (t_track_map O lf tf) (track_map data).
  Proof.
    apply e_bind; [exact (e_extract_boxes _ _ _ _ _ _ _ F ne std_registry None _)|intros bis].
    apply e_for_each. intros i bi l. apply e_bind; [apply e_new_track|intros o; apply e_ret].
  Qed.

  Notation dgood := (good er calm ds_stop (fun _ => True) (V := option sizes) (P := unit)).
  Lemma good_dcall : forall A (m : M dst A) s k, steady m -> calm s -> (forall a s', calm s' -> dgood (k a s')) -> dgood (dcall m s k).
  Proof.
    intros A m s k K H G. unfold dcall. specialize (K s). destruct (m s) as [[a|e| |] s']; cbn [snd] in K; cbn [good]; auto.
    apply G. unfold calm in *. congruence.
  Qed.
  Lemma good_finish : forall mine m s, calm s -> dgood (finish_init order mine m s).
  Proof. intros mine m s H. apply good_dcall; [apply steady_rewrite|exact H|]. intros a s' H'. exact H'. Qed.
  Lemma good_payload : forall mine ids m s, calm s -> dgood (copy_payload order mine ids m s).
  Proof.
    intros mine ids. induction ids as [|id r IH]; intros m s H; cbn [copy_payload]; [now apply good_finish|].
    destruct (mine id); [|now apply IH]. cbn [good]. split; [intros e _; exists s; now split|].
    intros [[d n]|e| |]; cbn [good]; auto. apply good_dcall; [|exact H|].
    - apply steady_bind; [apply steady_init|intros _; apply steady_add].
    - intros a s' H'. now apply IH.
  Qed.
  Lemma good_init : forall bi mine s, calm s -> dgood (init_box order bi mine s).
  Proof.
    intros bi mine s H. apply good_dcall; [apply steady_headers|exact H|]. intros m s1 H1.
    destruct (bt_eqb (bi_type bi) (bt "moov")).
    - cbn [good]. split; [exact H1|]. split; [intros e _ s2 H2; exists s2; now split|]. split; [intros e _ s2; exists s2; now split|].
      intros [vals|e| |] s2 H2; cbn [good]; auto. apply good_dcall; [apply steady_children|exact H2|].
      intros a s3 H3. now apply good_finish.
    - unfold visit. now apply good_payload.
  Qed.
  Lemma good_segment : forall bi s, calm s -> dgood (copy_segment bi s).
  Proof.
    intros bi s H. apply good_dcall; [apply steady_seg|exact H|]. intros b s1 H1. cbn [good].
    split; [intros e _; exists s1; now split|]. intros [[d n]|e| |]; cbn [good]; auto.
    apply good_dcall; [apply steady_seg|exact H1|]. intros a s2 H2. exact H2.
  Qed.

  Notation drel := (rel er BT QT calm ds_stop (fun _ => True)).
  Notation dQI := (QI QT calm).
  (** what is extracted first, and the rest *)
  Lemma same_extract : forall bi p e2 (f : list (boxinfo * (boxdef * fields)) -> M (T * dst) (option sizes)) t n s k,
    dQI (t, s) (n, s) ->
    (forall bs t' n', dQI (t', s) (n', s) -> outcome er BT QT calm ds_stop (fun _ => True) (f bs (t', s)) (run_handler std_registry data bi e2 0 (k bs) (n', s))) ->
    outcome er BT QT calm ds_stop (fun _ => True) ((bs <- t_dextract O lf tf bi p ;; f bs) (t, s))
      (run_handler std_registry data bi e2 0 (dextract data bi p s k) (n, s)).
  Proof.
    intros bi p e2 f t n s k H G. destruct H as (HT & _ & HI). cbn [fst snd] in HT, HI.
    unfold bind, t_dextract, dextract. cbn [fst snd].
    pose proof (from_extract std_registry data bi p n 0) as A.
    destruct (e_extract_boxes_with_payload _ _ _ _ _ _ _ F ne std_registry (Some bi) [p] t n HT) as [K|[K HT']];
      unfold t_found; destruct (g_extract_boxes_with_payload O lf tf std_registry (Some bi) [p] t) as [r t'].
    - left. destruct K as [(e & Ee & K) B]. cbn [fst snd] in K, B. subst r. apply failed_i; [exact Ee|]. now split.
    - destruct A as [A|(e & A1 & A2)].
      + rewrite A in K, HT'. destruct (extract_boxes_with_payload std_registry data (Some bi) [p] 0) as [r' n']. cbn [fst snd] in K, HT'. subst r'.
        cbn [run_handler]. unfold bind. cbn [fst snd]. destruct r as [bs|e| |].
        * apply G. now repeat split.
        * right. left. exists e. now repeat split.
        * right. left. exists EEOF. now repeat split.
        * right. left. exists EEOF. now repeat split.
      + destruct (extract_boxes_with_payload std_registry data (Some bi) [p] n) as [r1 n1].
        destruct (extract_boxes_with_payload std_registry data (Some bi) [p] 0) as [r2 n2]. cbn [fst snd] in *. subst r r1 r2.
        right. left. exists e. now repeat split.
  Qed.
  Lemma divide_same : forall bi pth params e1 e2, bi_offset bi < 9223372036854775808 ->
    (forall total p, drel (e1 total p) (e2 total p)) ->
    drel (p <- divide_first O lf tf order bits_per_second bi ;; g_run_handler O lf std_registry bi e1 0 p)
      (fun x => run_handler std_registry data bi e2 0 (divide_handler order bits_per_second data bi pth params (snd x)) x).
  Proof.
    intros bi pth params e1 e2 _ E [t s] [n s'] H. pose proof H as (HT & HS & HI). cbn [fst snd] in HT, HS, HI. subst s'.
    assert (RUN : forall p t' n' s', dgood p -> dQI (t', s') (n', s') ->
      outcome er BT QT calm ds_stop (fun _ => True) (g_run_handler O lf std_registry bi e1 0 p (t', s')) (run_handler std_registry data bi e2 0 p (n', s'))).
    { intros p t' n' s' G Q. exact (r_run _ _ _ _ _ _ _ F std_registry calm ds_stop (fun _ => True) bi e1 e2 E p G 0 _ _ Q). }
    unfold divide_first, divide_handler. cbn [snd].
    destruct (is bi ["moov"; "ftyp"; "pssh"; "mvhd"; "trak"; "mvex"; "udta"; "sidx"]).
    { destruct (is bi ["trak"]).
      - rewrite assoc_at. apply same_extract; [exact H|]. intros bs t' n' Q. apply (RUN _ t' n' s); [|exact Q].
        destruct bs as [|[b [d x]] [|y r]]; [now right| |now right]. now apply good_init.
      - apply RUN; [now apply good_init|exact H]. }
    destruct (is bi ["moof"]).
    { rewrite assoc_at. apply same_extract; [exact H|]. intros bs t' n' Q.
      destruct bs as [|[b [d tfhd]] [|y r]]; [apply (RUN _ t' n' s); [now right|exact Q]| |apply (RUN _ t' n' s); [now right|exact Q]].
      set (s1 := set_curr (uint_of "TrackID" tfhd) s).
      assert (Q1 : dQI (t', s1) (n', s1)) by (destruct Q as (Q & _ & _); split; [exact Q|split; [reflexivity|exact HI]]).
      pose proof Q1 as (_ & _ & HI1). cbn [fst snd] in HI1.
      rewrite (after_set _ _ _ (fun x : T * dst => (fst x, set_curr (uint_of "TrackID" tfhd) (snd x)))). cbn [fst snd]. fold s1. cbv zeta.
      rewrite (forgets_run _ _ _ std_registry data bi e2) with (s' := s1).
      2: { destruct (find_track (ds_curr s1) s1) as [tr|]; [|exact I]. unfold dextract. destruct (extract_boxes_with_payload _ _ _ _ _) as [[[|[b2 [d2 x2]] r]|e| |] pos]; cbn [forgets]; auto. apply forgets_segment. }
      destruct (find_track (ds_curr s1) s1) as [tr|]; [|apply (RUN _ t' n' s1); [exact HI1|exact Q1]].
      rewrite assoc_at. apply same_extract; [exact Q1|]. intros bs t2 n2 Q2. apply (RUN _ t2 n2 s1); [|exact Q2].
      destruct bs as [|[b2 [d2 trun]] r]; [now right|]. apply good_segment. exact HI1. }
    destruct (is bi ["mdat"]).
    { apply (RUN _ t n s); [|exact H]. cbn [snd]. destruct (find_track (ds_curr s) s) as [tr|]; [|exact HI].
      destruct (rev (d_segments tr)) as [|d r]; [now right|]. cbv zeta. apply good_segment. destruct (d_bandwidth tr <? _); exact HI. }
    destruct (is bi ["mfra"]); apply (RUN _ t n s); [exact HI|exact H|now right|exact H].
  Qed.

  (** ** the whole of divide *)
  Lemma steady_create : steady (create_files order).
  Proof. apply steady_range. intros id a s. destruct (find_track id s); reflexivity. Qed.
  Lemma divide_gives : forall t, QT t 0 ->
    gives er BT (t_divide O lf tf order bits_per_second seconds_text target_text t) (divide order bits_per_second seconds_text target_text data).
  Proof.
    intros t H. unfold gives, t_divide, divide.
    destruct (e_track_map t 0 H) as [K|[K HT]]; destruct (t_track_map O lf tf t) as [r t1].
    { left. destruct K as [(e & Ee & K) B]. cbn [fst snd] in K, B. subst r. exists e. now repeat split. }
    destruct (track_map data 0) as [r' n1]. cbn [fst snd] in K, HT. subst r'. destruct r as [tracks|e| |]; try (right; split; [reflexivity|discriminate]).
    pose proof (steady_create (mkds tracks no_files 0xFFFFFFFF 0 (Ok tt))) as C.
    destruct (create_files order _) as [r s]. cbn [snd ds_stop] in C. destruct r as [u|e| |]; try (right; split; [reflexivity|discriminate]).
    assert (Q : dQI (t1, s) (n1, s)) by (split; [exact HT|split; [reflexivity|exact C]]).
    pose proof (r_box_structure _ _ _ _ _ _ _ F ne short std_registry calm ds_stop (fun _ => True)
      (divide_first O lf tf order bits_per_second) (divide_handler order bits_per_second data) divide_same tt (t1, s) (n1, s) Q) as K.
    destruct (t_read_box_structure _ _ _ _ _ _ (t1, s)) as [r a], (read_box_structure _ _ _ _ (n1, s)) as [r' b]. cbv zeta. cbn [fst snd].
    destruct K as [K|[K|[K Q1]]].
    - left. destruct K as [(e & Ee & K) [B I]]. cbn [fst snd] in K, B, I. subst r. rewrite I. exists e. now repeat split.
    - right. destruct K as (e & _ & K1 & K2 & K3). cbn [fst snd] in K1, K2, K3. subst r r'. rewrite K3.
      destruct (ds_stop (snd b)) as [[]|e'| |]; split; try reflexivity; discriminate.
    - right. cbn [fst snd] in K, Q1. subst r'. destruct Q1 as (_ & E & I). rewrite E. cbn [fst snd] in *. rewrite <- E, I.
      destruct r as [v|e| |]; try (split; [reflexivity|discriminate]).
      destruct (playlists order seconds_text target_text (snd a)) as [r2 s2]. now split.
  Qed.
End Divide.
