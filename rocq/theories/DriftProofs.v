(** What the traversal does on a reader whose Seek may fail, when the handler goes on
    after ErrUnsupportedBoxVersion: Unmarshal drops the error of the Seek that moves
    back after a version that is not supported (marshaller.go:318-321), so that the
    stream is elsewhere; all that a handler can do then seeks to a place of its own. *)
From Verif Require Import Base BaseProofs BitIO Schema Structs Methods Registry Marshal Unmarshal BoxInfo ReadTree
  Stream AnyReader AnyReaderProofs Failing SpecFailing FailingProofs.
Local Open Scope string_scope.
Local Open Scope list_scope.
Local Open Scope N_scope.
Local Open Scope monad_scope.

Section Drift.
  Context {S T : Type} (er : err -> Prop) (O : reader S T) (data : list byte) (BS : S -> Prop) (BT : T -> Prop) (QS : S -> rst -> Prop) (QT : T -> N -> Prop).
  (* the same reader, whose other movements do not fail *)
  Variable still : (N -> N) -> M S unit.
  Definition calm : reader S T :=
    mkreader S T (o_new O) (o_under O) (o_bits O) (o_full O) (o_copy O) (o_string O) (o_cur O) (o_end O) (o_start O) still.
  Hypothesis F : may_fail er calm data BS BT QS QT.
  Hypothesis fmove : forall f, or_fails er BS QS (o_move O f) (fun s => (Ok tt, mkrst (f (r_pos s)) (r_octet s) (r_width s))).
  Hypothesis drift : forall t, BT t -> exists n, QT t n.
  Hypothesis ne : ~ er EEOF.
  Hypothesis nv : ~ er EUnsupportedVersion.
  Notation lf := (loop_fuel data).
  Notation tf := (tree_fuel data).

  Lemma same_flds : g_flds O lf = g_flds calm lf. Proof. reflexivity. Qed.
  Lemma same_info : g_read_box_info O = g_read_box_info calm. Proof. reflexivity. Qed.
  Lemma same_data : forall bi, g_read_data O bi = g_read_data calm bi. Proof. reflexivity. Qed.
  Lemma same_seek : forall x, g_seek O x = g_seek calm x. Proof. reflexivity. Qed.
  Lemma same_tell : raw O (o_cur O) = raw calm (o_cur calm). Proof. reflexivity. Qed.

  (** at some place *)
  Definition C (t : T) : Prop := exists n, QT t n.
  (** The first fails with one of the errors [er], or has the result of the second; if
      this is a success the stream is at the same place, else it is anywhere. *)
  Definition drifts {A} (x : res A * T) (y : res A * N) : Prop :=
    failed er BT x \/ (fst x = fst y /\ C (snd x) /\ forall a, fst x = Ok a -> QT (snd x) (snd y)).
  Lemma of_or_fails : forall A (x : M T A) y t n, or_fails er BT QT x y -> QT t n -> drifts (x t) (y n).
  Proof.
    intros A x y t n X H. destruct (X t n H) as [K|[K1 K2]]; [now left|right]. split; [exact K1|]. split; [now exists (snd (y n))|]. intros _ _. exact K2.
  Qed.
  Lemma d_bind : forall A D (x : M T A) y (f : A -> M T D) g t n, drifts (x t) (y n) -> (forall a t n, QT t n -> drifts (f a t) (g a n)) ->
    drifts (bind x f t) (bind y g n).
  Proof.
    intros A D x y f g t n X Hf. unfold bind. destruct X as [[(e & Ee & E) B]|(E & K & L)].
    - left. destruct (x t) as [r1 t1]. cbn [fst snd] in *. subst r1. now apply failed_i.
    - destruct (x t) as [r1 t1], (y n) as [r2 n2]. cbn [fst snd] in *. subst r2. destruct r1 as [a|e| |]; [apply Hf; now apply (L a)|..];
        right; (split; [reflexivity|]; split; [exact K|]; intros a; discriminate).
  Qed.
  Lemma d_const : forall A (r : res A) t n, QT t n -> drifts (r, t) (r, n).
  Proof. intros A r t n H. right. split; [reflexivity|]. split; [now exists n|]. intros _ _. exact H. Qed.
  (** Seek to a place of its own, from anywhere *)
  Lemma d_seek : forall x t n, C t -> drifts (g_seek O x t) (s_seek x n).
  Proof.
    intros x t n [n' H]. rewrite same_seek. destruct (e_seek er calm data BS BT QS QT F x t n' H) as [K|[K1 K2]]; [now left|right].
    unfold s_seek in *. destruct (x <? 9223372036854775808); cbn [fst snd] in *; (split; [exact K1|]);
      (split; [eexists; exact K2|]); [intros _ _; exact K2|intros a E; rewrite K1 in E; discriminate].
  Qed.
  Lemma before_fails : forall sname self, or_fails er BS QS (g_before_unmarshal O sname self) (before_unmarshal data sname self).
  Proof.
    intros sname self. unfold g_before_unmarshal, before_unmarshal. destruct (String.eqb sname "Meta"); [|apply e_ret].
    intros s r H. unfold bind. destruct (m_full _ _ _ _ _ _ _ F 4 s r H) as [E|[E K]]; cbn [calm o_full] in E.
    { left. destruct (o_full O 4 s) as [a s1]. destruct E as [(e & Ee & E) Bx]. cbn [fst snd] in E, Bx. subst a. now apply failed_i. }
    cbn [calm o_full] in K. destruct (o_full O 4 s) as [a s1], (read_full data 4 r) as [b r1]. cbn [fst snd] in E, K. subst b.
    destruct a as [buf|e| |]; try (right; now split). cbv zeta.
    destruct (fmove (fun pos => pos - 4) s1 r1 K) as [E2|[E2 K2]].
    { left. destruct (o_move O _ s1) as [a2 s2]. destruct E2 as [(e & Ee & E2) Bx]. cbn [fst snd] in E2, Bx. subst a2. now apply failed_i. }
    destruct (o_move O _ s1) as [a2 s2]. cbn [fst snd] in E2, K2. subst a2.
    right. destruct (existsb _ buf); now split.
  Qed.
  Lemma raw_fails : forall A (x : M S A) (y : M rst A), or_fails er BS QS x y ->
    or_fails er BT QT (raw O x) (fun pos => let (r, s) := y (new_reader pos) in (r, r_pos s)).
  Proof. intros A x y X. exact (e_raw er calm data BS BT QS QT F A x y X). Qed.
  Lemma d_put : forall x t n, C t -> drifts (raw O (o_move O (fun _ => x)) t) (put x n).
  Proof.
    intros x t n [n' H]. destruct (raw_fails _ _ _ (fmove (fun _ => x)) t n' H) as [K|[K1 K2]]; [now left|right].
    cbn [fst snd r_pos] in *. split; [exact K1|]. split; [now exists x|]. intros _ _. exact K2.
  Qed.
  Lemma d_unmarshal : forall d size ctx dst t n, QT t n -> drifts (g_unmarshal O lf d size ctx dst t) (unmarshal_def d data size ctx dst n).
  Proof.
    intros d size ctx dst t n H. unfold g_unmarshal, unmarshal_def. cbv zeta. unfold bind at 1.
    destruct (raw_fails _ _ _ (before_fails (bd_name d) (set_version anyVersion dst)) t n H) as [E|[E K]].
    { left. destruct (raw O _ t) as [a t1]. destruct E as [(e & Ee & E) Bx]. cbn [fst snd] in E, Bx. subst a. now apply failed_i. }
    destruct (raw O _ t) as [a t1]. destruct (before_unmarshal data (bd_name d) (set_version anyVersion dst) (new_reader n)) as [b r].
    cbn [fst snd] in E, K. subst b. destruct a as [[[|] self1]|e| |]; try (now apply d_const).
    unfold bind at 1. rewrite same_tell.
    destruct (e_tell er calm data BS BT QS QT F t1 (r_pos r) K) as [E1|[E1 K1]].
    { left. destruct (raw calm (o_cur calm) t1) as [a1 t2]. destruct E1 as [(e & Ee & E1) Bx]. cbn [fst snd] in E1, Bx. subst a1. now apply failed_i. }
    destruct (raw calm (o_cur calm) t1) as [a1 t2]. cbn [fst snd get] in E1, K1. subst a1.
    set (sn := r_pos r) in *. rewrite same_flds. change (o_new O) with (o_new calm). change (o_under O) with (o_under calm).
    destruct (e_flds er calm data BS BT QS QT F (bd_name d) (bd_versions d) ctx (bd_flds d) None size (bd_name d) true self1 (mkgust (o_new calm t2) 0) (mkust (new_reader sn) 0)) as [E2|[E2 [K2 B2]]].
    { split; [now apply (m_new er calm data BS BT QS QT F)|reflexivity]. }
    { left. destruct (g_flds _ _ _ _ _ _ _ _ _ _ _ _) as [a2 s2]. destruct E2 as [(e & Ee & E2) B2]. cbn [fst snd] in E2, B2. subst a2.
      apply (m_bad er calm data BS BT QS QT F) in B2. destruct e; try (now apply failed_i). contradiction. }
    destruct (g_flds _ _ _ _ _ _ _ _ _ _ _ _) as [a2 s2], (unmarshal_flds _ _ _ _ _ _ _ _ _ _ _) as [b2 u2].
    cbn [fst snd] in E2, K2, B2. subst b2.
    pose proof (m_under er calm data BS BT QS QT F _ _ K2) as K3.
    destruct a2 as [x|e| |]; try (now apply d_const).
    { rewrite B2. now apply d_const. }
    destruct e; try (now apply d_const). unfold bind, attempt, fail. right.
    destruct (raw_fails _ _ _ (fmove (fun _ => sn)) _ _ K3) as [[(e & Ee & E4) Bx]|[E4 K4]];
      destruct (raw O _ _) as [a4 t4]; cbn [fst snd r_pos] in *; subst a4; (split; [reflexivity|]); cbn [snd].
    - split; [now apply drift|]. intros a; discriminate.
    - split; [eexists; exact K4|]. intros a; discriminate.
  Qed.
  Lemma d_unmarshal_any : forall R ty size ctx t n, QT t n -> drifts (g_unmarshal_any O lf R ty size ctx t) (unmarshal_any R data ty size ctx n).
  Proof.
    intros R ty size ctx t n H. unfold g_unmarshal_any, unmarshal_any. destruct (new_box R ty ctx) as [[d z]|e| |]; try (now apply d_const).
    unfold bind, ret. destruct (d_unmarshal d size ctx z t n H) as [[(e & Ee & E) B]|(E & K & L)];
      destruct (g_unmarshal O lf d size ctx z t) as [r1 t1], (unmarshal_def d data size ctx z n) as [r2 n1]; cbn [fst snd] in *.
    - subst r1. left. now apply failed_i.
    - subst r2. destruct r1 as [[x k]|e| |]; right; (split; [reflexivity|]; split; [exact K|]); intros a Ha; try discriminate. now apply (L (x, k)).
  Qed.
  Lemma d_read_payload : forall R bi t n, C t -> drifts (g_read_payload O lf R bi t) (read_payload R data bi n).
  Proof.
    intros R bi t n H. unfold g_read_payload, read_payload. apply d_bind; [now apply d_seek|]. intros _ t1 n1 H1. now apply d_unmarshal_any.
  Qed.
  Lemma d_read_data : forall bi t n, C t -> drifts (g_read_data O bi t) (read_data data bi n).
  Proof.
    intros bi t n H. unfold g_read_data, read_data. apply d_bind; [now apply d_seek|]. intros _ t1 n1 H1.
    apply (of_or_fails _ (d <- raw calm (o_copy calm (payload_size bi)) ;; ret (d, payload_size bi)) _ _ _); [|exact H1].
    apply e_bind; [exact (e_copy er calm data BS BT QS QT F (payload_size bi))|intros; apply e_ret].
  Qed.
  Lemma d_prepare : forall R bi pth t n, QT t n -> drifts (g_prepare O lf R bi pth t) (prepare R data bi pth n).
  Proof.
    intros R bi pth t n H. unfold g_prepare, prepare. cbv zeta. apply d_bind; [apply d_seek; now exists n|]. intros _ t1 n1 H1.
    apply d_bind.
    - destruct (_ && _); [|now apply d_const]. apply d_bind; [now apply d_unmarshal_any|]. intros x t2 n2 H2.
      apply d_bind; [apply d_seek; now exists n2|]. intros _ t3 n3 H3. now apply d_const.
    - intros bi1 t2 n2 H2. destruct (bt_eqb _ _); [|now apply d_const]. apply d_bind; [now apply d_unmarshal_any|]. intros x t3 n3 H3.
      apply d_bind; [apply d_seek; now exists n3|]. intros _ t4 n4 H4. now apply d_const.
  Qed.

  Section Traversal.
    Variable R : registry.
    Context {St V P : Type}.
    Variable handler : handler_t St V P.
    Hypothesis pass : forall e, er e -> forall bi pth params s, passes e (handler bi pth params s).
    Definition driftsP {A} (x : res A * (T * St)) (y : res A * (N * St)) : Prop :=
      failed er (BP BT) x \/
      (fst x = fst y /\ C (fst (snd x)) /\ snd (snd x) = snd (snd y) /\ forall a, fst x = Ok a -> QT (fst (snd x)) (fst (snd y))).
    Lemma p_lift : forall A (x : M T A) y t n s, drifts (x t) (y n) -> driftsP (g_lift_s x (t, s)) (lift_s y (n, s)).
    Proof.
      intros A x y t n s X. unfold g_lift_s, lift_s. cbn [fst snd]. destruct (x t) as [a t1], (y n) as [b n1]. cbn [fst snd] in *.
      destruct X as [K|(E & K & L)]; [now left|right]. cbn [fst snd] in *. repeat split; auto.
    Qed.
    Lemma p_const : forall A (r : res A) t n s, QT t n -> driftsP (r, (t, s)) (r, (n, s)).
    Proof. intros A r t n s H. right. split; [reflexivity|]. split; [now exists n|]. split; [reflexivity|]. intros _ _. exact H. Qed.
    Lemma p_bind : forall A D (x : M (T * St) A) y (f : A -> M (T * St) D) g t n s, driftsP (x (t, s)) (y (n, s)) ->
      (forall a t n s, QT t n -> driftsP (f a (t, s)) (g a (n, s))) -> driftsP (bind x f (t, s)) (bind y g (n, s)).
    Proof.
      intros A D x y f g t n s X Hf. unfold bind. destruct X as [[(e & Ee & E) B]|(E & K & ES & L)];
        destruct (x (t, s)) as [r1 [t1 s1]], (y (n, s)) as [r2 [n2 s2]]; cbn [fst snd] in *.
      - subst r1. left. now apply failed_i.
      - subst r2 s2. destruct r1 as [a|e| |]; [apply Hf; now apply (L a)|..];
          right; (split; [reflexivity|]; split; [exact K|]; split; [reflexivity|]; intros a; discriminate).
    Qed.
    (** from any place to any place *)
    Definition same {A} (x : res A * (T * St)) (y : res A * (N * St)) : Prop :=
      fst x = fst y /\ C (fst (snd x)) /\ snd (snd x) = snd (snd y).
    Definition weakly {A} (x : res A * (T * St)) (y : res A * (N * St)) : Prop := failed er (BP BT) x \/ same x y.
    Lemma w_attempt : forall A D (x : M (T * St) A) y (f : res A -> M (T * St) D) g t n s (bad : res A -> Prop),
      (forall r, bad r -> match r with Ok _ | Err _ => True | _ => False end) ->
      (bad (fst (x (t, s))) /\ BP BT (snd (x (t, s))) \/ same (x (t, s)) (y (n, s))) ->
      (forall r z, bad r -> BP BT z -> failed er (BP BT) (f r z)) ->
      (forall r t n s, C t -> weakly (f r (t, s)) (g r (n, s))) ->
      weakly (bind (attempt x) f (t, s)) (bind (attempt y) g (n, s)).
    Proof.
      intros A D x y f g t n s bad W X G Hf. unfold bind, attempt. destruct X as [[E B]|(E & K & ES)].
      - left. destruct (x (t, s)) as [r1 z1]. cbn [fst snd] in *. specialize (W r1 E). destruct r1; try contradiction; now apply G.
      - destruct (x (t, s)) as [r1 [t1 s1]], (y (n, s)) as [r2 [n1 s2]]. cbn [fst snd] in *. subst r2 s2.
        destruct r1 as [a|e| |]; [now apply Hf..|right|right]; (split; [reflexivity|]; split; [exact K|reflexivity]).
    Qed.
    Definition reports {A} (r : res A) : Prop := exists e, er e /\ r = Err e.
    Lemma of_driftsP : forall A (x : res A * (T * St)) y, driftsP x y -> reports (fst x) /\ BP BT (snd x) \/ same x y.
    Proof. intros A x y [[K B]|(E & K & ES & _)]; [left; now split|right; now split]. Qed.
    Lemma reports_is : forall A (r : res A), reports r -> match r with Ok _ | Err _ => True | _ => False end.
    Proof. intros A r (e & _ & ->). exact I. Qed.
    Definition reports2 (r : res (N * res (list V))) : Prop := exists e, er e /\ (r = Err e \/ exists co', r = Ok (co', Err e)).
    Lemma w_first : forall A (x : M (T * St) A) y (f : A -> M (T * St) (N * res (list V))) g t n s, driftsP (x (t, s)) (y (n, s)) ->
      (forall a t n s, QT t n -> reports2 (fst (f a (t, s))) /\ BP BT (snd (f a (t, s))) \/ same (f a (t, s)) (g a (n, s))) ->
      reports2 (fst (bind x f (t, s))) /\ BP BT (snd (bind x f (t, s))) \/ same (bind x f (t, s)) (bind y g (n, s)).
    Proof.
      intros A x y f g t n s X Hf. unfold bind. destruct X as [[(e & Ee & E) B]|(E & K & ES & L)];
        destruct (x (t, s)) as [r1 [t1 s1]], (y (n, s)) as [r2 [n2 s2]]; cbn [fst snd] in *.
      - subst r1. left. split; [exists e; split; [exact Ee|now left]|exact B].
      - subst r2 s2. destruct r1 as [a|e| |]; [apply Hf; now apply (L a)|..]; right; (split; [reflexivity|]; split; [exact K|reflexivity]).
    Qed.
    Lemma p_run : forall bi e1 e2, (forall total p t n s, QT t n -> driftsP (e1 total p (t, s)) (e2 total p (n, s))) ->
      forall p, (forall e, er e -> passes e p) -> forall co t n s, C t ->
        weakly (g_run_handler O lf R bi e1 co p (t, s)) (run_handler (St := St) (V := V) (P := P) R data bi e2 co p (n, s)).
    Proof.
      intros bi e1 e2 E p. induction p as [s0 v|s0 e|k IH|k IH|s0 p k IH|pos k IH]; intros W co t n s H; cbn [g_run_handler run_handler passes] in *.
      - right. now repeat split.
      - right. now repeat split.
      - apply w_attempt with (bad := reports); [apply reports_is|apply of_driftsP, p_lift; now apply d_read_payload| |].
        + intros r z (e & Ee & ->) B. destruct (W e Ee) as [[sf We] _]. rewrite We. now apply failed_i.
        + intros r t1 n1 s1 H1. apply IH; [|exact H1]. intros e Ee. now apply (W e Ee).
      - apply w_attempt with (bad := reports); [apply reports_is|apply of_driftsP, p_lift; now apply d_read_data| |].
        + intros r z (e & Ee & ->) B. destruct (W e Ee) as [[sf We] _]. rewrite We. now apply failed_i.
        + intros r t1 n1 s1 H1. apply IH; [|exact H1]. intros e Ee. now apply (W e Ee).
      - match goal with |- weakly (bind _ ?f _) (bind _ ?g _) => change (weakly (f tt (t, s0)) (g tt (n, s0))) end. cbv beta.
        apply w_attempt with (bad := reports2).
        + intros r (e & Ee & [Er|[co' Er]]); now subst r.
        + assert (Z : forall co' t1 n1 s1, QT t1 n1 ->
            let x := (vs <- attempt (e1 (sub64 (bi_offset bi + bi_size bi) co') p) ;; ret (co', vs)) (t1, s1) in
            let y := (vs <- attempt (e2 (sub64 (bi_offset bi + bi_size bi) co') p) ;; ret (co', vs)) (n1, s1) in
            reports2 (fst x) /\ BP BT (snd x) \/ same x y).
          { intros co' t1 n1 s1 H1. cbv zeta. unfold bind, attempt. destruct (of_driftsP _ _ _ (E (sub64 (bi_offset bi + bi_size bi) co') p t1 n1 s1 H1)) as [[(e & Ee & E1) B]|(E1 & K & ES)];
            destruct (e1 _ p (t1, s1)) as [r1 z1], (e2 _ p (n1, s1)) as [r2 [n2 s2]]; cbn [fst snd] in *.
            - subst r1. left. split; [|exact B]. exists e. split; [exact Ee|right; eexists; reflexivity].
            - subst r2 s2. right. destruct r1; (split; [reflexivity|]; split; [exact K|reflexivity]). }
          destruct (co =? 0); apply w_first.
          * apply p_lift. now apply d_read_payload.
          * intros a t1 n1 s1 H1. now apply Z.
          * apply p_lift. now apply d_seek.
          * intros a t1 n1 s1 H1. now apply Z.
        + intros r z (e & Ee & [Er|[co' Er]]) Bx; subst r; unfold bind, get; destruct (W e Ee) as [We _]; destruct (We (snd z)) as [s' W2]; rewrite W2; now apply failed_i.
        + intros r t1 n1 s1 H1. unfold bind, get. cbn [snd].
          destruct r as [[co' vs]|e| |]; [| |right; now repeat split..]; apply IH; try exact H1; intros e' Ee; now apply (W e' Ee).
      - unfold bind. pose proof (p_lift _ _ _ t n s (d_put pos t n H)) as L. change (lift_s (fun s1 => (Ok tt, pos)) (n, s)) with (lift_s (put pos) (n, s) : res unit * (N * St)).
        destruct L as [[(e & Ee & E1) B]|(E1 & K & ES & L)];
          destruct (g_lift_s _ (t, s)) as [r1 [t1 s1]]; cbn [lift_s put fst snd] in *; subst r1.
        + left. now apply failed_i.
        + subst s1. now apply IH.
    Qed.
    Lemma p_box_internal : forall r1 r2, (forall total pth ctx q t n s, QT t n -> driftsP (r1 total pth ctx q (t, s)) (r2 total pth ctx q (n, s))) ->
      forall bi pth params t n s, QT t n -> driftsP (g_box_internal O lf R handler r1 bi pth params (t, s)) (box_internal R data handler r2 bi pth params (n, s)).
    Proof.
      intros r1 r2 X bi0 pth params t n s H. unfold g_box_internal, box_internal. apply p_bind; [apply p_lift; now apply d_prepare|].
      intros bi t1 n1 s1 H1. cbv zeta. unfold bind at 1 3. cbn [snd].
      assert (L : forall t2, C t2 -> forall n2 s2 (v : V), driftsP ((g_lift_s (g_seek_to_end O bi) ;;; ret (v, bi)) (t2, s2)) ((lift_s (seek_to_end bi) ;;; ret (v, bi)) (n2, s2))).
      { intros t2 H2 n2 s2 v. apply p_bind; [apply p_lift; now apply d_seek|]. intros _ t3 n3 s3 H3. now apply p_const. }
      destruct (p_run bi (fun total p => r1 total (pth ++ [bi_type bi]) (child_ctx (bi_type bi) (bi_ctx bi)) p) (fun total p => r2 total (pth ++ [bi_type bi]) (child_ctx (bi_type bi) (bi_ctx bi)) p) (fun total p => X total (pth ++ [bi_type bi]) (child_ctx (bi_type bi) (bi_ctx bi)) p) (handler bi (pth ++ [bi_type bi]) params s1)
        (fun e Ee => pass e Ee bi (pth ++ [bi_type bi]) params s1) 0 t1 n1 s1 (ex_intro _ n1 H1)) as [[(e & Ee & E) B]|(E & K & ES)];
        destruct (g_run_handler _ _ _ _ _ _ _ (t1, s1)) as [a1 [t2 s2]], (run_handler _ _ _ _ _ _ (n1, s1)) as [a2 [n2 s3]]; cbn [fst snd] in *.
      - subst a1. left. now apply failed_i.
      - subst a2 s3. destruct a1 as [v|e| |]; [now apply L|..]; right; (split; [reflexivity|]; split; [exact K|]; split; [reflexivity|]; intros a; discriminate).
    Qed.
    Lemma p_attempt : forall A D (x : M T A) y (f : res A -> M (T * St) D) g t n s, or_fails er BT QT x y -> QT t n ->
      (forall e z, er e -> BP BT z -> failed er (BP BT) (f (Err e) z)) -> (forall r t n s, QT t n -> driftsP (f r (t, s)) (g r (n, s))) ->
      driftsP (bind (attempt (g_lift_s x)) f (t, s)) (bind (attempt (lift_s y)) g (n, s)).
    Proof.
      intros A D x y f g t n s X H G Hf. unfold bind, attempt, g_lift_s, lift_s. cbn [fst snd].
      destruct (X t n H) as [[(e & Ee & E) B]|[E K]]; destruct (x t) as [r1 t1], (y n) as [r2 n1]; cbn [fst snd] in *.
      - subst r1. left. now apply G.
      - subst r2. destruct r1 as [a|e| |]; [now apply Hf..|now apply p_const|now apply p_const].
    Qed.
    Lemma p_read_structure : forall fuel isRoot total pth ctx params t n s, QT t n ->
      driftsP (g_read_structure O lf R handler fuel isRoot total pth ctx params (t, s)) (read_structure R data handler fuel isRoot total pth ctx params (n, s)).
    Proof.
      induction fuel as [|fuel IH]; intros isRoot total pth ctx params t n s H; cbn [g_read_structure read_structure]; [now apply p_const|].
      destruct (isRoot || (SmallHeaderSize <=? total)).
      2:{ destruct (negb (total =? 0) && negb (IsQuickTimeCompatible ctx)); now apply p_const. }
      rewrite same_info. apply p_attempt; [exact (e_read_box_info er calm data BS BT QS QT F)|exact H| |].
      { intros e z Ee B. destruct e; try (now apply failed_i). contradiction. }
      intros [bi|e| |] t1 n1 s1 K; try (now apply p_const).
      - destruct (negb isRoot && (total <? bi_size bi)); [now apply p_const|].
        apply p_bind; [apply p_box_internal; [intros; now apply IH|exact K]|]. intros [v bi'] t2 n2 s2 H2. cbv zeta.
        apply p_bind; [now apply IH|]. intros vs t3 n3 s3 H3. now apply p_const.
      - destruct e; try (now apply p_const). destruct isRoot; now apply p_const.
    Qed.
    Lemma p_read_box_structure : forall params t n s, C t ->
      driftsP (g_read_box_structure O lf tf R handler params (t, s)) (read_box_structure R data handler params (n, s)).
    Proof.
      intros params t n s H. unfold g_read_box_structure, read_box_structure. apply p_bind; [apply p_lift; now apply d_seek|].
      intros _ t1 n1 s1 H1. now apply p_read_structure.
    Qed.
  End Traversal.
End Drift.
