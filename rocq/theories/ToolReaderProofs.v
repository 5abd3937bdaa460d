(** The commands on a reader that may fail: they fail as the reader does, or give the
    result they give on the contents of the file. *)
From Verif Require Import Base BaseProofs BitIO Schema Structs Methods Registry Marshal Unmarshal BoxInfo ReadTree Extract Accessors Probe Writer GoText Text Tool ProbeTool Edit
  Stream AnyReader AnyReaderProofs Failing SpecFailing FailingProofs ToolReader.
Local Open Scope string_scope.
Local Open Scope list_scope.
Local Open Scope N_scope.
Local Open Scope monad_scope.

Lemma read_box_info_at : forall data pos bi p, read_box_info data pos = (Ok bi, p) -> bi_offset bi = pos /\ pos <= lenN data.
Proof.
  intros data pos bi p. unfold read_box_info, bind, get, s_copy. cbn [N.eqb].
  change ((SmallHeaderSize =? 0) || (9223372036854775808 <=? SmallHeaderSize)) with false. cbv iota zeta.
  destruct (lenN (takeN SmallHeaderSize (skipN pos data)) =? SmallHeaderSize) eqn:L; [|discriminate].
  apply N.eqb_eq in L. assert (K : pos <= lenN data).
  { destruct (N.le_gt_cases pos (lenN data)) as [K|K]; [exact K|]. rewrite skipN_all in L by lia. discriminate L. }
  intros G. split; [|exact K]. revert G.
  repeat match goal with
  | |- context [match ?x with _ => _ end] => destruct x eqn:?
  | |- _ -> _ => intros G; try discriminate G
  end; try (injection G as <- _; reflexivity).
Qed.

Lemma prepare_offset : forall R data bi pth pos bi' p, prepare R data bi pth pos = (Ok bi', p) -> bi_offset bi' = bi_offset bi.
Proof.
  intros R data bi pth pos bi' p. unfold prepare.
  set (x := if _ && _ then _ else _). assert (K : forall q b q', x q = (Ok b, q') -> bi_offset b = bi_offset bi).
  { intros q b q'. unfold x, bind, ret. destruct (_ && _); [|intros G; now injection G as <- _].
    destruct (unmarshal_any _ _ _ _ _ q) as [[y|e| |] q1]; try discriminate. cbv zeta.
    destruct (has_compatible_brand _ _); destruct (seek_to_payload _ q1) as [[u|e| |] q2]; try discriminate; intros G; now injection G as <- _. }
  unfold bind, ret. destruct (seek_to_payload bi pos) as [[u|e| |] q1]; try discriminate.
  destruct (x q1) as [[b|e| |] q2] eqn:Y; try discriminate. rewrite <- (K _ _ _ Y).
  destruct (bt_eqb (bi_type b) (bt "keys")); [|intros G; now injection G as <- _].
  destruct (unmarshal_any _ _ _ _ _ q2) as [[y|e| |] q3]; try discriminate. cbv zeta.
  destruct (seek_to_payload _ q3) as [[u'|e| |] q4]; try discriminate; intros G; now injection G as <- _.
Qed.

Section Commands.
  Context {S T : Type} (er : err -> Prop) (O : reader S T) (data : list byte) (BS : S -> Prop) (BT : T -> Prop) (QS : S -> rst -> Prop) (QT : T -> N -> Prop).
  Hypothesis F : may_fail er O data BS BT QS QT.
  Hypothesis ne : ~ er EEOF.
  Hypothesis short : lenN data < 9223372036854775808.
  Notation lf := (loop_fuel data).

  Section Traversal.
    Variable R : registry.
    Context {St V P : Type}.
    (** the states the handler keeps to, what the result tells of the state (whether
        there was a panic), and the errors with which the handler may stop somewhere else *)
    Context {Pn : Type}.
    Variables (I : St -> Prop) (pan : St -> Pn) (X : err -> Prop).
    Definition QI (a : T * St) (b : N * St) : Prop := QT (fst a) (fst b) /\ snd a = snd b /\ I (snd a).
    Definition BI (a : T * St) : Prop := BT (fst a) /\ I (snd a).
    Definition stopped {A} (a : res A * (T * St)) (b : res A * (N * St)) : Prop :=
      exists e, X e /\ fst a = Err e /\ fst b = Err e /\ pan (snd (snd a)) = pan (snd (snd b)).
    Definition outcome {A} (a : res A * (T * St)) (b : res A * (N * St)) : Prop :=
      failed er BI a \/ stopped a b \/ (fst a = fst b /\ QI (snd a) (snd b)).
    Definition rel {A} (x : M (T * St) A) (y : M (N * St) A) : Prop := forall s1 s2, QI s1 s2 -> outcome (x s1) (y s2).
    Lemma r_lifted : forall A (x : M T A) y, or_fails er BT QT x y -> forall s1 s2, QI s1 s2 ->
      failed er BI (g_lift_s x s1) \/ (fst (g_lift_s x s1) = fst (lift_s y s2) /\ QI (snd (g_lift_s x s1)) (snd (lift_s y s2))).
    Proof.
      intros A x y K [t s] [n s'] [H [E J]]. cbn in H, E, J. subst s'. unfold g_lift_s, lift_s. cbn [fst snd].
      destruct (K t n H) as [E|[E K1]]; destruct (x t) as [a t1], (y n) as [b n1]; cbn [fst snd] in *.
      - left. destruct E as [E B]. split; [exact E|]. now split.
      - right. now repeat split.
    Qed.
    Lemma r_lift : forall A (x : M T A) y, or_fails er BT QT x y -> rel (g_lift_s x) (lift_s y).
    Proof. intros A x y K s1 s2 H. destruct (r_lifted A x y K s1 s2 H) as [E|E]; [now left|right; now right]. Qed.
    Lemma r_ret : forall A (a : A), rel (ret a) (ret a).
    Proof. intros A a s1 s2 H. right. right. now split. Qed.
    Lemma r_fail : forall A e, rel (fail e : M (T * St) A) (fail e).
    Proof. intros A e s1 s2 H. right. right. now split. Qed.
    Lemma r_bind : forall A C (x : M (T * St) A) y (f : A -> M (T * St) C) g,
      rel x y -> (forall a, rel (f a) (g a)) -> rel (bind x f) (bind y g).
    Proof.
      intros A C x y f g K L s1 s2 H. unfold bind. destruct (K s1 s2 H) as [E|[E|[E H1]]];
        destruct (x s1) as [r1 t1], (y s2) as [r2 t2].
      - left. destruct E as [(e & Ee & E) B]. cbn [fst snd] in E, B. subst r1. now apply failed_i.
      - right. left. destruct E as (e & Ee & E1 & E2 & E3). cbn [fst snd] in E1, E2, E3. subst r1 r2. exists e. now repeat split.
      - cbn [fst snd] in E, H1. subst r2. destruct r1 as [a|e| |]; [now apply L|right; right; now split..].
    Qed.

    Lemma r_lift_bind : forall A C (x : M T A) y (f : A -> M (T * St) C) g (Z : A -> Prop), or_fails er BT QT x y ->
      (forall n a n', y n = (Ok a, n') -> Z a) -> (forall a, Z a -> rel (f a) (g a)) -> rel (bind (g_lift_s x) f) (bind (lift_s y) g).
    Proof.
      intros A C x y f g Z K L G s1 s2 H. unfold bind. pose proof (r_lifted A x y K s1 s2 H) as E. unfold lift_s in E |- *.
      destruct (g_lift_s x s1) as [r1 t1]. destruct (y (fst s2)) as [r2 n2] eqn:Y. destruct E as [E|[E H1]].
      - left. destruct E as [(e & Ee & E) B]. cbn [fst snd] in E, B. subst r1. now apply failed_i.
      - cbn [fst snd] in E, H1. subst r2. destruct r1 as [a|e| |]; [|right; right; now split..]. apply G; [eapply L; exact Y|exact H1].
    Qed.
    Lemma r_attempt_bind : forall A C (x : M T A) y (f : res A -> M (T * St) C) g (Z : A -> Prop), or_fails er BT QT x y ->
      (forall n a n', y n = (Ok a, n') -> Z a) -> (forall e s, er e -> BI s -> failed er BI (f (Err e) s)) ->
      (forall a, Z a -> rel (f (Ok a)) (g (Ok a))) -> (forall e, rel (f (Err e)) (g (Err e))) ->
      rel (bind (attempt (g_lift_s x)) f) (bind (attempt (lift_s y)) g).
    Proof.
      intros A C x y f g Z K L B G G2 s1 s2 H. unfold bind, attempt. pose proof (r_lifted A x y K s1 s2 H) as E. unfold lift_s in E |- *.
      destruct (g_lift_s x s1) as [r1 t1]. destruct (y (fst s2)) as [r2 n2] eqn:Y. destruct E as [E|[E H1]].
      - left. destruct E as [(e & Ee & E) B1]. cbn [fst snd] in E, B1. subst r1. now apply B.
      - cbn [fst snd] in E, H1. subst r2. destruct r1 as [a|e| |]; try (right; right; now split).
        + apply G; [eapply L; exact Y|exact H1].
        + now apply G2.
    Qed.

    (** handlers: they keep to such states, and hand on the errors of the
        reader and those they may stop with *)
    Fixpoint good (p : hprog St V P) : Prop :=
      match p with
      | HRet s _ => I s
      | HFail s e => I s \/ X e
      | HReadPayload k => (forall e, er e -> exists s, k (Err e) = HFail s e /\ I s) /\ forall r, good (k r)
      | HReadData k => (forall e, er e -> exists s, k (Err e) = HFail s e /\ I s) /\ forall r, good (k r)
      | HExpand s _ k => I s /\
          (forall e, er e -> forall s, I s -> exists s', k (Err e) s = HFail s' e /\ I s') /\
          (forall e, X e -> forall s, exists s', k (Err e) s = HFail s' e /\ pan s' = pan s) /\
          forall r s, I s -> good (k r s)
      | HMove _ k => good k
      end.
    Lemma r_run : forall bi e1 e2, (forall total p, rel (e1 total p) (e2 total p)) ->
      forall p, good p -> forall co, rel (g_run_handler O lf R bi e1 co p) (run_handler R data bi e2 co p).
    Proof.
      intros bi e1 e2 E p. induction p as [s v|s e|k IH|k IH|s p k IH|pos k IH]; intros W co; cbn [g_run_handler run_handler good] in *.
      - intros [t s1] [n s2] [H _]. right. right. now repeat split.
      - intros [t s1] [n s2] [H _]. destruct W as [W|W].
        + right. right. now repeat split.
        + right. left. exists e. now repeat split.
      - destruct W as [W1 W2]. intros s1 s2 H. unfold bind, attempt.
        destruct (r_lifted _ _ _ (e_read_payload _ _ _ _ _ _ _ F R bi) s1 s2 H) as [E1|[E1 H1]];
          destruct (g_lift_s _ s1) as [r1 t1], (lift_s _ s2) as [r2 t2].
        + left. destruct E1 as [(e & Ee & E1) [B1 B2]]. cbn [fst snd] in E1, B1, B2. subst r1.
          destruct (W1 e Ee) as (s & W & Ws). rewrite W. apply failed_i; [exact Ee|]. now split.
        + cbn [fst snd] in E1, H1. subst r2. destruct r1; try (right; right; now split); now apply IH.
      - destruct W as [W1 W2]. intros s1 s2 H. unfold bind, attempt.
        destruct (r_lifted _ _ _ (e_read_data _ _ _ _ _ _ _ F bi) s1 s2 H) as [E1|[E1 H1]];
          destruct (g_lift_s _ s1) as [r1 t1], (lift_s _ s2) as [r2 t2].
        + left. destruct E1 as [(e & Ee & E1) [B1 B2]]. cbn [fst snd] in E1, B1, B2. subst r1.
          destruct (W1 e Ee) as (s & W & Ws). rewrite W. apply failed_i; [exact Ee|]. now split.
        + cbn [fst snd] in E1, H1. subst r2. destruct r1; try (right; right; now split); now apply IH.
      - destruct W as (W0 & W1 & W2 & W3). intros [t1 u1] [n1 u2] [H _]. cbn [fst snd] in H.
        set (a1 := (t1, s)). set (b1 := (n1, s)). assert (H1 : QI a1 b1) by (now repeat split).
        (* reading up to the children *)
        set (x1 := if co =? 0 then p' <- g_lift_s (g_read_payload O lf R bi) ;; ret (w64 (bi_offset bi + bi_hsize bi + snd p'))
                   else g_lift_s (g_seek O co) ;;; ret co : M (T * St) N).
        set (y1 := if co =? 0 then p' <- lift_s (read_payload R data bi) ;; ret (w64 (bi_offset bi + bi_hsize bi + snd p'))
                   else lift_s (s_seek co) ;;; ret co : M (N * St) N).
        assert (K1 : failed er BI (x1 a1) \/ (fst (x1 a1) = fst (y1 b1) /\ QI (snd (x1 a1)) (snd (y1 b1)))).
        { unfold x1, y1, bind. destruct (co =? 0).
          - destruct (r_lifted _ _ _ (e_read_payload _ _ _ _ _ _ _ F R bi) a1 b1 H1) as [E1|[E1 H2]];
              destruct (g_lift_s _ a1) as [r1 s1], (lift_s _ b1) as [r2 s2]; cbn [fst snd] in *.
            + left. destruct E1 as [(e & Ee & E1) B]. cbn [fst snd] in E1, B. subst r1. now apply failed_i.
            + right. subst r2. destruct r1; now split.
          - destruct (r_lifted _ _ _ (e_seek _ _ _ _ _ _ _ F co) a1 b1 H1) as [E1|[E1 H2]];
              destruct (g_lift_s _ a1) as [r1 s1], (lift_s _ b1) as [r2 s2]; cbn [fst snd] in *.
            + left. destruct E1 as [(e & Ee & E1) B]. cbn [fst snd] in E1, B. subst r1. now apply failed_i.
            + right. subst r2. destruct r1; now split. }
        assert (G1 : forall C (z : unit -> M (T * St) C), bind (fun x : T * St => (Ok tt, (fst x, s))) z (t1, u1) = z tt a1) by reflexivity.
        assert (G2 : forall C (z : unit -> M (N * St) C), bind (fun x : N * St => (Ok tt, (fst x, s))) z (n1, u2) = z tt b1) by reflexivity.
        unfold outcome. rewrite G1, G2. clear G1 G2.
        set (k1 := fun r : res (N * res (list V)) => _).
        match goal with |- context [bind (attempt ?z) k1 a1] => set (z1 := z) end.
        assert (Z1 : z1 a1 = match x1 a1 with
                             | (Ok c, a2) => let (r, a3) := attempt (e1 (sub64 (bi_offset bi + bi_size bi) c) p) a2 in
                                             (match r with Ok vs => Ok (c, vs) | Err e => Err e | Panic => Panic | OutOfFuel => OutOfFuel end, a3)
                             | (Err e, a2) => (Err e, a2) | (Panic, a2) => (Panic, a2) | (OutOfFuel, a2) => (OutOfFuel, a2) end).
        { unfold z1, x1, bind, ret. destruct (co =? 0); destruct (g_lift_s _ a1) as [[v|e| |] a2]; try reflexivity; cbv zeta;
            destruct (attempt _ a2) as [[r|r| |] a3]; reflexivity. }
        match goal with |- context [bind (attempt ?z) ?k2 b1] => set (z2 := z); set (k2' := k2) end.
        assert (Z2 : z2 b1 = match y1 b1 with
                             | (Ok c, a2) => let (r, a3) := attempt (e2 (sub64 (bi_offset bi + bi_size bi) c) p) a2 in
                                             (match r with Ok vs => Ok (c, vs) | Err e => Err e | Panic => Panic | OutOfFuel => OutOfFuel end, a3)
                             | (Err e, a2) => (Err e, a2) | (Panic, a2) => (Panic, a2) | (OutOfFuel, a2) => (OutOfFuel, a2) end).
        { unfold z2, y1, bind, ret. destruct (co =? 0); destruct (lift_s _ b1) as [[v|e| |] a2]; try reflexivity; cbv zeta;
            destruct (attempt _ a2) as [[r|r| |] a3]; reflexivity. }
        clearbody z1 z2. unfold bind, attempt.
        rewrite Z1, Z2. clear Z1 Z2. destruct K1 as [K1|[K1 H2]].
        + left. destruct (x1 a1) as [r1 a2]. destruct K1 as [(e & Ee & K1) [B1 B2]]. cbn [fst snd] in K1, B1, B2. subst r1.
          unfold k1, bind, get. destruct (W1 e Ee (snd a2) B2) as (s' & W & Ws). rewrite W. apply failed_i; [exact Ee|]. now split.
        + destruct (x1 a1) as [r1 a2], (y1 b1) as [r2 b2]. cbn [fst snd] in K1, H2. subst r2.
          destruct r1 as [c|e| |]; try (right; right; now split).
          2: { unfold k1, k2', bind, get. destruct H2 as (H2 & H3 & H4). rewrite <- H3. apply IH; [now apply W3|now repeat split]. }
          unfold attempt. destruct (E (sub64 (bi_offset bi + bi_size bi) c) p a2 b2 H2) as [K2|[K2|[K2 H3]]];
            destruct (e1 _ p a2) as [r1 a3], (e2 _ p b2) as [r2 b3].
          * left. destruct K2 as [(e & Ee & K2) [B1 B2]]. cbn [fst snd] in K2, B1, B2. subst r1.
            unfold k1, bind, get. destruct (W1 e Ee (snd a3) B2) as (s' & W & Ws). rewrite W. apply failed_i; [exact Ee|]. now split.
          * right. left. destruct K2 as (e & Ee & K2 & K3 & K4). cbn [fst snd] in K2, K3, K4. subst r1 r2.
            unfold k1, k2', bind, get. destruct (W2 e Ee (snd a3)) as (s' & W & Ws). destruct (W2 e Ee (snd b3)) as (s'' & W' & Ws').
            rewrite W, W'. exists e. cbn. repeat split; [exact Ee|]. congruence.
          * cbn [fst snd] in K2, H3. subst r2. destruct r1 as [vs|e| |]; try (right; right; now split);
            (unfold k1, k2', bind, get; destruct H3 as (H3 & H4 & H5); rewrite <- H4; apply IH; [now apply W3|now repeat split]).
      - intros s1 s2 H. unfold bind. destruct (r_lifted _ _ _ (e_put _ _ _ _ _ _ _ F pos) s1 s2 H) as [E1|[E1 H1]].
        + left. destruct (g_lift_s _ s1) as [r1 t1]. destruct E1 as [(e & Ee & E1) B]. cbn [fst snd] in E1, B. subst r1. now apply failed_i.
        + destruct (g_lift_s _ s1) as [r1 t1]. cbn [fst snd lift_s put] in E1, H1. subst r1. now apply IH.
    Qed.

    Variables (first : boxinfo -> M (T * St) (hprog St V P)) (handler : handler_t St V P).
    Hypothesis same : forall bi pth params e1 e2, bi_offset bi < 9223372036854775808 -> (forall total p, rel (e1 total p) (e2 total p)) ->
      rel (p <- first bi ;; g_run_handler O lf R bi e1 0 p) (fun x => run_handler R data bi e2 0 (handler bi pth params (snd x)) x).
    Lemma r_box : forall r1 r2, (forall t p c q, rel (r1 t p c q) (r2 t p c q)) ->
      forall bi pth params, bi_offset bi < 9223372036854775808 ->
      rel (t_box_internal O lf R first r1 bi pth params) (box_internal R data handler r2 bi pth params).
    Proof.
      intros r1 r2 C bi0 pth params L. unfold t_box_internal, box_internal.
      apply (r_lift_bind _ _ _ _ _ _ (fun bi => bi_offset bi < 9223372036854775808) (e_prepare _ _ _ _ _ _ _ F R bi0 pth)).
      - intros n bi n' Y. now rewrite (prepare_offset _ _ _ _ _ _ _ Y).
      - intros bi K. cbv zeta. apply r_bind; [apply same; [exact K|intros; apply C]|]. intros v.
        apply r_bind; [apply r_lift; exact (e_seek_to_end _ _ _ _ _ _ _ F bi)|]. intros; apply r_ret.
    Qed.
    Lemma r_structure : forall fuel isRoot total pth ctx params,
      rel (t_read_structure O lf R first fuel isRoot total pth ctx params) (read_structure R data handler fuel isRoot total pth ctx params).
    Proof.
      induction fuel as [|fuel IH]; intros isRoot total pth ctx params; cbn [t_read_structure read_structure].
      { intros s1 s2 H. right. right. now split. }
      destruct (isRoot || (SmallHeaderSize <=? total)).
      2: { destruct (negb (total =? 0) && negb (IsQuickTimeCompatible ctx)); [apply r_fail|apply r_ret]. }
      apply (r_attempt_bind _ _ _ _ _ _ (fun bi => bi_offset bi < 9223372036854775808) (e_read_box_info _ _ _ _ _ _ _ F)).
      - intros n bi n' Y. destruct (read_box_info_at _ _ _ _ Y) as [-> Z]. now apply (N.le_lt_trans _ _ _ Z).
      - intros e s Ee B. destruct e; try (now apply failed_i). now elim ne.
      - intros bi K. destruct (negb isRoot && (total <? bi_size bi)); [apply r_fail|].
        apply r_bind; [apply r_box; [intros; apply IH|exact K]|].
        intros [v bi']. cbv zeta. apply r_bind; [apply IH|]. intros; apply r_ret.
      - intros e. destruct e; try apply r_fail. destruct isRoot; [apply r_ret|apply r_fail].
    Qed.
    Lemma r_box_structure : forall params,
      rel (t_read_box_structure O lf (tree_fuel data) R first params) (read_box_structure R data handler params).
    Proof.
      intros params. unfold t_read_box_structure, read_box_structure. apply r_bind; [apply r_lift; exact (e_seek _ _ _ _ _ _ _ F 0)|]. intros _. apply r_structure.
    Qed.
  End Traversal.

  (** ** edit *)
  Definition quiet (s : est) : Prop := Edit.e_panic s = false /\ o_faults (wr_file (e_w s)) = [].
  Definition keeps {A} (m : M writer A) : Prop := forall w, o_faults (wr_file w) = [] -> o_faults (wr_file (snd (m w))) = [].
  Lemma keeps_bind : forall A C (m : M writer A) (f : A -> M writer C), keeps m -> (forall a, keeps (f a)) -> keeps (bind m f).
  Proof.
    intros A C m f K L w H. unfold bind. specialize (K w H). destruct (m w) as [[a|e| |] w1]; try exact K. now apply L.
  Qed.
  Lemma keeps_const : forall A (r : res A), keeps (fun w => (r, w)).
  Proof. intros A r w H. exact H. Qed.
  Lemma keeps_write : forall p, keeps (w_write p).
  Proof. intros p w H. unfold w_write, lift_o, o_write. rewrite H. reflexivity. Qed.
  Lemma keeps_header : forall bi, keeps (lift_o (write_box_info bi)).
  Proof. intros bi w H. unfold lift_o, write_box_info, bind, o_tell, o_write. rewrite H. reflexivity. Qed.
  Lemma keeps_seek : forall x, keeps (lift_o (o_seek x)).
  Proof. intros x w H. unfold lift_o, o_seek. destruct (x <? 9223372036854775808); exact H. Qed.
  Lemma keeps_start : forall bi, keeps (start_box bi).
  Proof. intros bi. apply keeps_bind; [apply keeps_header|]. intros a w H. exact H. Qed.
  Lemma keeps_end : keeps end_box.
  Proof.
    intros [f st] H. unfold end_box. cbn [wr_stack wr_file] in *. destruct st as [|bi r]; [exact H|].
    set (m := _ <- _ ;; _). assert (K : keeps m); [|exact (K (mkwr f r) H)]. unfold m. clear m.
    apply keeps_bind; [intros w G; exact G|]. intros e. cbv zeta. apply keeps_bind; [apply keeps_seek|]. intros _.
    apply keeps_bind; [apply keeps_header|]. intros bi2. destruct (negb _); [apply keeps_const|].
    apply keeps_bind; [apply keeps_seek|]. intros _. apply keeps_const.
  Qed.
  Lemma chunks_ok : forall fuel p w, o_faults (wr_file w) = [] -> exists w', w_chunks fuel p w = (Ok tt, w') /\ o_faults (wr_file w') = [].
  Proof.
    induction fuel as [|k IH]; intros p w H; cbn [w_chunks]; [now exists w|]. destruct p as [|b p]; [now exists w|].
    unfold bind, w_write, lift_o, o_write. rewrite H. apply IH. reflexivity.
  Qed.
  Notation egood := (good quiet Edit.e_panic (fun _ => True) (V := unit) (P := unit)).
  Lemma good_call : forall A (m : M writer A) s k, keeps m -> quiet s -> (forall a s', quiet s' -> egood (k a s')) -> egood (call m s k).
  Proof.
    intros A m s k K [H1 H2] G. unfold call. specialize (K (e_w s) H2). destruct (m (e_w s)) as [[a|e| |] w]; cbn [good]; auto.
    apply G. now split.
  Qed.
  Lemma edit_same : forall cfg bi pth params e1 e2, bi_offset bi < 9223372036854775808 ->
    (forall total p, rel quiet Edit.e_panic (fun _ => True) (e1 total p) (e2 total p)) ->
    rel quiet Edit.e_panic (fun _ => True) (p <- edit_first O cfg bi ;; g_run_handler O lf std_registry bi e1 0 p)
      (fun x => run_handler std_registry data bi e2 0 (edit_handler cfg data bi pth params (snd x)) x).
  Proof.
    intros cfg bi pth params e1 e2 L E [t s] [n s'] H. pose proof H as (HT & HS & HI). cbn [fst snd] in HT, HS, HI. subst s'.
    unfold edit_first, edit_handler. cbn [snd].
    destruct (boxes_exist (cf_drop cfg) (box_type_string (bi_type bi))).
    { unfold bind. cbn [snd]. apply (r_run std_registry quiet Edit.e_panic (fun _ => True)); [exact E|exact HI|exact H]. }
    destruct (negb (is_supported std_registry (bi_type bi) (bi_ctx bi)) || bt_eqb (bi_type bi) (bt "mdat")).
    - assert (K1 : failed er (BI quiet) (g_lift_s (g_seek O (bi_offset bi)) (t, s)) \/
        exists t', g_lift_s (g_seek O (bi_offset bi)) (t, s) = (Ok tt, (t', s)) /\ QT t' (bi_offset bi)).
      { destruct (r_lifted quiet _ _ _ (e_seek _ _ _ _ _ _ _ F (bi_offset bi)) _ _ H) as [K|[K1 K2]]; [now left|right].
        unfold lift_s, s_seek in K1, K2. cbn [fst snd] in K1, K2. apply N.ltb_lt in L. rewrite L in K1, K2. cbn [fst snd] in K1, K2.
        destruct (g_lift_s _ (t, s)) as [r [t' s']]. cbn [fst snd] in K1, K2. destruct K2 as (K2 & K3 & _). cbn [fst snd] in K2, K3.
        exists t'. split; [congruence|assumption]. }
      unfold bind at 1. unfold bind at 1.
      destruct K1 as [K1|(t' & K1 & HT')].
      { left. destruct (g_lift_s _ (t, s)) as [r a]. destruct K1 as [(e & Ee & K1) B]. cbn [fst snd] in K1, B. subst r. now apply failed_i. }
      rewrite K1. clear K1. unfold bind at 1.
      assert (H' : QI quiet (t', s) (bi_offset bi, s)) by (split; [exact HT'|split; [reflexivity|exact HI]]).
      destruct (r_lifted quiet _ _ _ (e_copy _ _ _ _ _ _ _ F (bi_size bi)) _ _ H') as [K|K].
      { left. destruct (g_lift_s _ (t', s)) as [r a]. destruct K as [(e & Ee & K) B]. cbn [fst snd] in K, B. subst r. now apply failed_i. }
      destruct (g_lift_s (raw O (o_copy O (bi_size bi))) (t', s)) as [r a]. unfold lift_s, s_copy in K. cbn [fst snd] in K.
      unfold copy_box, call. apply N.ltb_lt in L. rewrite N.leb_antisym, L. cbn [negb].
      destruct (9223372036854775808 <=? bi_size bi) eqn:Z.
      + rewrite orb_true_r in K. cbn [fst snd] in K. destruct K as [-> K]. cbn [w_chunks List.length lenN].
        assert (Z2 : (lenN (@nil byte) =? bi_size bi) = false).
        { apply N.eqb_neq. intros C. rewrite <- C in Z. discriminate Z. }
        unfold bind, ret. rewrite Z2. cbn. right. left. eexists. repeat split. destruct K as (_ & K & _). cbn in K. now rewrite K.
      + rewrite orb_false_r in K. set (p := takeN (bi_size bi) (skipN (bi_offset bi) data)) in *.
        destruct HI as [HI1 HI2]. destruct (chunks_ok (Datatypes.S (List.length p)) p (e_w s) HI2) as (w' & W1 & W2).
        assert (P0 : (bi_size bi =? 0) = true -> p = []).
        { intros G. apply N.eqb_eq in G. unfold p. rewrite G. destruct (skipN (bi_offset bi) data); reflexivity. }
        unfold bind. rewrite W1. destruct (lenN p =? bi_size bi) eqn:Z2; cbn [ret fail].
        * assert (K' : r = Ok p /\ QI quiet a (bi_offset bi + bi_size bi, s)).
          { destruct (bi_size bi =? 0) eqn:Z3; [|cbn [fst snd] in K].
            - rewrite (P0 eq_refl). apply N.eqb_eq in Z3. rewrite Z3, N.add_0_r. destruct K as [-> K]. now split.
            - apply N.eqb_eq in Z2. rewrite Z2 in K. destruct K as [-> K]. now split. }
          destruct K' as [-> (K1 & K2 & K3)]. destruct a as [ta sa]. cbn [fst snd] in K1, K2, K3. subst sa. cbn [snd].
          rewrite W1, Z2. cbn. right. right. split; [reflexivity|]. repeat split; auto.
        * destruct (bi_size bi =? 0) eqn:Z3.
          { exfalso. rewrite (P0 eq_refl) in Z2. apply N.eqb_eq in Z3. rewrite Z3 in Z2. discriminate Z2. }
          cbn [fst snd] in K. destruct K as [-> (_ & K & _)]. cbn [snd] in K. cbn. right. left. exists EEOF. repeat split. cbn. now rewrite K.
    - unfold bind. cbn [snd]. apply (r_run std_registry quiet Edit.e_panic (fun _ => True)); [exact E| |exact H].
      apply good_call; [apply keeps_start|exact HI|]. intros _ s1 H1. cbn [good]. split.
      + intros e _. exists s1. now split.
      + intros [[[d x] k]|e| |]; cbn [good]; auto.
        destruct (marshal _ _ _ _ _) as [m out].
        apply good_call; [apply keeps_write|exact H1|]. intros _ s2 H2.
        apply good_call; [apply keeps_const|exact H2|]. intros _ s3 H3. cbn [good].
        split; [exact H3|]. split; [intros e _ s4 H4; exists s4; now split|]. split; [intros e _ s4; exists s4; now split|].
        intros [vs|e| |] s4 H4; cbn [good]; auto. apply good_call; [apply keeps_end|exact H4|]. intros _ s5 H5. exact H5.
  Qed.
  (** what the command gives, against the contents of the file *)
  Definition gives {Out} (x : res unit * Out * T) (y : res unit * Out) : Prop :=
    (exists e, er e /\ fst (fst x) = Err e /\ BT (snd x)) \/ (fst (fst x) = fst y /\ (fst y = Ok tt -> snd (fst x) = snd y)).
  Lemma edit_gives : forall cfg t, QT t 0 -> gives (t_edit_file O lf (tree_fuel data) cfg t) (edit_file cfg data).
  Proof.
    intros cfg t H. unfold gives, t_edit_file, edit_file. set (s0 := mkest _ false).
    assert (H0 : QI quiet (t, s0) (0, s0)) by (split; [exact H|split; [reflexivity|split; reflexivity]]).
    pose proof (r_box_structure std_registry quiet Edit.e_panic (fun _ => True) (edit_first O cfg) (edit_handler cfg data) (edit_same cfg) tt (t, s0) (0, s0) H0) as K.
    destruct (t_read_box_structure _ _ _ _ _ _ (t, s0)) as [r a], (read_box_structure _ _ _ _ (0, s0)) as [r' b]. cbv zeta. cbn [fst snd].
    destruct K as [[(e & Ee & K) [B1 [B2 _]]]|[(e & _ & K1 & K2 & K3)|[K (K1 & K2 & [K3 _])]]]; cbn [fst snd] in *.
    - left. exists e. subst r. rewrite B2. now repeat split.
    - right. subst r r'. rewrite K3. destruct (Edit.e_panic (snd b)); (split; [reflexivity|discriminate]).
    - right. subst r'. rewrite <- K2, K3. split; [reflexivity|]. intros _. reflexivity.
  Qed.

  (** ** extract *)
  Hypothesis steady : forall x, alike QS (o_start O x) (seek_start x).
  Hypothesis nv : ~ er EUnsupportedVersion.
  Definition tquiet (s : tst) : Prop := t_panic s = false.
  Definition at_eof (e : err) : Prop := e = EEOF.
  Lemma good_rest : forall bi s, tquiet s -> good tquiet t_panic at_eof (extract_rest bi s).
  Proof.
    intros bi s H. unfold extract_rest. destruct (negb _); [exact H|]. destruct (_ && _); [exact H|]. cbn [good].
    split; [exact H|]. split; [|split].
    - intros e Ee s1 H1. exists s1. split; [|exact H1]. destruct e; try reflexivity. now elim nv.
    - intros e Ee s1. rewrite Ee. now exists s1.
    - intros [vs|e| |] s1 H1; cbn [good]; auto. destruct e; cbn [good]; auto.
  Qed.
  Lemma extract_same : forall boxType bi pth params e1 e2, bi_offset bi < 9223372036854775808 ->
    (forall total p, rel tquiet t_panic at_eof (e1 total p) (e2 total p)) ->
    rel tquiet t_panic at_eof (p <- extract_first O boxType bi ;; g_run_handler O lf std_registry bi e1 0 p)
      (fun x => run_handler std_registry data bi e2 0 (extract_tool_handler data boxType bi pth params (snd x)) x).
  Proof.
    intros boxType bi pth params e1 e2 L E [t s] [n s'] H. pose proof H as (HT & HS & HI). cbn [fst snd] in HT, HS, HI. subst s'.
    unfold extract_first, extract_tool_handler. cbn [snd]. destruct (bt_eqb (bi_type bi) boxType).
    - assert (K1 : exists t', g_lift_s (g_seek O (bi_offset bi)) (t, s) = (Ok tt, (t', s)) /\ QT t' (bi_offset bi)).
      { unfold g_lift_s, g_seek, bind, raw. cbn [fst snd].
        destruct (steady (bi_offset bi) _ _ (m_new _ _ _ _ _ _ _ F _ _ HT)) as [K1 K2].
        unfold seek_start in K1, K2. apply N.ltb_lt in L. rewrite L in K1, K2. cbn [fst snd] in K1, K2.
        destruct (o_start O (bi_offset bi) (o_new O t)) as [r a]. cbn [fst snd] in K1, K2. subst r.
        eexists. split; [reflexivity|]. exact (m_under _ _ _ _ _ _ _ F _ _ K2). }
      destruct K1 as (t' & K1 & HT'). unfold bind at 1. unfold bind at 1. unfold attempt. rewrite K1. clear K1. unfold bind at 1.
      assert (H' : QI tquiet (t', s) (bi_offset bi, s)) by (split; [exact HT'|split; [reflexivity|exact HI]]).
      destruct (r_lifted tquiet _ _ _ (e_copy _ _ _ _ _ _ _ F (bi_size bi)) _ _ H') as [K|K].
      { left. destruct (g_lift_s _ (t', s)) as [r a]. destruct K as [(e & Ee & K) B]. cbn [fst snd] in K, B. subst r. now apply failed_i. }
      destruct (g_lift_s (raw O (o_copy O (bi_size bi))) (t', s)) as [r a]. unfold lift_s, s_copy in K. cbn [fst snd] in K.
      unfold copy_out. destruct ((bi_size bi =? 0) || (9223372036854775808 <=? bi_size bi)) eqn:Z.
      + cbn [fst snd] in K. destruct K as [-> (K1 & K2 & K3)]. destruct a as [ta sa]. cbn [fst snd] in K1, K2, K3. subst sa. cbn [snd fst].
        cbn [run_handler bind fst snd]. rewrite N.add_0_r.
        apply (r_run std_registry tquiet t_panic at_eof); [exact E|apply good_rest; exact HI|]. now repeat split.
      + set (p := takeN (bi_size bi) (skipN (bi_offset bi) data)) in *. destruct (lenN p =? bi_size bi) eqn:Z2; cbn [fst snd] in K.
        * destruct K as [-> (K1 & K2 & K3)]. destruct a as [ta sa]. cbn [fst snd] in K1, K2, K3. subst sa. cbn [snd fst].
          cbn [run_handler bind fst snd].
          apply (r_run std_registry tquiet t_panic at_eof); [exact E|apply good_rest; exact HI|]. now repeat split.
        * destruct K as [-> (_ & K & _)]. cbn [snd] in K. cbn. right. left. exists EEOF. repeat split. cbn. now rewrite K.
    - unfold bind. cbn [snd]. apply (r_run std_registry tquiet t_panic at_eof); [exact E|now apply good_rest|exact H].
  Qed.
  Lemma extract_gives : forall boxType t, QT t 0 -> gives (t_extract_tool O lf (tree_fuel data) boxType t) (extract_tool data boxType).
  Proof.
    intros boxType t H. unfold gives, t_extract_tool, extract_tool, finish. set (s0 := mktst [] false).
    assert (H0 : QI tquiet (t, s0) (0, s0)) by (now repeat split).
    pose proof (r_box_structure std_registry tquiet t_panic at_eof (extract_first O boxType) (extract_tool_handler data boxType) (extract_same boxType) tt (t, s0) (0, s0) H0) as K.
    destruct (t_read_box_structure _ _ _ _ _ _ (t, s0)) as [r a], (read_box_structure _ _ _ _ (0, s0)) as [r' b]. cbv zeta. cbn [fst snd].
    destruct K as [[(e & Ee & K) [B1 B2]]|[(e & _ & K1 & K2 & K3)|[K (K1 & K2 & K3)]]]; cbn [fst snd] in *.
    - left. exists e. subst r. rewrite B2. now repeat split.
    - right. subst r r'. rewrite K3. destruct (t_panic (snd b)); (split; [reflexivity|discriminate]).
    - right. subst r'. rewrite <- K2, K3. cbn [fst snd]. split; [reflexivity|]. intros _. reflexivity.
  Qed.
End Commands.

(** ** psshdump *)
Section Pssh.
  Variable er : err -> Prop.
  Context {S T : Type} (O : reader S T) (data : list byte) (BS : S -> Prop) (BT : T -> Prop) (QS : S -> rst -> Prop) (QT : T -> N -> Prop).
  Hypothesis F : may_fail er O data BS BT QS QT.
  Hypothesis ne : ~ er EEOF.
  Lemma raw_same : forall bi, or_fails er BT QT (t_read_raw O bi) (read_raw data bi).
  Proof.
    intros bi. unfold t_read_raw, read_raw. destruct (maxAlloc <=? bi_size bi); [apply e_alike, a_panic|].
    destruct (bi_size bi =? 0); [apply e_alike, a_ret|]. exact (e_read_full _ _ _ _ _ _ _ F (bi_size bi)).
  Qed.
  Lemma pssh_loop_gives : forall l i t n, QT t n -> gives er BT (t_pssh_loop O i l t) (pssh_loop data i l n).
  Proof.
    induction l as [|[bi [d x]] r IH]; intros i t n H; cbn [t_pssh_loop pssh_loop].
    { right. now split. }
    destruct (e_bind _ _ _ _ _ _ _ _ _ (e_seek _ _ _ _ _ _ _ F (bi_offset bi)) (fun _ => raw_same bi) t n H) as [K|[K H']];
      change (seek_to_start bi) with (s_seek (bi_offset bi));
      destruct (bind (g_seek O (bi_offset bi)) (fun _ => t_read_raw O bi) t) as [q t'].
    - destruct K as [(e & Ee & K) B]. cbn [fst snd] in K, B. subst q. left. exists e. now repeat split.
    - destruct (bind (s_seek (bi_offset bi)) (fun _ => read_raw data bi) n) as [q' n']. cbn [fst snd] in K, H'. subst q'.
      destruct q as [raw|e| |]; try (right; split; [reflexivity|discriminate]).
      specialize (IH (i + 1) t' n' H'). unfold gives in IH |- *.
      destruct (t_pssh_loop O (i + 1) r t') as [[q out] t2], (pssh_loop data (i + 1) r n') as [q2 out2]. cbn [fst snd] in *.
      destruct IH as [IH|[-> IH]]; [left; exact IH|right]. split; [reflexivity|]. intros E. now rewrite IH.
  Qed.
  Lemma psshdump_gives : forall t, QT t 0 -> gives er BT (t_psshdump_tool O (loop_fuel data) (tree_fuel data) t) (psshdump_tool data).
  Proof.
    intros t H. unfold t_psshdump_tool, psshdump_tool. set (paths := [[bt "moov"; bt "pssh"]; [bt "moof"; bt "pssh"]]).
    destruct (e_extract_boxes_with_payload _ _ _ _ _ _ _ F ne std_registry None paths t 0 H) as [K|[K H']];
      destruct (g_extract_boxes_with_payload _ _ _ _ _ _ t) as [q t'].
    - destruct K as [(e & Ee & K) B]. cbn [fst snd] in K, B. subst q. left. exists e. now repeat split.
    - destruct (extract_boxes_with_payload std_registry data None paths 0) as [q' n']. cbn [fst snd] in K, H'. subst q'.
      destruct q as [l|e| |]; try (right; split; [reflexivity|discriminate]). now apply pssh_loop_gives.
  Qed.

  (** ** probe *)
  Lemma row_same : forall info tr, or_fails er BT QT (t_report_row O info tr) (report_row data info tr).
  Proof.
    intros info tr. unfold t_report_row, report_row. cbv zeta. apply e_bind; [apply e_alike, a_lift_res|]. intros mx.
    destruct (_ || _); (destruct (t_codec tr); [apply e_ret| |apply e_ret]).
    all: destruct (t_avc tr); (apply e_bind; [exact (e_find_idr_frames _ _ _ _ _ _ _ F nal_fuel tr)|intros; apply e_ret]).
  Qed.
  Lemma report_same : or_fails er BT QT (t_build_report O (loop_fuel data) (tree_fuel data)) (build_report data).
  Proof.
    unfold t_build_report, build_report. apply e_bind; [exact (e_probe _ _ _ _ _ _ _ F ne std_registry)|]. intros info.
    apply e_bind; [|intros; apply e_ret]. apply e_for_each. intros i tr rows. apply e_bind; [apply row_same|intros; apply e_ret].
  Qed.
End Pssh.
