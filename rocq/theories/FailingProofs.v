(** What the operations of AnyReader.v do on a reader that behaves like a position
    in the data except that its operations may fail: what the operations of the
    model do, or fail with the same error. *)
From Verif Require Import Base BaseProofs BitIO Schema Structs Methods Registry Marshal Unmarshal BoxInfo ReadTree Extract Accessors Probe
  Stream AnyReader AnyReaderProofs Failing SpecFailing.
Local Open Scope string_scope.
Local Open Scope list_scope.
Local Open Scope N_scope.
Local Open Scope monad_scope.

(** The first fails with one of the errors [er] in a state [B], or does what the second does. *)
Definition failed (er : err -> Prop) {S1 A} (B : S1 -> Prop) (r : res A * S1) : Prop := (exists e, er e /\ fst r = Err e) /\ B (snd r).
Lemma failed_i : forall (er : err -> Prop) S1 A (B : S1 -> Prop) e s, er e -> B s -> failed er B ((Err e, s) : res A * S1).
Proof. intros er S1 A B e s E H. split; [now exists e|exact H]. Qed.
Definition or_fails (er : err -> Prop) {S1 S2 A} (B : S1 -> Prop) (Q : S1 -> S2 -> Prop) (x : M S1 A) (y : M S2 A) : Prop :=
  forall s1 s2, Q s1 s2 -> failed er B (x s1) \/ (fst (x s1) = fst (y s2) /\ Q (snd (x s1)) (snd (y s2))).

Section OrFails.
  Variable er : err -> Prop.
  Context {S1 S2 : Type} (B : S1 -> Prop) (Q : S1 -> S2 -> Prop).
  Lemma e_alike : forall A (x : M S1 A) (y : M S2 A), alike Q x y -> or_fails er B Q x y.
  Proof. intros A x y X s1 s2 H. right. now apply X. Qed.
  Lemma e_ret : forall A (a : A), or_fails er B Q (ret a) (ret a).
  Proof. intros. apply e_alike, a_ret. Qed.
  Lemma e_fail : forall A e, or_fails er B Q (fail e : M S1 A) (fail e).
  Proof. intros. apply e_alike, a_fail. Qed.
  Lemma e_panic : forall A, or_fails er B Q (panic : M S1 A) panic.
  Proof. intros. apply e_alike, a_panic. Qed.
  Lemma e_const : forall A (r : res A), or_fails er B Q (fun s => (r, s)) (fun s => (r, s)).
  Proof. intros. apply e_alike, a_const. Qed.
  Lemma e_lift_res : forall A (r : res A), or_fails er B Q (lift_res r) (lift_res r).
  Proof. intros. apply e_const. Qed.
  Lemma e_or_panic : forall A (o : option A), or_fails er B Q (or_panic o) (or_panic o).
  Proof. intros. apply e_alike, a_or_panic. Qed.
  Lemma e_bind : forall A C (x : M S1 A) (y : M S2 A) (f : A -> M S1 C) g,
    or_fails er B Q x y -> (forall a, or_fails er B Q (f a) (g a)) -> or_fails er B Q (bind x f) (bind y g).
  Proof.
    intros A C x y f g X F s1 s2 H. unfold bind. destruct (X s1 s2 H) as [E|[E K]].
    - left. destruct (x s1) as [r1 t1]. destruct E as [(e & Ee & E) K]. cbn [fst snd] in E, K. subst r1. now apply failed_i.
    - destruct (x s1) as [r1 t1], (y s2) as [r2 t2]. cbn [fst snd] in E, K. subst r2.
      destruct r1 as [a|e| |]; [now apply F|right; now split..].
  Qed.
  (** an attempt whose errors the rest passes on *)
  Lemma e_attempt_bind : forall A C (x : M S1 A) (y : M S2 A) (f : res A -> M S1 C) g,
    or_fails er B Q x y -> (forall r, or_fails er B Q (f r) (g r)) -> (forall e s, er e -> B s -> failed er B (f (Err e) s)) ->
    or_fails er B Q (bind (attempt x) f) (bind (attempt y) g).
  Proof.
    intros A C x y f g X F G s1 s2 H. unfold bind, attempt. destruct (X s1 s2 H) as [E|[E K]].
    - left. destruct (x s1) as [r1 t1]. destruct E as [(e & Ee & E) K]. cbn [fst snd] in E, K. subst r1. now apply G.
    - destruct (x s1) as [r1 t1], (y s2) as [r2 t2]. cbn [fst snd] in E, K. subst r2.
      destruct r1 as [a|e| |]; try (right; now split); now apply F.
  Qed.
  Lemma e_attempt_bad : forall A C (x : M S1 A) (y : M S2 A) (f : res A -> M S1 C) g (bad : res A -> Prop),
    (forall r, bad r -> match r with Ok _ | Err _ => True | _ => False end) ->
    (forall s1 s2, Q s1 s2 -> (bad (fst (x s1)) /\ B (snd (x s1))) \/ (fst (x s1) = fst (y s2) /\ Q (snd (x s1)) (snd (y s2)))) ->
    (forall r s, bad r -> B s -> failed er B (f r s)) -> (forall r, or_fails er B Q (f r) (g r)) ->
    or_fails er B Q (bind (attempt x) f) (bind (attempt y) g).
  Proof.
    intros A C x y f g bad W X G F s1 s2 H. unfold bind, attempt. destruct (X s1 s2 H) as [E|[E K]].
    - left. destruct (x s1) as [r1 t1]. destruct E as [E K]. cbn [fst snd] in E, K. specialize (W r1 E). destruct r1; try contradiction; now apply G.
    - destruct (x s1) as [r1 t1], (y s2) as [r2 t2]. cbn [fst snd] in E, K. subst r2.
      destruct r1 as [a|e| |]; try (right; now split); now apply F.
  Qed.
  Lemma e_loopP : forall A p (f : A -> M S1 A) g, (forall a, or_fails er B Q (f a) (g a)) -> forall a, or_fails er B Q (loopP p f a) (loopP p g a).
  Proof.
    intros A p f g F. induction p as [q IH|q IH|]; intros a; cbn [loopP].
    - apply e_bind; [apply F|]. intros a1. apply e_bind; [apply IH|apply IH].
    - apply e_bind; [apply IH|apply IH].
    - apply F.
  Qed.
  Lemma e_loopN : forall A n (f : A -> M S1 A) g, (forall a, or_fails er B Q (f a) (g a)) -> forall a, or_fails er B Q (loopN n f a) (loopN n g a).
  Proof. intros A [|p] f g F a; [apply e_ret|now apply e_loopP]. Qed.
  Lemma e_whileP : forall A C p (f : A -> M S1 (A + C)) g, (forall a, or_fails er B Q (f a) (g a)) ->
    forall a, or_fails er B Q (whileP p f a) (whileP p g a).
  Proof.
    intros A C p f g F. induction p as [q IH|q IH|]; intros a; cbn [whileP].
    - apply e_bind; [apply F|]. intros [a1|b]; [|apply e_ret]. apply e_bind; [apply IH|]. intros [a2|b]; [apply IH|apply e_ret].
    - apply e_bind; [apply IH|]. intros [a1|b]; [apply IH|apply e_ret].
    - apply F.
  Qed.
  Lemma e_while : forall A C p (f : A -> M S1 (A + C)) g, (forall a, or_fails er B Q (f a) (g a)) ->
    forall a, or_fails er B Q (while p f a) (while p g a).
  Proof.
    intros A C p f g F a s1 s2 H. unfold while. destruct (e_whileP A C p f g F a s1 s2 H) as [E|[E K]].
    - left. destruct (whileP p f a s1) as [r1 t1]. destruct E as [(e & Ee & E) K]. cbn [fst snd] in E, K. subst r1. now apply failed_i.
    - destruct (whileP p f a s1) as [r1 t1], (whileP p g a s2) as [r2 t2]. cbn [fst snd] in E, K. subst r2. right.
      destruct r1 as [[x|x]|e| |]; now split.
  Qed.
  Lemma e_for_each : forall A C (f : N -> C -> A -> M S1 A) g, (forall i x a, or_fails er B Q (f i x a) (g i x a)) ->
    forall l i a, or_fails er B Q (for_each f i l a) (for_each g i l a).
  Proof.
    intros A C f g F l. induction l as [|x r IH]; intros i a; cbn [for_each]; [apply e_ret|].
    apply e_bind; [apply F|]. intros b. apply IH.
  Qed.
  Lemma e_forN : forall A lo hi (f : N -> A -> M S1 A) g, (forall i a, or_fails er B Q (f i a) (g i a)) ->
    forall a, or_fails er B Q (forN lo hi f a) (forN lo hi g a).
  Proof.
    intros A lo hi f g F a. unfold forN. apply e_bind; [|intros; apply e_ret]. apply e_loopN. intros x.
    apply e_bind; [apply F|]. intros; apply e_ret.
  Qed.
End OrFails.

Create HintDb orfs discriminated.
#[export] Hint Resolve e_ret e_fail e_panic e_const e_lift_res e_or_panic : orfs.
(** take two programs apart *)
Ltac bothe :=
  repeat first
    [ solve [auto with orfs nocore]
    | match goal with
      | |- or_fails _ _ _ (bind _ _) (bind _ _) => apply e_bind; [|intros]
      | |- or_fails _ _ _ (while _ _ _) (while _ _ _) => apply e_while; intros
      | |- or_fails _ _ _ (loopN _ _ _) (loopN _ _ _) => apply e_loopN; intros
      | |- or_fails _ _ _ (for_each _ _ _ _) (for_each _ _ _ _) => apply e_for_each; intros
      | |- or_fails _ _ _ (forN _ _ _ _) (forN _ _ _ _) => apply e_forN; intros
      | |- or_fails _ _ _ (if ?b then _ else _) (if ?b then _ else _) => destruct b
      | |- or_fails _ _ _ (match ?x with _ => _ end) (match ?x with _ => _ end) => destruct x
      end ].

(** ** Readers that fail, or behave like a position in the data *)
Record may_fail (er : err -> Prop) {S T} (O : reader S T) (data : list byte) (BS : S -> Prop) (BT : T -> Prop) (QS : S -> rst -> Prop) (QT : T -> N -> Prop) : Prop :=
  { m_new : forall t n, QT t n -> QS (o_new O t) (new_reader n);
    m_under : forall s r, QS s r -> QT (o_under O s) (r_pos r);
    m_bits : forall n, or_fails er BS QS (o_bits O n) (read_bits data n);
    m_full : forall n, or_fails er BS QS (o_full O n) (read_full data n);
    m_copy : forall n, or_fails er BS QS (o_copy O n) (copy_n data n);
    m_string : or_fails er BS QS (o_string O) (util_read_string data);
    m_cur : or_fails er BS QS (o_cur O) seek_cur0;
    m_end : or_fails er BS QS (o_end O) (seek_end data);
    m_start : forall x, or_fails er BS QS (o_start O x) (seek_start x);
    m_move : forall f, or_fails er BS QS (o_move O f) (fun s => (Ok tt, mkrst (f (r_pos s)) (r_octet s) (r_width s)));
    m_bad : forall s, BS s -> BT (o_under O s);
    m_moves : forall f t, BT t -> (exists r, fst (attempt (raw O (o_move O f)) t) = Ok r) /\ BT (snd (raw O (o_move O f) t));
    (* the two places that drop an error of Seek: readerHasSize, whose callers say
       "not enough bits" instead, and Unmarshal on an unsupported version *)
    m_masked : er (EMsg "not enough bits") \/
      (alike QS (o_cur O) seek_cur0 /\ alike QS (o_end O) (seek_end data) /\ forall x, alike QS (o_start O x) (seek_start x));
    m_dropped : er EUnsupportedVersion \/
      forall f, alike QS (o_move O f) (fun s => (Ok tt, mkrst (f (r_pos s)) (r_octet s) (r_width s))) }.

Section MayFail.
  Context {S T : Type} (er : err -> Prop) (O : reader S T) (data : list byte) (BS : S -> Prop) (BT : T -> Prop) (QS : S -> rst -> Prop) (QT : T -> N -> Prop).
  Hypothesis F : may_fail er O data BS BT QS QT.
  Hypothesis ne : ~ er EEOF.
  Notation lf := (loop_fuel data).
  Notation tf := (tree_fuel data).

  Definition BU (g : gust S) : Prop := BS (g_r g).

  Let fbits := m_bits er O data BS BT QS QT F.
  Let ffull := m_full er O data BS BT QS QT F.
  Let fcopy := m_copy er O data BS BT QS QT F.
  Let fstring := m_string er O data BS BT QS QT F.
  Let ecur := m_cur er O data BS BT QS QT F.
  Let eend := m_end er O data BS BT QS QT F.
  Let estart := m_start er O data BS BT QS QT F.
  Let fmove := m_move er O data BS BT QS QT F.

  (** *** Unmarshal *)
  Lemma e_lift : forall A (x : M S A) y, or_fails er BS QS x y -> or_fails er BU (QU QS) (g_lift x) (lift_r y).
  Proof.
    intros A x y X [s rb] [r rb'] [H E]. cbn in H, E. subst rb'. unfold g_lift, lift_r. cbn [g_r u_r].
    destruct (X s r H) as [E|[E K]]; destruct (x s) as [r1 t1], (y r) as [r2 t2]; cbn [fst snd] in *; [now left|right].
    split; [exact E|]. split; [exact K|reflexivity].
  Qed.
  Lemma e_get : or_fails er BU (QU QS) g_get get_rbits.
  Proof. intros [s rb] [r rb'] [H E]. cbn in *. subst. right. repeat split; auto. Qed.
  Lemma e_add : forall n, or_fails er BU (QU QS) (g_add n) (add_rbits n).
  Proof. intros n [s rb] [r rb'] [H E]. cbn in *. subst. right. repeat split; auto. Qed.
  Lemma e_set : forall n, or_fails er BU (QU QS) (g_set n) (fun s => (Ok tt, mkust (u_r s) n)).
  Proof. intros n [s rb] [r rb'] [H E]. cbn in *. subst. right. repeat split; auto. Qed.
  Hint Resolve e_get e_add e_set : orfs.
  (** readerHasSize in front of an operation that fails if it says no *)
  Lemma e_has_size_then : forall A size (f : M (gust S) A) g, or_fails er BU (QU QS) f g ->
    or_fails er BU (QU QS) (ok <- g_lift (g_reader_has_size O size) ;; if negb ok then fail (EMsg "not enough bits") else f)
                           (ok <- lift_r (reader_has_size data size) ;; if negb ok then fail (EMsg "not enough bits") else g).
  Proof.
    intros A size f g X [s rb] [r rb'] [H E]. cbn in H, E. subst rb'. unfold bind, g_lift, lift_r. cbn [g_r g_rbits u_r u_rbits].
    unfold g_reader_has_size, reader_has_size.
    assert (K : forall x s1 r1, (x = true \/ x = false) -> QS s1 r1 ->
      failed er BU ((if negb x then fail (EMsg "not enough bits") else f) (mkgust s1 rb)) \/
      fst ((if negb x then fail (EMsg "not enough bits") else f) (mkgust s1 rb)) =
      fst ((if negb x then fail (EMsg "not enough bits") else g) (mkust r1 rb)) /\
      QU QS (snd ((if negb x then fail (EMsg "not enough bits") else f) (mkgust s1 rb)))
            (snd ((if negb x then fail (EMsg "not enough bits") else g) (mkust r1 rb)))).
    { intros x s1 r1 _ H1. destruct x; cbn [negb]; [apply X; now split|right; now split]. }
    destruct (m_masked _ _ _ _ _ _ _ F) as [W|(fcur & fend & fstart)].
    - (* an error of Seek shows as "not enough bits" *)
      assert (L : forall s1, BS s1 -> failed er BU ((if negb false then fail (EMsg "not enough bits") else f) (mkgust s1 rb))).
      { intros s1 B1. cbn [negb]. now apply failed_i. }
      destruct (ecur s r H) as [E1|[E1 K1]].
      { left. destruct (o_cur O s) as [a1 s1]. destruct E1 as [(e & Ee & E1) Bx]. cbn [fst snd] in E1, Bx. subst a1. now apply L. }
      destruct (o_cur O s) as [a1 s1], (seek_cur0 r) as [b1 r1]. cbn [fst snd] in E1, K1. subst b1.
      destruct a1 as [pre|e| |]; try (right; now split).
      destruct (eend s1 r1 K1) as [E2|[E2 K2]].
      { left. destruct (o_end O s1) as [a2 s2]. destruct E2 as [(e & Ee & E2) Bx]. cbn [fst snd] in E2, Bx. subst a2. now apply L. }
      destruct (o_end O s1) as [a2 s2], (seek_end data r1) as [b2 r2]. cbn [fst snd] in E2, K2. subst b2.
      destruct a2 as [e|?| |]; try (right; now split).
      destruct (sub64 e pre <? size); [now apply K; [right|]|].
      destruct (estart pre s2 r2 K2) as [E3|[E3 K3]].
      { left. destruct (o_start O pre s2) as [a3 s3]. destruct E3 as [(e3 & Ee & E3) Bx]. cbn [fst snd] in E3, Bx. subst a3. now apply L. }
      destruct (o_start O pre s2) as [a3 s3], (seek_start pre r2) as [b3 r3]. cbn [fst snd] in E3, K3. subst b3.
      destruct a3; try (right; now split); (now apply K; [auto|]).
    - destruct (fcur s r H) as [E1 K1]. destruct (o_cur O s) as [a1 s1], (seek_cur0 r) as [b1 r1]. cbn [fst snd] in E1, K1. subst b1.
      destruct a1 as [pre|e| |]; try (right; now split).
      destruct (fend s1 r1 K1) as [E2 K2]. destruct (o_end O s1) as [a2 s2], (seek_end data r1) as [b2 r2]. cbn [fst snd] in E2, K2. subst b2.
      destruct a2 as [e|?| |]; try (right; now split).
      destruct (sub64 e pre <? size); [now apply K; [right|]|].
      destruct (fstart pre s2 r2 K2) as [E3 K3]. destruct (o_start O pre s2) as [a3 s3], (seek_start pre r2) as [b3 r3]. cbn [fst snd] in E3, K3. subst b3.
      destruct a3; try (right; now split); (now apply K; [auto|]).
  Qed.
  Lemma e_take_bits : forall n, or_fails er BU (QU QS) (g_take_bits O n) (take_bits data n).
  Proof. intros n. unfold g_take_bits, take_bits. apply e_bind; [apply e_lift, fbits|]. intros. bothe. Qed.
  Hint Resolve e_take_bits : orfs.
  Lemma e_read_uvarint : or_fails er BU (QU QS) (g_read_uvarint O lf) (read_uvarint data).
  Proof. unfold g_read_uvarint, read_uvarint. bothe. Qed.
  Hint Resolve e_read_uvarint : orfs.
  Lemma e_uint : forall w v size, or_fails er BU (QU QS) (g_uint O lf w v size) (unmarshal_uint data w v size).
  Proof. intros. unfold g_uint, unmarshal_uint. bothe. Qed.
  Lemma e_int : forall w v size, or_fails er BU (QU QS) (g_int O w v size) (unmarshal_int data w v size).
  Proof. intros. unfold g_int, unmarshal_int. bothe. Qed.
  Lemma e_bool : forall size, or_fails er BU (QU QS) (g_bool O size) (unmarshal_bool data size).
  Proof. intros. unfold g_bool, unmarshal_bool. bothe. Qed.
  Lemma e_string_c : forall usize, or_fails er BU (QU QS) (g_string_c O lf usize) (unmarshal_string_c data usize).
  Proof. intros. unfold g_string_c, unmarshal_string_c. bothe. Qed.
  Hint Resolve e_string_c : orfs.
  Lemma e_string : forall usize cp, or_fails er BU (QU QS) (g_string O lf usize cp) (unmarshal_string data usize cp).
  Proof.
    intros. unfold g_string, unmarshal_string, g_try_read_pstring, try_read_pstring. cbv zeta. bothe.
    - apply e_lift, ecur.
    - apply e_lift, ffull.
    - apply e_lift, estart.
    - apply e_lift, ffull.
  Qed.
  Lemma e_on_read : forall h ver self lb, or_fails er BU (QU QS) (g_on_read O h ver self lb) (on_read data h ver self lb).
  Proof.
    intros h ver self lb. destruct h; cbn [g_on_read on_read]; cbv zeta.
    4: { destruct (lb / 8 =? 0); [apply e_ret|]. apply e_has_size_then. bothe. apply e_lift, ffull. }
    all: bothe.
    - apply e_lift, fstring.
    - apply e_lift, fstring.
  Qed.
  Lemma e_map_list : forall (f : val -> M (gust S) val) g, (forall x, or_fails er BU (QU QS) (f x) (g x)) ->
    forall l, or_fails er BU (QU QS) (g_map_list f l) (map_list g l).
  Proof.
    intros f g X l. induction l as [|x r IH]; cbn [g_map_list map_list]; [apply e_ret|].
    apply e_bind; [apply X|]. intros a. apply e_bind; [apply IH|]. intros; apply e_ret.
  Qed.
  Section Fields.
    Variables (rname : string) (versions : list N) (ctx : context).
    Let P (t : sty) : Prop := forall rt usize f size len cur,
      or_fails er BU (QU QS) (g_val O lf rname versions ctx rt usize f size len t cur) (unmarshal_val data rname versions ctx rt usize f size len t cur).
    Let Q (fs : flds) : Prop := forall rt usize sname cfo self,
      or_fails er BU (QU QS) (g_flds O lf rname versions ctx rt usize sname cfo self fs) (unmarshal_flds data rname versions ctx rt usize sname cfo self fs).
    Lemma e_arr : forall n t, P t -> P (SArr n t).
    Proof.
      intros n t IH rt usize f size len cur. cbn beta iota delta [g_val unmarshal_val].
      destruct cur; try apply e_panic. apply e_bind; [|intros; apply e_ret]. apply e_map_list. intros x. apply IH.
    Qed.
    Lemma e_slice : forall t, P t -> P (SSlice t).
    Proof.
      intros t IH rt usize f size len cur. cbn beta iota delta [g_val unmarshal_val].
      apply e_bind; [apply e_get|]. intros rb. cbv zeta.
      match goal with |- or_fails er _ _ (if ?b then _ else _) _ => destruct b end; [apply e_fail|].
      match goal with |- or_fails er _ _ (if ?b then _ else _) _ => destruct b end.
      - apply e_has_size_then.
        match goal with |- or_fails er _ _ (if ?b then _ else _) _ => destruct b end; [apply e_panic|].
        apply e_bind; [apply e_lift, fcopy|]. intros buf. bothe.
      - apply e_bind; [|intros; apply e_ret].
        match goal with |- or_fails er _ _ (if _ then while _ ?w1 _ else loopN _ ?e1 _) (if _ then while _ ?w2 _ else loopN _ ?e2 _) =>
          assert (E : forall acc, or_fails er BU (QU QS) (e1 acc) (e2 acc)) end.
        { intros acc. apply e_bind; [apply IH|]. intros; bothe. }
        destruct (len =? LengthUnlimited); [|apply e_loopN; exact E].
        apply e_while. intros acc. apply e_bind; [apply e_get|]. intros r.
        destruct (w64 (usize * 8) <=? r); [apply e_ret|]. apply e_bind; [apply E|]. intros; apply e_ret.
    Qed.
    Lemma e_ptr : forall t, P t -> P (SPtr t).
    Proof.
      intros t IH rt usize f size len cur. cbn beta iota delta [g_val unmarshal_val].
      apply e_bind; [apply IH|]. intros; apply e_ret.
    Qed.
    Lemma e_struct : forall name cfo fs, Q fs -> P (SStruct name cfo fs).
    Proof.
      intros name cfo fs IH rt usize f size len cur. cbn beta iota delta [g_val unmarshal_val].
      destruct cur; try apply e_panic.
      match goal with |- or_fails er _ _ (if ?b then _ else _) _ => destruct b end.
      - apply e_bind; [apply e_get|]. intros rb. apply e_bind; [apply e_set|]. intros _.
        apply e_bind; [apply IH|]. intros x. apply e_bind; [apply e_get|]. intros rb2.
        apply e_bind; [apply e_set|]. intros _. bothe.
      - apply e_bind; [apply IH|]. intros; apply e_ret.
    Qed.
    Lemma e_cons : forall f t, P t -> forall rest, Q rest -> Q (FCons f t rest).
    Proof.
      intros f t IHt rest IHr rt usize sname cfo self. cbn beta iota delta [g_flds unmarshal_flds]. cbv zeta.
      destruct (resolve_size _ _ f) as [size|]; [|apply e_panic]. destruct (resolve_len _ _ f) as [len|]; [|apply e_panic].
      apply e_bind; [|intros self'; apply IHr].
      match goal with |- or_fails er _ _ (if ?b then _ else _) _ => destruct b end; [|apply e_ret].
      apply e_bind; [apply e_get|]. intros rb. apply e_bind; [apply e_on_read|]. intros [[rbits override] self1].
      apply e_bind; [apply e_add|]. intros _. destruct override; [apply e_ret|].
      destruct (lookup (f_name f) self1) as [cur|]; [|apply e_panic].
      apply e_bind; [apply IHt|]. intros x. bothe.
    Qed.
    Lemma e_flds : forall fs, Q fs.
    Proof.
      intros fs. apply (flds_both P Q).
      - intros w rt usize f size len cur. apply e_uint.
      - intros w rt usize f size len cur. apply e_int.
      - intros rt usize f size len cur. apply e_bool.
      - intros rt usize f size len cur. apply e_string.
      - apply e_arr.
      - apply e_slice.
      - apply e_ptr.
      - apply e_struct.
      - intros rt usize sname cfo self. apply e_ret.
      - apply e_cons.
    Qed.
  End Fields.

  Lemma e_before_unmarshal : forall sname self, or_fails er BS QS (g_before_unmarshal O sname self) (before_unmarshal data sname self).
  Proof.
    intros sname self. unfold g_before_unmarshal, before_unmarshal. destruct (String.eqb sname "Meta"); [|apply e_ret].
    intros s r H. unfold bind. destruct (ffull 4 s r H) as [E|[E K]].
    { left. destruct (o_full O 4 s) as [a s1]. destruct E as [(e & Ee & E) Bx]. cbn [fst snd] in E, Bx. subst a. now apply failed_i. }
    destruct (o_full O 4 s) as [a s1], (read_full data 4 r) as [b r1]. cbn [fst snd] in E, K. subst b.
    destruct a as [buf|e| |]; try (right; now split). cbv zeta.
    destruct (fmove (fun pos => pos - 4) s1 r1 K) as [E2|[E2 K2]].
    { left. destruct (o_move O _ s1) as [a2 s2]. destruct E2 as [(e & Ee & E2) Bx]. cbn [fst snd] in E2, Bx. subst a2. now apply failed_i. }
    destruct (o_move O _ s1) as [a2 s2]. cbn [fst snd] in E2, K2. subst a2.
    right. destruct (existsb _ buf); now split.
  Qed.
  Lemma e_raw : forall A (x : M S A) (y : M rst A), or_fails er BS QS x y ->
    or_fails er BT QT (raw O x) (fun pos => let (r, s) := y (new_reader pos) in (r, r_pos s)).
  Proof.
    intros A x y X t n H. unfold raw. destruct (X _ _ (m_new er O data BS BT QS QT F t n H)) as [E|[E K]];
      destruct (x (o_new O t)) as [a s], (y (new_reader n)) as [b r]; cbn [fst snd] in *;
      [left; destruct E as [E B]; split; [exact E|apply (m_bad er O data BS BT QS QT F); exact B]|right]. subst b. split; [reflexivity|].
    now apply (m_under er O data BS BT QS QT F).
  Qed.
  Lemma e_eq : forall A (x : M T A) (y z : M N A), or_fails er BT QT x y -> (forall n, y n = z n) -> or_fails er BT QT x z.
  Proof. intros A x y z X E t n H. rewrite <- E. now apply X. Qed.
  Lemma e_tell : or_fails er BT QT (raw O (o_cur O)) get.
  Proof. eapply e_eq; [apply e_raw, ecur|]. reflexivity. Qed.
  Lemma e_put : forall x, or_fails er BT QT (raw O (o_move O (fun _ => x))) (put x).
  Proof. intros x. eapply e_eq; [apply e_raw, fmove|]. reflexivity. Qed.
  Lemma e_copy : forall n, or_fails er BT QT (raw O (o_copy O n)) (s_copy data n).
  Proof.
    intros n. eapply e_eq; [apply e_raw, fcopy|]. intros pos. unfold s_copy, copy_n.
    destruct ((n =? 0) || (9223372036854775808 <=? n)); [reflexivity|]. cbn [new_reader r_width r_pos r_octet]. cbv zeta.
    destruct (lenN (takeN n (skipN pos data)) =? n); reflexivity.
  Qed.
  Lemma e_read_full : forall n, or_fails er BT QT (raw O (o_full O n)) (Probe.s_read_full data n).
  Proof.
    intros n. eapply e_eq; [apply e_raw, ffull|]. intros pos. unfold Probe.s_read_full, read_full.
    cbn [new_reader r_width r_pos r_octet]. cbv zeta.
    destruct (lenN (takeN n (skipN pos data)) =? n); [reflexivity|]. destruct (lenN (takeN n (skipN pos data)) =? 0); reflexivity.
  Qed.
  Lemma e_seek : forall x, or_fails er BT QT (g_seek O x) (s_seek x).
  Proof.
    intros x. unfold g_seek. eapply e_eq; [apply e_bind; [apply e_raw, estart|intros; apply e_ret]|].
    intros pos. unfold bind, seek_start, s_seek. destruct (x <? 9223372036854775808); reflexivity.
  Qed.
  Hint Resolve e_tell e_put e_copy e_read_full e_seek : orfs.
  Lemma e_unmarshal : forall d size ctx dst, or_fails er BT QT (g_unmarshal O lf d size ctx dst) (unmarshal_def d data size ctx dst).
  Proof.
    intros d size ctx dst t n H. unfold g_unmarshal, unmarshal_def. cbv zeta. unfold bind.
    destruct (e_raw _ _ _ (e_before_unmarshal (bd_name d) (set_version anyVersion dst)) t n H) as [E|[E K]].
    { left. destruct (raw O _ t) as [a t1]. destruct E as [(e & Ee & E) Bx]. cbn [fst snd] in E, Bx. subst a. now apply failed_i. }
    destruct (raw O _ t) as [a t1]. destruct (before_unmarshal data (bd_name d) (set_version anyVersion dst) (new_reader n)) as [b r].
    cbn [fst snd] in E, K. subst b. destruct a as [[[|] self1]|e| |]; try (right; now split).
    destruct (e_tell t1 (r_pos r) K) as [E1|[E1 K1]].
    { left. destruct (raw O (o_cur O) t1) as [a1 t2]. destruct E1 as [(e & Ee & E1) Bx]. cbn [fst snd] in E1, Bx. subst a1. now apply failed_i. }
    destruct (raw O (o_cur O) t1) as [a1 t2]. cbn [fst snd get] in E1, K1. subst a1.
    set (sn := r_pos r) in *.
    destruct (e_flds (bd_name d) (bd_versions d) ctx (bd_flds d) None size (bd_name d) true self1 (mkgust (o_new O t2) 0) (mkust (new_reader sn) 0)) as [E2|[E2 [K2 B2]]].
    { split; [now apply (m_new er O data BS BT QS QT F)|reflexivity]. }
    { left. destruct (g_flds _ _ _ _ _ _ _ _ _ _ _ _) as [a2 s2]. destruct E2 as [(e & Ee & E2) B2]. cbn [fst snd] in E2, B2. subst a2.
      apply (m_bad er O data BS BT QS QT F) in B2. destruct e; try (now apply failed_i).
      destruct (m_moves _ _ _ _ _ _ _ F (fun _ => sn) _ B2) as [[r4 X] Y]. unfold attempt in X |- *.
      destruct (raw O _ _) as [a4 t4]. cbn [fst snd] in X, Y. destruct a4; try discriminate X; now apply failed_i. }
    destruct (g_flds _ _ _ _ _ _ _ _ _ _ _ _) as [a2 s2], (unmarshal_flds _ _ _ _ _ _ _ _ _ _ _) as [b2 u2].
    cbn [fst snd] in E2, K2, B2. subst b2.
    pose proof (m_under er O data BS BT QS QT F _ _ K2) as K3.
    destruct a2 as [x|e| |]; try (right; now split).
    { right. rewrite B2. now split. }
    destruct e; try (right; now split). unfold attempt. destruct (m_dropped _ _ _ _ _ _ _ F) as [W|fm].
    - destruct (e_put sn _ _ K3) as [E4|[E4 K4]].
      + left. destruct (raw O _ _) as [a4 t4]. destruct E4 as [(e & Ee & E4) Bx]. cbn [fst snd] in E4, Bx. subst a4. now apply failed_i.
      + right. destruct (raw O _ _) as [a4 t4]. cbn [fst snd put] in E4, K4. subst a4. now split.
    - right. unfold raw. destruct (fm (fun _ => sn) _ _ (m_new er O data BS BT QS QT F _ _ K3)) as [E4 K4].
      destruct (o_move O (fun _ => sn) _) as [a4 t4]. cbn [fst snd] in E4, K4. subst a4. split; [reflexivity|].
      exact (m_under er O data BS BT QS QT F _ _ K4).
  Qed.
  Lemma e_unmarshal_any : forall R t size ctx, or_fails er BT QT (g_unmarshal_any O lf R t size ctx) (unmarshal_any R data t size ctx).
  Proof.
    intros R t size ctx. unfold g_unmarshal_any, unmarshal_any. destruct (new_box R t ctx) as [[d z]|e| |]; try apply e_const.
    intros s n H. unfold bind. destruct (e_unmarshal d size ctx z s n H) as [E|[E K]];
    destruct (g_unmarshal O lf d size ctx z s) as [a s1], (unmarshal_def d data size ctx z n) as [b n1]; cbn [fst snd] in *;
      [left; destruct E as [(e & Ee & E) B]; cbn [fst snd] in E, B; subst a; now apply failed_i|right]. subst a.
    destruct b as [[x k]|e| |]; now split.
  Qed.
  Hint Resolve e_unmarshal_any : orfs.

  (** *** Box headers and the traversal *)
  Lemma e_seek_to_payload : forall bi, or_fails er BT QT (g_seek_to_payload O bi) (seek_to_payload bi).
  Proof. intros. apply e_seek. Qed.
  Lemma e_seek_to_end : forall bi, or_fails er BT QT (g_seek_to_end O bi) (seek_to_end bi).
  Proof. intros. apply e_seek. Qed.
  Hint Resolve e_seek_to_payload e_seek_to_end : orfs.
  Lemma e_read_box_info : or_fails er BT QT (g_read_box_info O) (read_box_info data).
  Proof.
    unfold g_read_box_info, read_box_info. apply e_bind; [apply e_tell|]. intros offset. apply e_bind; [apply e_copy|]. intros h. cbv zeta.
    destruct (be_to_N (takeN 4 h) =? 0); [|bothe].
    eapply (e_eq _ _ (len <- (fun _ => (Ok (lenN data), lenN data)) ;;
      seek_to_payload (mkbi offset (sub64 len offset) SmallHeaderSize (skipN 4 h) true ctx0) ;;;
      (if sub64 len offset =? 0 then fail (EMsg "invalid size") else ret (mkbi offset (sub64 len offset) SmallHeaderSize (skipN 4 h) true ctx0)))).
    - apply e_bind; [|intros len; bothe]. eapply e_eq; [apply e_raw, eend|]. reflexivity.
    - reflexivity.
  Qed.
  Lemma e_read_payload : forall R bi, or_fails er BT QT (g_read_payload O lf R bi) (read_payload R data bi).
  Proof. intros. unfold g_read_payload, read_payload. bothe. Qed.
  Lemma e_read_data : forall bi, or_fails er BT QT (g_read_data O bi) (read_data data bi).
  Proof. intros. unfold g_read_data, read_data. bothe. Qed.
  Lemma e_prepare : forall R bi pth, or_fails er BT QT (g_prepare O lf R bi pth) (prepare R data bi pth).
  Proof. intros. unfold g_prepare, prepare. cbv zeta. bothe. Qed.

  Section Traversal.
    Variable R : registry.
    Context {St V P : Type}.
    Variable handler : handler_t St V P.
    Hypothesis pass : forall e, er e -> forall bi pth params s, passes e (handler bi pth params s).
    Definition BP (x : T * St) : Prop := BT (fst x).
    Lemma e_lift_s : forall A (x : M T A) y, or_fails er BT QT x y -> or_fails er BP (QP (St := St) QT) (g_lift_s x) (lift_s y).
    Proof.
      intros A x y X [t s] [n s'] [H E]. cbn in H, E. subst s'. unfold g_lift_s, lift_s. cbn [fst snd].
      destruct (X t n H) as [E|[E K]]; destruct (x t) as [a t1], (y n) as [b n1]; cbn [fst snd] in *; [now left|right].
      repeat split; auto.
    Qed.
    Lemma e_set_s : forall A (r : res A) s, or_fails er BP (QP (St := St) QT) (fun x => (r, (fst x, s))) (fun x => (r, (fst x, s))).
    Proof. intros A r s [t s1] [n s2] [H E]. right. repeat split; auto. Qed.
    Lemma e_run_handler : forall bi e1 e2, (forall total p, or_fails er BP (QP QT) (e1 total p) (e2 total p)) ->
      forall p, (forall e, er e -> passes e p) -> forall co, or_fails er BP (QP QT) (g_run_handler O lf R bi e1 co p) (run_handler (St := St) (V := V) (P := P) R data bi e2 co p).
    Proof.
      intros bi e1 e2 E p. induction p as [s v|s e|k IH|k IH|s p k IH|pos k IH]; intros W co; cbn [g_run_handler run_handler passes] in *.
      - apply e_set_s.
      - apply e_set_s.
      - apply e_attempt_bind; [apply e_lift_s, e_read_payload|intros r; apply IH; intros e Ee; now apply (W e Ee)|].
        intros e x Ee Bx. destruct (W e Ee) as [[sf We] _]. rewrite We. now apply failed_i.
      - apply e_attempt_bind; [apply e_lift_s, e_read_data|intros r; apply IH; intros e Ee; now apply (W e Ee)|].
        intros e x Ee Bx. destruct (W e Ee) as [[sf We] _]. rewrite We. now apply failed_i.
      - apply e_bind; [apply e_set_s|]. intros _.
        apply e_attempt_bad with (bad := fun r => exists e, er e /\ (r = Err e \/ exists co', r = Ok (co', Err e))).
        + intros r (e & Ee & [Er|[co' Er]]); now subst r.
        + intros x y H. destruct (co =? 0).
          * unfold bind, attempt. destruct (e_lift_s _ _ _ (e_read_payload R bi) x y H) as [E1|[E1 K1]].
            { left. destruct (g_lift_s _ x) as [r1 x1]. destruct E1 as [(e & Ee & E1) Bx]. cbn [fst snd] in E1, Bx. subst r1. split; [exists e; split; [exact Ee|now left]|exact Bx]. }
            destruct (g_lift_s _ x) as [r1 x1], (lift_s _ y) as [r2 y1]. cbn [fst snd] in E1, K1. subst r2.
            destruct r1 as [z|e| |]; try (right; now split). cbv zeta.
            match goal with |- context [e1 ?a p] => destruct (E a p x1 y1 K1) as [E2|[E2 K2]] end.
            { left. destruct (e1 _ p x1) as [r2 x2]. destruct E2 as [(e & Ee & E2) Bx]. cbn [fst snd] in E2, Bx. subst r2. split; [exists e; split; [exact Ee|right; eexists; reflexivity]|exact Bx]. }
            destruct (e1 _ p x1) as [r2 x2], (e2 _ p y1) as [r3 y2]. cbn [fst snd] in E2, K2. subst r3. right. destruct r2; now split.
          * unfold bind, attempt. destruct (e_lift_s _ _ _ (e_seek co) x y H) as [E1|[E1 K1]].
            { left. destruct (g_lift_s _ x) as [r1 x1]. destruct E1 as [(e & Ee & E1) Bx]. cbn [fst snd] in E1, Bx. subst r1. split; [exists e; split; [exact Ee|now left]|exact Bx]. }
            destruct (g_lift_s _ x) as [r1 x1], (lift_s _ y) as [r2 y1]. cbn [fst snd] in E1, K1. subst r2.
            destruct r1 as [z|e| |]; try (right; now split). cbv zeta.
            match goal with |- context [e1 ?a p] => destruct (E a p x1 y1 K1) as [E2|[E2 K2]] end.
            { left. destruct (e1 _ p x1) as [r2 x2]. destruct E2 as [(e & Ee & E2) Bx]. cbn [fst snd] in E2, Bx. subst r2. split; [exists e; split; [exact Ee|right; eexists; reflexivity]|exact Bx]. }
            destruct (e1 _ p x1) as [r2 x2], (e2 _ p y1) as [r3 y2]. cbn [fst snd] in E2, K2. subst r3. right. destruct r2; now split.
        + intros r x (e & Ee & [Er|[co' Er]]) Bx; subst r; unfold bind, get; destruct (W e Ee) as [We _]; destruct (We (snd x)) as [s' W2]; rewrite W2; now apply failed_i.
        + intros r [t' s1'] [n' s2'] [H X]. cbn in H, X. subst s2'. unfold bind, get. cbn [snd].
          assert (X : QP QT (t', s1') (n', s1')) by (split; auto).
          destruct r as [[co' vs]|e| |]; [| |right; now split..]; apply IH; try exact X; intros e' Ee; now apply (W e' Ee).
      - apply e_bind; [|intros; now apply IH]. apply (e_lift_s _ _ (put pos)), e_put.
    Qed.
    Lemma e_box_internal : forall r1 r2, (forall t p c q, or_fails er BP (QP QT) (r1 t p c q) (r2 t p c q)) ->
      forall bi pth params, or_fails er BP (QP QT) (g_box_internal O lf R handler r1 bi pth params) (box_internal R data handler r2 bi pth params).
    Proof.
      intros r1 r2 C bi0 pth params. unfold g_box_internal, box_internal. apply e_bind; [apply e_lift_s, e_prepare|]. intros bi. cbv zeta.
      apply e_bind; [|intros v; apply e_bind; [apply e_lift_s, e_seek_to_end|]; intros; apply e_ret].
      intros [t s1] [n s2] [H X]. cbn in H, X. subst s2. cbn [snd]. apply e_run_handler; [intros; apply C|intros e Ee; now apply pass|]. now split.
    Qed.
    Lemma e_read_structure : forall fuel isRoot total pth ctx params,
      or_fails er BP (QP QT) (g_read_structure O lf R handler fuel isRoot total pth ctx params) (read_structure R data handler fuel isRoot total pth ctx params).
    Proof.
      induction fuel as [|fuel IH]; intros isRoot total pth ctx params; cbn [g_read_structure read_structure]; [apply e_const|].
      destruct (isRoot || (SmallHeaderSize <=? total)).
      - apply e_attempt_bind; [apply e_lift_s, e_read_box_info| |intros e s Ee Bx; destruct e; try (now apply failed_i); now elim ne]. intros h.
        destruct h as [bi|e| |]; try apply e_panic.
        + destruct (negb isRoot && (total <? bi_size bi)); [apply e_fail|].
          apply e_bind; [apply e_box_internal; intros; apply IH|].
          intros [v bi']. cbv zeta. apply e_bind; [apply IH|]. intros; apply e_ret.
        + destruct e; try apply e_fail. destruct isRoot; [apply e_ret|apply e_fail].
      - destruct (negb (total =? 0) && negb (IsQuickTimeCompatible ctx)); [apply e_fail|apply e_ret].
    Qed.
    Lemma e_read_box_structure : forall params,
      or_fails er BP (QP QT) (g_read_box_structure O lf tf R handler params) (read_box_structure R data handler params).
    Proof.
      intros params. unfold g_read_box_structure, read_box_structure. apply e_bind; [apply e_lift_s, e_seek|]. intros _. apply e_read_structure.
    Qed.
    Lemma e_read_box_structure_from_internal : forall bi params,
      or_fails er BP (QP QT) (g_read_box_structure_from_internal O lf tf R handler bi params) (read_box_structure_from_internal R data handler bi params).
    Proof.
      intros bi params. unfold g_read_box_structure_from_internal, read_box_structure_from_internal. apply e_bind; [|intros; apply e_ret].
      apply e_box_internal. intros; apply e_read_structure.
    Qed.
  End Traversal.

  (** *** Extract and Probe *)
  Lemma e_fin : forall A (x : M (T * list boxinfo) A) y, or_fails er BP (QP QT) x y ->
    or_fails er BT QT (g_fin x) (fun pos => match y (pos, []) with
      | (Ok _, (p, bs)) => (Ok bs, p) | (Err e, (p, _)) => (Err e, p) | (Panic, (p, _)) => (Panic, p) | (OutOfFuel, (p, _)) => (OutOfFuel, p) end).
  Proof.
    intros A x y X t n H. unfold g_fin. destruct (X (t, []) (n, [])) as [E|[E K]]; [now split| |];
    destruct (x (t, [])) as [a [t1 b1]], (y (n, [])) as [b [n1 b2]]; cbn [fst snd] in *;
      [left; destruct E as [(e & Ee & E) B]; cbn [fst snd] in E, B; subst a; now apply failed_i|].
    destruct K as [K1 K2]. cbn [fst snd] in K1, K2. subst. right.
    destruct b; now split.
  Qed.
  Lemma e_extract_handler : forall par paths e, er e -> forall bi pth params s, passes e (extract_handler par paths bi pth params s).
  Proof.
    intros par paths e Ee bi pth params s. unfold extract_handler. cbv zeta. destruct (bt_eqb (bi_type bi) bt_any); [exact I|].
    destruct (match_path paths _) as [[|] m]; [|exact I]. cbn [passes]. split; [intros s'; eexists; reflexivity|].
    intros [a|e'| |] s'; exact I.
  Qed.
  Lemma e_extract_boxes : forall R parent paths, or_fails er BT QT (g_extract_boxes O lf tf R parent paths) (extract_boxes R data parent paths).
  Proof.
    intros R parent paths. unfold g_extract_boxes, extract_boxes. destruct paths as [|p0 ps]; [apply e_const|].
    destruct (existsb (fun p => match p with [] => true | _ => false end) (p0 :: ps)); [apply e_const|]. cbv zeta.
    destruct parent as [bi|]; (eapply e_eq; [apply e_fin|reflexivity]).
    - apply e_read_box_structure_from_internal, e_extract_handler.
    - apply e_read_box_structure, e_extract_handler.
  Qed.
  Hint Resolve e_extract_boxes : orfs.
  Lemma e_payloads : forall R ctx bis, or_fails er BT QT (g_payloads O lf R ctx bis) (payloads R data ctx bis).
  Proof. intros R ctx bis. induction bis as [|bi r IH]; cbn [g_payloads payloads]; bothe. Qed.
  Hint Resolve e_payloads : orfs.
  Lemma e_extract_boxes_with_payload : forall R parent paths,
    or_fails er BT QT (g_extract_boxes_with_payload O lf tf R parent paths) (extract_boxes_with_payload R data parent paths).
  Proof. intros. unfold g_extract_boxes_with_payload, extract_boxes_with_payload. bothe. Qed.
  Hint Resolve e_extract_boxes_with_payload : orfs.
  Lemma e_payload_as : forall s p, or_fails er BT QT (payload_as s p) (payload_as s p).
  Proof. intros. unfold payload_as. bothe. Qed.
  Hint Resolve e_payload_as : orfs.
  Lemma e_note_box : forall bip f, or_fails er BT QT (note_box bip f) (note_box bip f).
  Proof. intros bip f. unfold note_box. destruct f. cbv zeta. bothe. Qed.
  Lemma e_make_track : forall f, or_fails er BT QT (make_track f) (make_track f).
  Proof. intros f. unfold make_track, elst_edits, stts_samples, stsc_chunks, ctts_samples, stsz_samples. cbv zeta. bothe. Qed.
  Lemma e_note_traf : forall bip f, or_fails er BT QT (note_traf bip f) (note_traf bip f).
  Proof. intros bip f. unfold note_traf. destruct f as [[]]. cbv zeta. bothe. Qed.
  Lemma e_make_segment : forall o f, or_fails er BT QT (make_segment o f) (make_segment o f).
  Proof. intros o f. unfold make_segment, trun_cto. destruct f as [[[tfhd|] tfdt] trun]; [|apply e_fail]. cbv zeta. bothe. Qed.
  Hint Resolve e_note_box e_make_track e_note_traf e_make_segment : orfs.
  Lemma e_probe_trak : forall R bi, or_fails er BT QT (g_probe_trak O lf tf R bi) (probe_trak R data bi).
  Proof. intros R bi. unfold g_probe_trak, probe_trak. bothe. Qed.
  Lemma e_probe_moof : forall R bi, or_fails er BT QT (g_probe_moof O lf tf R bi) (probe_moof R data bi).
  Proof. intros R bi. unfold g_probe_moof, probe_moof. bothe. Qed.
  Lemma e_read_box : forall R bi, or_fails er BT QT (g_read_box O lf R bi) (read_box R data bi).
  Proof. intros R bi. unfold g_read_box, read_box. bothe. Qed.
  Hint Resolve e_probe_trak e_probe_moof e_read_box : orfs.
  Lemma e_probe : forall R, or_fails er BT QT (g_probe O lf tf R) (probe R data).
  Proof.
    intros R. unfold g_probe, probe. apply e_bind; [apply e_extract_boxes|]. intros bis. apply e_bind; [|intros; apply e_ret].
    apply e_for_each. intros i bi [mdat p]. unfold g_probe_box, probe_box. cbv zeta. bothe.
  Qed.
  Lemma e_find_idr_frames : forall fuel tr, or_fails er BT QT (g_find_idr_frames O fuel tr) (find_idr_frames_fuel data fuel tr).
  Proof.
    intros fuel tr. unfold g_find_idr_frames, find_idr_frames_fuel. destruct (t_avc tr) as [avc|]; [|apply e_ret]. cbv zeta.
    apply e_bind; [|intros; apply e_ret]. apply e_for_each. intros i ch [si idxs].
    apply e_bind; [|intros; apply e_ret]. apply e_forN. intros j [off idxs']. unfold g_idr_sample, idr_sample.
    apply e_bind; [apply e_or_panic|]. intros smp. destruct (s_size smp =? 0); [apply e_ret|].
    apply e_bind; [|intros; apply e_ret]. unfold nal_loop. apply e_while.
    intros a. unfold g_nal_turn, nal_turn, byte_at. cbv zeta. bothe.
  Qed.
End MayFail.
