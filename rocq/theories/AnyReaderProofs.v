(** What the operations of AnyReader.v do on a reader that behaves like a
    position in the data: what the operations of the model do. *)
From Verif Require Import Base BaseProofs BitIO Schema Structs Methods Registry Marshal Unmarshal BoxInfo ReadTree Extract Accessors Probe
  Stream AnyReader.
Local Open Scope string_scope.
Local Open Scope list_scope.
Local Open Scope N_scope.
Local Open Scope monad_scope.

(** ** The same result, and related states *)
Definition alike {S1 S2 A} (Q : S1 -> S2 -> Prop) (x : M S1 A) (y : M S2 A) : Prop :=
  forall s1 s2, Q s1 s2 -> fst (x s1) = fst (y s2) /\ Q (snd (x s1)) (snd (y s2)).

Section Alike.
  Context {S1 S2 : Type} (Q : S1 -> S2 -> Prop).
  Lemma a_ret : forall A (a : A), alike Q (ret a) (ret a).
  Proof. intros A a s1 s2 H. now split. Qed.
  Lemma a_fail : forall A e, alike Q (fail e : M S1 A) (fail e).
  Proof. intros A e s1 s2 H. now split. Qed.
  Lemma a_panic : forall A, alike Q (panic : M S1 A) panic.
  Proof. intros A s1 s2 H. now split. Qed.
  Lemma a_const : forall A (r : res A), alike Q (fun s => (r, s)) (fun s => (r, s)).
  Proof. intros A r s1 s2 H. now split. Qed.
  Lemma a_lift_res : forall A (r : res A), alike Q (lift_res r) (lift_res r).
  Proof. intros. apply a_const. Qed.
  Lemma a_or_panic : forall A (o : option A), alike Q (or_panic o) (or_panic o).
  Proof. intros A [a|]; [apply a_ret|apply a_panic]. Qed.
  Lemma a_bind : forall A B (x : M S1 A) (y : M S2 A) (f : A -> M S1 B) g,
    alike Q x y -> (forall a, alike Q (f a) (g a)) -> alike Q (bind x f) (bind y g).
  Proof.
    intros A B x y f g X F s1 s2 H. destruct (X s1 s2 H) as [E K]. unfold bind.
    destruct (x s1) as [r1 t1], (y s2) as [r2 t2]. cbn [fst snd] in E, K. subst r2.
    destruct r1 as [a|e| |]; [now apply F|now split..].
  Qed.
  Lemma a_loopP : forall A p (f : A -> M S1 A) g, (forall a, alike Q (f a) (g a)) -> forall a, alike Q (loopP p f a) (loopP p g a).
  Proof.
    intros A p f g F. induction p as [q IH|q IH|]; intros a; cbn [loopP].
    - apply a_bind; [apply F|]. intros a1. apply a_bind; [apply IH|apply IH].
    - apply a_bind; [apply IH|apply IH].
    - apply F.
  Qed.
  Lemma a_loopN : forall A n (f : A -> M S1 A) g, (forall a, alike Q (f a) (g a)) -> forall a, alike Q (loopN n f a) (loopN n g a).
  Proof. intros A [|p] f g F a; [apply a_ret|now apply a_loopP]. Qed.
  Lemma a_whileP : forall A B p (f : A -> M S1 (A + B)) g, (forall a, alike Q (f a) (g a)) ->
    forall a, alike Q (whileP p f a) (whileP p g a).
  Proof.
    intros A B p f g F. induction p as [q IH|q IH|]; intros a; cbn [whileP].
    - apply a_bind; [apply F|]. intros [a1|b]; [|apply a_ret]. apply a_bind; [apply IH|]. intros [a2|b]; [apply IH|apply a_ret].
    - apply a_bind; [apply IH|]. intros [a1|b]; [apply IH|apply a_ret].
    - apply F.
  Qed.
  Lemma a_while : forall A B p (f : A -> M S1 (A + B)) g, (forall a, alike Q (f a) (g a)) ->
    forall a, alike Q (while p f a) (while p g a).
  Proof.
    intros A B p f g F a s1 s2 H. destruct (a_whileP A B p f g F a s1 s2 H) as [E K]. unfold while.
    destruct (whileP p f a s1) as [r1 t1], (whileP p g a s2) as [r2 t2]. cbn [fst snd] in E, K. subst r2.
    destruct r1 as [[x|x]|e| |]; now split.
  Qed.
  Lemma a_for_each : forall A B (f : N -> B -> A -> M S1 A) g, (forall i x a, alike Q (f i x a) (g i x a)) ->
    forall l i a, alike Q (for_each f i l a) (for_each g i l a).
  Proof.
    intros A B f g F l. induction l as [|x r IH]; intros i a; cbn [for_each]; [apply a_ret|].
    apply a_bind; [apply F|]. intros b. apply IH.
  Qed.
  Lemma a_forN : forall A lo hi (f : N -> A -> M S1 A) g, (forall i a, alike Q (f i a) (g i a)) ->
    forall a, alike Q (forN lo hi f a) (forN lo hi g a).
  Proof.
    intros A lo hi f g F a. unfold forN. apply a_bind; [|intros; apply a_ret]. apply a_loopN. intros x.
    apply a_bind; [apply F|]. intros; apply a_ret.
  Qed.
  Lemma a_attempt : forall A (x : M S1 A) y, alike Q x y -> alike Q (attempt x) (attempt y).
  Proof.
    intros A x y X s1 s2 H. destruct (X s1 s2 H) as [E K]. unfold attempt.
    destruct (x s1) as [r1 t1], (y s2) as [r2 t2]. cbn [fst snd] in E, K. subst r2. destruct r1; now split.
  Qed.
End Alike.

Create HintDb alikes discriminated.
#[export] Hint Resolve a_ret a_fail a_panic a_const a_lift_res a_or_panic : alikes.
(** take two programs apart *)
Ltac both :=
  repeat first
    [ solve [auto with alikes nocore]
    | match goal with
      | |- alike _ (bind _ _) (bind _ _) => apply a_bind; [|intros]
      | |- alike _ (while _ _ _) (while _ _ _) => apply a_while; intros
      | |- alike _ (loopN _ _ _) (loopN _ _ _) => apply a_loopN; intros
      | |- alike _ (for_each _ _ _ _) (for_each _ _ _ _) => apply a_for_each; intros
      | |- alike _ (forN _ _ _ _) (forN _ _ _ _) => apply a_forN; intros
      | |- alike _ (attempt _) (attempt _) => apply a_attempt
      | |- alike _ (if ?b then _ else _) (if ?b then _ else _) => destruct b
      | |- alike _ (match ?x with _ => _ end) (match ?x with _ => _ end) => destruct x
      end ].

(** ** Readers that behave like a position in the data *)
Record faithful {S T} (O : reader S T) (data : list byte) (QS : S -> rst -> Prop) (QT : T -> N -> Prop) : Prop :=
  { f_new : forall t n, QT t n -> QS (o_new O t) (new_reader n);
    f_under : forall s r, QS s r -> QT (o_under O s) (r_pos r);
    f_bits : forall n, alike QS (o_bits O n) (read_bits data n);
    f_full : forall n, alike QS (o_full O n) (read_full data n);
    f_copy : forall n, alike QS (o_copy O n) (copy_n data n);
    f_string : alike QS (o_string O) (util_read_string data);
    f_cur : alike QS (o_cur O) seek_cur0;
    f_end : alike QS (o_end O) (seek_end data);
    f_start : forall x, alike QS (o_start O x) (seek_start x);
    f_move : forall f, alike QS (o_move O f) (fun s => (Ok tt, mkrst (f (r_pos s)) (r_octet s) (r_width s))) }.

Section Faithful.
  Context {S T : Type} (O : reader S T) (data : list byte) (QS : S -> rst -> Prop) (QT : T -> N -> Prop).
  Hypothesis F : faithful O data QS QT.
  Notation lf := (loop_fuel data).
  Notation tf := (tree_fuel data).

  Let fbits := f_bits O data QS QT F.
  Let ffull := f_full O data QS QT F.
  Let fcopy := f_copy O data QS QT F.
  Let fstring := f_string O data QS QT F.
  Let fcur := f_cur O data QS QT F.
  Let fend := f_end O data QS QT F.
  Let fstart := f_start O data QS QT F.
  Let fmove := f_move O data QS QT F.

  (** *** Unmarshal *)
  Definition QU (g : gust S) (u : ust) : Prop := QS (g_r g) (u_r u) /\ g_rbits g = u_rbits u.
  Lemma a_lift : forall A (x : M S A) y, alike QS x y -> alike QU (g_lift x) (lift_r y).
  Proof.
    intros A x y X [s rb] [r rb'] [H E]. cbn in H, E. subst rb'. destruct (X s r H) as [E K].
    unfold g_lift, lift_r. cbn [g_r u_r]. destruct (x s) as [r1 t1], (y r) as [r2 t2]. cbn [fst snd] in *. split; [exact E|].
    split; [exact K|reflexivity].
  Qed.
  Lemma a_get : alike QU g_get get_rbits.
  Proof. intros [s rb] [r rb'] [H E]. cbn in *. subst. repeat split; auto. Qed.
  Lemma a_add : forall n, alike QU (g_add n) (add_rbits n).
  Proof. intros n [s rb] [r rb'] [H E]. cbn in *. subst. repeat split; auto. Qed.
  Lemma a_set : forall n, alike QU (g_set n) (fun s => (Ok tt, mkust (u_r s) n)).
  Proof. intros n [s rb] [r rb'] [H E]. cbn in *. subst. repeat split; auto. Qed.
  Hint Resolve a_get a_add a_set : alikes.
  Lemma a_reader_has_size : forall size, alike QS (g_reader_has_size O size) (reader_has_size data size).
  Proof.
    intros size s r H. unfold g_reader_has_size, reader_has_size.
    destruct (fcur s r H) as [E1 K1]. destruct (o_cur O s) as [a1 s1], (seek_cur0 r) as [b1 r1]. cbn [fst snd] in E1, K1. subst b1.
    destruct a1 as [pre|e| |]; try now split.
    destruct (fend s1 r1 K1) as [E2 K2]. destruct (o_end O s1) as [a2 s2], (seek_end data r1) as [b2 r2]. cbn [fst snd] in E2, K2. subst b2.
    destruct a2 as [e|?| |]; try now split. destruct (sub64 e pre <? size); [now split|].
    destruct (fstart pre s2 r2 K2) as [E3 K3]. destruct (o_start O pre s2) as [a3 s3], (seek_start pre r2) as [b3 r3]. cbn [fst snd] in E3, K3. subst b3.
    destruct a3; now split.
  Qed.
  Lemma a_take_bits : forall n, alike QU (g_take_bits O n) (take_bits data n).
  Proof. intros n. unfold g_take_bits, take_bits. apply a_bind; [apply a_lift, fbits|]. intros. both. Qed.
  Hint Resolve a_take_bits : alikes.
  Lemma a_read_uvarint : alike QU (g_read_uvarint O lf) (read_uvarint data).
  Proof. unfold g_read_uvarint, read_uvarint. both. Qed.
  Hint Resolve a_read_uvarint : alikes.
  Lemma a_uint : forall w v size, alike QU (g_uint O lf w v size) (unmarshal_uint data w v size).
  Proof. intros. unfold g_uint, unmarshal_uint. both. Qed.
  Lemma a_int : forall w v size, alike QU (g_int O w v size) (unmarshal_int data w v size).
  Proof. intros. unfold g_int, unmarshal_int. both. Qed.
  Lemma a_bool : forall size, alike QU (g_bool O size) (unmarshal_bool data size).
  Proof. intros. unfold g_bool, unmarshal_bool. both. Qed.
  Lemma a_string_c : forall usize, alike QU (g_string_c O lf usize) (unmarshal_string_c data usize).
  Proof. intros. unfold g_string_c, unmarshal_string_c. both. Qed.
  Hint Resolve a_string_c : alikes.
  Lemma a_string : forall usize cp, alike QU (g_string O lf usize cp) (unmarshal_string data usize cp).
  Proof.
    intros. unfold g_string, unmarshal_string, g_try_read_pstring, try_read_pstring. cbv zeta. both.
    - apply a_lift, fcur.
    - apply a_lift, ffull.
    - apply a_lift, fstart.
    - apply a_lift, ffull.
  Qed.
  Lemma a_on_read : forall h ver self lb, alike QU (g_on_read O h ver self lb) (on_read data h ver self lb).
  Proof.
    intros h ver self lb. destruct h; cbn [g_on_read on_read]; cbv zeta; both.
    - apply a_lift, fstring.
    - apply a_lift, fstring.
    - apply a_lift, a_reader_has_size.
    - apply a_lift, ffull.
  Qed.
  Lemma a_map_list : forall (f : val -> M (gust S) val) g, (forall x, alike QU (f x) (g x)) ->
    forall l, alike QU (g_map_list f l) (map_list g l).
  Proof.
    intros f g X l. induction l as [|x r IH]; cbn [g_map_list map_list]; [apply a_ret|].
    apply a_bind; [apply X|]. intros a. apply a_bind; [apply IH|]. intros; apply a_ret.
  Qed.
  Scheme sty_both := Induction for sty Sort Prop with flds_both := Induction for flds Sort Prop.
  Section Fields.
    Variables (rname : string) (versions : list N) (ctx : context).
    Let P (t : sty) : Prop := forall rt usize f size len cur,
      alike QU (g_val O lf rname versions ctx rt usize f size len t cur) (unmarshal_val data rname versions ctx rt usize f size len t cur).
    Let Q (fs : flds) : Prop := forall rt usize sname cfo self,
      alike QU (g_flds O lf rname versions ctx rt usize sname cfo self fs) (unmarshal_flds data rname versions ctx rt usize sname cfo self fs).
    Lemma a_arr : forall n t, P t -> P (SArr n t).
    Proof.
      intros n t IH rt usize f size len cur. cbn beta iota delta [g_val unmarshal_val].
      destruct cur; try apply a_panic. apply a_bind; [|intros; apply a_ret]. apply a_map_list. intros x. apply IH.
    Qed.
    Lemma a_slice : forall t, P t -> P (SSlice t).
    Proof.
      intros t IH rt usize f size len cur. cbn beta iota delta [g_val unmarshal_val].
      apply a_bind; [apply a_get|]. intros rb. cbv zeta.
      match goal with |- alike _ (if ?b then _ else _) _ => destruct b end; [apply a_fail|].
      match goal with |- alike _ (if ?b then _ else _) _ => destruct b end.
      - apply a_bind; [apply a_lift, a_reader_has_size|]. intros ok. destruct (negb ok); [apply a_fail|].
        match goal with |- alike _ (if ?b then _ else _) _ => destruct b end; [apply a_panic|].
        apply a_bind; [apply a_lift, fcopy|]. intros buf. both.
      - apply a_bind; [|intros; apply a_ret].
        match goal with |- alike _ (if _ then while _ ?w1 _ else loopN _ ?e1 _) (if _ then while _ ?w2 _ else loopN _ ?e2 _) =>
          assert (E : forall acc, alike QU (e1 acc) (e2 acc)) end.
        { intros acc. apply a_bind; [apply IH|]. intros; both. }
        destruct (len =? LengthUnlimited); [|apply a_loopN; exact E].
        apply a_while. intros acc. apply a_bind; [apply a_get|]. intros r.
        destruct (w64 (usize * 8) <=? r); [apply a_ret|]. apply a_bind; [apply E|]. intros; apply a_ret.
    Qed.
    Lemma a_ptr : forall t, P t -> P (SPtr t).
    Proof.
      intros t IH rt usize f size len cur. cbn beta iota delta [g_val unmarshal_val].
      apply a_bind; [apply IH|]. intros; apply a_ret.
    Qed.
    Lemma a_struct : forall name cfo fs, Q fs -> P (SStruct name cfo fs).
    Proof.
      intros name cfo fs IH rt usize f size len cur. cbn beta iota delta [g_val unmarshal_val].
      destruct cur; try apply a_panic.
      match goal with |- alike _ (if ?b then _ else _) _ => destruct b end.
      - apply a_bind; [apply a_get|]. intros rb. apply a_bind; [apply a_set|]. intros _.
        apply a_bind; [apply IH|]. intros x. apply a_bind; [apply a_get|]. intros rb2.
        apply a_bind; [apply a_set|]. intros _. both.
      - apply a_bind; [apply IH|]. intros; apply a_ret.
    Qed.
    Lemma a_cons : forall f t, P t -> forall rest, Q rest -> Q (FCons f t rest).
    Proof.
      intros f t IHt rest IHr rt usize sname cfo self. cbn beta iota delta [g_flds unmarshal_flds]. cbv zeta.
      destruct (resolve_size _ _ f) as [size|]; [|apply a_panic]. destruct (resolve_len _ _ f) as [len|]; [|apply a_panic].
      apply a_bind; [|intros self'; apply IHr].
      match goal with |- alike _ (if ?b then _ else _) _ => destruct b end; [|apply a_ret].
      apply a_bind; [apply a_get|]. intros rb. apply a_bind; [apply a_on_read|]. intros [[rbits override] self1].
      apply a_bind; [apply a_add|]. intros _. destruct override; [apply a_ret|].
      destruct (lookup (f_name f) self1) as [cur|]; [|apply a_panic].
      apply a_bind; [apply IHt|]. intros x. both.
    Qed.
    Lemma a_flds : forall fs, Q fs.
    Proof.
      intros fs. apply (flds_both P Q).
      - intros w rt usize f size len cur. apply a_uint.
      - intros w rt usize f size len cur. apply a_int.
      - intros rt usize f size len cur. apply a_bool.
      - intros rt usize f size len cur. apply a_string.
      - apply a_arr.
      - apply a_slice.
      - apply a_ptr.
      - apply a_struct.
      - intros rt usize sname cfo self. apply a_ret.
      - apply a_cons.
    Qed.
  End Fields.

  Lemma a_before_unmarshal : forall sname self, alike QS (g_before_unmarshal O sname self) (before_unmarshal data sname self).
  Proof.
    intros sname self. unfold g_before_unmarshal, before_unmarshal. destruct (String.eqb sname "Meta"); [|apply a_ret].
    intros s r H. unfold bind. destruct (ffull 4 s r H) as [E K].
    destruct (o_full O 4 s) as [a s1], (read_full data 4 r) as [b r1]. cbn [fst snd] in E, K. subst b.
    destruct a as [buf|e| |]; try now split. cbv zeta.
    destruct (fmove (fun pos => pos - 4) s1 r1 K) as [E2 K2]. destruct (o_move O _ s1) as [a2 s2]. cbn [fst snd] in E2, K2. subst a2.
    destruct (existsb _ buf); now split.
  Qed.
  Lemma a_raw : forall A (x : M S A) (y : M rst A), alike QS x y ->
    alike QT (raw O x) (fun pos => let (r, s) := y (new_reader pos) in (r, r_pos s)).
  Proof.
    intros A x y X t n H. unfold raw. destruct (X _ _ (f_new O data QS QT F t n H)) as [E K].
    destruct (x (o_new O t)) as [a s], (y (new_reader n)) as [b r]. cbn [fst snd] in *. subst b. split; [reflexivity|].
    now apply (f_under O data QS QT F).
  Qed.
  Lemma a_eq : forall A (x : M T A) (y z : M N A), alike QT x y -> (forall n, y n = z n) -> alike QT x z.
  Proof. intros A x y z X E t n H. rewrite <- E. now apply X. Qed.
  Lemma a_tell : alike QT (raw O (o_cur O)) get.
  Proof. eapply a_eq; [apply a_raw, fcur|]. reflexivity. Qed.
  Lemma a_put : forall x, alike QT (raw O (o_move O (fun _ => x))) (put x).
  Proof. intros x. eapply a_eq; [apply a_raw, fmove|]. reflexivity. Qed.
  Lemma a_copy : forall n, alike QT (raw O (o_copy O n)) (s_copy data n).
  Proof.
    intros n. eapply a_eq; [apply a_raw, fcopy|]. intros pos. unfold s_copy, copy_n.
    destruct ((n =? 0) || (9223372036854775808 <=? n)); [reflexivity|]. cbn [new_reader r_width r_pos r_octet]. cbv zeta.
    destruct (lenN (takeN n (skipN pos data)) =? n); reflexivity.
  Qed.
  Lemma a_read_full : forall n, alike QT (raw O (o_full O n)) (Probe.s_read_full data n).
  Proof.
    intros n. eapply a_eq; [apply a_raw, ffull|]. intros pos. unfold Probe.s_read_full, read_full.
    cbn [new_reader r_width r_pos r_octet]. cbv zeta.
    destruct (lenN (takeN n (skipN pos data)) =? n); [reflexivity|]. destruct (lenN (takeN n (skipN pos data)) =? 0); reflexivity.
  Qed.
  Lemma a_seek : forall x, alike QT (g_seek O x) (s_seek x).
  Proof.
    intros x. unfold g_seek. eapply a_eq; [apply a_bind; [apply a_raw, fstart|intros; apply a_ret]|].
    intros pos. unfold bind, seek_start, s_seek. destruct (x <? 9223372036854775808); reflexivity.
  Qed.
  Hint Resolve a_tell a_put a_copy a_read_full a_seek : alikes.
  Lemma a_unmarshal : forall d size ctx dst, alike QT (g_unmarshal O lf d size ctx dst) (unmarshal_def d data size ctx dst).
  Proof.
    intros d size ctx dst t n H. unfold g_unmarshal, unmarshal_def. cbv zeta. unfold bind.
    destruct (a_raw _ _ _ (a_before_unmarshal (bd_name d) (set_version anyVersion dst)) t n H) as [E K].
    destruct (raw O _ t) as [a t1]. destruct (before_unmarshal data (bd_name d) (set_version anyVersion dst) (new_reader n)) as [b r].
    cbn [fst snd] in E, K. subst b. destruct a as [[[|] self1]|e| |]; try now split.
    destruct (a_tell t1 (r_pos r) K) as [E1 K1]. destruct (raw O (o_cur O) t1) as [a1 t2]. cbn [fst snd get] in E1, K1. subst a1.
    set (sn := r_pos r) in *.
    destruct (a_flds (bd_name d) (bd_versions d) ctx (bd_flds d) None size (bd_name d) true self1 (mkgust (o_new O t2) 0) (mkust (new_reader sn) 0)) as [E2 [K2 B2]].
    { split; [now apply (f_new O data QS QT F)|reflexivity]. }
    destruct (g_flds _ _ _ _ _ _ _ _ _ _ _ _) as [a2 s2], (unmarshal_flds _ _ _ _ _ _ _ _ _ _ _) as [b2 u2].
    cbn [fst snd] in E2, K2, B2. subst b2.
    pose proof (f_under O data QS QT F _ _ K2) as K3.
    destruct a2 as [x|e| |]; try now split.
    { rewrite B2. now split. }
    destruct e; try now split. unfold attempt. destruct (a_put sn _ _ K3) as [E4 K4]. destruct (raw O _ _) as [a4 t4]. cbn [fst snd put] in E4, K4. subst a4. now split.
  Qed.
  Lemma a_unmarshal_any : forall R t size ctx, alike QT (g_unmarshal_any O lf R t size ctx) (unmarshal_any R data t size ctx).
  Proof.
    intros R t size ctx. unfold g_unmarshal_any, unmarshal_any. destruct (new_box R t ctx) as [[d z]|e| |]; try apply a_const.
    intros s n H. unfold bind. destruct (a_unmarshal d size ctx z s n H) as [E K].
    destruct (g_unmarshal O lf d size ctx z s) as [a s1], (unmarshal_def d data size ctx z n) as [b n1]. cbn [fst snd] in E, K. subst b.
    destruct a as [[x k]|e| |]; now split.
  Qed.
  Hint Resolve a_unmarshal_any : alikes.

  (** *** Box headers and the traversal *)
  Lemma a_seek_to_payload : forall bi, alike QT (g_seek_to_payload O bi) (seek_to_payload bi).
  Proof. intros. apply a_seek. Qed.
  Lemma a_seek_to_end : forall bi, alike QT (g_seek_to_end O bi) (seek_to_end bi).
  Proof. intros. apply a_seek. Qed.
  Hint Resolve a_seek_to_payload a_seek_to_end : alikes.
  Lemma a_read_box_info : alike QT (g_read_box_info O) (read_box_info data).
  Proof.
    unfold g_read_box_info, read_box_info. apply a_bind; [apply a_tell|]. intros offset. apply a_bind; [apply a_copy|]. intros h. cbv zeta.
    destruct (be_to_N (takeN 4 h) =? 0); [|both].
    eapply (a_eq _ _ (len <- (fun _ => (Ok (lenN data), lenN data)) ;;
      seek_to_payload (mkbi offset (sub64 len offset) SmallHeaderSize (skipN 4 h) true ctx0) ;;;
      (if sub64 len offset =? 0 then fail (EMsg "invalid size") else ret (mkbi offset (sub64 len offset) SmallHeaderSize (skipN 4 h) true ctx0)))).
    - apply a_bind; [|intros len; both]. eapply a_eq; [apply a_raw, fend|]. reflexivity.
    - reflexivity.
  Qed.
  Lemma a_read_payload : forall R bi, alike QT (g_read_payload O lf R bi) (read_payload R data bi).
  Proof. intros. unfold g_read_payload, read_payload. both. Qed.
  Lemma a_read_data : forall bi, alike QT (g_read_data O bi) (read_data data bi).
  Proof. intros. unfold g_read_data, read_data. both. Qed.
  Lemma a_prepare : forall R bi pth, alike QT (g_prepare O lf R bi pth) (prepare R data bi pth).
  Proof. intros. unfold g_prepare, prepare. cbv zeta. both. Qed.

  Section Traversal.
    Variable R : registry.
    Context {St V P : Type}.
    Variable handler : handler_t St V P.
    Definition QP (x : T * St) (y : N * St) : Prop := QT (fst x) (fst y) /\ snd x = snd y.
    Lemma a_lift_s : forall A (x : M T A) y, alike QT x y -> alike QP (g_lift_s x) (lift_s y).
    Proof.
      intros A x y X [t s] [n s'] [H E]. cbn in H, E. subst s'. unfold g_lift_s, lift_s. cbn [fst snd].
      destruct (X t n H) as [E K]. destruct (x t) as [a t1], (y n) as [b n1]. cbn [fst snd] in *. repeat split; auto.
    Qed.
    Lemma a_set_s : forall A (r : res A) s, alike QP (fun x => (r, (fst x, s))) (fun x => (r, (fst x, s))).
    Proof. intros A r s [t s1] [n s2] [H E]. repeat split; auto. Qed.
    Lemma a_run_handler : forall bi e1 e2, (forall total p, alike QP (e1 total p) (e2 total p)) ->
      forall p co, alike QP (g_run_handler O lf R bi e1 co p) (run_handler (V := V) (P := P) R data bi e2 co p).
    Proof.
      intros bi e1 e2 E p. induction p as [s v|s e|k IH|k IH|s p k IH|pos k IH]; intros co; cbn [g_run_handler run_handler].
      - apply a_set_s.
      - apply a_set_s.
      - apply a_bind; [apply a_attempt, a_lift_s, a_read_payload|]. intros r. apply IH.
      - apply a_bind; [apply a_attempt, a_lift_s, a_read_data|]. intros r. apply IH.
      - apply a_bind; [apply a_set_s|]. intros _. apply a_bind.
        + apply a_attempt. destruct (co =? 0).
          * apply a_bind; [apply a_lift_s, a_read_payload|]. intros x. cbv zeta.
            apply a_bind; [apply a_attempt, E|]. intros; apply a_ret.
          * apply a_bind; [apply a_lift_s, a_seek|]. intros x.
            apply a_bind; [apply a_attempt, E|]. intros; apply a_ret.
        + intros r [t s1] [n s2] [H X]. cbn in H, X. subst s2. unfold bind, get. cbn [snd].
          assert (X : QP (t, s1) (n, s1)) by (split; auto).
          destruct r as [[co' vs]|e| |]; [now apply IH|now apply IH|now split..].
      - apply a_bind; [|intros; apply IH]. apply (a_lift_s _ _ (put pos)), a_put.
    Qed.
    Lemma a_box_internal : forall r1 r2, (forall t p c q, alike QP (r1 t p c q) (r2 t p c q)) ->
      forall bi pth params, alike QP (g_box_internal O lf R handler r1 bi pth params) (box_internal R data handler r2 bi pth params).
    Proof.
      intros r1 r2 C bi0 pth params. unfold g_box_internal, box_internal. apply a_bind; [apply a_lift_s, a_prepare|]. intros bi. cbv zeta.
      apply a_bind; [|intros v; apply a_bind; [apply a_lift_s, a_seek_to_end|]; intros; apply a_ret].
      intros [t s1] [n s2] [H X]. cbn in H, X. subst s2. cbn [snd]. apply a_run_handler; [intros; apply C|]. now split.
    Qed.
    Lemma a_read_structure : forall fuel isRoot total pth ctx params,
      alike QP (g_read_structure O lf R handler fuel isRoot total pth ctx params) (read_structure R data handler fuel isRoot total pth ctx params).
    Proof.
      induction fuel as [|fuel IH]; intros isRoot total pth ctx params; cbn [g_read_structure read_structure]; [apply a_const|].
      destruct (isRoot || (SmallHeaderSize <=? total)).
      - apply a_bind; [apply a_attempt, a_lift_s, a_read_box_info|]. intros h.
        destruct h as [bi|e| |]; try apply a_panic.
        + destruct (negb isRoot && (total <? bi_size bi)); [apply a_fail|].
          apply a_bind; [apply a_box_internal; intros; apply IH|].
          intros [v bi']. cbv zeta. apply a_bind; [apply IH|]. intros; apply a_ret.
        + destruct e; try apply a_fail. destruct isRoot; [apply a_ret|apply a_fail].
      - destruct (negb (total =? 0) && negb (IsQuickTimeCompatible ctx)); [apply a_fail|apply a_ret].
    Qed.
    Lemma a_read_box_structure : forall params,
      alike QP (g_read_box_structure O lf tf R handler params) (read_box_structure R data handler params).
    Proof.
      intros params. unfold g_read_box_structure, read_box_structure. apply a_bind; [apply a_lift_s, a_seek|]. intros _. apply a_read_structure.
    Qed.
    Lemma a_read_box_structure_from_internal : forall bi params,
      alike QP (g_read_box_structure_from_internal O lf tf R handler bi params) (read_box_structure_from_internal R data handler bi params).
    Proof.
      intros bi params. unfold g_read_box_structure_from_internal, read_box_structure_from_internal. apply a_bind; [|intros; apply a_ret].
      apply a_box_internal. intros; apply a_read_structure.
    Qed.
  End Traversal.

  (** *** Extract and Probe *)
  Lemma a_fin : forall A (x : M (T * list boxinfo) A) y, alike QP x y ->
    alike QT (g_fin x) (fun pos => match y (pos, []) with
      | (Ok _, (p, bs)) => (Ok bs, p) | (Err e, (p, _)) => (Err e, p) | (Panic, (p, _)) => (Panic, p) | (OutOfFuel, (p, _)) => (OutOfFuel, p) end).
  Proof.
    intros A x y X t n H. unfold g_fin. destruct (X (t, []) (n, [])) as [E K]; [now split|].
    destruct (x (t, [])) as [a [t1 b1]], (y (n, [])) as [b [n1 b2]]. cbn [fst snd] in E, K. destruct K as [K1 K2]. cbn [fst snd] in K1, K2. subst.
    destruct b; now split.
  Qed.
  Lemma a_extract_boxes : forall R parent paths, alike QT (g_extract_boxes O lf tf R parent paths) (extract_boxes R data parent paths).
  Proof.
    intros R parent paths. unfold g_extract_boxes, extract_boxes. destruct paths as [|p0 ps]; [apply a_const|].
    destruct (existsb (fun p => match p with [] => true | _ => false end) (p0 :: ps)); [apply a_const|]. cbv zeta.
    destruct parent as [bi|]; (eapply a_eq; [apply a_fin|reflexivity]).
    - apply a_read_box_structure_from_internal.
    - apply a_read_box_structure.
  Qed.
  Hint Resolve a_extract_boxes : alikes.
  Lemma a_payloads : forall R ctx bis, alike QT (g_payloads O lf R ctx bis) (payloads R data ctx bis).
  Proof. intros R ctx bis. induction bis as [|bi r IH]; cbn [g_payloads payloads]; both. Qed.
  Hint Resolve a_payloads : alikes.
  Lemma a_extract_boxes_with_payload : forall R parent paths,
    alike QT (g_extract_boxes_with_payload O lf tf R parent paths) (extract_boxes_with_payload R data parent paths).
  Proof. intros. unfold g_extract_boxes_with_payload, extract_boxes_with_payload. both. Qed.
  Hint Resolve a_extract_boxes_with_payload : alikes.
  Lemma a_payload_as : forall s p, alike QT (payload_as s p) (payload_as s p).
  Proof. intros. unfold payload_as. both. Qed.
  Hint Resolve a_payload_as : alikes.
  Lemma a_note_box : forall bip f, alike QT (note_box bip f) (note_box bip f).
  Proof. intros bip f. unfold note_box. destruct f. cbv zeta. both. Qed.
  Lemma a_make_track : forall f, alike QT (make_track f) (make_track f).
  Proof. intros f. unfold make_track, elst_edits, stts_samples, stsc_chunks, ctts_samples, stsz_samples. cbv zeta. both. Qed.
  Lemma a_note_traf : forall bip f, alike QT (note_traf bip f) (note_traf bip f).
  Proof. intros bip f. unfold note_traf. destruct f as [[]]. cbv zeta. both. Qed.
  Lemma a_make_segment : forall o f, alike QT (make_segment o f) (make_segment o f).
  Proof. intros o f. unfold make_segment, trun_cto. destruct f as [[[tfhd|] tfdt] trun]; [|apply a_fail]. cbv zeta. both. Qed.
  Hint Resolve a_note_box a_make_track a_note_traf a_make_segment : alikes.
  Lemma a_probe_trak : forall R bi, alike QT (g_probe_trak O lf tf R bi) (probe_trak R data bi).
  Proof. intros R bi. unfold g_probe_trak, probe_trak. both. Qed.
  Lemma a_probe_moof : forall R bi, alike QT (g_probe_moof O lf tf R bi) (probe_moof R data bi).
  Proof. intros R bi. unfold g_probe_moof, probe_moof. both. Qed.
  Lemma a_read_box : forall R bi, alike QT (g_read_box O lf R bi) (read_box R data bi).
  Proof. intros R bi. unfold g_read_box, read_box. both. Qed.
  Hint Resolve a_probe_trak a_probe_moof a_read_box : alikes.
  Lemma a_probe : forall R, alike QT (g_probe O lf tf R) (probe R data).
  Proof.
    intros R. unfold g_probe, probe. apply a_bind; [apply a_extract_boxes|]. intros bis. apply a_bind; [|intros; apply a_ret].
    apply a_for_each. intros i bi [mdat p]. unfold g_probe_box, probe_box. cbv zeta. both.
  Qed.
  Lemma a_find_idr_frames : forall fuel tr, alike QT (g_find_idr_frames O fuel tr) (find_idr_frames_fuel data fuel tr).
  Proof.
    intros fuel tr. unfold g_find_idr_frames, find_idr_frames_fuel. destruct (t_avc tr) as [avc|]; [|apply a_ret]. cbv zeta.
    apply a_bind; [|intros; apply a_ret]. apply a_for_each. intros i ch [si idxs].
    apply a_bind; [|intros; apply a_ret]. apply a_forN. intros j [off idxs']. unfold g_idr_sample, idr_sample.
    apply a_bind; [apply a_or_panic|]. intros smp. destruct (s_size smp =? 0); [apply a_ret|].
    apply a_bind; [|intros; apply a_ret]. unfold nal_loop. apply a_while.
    intros a. unfold g_nal_turn, nal_turn, byte_at. cbv zeta. both.
  Qed.
End Faithful.
