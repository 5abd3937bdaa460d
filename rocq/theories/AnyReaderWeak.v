(** Unmarshal on readers that do anything the contract of io.Reader allows. *)
From Verif Require Import Base BaseProofs BitIO Schema Structs Methods Registry Marshal Unmarshal BoxInfo ReadTree Extract Probe
  Stream PropStream AnyReader AnyReaderProofs PropAnyReader PropLookup.
Local Open Scope string_scope.
Local Open Scope list_scope.
Local Open Scope N_scope.
Local Open Scope monad_scope.

(** a loop over Read that the bound [fuel] stops; an error too if [b] is set *)
Definition gives_up (b : bool) {A} (r : res A) : Prop :=
  match r with OutOfFuel => True | Err _ => b = true | _ => False end.
(** The first gives up, or does what the second does. *)
Definition at_most (b : bool) {S1 S2 A} (Q : S1 -> S2 -> Prop) (x : M S1 A) (y : M S2 A) : Prop :=
  forall s1 s2, Q s1 s2 -> gives_up b (fst (x s1)) \/ (fst (x s1) = fst (y s2) /\ Q (snd (x s1)) (snd (y s2))).

Section AtMost.
  Variable b : bool.
  Context {S1 S2 : Type} (Q : S1 -> S2 -> Prop).
  Lemma m_alike : forall A (x : M S1 A) (y : M S2 A), alike Q x y -> at_most b Q x y.
  Proof. intros A x y X s1 s2 H. right. now apply X. Qed.
  Lemma m_bind : forall A B (x : M S1 A) (y : M S2 A) (f : A -> M S1 B) g,
    at_most b Q x y -> (forall a, at_most b Q (f a) (g a)) -> at_most b Q (bind x f) (bind y g).
  Proof.
    intros A B x y f g X F s1 s2 H. unfold bind. destruct (X s1 s2 H) as [E|[E K]].
    - left. destruct (x s1) as [[a|e| |] t1]; cbn in *; auto; contradiction.
    - destruct (x s1) as [r1 t1], (y s2) as [r2 t2]. cbn [fst snd] in E, K. subst r2.
      destruct r1 as [a|e| |]; [now apply F|right; now split..].
  Qed.
  Lemma m_loopP : forall A p (f : A -> M S1 A) g, (forall a, at_most b Q (f a) (g a)) -> forall a, at_most b Q (loopP p f a) (loopP p g a).
  Proof.
    intros A p f g F. induction p as [q IH|q IH|]; intros a; cbn [loopP].
    - apply m_bind; [apply F|]. intros a1. apply m_bind; [apply IH|apply IH].
    - apply m_bind; [apply IH|apply IH].
    - apply F.
  Qed.
  Lemma m_loopN : forall A n (f : A -> M S1 A) g, (forall a, at_most b Q (f a) (g a)) -> forall a, at_most b Q (loopN n f a) (loopN n g a).
  Proof. intros A [|p] f g F a; [apply m_alike, a_ret|now apply m_loopP]. Qed.
  Lemma m_whileP : forall A B p (f : A -> M S1 (A + B)) g, (forall a, at_most b Q (f a) (g a)) ->
    forall a, at_most b Q (whileP p f a) (whileP p g a).
  Proof.
    intros A B p f g F. induction p as [q IH|q IH|]; intros a; cbn [whileP].
    - apply m_bind; [apply F|]. intros [a1|z]; [|apply m_alike, a_ret]. apply m_bind; [apply IH|]. intros [a2|z]; [apply IH|apply m_alike, a_ret].
    - apply m_bind; [apply IH|]. intros [a1|z]; [apply IH|apply m_alike, a_ret].
    - apply F.
  Qed.
  Lemma m_while : forall A B p (f : A -> M S1 (A + B)) g, (forall a, at_most b Q (f a) (g a)) ->
    forall a, at_most b Q (while p f a) (while p g a).
  Proof.
    intros A B p f g F a s1 s2 H. unfold while. destruct (m_whileP A B p f g F a s1 s2 H) as [E|[E K]].
    - left. destruct (whileP p f a s1) as [[[x|x]|e| |] t1]; cbn in *; auto; contradiction.
    - destruct (whileP p f a s1) as [r1 t1], (whileP p g a s2) as [r2 t2]. cbn [fst snd] in E, K. subst r2. right.
      destruct r1 as [[x|x]|e| |]; now split.
  Qed.
  Lemma m_for_each : forall A B (f : N -> B -> A -> M S1 A) g l, (forall i x a, In x l -> at_most b Q (f i x a) (g i x a)) ->
    forall i a, at_most b Q (for_each f i l a) (for_each g i l a).
  Proof.
    intros A B f g l. induction l as [|x r IH]; intros F i a; cbn [for_each]; [apply m_alike, a_ret|].
    apply m_bind; [apply F; now left|]. intros c. apply IH. intros j y d H. apply F. now right.
  Qed.
  Lemma m_forN : forall A lo hi (f : N -> A -> M S1 A) g, (forall i a, at_most b Q (f i a) (g i a)) ->
    forall a, at_most b Q (forN lo hi f a) (forN lo hi g a).
  Proof.
    intros A lo hi f g F a. unfold forN. apply m_bind; [|intros; apply m_alike, a_ret]. apply m_loopN. intros x.
    apply m_bind; [apply F|]. intros; apply m_alike, a_ret.
  Qed.
End AtMost.
Lemma m_attempt : forall b S1 S2 (Q : S1 -> S2 -> Prop) A (x : M S1 A) (y : M S2 A), at_most false Q x y -> at_most b Q (attempt x) (attempt y).
Proof.
  intros b S1 S2 Q A x y X s1 s2 H. unfold attempt. destruct (X s1 s2 H) as [G|[E K]];
    destruct (x s1) as [r1 t1], (y s2) as [r2 t2]; cbn [fst snd] in *.
  - left. destruct r1; cbn in *; auto; try contradiction; discriminate.
  - subst r2. right. destruct r1; now split.
Qed.
Lemma m_bind_post : forall b S1 S2 (Q : S1 -> S2 -> Prop) A B (x : M S1 A) (y : M S2 A) (f : A -> M S1 B) g (P : A -> Prop),
  at_most b Q x y -> (forall s a, fst (y s) = Ok a -> P a) -> (forall a, P a -> at_most b Q (f a) (g a)) -> at_most b Q (bind x f) (bind y g).
Proof.
  intros b S1 S2 Q A B x y f g P X Y F s1 s2 H. unfold bind. destruct (X s1 s2 H) as [E|[E K]].
  - left. destruct (x s1) as [[a|e| |] t1]; cbn in *; auto; contradiction.
  - specialize (Y s2). destruct (x s1) as [r1 t1], (y s2) as [r2 t2]. cbn [fst snd] in *. subst r2.
    destruct r1 as [a|e| |]; [now apply F; [apply Y|]|right; now split..].
Qed.
(** and the result, where it is the same, satisfies [P] *)
Definition at_most_so (b : bool) {S1 S2 A} (Q : S1 -> S2 -> Prop) (P : A -> Prop) (x : M S1 A) (y : M S2 A) : Prop :=
  forall s1 s2, Q s1 s2 -> gives_up b (fst (x s1)) \/
    (fst (x s1) = fst (y s2) /\ Q (snd (x s1)) (snd (y s2)) /\ forall a, fst (y s2) = Ok a -> P a).
Lemma m_bind_so : forall b S1 S2 (Q : S1 -> S2 -> Prop) A B (x : M S1 A) (y : M S2 A) (f : A -> M S1 B) g (P : A -> Prop),
  at_most_so b Q P x y -> (forall a, P a -> at_most b Q (f a) (g a)) -> at_most b Q (bind x f) (bind y g).
Proof.
  intros b S1 S2 Q A B x y f g P X F s1 s2 H. unfold bind. destruct (X s1 s2 H) as [E|(E & K & Y)].
  - left. destruct (x s1) as [[a|e| |] t1]; cbn in *; auto; contradiction.
  - destruct (x s1) as [r1 t1], (y s2) as [r2 t2]. cbn [fst snd] in *. subst r2.
    destruct r1 as [a|e| |]; [now apply F; [apply Y|]|right; now split..].
Qed.
Lemma m_so : forall b S1 S2 (Q : S1 -> S2 -> Prop) A P (x : M S1 A) (y : M S2 A), at_most_so b Q P x y -> at_most b Q x y.
Proof. intros b S1 S2 Q A P x y X s1 s2 H. destruct (X s1 s2 H) as [E|(E & K & Y)]; [now left|right; now split]. Qed.
Lemma m_more : forall b S1 S2 (Q : S1 -> S2 -> Prop) A (x : M S1 A) (y : M S2 A), at_most false Q x y -> at_most b Q x y.
Proof.
  intros b S1 S2 Q A x y X s1 s2 H. destruct (X s1 s2 H) as [G|K]; [left|now right].
  destruct (fst (x s1)); cbn in *; auto; discriminate.
Qed.

(** *** The operations on the reader *)
Lemma m_bits : forall m data n, at_most true at_same_place (s_read_bits m data n) (read_bits data n).
Proof.
  intros m data n s r E. red in E. subst r.
  assert (K : weak_sim (s_read_bits m data n) (read_bits data n)).
  { unfold s_read_bits, read_bits. apply weak_bind; [|intros; apply weak_ret].
    apply weak_loop. intros a. apply weak_bind; [apply weak_bit|intros; apply weak_ret]. }
  destruct (K s) as [[e E]|[c E]]; [left; now rewrite E|right]. rewrite E. now split.
Qed.
Lemma m_full : forall b fuel m data n, at_most b at_same_place (Stream.s_read_full fuel m data n) (read_full data n).
Proof.
  intros b fuel m data n s r E. red in E. subst r. unfold Stream.s_read_full.
  destruct (N.eq_dec n 0) as [->|N0].
  { right. destruct fuel; cbn [s_read_more]; (replace (0 <=? lenN (@nil byte)) with true by reflexivity);
      unfold read_full, at_same_place; destruct s as [[po oc wi] cs]; cbn [s_r r_width r_pos r_octet s_calls];
      rewrite takeN_0; cbn; rewrite N.add_0_r; destruct (N.eqb_spec wi 0) as [->|]; now split. }
  destruct (N.eqb_spec (r_width (s_r s)) 0) as [W|W].
  - assert (F : so_far data (r_pos (s_r s)) n [] s).
    { repeat split; auto; try (cbn; lia). now rewrite takeN_0. }
    destruct (fst (s_read_more fuel m data n [] s)) eqn:Z; try (left; exact I); right; rewrite <- Z;
      (destruct (more_ok m data (r_pos (s_r s)) n fuel [] s F ltac:(lia)) as [c E]; [right; now rewrite Z|]);
      rewrite E; destruct s as [[po oc wi] cs]; cbn in W |- *; subst; now split.
  - destruct fuel; cbn [s_read_more]; (destruct (N.leb_spec n (lenN (@nil byte))) as [C|C]; [cbn in C; lia|]); [left; exact I|right].
    unfold s_read, read_full. rewrite (proj2 (N.eqb_neq _ _) W), (proj2 (N.eqb_neq _ _) N0). destruct s; now split.
Qed.
Lemma m_copy : forall b fuel m free data n, (forall i, 1 <= free i) ->
  at_most b at_same_place (s_copy_n fuel m free data n) (copy_n data n).
Proof.
  intros b fuel m free data n FR s r E. red in E. subst r. unfold s_copy_n.
  destruct ((n =? 0) || (9223372036854775808 <=? n)) eqn:Z.
  { right. unfold copy_n. rewrite Z. now split. }
  apply orb_false_elim in Z. destruct Z as [Z0 Z1]. apply N.eqb_neq in Z0. apply N.leb_gt in Z1.
  destruct (N.eqb_spec (r_width (s_r s)) 0) as [W|W].
  - assert (F : so_far data (r_pos (s_r s)) n [] s) by (repeat split; auto; try (cbn; lia); now rewrite takeN_0).
    destruct (fst (s_copy_more fuel m free data n [] s)) eqn:Z; try (left; exact I); right; rewrite <- Z;
      (destruct (copy_more_ok m free data (r_pos (s_r s)) n fuel [] s F ltac:(lia) FR) as [c E]; [right; now rewrite Z|]);
      rewrite E; destruct s as [[po oc wi] cs]; cbn in W |- *; subst; now split.
  - destruct fuel; cbn [s_copy_more]; (destruct (N.leb_spec n (lenN (@nil byte))) as [C|C]; [cbn in C; lia|]); [left; exact I|right].
    unfold s_read, copy_n. rewrite (proj2 (N.eqb_neq _ _) W), (proj2 (N.eqb_neq _ _) Z0), (proj2 (N.leb_gt _ _) Z1). destruct s; now split.
Qed.
Lemma m_seek : forall b A (x : M rst A), at_most b at_same_place (seeks x) x.
Proof. intros b A x. apply m_alike, alike_sim. exact (sim_seek A x). Qed.

(** *** Unmarshal of a box that is not emsg *)
(** no struct with methods of its own called Emsg *)
Fixpoint no_emsg (t : sty) : bool :=
  match t with
  | SArr _ u | SSlice u | SPtr u => no_emsg u
  | SStruct name cfo fs => negb (cfo && String.eqb name "Emsg") && no_emsg_flds fs
  | _ => true
  end
with no_emsg_flds (fs : flds) : bool :=
  match fs with FNil => true | FCons _ t r => no_emsg t && no_emsg_flds r end.

Lemma hook_emsg : forall cn f, cn <> "Emsg" -> hook_of cn f <> HEmsgData.
Proof.
  intros cn f H. unfold hook_of. destruct (String.eqb_spec cn "Emsg"); [contradiction|].
  destruct (String.eqb cn "Hdlr"); [destruct (String.eqb f "Name"); discriminate|].
  destruct (String.eqb cn "AVCDecoderConfiguration"); [destruct (String.eqb f "HighProfileFieldsEnabled"); discriminate|discriminate].
Qed.

Create HintDb atmost discriminated.
Ltac bothm :=
  repeat first
    [ solve [apply m_alike; auto with alikes nocore]
    | solve [auto with atmost nocore]
    | match goal with
      | |- at_most _ _ (bind _ _) (bind _ _) => apply m_bind; [|intros]
      | |- at_most _ _ (while _ _ _) (while _ _ _) => apply m_while; intros
      | |- at_most _ _ (loopN _ _ _) (loopN _ _ _) => apply m_loopN; intros
      | |- at_most _ _ (for_each _ _ _ _) (for_each _ _ _ _) => apply m_for_each; intros
      | |- at_most _ _ (if ?b then _ else _) (if ?b then _ else _) => destruct b
      | |- at_most _ _ (match ?x with _ => _ end) (match ?x with _ => _ end) => destruct x
      end ].

Section Weak.
  Variables (fuel : nat) (m : manner) (free : nat -> N) (data : list byte).
  Hypothesis FR : forall i, 1 <= free i.
  Notation O := (stream_reader fuel m free data).
  Notation lf := (loop_fuel data).
  Notation QS := at_same_place.
  Notation QU := (QU at_same_place).

  Lemma m_lift : forall b A (x : M sst A) y, at_most b QS x y -> at_most b QU (g_lift x) (lift_r y).
  Proof.
    intros b A x y X [s rb] [r rb'] [H E]. cbn in H, E. subst rb'. unfold g_lift, lift_r. cbn [g_r u_r].
    destruct (X s r H) as [G|[E K]]; destruct (x s) as [r1 t1], (y r) as [r2 t2]; cbn [fst snd] in *; [now left|right].
    split; [exact E|]. split; [exact K|reflexivity].
  Qed.
  Hint Resolve a_get a_add a_set : alikes.
  Lemma s_cur : forall b, at_most b QS (o_cur O) seek_cur0. Proof. intros b. exact (m_seek b N seek_cur0). Qed.
  Lemma s_start : forall b x, at_most b QS (o_start O x) (seek_start x). Proof. intros b x. exact (m_seek b N (seek_start x)). Qed.
  Lemma k_cur : alike QS (o_cur O) seek_cur0. Proof. apply alike_sim. exact (sim_seek N seek_cur0). Qed.
  Lemma k_end : alike QS (o_end O) (seek_end data). Proof. apply alike_sim. exact (sim_seek N (seek_end data)). Qed.
  Lemma k_start : forall x, alike QS (o_start O x) (seek_start x). Proof. intros x. apply alike_sim. exact (sim_seek N (seek_start x)). Qed.
  Lemma m_has_size : forall b size, at_most b QS (g_reader_has_size O size) (reader_has_size data size).
  Proof.
    intros b size. apply m_alike. intros s r H. unfold g_reader_has_size, reader_has_size.
    destruct (k_cur s r H) as [E1 K1]. destruct (o_cur O s) as [a1 s1], (seek_cur0 r) as [b1 r1]. cbn [fst snd] in E1, K1. subst b1.
    destruct a1 as [pre|e| |]; try now split.
    destruct (k_end s1 r1 K1) as [E2 K2]. destruct (o_end O s1) as [a2 s2], (seek_end data r1) as [b2 r2]. cbn [fst snd] in E2, K2. subst b2.
    destruct a2 as [e|?| |]; try now split. destruct (sub64 e pre <? size); [now split|].
    destruct (k_start pre s2 r2 K2) as [E3 K3]. destruct (o_start O pre s2) as [a3 s3], (seek_start pre r2) as [b3 r3]. cbn [fst snd] in E3, K3. subst b3.
    destruct a3; now split.
  Qed.
  Lemma m_take_bits : forall n, at_most true QU (g_take_bits O n) (take_bits data n).
  Proof. intros n. unfold g_take_bits, take_bits. apply m_bind; [apply m_lift, m_bits|]. intros. bothm. Qed.
  Hint Resolve m_take_bits : atmost.
  Lemma m_read_uvarint : at_most true QU (g_read_uvarint O lf) (read_uvarint data).
  Proof. unfold g_read_uvarint, read_uvarint. bothm. Qed.
  Hint Resolve m_read_uvarint : atmost.
  Lemma m_uint : forall w v size, at_most true QU (g_uint O lf w v size) (unmarshal_uint data w v size).
  Proof. intros. unfold g_uint, unmarshal_uint. bothm. Qed.
  Lemma m_int : forall w v size, at_most true QU (g_int O w v size) (unmarshal_int data w v size).
  Proof. intros. unfold g_int, unmarshal_int. bothm. Qed.
  Lemma m_bool : forall size, at_most true QU (g_bool O size) (unmarshal_bool data size).
  Proof. intros. unfold g_bool, unmarshal_bool. bothm. Qed.
  Lemma m_string_c : forall usize, at_most true QU (g_string_c O lf usize) (unmarshal_string_c data usize).
  Proof. intros. unfold g_string_c, unmarshal_string_c. bothm. Qed.
  Hint Resolve m_string_c : atmost.
  Lemma m_string : forall usize cp, at_most true QU (g_string O lf usize cp) (unmarshal_string data usize cp).
  Proof.
    intros. unfold g_string, unmarshal_string, g_try_read_pstring, try_read_pstring. cbv zeta. bothm.
    - apply m_lift, s_cur.
    - apply m_lift, m_full.
    - apply m_lift, s_start.
    - apply m_lift, m_full.
  Qed.
  Lemma m_on_read : forall h ver self lb, h <> HEmsgData -> at_most true QU (g_on_read O h ver self lb) (on_read data h ver self lb).
  Proof.
    intros h ver self lb H. destruct h; cbn [g_on_read on_read]; cbv zeta; [..|contradiction| |]; bothm.
    - apply m_lift, m_has_size.
    - apply m_lift, m_full.
  Qed.
  Lemma m_map_list : forall (f : val -> M (gust sst) val) g, (forall x, at_most true QU (f x) (g x)) ->
    forall l, at_most true QU (g_map_list f l) (map_list g l).
  Proof.
    intros f g X l. induction l as [|x r IH]; cbn [g_map_list map_list]; [bothm|].
    apply m_bind; [apply X|]. intros a. apply m_bind; [apply IH|]. intros. bothm.
  Qed.
  Section Fields.
    Variables (rname : string) (versions : list N) (ctx : context).
    Hypothesis RN : rname <> "Emsg".
    Let P (t : sty) : Prop := no_emsg t = true -> forall rt usize f size len cur,
      at_most true QU (g_val O lf rname versions ctx rt usize f size len t cur) (unmarshal_val data rname versions ctx rt usize f size len t cur).
    Let Q (fs : flds) : Prop := no_emsg_flds fs = true -> forall rt usize sname cfo self, (cfo = true -> sname <> "Emsg") ->
      at_most true QU (g_flds O lf rname versions ctx rt usize sname cfo self fs) (unmarshal_flds data rname versions ctx rt usize sname cfo self fs).
    Lemma m_arr : forall n t, P t -> P (SArr n t).
    Proof.
      intros n t IH NE rt usize f size len cur. cbn beta iota delta [g_val unmarshal_val].
      destruct cur; try (apply m_alike, a_panic). apply m_bind; [|intros; bothm]. apply m_map_list. intros x. now apply IH.
    Qed.
    Lemma m_slice : forall t, P t -> P (SSlice t).
    Proof.
      intros t IH NE rt usize f size len cur. cbn beta iota delta [g_val unmarshal_val].
      apply m_bind; [apply m_alike, a_get|]. intros rb. cbv zeta.
      match goal with |- at_most _ _ (if ?b then _ else _) _ => destruct b end; [apply m_alike, a_fail|].
      match goal with |- at_most _ _ (if ?b then _ else _) _ => destruct b end.
      - apply m_bind; [apply m_lift, m_has_size|]. intros ok. destruct (negb ok); [apply m_alike, a_fail|].
        match goal with |- at_most _ _ (if ?b then _ else _) _ => destruct b end; [apply m_alike, a_panic|].
        apply m_bind; [apply m_lift, m_copy, FR|]. intros buf. bothm.
      - apply m_bind; [|intros; bothm].
        match goal with |- at_most _ _ (if _ then while _ ?w1 _ else loopN _ ?e1 _) (if _ then while _ ?w2 _ else loopN _ ?e2 _) =>
          assert (E : forall acc, at_most true QU (e1 acc) (e2 acc)) end.
        { intros acc. apply m_bind; [now apply IH|]. intros; bothm. }
        destruct (len =? LengthUnlimited); [|apply m_loopN; exact E].
        apply m_while. intros acc. apply m_bind; [apply m_alike, a_get|]. intros r.
        destruct (w64 (usize * 8) <=? r); [bothm|]. apply m_bind; [apply E|]. intros; bothm.
    Qed.
    Lemma m_ptr : forall t, P t -> P (SPtr t).
    Proof.
      intros t IH NE rt usize f size len cur. cbn beta iota delta [g_val unmarshal_val].
      apply m_bind; [now apply IH|]. intros; bothm.
    Qed.
    Lemma m_struct : forall name cfo fs, Q fs -> P (SStruct name cfo fs).
    Proof.
      intros name cfo fs IH NE rt usize f size len cur. cbn beta iota delta [g_val unmarshal_val].
      cbn [no_emsg] in NE. apply andb_prop in NE. destruct NE as [N1 N2].
      assert (SN : cfo = true -> name <> "Emsg") by (intros -> ->; discriminate N1).
      destruct cur; try (apply m_alike, a_panic).
      match goal with |- at_most _ _ (if ?b then _ else _) _ => destruct b end.
      - apply m_bind; [apply m_alike, a_get|]. intros rb. apply m_bind; [apply m_alike, a_set|]. intros _.
        apply m_bind; [now apply IH|]. intros x. apply m_bind; [apply m_alike, a_get|]. intros rb2.
        apply m_bind; [apply m_alike, a_set|]. intros _. bothm.
      - apply m_bind; [now apply IH|]. intros; bothm.
    Qed.
    Lemma m_cons : forall f t, P t -> forall rest, Q rest -> Q (FCons f t rest).
    Proof.
      intros f t IHt rest IHr NE rt usize sname cfo self SN. cbn beta iota delta [g_flds unmarshal_flds]. cbv zeta.
      cbn [no_emsg_flds] in NE. apply andb_prop in NE. destruct NE as [N1 N2].
      destruct (resolve_size _ _ f) as [size|]; [|apply m_alike, a_panic]. destruct (resolve_len _ _ f) as [len|]; [|apply m_alike, a_panic].
      apply m_bind; [|intros self'; now apply IHr].
      match goal with |- at_most _ _ (if ?b then _ else _) _ => destruct b end; [|bothm].
      apply m_bind; [apply m_alike, a_get|]. intros rb.
      apply m_bind; [apply m_on_read, hook_emsg; destruct cfo; auto|]. intros [[rbits override] self1].
      apply m_bind; [apply m_alike, a_add|]. intros _. destruct override; [bothm|].
      destruct (lookup (f_name f) self1) as [cur|]; [|apply m_alike, a_panic].
      apply m_bind; [now apply IHt|]. intros x. bothm.
    Qed.
    Lemma m_flds : forall fs, Q fs.
    Proof.
      intros fs. apply (flds_both P Q).
      - intros w NE rt usize f size len cur. apply m_uint.
      - intros w NE rt usize f size len cur. apply m_int.
      - intros NE rt usize f size len cur. apply m_bool.
      - intros NE rt usize f size len cur. apply m_string.
      - exact m_arr.
      - exact m_slice.
      - exact m_ptr.
      - exact m_struct.
      - intros NE rt usize sname cfo self SN. apply m_alike, a_ret.
      - exact m_cons.
    Qed.
  End Fields.
  Lemma m_before_unmarshal : forall b sname self, at_most b QS (g_before_unmarshal O sname self) (before_unmarshal data sname self).
  Proof.
    intros b sname self. unfold g_before_unmarshal, before_unmarshal. destruct (String.eqb sname "Meta"); [|bothm].
    intros s r H. unfold bind. change (o_full O 4) with (Stream.s_read_full fuel m data 4).
    destruct (m_full b fuel m data 4 s r H) as [G|[E K]].
    { left. destruct (Stream.s_read_full fuel m data 4 s) as [[a|e| |] s1]; cbn in *; auto; contradiction. }
    right. destruct (Stream.s_read_full fuel m data 4 s) as [a s1], (read_full data 4 r) as [a' r1]. cbn [fst snd] in E, K. subst a'.
    destruct a as [buf|e| |]; try now split. cbv zeta. red in K. subst r1.
    destruct (existsb _ buf); now split.
  Qed.

  Notation QT := at_place.
  Lemma m_raw : forall b A (x : M sst A) (y : M rst A), at_most b QS x y ->
    at_most b QT (raw O x) (fun pos => let (r, s) := y (new_reader pos) in (r, r_pos s)).
  Proof.
    intros b A x y X [p c] n H. red in H. cbn [fst] in H. subst n. unfold raw. cbn [o_new o_under stream_reader fst snd].
    destruct (X (mksst (new_reader p) c) (new_reader p) eq_refl) as [G|[E K]];
      destruct (x (mksst (new_reader p) c)) as [a s], (y (new_reader p)) as [a' r]; cbn [fst snd] in *; [now left|right].
    red in K. subst. now split.
  Qed.
  Lemma m_eq : forall b A (x : M (N * nat) A) (y z : M N A), at_most b QT x y -> (forall n, y n = z n) -> at_most b QT x z.
  Proof. intros b A x y z X E t n H. rewrite <- E. now apply X. Qed.
  Lemma m_tell : forall b, at_most b QT (raw O (o_cur O)) get.
  Proof. intros b. eapply m_eq; [apply m_raw, s_cur|]. reflexivity. Qed.
  Lemma m_copyT : forall b n, at_most b QT (raw O (o_copy O n)) (s_copy data n).
  Proof.
    intros b n. eapply m_eq; [apply m_raw, m_copy, FR|]. intros pos. unfold s_copy, copy_n.
    destruct ((n =? 0) || (9223372036854775808 <=? n)); [reflexivity|]. cbn [new_reader r_width r_pos r_octet]. cbv zeta.
    destruct (lenN (takeN n (skipN pos data)) =? n); reflexivity.
  Qed.
  Lemma m_fullT : forall b n, at_most b QT (raw O (o_full O n)) (Probe.s_read_full data n).
  Proof.
    intros b n. eapply m_eq; [apply m_raw, m_full|]. intros pos. unfold Probe.s_read_full, read_full.
    cbn [new_reader r_width r_pos r_octet]. cbv zeta.
    destruct (lenN (takeN n (skipN pos data)) =? n); [reflexivity|]. destruct (lenN (takeN n (skipN pos data)) =? 0); reflexivity.
  Qed.
  Lemma m_seekT : forall b x, at_most b QT (g_seek O x) (s_seek x).
  Proof.
    intros b x. unfold g_seek. eapply m_eq; [apply m_bind; [apply m_raw, s_start|intros; apply m_alike, a_ret]|].
    intros pos. unfold bind, seek_start, s_seek. destruct (x <? 9223372036854775808); reflexivity.
  Qed.
  Hint Resolve m_tell m_copyT m_fullT m_seekT : atmost.

  (** Unmarshal: a struct other than Emsg, with no such struct inside *)
  Definition harmless (d : boxdef) : bool := negb (String.eqb (bd_name d) "Emsg") && no_emsg_flds (bd_flds d).
  Lemma m_unmarshal : forall d size ctx dst, harmless d = true ->
    at_most true QT (g_unmarshal O lf d size ctx dst) (unmarshal_def d data size ctx dst).
  Proof.
    intros d size ctx dst HD t n H. apply andb_prop in HD. destruct HD as [D1 D2].
    assert (RN : bd_name d <> "Emsg") by (intros E; rewrite E in D1; discriminate D1). clear D1.
    unfold g_unmarshal, unmarshal_def. cbv zeta. unfold bind.
    pose proof (m_raw true _ _ _ (m_before_unmarshal true (bd_name d) (set_version anyVersion dst)) t n H) as B.
    destruct (raw O (g_before_unmarshal O (bd_name d) (set_version anyVersion dst)) t) as [a t1].
    destruct (before_unmarshal data (bd_name d) (set_version anyVersion dst) (new_reader n)) as [a' r].
    destruct B as [G|[E K]]; cbn [fst snd] in *.
    { left. destruct a as [x|e| |]; cbn in *; auto; contradiction. }
    subst a'. destruct a as [[[|] self1]|e| |]; try (right; now split).
    pose proof (m_tell true t1 (r_pos r) K) as B1. destruct (raw O (o_cur O) t1) as [a1 t2].
    destruct B1 as [G|[E1 K1]]; cbn [fst snd get] in *.
    { left. destruct a1 as [x|e| |]; cbn in *; auto; contradiction. }
    subst a1. set (sn := r_pos r) in *.
    pose proof (m_flds (bd_name d) (bd_versions d) ctx RN (bd_flds d) D2 None size (bd_name d) true self1 (fun _ => RN)
      (mkgust (o_new O t2) 0) (mkust (new_reader sn) 0)) as B2.
    assert (I0 : QU (mkgust (o_new O t2) 0) (mkust (new_reader sn) 0)).
    { split; [|reflexivity]. red in K1 |- *. cbn. now rewrite K1. }
    specialize (B2 I0).
    destruct (g_flds _ _ _ _ _ _ _ _ _ _ _ _) as [a2 s2], (unmarshal_flds _ _ _ _ _ _ _ _ _ _ _) as [a2' u2].
    destruct B2 as [G|[E2 [K2 R2]]]; cbn [fst snd] in *.
    { left. destruct a2 as [x|e| |]; cbn in G; try contradiction; [|exact I]. destruct e; cbn; auto. }
    subst a2'.
    assert (K3 : at_place (o_under O (g_r s2)) (r_pos (u_r u2))) by (red in K2 |- *; cbn; now rewrite K2).
    destruct a2 as [x|e| |]; try (right; now split).
    { right. rewrite R2. now split. }
    destruct e; right; now split.
  Qed.
  Definition plain_type (R : registry) (t : btype) : Prop := forall ctx d, get_box_def R t ctx = Some d -> harmless d = true.
  Lemma m_unmarshal_any : forall R t size ctx, plain_type R t -> at_most true QT (g_unmarshal_any O lf R t size ctx) (unmarshal_any R data t size ctx).
  Proof.
    intros R t size ctx PT. unfold g_unmarshal_any, unmarshal_any, new_box. destruct (get_box_def R t ctx) as [d|] eqn:G; [|apply m_alike, a_const].
    intros s n H. unfold bind. pose proof (m_unmarshal d size ctx (zero_flds (bd_flds d)) (PT ctx d G) s n H) as B.
    destruct (g_unmarshal O lf d size ctx (zero_flds (bd_flds d)) s) as [a s1], (unmarshal_def d data size ctx (zero_flds (bd_flds d)) n) as [a' n1].
    destruct B as [U|[E K]]; cbn [fst snd] in *.
    { left. destruct a as [[x k]|e| |]; cbn in *; auto; contradiction. }
    subst a'. right. destruct a as [[x k]|e| |]; now split.
  Qed.
  Lemma m_read_box_info : forall b, at_most b QT (g_read_box_info O) (read_box_info data).
  Proof.
    intros b. unfold g_read_box_info, read_box_info. apply m_bind; [apply m_tell|]. intros offset. apply m_bind; [apply m_copyT|]. intros h. cbv zeta.
    destruct (be_to_N (takeN 4 h) =? 0); [|bothm].
    eapply (m_eq b _ _ (len <- (fun _ => (Ok (lenN data), lenN data)) ;;
      seek_to_payload (mkbi offset (sub64 len offset) SmallHeaderSize (skipN 4 h) true ctx0) ;;;
      (if sub64 len offset =? 0 then fail (EMsg "invalid size") else ret (mkbi offset (sub64 len offset) SmallHeaderSize (skipN 4 h) true ctx0)))).
    - apply m_bind; [|intros len; apply m_bind; [apply m_seekT|intros; bothm]].
      eapply m_eq; [apply m_raw, m_alike, k_end|]. reflexivity.
    - reflexivity.
  Qed.
  Hint Resolve m_unmarshal_any m_read_box_info : atmost.

  (** *** Extract *)
  Section Extraction.
    Variable R : registry.
    Hypothesis PF : plain_type R (bt "ftyp").
    Hypothesis PK : plain_type R (bt "keys").
    Notation good := (fun b : boxinfo => plain_type R (bi_type b)).
    Definition QX (x : (N * nat) * list boxinfo) (y : N * list boxinfo) : Prop :=
      at_place (fst x) (fst y) /\ snd x = snd y /\ Forall good (snd y).
    Lemma m_lift_s : forall b A (x : M (N * nat) A) y, at_most b QT x y -> at_most b QX (g_lift_s x) (lift_s y).
    Proof.
      intros b A x y X [t s] [n s'] (H & E & G). cbn in H, E, G. subst s'. unfold g_lift_s, lift_s. cbn [fst snd].
      destruct (X t n H) as [U|[E K]]; destruct (x t) as [a t1], (y n) as [a' n1]; cbn [fst snd] in *; [now left|right].
      repeat split; auto.
    Qed.
    Lemma m_prepare : forall bi pth, at_most true QT (g_prepare O lf R bi pth) (prepare R data bi pth).
    Proof.
      intros. unfold g_prepare, prepare, g_seek_to_payload, seek_to_payload. cbv zeta. bothm; apply m_unmarshal_any; assumption.
    Qed.
    Lemma prepare_type : forall bi pth pos bi', fst (prepare R data bi pth pos) = Ok bi' -> bi_type bi' = bi_type bi.
    Proof.
      intros bi pth pos bi'. unfold prepare, bind.
      destruct (seek_to_payload bi pos) as [[u|e| |] p1]; try discriminate.
      destruct (match pth with [] => true | _ => false end && bt_eqb (bi_type bi) (bt "ftyp")).
      - destruct (unmarshal_any R data (bt "ftyp") (payload_size bi) (bi_ctx bi) p1) as [[x|e| |] p2]; try discriminate. cbv zeta.
        set (b1 := if has_compatible_brand (snd (fst x)) brand_qt then set_ctx bi (set_qt (bi_ctx bi)) else bi).
        assert (T : bi_type b1 = bi_type bi) by (unfold b1; destruct (has_compatible_brand _ _); reflexivity).
        destruct (seek_to_payload b1 p2) as [[u1|e| |] p3]; try discriminate. cbn [ret].
        destruct (bt_eqb (bi_type b1) (bt "keys")).
        + destruct (unmarshal_any R data (bt "keys") (payload_size b1) (bi_ctx b1) p3) as [[y|e| |] p4]; try discriminate.
          match goal with |- context [seek_to_payload ?z p4] => destruct (seek_to_payload z p4) as [[u2|e| |] p5] end; try discriminate.
          cbn. intros E. injection E as <-. exact T.
        + cbn. intros E. injection E as <-. exact T.
      - cbn [ret]. destruct (bt_eqb (bi_type bi) (bt "keys")).
        + destruct (unmarshal_any R data (bt "keys") (payload_size bi) (bi_ctx bi) p1) as [[y|e| |] p4]; try discriminate.
          match goal with |- context [seek_to_payload ?z p4] => destruct (seek_to_payload z p4) as [[u2|e| |] p5] end; try discriminate.
          cbn. intros E. injection E as <-. reflexivity.
        + cbn. intros E. injection E as <-. reflexivity.
    Qed.
    Definition kE : res (list unit) -> list boxinfo -> hprog (list boxinfo) unit unit :=
      fun r s => match r with Err e => HFail s e | _ => HRet s tt end.
    Lemma expand_eq_g : forall bi e boxes s, g_run_handler O lf R bi e 0 (HExpand boxes tt kE) s =
      ((fun x => (Ok tt, (fst x, boxes))) ;;; (x <- g_lift_s (g_read_payload O lf R bi) ;;
        (e (sub64 (bi_offset bi + bi_size bi) (w64 (bi_offset bi + bi_hsize bi + snd x))) tt ;;; ret tt))) s.
    Proof.
      intros bi e boxes [t s]. cbn [g_run_handler]. change (0 =? 0) with true. unfold bind, attempt, get. cbn [fst snd].
      destruct (g_lift_s (g_read_payload O lf R bi) (t, boxes)) as [[x|er| |] [t1 s1]]; try reflexivity. cbn [snd].
      destruct (e _ tt (t1, s1)) as [[vs|er| |] [t2 s2]]; reflexivity.
    Qed.
    Lemma expand_eq : forall bi e boxes s, run_handler R data bi e 0 (HExpand boxes tt kE) s =
      ((fun x => (Ok tt, (fst x, boxes))) ;;; (x <- lift_s (read_payload R data bi) ;;
        (e (sub64 (bi_offset bi + bi_size bi) (w64 (bi_offset bi + bi_hsize bi + snd x))) tt ;;; ret tt))) s.
    Proof.
      intros bi e boxes [t s]. cbn [run_handler]. change (0 =? 0) with true. unfold bind, attempt, get. cbn [fst snd].
      destruct (lift_s (read_payload R data bi) (t, boxes)) as [[x|er| |] [t1 s1]]; try reflexivity. cbn [snd].
      destruct (e _ tt (t1, s1)) as [[vs|er| |] [t2 s2]]; reflexivity.
    Qed.

    Variable hp : bool.
    Variable paths : list path.
    Hypothesis OK : Forall (Forall (fun q => q <> bt_any /\ plain_type R q)) paths.
    Notation H := (extract_handler hp paths).
    Lemma compare_last : forall p t q, fst (compare_with (p ++ [t]) q) || snd (compare_with (p ++ [t]) q) = true ->
      exists c, In c q /\ match_with t c = true.
    Proof.
      induction p as [|a p IH]; intros t q E.
      - destruct q as [|c q]; [discriminate|]. cbn [app compare_with] in E. destruct (match_with t c) eqn:M; [|discriminate].
        exists c. split; [now left|exact M].
      - destruct q as [|c q]; [discriminate|]. cbn [app compare_with] in E. destruct (match_with a c); [|discriminate].
        destruct (IH t q E) as (d & I1 & I2). exists d. split; [now right|exact I2].
    Qed.
    Lemma match_some : forall p ps, fst (match_path ps p) || snd (match_path ps p) = true ->
      exists q, In q ps /\ fst (compare_with p q) || snd (compare_with p q) = true.
    Proof.
      intros p ps. unfold match_path.
      assert (G : forall l acc, fst (fold_left (fun acc q => let (fm, m) := compare_with p q in (fst acc || fm, snd acc || m)) l acc)
        || snd (fold_left (fun acc q => let (fm, m) := compare_with p q in (fst acc || fm, snd acc || m)) l acc) = true ->
        fst acc || snd acc = true \/ exists q, In q l /\ fst (compare_with p q) || snd (compare_with p q) = true).
      { induction l as [|q l IH]; intros acc E; [now left|]. cbn [fold_left] in E. apply IH in E.
        destruct (compare_with p q) as [fm mm] eqn:C. cbn [fst snd] in E. destruct E as [E|(q' & I1 & I2)].
        - destruct acc as [a1 a2]. cbn [fst snd] in E |- *.
          destruct a1; [now left|]. destruct a2; [now left|]. right. exists q. split; [now left|]. rewrite C. exact E.
        - right. exists q'. split; [now right|exact I2]. }
      intros E. destruct (G ps (false, false) E) as [F|F]; [discriminate F|exact F].
    Qed.
    Lemma matched_plain : forall p t, t <> bt_any -> fst (match_path paths (p ++ [t])) || snd (match_path paths (p ++ [t])) = true -> plain_type R t.
    Proof.
      intros p t NA E. apply match_some in E. destruct E as (q & I1 & I2). apply compare_last in I2. destruct I2 as (c & I2 & M).
      rewrite Forall_forall in OK. specialize (OK q I1). rewrite Forall_forall in OK. destruct (OK c I2) as [NC PC].
      unfold match_with in M. apply orb_prop in M. destruct M as [M|M].
      - apply orb_prop in M. destruct M as [M|M]; apply bt_eqb_iff in M; contradiction.
      - apply bt_eqb_iff in M. now subst.
    Qed.
    (** what the handler asks for is harmless *)
    Lemma handler_good : forall bi pth boxes, (hp = true -> pth = [] -> plain_type R (bi_type bi)) -> Forall good boxes ->
      exists boxes', Forall good boxes' /\
        (H bi (pth ++ [bi_type bi]) tt boxes = HRet boxes' tt \/
         H bi (pth ++ [bi_type bi]) tt boxes = HExpand boxes' tt kE /\ plain_type R (bi_type bi)).
    Proof.
      intros bi pth boxes HP G. unfold extract_handler.
      destruct (bt_eqb (bi_type bi) bt_any) eqn:NA.
      { exists boxes. split; [exact G|now left]. }
      assert (NA' : bi_type bi <> bt_any) by (intros X; apply bt_eqb_iff in X; congruence).
      assert (PL : forall p, p = (if hp then tl (pth ++ [bi_type bi]) else pth ++ [bi_type bi]) ->
        fst (match_path paths p) || snd (match_path paths p) = true -> plain_type R (bi_type bi)).
      { intros p E M. destruct hp.
        - destruct pth as [|a r]; [now apply HP|]. cbn [app tl] in E. subst p. now apply (matched_plain r).
        - subst p. now apply (matched_plain pth). }
      specialize (PL _ eq_refl). set (p := if hp then _ else _) in *.
      destruct (match_path paths p) as [fm mm]. cbn [fst snd] in PL.
      assert (G1 : Forall good (if mm then boxes ++ [bi] else boxes)).
      { destruct mm; [|exact G]. apply Forall_app. split; [exact G|]. constructor; [|constructor]. apply PL. now rewrite orb_true_r. }
      exists (if mm then boxes ++ [bi] else boxes). split; [exact G1|]. destruct fm; [right|left; reflexivity].
      split; [reflexivity|]. now apply PL.
    Qed.
    Lemma m_box_internal : forall r1 r2, (forall t p c q, p <> [] -> at_most true QX (r1 t p c q) (r2 t p c q)) ->
      forall bi pth, (hp = true -> pth = [] -> plain_type R (bi_type bi)) ->
      at_most true QX (g_box_internal O lf R H r1 bi pth tt) (box_internal R data H r2 bi pth tt).
    Proof.
      intros r1 r2 C bi0 pth HP. unfold g_box_internal, box_internal. cbv zeta.
      apply m_bind_post with (P := fun bi => bi_type bi = bi_type bi0); [apply m_lift_s, m_prepare| |intros bi T].
      { intros s bi. unfold lift_s. intros E. apply (prepare_type bi0 pth (fst s)). destruct (prepare R data bi0 pth (fst s)). exact E. }
      apply m_bind; [|intros v; apply m_bind; [apply m_lift_s, m_seekT|intros; apply m_alike, a_ret]].
      intros [t1 b1] [n1 b2] K. pose proof K as (K1 & K2 & K3). cbn [fst snd] in K1, K2, K3. subst b1. cbn [snd].
      destruct (handler_good bi pth b2) as (boxes' & G' & [E|[E PT]]); [now rewrite T|exact K3| |]; rewrite E.
      - right. cbn [g_run_handler run_handler fst snd]. split; [reflexivity|]. repeat split; auto.
      - rewrite expand_eq_g, expand_eq. revert K.
        match goal with |- _ -> gives_up _ (fst (?x _)) \/ _ => match goal with |- _ -> _ \/ (_ = fst (?y _) /\ _) =>
          enough (Z : at_most true QX x y) by exact (Z (t1, b2) (n1, b2)) end end.
        apply m_bind; [|intros _; apply m_bind; [apply m_lift_s|intros x; apply m_bind; [|intros; apply m_alike, a_ret]]].
        + intros s1 s2 (A & B & D). right. repeat split; auto.
        + unfold g_read_payload, read_payload. apply m_bind; [apply m_seekT|]. intros _. now apply m_unmarshal_any.
        + apply C. destruct pth; discriminate.
    Qed.
    Lemma m_read_structure : forall n isRoot total pth ctx, (hp = true -> pth <> []) ->
      at_most true QX (g_read_structure O lf R H n isRoot total pth ctx tt) (read_structure R data H n isRoot total pth ctx tt).
    Proof.
      induction n as [|n IH]; intros isRoot total pth ctx HP; cbn [g_read_structure read_structure]; [apply m_alike, a_const|].
      destruct (isRoot || (SmallHeaderSize <=? total)).
      - apply m_bind; [apply m_attempt, m_lift_s, m_read_box_info|]. intros h. destruct h as [bi|e| |]; try (apply m_alike, a_panic).
        + destruct (negb isRoot && (total <? bi_size bi)); [apply m_alike, a_fail|].
          apply m_bind; [|intros [v bi']; cbv zeta; apply m_bind; [apply IH, HP|intros; apply m_alike, a_ret]].
          apply m_box_internal; [|intros A B; now apply HP in A]. intros t p c [] NP. apply IH. intros _; exact NP.
        + destruct e; try (apply m_alike, a_fail). destruct isRoot; [apply m_alike, a_ret|apply m_alike, a_fail].
      - destruct (negb (total =? 0) && negb (IsQuickTimeCompatible ctx)); [apply m_alike, a_fail|apply m_alike, a_ret].
    Qed.
  End Extraction.

  Section Probing.
    Variable R : registry.
    Hypothesis PF : plain_type R (bt "ftyp").
    Hypothesis PK : plain_type R (bt "keys").
    Definition ok_paths (paths : list path) : Prop := Forall (Forall (fun q => q <> bt_any /\ plain_type R q)) paths.
    Definition ok_parent (parent : option boxinfo) : Prop := match parent with Some bi => plain_type R (bi_type bi) | None => True end.
    Lemma m_fin : forall A (x : M ((N * nat) * list boxinfo) A) y, at_most true (QX R) x y ->
      at_most_so true QT (Forall (fun b => plain_type R (bi_type b))) (g_fin x) (fun pos => match y (pos, []) with
        | (Ok _, (p, bs)) => (Ok bs, p) | (Err e, (p, _)) => (Err e, p) | (Panic, (p, _)) => (Panic, p) | (OutOfFuel, (p, _)) => (OutOfFuel, p) end).
    Proof.
      intros A x y X t n H. unfold g_fin. assert (I0 : QX R (t, []) (n, [])) by (split; [exact H|split; [reflexivity|constructor]]).
      destruct (X _ _ I0) as [U|(E & K1 & K2 & K3)];
        destruct (x (t, [])) as [a [t1 b1]], (y (n, [])) as [a' [n1 b2]]; cbn [fst snd] in *.
      - left. destruct a; cbn in *; first [contradiction|exact U|exact I].
      - subst. right. destruct a'; cbn [fst snd]; (split; [reflexivity|]); (split; [exact K1|]); intros l E; try discriminate E.
        injection E as <-. exact K3.
    Qed.
    Lemma m_extract_boxes : forall parent paths, ok_paths paths -> ok_parent parent ->
      at_most_so true QT (Forall (fun b => plain_type R (bi_type b))) (g_extract_boxes O lf (tree_fuel data) R parent paths) (extract_boxes R data parent paths).
    Proof.
      intros parent paths OK OP. unfold g_extract_boxes, extract_boxes. destruct paths as [|p0 ps].
      { intros t n H. right. cbn. split; [reflexivity|]. split; [exact H|]. intros a E. injection E as <-. constructor. }
      destruct (existsb (fun p => match p with [] => true | _ => false end) (p0 :: ps)).
      { intros t n H. right. cbn. split; [reflexivity|]. split; [exact H|]. intros a E. discriminate E. }
      cbv zeta. destruct parent as [bi|]; apply m_fin.
      - unfold g_read_box_structure_from_internal, read_box_structure_from_internal. apply m_bind; [|intros; apply m_alike, a_ret].
        apply m_box_internal; auto. intros t p c [] NP. apply m_read_structure; auto.
      - unfold g_read_box_structure, read_box_structure. apply m_bind; [apply m_lift_s, m_seekT|]. intros _.
        apply m_read_structure; auto. discriminate.
    Qed.
    Lemma m_payloads : forall ctx bis, Forall (fun b => plain_type R (bi_type b)) bis ->
      at_most true QT (g_payloads O lf R ctx bis) (payloads R data ctx bis).
    Proof.
      intros ctx bis. induction bis as [|bi r IH]; intros G; cbn [g_payloads payloads]; [apply m_alike, a_ret|]. inversion G; subst.
      apply m_bind; [apply m_seekT|]. intros _. apply m_bind; [now apply m_unmarshal_any|]. intros x.
      apply m_bind; [now apply IH|]. intros; apply m_alike, a_ret.
    Qed.
    Lemma m_extract_boxes_with_payload : forall parent paths, ok_paths paths -> ok_parent parent ->
      at_most true QT (g_extract_boxes_with_payload O lf (tree_fuel data) R parent paths) (extract_boxes_with_payload R data parent paths).
    Proof.
      intros parent paths OK OP. unfold g_extract_boxes_with_payload, extract_boxes_with_payload.
      eapply m_bind_so; [now apply m_extract_boxes|]. intros bis G. now apply m_payloads.
    Qed.
    Hint Resolve a_note_box a_make_track a_note_traf a_make_segment : alikes.
    Lemma m_probe_trak : forall bi, plain_type R (bi_type bi) -> ok_paths trak_paths ->
      at_most true QT (g_probe_trak O lf (tree_fuel data) R bi) (probe_trak R data bi).
    Proof.
      intros bi PT OK. unfold g_probe_trak, probe_trak. apply m_bind; [now apply m_extract_boxes_with_payload|]. intros bips.
      apply m_alike. both.
    Qed.
    Lemma m_probe_moof : forall bi, plain_type R (bi_type bi) -> ok_paths moof_paths ->
      at_most true QT (g_probe_moof O lf (tree_fuel data) R bi) (probe_moof R data bi).
    Proof.
      intros bi PT OK. unfold g_probe_moof, probe_moof. apply m_bind; [now apply m_extract_boxes_with_payload|]. intros bips.
      apply m_alike. both.
    Qed.
    Lemma m_read_box : forall bi, plain_type R (bi_type bi) -> at_most true QT (g_read_box O lf R bi) (read_box R data bi).
    Proof.
      intros bi PT. unfold g_read_box, read_box. apply m_bind; [apply m_seekT|]. intros _.
      apply m_bind; [now apply m_unmarshal_any|]. intros; apply m_alike, a_ret.
    Qed.
    Lemma m_probe : ok_paths probe_paths -> ok_paths trak_paths -> ok_paths moof_paths ->
      at_most true QT (g_probe O lf (tree_fuel data) R) (probe R data).
    Proof.
      intros O1 O2 O3. unfold g_probe, probe. eapply m_bind_so; [now apply m_extract_boxes|]. intros bis G.
      apply m_bind; [|intros; apply m_alike, a_ret]. apply m_for_each. intros i bi [mdat p] IB.
      rewrite Forall_forall in G. specialize (G bi IB). unfold g_probe_box, probe_box. cbv zeta.
      repeat match goal with |- at_most _ _ (if ?b then _ else _) _ => destruct b end; try (apply m_alike, a_ret);
        (apply m_bind; [|intros; apply m_alike, a_ret]);
        first [now apply m_read_box|now apply m_probe_trak|now apply m_probe_moof].
    Qed.
  End Probing.
  Lemma m_find_idr_frames : forall n tr, at_most false QT (g_find_idr_frames O n tr) (find_idr_frames_fuel data n tr).
  Proof.
    intros n tr. unfold g_find_idr_frames, find_idr_frames_fuel. destruct (t_avc tr) as [avc|]; [|apply m_alike, a_ret]. cbv zeta.
    apply m_bind; [|intros; apply m_alike, a_ret]. apply m_for_each. intros i ch [si idxs] _.
    apply m_bind; [|intros; apply m_alike, a_ret]. apply m_forN. intros j [off idxs']. unfold g_idr_sample, idr_sample.
    apply m_bind; [apply m_alike, a_or_panic|]. intros smp. destruct (s_size smp =? 0); [apply m_alike, a_ret|].
    apply m_bind; [|intros; apply m_alike, a_ret]. unfold nal_loop. apply m_while.
    intros a. unfold g_nal_turn, nal_turn, byte_at. cbv zeta. bothm.
  Qed.
End Weak.
