(** Proofs for C71: edit on an output that starts failing and goes on failing. *)
From Verif Require Import Base BaseProofs BitIO Schema Structs Methods Registry Marshal Unmarshal BoxInfo ReadTree Writer Text Accessors Edit.
From Verif Require Import MarshalProofs MarshalCount EditFaults.
Local Open Scope string_scope.
Local Open Scope list_scope.
Local Open Scope N_scope.
Local Open Scope monad_scope.

(** ** Scripts *)
Definition suffix {A} (a b : list A) : Prop := exists pre, b = pre ++ a.
Lemma suffix_refl : forall A (a : list A), suffix a a.
Proof. intros A a. now exists []. Qed.
Lemma suffix_trans : forall A (a b c : list A), suffix a b -> suffix b c -> suffix a c.
Proof. intros A a b c [p ->] [q ->]. exists (q ++ p). now rewrite app_assoc. Qed.
Lemma suffix_cons : forall A (x : A) a b, suffix a b -> suffix a (x :: b).
Proof. intros A x a b [p ->]. now exists (x :: p). Qed.
Lemma suffix_in : forall A (a b : list A) x, suffix a b -> In x a -> In x b.
Proof. intros A a b x [p ->] H. apply in_or_app. now right. Qed.

Fixpoint forgood (l : list bool) : Prop :=
  match l with
  | [] => True
  | false :: r => forgood r
  | true :: r => Forall (eq true) r
  end.
Lemma alltrue_suffix : forall a b, suffix a b -> Forall (eq true) b -> Forall (eq true) a.
Proof. intros a b [p ->] H. apply Forall_app in H. tauto. Qed.
Lemma alltrue_forgood : forall a, Forall (eq true) a -> forgood a.
Proof. intros [|[|] a] H; cbn; auto; [now inversion H|inversion H; discriminate]. Qed.
Lemma forgood_suffix : forall a b, suffix a b -> forgood b -> forgood a.
Proof.
  intros a b [p ->]. induction p as [|[|] p IH]; cbn [app forgood]; auto.
  intros H. apply Forall_app in H. apply alltrue_forgood. tauto.
Qed.

(** ** Marshal *)
Definition mfaults (s : mst) : list bool := w_faults (m_w s).
Definition mclean (s : mst) : mst :=
  mkmst (mkwst (w_out (m_w s)) (w_octet (m_w s)) (w_width (m_w s)) []) (m_wbits s).
Definition wclean (s : wst) : wst := mkwst (w_out s) (w_octet s) (w_width s) [].

(** the step uses up a first part of the script; when the script fails for good,
    either the step does what it does when no call fails, or a call has failed
    and all that are left fail *)
Definition lock {S A} (fl : S -> list bool) (cl : S -> S) (m : M S A) : Prop := forall s,
  suffix (fl (snd (m s))) (fl s) /\
  (forgood (fl s) -> m (cl s) = (fst (m s), cl (snd (m s))) \/ (In true (fl s) /\ Forall (eq true) (fl (snd (m s))))).

Section Lock.
  Context {S : Type}.
  Variable fl : S -> list bool.
  Variable cl : S -> S.
  Lemma lock_ret : forall A (a : A), lock fl cl (ret a).
  Proof. intros A a s. split; [apply suffix_refl|]. intros _. now left. Qed.
  Lemma lock_fail : forall A e, lock fl cl (@fail S A e).
  Proof. intros A e s. split; [apply suffix_refl|]. intros _. now left. Qed.
  Lemma lock_panic : forall A, lock fl cl (@panic S A).
  Proof. intros A s. split; [apply suffix_refl|]. intros _. now left. Qed.
  Lemma lock_bind : forall A B (m : M S A) (k : A -> M S B), lock fl cl m -> (forall a, lock fl cl (k a)) ->
    lock fl cl (bind m k).
  Proof.
    intros A B m k Hm Hk s. destruct (Hm s) as [S1 G1]. unfold bind.
    destruct (m s) as [[a|e| |] s1] eqn:E; cbn [fst snd] in *.
    2-4: (split; [exact S1|]; intros F; destruct (G1 F) as [G|G]; [left; rewrite G; reflexivity|right; exact G]).
    destruct (Hk a s1) as [S2 G2]. split; [eapply suffix_trans; eauto|].
    intros F. destruct (G1 F) as [G|[I G]].
    - rewrite G. destruct (G2 (forgood_suffix _ _ S1 F)) as [Q|[I Q]]; [left; exact Q|right].
      split; [eapply suffix_in; eauto|exact Q].
    - right. split; [exact I|]. eapply alltrue_suffix; eauto.
  Qed.
  Lemma lock_ext : forall A (m m' : M S A), (forall s, m s = m' s) -> lock fl cl m -> lock fl cl m'.
  Proof. intros A m m' E H s. rewrite <- !E. apply H. Qed.
  Lemma lock_loop : forall A (body : A -> M S A), (forall a, lock fl cl (body a)) -> forall n a, lock fl cl (loopN n body a).
  Proof.
    intros A body Hb n a. destruct n as [|p]; cbn [loopN]; [apply lock_ret|].
    revert a. induction p as [p IH|p IH|]; intros a; cbn [loopP]; auto.
    - apply lock_bind; auto. intros x. apply lock_bind; auto.
    - apply lock_bind; auto.
  Qed.
End Lock.
Notation lockw := (lock w_faults wclean).
Notation lockm := (lock mfaults mclean).

Lemma lock_under : forall p, lockw (under_write p).
Proof.
  intros p [o c w f]. unfold under_write. cbn [w_faults]. destruct f as [|[|] f]; cbn [fst snd w_faults].
  - split; [apply suffix_refl|]. intros _. now left.
  - split; [apply suffix_cons, suffix_refl|]. intros F. right. split; [now left|exact F].
  - split; [apply suffix_cons, suffix_refl|]. intros _. now left.
Qed.
Lemma lock_write : forall p, lockw (wr_write p).
Proof.
  intros p s. unfold wr_write. cbn [wclean w_width]. destruct (w_width s =? 0); [apply lock_under|].
  split; [apply suffix_refl|]. intros _. now left.
Qed.
Lemma lock_bit : forall b, lockw (write_bit b).
Proof.
  intros b s. unfold write_bit. cbn [wclean w_width w_octet w_out w_faults].
  set (oct := if b then _ else _). destruct (w_width s + 1 =? 8).
  - destruct (lock_under [N2b oct] (mkwst (w_out s) oct (w_width s + 1) (w_faults s))) as [S1 G1].
    unfold wclean in G1. cbn [w_out w_octet w_width w_faults] in *.
    destruct (under_write [N2b oct] (mkwst (w_out s) oct (w_width s + 1) (w_faults s))) as [[y|e| |] s2]; cbn [fst snd] in *;
      (split; [exact S1|]; intros F; destruct (G1 F) as [G|G]; [left; rewrite G; reflexivity|right; exact G]).
  - split; [apply suffix_refl|]. intros _. now left.
Qed.
Lemma lock_bits : forall d w, lockw (write_bits d w).
Proof.
  intros d w. unfold write_bits. destruct (_ <=? _); [|apply lock_ret].
  induction (skipN (lenN (bits_of_bytes d) - w) (bits_of_bytes d)) as [|b l IH]; cbn [write_bit_list]; [apply lock_ret|].
  apply lock_bind; [apply lock_bit|intros _; exact IH].
Qed.
Lemma lock_copy : forall p, lockw (wr_copy p).
Proof.
  intros p. unfold wr_copy. generalize (S (List.length p)) as k. intros k. revert p.
  induction k as [|k IH]; intros p; cbn [write_chunks]; [apply lock_ret|].
  destruct p; [apply lock_ret|]. apply lock_bind; [apply lock_write|intros _; apply IH].
Qed.
Lemma lock_lift : forall A (m : M wst A), lockw m -> lockm (lift_w m).
Proof.
  intros A m Hm s. destruct (Hm (m_w s)) as [S1 G1]. unfold lift_w, mfaults, mclean. cbn [m_w m_wbits].
  destruct (m (m_w s)) as [r w]; cbn [fst snd] in *. split; [exact S1|]. intros F.
  destruct (G1 F) as [G|G]; [left|right; exact G]. unfold wclean in G at 1. rewrite G. reflexivity.
Qed.
Lemma lock_add : forall n, lockm (add_wbits n).
Proof. intros n s. split; [apply suffix_refl|]. intros _. now left. Qed.
Lemma lock_put : forall b size, lockm (put_bits b size).
Proof. intros. apply lock_bind; [apply lock_lift, lock_bits|intros _; apply lock_add]. Qed.
Lemma lock_chunks : forall size val adj, lockm (put_chunks size val adj).
Proof.
  intros size val adj. unfold put_chunks. apply lock_loop. intros i. cbv zeta.
  apply lock_bind; [apply lock_put|intros _; apply lock_ret].
Qed.
Lemma lock_iter : forall g (l : list val), (forall x, lockm (g x)) -> lockm (iter_list g l).
Proof. intros g l H. induction l as [|x l IH]; cbn [iter_list]; [apply lock_ret|]. apply lock_bind; auto. Qed.
Lemma lock_ignore : forall A (m : M mst A), lockm m -> lockm (ignore_err m).
Proof.
  intros A m Hm s. destruct (Hm s) as [S1 G1]. unfold ignore_err.
  destruct (m s) as [[a|e| |] s1]; cbn [fst snd] in *;
    (split; [exact S1|]; intros F; destruct (G1 F) as [G|G]; [left; rewrite G; reflexivity|right; exact G]).
Qed.
Lemma lock_string : forall bs l, lockm (marshal_string bs l).
Proof.
  intros bs l. unfold marshal_string. apply lock_bind.
  - induction l as [|b l IH]; cbn [put_bytes]; [apply lock_ret|]. apply lock_bind; [apply lock_put|auto].
  - intros _. destruct bs; [apply lock_ret|apply lock_put].
Qed.
Lemma lock_hook : forall h ver self, lockm (on_write h ver self).
Proof.
  intros h ver self.
  assert (U : forall l, lockm (util_write_string l)).
  { intros l. apply lock_bind; [apply lock_lift, lock_write|intros; apply lock_lift, lock_write]. }
  destruct h; cbn [on_write]; try apply lock_ret.
  - destruct (ver =? 0); [apply lock_ret|]. cbv zeta. repeat (apply lock_bind; [apply U|intros _]). apply lock_ret.
  - destruct (_ && _); [apply lock_fail|apply lock_ret].
Qed.
Lemma marshal_lock : forall rn root ctx,
  (forall t f size len v, lockm (marshal_val rn root ctx f size len t v)) /\
  (forall fs sname cfo self, lockm (marshal_flds rn root ctx sname cfo self fs)).
Proof.
  intros rn root ctx. apply sty_flds_mutind.
  - intros w f size len v. destruct v; try apply lock_panic. cbn [marshal_val]. unfold marshal_uint.
    destruct (f_varint f).
    + apply lock_ignore. unfold write_uvarint. repeat (apply lock_bind; [apply lock_put|intros _]). apply lock_put.
    + apply lock_bind; [apply lock_chunks|intros; apply lock_ret].
  - intros w f size len v. destruct v; try apply lock_panic. cbn [marshal_val]. unfold marshal_int.
    destruct (f_varint f); [apply lock_fail|]. apply lock_bind; [apply lock_chunks|intros; apply lock_ret].
  - intros f size len v. destruct v; try apply lock_panic. apply lock_put.
  - intros f size len v. destruct v; try apply lock_panic. apply lock_string.
  - intros n u IH f size len v. destruct v; try apply lock_panic. cbn [marshal_val]. apply lock_iter. intros x. apply IH.
  - intros u IH f size len v. destruct v as [| | | |l| |]; try apply lock_panic. cbn [marshal_val].
    destruct (negb (len =? LengthUnlimited) && (lenN l <? len)); [apply lock_fail|]. cbv zeta.
    set (n := if len =? LengthUnlimited then lenN l else len).
    assert (G1 : lockm (lift_w (wr_copy (map (fun x => N2b (as_uint (Some x))) (takeN n l))) ;;; add_wbits (n * 8))).
    { apply lock_bind; [apply lock_lift, lock_copy|intros _; apply lock_add]. }
    assert (G2 : lockm (iter_list (fun x => ignore_err (marshal_val rn root ctx f size len u x)) (takeN n l))).
    { apply lock_iter. intros x. apply lock_ignore, IH. }
    intros s. change (m_wbits (mclean s)) with (m_wbits s).
    destruct (is_u8 u && (size =? 8) && (m_wbits s mod 8 =? 0)); [apply G1|apply G2].
  - intros u IH f size len v. destruct v as [| | | | |[x|]|]; try apply lock_panic. cbn [marshal_val]. apply IH.
  - intros name cfo fs IH f size len v. destruct v; try apply lock_panic. apply IH.
  - intros sname cfo self. apply lock_ret.
  - intros f t IHt rest IHr sname cfo self. rewrite marshal_flds_cons. cbv zeta.
    destruct (resolve_size _ _ f) as [size|]; [|apply lock_panic].
    destruct (resolve_len _ _ f) as [len|]; [|apply lock_panic].
    apply lock_bind; [|intros _; apply IHr].
    destruct (is_target _ _ _ _ _); [|apply lock_ret].
    apply lock_bind; [apply lock_hook|]. intros wo. apply lock_bind; [apply lock_add|]. intros _.
    destruct (snd wo); [apply lock_ret|]. destruct (lookup (f_name f) self); [|apply lock_panic]. apply IHt.
Qed.

(** ** The Writer *)
Definition ffaults (f : ofile) : list bool := map call_fails (o_faults f).
Definition fclean (f : ofile) : ofile := mkof (o_data f) (o_pos f) [].
Definition rfaults (w : writer) : list bool := ffaults (wr_file w).
Definition rclean (w : writer) : writer := mkwr (fclean (wr_file w)) (wr_stack w).
Notation locko := (lock ffaults fclean).
Notation lockr := (lock rfaults rclean).

Lemma lock_o_write : forall p, locko (o_write p).
Proof.
  intros p [d q f]. unfold o_write, ffaults. cbn [o_faults]. destruct f as [|[k|] f]; cbn [fst snd o_faults map call_fails].
  - split; [apply suffix_refl|]. intros _. now left.
  - split; [apply suffix_cons, suffix_refl|]. intros F. right. split; [now left|exact F].
  - split; [apply suffix_cons, suffix_refl|]. intros _. now left.
Qed.
Lemma lock_o_tell : locko o_tell.
Proof. intros s. split; [apply suffix_refl|]. intros _. now left. Qed.
Lemma lock_o_seek : forall x, locko (o_seek x).
Proof. intros x s. unfold o_seek. destruct (x <? _); (split; [apply suffix_refl|]; intros _; now left). Qed.
Lemma lock_info : forall bi, locko (write_box_info bi).
Proof.
  intros bi. unfold write_box_info. apply lock_bind; [apply lock_o_tell|]. intros o. cbv zeta.
  apply lock_bind; [apply lock_o_write|]. intros _. apply lock_ret.
Qed.
Lemma lock_lift_o : forall A (m : M ofile A), locko m -> lockr (lift_o m).
Proof.
  intros A m Hm s. destruct (Hm (wr_file s)) as [S1 G1]. unfold lift_o, rfaults, rclean. cbn [wr_file wr_stack].
  destruct (m (wr_file s)) as [r w]; cbn [fst snd] in *. split; [exact S1|]. intros F.
  destruct (G1 F) as [G|G]; [left|right; exact G]. rewrite G. reflexivity.
Qed.
Lemma lock_start : forall bi, lockr (Writer.start_box bi).
Proof.
  intros bi. unfold Writer.start_box. apply lock_bind; [apply lock_lift_o, lock_info|]. intros b s.
  split; [apply suffix_refl|]. intros _. now left.
Qed.
Lemma lock_end : lockr end_box.
Proof.
  intros s. unfold end_box. change (wr_stack (rclean s)) with (wr_stack s).
  destruct (wr_stack s) as [|bi0 rest]; [split; [apply suffix_refl|]; intros _; now left|].
  match goal with |- context [?m (mkwr (wr_file s) rest)] => assert (L : lockr m) end.
  { apply lock_bind; [apply lock_lift_o, lock_o_tell|]. intros e. cbv zeta.
    apply lock_bind; [apply lock_lift_o, lock_o_seek|]. intros _.
    apply lock_bind; [apply lock_lift_o, lock_info|]. intros b2.
    destruct (negb _); [apply lock_fail|]. apply lock_bind; [apply lock_lift_o, lock_o_seek|]. intros _. apply lock_ret. }
  apply (L (mkwr (wr_file s) rest)).
Qed.
Lemma lock_w_chunks : forall k p, lockr (w_chunks k p).
Proof.
  induction k as [|k IH]; intros p; cbn [w_chunks]; [apply lock_ret|].
  destruct p; [apply lock_ret|]. apply lock_bind; [apply lock_lift_o, lock_o_write|intros _; apply IH].
Qed.
Lemma lock_copy_box : forall data bi, lockr (copy_box data bi).
Proof.
  intros data bi. unfold copy_box. destruct (_ <=? bi_offset bi); [apply lock_fail|].
  destruct (_ <=? bi_size bi); [apply lock_fail|]. cbv zeta. apply lock_bind; [apply lock_w_chunks|].
  intros _. destruct (_ =? _); [apply lock_ret|apply lock_fail].
Qed.
Lemma skip_suffix : forall (l : list (option N)) rest, suffix rest (map call_fails l) ->
  map call_fails (skipn (List.length l - List.length rest) l) = rest.
Proof.
  intros l rest [pre E]. rewrite <- skipn_map, E. assert (L : List.length l = (List.length pre + List.length rest)%nat).
  { rewrite <- (map_length call_fails l), E. apply app_length. }
  rewrite L. replace (_ + _ - _)%nat with (List.length pre) by lia. apply skipn_app_2 || rewrite skipn_app, skipn_all, Nat.sub_diag; reflexivity.
Qed.
Lemma lock_marshal : forall t ctx v, lockr (w_marshal t ctx v).
Proof.
  intros t ctx v s. unfold w_marshal, marshal_on. cbn [rclean wr_file fclean o_faults o_data o_pos map].
  fold (ffaults (wr_file s)). destruct (get_box_def std_registry t ctx) as [d|].
  2:{ cbn [fst snd]. unfold rfaults, ffaults. cbn [wr_file o_faults]. rewrite map_length, Nat.sub_diag.
      split; [apply suffix_refl|]. intros _. left. reflexivity. }
  destruct (proj2 (marshal_lock (bd_name d) v ctx) (bd_flds d) (bd_name d) true v (mkmst (new_writer (ffaults (wr_file s))) 0)) as [S1 G1].
  change (mclean (mkmst (new_writer (ffaults (wr_file s))) 0)) with (mkmst (new_writer []) 0) in G1.
  change (mfaults (mkmst (new_writer (ffaults (wr_file s))) 0)) with (ffaults (wr_file s)) in *.
  destruct (marshal_flds _ _ _ _ _ _ _ (mkmst (new_writer (ffaults (wr_file s))) 0)) as [r s1]. cbn [fst snd] in *.
  unfold rfaults, ffaults in *. cbn [wr_file o_faults fst snd].
  rewrite (skip_suffix (o_faults (wr_file s)) (w_faults (m_w s1)) S1). split; [exact S1|].
  intros F. destruct (G1 F) as [G|G]; [left|right; exact G]. rewrite G. unfold rclean, fclean. cbn. reflexivity.
Qed.

(** ** Traversals with two handlers *)
Section Two.
  Context {St V P : Type}.
  Variable Q : Prop.
  Variable Rel : St -> St -> Prop.
  (** broken; broken, and the script used up *)
  Variables B E : St -> Prop.
  Hypothesis EB : forall s, E s -> B s.

  Fixpoint pres (I : St -> Prop) (p : hprog St V P) : Prop :=
    match p with
    | HRet s _ => I s
    | HFail s _ => I s
    | HReadPayload k => forall r, pres I (k r)
    | HReadData k => forall r, pres I (k r)
    | HExpand s _ k => I s /\ forall r s', I s' -> pres I (k r s')
    | HMove _ k => pres I k
    end.
  Fixpoint bad (p : hprog St V P) : Prop :=
    match p with
    | HRet s _ => E s
    | HFail s _ => B s
    | HReadPayload k => forall r, bad (k r)
    | HReadData k => forall r, bad (k r)
    | HExpand s _ k => B s /\ forall r s', B s' -> bad (k r s')
    | HMove _ k => bad k
    end.
  Inductive prel : hprog St V P -> hprog St V P -> Prop :=
  | PRet : forall s t v, Rel s t -> prel (HRet s v) (HRet t v)
  | PFail : forall s t e, Rel s t -> prel (HFail s e) (HFail t e)
  | PPayload : forall k l, (forall r, prel (k r) (l r)) -> prel (HReadPayload k) (HReadPayload l)
  | PExpand : forall s t q k l, Rel s t -> (forall r s' t', Rel s' t' -> prel (k r s') (l r t')) ->
      (forall r s', B s' -> bad (k r s')) -> prel (HExpand s q k) (HExpand t q l)
  | PMove : forall n k l, prel k l -> prel (HMove n k) (HMove n l)
  | PBad : forall k l, Q -> bad k -> prel k l.

  Variable R : registry.
  Variable data : list byte.
  Variables h1 h2 : handler_t St V P.
  Hypothesis h_rel : forall bi p q s t, Rel s t -> prel (h1 bi p q s) (h2 bi p q t).
  Hypothesis h_B : forall bi p q s, B s -> pres B (h1 bi p q s).
  Hypothesis h_E : forall bi p q s, E s -> pres E (h1 bi p q s).

  (** one invariant *)
  Definition keep (I : St -> Prop) {A} (m : M (N * St) A) : Prop := forall x, I (snd x) -> I (snd (snd (m x))).
  Lemma keep_ret : forall I A (a : A), keep I (ret a). Proof. intros I A a x H. exact H. Qed.
  Lemma keep_fail : forall I A e, keep I (@fail _ A e). Proof. intros I A e x H. exact H. Qed.
  Lemma keep_panic : forall I A, keep I (@panic _ A). Proof. intros I A x H. exact H. Qed.
  Lemma keep_bind : forall I A C (m : M (N * St) A) (k : A -> M (N * St) C), keep I m -> (forall a, keep I (k a)) -> keep I (bind m k).
  Proof.
    intros I A C m k Hm Hk x H. unfold bind. specialize (Hm x H). destruct (m x) as [[a|e| |] y]; cbn [snd] in *; auto.
    now apply Hk.
  Qed.
  Lemma keep_lift : forall I A (m : M N A), keep I (lift_s m).
  Proof. intros I A m x H. unfold lift_s. destruct (m (fst x)). exact H. Qed.
  Lemma keep_attempt : forall I A (m : M (N * St) A), keep I m -> keep I (attempt m).
  Proof. intros I A m Hm x H. specialize (Hm x H). unfold attempt. destruct (m x) as [[a|e| |] y]; exact Hm. Qed.
  Lemma keep_run : forall I bi ex, (forall t q, keep I (ex t q)) -> forall p co, pres I p ->
    forall x, I (snd x) -> I (snd (snd (run_handler R data bi ex co p x))).
  Proof.
    intros I bi ex Hex p. induction p as [s v|s e|k IH|k IH|s q k IH|n k IH]; intros co Hp x H; cbn [run_handler pres] in *.
    - exact Hp.
    - exact Hp.
    - apply (keep_bind I _ _ _ _ (keep_attempt I _ _ (keep_lift I _ _))); auto. intros r y Hy. apply IH; auto.
    - apply (keep_bind I _ _ _ _ (keep_attempt I _ _ (keep_lift I _ _))); auto. intros r y Hy. apply IH; auto.
    - destruct Hp as [Hs Hk].
      assert (G : forall y, I (snd y) -> I (snd (snd ((r <- attempt (
          if co =? 0 then
            x <- lift_s (read_payload R data bi) ;;
            let co' := w64 (bi_offset bi + bi_hsize bi + snd x) in
            vs <- attempt (ex (sub64 (bi_offset bi + bi_size bi) co') q) ;;
            ret (co', vs)
          else
            lift_s (s_seek co) ;;;
            vs <- attempt (ex (sub64 (bi_offset bi + bi_size bi) co) q) ;;
            ret (co, vs)) ;;
        s' <- get ;;
        match r with
        | Ok (co', vs) => run_handler R data bi ex co' (k vs (snd s'))
        | Err e => run_handler R data bi ex co (k (Err e) (snd s'))
        | _ => panic
        end) y)))).
      { apply (keep_bind I).
        - apply keep_attempt. destruct (co =? 0).
          + apply keep_bind; [apply keep_lift|]. intros z. cbv zeta. apply keep_bind; [apply keep_attempt, Hex|]. intros vs. apply keep_ret.
          + apply keep_bind; [apply keep_lift|]. intros _. apply keep_bind; [apply keep_attempt, Hex|]. intros vs. apply keep_ret.
        - intros r y Hy. unfold bind at 1, get. destruct r as [[co' vs]|e| |]; try exact Hy; apply IH; auto. }
      apply (G (fst x, s)). exact Hs.
    - apply (IH co Hp (n, snd x)). exact H.
  Qed.
  Lemma keep_structure : forall I : St -> Prop, (forall bi p q s, I s -> pres I (h1 bi p q s)) ->
    forall fuel root total pth ctx q, keep I (read_structure R data h1 fuel root total pth ctx q).
  Proof.
    intros I HI. induction fuel as [|fuel IH]; intros root total pth ctx q; cbn [read_structure]; [intros x H; exact H|].
    destruct (root || (SmallHeaderSize <=? total)).
    2:{ destruct (_ && _); [apply keep_fail|apply keep_ret]. }
    apply keep_bind; [apply keep_attempt, keep_lift|]. intros [bi|e| |]; try apply keep_panic.
    2:{ destruct e; try apply keep_fail. destruct root; [apply keep_ret|apply keep_fail]. }
    destruct (_ && _); [apply keep_fail|]. apply keep_bind.
    - unfold box_internal. apply keep_bind; [apply keep_lift|]. intros b. cbv zeta.
      apply keep_bind; [|intros v; apply keep_bind; [apply keep_lift|intros _; apply keep_ret]].
      intros x H. apply keep_run; auto.
    - intros [v bi']. cbv zeta. apply keep_bind; [apply IH|]. intros vs. apply keep_ret.
  Qed.

  (** both *)
  Definition broke {A} (o : res A * (N * St)) : Prop :=
    match fst o with Ok _ => E (snd (snd o)) | Err _ => B (snd (snd o)) | _ => True end.
  Definition wbroke {A} (o : res A * (N * St)) : Prop :=
    match fst o with Ok _ | Err _ => B (snd (snd o)) | _ => True end.
  Definition same {A} (o1 o2 : res A * (N * St)) : Prop :=
    fst o1 = fst o2 /\ fst (snd o1) = fst (snd o2) /\ Rel (snd (snd o1)) (snd (snd o2)).
  Definition both {A} (o1 o2 : res A * (N * St)) : Prop := same o1 o2 \/ (Q /\ broke o1).
  Definition wboth {A} (o1 o2 : res A * (N * St)) : Prop := same o1 o2 \/ (Q /\ wbroke o1).
  Definition sim {A} (m1 m2 : M (N * St) A) : Prop := forall x y, fst x = fst y -> Rel (snd x) (snd y) -> both (m1 x) (m2 y).
  Definition wsim {A} (m1 m2 : M (N * St) A) : Prop := forall x y, fst x = fst y -> Rel (snd x) (snd y) -> wboth (m1 x) (m2 y).
  Lemma sim_wsim : forall A (m1 m2 : M (N * St) A), sim m1 m2 -> wsim m1 m2.
  Proof.
    intros A m1 m2 H x y H1 H2. destruct (H x y H1 H2) as [G|[q G]]; [left; exact G|right]. split; [exact q|].
    unfold broke, wbroke in *. destruct (fst (m1 x)); auto.
  Qed.
  Lemma sim_ret : forall A (a : A), sim (ret a) (ret a). Proof. intros A a x y H1 H2. left. repeat split; auto. Qed.
  Lemma sim_fail : forall A e, sim (@fail _ A e) (fail e). Proof. intros A a x y H1 H2. left. repeat split; auto. Qed.
  Lemma sim_panic : forall A, sim (@panic _ A) panic. Proof. intros A x y H1 H2. left. repeat split; auto. Qed.
  Lemma sim_lift : forall A (m : M N A), sim (lift_s m) (lift_s m).
  Proof. intros A m x y H1 H2. unfold lift_s. rewrite H1. destruct (m (fst y)) as [r p]. left. repeat split; auto. Qed.
  Lemma sim_try_lift : forall A (m : M N A), sim (attempt (lift_s m)) (attempt (lift_s m)).
  Proof. intros A m x y H1 H2. unfold attempt, lift_s. rewrite H1. destruct (m (fst y)) as [[r|e| |] p]; left; repeat split; auto. Qed.
  Lemma sim_bind : forall A C (m1 m2 : M (N * St) A) (k1 k2 : A -> M (N * St) C), sim m1 m2 -> (forall a, sim (k1 a) (k2 a)) ->
    (forall a, keep E (k1 a)) -> sim (bind m1 k1) (bind m2 k2).
  Proof.
    intros A C m1 m2 k1 k2 Hm Hk HE x y H1 H2. unfold bind. specialize (Hm x y H1 H2).
    destruct (m1 x) as [r1 x1]. destruct (m2 y) as [r2 y1]. destruct Hm as [(G1 & G2 & G3)|(G1 & G3)]; cbn [fst snd] in *.
    - subst r2. destruct r1 as [a|e| |]; [now apply Hk| | |]; left; repeat split; auto.
    - right. split; [exact G1|]. unfold broke in *. destruct r1 as [a|e| |]; cbn [fst snd] in *; auto.
      specialize (HE a x1 G3). destruct (k1 a x1) as [[c|e| |] z]; cbn [fst snd] in *; auto.
  Qed.
  Lemma wsim_bind : forall A C (m1 m2 : M (N * St) A) (k1 k2 : A -> M (N * St) C), wsim m1 m2 -> (forall a, wsim (k1 a) (k2 a)) ->
    (forall a, keep B (k1 a)) -> wsim (bind m1 k1) (bind m2 k2).
  Proof.
    intros A C m1 m2 k1 k2 Hm Hk HE x y H1 H2. unfold bind. specialize (Hm x y H1 H2).
    destruct (m1 x) as [r1 x1]. destruct (m2 y) as [r2 y1]. destruct Hm as [(G1 & G2 & G3)|(G1 & G3)]; cbn [fst snd] in *.
    - subst r2. destruct r1 as [a|e| |]; [now apply Hk| | |]; left; repeat split; auto.
    - right. split; [exact G1|]. unfold wbroke in *. destruct r1 as [a|e| |]; cbn [fst snd] in *; auto.
      specialize (HE a x1 G3). destruct (k1 a x1) as [[c|e| |] z]; cbn [fst snd] in *; auto.
  Qed.
  Lemma wsim_attempt : forall A (m1 m2 : M (N * St) A), wsim m1 m2 -> wsim (attempt m1) (attempt m2).
  Proof.
    intros A m1 m2 Hm x y H1 H2. unfold attempt. specialize (Hm x y H1 H2).
    destruct (m1 x) as [r1 x1]. destruct (m2 y) as [r2 y1]. destruct Hm as [(G1 & G2 & G3)|(G1 & G3)]; cbn [fst snd] in *.
    - subst r2. destruct r1; left; repeat split; auto.
    - right. split; [exact G1|]. unfold wbroke in *. destruct r1; exact G3.
  Qed.

  (** what Expand does before it hands its result to the handler *)
  Definition expand_first (bi : boxinfo) (ex : N -> P -> M (N * St) (list V)) (co : N) (q : P)
    : M (N * St) (res (N * res (list V))) :=
    attempt (
      if co =? 0 then
        x <- lift_s (read_payload R data bi) ;;
        let co' := w64 (bi_offset bi + bi_hsize bi + snd x) in
        vs <- attempt (ex (sub64 (bi_offset bi + bi_size bi) co') q) ;;
        ret (co', vs)
      else
        lift_s (s_seek co) ;;;
        vs <- attempt (ex (sub64 (bi_offset bi + bi_size bi) co) q) ;;
        ret (co, vs)).
  Lemma run_expand : forall bi ex co s q k x, run_handler R data bi ex co (HExpand s q k) x =
    match expand_first bi ex co q (fst x, s) with
    | (Ok (Ok (co', vs)), x') => run_handler R data bi ex co' (k vs (snd x')) x'
    | (Ok (Err e), x') => run_handler R data bi ex co (k (Err e) (snd x')) x'
    | (Ok _, x') => (Panic, x')
    | (Err e, x') => (Err e, x')
    | (Panic, x') => (Panic, x')
    | (OutOfFuel, x') => (OutOfFuel, x')
    end.
  Proof.
    intros. cbn [run_handler]. unfold bind at 1. unfold bind at 1. fold (expand_first bi ex co q).
    destruct (expand_first bi ex co q (fst x, s)) as [[[[co' vs]|e| |]|e| |] x']; reflexivity.
  Qed.
  Lemma keep_first : forall I bi ex co q, (forall t q, keep I (ex t q)) -> keep I (expand_first bi ex co q).
  Proof.
    intros I bi ex co q Hex. apply keep_attempt. destruct (co =? 0).
    - apply keep_bind; [apply keep_lift|]. intros z. cbv zeta. apply keep_bind; [apply keep_attempt, Hex|]. intros vs. apply keep_ret.
    - apply keep_bind; [apply keep_lift|]. intros _. apply keep_bind; [apply keep_attempt, Hex|]. intros vs. apply keep_ret.
  Qed.
  Lemma run_bad : forall bi ex, (forall t q, keep B (ex t q)) -> forall p co x, bad p -> broke (run_handler R data bi ex co p x).
  Proof.
    intros bi ex Hex p. induction p as [s v|s e|k IH|k IH|s q k IH|n k IH]; intros co x Hp; cbn [bad] in Hp.
    - exact Hp.
    - exact Hp.
    - cbn [run_handler]. unfold bind. destruct (attempt _ x) as [[r|e| |] y] eqn:A; try exact I; [now apply IH|].
      exfalso. unfold attempt in A. destruct (lift_s _ x) as [[a|e'| |] z]; discriminate.
    - cbn [run_handler]. unfold bind. destruct (attempt _ x) as [[r|e| |] y] eqn:A; try exact I; [now apply IH|].
      exfalso. unfold attempt in A. destruct (lift_s _ x) as [[a|e'| |] z]; discriminate.
    - destruct Hp as [Hs Hk]. rewrite run_expand. pose proof (keep_first B bi ex co q Hex (fst x, s) Hs) as K.
      destruct (expand_first bi ex co q (fst x, s)) as [[[[co' vs]|e| |]|e| |] x']; cbn [snd] in K; try exact I; try (apply IH; auto).
      exact K.
    - cbn [run_handler]. unfold bind. apply IH. exact Hp.
  Qed.
  Lemma run_sim : forall bi ex1 ex2, (forall t q, sim (ex1 t q) (ex2 t q)) -> (forall t q, keep B (ex1 t q)) ->
    forall p1 p2, prel p1 p2 -> forall co x y, fst x = fst y -> Rel (snd x) (snd y) ->
    both (run_handler R data bi ex1 co p1 x) (run_handler R data bi ex2 co p2 y).
  Proof.
    intros bi ex1 ex2 Hex Hkeep p1 p2 HP.
    induction HP as [s t v H|s t e H|k l H IH|s t q k l H H1 IH Hb|n k l H IH|k l q H]; intros co x y Hx Hr.
    - left. repeat split; auto.
    - left. repeat split; auto.
    - cbn [run_handler]. unfold bind, attempt, lift_s. rewrite Hx. destruct (read_payload R data bi (fst y)) as [[r|e| |] p].
      + apply IH; auto.
      + apply IH; auto.
      + left. repeat split; auto.
      + left. repeat split; auto.
    - rewrite !run_expand. assert (W : wsim (expand_first bi ex1 co q) (expand_first bi ex2 co q)).
      { apply wsim_attempt. destruct (co =? 0).
        - apply wsim_bind; [apply sim_wsim, sim_lift| |].
          + intros z. cbv zeta. apply wsim_bind; [apply wsim_attempt, sim_wsim, Hex|intros; apply sim_wsim, sim_ret|intros; apply keep_ret].
          + intros z. cbv zeta. apply keep_bind; [apply keep_attempt, Hkeep|intros; apply keep_ret].
        - apply wsim_bind; [apply sim_wsim, sim_lift| |].
          + intros z. cbv zeta. apply wsim_bind; [apply wsim_attempt, sim_wsim, Hex|intros; apply sim_wsim, sim_ret|intros; apply keep_ret].
          + intros z. cbv zeta. apply keep_bind; [apply keep_attempt, Hkeep|intros; apply keep_ret]. }
      destruct (W (fst x, s) (fst y, t) Hx H) as [(G1 & G2 & G3)|(q0 & G)].
      + destruct (expand_first bi ex1 co q (fst x, s)) as [r1 x']. destruct (expand_first bi ex2 co q (fst y, t)) as [r2 y'].
        cbn [fst snd] in *. subst r2. destruct r1 as [[[co' vs]|e| |]|e| |]; try (left; repeat split; auto; fail); apply IH; auto.
      + right. split; [exact q0|]. unfold wbroke in G.
        destruct (expand_first bi ex1 co q (fst x, s)) as [[[[co' vs]|e| |]|e| |] x']; cbn [fst snd] in *; try exact I;
          try (apply run_bad; auto). exact G.
    - cbn [run_handler]. unfold bind. apply IH; auto.
    - right. split; [exact q|]. apply run_bad; auto.
  Qed.
  Lemma keep_box : forall I : St -> Prop, (forall bi p q s, I s -> pres I (h1 bi p q s)) -> forall rec bi pth q,
    (forall t p c q, keep I (rec t p c q)) -> keep I (box_internal R data h1 rec bi pth q).
  Proof.
    intros I HI rec bi pth q Hrec. unfold box_internal. apply keep_bind; [apply keep_lift|]. intros b. cbv zeta.
    apply keep_bind; [|intros v; apply keep_bind; [apply keep_lift|intros _; apply keep_ret]].
    intros x H. apply keep_run; auto.
  Qed.
  Lemma sim_structure : forall fuel root total pth ctx q,
    sim (read_structure R data h1 fuel root total pth ctx q) (read_structure R data h2 fuel root total pth ctx q).
  Proof.
    pose proof (keep_structure B h_B) as KB. pose proof (keep_structure E h_E) as KE.
    induction fuel as [|fuel IH]; intros root total pth ctx q.
    { intros x y Hx Hr. left. repeat split; auto. }
    cbn [read_structure]. destruct (root || (SmallHeaderSize <=? total)).
    2:{ destruct (_ && _); [apply sim_fail|apply sim_ret]. }
    apply sim_bind; [apply sim_try_lift| |].
    - intros [bi|e| |]; try apply sim_panic.
      2:{ destruct e; try apply sim_fail. destruct root; [apply sim_ret|apply sim_fail]. }
      destruct (_ && _); [apply sim_fail|]. apply sim_bind.
      + unfold box_internal. apply sim_bind; [apply sim_lift| |].
        * intros b. cbv zeta. apply sim_bind.
          -- intros x y Hx Hr. apply run_sim; auto.
          -- intros v. apply sim_bind; [apply sim_lift|intros; apply sim_ret|intros; apply keep_ret].
          -- intros v. apply keep_bind; [apply keep_lift|intros; apply keep_ret].
        * intros b. cbv zeta. apply keep_bind; [|intros v; apply keep_bind; [apply keep_lift|intros _; apply keep_ret]].
          intros x H. apply keep_run; auto.
      + intros [v bi']. cbv zeta. apply sim_bind; [apply IH|intros; apply sim_ret|intros; apply keep_ret].
      + intros [v bi']. cbv zeta. apply keep_bind; [apply KE|intros; apply keep_ret].
    - intros [bi|e| |]; try apply keep_panic.
      2:{ destruct e; try apply keep_fail. destruct root; [apply keep_ret|apply keep_fail]. }
      destruct (_ && _); [apply keep_fail|]. apply keep_bind; [apply keep_box; auto; intros; apply KE|].
      intros [v bi']. cbv zeta. apply keep_bind; [apply KE|intros; apply keep_ret].
  Qed.
  Lemma sim_read : forall q, sim (read_box_structure R data h1 q) (read_box_structure R data h2 q).
  Proof.
    intros q. unfold read_box_structure. apply sim_bind; [apply sim_lift|intros _; apply sim_structure|].
    intros _. apply keep_structure, h_E.
  Qed.
End Two.

(** ** edit *)
Definition efaults (s : est) : list bool := rfaults (e_w s).
Definition eclean (s : est) : est := mkest (rclean (e_w s)) (e_panic s).
Section Edit.
  Variable faults : list bool.
  Definition Qf : Prop := In true faults.
  Definition Re (s t : est) : Prop := t = eclean s /\ suffix (efaults s) faults /\ forgood (efaults s).
  Definition Be (s : est) : Prop := Forall (eq true) (efaults s).
  Definition Ee (s : est) : Prop := efaults s = [].
  Lemma Ee_Be : forall s, Ee s -> Be s.
  Proof. intros s H. unfold Ee, Be in *. rewrite H. constructor. Qed.

  Lemma suffix_nil : forall A (a : list A), suffix a [] -> a = [].
  Proof. intros A a [p H]. symmetry in H. apply app_eq_nil in H. tauto. Qed.

  Lemma pres_call : forall (I : est -> Prop) A (m : M writer A) s k,
    (forall a w b, I (mkest w b) -> pres I (k a (mkest w b))) ->
    (forall s t, suffix (efaults t) (efaults s) -> I s -> I t) ->
    lockr m -> I s -> pres I (@call A m s k).
  Proof.
    intros I A m s k Hk HI L H. unfold call. destruct (L (e_w s)) as [S1 _].
    destruct (m (e_w s)) as [[a|e| |] w]; cbn [snd] in S1.
    - apply Hk. eapply HI; [|exact H]. exact S1.
    - eapply HI; [|exact H]. exact S1.
    - eapply HI; [|exact H]. exact S1.
    - eapply HI; [|exact H]. exact S1.
  Qed.
  Lemma pres_edit : forall (I : est -> Prop), (forall s t, suffix (efaults t) (efaults s) -> I s -> I t) ->
    forall cfg data bi p q s, I s -> pres I (edit_handler_on cfg data bi p q s).
  Proof.
    intros I HI cfg data bi p q s H. unfold edit_handler_on.
    destruct (boxes_exist _ _); [exact H|]. destruct (_ || _).
    - apply pres_call; [|exact HI|apply lock_copy_box|exact H]. intros a w b G. exact G.
    - apply pres_call; [|exact HI|apply lock_start|exact H]. intros a w b G. cbn [pres]. intros [[[d x] n]|e| |]; try exact G.
      apply pres_call; [|exact HI|apply lock_marshal|exact G]. intros a2 w2 b2 G2. cbn [pres]. split; [exact G2|].
      intros [vs|e| |] s' G3; try exact G3. apply pres_call; [|exact HI|apply lock_end|exact G3]. intros a4 w4 b4 G4. exact G4.
  Qed.
  Lemma pres_B : forall cfg data bi p q s, Be s -> pres Be (edit_handler_on cfg data bi p q s).
  Proof. apply pres_edit. intros s t S H. eapply alltrue_suffix; eauto. Qed.
  Lemma pres_E : forall cfg data bi p q s, Ee s -> pres Ee (edit_handler_on cfg data bi p q s).
  Proof. apply pres_edit. unfold Ee. intros s t S H. rewrite H in S. now apply suffix_nil. Qed.

  (** after a write that failed for good, EndBox fails *)
  Lemma end_broken : forall w, Forall (eq true) (rfaults w) ->
    match end_box w with (Ok _, w') => rfaults w' = [] | _ => True end.
  Proof.
    intros [f st] H. unfold end_box. cbn [wr_stack]. destruct st as [|bi rest]; [exact I|].
    unfold bind, lift_o, o_tell. cbn [wr_file wr_stack]. unfold o_seek.
    match goal with |- context [bi_offset (set_size bi ?n) <? ?m] => destruct (bi_offset (set_size bi n) <? m) end; [|exact I].
    cbn [wr_file wr_stack]. unfold write_box_info, bind, o_tell, o_write. cbn [o_faults o_pos o_data].
    unfold rfaults, ffaults in H. cbn [wr_file] in H.
    destruct (o_faults f) as [|[k|] fs] eqn:F; [|exact I|cbn in H; inversion H; discriminate].
    unfold ret. cbn [wr_file wr_stack o_faults bi_hsize set_size o_data o_pos].
    destruct (negb _); [exact I|]. unfold o_seek. cbn [o_faults o_data o_pos].
    destruct (o_pos f <? _); [|exact I]. unfold rfaults, ffaults. reflexivity.
  Qed.

  Lemma prel_call : forall A (m m2 : M writer A) s t k l, lockr m -> (forall w, m2 (rclean w) = m (rclean w)) ->
    Re s t ->
    (forall a s' t', Re s' t' -> prel Qf Re Be Ee (k a s') (l a t')) ->
    (forall a s', Be s' -> bad Be Ee (k a s')) ->
    prel Qf Re Be Ee (@call A m s k) (call m2 t l).
  Proof.
    intros A m m2 s t k l L M2 (-> & R1 & R2) Hk Hb. unfold call, eclean. cbn [e_w e_panic]. rewrite M2.
    destruct (L (e_w s)) as [S1 G1]. destruct (G1 R2) as [G|[G2 G]].
    - rewrite G. destruct (m (e_w s)) as [r w]. cbn [fst snd] in *.
      assert (K : forall b, Re (mkest w b) (mkest (rclean w) b)).
      { intros b. split; [reflexivity|]. split; [eapply suffix_trans; eauto|]. eapply forgood_suffix; eauto. }
      destruct r; [apply Hk, K| | |]; apply PFail, K.
    - apply PBad; [eapply suffix_in; eauto|].
      destruct (m (e_w s)) as [r w]. cbn [fst snd] in *. destruct r; [apply Hb; exact G| | |]; exact G.
  Qed.
  Lemma rclean_marshal : forall t ctx x w, (fun w : writer => match w_write (snd (marshal std_registry t ctx x [])) w with
       | (Ok _, w') => (fst (marshal std_registry t ctx x []), w') | (Err e, w') => (Err e, w')
       | (Panic, w') => (Panic, w') | (OutOfFuel, w') => (OutOfFuel, w') end) (rclean w) =
     w_marshal t ctx x (rclean w).
  Proof.
    intros t ctx x w. unfold w_marshal, marshal_on, marshal, marshal_def, w_write, lift_o, o_write.
    cbn [rclean wr_file fclean o_faults o_data o_pos map wr_stack].
    destruct (get_box_def std_registry t ctx) as [d|]; [|reflexivity].
    destruct (marshal_flds _ _ _ _ _ _ _ _) as [[u|e| |] s]; cbn [fst snd]; reflexivity.
  Qed.
  Lemma edit_call_marshal : forall t ctx x s k,
    (let (m, out) := marshal std_registry t ctx x [] in
     call (w_write out) s (fun _ s => call (fun w => (m, w)) s k)) =
    call (fun w : writer => match w_write (snd (marshal std_registry t ctx x [])) w with
       | (Ok _, w') => (fst (marshal std_registry t ctx x []), w') | (Err e, w') => (Err e, w')
       | (Panic, w') => (Panic, w') | (OutOfFuel, w') => (OutOfFuel, w') end) s k.
  Proof.
    intros t ctx x s k. destruct (marshal std_registry t ctx x []) as [m out]. cbn [fst snd]. unfold call.
    destruct (w_write out (e_w s)) as [[u|e| |] w]; reflexivity.
  Qed.
  Lemma bad_end : forall s, Be s -> bad Be Ee (call end_box s (fun _ s => HRet s tt)).
  Proof.
    intros s H. unfold call. pose proof (end_broken (e_w s) H) as K. destruct (lock_end (e_w s)) as [S1 _].
    destruct (end_box (e_w s)) as [[a|e| |] w]; cbn [snd] in S1; [exact K| | |]; eapply alltrue_suffix; eauto.
  Qed.
  Lemma bad_marshalled : forall s, Be s -> bad Be Ee (HExpand s tt (fun r s =>
            match r with
            | Ok _ => call end_box s (fun _ s => HRet s tt)
            | Err e => HFail s e
            | _ => HFail s EEOF
            end)).
  Proof.
    intros s H. cbn [bad]. split; [exact H|]. intros [vs|e| |] s' H'; try exact H'. now apply bad_end.
  Qed.
  (** CopyBox drops no error *)
  Definition honest {A} (m : M writer A) : Prop := forall s a s', m s = (Ok a, s') -> m (rclean s) = (Ok a, rclean s').
  Lemma honest_write : forall p, honest (w_write p).
  Proof.
    intros p [[d q f] st] a s' H. unfold w_write, lift_o, o_write, rclean, fclean in *. cbn [wr_file wr_stack o_faults o_data o_pos] in *.
    destruct f as [|[k|] f]; try discriminate; injection H as <- <-; reflexivity.
  Qed.
  Lemma honest_bind : forall A C (m : M writer A) (k : A -> M writer C), honest m -> (forall a, honest (k a)) -> honest (bind m k).
  Proof.
    intros A C m k Hm Hk s a s' H. unfold bind in *. destruct (m s) as [[x|e| |] s1] eqn:E; try discriminate.
    rewrite (Hm _ _ _ E). now apply Hk.
  Qed.
  Lemma honest_ret : forall A (a : A), honest (ret a).
  Proof. intros A a s x s' H. unfold ret in *. now injection H as <- <-. Qed.
  Lemma honest_fail : forall A e, honest (@fail writer A e).
  Proof. intros A e s x s' H. discriminate. Qed.
  Lemma honest_chunks : forall k p, honest (w_chunks k p).
  Proof.
    induction k as [|k IH]; intros p; cbn [w_chunks]; [apply honest_ret|].
    destruct p; [apply honest_ret|]. apply honest_bind; [apply honest_write|intros _; apply IH].
  Qed.
  Lemma honest_copy : forall data bi, honest (copy_box data bi).
  Proof.
    intros data bi. unfold copy_box. destruct (_ <=? bi_offset bi); [apply honest_fail|].
    destruct (_ <=? bi_size bi); [apply honest_fail|]. cbv zeta. apply honest_bind; [apply honest_chunks|].
    intros _. destruct (_ =? _); [apply honest_ret|apply honest_fail].
  Qed.
  Lemma honest_tell : honest (lift_o o_tell).
  Proof. intros s a s' H. unfold lift_o, o_tell in *. injection H as <- <-. reflexivity. Qed.
  Lemma honest_seek : forall x, honest (lift_o (o_seek x)).
  Proof. intros x s a s' H. unfold lift_o, o_seek in *. destruct (x <? _); [|discriminate]. injection H as <- <-. reflexivity. Qed.
  Lemma honest_info : forall bi, honest (lift_o (write_box_info bi)).
  Proof.
    intros bi. assert (L : honest (o <- lift_o o_tell ;; w_write (header_bytes bi) ;;;
       ret (mkbi o (w64 (sub64 (bi_size bi) (bi_hsize bi) + lenN (header_bytes bi))) (lenN (header_bytes bi)) (bi_type bi) (bi_eof bi) ctx0))).
    { apply honest_bind; [apply honest_tell|]. intros o. apply honest_bind; [apply honest_write|]. intros _. apply honest_ret. }
    assert (Q : forall s, lift_o (write_box_info bi) s = (o <- lift_o o_tell ;; w_write (header_bytes bi) ;;;
       ret (mkbi o (w64 (sub64 (bi_size bi) (bi_hsize bi) + lenN (header_bytes bi))) (lenN (header_bytes bi)) (bi_type bi) (bi_eof bi) ctx0)) s).
    { intros s. unfold lift_o, write_box_info, bind, o_tell, w_write, lift_o. cbn [wr_file wr_stack].
      destruct (o_write (header_bytes bi) (wr_file s)) as [[u|e| |] f]; reflexivity. }
    intros s a s' H. rewrite Q in *. now apply L.
  Qed.
  Lemma honest_end : honest end_box.
  Proof.
    intros s a s' H. unfold end_box in *. change (wr_stack (rclean s)) with (wr_stack s).
    destruct (wr_stack s) as [|bi0 rest]; [discriminate|].
    match type of H with ?m (mkwr (wr_file s) rest) = _ => assert (L : honest m) end.
    { apply honest_bind; [apply honest_tell|]. intros e. cbv zeta.
      apply honest_bind; [apply honest_seek|]. intros _.
      apply honest_bind; [apply honest_info|]. intros b2.
      destruct (negb _); [apply honest_fail|]. apply honest_bind; [apply honest_seek|]. intros _. apply honest_ret. }
    exact (L _ _ _ H).
  Qed.
  Lemma prel_call_honest : forall A (m : M writer A) s t k l, lockr m -> honest m -> Re s t ->
    (forall a s' t', Re s' t' -> prel Qf Re Be Ee (k a s') (l a t')) ->
    prel Qf Re Be Ee (@call A m s k) (call m t l).
  Proof.
    intros A m s t k l L Hm (-> & R1 & R2) Hk. unfold call, eclean. cbn [e_w e_panic].
    destruct (L (e_w s)) as [S1 G1].
    assert (K : forall b, Re (mkest (snd (m (e_w s))) b) (mkest (rclean (snd (m (e_w s)))) b)).
    { intros b. split; [reflexivity|]. split; [eapply suffix_trans; eauto|]. eapply forgood_suffix; eauto. }
    destruct (G1 R2) as [G|[G2 G]].
    - rewrite G. destruct (m (e_w s)) as [r w]. cbn [fst snd] in *. destruct r; [apply Hk, K| | |]; apply PFail, K.
    - destruct (m (e_w s)) as [r w] eqn:E. cbn [fst snd] in *. destruct r as [a|e| |].
      + rewrite (Hm _ _ _ E). apply Hk, K.
      + apply PBad; [eapply suffix_in; eauto|]. exact G.
      + apply PBad; [eapply suffix_in; eauto|]. exact G.
      + apply PBad; [eapply suffix_in; eauto|]. exact G.
  Qed.

  Lemma edit_rel : forall cfg data bi p q s t, Re s t ->
    prel Qf Re Be Ee (edit_handler_on cfg data bi p q s) (edit_handler cfg data bi p q t).
  Proof.
    intros cfg data bi p q s t H. unfold edit_handler_on, edit_handler.
    destruct (boxes_exist _ _); [now apply PRet|]. destruct (_ || _).
    { apply prel_call_honest; [apply lock_copy_box|apply honest_copy|exact H|]. intros a s' t' H'. apply PMove, PRet, H'. }
    apply prel_call; [apply lock_start|reflexivity|exact H| |].
    - intros a s1 t1 H1. apply PPayload. intros [[[d x] n]|e| |]; try (apply PFail; exact H1).
      rewrite edit_call_marshal. apply prel_call; [apply lock_marshal| |exact H1| |].
      + intros w. apply rclean_marshal.
      + intros a2 s2 t2 H2. apply PExpand; [exact H2| |].
        * intros [vs|e| |] s3 t3 H3; try (apply PFail; exact H3).
          apply prel_call_honest; [apply lock_end|apply honest_end|exact H3|]. intros a4 s4 t4 H4. now apply PRet.
        * intros [vs|e| |] s3 H3; try exact H3. now apply bad_end.
      + intros a2 s2 H2. now apply bad_marshalled.
    - intros a s1 H1. cbn [bad]. intros [[[d x] n]|e| |]; try exact H1. 
      pose proof (lock_marshal (bi_type bi) (bi_ctx bi) (edit_fields cfg (bi_type bi) x) (e_w s1)) as [S1 _].
      unfold call. destruct (w_marshal _ _ _ (e_w s1)) as [[a2|e| |] w]; cbn [snd] in S1;
        [apply bad_marshalled| | |]; (eapply alltrue_suffix; [exact S1|exact H1]).
  Qed.
End Edit.

Lemma edit_on_for_good : forall cfg data faults,
  forgood (map call_fails faults) ->
  (exists rest, edit_file_on cfg data faults = (edit_file cfg data, rest)) \/
  (In true (map call_fails faults) /\
   match edit_file_on cfg data faults with (Ok _, _, rest) => rest = [] | _ => True end).
Proof.
  intros cfg data faults F. unfold edit_file_on, edit_file.
  pose proof (sim_read (Qf (map call_fails faults)) (Re (map call_fails faults)) Be Ee Ee_Be std_registry data
    (edit_handler_on cfg data) (edit_handler cfg data) (edit_rel _ cfg data) (pres_B cfg data) (pres_E cfg data) tt
    (0, mkest (new_writer_of (mkof [] 0 faults)) false) (0, mkest (new_writer_of (new_ofile [] 0)) false) eq_refl) as H.
  specialize (H (conj eq_refl (conj (suffix_refl _ _) F))).
  destruct (read_box_structure std_registry data (edit_handler_on cfg data) tt _) as [r1 s1].
  destruct (read_box_structure std_registry data (edit_handler cfg data) tt _) as [r2 s2].
  destruct H as [(G1 & G2 & G3 & G4)|(q & G)]; cbn [fst snd] in *.
  - left. exists (o_faults (wr_file (e_w (snd s1)))). subst r2. rewrite G3. cbn [eclean e_w rclean wr_file fclean o_data e_panic].
    destruct (Edit.e_panic (snd s1)); reflexivity.
  - right. split; [exact q|]. unfold broke in G. cbn [fst snd] in G.
    destruct (Edit.e_panic (snd s1)); [exact I|]. destruct r1; try exact I.
    unfold Ee, efaults, rfaults, ffaults in G. now apply map_eq_nil in G.
Qed.
