(** C74: the Writer on a destination whose Write and Seek calls fail. *)
From Verif Require Import Base BaseProofs Schema Registry BoxInfo Writer SpecHeader HeaderProofs SpecTree TreeProofs SpecWriter WriterProofs PropWriter PropWriterSafe Divide DivideFaults DivideFaultsProofs WriterFaults.
Local Open Scope string_scope.
Local Open Scope list_scope.
Local Open Scope N_scope.
Local Open Scope monad_scope.

(** ** operations, on the file and on the Writer *)
(** the operation used calls that succeed and did the same as the other one does when
    no call fails *)
Definition passed (before after : script) : Prop := exists used, before = used ++ after /\ Forall (eq None) used.
Lemma passed_refl : forall f, passed f f. Proof. intros f. now exists []. Qed.
Lemma passed_trans : forall a b c, passed a b -> passed b c -> passed a c.
Proof. intros a b c (u & -> & U) (v & -> & V). exists (u ++ v). rewrite app_assoc. split; [reflexivity|]. apply Forall_app. now split. Qed.
Definition calm_file (f : ofile) : ofile := mkof (o_data f) (o_pos f) [].
Definition calm_writer (w : writer) : writer := mkwr (calm_file (wr_file w)) (wr_stack w).

Section Law.
  Variable S : Type.
  Variable faults_of : S -> script.
  Variable calmed : S -> S.
  (** [m]: with failures, [m2]: without *)
  Definition law {A} (m m2 : M S A) : Prop := forall s,
    (forall a s', m s = (Ok a, s') -> m2 (calmed s) = (Ok a, calmed s') /\ passed (faults_of s) (faults_of s')) /\
    (Forall (eq None) (faults_of s) ->
       fst (m s) = fst (m2 (calmed s)) /\ calmed (snd (m s)) = snd (m2 (calmed s)) /\ Forall (eq None) (faults_of (snd (m s)))).
  Lemma law_ret : forall A (a : A), law (ret a) (ret a).
  Proof. intros A a s. split; [|intros F; now repeat split]. intros b s' H. injection H as <- <-. split; [reflexivity|apply passed_refl]. Qed.
  Lemma law_fail : forall A e, law (@fail S A e) (fail e).
  Proof. intros A e s. split; [intros a s'; discriminate|intros F; now repeat split]. Qed.
  Lemma law_bind : forall A B (m m2 : M S A) (k k2 : A -> M S B), law m m2 -> (forall a, law (k a) (k2 a)) -> law (bind m k) (bind m2 k2).
  Proof.
    intros A B m m2 k k2 Hm Hk s. destruct (Hm s) as [H1 H2]. unfold bind. split.
    - intros b s' H. destruct (m s) as [[a|e| |] s1] eqn:E; try discriminate. destruct (H1 a s1 eq_refl) as [-> P].
      destruct (Hk a s1) as [K _]. destruct (K b s' H) as [E2 P2]. split; [exact E2|now apply (passed_trans _ _ _ P)].
    - intros F. destruct (H2 F) as (E1 & E2 & E3). destruct (m s) as [r s1], (m2 (calmed s)) as [r2 t1]. cbn [fst snd] in *. subst r2 t1.
      destruct r as [a|e| |]; [now apply Hk|now repeat split..].
  Qed.
End Law.
Definition file_law {A} := @law ofile o_faults calm_file A.
Definition writer_law {A} := @law writer (fun w => o_faults (wr_file w)) calm_writer A.

Lemma next_none : forall f, Forall (eq None) f -> fst (next_call f) = true /\ Forall (eq None) (snd (next_call f)).
Proof. intros [|[k|] f] H; inversion H; subst; cbn; [now split|discriminate|now split]. Qed.
Lemma next_ok : forall f, fst (next_call f) = true -> passed f (snd (next_call f)).
Proof. intros [|[k|] f] H; cbn in *; [apply passed_refl|discriminate|]. exists [None]. split; [reflexivity|]. repeat constructor. Qed.
Lemma law_write : forall p, file_law (o_write p) (o_write p).
Proof.
  intros p [d q fl]. unfold o_write, calm_file. cbn [o_data o_pos o_faults]. split.
  - intros a s' H. destruct fl as [|[k|] fl]; [|discriminate|]; injection H as <- <-; (split; [reflexivity|]); cbn [o_faults]; [apply passed_refl|].
    exists [None]. split; [reflexivity|repeat constructor].
  - intros F. destruct fl as [|[k|] fl]; [now repeat split|inversion F; discriminate|]. inversion F. now repeat split.
Qed.
Lemma law_seeking : forall A (m m2 : M ofile A), file_law m m2 -> file_law (seeking m) m2.
Proof.
  intros A m m2 Hm [d q fl]. unfold seeking, calm_file. cbn [o_data o_pos o_faults].
  pose proof (next_none fl) as N1. pose proof (next_ok fl) as N2. destruct (next_call fl) as [ok r]. cbn [fst snd] in *.
  destruct (Hm (mkof d q r)) as [H1 H2]. cbn [o_faults] in *. split.
  - intros a s' H. destruct ok; [|discriminate]. destruct (H1 a s' H) as [E P]. split; [exact E|]. apply (passed_trans _ r); auto.
  - intros F. destruct (N1 F) as [-> F2]. exact (H2 F2).
Qed.
Lemma law_tell : file_law o_tell o_tell.
Proof.
  intros s. split; [|intros F; now repeat split]. intros a s' H. injection H as <- <-. split; [reflexivity|apply passed_refl].
Qed.
Lemma law_seek : forall x, file_law (o_seek x) (o_seek x).
Proof.
  intros x s. unfold o_seek, calm_file. cbn [o_data o_pos o_faults]. destruct (x <? _); (split; [|intros F; now repeat split]); intros a s' H; [|discriminate].
  injection H as <- <-. split; [reflexivity|apply passed_refl].
Qed.
Lemma law_info : forall bi, file_law (write_info bi) (write_box_info bi).
Proof.
  intros bi. apply law_seeking. apply law_bind; [apply law_tell|]. intros o. cbv zeta. apply law_bind; [apply law_write|]. intros _. apply law_ret.
Qed.
Lemma law_lift : forall A (m m2 : M ofile A), file_law m m2 -> writer_law (lift_o m) (lift_o m2).
Proof.
  intros A m m2 Hm [f stk]. destruct (Hm f) as [H1 H2]. unfold lift_o, calm_writer. cbn [wr_file wr_stack] in *. split.
  - intros a s' H. destruct (m f) as [r f1] eqn:E. injection H as -> <-. destruct (H1 a f1 eq_refl) as [E2 P]. rewrite E2. now split.
  - intros F. destruct (H2 F) as (E1 & E2 & E3). destruct (m f) as [r f1], (m2 (calm_file f)) as [r2 f2]. cbn [fst snd wr_file wr_stack] in *. subst. now repeat split.
Qed.
Lemma law_start : forall bi, writer_law (start_box_on bi) (start_box bi).
Proof.
  intros bi. apply law_bind; [apply law_lift, law_info|]. intros bi' [f stk]. split; [|intros F; now repeat split].
  intros a s' H. injection H as <- <-. split; [reflexivity|apply passed_refl].
Qed.
Lemma law_end : writer_law end_box_on end_box.
Proof.
  intros [f stk]. unfold end_box_on, end_box, calm_writer at 1 2 3. cbn [wr_file wr_stack]. destruct stk as [|bi0 stk].
  { split; [intros a s'; discriminate|intros F; now repeat split]. }
  refine (law_bind _ _ _ _ _ _ _ (fun e => _) (fun e => _) (law_lift _ _ _ (law_seeking _ _ _ law_tell)) _ (mkwr f stk)).
  intros e. cbv zeta. apply law_bind; [apply law_lift, law_seeking, law_seek|]. intros _. apply law_bind; [apply law_lift, law_info|]. intros bi2.
  destruct (negb _); [apply law_fail|]. apply law_bind; [apply law_lift, law_seeking, law_seek|]. intros _. apply law_ret.
Qed.
Lemma chunks_write : forall fuel p d q stk, (List.length p < fuel)%nat ->
  w_chunks fuel p (mkwr (mkof d q []) stk) = lift_o (o_write p) (mkwr (mkof d q []) stk).
Proof.
  induction fuel as [|k IH]; intros p d q stk L; [lia|]. cbn [w_chunks]. destruct p as [|x p].
  { unfold ret, lift_o, o_write. cbn [wr_file wr_stack o_faults o_data o_pos overwrite]. change (lenN []) with 0. now rewrite N.add_0_r. }
  set (l := x :: p) in *. unfold bind, w_write, lift_o at 1. unfold o_write at 1. cbn [wr_file wr_stack o_faults o_data o_pos].
  rewrite IH.
  - unfold lift_o, o_write. cbn [wr_file wr_stack o_faults o_data o_pos]. rewrite overwrite_app, takeN_skipN, <- N.add_assoc, <- lenN_app, takeN_skipN. reflexivity.
  - assert (Q : lenN (skipN 32768 l) < lenN l) by (rewrite lenN_skipN; unfold l; rewrite lenN_cons; lia). unfold lenN in Q. lia.
Qed.
Lemma law_writes : forall ps, file_law (o_writes ps) (o_write (List.concat ps)).
Proof.
  assert (G : forall ps, file_law (o_writes ps) (o_writes ps)).
  { induction ps as [|p r IH]; cbn [o_writes]; [apply law_ret|]. apply law_bind; [apply law_write|]. intros _. exact IH. }
  intros ps s. pose proof (G ps s) as H. change (calm_file s) with (mkof (o_data s) (o_pos s) []) in *. rewrite <- writes_concat. exact H.
Qed.
Lemma law_copy : forall split data bi, (forall l, List.concat (split l) = l) -> writer_law (copy_box_on split data bi) (copy_box data bi).
Proof.
  intros split data bi HS. unfold copy_box_on, copy_box. destruct (_ <=? bi_offset bi); [apply law_fail|]. destruct (_ <=? bi_size bi); [apply law_fail|].
  cbv zeta. set (p := takeN _ _). apply law_bind; [|intros _; destruct (_ =? _); [apply law_ret|apply law_fail]].
  pose proof (law_lift _ _ _ (law_writes (split p))) as L. rewrite HS in L. intros s. specialize (L s).
  change (calm_writer s) with (mkwr (mkof (o_data (wr_file s)) (o_pos (wr_file s)) []) (wr_stack s)) in *. rewrite chunks_write by lia. exact L.
Qed.
Lemma law_all : forall split, (forall l, List.concat (split l) = l) -> forall ops, writer_law (exec_all_on split ops) (exec_all ops).
Proof.
  intros split HS. induction ops as [|o r IH]; cbn [exec_all_on exec_all]; [apply law_ret|].
  apply law_bind; [|intros x; apply law_bind; [exact IH|intros xs; apply law_ret]].
  destruct o as [bi|l|src bi|]; cbn [exec_on exec]; (apply law_bind; [|intros x; apply law_ret]).
  - apply law_start.
  - apply law_lift, law_write.
  - now apply law_copy.
  - apply law_end.
Qed.

(** Any calls of StartBox, Write, CopyBox and EndBox, one after the other on any file,
    whichever calls of Write and Seek fail and after however many bytes, and in whatever
    pieces CopyBox copies.  When no method has returned an error, none of the calls they
    made has failed, and results, file and position are what they are when no call fails. *)
Theorem C74_no_silent_failure : forall split ops d pos stk faults outs w',
  (forall l, List.concat (split l) = l) ->
  exec_all_on split ops (mkwr (mkof d pos faults) stk) = (Ok outs, w') ->
  (exists used, faults = used ++ o_faults (wr_file w') /\ Forall (eq None) used) /\
  exec_all ops (mkwr (mkof d pos []) stk) = (Ok outs, mkwr (mkof (o_data (wr_file w')) (o_pos (wr_file w')) []) (wr_stack w')).
Proof.
  intros split ops d pos stk faults outs w' HS H. destruct (law_all split HS ops (mkwr (mkof d pos faults) stk)) as [K _].
  destruct (K outs w' H) as [E P]. split; [exact P|exact E].
Qed.
Print Assumptions C74_no_silent_failure.
(** When no call fails, everything is as in Writer.v, errors and panics as well. *)
Theorem C74_no_failure : forall split ops d pos stk faults,
  (forall l, List.concat (split l) = l) -> Forall (eq None) faults ->
  let x := exec_all_on split ops (mkwr (mkof d pos faults) stk) in
  let y := exec_all ops (mkwr (mkof d pos []) stk) in
  fst x = fst y /\ o_data (wr_file (snd x)) = o_data (wr_file (snd y)) /\ o_pos (wr_file (snd x)) = o_pos (wr_file (snd y)) /\
  wr_stack (snd x) = wr_stack (snd y).
Proof.
  intros split ops d pos stk faults HS F. cbv zeta. destruct (law_all split HS ops (mkwr (mkof d pos faults) stk)) as [_ K].
  destruct (K F) as (E1 & E2 & _). change (calm_writer (mkwr (mkof d pos faults) stk)) with (mkwr (mkof d pos []) stk) in *.
  rewrite <- E2. now repeat split.
Qed.
Print Assumptions C74_no_failure.
(** So a program that writes a tree (C31), and is told of no error, has written it. *)
Theorem C74_tree : forall split c d ops ts outs faults rs w',
  (forall l, List.concat (split l) = l) ->
  writes c (lenN d) ops ts outs -> Forall sized ts -> lenN d + lenN (file_bytes ts) < 2 ^ 63 ->
  exec_all_on split ops (at_end d faults) = (Ok rs, w') ->
  o_data (wr_file w') = d ++ file_bytes ts /\ ended rs = outs.
Proof.
  intros split c d ops ts outs faults rs w' HS W F B H. destruct (C31_writer_tree c d ops ts outs W F B) as (rs2 & E & N).
  destruct (C74_no_silent_failure split ops d (lenN d) [] faults rs w' HS H) as [_ K]. unfold at_end in E. rewrite E in K.
  injection K as -> K1 _ _. split; [symmetry; exact K1|exact N].
Qed.
Print Assumptions C74_tree.

(** ** What a call that fails leaves *)
Lemma writes_prefix : forall ps d q fl x f, o_writes ps (mkof d q fl) = (x, f) ->
  exists k, o_data f = overwrite d q (takeN k (List.concat ps)).
Proof.
  induction ps as [|p r IH]; intros d q fl x f H; cbn [o_writes List.concat] in *.
  { injection H as <- <-. now exists 0. }
  unfold bind in H. unfold o_write at 1 in H. cbn [o_data o_pos o_faults] in H.
  assert (G : forall fl, o_writes r (mkof (overwrite d q p) (q + lenN p) fl) = (x, f) ->
    exists k, o_data f = overwrite d q (takeN k (p ++ List.concat r))).
  { intros fl2 H2. apply IH in H2. destruct H2 as [k H2]. exists (lenN p + k). rewrite H2, overwrite_app, takeN_app_ge by lia.
    replace (lenN p + k - lenN p) with k by lia. reflexivity. }
  destruct fl as [|[k|] fl]; [now apply (G [])| |now apply (G fl)].
  injection H as <- <-. exists (N.min k (lenN p)). cbn [o_data]. f_equal. rewrite takeN_app_le by lia.
  destruct (N.le_ge_cases k (lenN p)) as [L|L]; [now rewrite N.min_l|]. rewrite N.min_r by exact L.
  transitivity p; [|symmetry]; apply takeN_all; lia.
Qed.
Lemma keeps_same : forall w st, holds w st -> keeps st (o_data (wr_file w)).
Proof. intros w [b0 fs] (H & _). rewrite H, <- (app_nil_r (render b0 fs)). apply keeps_render. Qed.
Lemma keeps_exec : forall o w st fl, holds w st -> sizes_ok (abs st) [o] -> len_of st + volume [o] < 2 ^ 63 ->
  keeps st (o_data (wr_file (snd (exec o (mkwr (mkof (o_data (wr_file w)) (o_pos (wr_file w)) fl) (wr_stack w)))))).
Proof.
  intros o w st fl H S V. set (v := mkwr _ _). assert (Hv : holds v st) by (destruct st; exact H).
  destruct (exec_all [o] v) as [r v'] eqn:E. destruct (run_keeps [o] [] v st r v' Hv S V E) as [K _].
  cbn [exec_all] in E. unfold bind, ret in E. destruct (exec o v) as [[a|e| |] v1]; injection E as <- <-; exact K.
Qed.
Lemma fails_keeps : forall split, (forall l, List.concat (split l) = l) -> forall o w st x w',
  holds w st -> sizes_ok (abs st) [o] -> len_of st + volume [o] < 2 ^ 63 ->
  exec_on split o w = (x, w') -> (forall a, x <> Ok a) -> keeps st (o_data (wr_file w')).
Proof.
  intros split HS o w st x w' H S V E N.
  pose proof (keeps_same w st H) as K0. pose proof (fun fl => keeps_exec o w st fl H S V) as K1.
  destruct o as [bi|l|src bi|].
  - cbn [exec_on exec] in *. unfold start_box_on, start_box, bind, lift_o, write_info, seeking, ret in *. cbn [wr_file wr_stack] in *.
    destruct (next_call (o_faults (wr_file w))) as [[|] r]; [|injection E as <- <-; exact K0].
    specialize (K1 r). destruct (write_box_info bi _) as [[b|e| |] f]; cbn [wr_file wr_stack fst snd] in *; injection E as <- <-; exact K1.
  - cbn [exec_on exec] in *. specialize (K1 (o_faults (wr_file w))). unfold w_write, lift_o, bind, ret in *. cbn [wr_file wr_stack] in *.
    replace (mkof (o_data (wr_file w)) (o_pos (wr_file w)) (o_faults (wr_file w))) with (wr_file w) in K1 by now destruct (wr_file w).
    destruct (o_write l (wr_file w)) as [[b|e| |] f]; cbn [wr_file wr_stack fst snd] in *; injection E as <- <-; exact K1.
  - cbn [exec_on] in E. unfold copy_box_on, bind, fail in E.
    destruct (_ <=? bi_offset bi); [injection E as <- <-; exact K0|]. destruct (_ <=? bi_size bi); [injection E as <- <-; exact K0|].
    fold (cut src bi) in E. unfold lift_o in E.
    destruct (o_writes (split (cut src bi)) (wr_file w)) as [r f] eqn:W.
    assert (D : o_data (wr_file w') = o_data f).
    { destruct r as [[]|e| |]; [|injection E as <- <-; reflexivity..]. destruct (_ =? bi_size bi); injection E as <- <-; reflexivity. }
    replace (wr_file w) with (mkof (o_data (wr_file w)) (o_pos (wr_file w)) (o_faults (wr_file w))) in W by now destruct (wr_file w).
    destruct (writes_prefix _ _ _ _ _ _ W) as [k Hk]. rewrite HS in Hk. rewrite D, Hk.
    exact (keeps_exec (OPut (takeN k (cut src bi))) w st [] H I ltac:(cbn [volume] in *; rewrite lenN_takeN; lia)).
  - destruct w as [[d q fl] stk]. cbn [exec_on exec wr_file wr_stack o_data o_pos o_faults] in *.
    unfold end_box_on, end_box, bind, lift_o, write_info, ret, fail in *. cbn [wr_stack] in *.
    destruct stk as [|bi0 stk]; [injection E as <- <-; exact K0|].
    cbv zeta in *. unfold seeking in E. cbn [wr_file wr_stack o_data o_pos o_faults o_tell] in *.
    destruct (next_call fl) as [[|] r1]; [|injection E as <- <-; exact K0].
    cbn [wr_file wr_stack o_data o_pos o_faults o_tell] in *. unfold o_tell in *. cbn [wr_file wr_stack o_data o_pos o_faults o_tell] in *.
    destruct (next_call r1) as [[|] r2]; [|injection E as <- <-; exact K0].
    unfold o_seek at 1 in K1. unfold o_seek at 1 in E. destruct (bi_offset _ <? _); [|injection E as <- <-; exact K0].
    cbn [wr_file wr_stack o_data o_pos o_faults] in *. destruct (next_call r2) as [[|] r3]; [|injection E as <- <-; exact K0].
    specialize (K1 r3). cbn [wr_file wr_stack o_data o_pos o_faults] in *.
    destruct (write_box_info _ _) as [[b|e| |] f]; cbn [wr_file wr_stack fst snd] in *; [|injection E as <- <-; exact K1..].
    destruct (negb _); [injection E as <- <-; exact K1|]. unfold o_seek in *. cbn [wr_file wr_stack fst snd o_data o_pos o_faults] in *.
    destruct (next_call (o_faults f)) as [[|] r4]; destruct (q <? _); cbn [wr_file wr_stack fst snd o_data o_pos o_faults] in *;
      injection E as <- <-; exact K1.
Qed.
Lemma sizes_prefix : forall a b st, sizes_ok st (a ++ b) -> sizes_ok st a.
Proof.
  induction a as [|o a IH]; intros b st H; [exact I|]. destruct o as [bi|l|src bi|]; cbn [app sizes_ok] in *.
  - destruct H as [H1 H2]. split; [exact H1|]. now apply (IH b).
  - now apply (IH b).
  - now apply (IH b).
  - destruct st as [|[f n] st]; [exact I|]. destruct H as [H1 H2]. split; [exact H1|]. now apply (IH b).
Qed.
Lemma volume_app : forall a b, volume (a ++ b) = volume a + volume b.
Proof. induction a as [|o a IH]; intros b; [reflexivity|]. destruct o; cbn [app volume]; rewrite IH; lia. Qed.
Lemma run_keeps_on : forall split, (forall l, List.concat (split l) = l) -> forall ops w st r w', holds w st -> sizes_ok (abs st) ops ->
  len_of st + volume ops < 2 ^ 63 -> exec_all_on split ops w = (r, w') -> keeps st (o_data (wr_file w')).
Proof.
  intros split HS. induction ops as [|o ops IH]; intros w st r w' H S V E.
  { cbn in E. injection E as <- <-. now apply keeps_same. }
  cbn [exec_all_on] in E. unfold bind, ret in E. destruct (exec_on split o w) as [x w1] eqn:E1.
  assert (S1 : sizes_ok (abs st) [o]) by (apply (sizes_prefix [o] ops); exact S).
  assert (V1 : len_of st + volume [o] < 2 ^ 63).
  { change (o :: ops) with ([o] ++ ops) in V. rewrite volume_app in V. clear - V. lia. }
  destruct x as [y|e| |]; [|injection E as <- <-; apply (fails_keeps split HS o w st _ w1 H S1 V1 E1); discriminate..].
  destruct (law_all split HS [o] w) as [L _]. destruct (L [y] w1) as [E2 _].
  { cbn [exec_all_on]. unfold bind, ret. now rewrite E1. }
  assert (HC : holds (calm_writer w) st) by (destruct st; exact H).
  destruct (run_keeps [o] ops (calm_writer w) st (Ok [y]) (calm_writer w1) HC S V E2) as [_ (st1 & H1 & K1 & S2 & V2 & _)].
  assert (HC1 : holds w1 st1) by (destruct st1; exact H1).
  destruct (exec_all_on split ops w1) as [r2 w2] eqn:E3. pose proof (IH w1 st1 r2 w2 HC1 S2 V2 E3) as K.
  apply K1. destruct r2; injection E as <- <-; exact K.
Qed.
(** C33 with failing Seek calls: a program, split anywhere into a part that succeeds and
    a part that may stop at any call.  The data that was there is unchanged, every box
    that EndBox has closed is whole, and ReadBoxInfo returns for it what EndBox did. *)
Theorem C74_finished_data_stays : forall split d faults ops1 ops2 outs w1 r w2,
  (forall l, List.concat (split l) = l) ->
  sizes_ok [] (ops1 ++ ops2) -> lenN d + volume (ops1 ++ ops2) < 2 ^ 62 ->
  exec_all_on split ops1 (at_end d faults) = (Ok outs, w1) -> exec_all_on split ops2 w1 = (r, w2) ->
  takeN (lenN d) (o_data (wr_file w2)) = d /\
  forall bi, In bi (ended outs) ->
    (exists bytes, PropWriterSafe.whole bi bytes /\ lenN bytes = bi_size bi /\
       takeN (bi_size bi) (skipN (bi_offset bi) (o_data (wr_file w1))) = bytes /\
       takeN (bi_size bi) (skipN (bi_offset bi) (o_data (wr_file w2))) = bytes) /\
    (lenN (o_data (wr_file w2)) < 2 ^ 63 -> bi_eof bi = false ->
       fst (read_box_info (o_data (wr_file w2)) (bi_offset bi)) = Ok bi).
Proof.
  intros split d faults ops1 ops2 outs w1 r w2 HS S V E1 E2.
  change (2 ^ 62) with 4611686018427387904 in V.
  assert (H0 : holds (at_end d []) (d, [])) by (repeat split).
  destruct (law_all split HS ops1 (at_end d faults)) as [L _]. destruct (L outs w1 E1) as [E _].
  change (calm_writer (at_end d faults)) with (at_end d []) in E.
  destruct (run_keeps ops1 ops2 _ (d, []) _ _ H0 S ltac:(change (2 ^ 63) with 9223372036854775808; unfold len_of; cbn [fst snd render]; lia) E)
    as [_ (st & H1 & K1 & S1 & V1 & W1)].
  assert (HC : holds w1 st) by (destruct st; exact H1).
  pose proof (run_keeps_on split HS ops2 w1 st r w2 HC S1 V1 E2) as K2.
  pose proof (keeps_same w1 st HC) as K1'.
  split.
  - apply K1 in K2. destruct K2 as (tl & -> & _). now apply takeN_app_exact.
  - intros bi I. rewrite Forall_forall in W1. destruct (W1 bi I) as (bytes & Wh & Fx).
    assert (LB : lenN bytes = bi_size bi).
    { destruct Wh as (f & content & -> & Ht & Hs & _). rewrite lenN_app, lenN_header by exact Ht. symmetry. exact Hs. }
    split; [exists bytes; rewrite <- LB; auto|].
    intros L2 EO. specialize (Fx _ K2). destruct Wh as (f & content & B & Ht & Hs & Hh & He & Hc & Hsm).
    assert (SK : exists y, skipN (bi_offset bi) (o_data (wr_file w2)) = bytes ++ y).
    { exists (skipN (lenN bytes) (skipN (bi_offset bi) (o_data (wr_file w2)))). rewrite <- Fx at 1. now rewrite takeN_skipN. }
    destruct SK as [y SK].
    assert (SL : bi_size bi < 2 ^ 63).
    { apply (f_equal (@lenN _)) in SK. rewrite lenN_skipN, lenN_app, LB in SK. clear - SK L2. lia. }
    change (2 ^ 63) with 9223372036854775808 in SL.
    assert (IH : iso_header (skipN (bi_offset bi) (o_data (wr_file w2))) (Ok (bi_size bi, bi_hsize bi, bi_type bi, bi_eof bi))).
    { rewrite SK, B, <- app_assoc, Hh, He, Hs. destruct f; cbn [header hsize eof_of] in *.
      - rewrite <- app_assoc. apply ih_small; [|exact Ht]. specialize (Hsm eq_refl). lia.
      - rewrite <- !app_assoc. apply ih_large; [|exact Ht]. change (2 ^ 64) with 18446744073709551616. lia.
      - congruence. }
    destruct (read_box_info_spec _ _ _ L2 IH) as (p' & R & _). rewrite R. cbn [fst].
    destruct bi as [o s h t e c]. cbn in Hc |- *. now rewrite Hc.
Qed.
Print Assumptions C74_finished_data_stays.

(** The program of C31, on a destination where one of the 50 calls fails: in CopyBox,
    StartBox, Write and EndBox; the last is the Seek back in EndBox.  Where the call
    after the last one would fail, all is well. *)
Definition bytewise (l : list byte) : list (list byte) := map (fun b => [b]) l.
Definition on_failing (n : nat) := exec_all_on bytewise prog (at_end [] (repeat None n ++ [Some 1])).
Example C74_case :
  (forall l, List.concat (bytewise l) = l) /\
  map (fun n => fst (on_failing n)) [0; 15; 16; 17; 22; 23; 24; 25; 26; 49]%nat =
    [Err EWrite; Err EWrite; Err ESeek; Err EWrite; Err EWrite; Err ESeek; Err ESeek; Err ESeek; Err EWrite; Err ESeek] /\
  ended (match fst (on_failing 50) with Ok rs => rs | _ => [] end) = prog_out /\
  o_data (wr_file (snd (on_failing 50))) = file_bytes prog_tree /\
  writes true 0 prog prog_tree prog_out /\ Forall sized prog_tree.
Proof.
  split; [induction l as [|b l IH]; [reflexivity|]; unfold bytewise in *; cbn [map List.concat]; now rewrite IH|].
  split; [vm_compute; reflexivity|]. split; [vm_compute; reflexivity|]. split; [vm_compute; reflexivity|].
  destruct C31_case as (W & F & _). now split.
Qed.
(** C33_case with each of the five calls that EndBox makes for [moov] failing. *)
Example C74_case_stays :
  sizes_ok [] (early ++ late) /\ volume (early ++ late) = 86 /\
  map (fun n => match exec_all_on bytewise early (at_end [] (repeat None n ++ [Some 3])) with
                | (Ok outs, w1) => let (r, w2) := exec_all_on bytewise late w1 in
                    (match r with Err e => Some e | _ => None end, ended outs,
                     lenN (o_data (wr_file w2)), takeN 24 (skipN 16 (o_data (wr_file w2))))
                | _ => (None, [], 0, [])
                end) [35; 36; 37; 38; 39]%nat =
    let closed := [mkbi 32 11 8 (bt "free") false ctx0; mkbi 43 16 16 (bt "skip") false ctx0] in
    let before := hex "000000016d6f6f7600000000000000000000000b66726565" in
    [ (Some ESeek, closed, 59, before); (Some ESeek, closed, 59, before); (Some ESeek, closed, 59, before);
      (Some EWrite, closed, 59, before); (Some ESeek, closed, 59, hex "000000016d6f6f76000000000000002b0000000b66726565") ].
Proof.
  split; [vm_compute; repeat split; intros; try discriminate; reflexivity|].
  split; vm_compute; reflexivity.
Qed.
