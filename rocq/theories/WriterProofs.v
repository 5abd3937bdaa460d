(** The state of the Writer in the course of a program. *)
From Verif Require Import Base BaseProofs Schema Registry BoxInfo ReadTree Writer HeaderProofs SpecTree TreeProofs Flow SpecWriter.
Local Open Scope string_scope.
Local Open Scope list_scope.
Local Open Scope N_scope.
Local Open Scope monad_scope.

(** ** Open boxes *)
Record frame := mkfr { fr_info : boxinfo; fr_hdr : list byte; fr_body : list byte }.
Definition fr_bytes (f : frame) : list byte := fr_hdr f ++ fr_body f.
(** contents of the file: what precedes the first open box, then the open boxes;
    frames are innermost first *)
Fixpoint render (b0 : list byte) (fs : list frame) : list byte :=
  match fs with [] => b0 | f :: r => render b0 r ++ fr_bytes f end.
Definition add (l : list byte) (st : list byte * list frame) : list byte * list frame :=
  match st with
  | (b0, []) => (b0 ++ l, [])
  | (b0, f :: r) => (b0, mkfr (fr_info f) (fr_hdr f) (fr_body f ++ l) :: r)
  end.
Lemma render_add : forall l b0 fs, let (b, f) := add l (b0, fs) in render b f = render b0 fs ++ l.
Proof.
  intros l b0 [|f r]; cbn [add render]; [reflexivity|]. unfold fr_bytes. cbn. now rewrite !app_assoc.
Qed.

Definition fr_form (f : frame) : form :=
  if bi_eof (fr_info f) then ToEnd else if bi_hsize (fr_info f) =? 16 then Large else Small.
Definition fr_ok (below : list byte) (f : frame) : Prop :=
  let bi := fr_info f in
  bi_offset bi = lenN below /\ bi_hsize bi = hsize (fr_form f) /\ lenN (fr_hdr f) = hsize (fr_form f) /\
  lenN (bi_type bi) = 4 /\ bi_ctx bi = ctx0.
Fixpoint frs_ok (b0 : list byte) (fs : list frame) : Prop :=
  match fs with [] => True | f :: r => fr_ok (render b0 r) f /\ frs_ok b0 r end.
(** the Writer's state *)
Definition holds (w : writer) (st : list byte * list frame) : Prop :=
  let (b0, fs) := st in
  o_data (wr_file w) = render b0 fs /\ o_pos (wr_file w) = lenN (render b0 fs) /\
  wr_stack w = map fr_info fs /\ frs_ok b0 fs.
Definition fr_close (f : frame) : list byte :=
  header (fr_form f) (bi_type (fr_info f)) (lenN (fr_body f)) ++ fr_body f.
Definition fr_end (f : frame) : boxinfo :=
  mkbi (bi_offset (fr_info f)) (hsize (fr_form f) + lenN (fr_body f)) (hsize (fr_form f))
       (bi_type (fr_info f)) (bi_eof (fr_info f)) ctx0.
Definition opened_frame (o : N) (bi : boxinfo) : frame :=
  mkfr (mkbi o (w64 (sub64 (bi_size bi) (bi_hsize bi) + lenN (header_bytes bi))) (lenN (header_bytes bi))
             (bi_type bi) (bi_eof bi) ctx0) (header_bytes bi) [].

(** ** Whatever happens afterwards, all but the headers of the open boxes stays.
    [keeps st d]: the file [d] has everything there is in [st] at its place,
    except perhaps those headers. *)
Fixpoint keeps_tail (fs : list frame) (d : list byte) : Prop :=   (* outermost first *)
  match fs with
  | [] => True
  | f :: r => exists h tl, d = h ++ fr_body f ++ tl /\ lenN h = lenN (fr_hdr f) /\ keeps_tail r tl
  end.
Definition keeps (st : list byte * list frame) (d : list byte) : Prop :=
  let (b0, fs) := st in exists tl, d = b0 ++ tl /\ keeps_tail (rev fs) tl.

Lemma keeps_tail_render : forall fs x, keeps_tail fs (flat_map fr_bytes fs ++ x).
Proof.
  induction fs as [|f r IH]; intros x; [exact I|]. cbn [keeps_tail flat_map]. unfold fr_bytes at 1.
  exists (fr_hdr f), (flat_map fr_bytes r ++ x). rewrite <- !app_assoc. auto.
Qed.
Lemma render_flat : forall b0 fs, render b0 fs = b0 ++ flat_map fr_bytes (rev fs).
Proof.
  induction fs as [|f r IH]; cbn [render rev]; [now rewrite app_nil_r|].
  rewrite IH, flat_map_app. cbn. now rewrite app_nil_r, app_assoc.
Qed.
Lemma keeps_render : forall b0 fs x, keeps (b0, fs) (render b0 fs ++ x).
Proof.
  intros. unfold keeps. rewrite render_flat, <- app_assoc. eexists. split; [reflexivity|]. apply keeps_tail_render.
Qed.
Lemma keeps_tail_app : forall a b d, keeps_tail (a ++ b) d -> keeps_tail a d.
Proof.
  induction a as [|f r IH]; intros b d H; [exact I|]. cbn [app keeps_tail] in *.
  destruct H as (h & tl & E & L & K). exists h, tl. eauto.
Qed.
(** more written in the innermost box *)
Lemma keeps_tail_grow : forall a f l d,
  keeps_tail (a ++ [mkfr (fr_info f) (fr_hdr f) (fr_body f ++ l)]) d -> keeps_tail (a ++ [f]) d.
Proof.
  induction a as [|g r IH]; intros f l d H; cbn [app keeps_tail] in *.
  - destruct H as (h & tl & E & L & _). exists h, (l ++ tl). cbn [fr_body] in E. rewrite <- app_assoc in E. repeat split; assumption.
  - destruct H as (h & tl & E & L & K). exists h, tl. eauto.
Qed.
Lemma keeps_add : forall l st d, keeps (add l st) d -> keeps st d.
Proof.
  intros l [b0 [|f r]] d H; cbn [add keeps rev] in *.
  - destruct H as (tl & E & _). exists (l ++ tl). rewrite <- app_assoc in E. split; [exact E|exact I].
  - destruct H as (tl & E & K). exists tl. split; [exact E|]. eapply keeps_tail_grow; eauto.
Qed.
Lemma keeps_push : forall b0 f fs d, keeps (b0, f :: fs) d -> keeps (b0, fs) d.
Proof.
  intros b0 f fs d (tl & E & K). exists tl. split; [exact E|]. cbn [rev] in K. eapply keeps_tail_app; eauto.
Qed.
(** a box closed *)
Lemma keeps_tail_close : forall a g f h body d, lenN h = lenN (fr_hdr f) -> body = h ++ fr_body f ->
  keeps_tail (a ++ [mkfr (fr_info g) (fr_hdr g) (fr_body g ++ body)]) d -> keeps_tail (a ++ [g; f]) d.
Proof.
  induction a as [|x r IH]; intros g f h body d L B H; cbn [app keeps_tail] in *.
  - destruct H as (h1 & tl & E & L1 & _). exists h1, (body ++ tl). cbn [fr_body] in E. rewrite <- app_assoc in E.
    split; [exact E|]. split; [exact L1|]. exists h, tl. subst body. rewrite <- app_assoc. repeat split; assumption.
  - destruct H as (h1 & tl & E & L1 & K). exists h1, tl. eauto.
Qed.
Lemma keeps_close : forall b0 f fs h d, lenN h = lenN (fr_hdr f) ->
  keeps (add (h ++ fr_body f) (b0, fs)) d -> keeps (b0, f :: fs) d.
Proof.
  intros b0 f [|g fs] h d L H; cbn [add keeps rev app] in *.
  - destruct H as (tl & E & _). exists (h ++ fr_body f ++ tl). rewrite <- !app_assoc in E. split; [exact E|].
    exists h, tl. repeat split; assumption.
  - destruct H as (tl & E & K). exists tl. split; [exact E|]. rewrite <- app_assoc. cbn [app].
    eapply keeps_tail_close; eauto.
Qed.

(** ** One call *)
Definition calm (w : writer) : Prop := o_faults (wr_file w) = [].
(** the call [x] of a Writer that is in the state [st]: on success [P] holds, on
    failure everything but open headers is kept; without faults it succeeds
    provided that [sure] *)
Definition outcome {A} (w : writer) (st : list byte * list frame) (sure : Prop) (P : A -> writer -> Prop)
  (x : res A * writer) : Prop :=
  match fst x with
  | Ok a => P a (snd x) /\ (calm w -> calm (snd x))
  | OutOfFuel => False
  | _ => keeps st (o_data (wr_file (snd x))) /\ (calm w -> ~ sure)
  end.

Lemma overwrite_end : forall d p, overwrite d (lenN d) p = d ++ p.
Proof.
  intros. rewrite overwrite_in by lia. rewrite takeN_all by lia. rewrite skipN_all by lia. now rewrite app_nil_r.
Qed.
Lemma holds_stack : forall w b0 fs, holds w (b0, fs) -> wr_stack w = map fr_info fs.
Proof. intros w b0 fs H. apply H. Qed.

Lemma add_ok : forall l b0 fs, frs_ok b0 fs -> let (b, f) := add l (b0, fs) in frs_ok b f /\ map fr_info f = map fr_info fs.
Proof.
  intros l b0 [|f r] H; cbn [add]; [split; [exact I|reflexivity]|]. split; [|reflexivity].
  cbn [frs_ok] in *. exact H.
Qed.

Lemma write_outcome : forall l w st, holds w st ->
  outcome w st True (fun _ w' => holds w' (add l st)) (w_write l w).
Proof.
  intros l [[d pos fl] stk] [b0 fs] (H1 & H2 & H3 & H4). cbn [wr_file wr_stack o_data o_pos o_faults] in *.
  unfold w_write, lift_o. cbn [wr_file wr_stack]. unfold o_write. cbn [o_faults o_data o_pos].
  pose proof (render_add l b0 fs) as RA. pose proof (add_ok l b0 fs H4) as AO.
  destruct (add l (b0, fs)) as [b f] eqn:EA. destruct AO as [AO1 AO2].
  assert (E : forall q, overwrite d pos q = d ++ q) by (intros q; rewrite H2, <- H1; apply overwrite_end).
  assert (OKS : forall fl', holds (mkwr (mkof (d ++ l) (pos + lenN l) fl') stk) (b, f)).
  { intros fl'. repeat split; cbn [wr_file wr_stack o_data o_pos]; auto.
    - rewrite RA, H1. reflexivity.
    - rewrite RA, H2, lenN_app. reflexivity.
    - congruence. }
  destruct fl as [|[k|] fl]; unfold outcome; cbn [fst snd wr_file o_data]; rewrite ?E.
  - split; [apply OKS|]. unfold calm. cbn. auto.
  - split; [rewrite H1; apply keeps_render|]. unfold calm. cbn. discriminate.
  - split; [apply OKS|]. unfold calm. cbn. discriminate.
Qed.

Lemma outcome_ret : forall A (a : A) w st (sure : Prop) (P : A -> writer -> Prop), P a w -> outcome w st sure P (ret a w).
Proof. intros. unfold outcome. cbn. auto. Qed.
Lemma outcome_bind : forall A B (m : M writer A) (k : A -> M writer B) w st (sure sure1 sure2 : Prop)
    (P : A -> writer -> Prop) (Q : B -> writer -> Prop),
  outcome w st sure1 P (m w) ->
  (sure -> sure1 /\ sure2) ->
  (forall a w1, P a w1 -> outcome w1 st sure2 Q (k a w1)) ->
  outcome w st sure Q (bind m k w).
Proof.
  intros A B m k w st sure sure1 sure2 P Q H S K. unfold outcome, bind in *.
  destruct (m w) as [[a|e| |] w1]; cbn [fst snd] in *.
  - destruct H as [HP C]. specialize (K a w1 HP). destruct (k a w1) as [[b|e| |] w2]; cbn [fst snd] in *; auto.
    + destruct K as [K1 K2]. auto.
    + destruct K as [K1 K2]. split; [exact K1|]. intros X Y. apply (K2 (C X)). now apply S.
    + destruct K as [K1 K2]. split; [exact K1|]. intros X Y. apply (K2 (C X)). now apply S.
  - destruct H as [H1 H2]. split; [exact H1|]. intros X Y. apply (H2 X). now apply S.
  - destruct H as [H1 H2]. split; [exact H1|]. intros X Y. apply (H2 X). now apply S.
  - contradiction.
Qed.
(** the same when the state has moved on *)
Lemma outcome_weaken : forall A (x : res A * writer) w st st' (sure sure' : Prop) (P Q : A -> writer -> Prop),
  outcome w st' sure' P x -> (forall d, keeps st' d -> keeps st d) -> (sure -> sure') ->
  (forall a w1, P a w1 -> Q a w1) -> outcome w st sure Q x.
Proof.
  intros A [r w1] w st st' sure sure' P Q H K S PQ. unfold outcome in *. cbn [fst snd] in *.
  destruct r as [a|e| |]; try (destruct H as [H1 H2]; split; [auto|]; intros C; try intros X; auto; apply (H2 C); auto; fail). exact H.
Qed.

(** Put *)
Lemma put_outcome : forall l w st, holds w st ->
  outcome w st True (fun o w' => o = Wrote /\ holds w' (add l st)) (exec (OPut l) w).
Proof.
  intros l w st H. cbn [exec]. eapply (outcome_bind _ _ _ _ _ _ _ True True); [apply write_outcome, H|auto|].
  intros [] w1 H1. apply outcome_ret. auto.
Qed.

(** Copy *)
Lemma add_add : forall a b st, add b (add a st) = add (a ++ b) st.
Proof. intros a b [b0 [|f r]]; cbn [add fr_info fr_hdr fr_body]; now rewrite app_assoc. Qed.
Lemma add_nil : forall st, add [] st = st.
Proof. intros [b0 [|[i h b] r]]; cbn [add fr_info fr_hdr fr_body]; now rewrite app_nil_r. Qed.
Lemma chunks_outcome : forall fuel l w st, (List.length l < fuel)%nat -> holds w st ->
  outcome w st True (fun _ w' => holds w' (add l st)) (w_chunks fuel l w).
Proof.
  induction fuel as [|k IH]; intros l w st L H; [lia|]. cbn [w_chunks]. destruct l as [|x l].
  - apply outcome_ret. now rewrite add_nil.
  - set (p := x :: l) in *.
    eapply (outcome_bind _ _ _ _ _ _ _ True True); [apply write_outcome, H|auto|].
    intros [] w1 H1. cbn beta in H1.
    eapply outcome_weaken; [apply (IH (skipN 32768 p) w1 (add (takeN 32768 p) st)); [|exact H1]|apply keeps_add|auto|].
    + rewrite skipN_skipn, skipn_length.
      assert (0 < N.to_nat 32768)%nat by lia. unfold p in *. cbn [List.length] in *. lia.
    + intros [] w2 H2. rewrite add_add, takeN_skipN in H2. exact H2.
Qed.
Lemma copy_outcome : forall src bi w st, holds w st ->
  outcome w st (available src bi)
    (fun o w' => o = Wrote /\ available src bi /\ holds w' (add (cut src bi) st)) (exec (OCopy src bi) w).
Proof.
  intros src bi w st H. cbn [exec].
  assert (KS : keeps st (o_data (wr_file w))).
  { destruct st as [b0 fs]. destruct H as (H1 & _). rewrite H1, <- (app_nil_r (render b0 fs)). apply keeps_render. }
  unfold copy_box. unfold available. change (2 ^ 63) with 9223372036854775808.
  destruct (N.leb_spec 9223372036854775808 (bi_offset bi)) as [O|O].
  { unfold outcome, bind, fail. cbn [fst snd]. split; [exact KS|]. intros _. lia. }
  destruct (N.leb_spec 9223372036854775808 (bi_size bi)) as [S|S].
  { unfold outcome, bind, fail. cbn [fst snd]. split; [exact KS|]. intros _. lia. }
  fold (cut src bi).
  eapply (outcome_bind _ _ _ _ _ _ _ (lenN (cut src bi) = bi_size bi) True
           (fun _ w' => lenN (cut src bi) = bi_size bi /\ holds w' (add (cut src bi) st))).
  - eapply (outcome_bind _ _ _ _ _ _ _ True (lenN (cut src bi) = bi_size bi)); [apply chunks_outcome; [lia|exact H]|auto|].
    intros [] w1 H1. cbn beta in H1. destruct (N.eqb_spec (lenN (cut src bi)) (bi_size bi)) as [E|E].
    + apply outcome_ret. auto.
    + unfold outcome, fail. cbn [fst snd]. split; [|intros _; exact E].
      destruct st as [b0 fs]. pose proof (render_add (cut src bi) b0 fs) as R.
      destruct (add (cut src bi) (b0, fs)) as [b f]. destruct H1 as (H1 & _). rewrite H1, R. apply keeps_render.
  - intuition.
  - intros [] w1 [H1 H2]. apply outcome_ret. auto.
Qed.

(** Start *)
Lemma header_form : forall bi, lenN (bi_type bi) = 4 -> lenN (header_bytes bi) = hsize (form_of bi).
Proof.
  intros bi H. fold (header_len bi). rewrite header_len_cases by exact H. unfold form_of.
  change W32 with (2 ^ 32). destruct (bi_eof bi); [reflexivity|]. cbn [negb andb].
  destruct (bi_size bi <? 2 ^ 32), (bi_hsize bi =? 16); reflexivity.
Qed.
Lemma opened_ok : forall below bi, lenN (bi_type bi) = 4 ->
  fr_ok below (opened_frame (lenN below) bi) /\ fr_form (opened_frame (lenN below) bi) = form_of bi.
Proof.
  intros below bi H. pose proof (header_form bi H) as HF.
  assert (F : fr_form (opened_frame (lenN below) bi) = form_of bi).
  { unfold fr_form, opened_frame. cbn [fr_info bi_eof bi_hsize]. rewrite HF. unfold form_of.
    destruct (bi_eof bi); [reflexivity|]. destruct (_ && _); reflexivity. }
  split; [|exact F]. unfold fr_ok. rewrite F. unfold opened_frame. cbn [fr_info fr_hdr bi_offset bi_hsize bi_type bi_ctx].
  repeat split; auto.
Qed.
Lemma start_outcome : forall bi w b0 fs, holds w (b0, fs) -> lenN (bi_type bi) = 4 ->
  outcome w (b0, fs) True
    (fun o w' => let f := opened_frame (lenN (render b0 fs)) bi in o = Started (fr_info f) /\ holds w' (b0, f :: fs))
    (exec (OStart bi) w).
Proof.
  intros bi [[d pos fl] stk] b0 fs (H1 & H2 & H3 & H4) HT. cbn [wr_file wr_stack o_data o_pos] in *.
  set (f := opened_frame (lenN (render b0 fs)) bi).
  destruct (opened_ok (render b0 fs) bi HT) as [FO _]. fold f in FO.
  assert (E : forall q, overwrite d pos q = d ++ q) by (intros q; rewrite H2, <- H1; apply overwrite_end).
  assert (OKS : forall fl', holds (mkwr (mkof (d ++ header_bytes bi) (pos + lenN (header_bytes bi)) fl') (fr_info f :: stk)) (b0, f :: fs)).
  { intros fl'. unfold holds. cbn [wr_file wr_stack o_data o_pos render map]. unfold fr_bytes.
    cbn [f opened_frame fr_hdr fr_body]. rewrite app_nil_r.
    split; [now rewrite H1|]. split; [now rewrite H2, lenN_app|]. split; [now rewrite H3|]. split; assumption. }
  cbn [exec]. unfold start_box, write_box_info, bind, lift_o, o_tell, o_write, ret. cbn [wr_file wr_stack o_faults o_data o_pos].
  destruct fl as [|[k|] fl]; unfold outcome; cbn [fst snd wr_file o_data o_pos wr_stack]; rewrite ?E; cbn [fst snd].
  - split; [split|unfold calm; cbn; auto].
    + unfold f, opened_frame. cbn [fr_info]. rewrite H2. reflexivity.
    + replace (mkbi pos _ _ _ _ _) with (fr_info f); [apply OKS|]. unfold f, opened_frame. cbn [fr_info]. rewrite H2. reflexivity.
  - split; [rewrite H1; apply keeps_render|unfold calm; cbn; discriminate].
  - split; [split|unfold calm; cbn; discriminate].
    + unfold f, opened_frame. cbn [fr_info]. rewrite H2. reflexivity.
    + replace (mkbi pos _ _ _ _ _) with (fr_info f); [apply OKS|]. unfold f, opened_frame. cbn [fr_info]. rewrite H2. reflexivity.
Qed.

(** End *)
Lemma end_empty : forall w b0, holds w (b0, []) -> exec OEnd w = (Panic, w).
Proof.
  intros w b0 (_ & _ & H & _). cbn [exec]. unfold end_box, bind. cbn [map] in H. rewrite H. reflexivity.
Qed.
Lemma header_bytes_end : forall f n, fr_form f = Small \/ fr_form f = Large \/ fr_form f = ToEnd ->
  (fr_form f = Small -> 8 + n < 2 ^ 32) -> bi_hsize (fr_info f) = hsize (fr_form f) ->
  header_bytes (set_size (fr_info f) (hsize (fr_form f) + n)) = header (fr_form f) (bi_type (fr_info f)) n.
Proof.
  intros f n _ G H. unfold header_bytes, set_size. cbn [bi_eof bi_size bi_hsize bi_type].
  change LargeHeaderSize with 16. rewrite H. change W32 with (2 ^ 32). unfold fr_form in *.
  destruct (bi_eof (fr_info f)); [reflexivity|]. destruct (bi_hsize (fr_info f) =? 16); cbn [hsize header] in *.
  - change (16 =? 16) with true. cbn [negb]. rewrite andb_false_r. reflexivity.
  - specialize (G eq_refl). destruct (N.ltb_spec (8 + n) (2 ^ 32)); [reflexivity|lia].
Qed.
Lemma end_outcome : forall w b0 f fs, holds w (b0, f :: fs) ->
  (fr_form f = Small -> 8 + lenN (fr_body f) < 2 ^ 32) -> lenN (render b0 (f :: fs)) < 2 ^ 63 ->
  outcome w (b0, f :: fs) True
    (fun o w' => o = Ended (fr_end f) /\ holds w' (add (fr_close f) (b0, fs))) (exec OEnd w).
Proof.
  intros [[d pos fl] stk] b0 f fs (H1 & H2 & H3 & H4) G B. cbn [wr_file wr_stack o_data o_pos map] in *.
  cbn [frs_ok] in H4. destruct H4 as [FO FR]. destruct FO as (F1 & F2 & F3 & F4 & F5).
  change (2 ^ 63) with 9223372036854775808 in B.
  set (n := lenN (fr_body f)) in *.
  assert (LR : lenN (render b0 (f :: fs)) = lenN (render b0 fs) + (hsize (fr_form f) + n)).
  { cbn [render]. unfold fr_bytes. rewrite !lenN_app, F3. reflexivity. }
  pose proof (hsize_8 (fr_form f)) as H8.
  assert (SZ : sub64 pos (bi_offset (fr_info f)) = hsize (fr_form f) + n).
  { rewrite H2, F1, LR. unfold sub64, W64. lia. }
  set (h := header (fr_form f) (bi_type (fr_info f)) n).
  assert (Lh : lenN h = hsize (fr_form f)) by (apply lenN_header; exact F4).
  assert (HB : header_bytes (set_size (fr_info f) (hsize (fr_form f) + n)) = h).
  { apply header_bytes_end; [destruct (fr_form f); auto|exact G|exact F2]. }
  assert (OV : forall q, lenN q <= hsize (fr_form f) ->
     overwrite d (lenN (render b0 fs)) q = render b0 fs ++ (q ++ skipN (lenN q) (fr_hdr f)) ++ fr_body f).
  { intros q Lq. rewrite H1. cbn [render]. unfold fr_bytes. rewrite overwrite_in by (rewrite !lenN_app; lia).
    rewrite takeN_app_exact by reflexivity. rewrite skipN_app_ge by lia.
    replace (lenN (render b0 fs) + lenN q - lenN (render b0 fs)) with (lenN q) by lia.
    rewrite skipN_app_le by lia. now rewrite <- app_assoc. }
  assert (OVh : overwrite d (lenN (render b0 fs)) h = render b0 fs ++ fr_close f).
  { rewrite OV by lia. rewrite skipN_all by lia. rewrite app_nil_r. reflexivity. }
  assert (OKS : forall fl', holds (mkwr (mkof (render b0 fs ++ fr_close f) pos fl') (map fr_info fs)) (add (fr_close f) (b0, fs))).
  { intros fl'. pose proof (render_add (fr_close f) b0 fs) as RA. pose proof (add_ok (fr_close f) b0 fs FR) as AO.
    destruct (add (fr_close f) (b0, fs)) as [b1 f1]. destruct AO as [A1 A2]. unfold holds. cbn [wr_file wr_stack o_data o_pos].
    rewrite RA. split; [reflexivity|]. split; [|split; [congruence|exact A1]].
    rewrite H2, LR, lenN_app. unfold fr_close. change (lenN (fr_body f)) with n. fold h. rewrite lenN_app, Lh. reflexivity. }
  assert (HS : bi_hsize (fr_info f) =? lenN h = true) by (apply N.eqb_eq; rewrite F2, Lh; reflexivity).
  assert (EI : set_size (fr_info f) (hsize (fr_form f) + n) = fr_end f).
  { unfold set_size, fr_end. rewrite F2, F5. reflexivity. }
  subst stk. cbn [exec].
  unfold end_box, write_box_info, bind, lift_o, o_tell, o_seek, ret, fail. cbn [wr_file wr_stack o_pos].
  rewrite SZ. cbn [wr_file wr_stack o_pos o_data o_faults]. cbn [set_size bi_offset].
  destruct (N.ltb_spec (bi_offset (fr_info f)) 9223372036854775808) as [_|X]; [|rewrite F1 in X; lia].
  cbn [wr_file wr_stack o_pos o_data o_faults]. rewrite HB. unfold o_write. cbn [o_faults o_data o_pos].
  assert (PX : pos <? 9223372036854775808 = true) by (apply N.ltb_lt; rewrite H2; lia).
  destruct fl as [|[k|] fl]; cbn [fst snd wr_file wr_stack o_data o_faults bi_hsize set_size].
  - rewrite HS. cbn [negb]. rewrite PX. cbn [wr_file wr_stack o_data o_faults].
    unfold outcome. cbn [fst snd]. rewrite EI.
    rewrite F1, OVh. split; [split; [reflexivity|apply OKS]|unfold calm; cbn; auto].
  - unfold outcome. cbn [fst snd wr_file o_data]. rewrite F1. split; [|unfold calm; cbn; discriminate].
    rewrite OV by (rewrite lenN_takeN; lia). set (q := takeN k h).
    assert (Lq : lenN q <= hsize (fr_form f)) by (unfold q; rewrite lenN_takeN; lia).
    eapply (keeps_close b0 f fs (q ++ skipN (lenN q) (fr_hdr f))).
    + rewrite lenN_app, lenN_skipN. lia.
    + pose proof (render_add ((q ++ skipN (lenN q) (fr_hdr f)) ++ fr_body f) b0 fs) as RA.
      destruct (add ((q ++ skipN (lenN q) (fr_hdr f)) ++ fr_body f) (b0, fs)) as [b1 f1]. rewrite <- RA, <- (app_nil_r (render b1 f1)). apply keeps_render.
  - rewrite HS. cbn [negb]. rewrite PX. cbn [wr_file wr_stack o_data o_faults].
    unfold outcome. cbn [fst snd]. rewrite EI.
    rewrite F1, OVh. split; [split; [reflexivity|apply OKS]|unfold calm; cbn; discriminate].
Qed.
