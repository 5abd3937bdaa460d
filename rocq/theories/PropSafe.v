(** C51: reading does not panic, whatever the input. *)
From Verif Require Import Base BaseProofs BitIO Schema Structs Registry Unmarshal SpecTotal PropTotal PropUnmarshal BoxInfo ReadTree
     Extract Accessors Probe SpecTree Flow SpecTrace TraceProofs PropTrace PropFlow SpecProbe ProbeProofs ProbeFound PropProbe PropAac VersionFacts.
Local Open Scope string_scope.
Local Open Scope list_scope.
Local Open Scope N_scope.
Local Open Scope monad_scope.

(** ** Programs that do not panic and keep to a condition on what they return *)
Definition safe {S A} (m : M S A) (Q : A -> Prop) : Prop :=
  forall s, match fst (m s) with Panic => False | Ok a => Q a | _ => True end.
Lemma safe_bind : forall S A B (m : M S A) (k : A -> M S B) (Q : A -> Prop) (R : B -> Prop), safe m Q -> (forall a, Q a -> safe (k a) R) ->
  safe (bind m k) R.
Proof.
  intros S A B m k Q R H1 H2 s. unfold bind. specialize (H1 s). destruct (m s) as [[a|e| |] s1]; cbn [fst] in *; auto.
  now apply H2.
Qed.
Lemma safe_ret : forall S A (a : A) (Q : A -> Prop), Q a -> safe (S := S) (ret a) Q.
Proof. intros S A a Q H s. exact H. Qed.
Lemma safe_fail : forall S A e (Q : A -> Prop), safe (S := S) (fail e) Q.
Proof. intros S A e Q s. exact I. Qed.
Lemma safe_pure : forall S A (m : M S A) (Q : A -> Prop), (forall s, exists a, m s = (Ok a, s) /\ Q a) -> safe m Q.
Proof. intros S A m Q H s. destruct (H s) as (a & -> & K). exact K. Qed.
Lemma safe_res : forall S A (r : res A) (Q : A -> Prop), match r with Panic => False | Ok a => Q a | _ => True end ->
  safe (S := S) (lift_res r) Q.
Proof. intros S A r Q H s. exact H. Qed.
Lemma safe_weak : forall S A (m : M S A) (Q R : A -> Prop), safe m Q -> (forall a, Q a -> R a) -> safe m R.
Proof. intros S A m Q R H K s. specialize (H s). destruct (fst (m s)); auto. Qed.
Lemma safe_each : forall S A B (body : N -> B -> A -> M S A) (QB : B -> Prop) (P : A -> Prop),
  (forall i x a, QB x -> P a -> safe (body i x a) P) ->
  forall l i a, Forall QB l -> P a -> safe (for_each body i l a) P.
Proof.
  intros S A B body QB P H. induction l as [|x l IH]; intros i a F Ha; cbn [for_each].
  - now apply safe_ret.
  - inversion F; subst. eapply safe_bind; [apply H; eauto|]. intros b Hb. now apply IH.
Qed.
Lemma safe_each_nth : forall S A B (body : N -> B -> A -> M S A) L (P : A -> Prop),
  (forall i x a, nthN i L = Some x -> P a -> safe (body i x a) P) -> forall a, P a -> safe (for_each body 0 L a) P.
Proof.
  intros S A B body L P H.
  enough (G : forall l i a, skipN i L = l -> P a -> safe (for_each body i l a) P).
  { intros a. apply G. rewrite skipN_skipn. reflexivity. }
  induction l as [|x l IH]; intros i a E Ha; cbn [for_each]; [now apply safe_ret|].
  assert (EN : nthN i L = Some x).
  { rewrite skipN_skipn in E. rewrite nthN_nth_error. rewrite <- (firstn_skipn (N.to_nat i) L).
    assert (LE : (N.to_nat i < List.length L)%nat).
    { destruct (Nat.lt_ge_cases (N.to_nat i) (List.length L)) as [|G]; [auto|]. rewrite skipn_all2 in E by lia. discriminate. }
    rewrite nth_error_app2 by (rewrite firstn_length; lia). rewrite firstn_length.
    replace (N.to_nat i - Nat.min (N.to_nat i) (List.length L))%nat with O by lia. now rewrite E. }
  eapply safe_bind; [apply H; eauto|]. intros b Hb. apply IH; [|exact Hb].
  rewrite <- skipN_skipN, E. rewrite skipN_skipn. reflexivity.
Qed.
Lemma safe_forN : forall S A (body : N -> A -> M S A) lo hi a (P : A -> Prop), P a ->
  (forall j b, lo <= j < hi -> P b -> safe (body j b) P) -> safe (forN lo hi body a) P.
Proof.
  intros S A body lo hi a P Ha H. unfold forN. eapply safe_bind with (Q := fun x => P (snd x)).
  2:{ intros x Hx. now apply safe_ret. }
  assert (G : forall k i a, P a -> lo <= i -> i + N.of_nat k <= N.max lo hi ->
     safe (loop_nat k (fun x => bind (body (fst x) (snd x)) (fun b => ret (fst x + 1, b))) (i, a)) (fun x => P (snd x))).
  { induction k as [|k IH]; intros i b Hb H1 H2; cbn [loop_nat]; [now apply safe_ret|].
    eapply safe_bind with (Q := fun x => fst x = i + 1 /\ P (snd x)).
    - eapply safe_bind; [apply H; [cbn [fst]; lia|exact Hb]|]. intros c Hc. now apply safe_ret.
    - intros [j c] [E Hc]. cbn [fst snd] in *. subst j. apply IH; auto; lia. }
  intros s. rewrite loopN_nat. apply G; auto; lia.
Qed.

(** ** The tables *)
Lemma safe_or_panic : forall S A (o : option A) (Q : A -> Prop), (exists a, o = Some a /\ Q a) -> safe (S := S) (or_panic o) Q.
Proof. intros S A o Q (a & -> & H). now apply safe_ret. Qed.
Definition any {A} (_ : A) : Prop := True.

Lemma safe_ctts : forall S ctts samples, safe (S := S) (ctts_samples ctts samples) any.
Proof.
  intros S ctts samples. unfold ctts_samples. eapply safe_bind; [|intros; now apply safe_ret].
  apply safe_each_nth with (P := any); [|exact I]. intros ci e st He _.
  apply safe_forN; [exact I|]. intros j [si l] _ _. destruct (N.leb_spec (w32 (lenN l)) si) as [|L]; [now apply safe_ret|].
  rewrite (ctts_offset_ok _ _ _ He).
  eapply safe_bind; [apply safe_res with (Q := any); exact I|]. intros off _.
  eapply safe_bind with (Q := any); [|intros; now apply safe_ret].
  assert (L2 : si < lenN l).
  { unfold w32, W32 in L. pose proof (N.mod_le (lenN l) 4294967296 ltac:(lia)). lia. }
  destruct (modify_some _ (fun s => mksample (s_size s) (s_delta s) off) si l L2) as (l' & E & _).
  apply safe_or_panic. exists l'. split; [exact E|exact I].
Qed.
Lemma safe_stsz : forall S stsz samples, safe (S := S) (stsz_samples stsz samples) any.
Proof.
  intros S stsz samples. unfold stsz_samples. cbv zeta. set (sizes := uints "EntrySize" stsz).
  apply safe_weak with (Q := fun l => lenN l = lenN samples); [|intros; exact I].
  apply safe_forN; [reflexivity|]. intros j l Hj Hl.
  destruct (nthN_lt _ sizes j ltac:(lia)) as (z & Ez). rewrite Ez.
  eapply safe_bind with (Q := any); [now apply safe_ret|]. intros z' _.
  destruct (modify_some _ (fun s => mksample z' (s_delta s) (s_cto s)) j l ltac:(lia)) as (l' & E & El).
  apply safe_or_panic. exists l'. split; [exact E|lia].
Qed.
Lemma safe_trun_cto : forall S tfhd trun, safe (S := S) (trun_cto tfhd trun) any.
Proof.
  intros S tfhd trun. unfold trun_cto. eapply safe_bind; [|intros; now apply safe_ret].
  apply safe_each_nth with (P := any); [|exact I]. intros i e [dur cto] He _.
  eapply safe_bind with (Q := any); [|intros; now apply safe_ret].
  apply safe_res. unfold trun_GetSampleCompositionTimeOffset, by_version. rewrite (entry_nth _ _ _ He).
  destruct (_ =? _); [exact I|]. destruct (_ =? _); exact I.
Qed.
Lemma safe_make_track : forall S f, safe (S := S) (make_track f) any.
Proof.
  intros S f. unfold make_track. destruct (f_tkhd f) as [tkhd|]; [|apply safe_fail].
  eapply safe_bind with (Q := any).
  { destruct (f_elst f); [|now apply safe_ret]. apply safe_pure. intros s. rewrite elst_ok. eexists. split; [reflexivity|exact I]. }
  intros edits _. destruct (f_mdhd f) as [mdhd|]; [|apply safe_fail]. cbv zeta.
  eapply safe_bind with (Q := any).
  { destruct (f_audio f); [|now apply safe_ret]. destruct (f_esds f) as [esds|]; [|now apply safe_ret].
    eapply safe_bind with (Q := any); [|intros; now apply safe_ret]. apply safe_res.
    destruct (C42_total esds) as [(r & ->)|(e & ->)]; exact I. }
  intros mp4a _. eapply safe_bind with (Q := any).
  { destruct (f_stco f); [now apply safe_ret|]. destruct (f_co64 f); [now apply safe_ret|apply safe_fail]. }
  intros chunks _. destruct (f_stts f) as [stts|]; [|apply safe_fail].
  eapply safe_bind with (Q := any).
  { apply safe_pure. intros s. rewrite stts_ok. eexists. split; [reflexivity|exact I]. }
  intros samples _. destruct (f_stsc f) as [stsc|]; [|apply safe_fail].
  eapply safe_bind with (Q := any).
  { apply safe_pure. intros s. destruct (stsc_total S stsc chunks s) as (l & -> & _). eexists. split; [reflexivity|exact I]. }
  intros chunks2 _. eapply safe_bind with (Q := any).
  { destruct (f_ctts f); [apply safe_ctts|now apply safe_ret]. }
  intros s2 _. eapply safe_bind with (Q := any).
  { destruct (f_stsz f); [apply safe_stsz|now apply safe_ret]. }
  intros s3 _. now apply safe_ret.
Qed.
Lemma safe_make_segment : forall S o f, safe (S := S) (make_segment o f) any.
Proof.
  intros S o [[tfhd tfdt] trun]. unfold make_segment. destruct tfhd as [tfhd|]; [|apply safe_fail]. cbv zeta.
  destruct trun as [trun|]; [|now apply safe_ret].
  eapply safe_bind; [apply safe_trun_cto|]. intros; now apply safe_ret.
Qed.

(** ** Which struct a type stands for, in any context *)
Definition stands (t : btype) (nm : string) : bool :=
  existsb (fun td => bt_eqb t (fst td)) std_registry &&
  forallb (fun td => implb (bt_eqb t (fst td))
                           (String.eqb (bd_name (snd td)) nm && match bd_pred (snd td) with PAlways => true | _ => false end))
    std_registry.
Lemma stands_ok : forall t nm c d, stands t nm = true -> get_box_def std_registry t c = Some d -> bd_name d = nm.
Proof.
  intros t nm c d H G. unfold stands in H. apply andb_prop in H. destruct H as [H1 H2].
  unfold get_box_def in G. revert H1 H2 G.
  enough (Q : forall R, existsb (fun td => bt_eqb t (fst td)) R = true ->
    forallb (fun td => implb (bt_eqb t (fst td))
                           (String.eqb (bd_name (snd td)) nm && match bd_pred (snd td) with PAlways => true | _ => false end)) R = true ->
    exists d', find_def t c R = Some d' /\ bd_name d' = nm).
  { intros H1 H2 G. destruct (Q (rev std_registry)) as (d' & E & N').
    - apply existsb_exists in H1. destruct H1 as (x & I1 & I2). apply existsb_exists. exists x. split; [now apply -> in_rev|exact I2].
    - rewrite forallb_forall in *. intros x Hx. apply H2. now apply in_rev.
    - rewrite E in G. injection G as <-. exact N'. }
  clear. induction R as [|[t' d] R IH]; intros H1 H2; [discriminate|].
  cbn [existsb forallb fst snd find_def] in *. apply andb_prop in H2. destruct H2 as [H2 H3].
  destruct (bt_eqb t t').
  - cbn [implb] in H2. apply andb_prop in H2. destruct H2 as [H2 H4]. apply String.eqb_eq in H2. destruct (bd_pred d); try discriminate.
    exists d. split; [reflexivity|exact H2].
  - cbn [orb andb] in *. apply IH; auto.
Qed.
Definition got (c : context) (bip : boxinfo * (boxdef * fields)) : Prop :=
  get_box_def std_registry (bi_type (fst bip)) c = Some (fst (snd bip)).
Lemma safe_as : forall S c bip t nm, got c bip -> bt_eqb (bi_type (fst bip)) t = true -> stands t nm = true ->
  safe (S := S) (payload_as nm (snd bip)) any.
Proof.
  intros S c bip t nm G E H. apply bytes_eqb_eq in E. unfold payload_as. unfold got in G. rewrite E in G.
  rewrite (stands_ok _ _ _ _ H G), String.eqb_refl. now apply safe_ret.
Qed.
Ltac assertion G := match goal with
  | |- context [if bt_eqb (bi_type (fst ?b)) ?t then _ else _] =>
      let E := fresh "E" in destruct (bt_eqb (bi_type (fst b)) t) eqn:E;
      [first [eapply safe_bind; [eapply safe_as; [exact G|exact E|vm_compute; reflexivity]|intros; now apply safe_ret]
             |now apply safe_ret]|clear E]
  end.
Lemma safe_note_box : forall S c bip f, got c bip -> safe (S := S) (note_box bip f) any.
Proof.
  intros S c bip f G. unfold note_box. cbv zeta. destruct f. repeat assertion G. now apply safe_ret.
Qed.
Lemma safe_note_traf : forall S c bip f, got c bip -> safe (S := S) (note_traf bip f) any.
Proof.
  intros S c bip [[a b] d] G. unfold note_traf. cbv zeta. repeat assertion G. now apply safe_ret.
Qed.

(** ** The traversal *)
Definition np {A} (r : res A) : Prop := match r with Panic => False | _ => True end.
(** a handler that keeps its state in [Inv]; [D]: what ReadPayload hands to it *)
Fixpoint keeps {St V P} (D : res (boxdef * list (string * val) * N)) (Inv : St -> Prop) (p : hprog St V P) : Prop :=
  match p with
  | HRet s _ => Inv s
  | HFail s _ => Inv s
  | HReadPayload k => keeps D Inv (k D)
  | HReadData k => forall r, keeps D Inv (k r)
  | HExpand s _ k => Inv s /\ forall r s1, Inv s1 -> keeps D Inv (k r s1)
  | HMove _ k => keeps D Inv k
  end.
Section Walk.
  Variable data : list byte.
  Hypothesis data_small : lenN data < 2 ^ 48.
  Lemma data62 : lenN data < 2 ^ 62.
  Proof. change (2 ^ 48) with 281474976710656 in *. change (2 ^ 62) with 4611686018427387904. lia. Qed.

  Lemma um_np : forall t size c pos, pos <= lenN data -> np (fst (unmarshal_any std_registry data t size c pos)).
  Proof.
    intros t size c pos H. pose proof (C10_no_panic data t size c pos H data_small) as Q.
    destruct (fst _); try exact I. now apply Q.
  Qed.
  Lemma payload_np : forall t bi c, inside data bi -> np (payload_at data t bi c).
  Proof. intros t bi c [I1 _]. unfold payload_at. now apply um_np. Qed.
  Lemma dec_np : forall bi, inside data bi -> np (dec data bi).
  Proof. intros bi I1. rewrite (dec_payload data data62 bi I1). now apply payload_np. Qed.
  Lemma dat_np : forall bi, inside data bi -> np (dat data bi).
  Proof.
    intros bi I1. unfold dat, read_data. rewrite (bind_ok _ _ _ _ _ _ _ _ (seek_inside data data62 bi 0 I1)).
    destruct (copy_plain data (payload_size bi) (bi_offset bi + bi_hsize bi)) as (p & [(x & E)|E]);
      unfold bind; rewrite E; exact Logic.I.
  Qed.
  Lemma prep_np : forall bi pth, inside data bi -> np (prep data bi pth).
  Proof.
    intros bi pth I1. unfold prep, prepare.
    rewrite (bind_ok _ _ _ _ _ _ _ _ (seek_inside data data62 bi 0 I1)).
    assert (K : forall c, np (fst ((if bt_eqb (bi_type (set_ctx bi c)) (bt "keys")
       then (x <- unmarshal_any std_registry data (bt "keys") (payload_size (set_ctx bi c)) (bi_ctx (set_ctx bi c)) ;;
             (let bi' := set_ctx (set_ctx bi c) (set_keys (as_Z (lookup "EntryCount" (snd (fst x)))) (bi_ctx (set_ctx bi c))) in
              seek_to_payload bi' ;;; ret bi'))
       else ret (set_ctx bi c)) (bi_offset bi + bi_hsize bi)))).
    { intros c. destruct (bt_eqb _ _); [|exact Logic.I].
      pose proof (um_np (bt "keys") (payload_size (set_ctx bi c)) (bi_ctx (set_ctx bi c)) _ (proj1 I1)) as U.
      unfold bind at 1. destruct (unmarshal_any _ _ _ _ _ _) as [[x|e| |] p]; try contradiction; try exact Logic.I.
      cbv zeta. unfold bind. destruct (seek_plain (set_ctx (set_ctx bi c) (set_keys (as_Z (lookup "EntryCount" (snd (fst x)))) (bi_ctx (set_ctx bi c)))) p) as (p' & [E|E]);
        rewrite E; exact Logic.I. }
    assert (Z : bi = set_ctx bi (bi_ctx bi)) by (now destruct bi).
    destruct (_ && _).
    - pose proof (um_np (bt "ftyp") (payload_size bi) (bi_ctx bi) _ (proj1 I1)) as U.
      unfold bind at 1. unfold bind at 1. destruct (unmarshal_any _ _ _ _ _ _) as [[x|e| |] p]; try contradiction; try exact Logic.I.
      cbv zeta.
      assert (W : exists c, (if has_compatible_brand (snd (fst x)) brand_qt then set_ctx bi (set_qt (bi_ctx bi)) else bi) = set_ctx bi c)
        by (destruct (has_compatible_brand _ _); eauto).
      destruct W as (c & ->).
      rewrite (bind_ok _ _ _ _ _ _ _ _ (seek_inside data data62 (set_ctx bi c) p (proj2 (inside_set data bi c) I1))).
      unfold ret at 1. apply K.
    - unfold bind at 1, ret at 1. rewrite Z. apply K.
  Qed.

  Context {St V P : Type}.
  Variable h : handler_t St V P.
  Variable Inv : St -> Prop.
  (** what is known of the boxes that are met *)
  Variable met : boxinfo -> Prop.
  Hypothesis met_read : forall lo bi, box_at data lo = Ok bi -> met bi.
  Hypothesis met_ctx : forall bi c, met bi -> met (set_ctx bi c).
  Hypothesis h_keeps : forall bi pth q s, inside data bi -> met bi -> Inv s -> keeps (dec data bi) Inv (h bi pth q s).

  Lemma sem_np : forall bi (child : N -> P -> St -> res (list V) * St), inside data bi ->
    (forall n q s, Inv s -> np (fst (child n q s)) /\ Inv (snd (child n q s))) ->
    forall p s, keeps (dec data bi) Inv p -> Inv s -> np (fst (sem data bi child p s)) /\ Inv (snd (sem data bi child p s)).
  Proof.
    intros bi child I1 HC. pose proof (dec_np bi I1) as D1. pose proof (dat_np bi I1) as D2.
    induction p as [s0 v|s0 e|k IH|k IH|s0 q k IH|pos0 k IH]; intros s K Hs; cbn [sem keeps] in *; try (split; [exact Logic.I|exact K]).
    - destruct (dec data bi); try contradiction; auto.
    - destruct (dat data bi); try contradiction; auto.
    - destruct K as [K1 K2]. destruct (dec data bi) as [[[d x] n]|e| |]; try contradiction; auto.
      + specialize (HC n q s0 K1). destruct (child n q s0) as [[vs|e| |] s2]; cbn [fst snd] in HC; destruct HC as [HC1 HC2];
          try contradiction; auto.
    - auto.
  Qed.
  Lemma visit_np : forall rec bi pth params s, inside data bi -> met bi -> Inv s ->
    (forall t p c q lo s, Inv s -> np (fst (rec t p c q lo s)) /\ Inv (snd (rec t p c q lo s))) ->
    np (fst (visit data h rec bi pth params s)) /\ Inv (snd (visit data h rec bi pth params s)).
  Proof.
    intros rec bi0 pth params s I1 M1 Hs HR. unfold visit. pose proof (prep_np bi0 pth I1) as PN.
    destruct (prep data bi0 pth) as [bi|e| |] eqn:EP; try contradiction; try (split; [exact Logic.I|exact Hs]).
    destruct (prep_same _ _ _ _ EP) as (c & Q).
    assert (I2 : inside data bi) by (subst bi; now apply inside_set). assert (M2 : met bi) by (subst bi; now apply met_ctx). cbv zeta.
    set (ch := fun n q s => rec _ _ _ q (_ + n) s).
    destruct (sem_np bi ch I2 (fun n q s0 => HR _ _ _ q _ s0) _ s (h_keeps bi (pth ++ [bi_type bi]) params s I2 M2 Hs) Hs) as [S1 S2].
    destruct (sem data bi ch _ s) as [[v|e| |] s1]; cbn [fst snd] in *; try contradiction; split; auto.
    destruct (fits _); exact Logic.I.
  Qed.
  Lemma lev_np : forall fuel root total pth ctx params lo s, Inv s ->
    np (fst (lev data h fuel root total pth ctx params lo s)) /\ Inv (snd (lev data h fuel root total pth ctx params lo s)).
  Proof.
    induction fuel as [|fuel IH]; intros root total pth ctx params lo s Hs; cbn [lev]; [split; [exact Logic.I|exact Hs]|].
    destruct (root || _).
    2:{ destruct (_ && _); split; try exact Logic.I; exact Hs. }
    pose proof (box_at_plain data data62 lo) as BP. destruct (box_at data lo) as [b|e| |] eqn:EB; try contradiction.
    2:{ destruct e; try (split; [exact Logic.I|exact Hs]). destruct root; split; try exact Logic.I; exact Hs. }
    destruct (negb root && _); [split; [exact Logic.I|exact Hs]|].
    destruct (box_at_ok _ data62 _ _ EB) as (_ & Hi & _).
    destruct (visit_np (lev data h fuel false) (set_ctx b ctx) pth params s (proj2 (inside_set data b ctx) Hi) (met_ctx b ctx (met_read _ _ EB)) Hs
                (fun t p c q lo s => IH false t p c q lo s)) as [VN VI].
    destruct (visit data h _ _ _ _ _) as [[[v b']|e| |] s1]; cbn [fst snd] in *; try contradiction; try (split; [exact Logic.I|exact VI]).
    specialize (IH root (sub64 total (bi_size b)) pth (next_ctx b' ctx) params (w64 (lo + bi_size b)) s1 VI).
    destruct (lev data h fuel root _ pth _ params _ s1) as [[vs|e| |] s2]; cbn [fst snd] in *; exact IH.
  Qed.
  Lemma root_np : forall params pos s, Inv s ->
    np (fst (read_box_structure std_registry data h params (pos, s))) /\
    Inv (snd (snd (read_box_structure std_registry data h params (pos, s)))).
  Proof.
    intros params pos s Hs. unfold read_box_structure, bind, lift_s, s_seek. cbn [fst snd].
    change (0 <? 9223372036854775808) with true. cbv iota.
    destruct (lev_spec data data62 h (tree_fuel data) true 0 [] ctx0 params 0 s) as (q1 & L1). rewrite L1. cbn [fst snd].
    now apply lev_np.
  Qed.
  Lemma from_np : forall bi params pos s, inside data bi -> met bi -> Inv s ->
    np (fst (read_box_structure_from_internal std_registry data h bi params (pos, s))) /\
    Inv (snd (snd (read_box_structure_from_internal std_registry data h bi params (pos, s)))).
  Proof.
    intros bi params pos s I1 M1 Hs. unfold read_box_structure_from_internal.
    destruct (box_internal_visit data data62 h (fun t p c q => read_structure std_registry data h (tree_fuel data) false t p c q)
                (lev data h (tree_fuel data) false) bi [] params pos s I1) as (p' & E & _).
    { intros t p c q lo s0. apply (lev_spec data data62). }
    destruct (visit_np (lev data h (tree_fuel data) false) bi [] params s I1 M1 Hs (fun t p c q lo s => lev_np _ _ t p c q lo s)) as [VN VI].
    unfold bind. rewrite E. destruct (visit data h _ _ _ _ _) as [[x|e| |] s1]; cbn [fst snd ret] in *; split; auto.
  Qed.
End Walk.

Section Reads.
  Variable data : list byte.
  Hypothesis data_small : lenN data < 2 ^ 48.

  Lemma safe_extract : forall parent paths, (forall bi, parent = Some bi -> inside data bi) ->
    safe (extract_boxes std_registry data parent paths) (Forall (inside data)).
  Proof.
    intros parent paths HP pos. unfold extract_boxes. destruct paths as [|p0 ps]; [constructor|].
    destruct (existsb _ _); [exact I|].
    assert (HK : forall hp bi pth q s, inside data bi -> Forall (inside data) s ->
      keeps (dec data bi) (Forall (inside data)) (extract_handler hp (p0 :: ps) bi pth q s)).
    { intros hp bi pth q s I1 Hs. unfold extract_handler. cbv zeta. destruct (bt_eqb _ _); [exact Hs|].
      destruct (match_path _ _) as [fm m].
      assert (H1 : Forall (inside data) (if m then s ++ [bi] else s)).
      { destruct m; [|exact Hs]. apply Forall_app. split; [exact Hs|]. constructor; [exact I1|constructor]. }
      destruct fm; cbn [keeps]; [|exact H1]. split; [exact H1|]. intros r s1 H2. destruct r; exact H2. }
    destruct parent as [bi|].
    - destruct (from_np data data_small (extract_handler true (p0 :: ps)) _ any (fun _ _ _ => I) (fun _ _ _ => I) (fun bi pth q s I1 _ => HK true bi pth q s I1) bi tt pos [] (HP bi eq_refl) I (Forall_nil _)) as [A B].
      destruct (read_box_structure_from_internal _ _ _ _ _ _) as [[v|e| |] [p s]]; cbn [fst snd] in *; auto.
    - destruct (root_np data data_small (extract_handler false (p0 :: ps)) _ any (fun _ _ _ => I) (fun _ _ _ => I) (fun bi pth q s I1 _ => HK false bi pth q s I1) tt pos [] (Forall_nil _)) as [A B].
      destruct (read_box_structure _ _ _ _ _) as [[v|e| |] [p s]]; cbn [fst snd] in *; auto.
  Qed.
  Lemma safe_um : forall bi c, inside data bi ->
    safe (seek_to_payload bi ;;; unmarshal_any std_registry data (bi_type bi) (payload_size bi) c)
         (fun x => get_box_def std_registry (bi_type bi) c = Some (fst (fst x))).
  Proof.
    intros bi c I1 pos. rewrite (bind_ok _ _ _ _ _ _ _ _ (seek_inside data (data62 data data_small) bi pos I1)).
    pose proof (um_np data data_small (bi_type bi) (payload_size bi) c _ (proj1 I1)) as U.
    destruct (unmarshal_any _ _ _ _ _ _) as [[[[d x] n]|e| |] p] eqn:E; cbn [fst] in *; try contradiction; try exact I.
    apply unmarshal_any_def in E. exact E.
  Qed.
  Lemma safe_payloads : forall c bis, Forall (inside data) bis -> safe (payloads std_registry data c bis) (Forall (got c)).
  Proof.
    intros c bis F. induction F as [|bi r I1 F IH]; cbn [payloads]; [apply safe_ret; constructor|].
    assert (A : forall B (k : boxdef * fields * N -> M N B) pos,
       bind (seek_to_payload bi) (fun _ => bind (unmarshal_any std_registry data (bi_type bi) (payload_size bi) c) k) pos =
       bind (seek_to_payload bi ;;; unmarshal_any std_registry data (bi_type bi) (payload_size bi) c) k pos).
    { intros B k pos. unfold bind. now destruct (seek_to_payload bi pos) as [[]]. }
    intros pos. rewrite A. revert pos.
    eapply safe_bind; [now apply safe_um|]. intros x Hx.
    eapply safe_bind; [exact IH|]. intros xs Hxs. apply safe_ret. constructor; [exact Hx|exact Hxs].
  Qed.
  Lemma safe_extract_payload : forall parent paths, (forall bi, parent = Some bi -> inside data bi) ->
    safe (extract_boxes_with_payload std_registry data parent paths)
         (Forall (got (match parent with Some bi => bi_ctx bi | None => ctx0 end))).
  Proof.
    intros parent paths HP. unfold extract_boxes_with_payload.
    eapply safe_bind; [now apply safe_extract|]. intros bis F. now apply safe_payloads.
  Qed.
  Lemma safe_trak : forall bi, inside data bi -> safe (probe_trak std_registry data bi) any.
  Proof.
    intros bi I1. unfold probe_trak.
    eapply safe_bind; [apply safe_extract_payload; intros b E; injection E as <-; exact I1|]. intros bips F.
    eapply safe_bind; [eapply safe_each with (P := any); [|exact F|exact I]; intros; now apply safe_note_box with (c := bi_ctx bi)|].
    intros f _. apply safe_make_track.
  Qed.
  Lemma safe_moof : forall bi, inside data bi -> safe (probe_moof std_registry data bi) any.
  Proof.
    intros bi I1. unfold probe_moof.
    eapply safe_bind; [apply safe_extract_payload; intros b E; injection E as <-; exact I1|]. intros bips F.
    eapply safe_bind; [eapply safe_each with (P := any); [|exact F|exact I]; intros; now apply safe_note_traf with (c := bi_ctx bi)|].
    intros f _. apply safe_make_segment.
  Qed.
  Lemma safe_read_box : forall bi, inside data bi -> safe (read_box std_registry data bi) any.
  Proof.
    intros bi I1 pos. unfold read_box.
    pose proof (safe_um bi (bi_ctx bi) I1 pos) as U. unfold bind in *.
    destruct (seek_to_payload bi pos) as [[u|e| |] p1]; cbn [fst] in *; auto.
    destruct (unmarshal_any _ _ _ _ _ p1) as [[x|e| |] p2]; cbn [fst ret] in *; auto. exact I.
  Qed.
  Lemma safe_probe_box : forall bi st, inside data bi -> safe (probe_box std_registry data bi st) any.
  Proof.
    intros bi [m p] I1. unfold probe_box. cbv zeta.
    destruct (bt_eqb _ _); [eapply safe_bind; [now apply safe_read_box|]; intros; now apply safe_ret|].
    destruct (bt_eqb _ _); [now apply safe_ret|].
    destruct (bt_eqb _ _); [eapply safe_bind; [now apply safe_read_box|]; intros; now apply safe_ret|].
    destruct (bt_eqb _ _); [eapply safe_bind; [now apply safe_trak|]; intros; now apply safe_ret|].
    destruct (bt_eqb _ _); [eapply safe_bind; [now apply safe_moof|]; intros; now apply safe_ret|].
    destruct (bt_eqb _ _); now apply safe_ret.
  Qed.
  Lemma safe_probe : safe (probe std_registry data) any.
  Proof.
    unfold probe. eapply safe_bind; [apply safe_extract; discriminate|]. intros bis F.
    eapply safe_bind; [eapply safe_each with (P := any); [|exact F|exact I]; intros; now apply safe_probe_box|].
    intros; now apply safe_ret.
  Qed.
End Reads.

Lemma safe_np : forall S A (m : M S A) Q s, safe m Q -> fst (m s) <> Panic.
Proof. intros S A m Q s H E. specialize (H s). now rewrite E in H. Qed.

(** ** C51.  For all data of less than 2^48 bytes (see C10). *)
(** ReadBoxStructure, with a handler that does not panic itself (no handler
    program does, see ReadTree.v) *)
Theorem C51_traversal : forall data St V P (h : handler_t St V P) params pos s,
  lenN data < 2 ^ 48 ->
  fst (read_box_structure std_registry data h params (pos, s)) <> Panic.
Proof.
  intros data St V P h params pos s HD E.
  assert (HK : forall bi pth q s, inside data bi -> @any St s -> keeps (dec data bi) any (h bi pth q s)).
  { intros bi pth q s0 _ _. generalize (h bi pth q s0). induction h0; cbn [keeps]; auto; try exact I; intros; auto.
    split; [exact I|]. auto. }
  destruct (root_np data HD h any any (fun _ _ _ => I) (fun _ _ _ => I) (fun bi pth q s I1 _ => HK bi pth q s I1) params pos s I) as [A _]. now rewrite E in A.
Qed.
Print Assumptions C51_traversal.
(** ExtractBoxes and ExtractBoxesWithPayload, at the top or in a parent whose
    header lies in the data *)
Theorem C51_extract : forall data parent paths pos,
  lenN data < 2 ^ 48 ->
  (forall bi, parent = Some bi -> bi_offset bi + bi_hsize bi <= lenN data /\ 8 <= bi_hsize bi) ->
  fst (extract_boxes std_registry data parent paths pos) <> Panic /\
  fst (extract_boxes_with_payload std_registry data parent paths pos) <> Panic.
Proof.
  intros data parent paths pos HD HP. split; eapply safe_np; [now apply safe_extract|now apply safe_extract_payload].
Qed.
Print Assumptions C51_extract.
(** Probe *)
Theorem C51_probe : forall data pos, lenN data < 2 ^ 48 -> fst (probe std_registry data pos) <> Panic.
Proof. intros data pos HD. eapply safe_np. now apply safe_probe. Qed.
Print Assumptions C51_probe.

(** FindIDRFrames, on any track *)
Lemma safe_while : forall S A B (body : A -> M S (A + B)), (forall a, safe (body a) any) ->
  forall fuel a, safe (while fuel body a) any.
Proof.
  intros S A B body H. assert (G : forall p a, safe (whileP p body a) any).
  { induction p as [p IH|p IH|]; intros a; cbn [whileP].
    - eapply safe_bind; [apply H|]. intros [a1|b] _; [|now apply safe_ret].
      eapply safe_bind; [apply IH|]. intros [a2|b] _; [apply IH|now apply safe_ret].
    - eapply safe_bind; [apply IH|]. intros [a1|b] _; [apply IH|now apply safe_ret].
    - apply H. }
  intros fuel a s. unfold while. specialize (G fuel a s). unfold bind. destruct (whileP fuel body a s) as [[[x|y]|e| |] s1]; auto.
Qed.
Lemma safe_nal : forall data lsize o size n, safe (nal_turn data lsize o size n) any.
Proof.
  intros data lsize o size n. unfold nal_turn. destruct (_ <=? _); [|now apply safe_ret].
  eapply safe_bind with (Q := any).
  { intros s. unfold s_seek. destruct (_ <? _); exact I. }
  intros _ _. eapply safe_bind with (Q := fun b => lenN b = lsize + 1).
  { intros s. unfold s_read_full. cbv zeta. destruct (N.eqb_spec (lenN (takeN (lsize + 1) (skipN s data))) (lsize + 1)) as [E|]; [exact E|].
    destruct (_ =? 0); exact I. }
  intros buf Hb. cbv zeta. eapply safe_bind with (Q := any).
  { unfold byte_at. destruct (nthN_lt _ buf lsize ltac:(lia)) as (x & ->). now apply safe_ret. }
  intros h _. destruct (_ =? _); now apply safe_ret.
Qed.
Theorem C51_idr : forall data fuel tr pos, fst (find_idr_frames_fuel data fuel tr pos) <> Panic.
Proof.
  intros data fuel tr pos. eapply safe_np with (Q := any). unfold find_idr_frames_fuel.
  destruct (t_avc tr) as [avc|]; [|now apply safe_ret]. cbv zeta.
  eapply safe_bind with (Q := any); [|intros; now apply safe_ret].
  apply safe_each with (QB := any) (P := any); [|apply Forall_forall; intros; exact I|exact I].
  intros i ch [si idxs] _ _. eapply safe_bind with (Q := any); [|intros; now apply safe_ret].
  apply safe_forN; [exact I|]. intros j [o l] Hj _. unfold idr_sample.
  eapply safe_bind with (Q := any).
  { destruct (nthN_lt _ (t_samples tr) j ltac:(lia)) as (x & ->). now apply safe_ret. }
  intros smp _. destruct (_ =? _); [now apply safe_ret|].
  eapply safe_bind with (Q := any); [|intros; now apply safe_ret].
  apply safe_while. intros. apply safe_nal.
Qed.
Print Assumptions C51_idr.

(** Some data: complete, cut off in the middle of a trak, with a trak whose size
    is smaller than its header, no box at all. *)
Example C51_case :
  match fst (probe std_registry track_file 0) with Ok _ => true | _ => false end = true /\
  fst (probe std_registry (takeN 300 track_file) 0) = Err EEOF /\
  fst (probe std_registry (hex "000000106d6f6f76000000047472616b") 0) = Err (EMsg "unexpected EOF") /\
  fst (probe std_registry (hex "ffffffff") 0) = Ok empty_probe.
Proof. vm_compute. repeat split. Qed.
