(** C23, C25, C26: traversals of arbitrary data, well-formed or not.

    The theorems speak about the log of a traversal: run the handler [h] with
    [with_log h], which behaves like [h] (C23_log_harmless) and records what
    happens.  SpecTrace defines the right logs. *)
From Verif Require Import Base BaseProofs Schema Structs Registry Unmarshal BoxInfo ReadTree SpecTree TreeProofs Flow
     SpecTrace TraceProofs PropTree.
Local Open Scope string_scope.
Local Open Scope list_scope.
Local Open Scope N_scope.

(** ** Keeping a log changes nothing *)
Section Same.
  Variable data : list byte.
  Hypothesis data_small : lenN data < 2 ^ 62.
  Context {St V P : Type}.
  Variable h : handler_t St V P.

  Lemma sem_same : forall bi (child : N -> P -> St -> res (list V) * St) childL,
    (forall n q y, child n q (fst y) = (fst (childL n q y), fst (snd (childL n q y)))) ->
    forall p (y : St * list (event V)) l,
    sem data bi child p (fst y) = (fst (sem data bi childL (logged p l) y), fst (snd (sem data bi childL (logged p l) y))).
  Proof.
    intros bi child childL HC. induction p as [s0 v|s0 e|k IH|k IH|s0 q k IH|pos0 k IH]; intros y l; cbn [logged sem].
    - reflexivity.
    - reflexivity.
    - destruct (dec data bi); auto.
    - destruct (dat data bi); auto.
    - destruct (dec data bi) as [[[d x] n]|e| |]; auto.
      + change s0 with (fst (s0, l ++ [EOpen (V := V)])) at 1. rewrite HC.
        destruct (childL n q (s0, l ++ [EOpen])) as [[vs|e| |] y2]; cbn [fst snd]; auto.
      + change s0 with (fst (s0, l ++ [EOpen (V := V)])) at 2. apply IH.
    - auto.
  Qed.
  Lemma lev_same : forall fuel root total pth ctx params lo y,
    lev data h fuel root total pth ctx params lo (fst y) =
    (fst (lev data (with_log h) fuel root total pth ctx params lo y),
     fst (snd (lev data (with_log h) fuel root total pth ctx params lo y))).
  Proof.
    induction fuel as [|fuel IH]; intros root total pth ctx params lo y; cbn [lev]; [reflexivity|].
    destruct (root || _). 2:{ destruct (_ && _); reflexivity. }
    destruct (box_at data lo) as [b|[]| |]; try reflexivity.
    destruct (negb root && _); [reflexivity|].
    assert (VS : visit data h (lev data h fuel false) (set_ctx b ctx) pth params (fst y) =
      (fst (visit data (with_log h) (lev data (with_log h) fuel false) (set_ctx b ctx) pth params y),
       fst (snd (visit data (with_log h) (lev data (with_log h) fuel false) (set_ctx b ctx) pth params y)))).
    { unfold visit. destruct (prep data (set_ctx b ctx) pth) as [bi|e| |]; try reflexivity. cbv zeta.
      unfold with_log at 2 4. set (l := snd y ++ _).
      erewrite sem_same with (l := l)
        (childL := fun n q s => lev data (with_log h) fuel false (span bi n) (pth ++ [bi_type bi]) (child_ctx (bi_type bi) (bi_ctx bi)) q
                     (bi_offset bi + bi_hsize bi + n) s).
      - destruct (sem data bi _ (logged _ _) y) as [[v|e| |] y1]; reflexivity.
      - intros n q y0. apply IH. }
    rewrite VS. destruct (visit data (with_log h) _ (set_ctx b ctx) pth params y) as [[[v bi']|e| |] y1]; try reflexivity.
    cbn [fst snd]. rewrite IH.
    destruct (lev data (with_log h) fuel root _ pth (next_ctx bi' ctx) params (w64 (lo + bi_size b)) y1) as [[vs|e| |] y2]; reflexivity.
  Qed.
End Same.

Theorem C23_log_harmless : forall data St V P (h : handler_t St V P) params pos s l r pos' s' l',
  lenN data < 2 ^ 62 ->
  read_box_structure std_registry data (with_log h) params (pos, (s, l)) = (r, (pos', (s', l'))) ->
  exists p, read_box_structure std_registry data h params (pos, s) = (r, (p, s')).
Proof.
  intros data St V P h params pos s l r pos' s' l' HD H.
  unfold read_box_structure in *. unfold bind, lift_s, s_seek in *. cbn [fst snd] in *.
  change (0 <? 9223372036854775808) with true in *. cbv iota in *.
  destruct (lev_spec data HD (with_log h) (tree_fuel data) true 0 [] ctx0 params 0 (s, l)) as (p1 & E1).
  destruct (lev_spec data HD h (tree_fuel data) true 0 [] ctx0 params 0 s) as (p2 & E2).
  pose proof (lev_same data h (tree_fuel data) true 0 [] ctx0 params 0 (s, l)) as Q. cbn [fst] in Q.
  rewrite E1 in H. rewrite E2, Q. cbn [fst snd]. exists p2.
  destruct (lev data (with_log h) (tree_fuel data) true 0 [] ctx0 params 0 (s, l)) as [r1 [s1 l1]]. cbn [fst snd] in *.
  now injection H as -> -> -> ->.
Qed.
Print Assumptions C23_log_harmless.

(** ** C23.  [plain r]: the result is a value or an error, that is, no payload
    makes the decoder panic or loop, and the traversal itself ends (C24). *)
Definition ends {A} (r : res A) : Prop := (exists v, r = Ok v) \/ (exists e, r = Err e).
Lemma ends_plain : forall A (r : res A), ends r -> plain r.
Proof. intros A r [[v ->]|[e ->]]; exact I. Qed.

Theorem C23_trace : forall data St V P (h : handler_t St V P) params pos s r pos' s' log,
  lenN data < 2 ^ 62 ->
  read_box_structure std_registry data (with_log h) params (pos, (s, [])) = (r, (pos', (s', log))) -> ends r ->
  exists bs, level data ctx0 true [] false 0 0 0 log bs r.
Proof.
  intros data St V P h params pos s r pos' s' log HD H E. apply ends_plain in E.
  unfold read_box_structure, bind, lift_s, s_seek in H. cbn [fst snd] in H.
  change (0 <? 9223372036854775808) with true in H. cbv iota in H.
  destruct (lev_spec data HD (with_log h) (tree_fuel data) true 0 [] ctx0 params 0 (s, [])) as (p1 & E1).
  rewrite E1 in H.
  destruct (lev data (with_log h) (tree_fuel data) true 0 [] ctx0 params 0 (s, [])) as [r1 [s1 l1]] eqn:EL. cbn [fst snd] in *.
  injection H as -> _ -> ->.
  change ctx0 with (ctx_of ctx0 false 0 []) in EL.
  destruct (all_levels data ctx0 HD h _ _ _ _ _ _ _ _ _ _ _ 0 EL E) as (log' & bs & L & LV).
  - reflexivity.
  - reflexivity.
  - cbn [snd app] in L. subst log'. eauto.
Qed.
Print Assumptions C23_trace.

(** ** C25 *)
Scheme level_mut := Minimality for level Sort Prop
  with body_mut := Minimality for body Sort Prop.
Combined Scheme level_body_ind from level_mut, body_mut.

(** A handler's error is followed at once by the end of the expansion it is in,
    with that error, or it ends the traversal with that error. *)
Definition error_stops {V} (log : list (event V)) (r : res (list V)) : Prop :=
  forall pre e post, log = pre ++ ERet (Err e) :: post ->
    (post = [] /\ r = Err e) \/ exists post', post = EClose (Err e) :: post'.
Definition error_stops_in {V} (log : list (event V)) : Prop :=
  forall pre e post, log = pre ++ ERet (Err e) :: post -> exists post', post = EClose (Err e) :: post'.
Lemma app_split : forall A (a b pre : list A) x post, a ++ b = pre ++ x :: post ->
  (exists r, a = pre ++ x :: r /\ post = r ++ b) \/ (exists r, b = r ++ x :: post /\ pre = a ++ r).
Proof.
  induction a as [|y a IH]; intros b pre x post H.
  - right. exists pre. auto.
  - destruct pre as [|z pre]; cbn in H.
    + injection H as -> <-. left. exists a. auto.
    + injection H as -> H. destruct (IH _ _ _ _ H) as [(r & -> & ->)|(r & -> & ->)]; [left|right]; exists r; auto.
Qed.
Lemma stops_all : forall data base V,
  (forall root anc qt keys total lo (log : list (event V)) bs r,
     level data base root anc qt keys total lo log bs r -> error_stops log r) /\
  (forall anc qt keys bi (log : list (event V)), body data base anc qt keys bi log -> error_stops_in log).
Proof.
  intros data base V.
  apply (level_body_ind data base V
    (fun root anc qt keys total lo (log : list (event V)) bs r => error_stops log r)
    (fun anc qt keys bi (log : list (event V)) => error_stops_in log)).
  - intros root anc qt keys total lo _ pre e post H. destruct pre; discriminate.
  - intros root anc qt keys total lo e0 _ pre e post H. destruct pre; discriminate.
  - intros root anc qt keys total lo b qt' keys' log e0 _ _ bi _ IH pre e post H.
    destruct pre as [|x pre]; [discriminate|]. injection H as _ H.
    apply app_split in H. destruct H as [(r & E & ->)|(r & E & ->)].
    + right. apply IH in E. destruct E as (r' & ->). exists (r' ++ [ERet (Err e0)]). reflexivity.
    + destruct r as [|y r]; [|destruct r; discriminate]. injection E as -> <-. auto.
  - intros root anc qt keys total lo b qt' keys' log v _ _ bi _ IH _ pre e post H.
    destruct pre as [|x pre]; [discriminate|]. injection H as _ H.
    apply app_split in H. destruct H as [(r & E & ->)|(r & E & ->)].
    + right. apply IH in E. destruct E as (r' & ->). exists (r' ++ [ERet (Ok v)]). reflexivity.
    + destruct r as [|y r]; [discriminate|destruct r; discriminate].
  - intros root anc qt keys total lo b qt' keys' log v log2 bs r _ _ bi _ IH _ IH2 pre e post H.
    destruct pre as [|x pre]; [discriminate|]. injection H as _ H.
    apply app_split in H. destruct H as [(rr & E & ->)|(rr & E & ->)].
    + right. apply IH in E. destruct E as (r' & ->). eexists. reflexivity.
    + destruct rr as [|y rr]; [discriminate|]. injection E as _ E. apply IH2 in E.
      destruct E as [[-> ->]|E]; [left|right]; auto.
  - intros anc qt keys bi pre e post H. destruct pre; discriminate.
  - intros anc qt keys bi e0 rest _ _ IH pre e post H.
    destruct pre as [|x pre]; [discriminate|]. injection H as _ H.
    destruct pre as [|y pre]; [discriminate|]. injection H as _ H. eapply IH. exact H.
  - intros anc qt keys bi d x n log bs r rest _ lo _ IH _ _ IH2 pre e post H.
    destruct pre as [|y pre]; [discriminate|]. injection H as _ H.
    apply app_split in H. destruct H as [(rr & E & ->)|(rr & E & ->)].
    + apply IH in E. destruct E as [[-> ->]|(r' & ->)]; [exists rest; reflexivity|]. eexists. reflexivity.
    + destruct rr as [|z rr]; [discriminate|]. injection E as _ E. eapply IH2. exact E.
Qed.
Theorem C25_errors_stop : forall data St V P (h : handler_t St V P) params pos s r pos' s' log,
  lenN data < 2 ^ 62 ->
  read_box_structure std_registry data (with_log h) params (pos, (s, [])) = (r, (pos', (s', log))) -> ends r ->
  forall pre e post, log = pre ++ ERet (Err e) :: post ->
    (post = [] /\ r = Err e) \/ exists post', post = EClose (Err e) :: post'.
Proof.
  intros data St V P h params pos s r pos' s' log HD H E.
  destruct (C23_trace _ _ _ _ _ _ _ _ _ _ _ _ HD H E) as (bs & L). exact (proj1 (stops_all data ctx0 V) _ _ _ _ _ _ _ _ _ L).
Qed.
Print Assumptions C25_errors_stop.

(** A result without an error: all boxes have been visited.  [top_level 0 log]: the
    calls and returns outside of any expansion. *)
Fixpoint top_level {V} (depth : nat) (log : list (event V)) : list (event V) :=
  match log with
  | [] => []
  | EOpen :: r => top_level (S depth) r
  | EClose _ :: r => top_level (Nat.pred depth) r
  | e :: r => match depth with O => e :: top_level depth r | _ => top_level depth r end
  end.
(** one box after the other, from [lo] on (positions are 64-bit numbers) *)
Fixpoint chain (lo : N) (bs : list boxinfo) (hi : N) : Prop :=
  match bs with
  | [] => lo = hi
  | b :: r => bi_offset b = lo /\ chain ((lo + bi_size b) mod 2 ^ 64) r hi
  end.
Lemma balanced : forall data base V,
  (forall root anc qt keys total lo (log : list (event V)) bs r, level data base root anc qt keys total lo log bs r ->
     forall d rest, top_level (S d) (log ++ rest) = top_level (S d) rest) /\
  (forall anc qt keys bi (log : list (event V)), body data base anc qt keys bi log ->
     forall d rest, top_level d (log ++ rest) = top_level d rest).
Proof.
  intros data base V.
  apply (level_body_ind data base V
    (fun root anc qt keys total lo (log : list (event V)) bs r => forall d rest, top_level (S d) (log ++ rest) = top_level (S d) rest)
    (fun anc qt keys bi (log : list (event V)) => forall d rest, top_level d (log ++ rest) = top_level d rest)).
  - reflexivity.
  - reflexivity.
  - intros root anc qt keys total lo b qt' keys' log e0 _ _ bi _ IH d rest. cbn [top_level app].
    rewrite <- app_assoc, IH. reflexivity.
  - intros root anc qt keys total lo b qt' keys' log v _ _ bi _ IH _ d rest. cbn [top_level app].
    rewrite <- app_assoc, IH. reflexivity.
  - intros root anc qt keys total lo b qt' keys' log v log2 bs r _ _ bi _ IH _ IH2 d rest. cbn [top_level app].
    rewrite <- app_assoc, IH. cbn [top_level app]. apply IH2.
  - reflexivity.
  - intros anc qt keys bi e0 rest0 _ _ IH d rest. cbn [top_level app Nat.pred]. apply IH.
  - intros anc qt keys bi d0 x n log bs r rest0 _ lo _ IH _ _ IH2 d rest. cbn [top_level app].
    rewrite <- app_assoc, IH. cbn [top_level app Nat.pred]. apply IH2.
Qed.
Lemma visited : forall data base V root anc qt keys total lo (log : list (event V)) bs r,
  level data base root anc qt keys total lo log bs r -> root = true ->
  forall vs, r = Ok vs -> exists hi, chain lo bs hi /\ no_header data hi /\ List.length bs = List.length vs /\
    top_level 0 log = flat_map (fun bv => [ECall (fst bv) (anc ++ [bi_type (fst bv)]); ERet (Ok (snd bv))]) (combine bs vs).
Proof.
  intros data base V.
  induction 1 as [root anc qt keys total lo HE|root anc qt keys total lo e HS|root anc qt keys total lo b qt' keys' log e F A bi B
                   |root anc qt keys total lo b qt' keys' log v F A bi B HL
                   |root anc qt keys total lo b qt' keys' log v log2 bs r F A bi B HN IH]; intros HR vs Hv; try discriminate.
  - injection Hv as <-. subst root. exists lo. repeat split; auto.
  - destruct r as [vs'|e| |]; try discriminate. injection Hv as <-. destruct (IH HR vs' eq_refl) as (hi & C & N & L & T).
    exists hi. cbn [chain List.length combine flat_map fst snd app]. split; [split; [apply F|exact C]|].
    split; [exact N|]. split; [now rewrite L|].
    cbn [top_level]. rewrite (proj2 (balanced data base V) _ _ _ _ _ B). cbn [top_level]. rewrite T. reflexivity.
Qed.
Theorem C25_all_visited : forall data St V P (h : handler_t St V P) params pos s vs pos' s' log,
  lenN data < 2 ^ 62 ->
  read_box_structure std_registry data (with_log h) params (pos, (s, [])) = (Ok vs, (pos', (s', log))) ->
  exists bs hi, chain 0 bs hi /\ no_header data hi /\ List.length bs = List.length vs /\
    top_level 0 log = flat_map (fun bv => [ECall (fst bv) [bi_type (fst bv)]; ERet (Ok (snd bv))]) (combine bs vs).
Proof.
  intros data St V P h params pos s vs pos' s' log HD H.
  destruct (C23_trace _ _ _ _ _ _ _ _ _ _ _ _ HD H) as (bs & L); [left; eauto|].
  exists bs. exact (visited _ _ _ _ _ _ _ _ _ _ _ _ L eq_refl vs eq_refl).
Qed.
Print Assumptions C25_all_visited.

(** ** C26.  In every call, the context says what the path says; about QuickTime
    and keys see [announce] and [level]: the last one that spoke among the boxes
    before this one on its own and on the enclosing levels. *)
Theorem C26_context : forall data St V P (h : handler_t St V P) params pos s r pos' s' log,
  lenN data < 2 ^ 62 ->
  read_box_structure std_registry data (with_log h) params (pos, (s, [])) = (r, (pos', (s', log))) -> ends r ->
  forall bi p, In (ECall bi p) log ->
  let anc := removelast p in
  p = anc ++ [bi_type bi] /\
  UnderWave (bi_ctx bi) = existsb (bt_eqb (bt "wave")) anc /\
  UnderIlst (bi_ctx bi) = existsb (bt_eqb (bt "ilst")) anc /\
  UnderUdta (bi_ctx bi) = existsb (bt_eqb (bt "udta")) anc /\
  (UnderIlstMeta (bi_ctx bi) = true <-> exists t, ilst_item false anc = Some t) /\
  (UnderIlstFreeMeta (bi_ctx bi) = true <-> ilst_item false anc = Some (bt "----")).
Proof.
  intros data St V P h params pos s r pos' s' log HD H E bi p HI anc.
  destruct (C23_trace _ _ _ _ _ _ _ _ _ _ _ _ HD H E) as (bs & L).
  assert (A :
    (forall root anc qt keys total lo (log : list (event V)) bs r, level data ctx0 root anc qt keys total lo log bs r ->
       forall bi p, In (ECall bi p) log -> exists anc qt keys, p = anc ++ [bi_type bi] /\ bi_ctx bi = ctx_of ctx0 qt keys anc) /\
    (forall anc qt keys bi0 (log : list (event V)), body data ctx0 anc qt keys bi0 log ->
       forall bi p, In (ECall bi p) log -> exists anc qt keys, p = anc ++ [bi_type bi] /\ bi_ctx bi = ctx_of ctx0 qt keys anc)).
  { clear. apply (level_body_ind data ctx0 V
      (fun root anc qt keys total lo (log : list (event V)) bs r => forall bi p, In (ECall bi p) log ->
          exists anc qt keys, p = anc ++ [bi_type bi] /\ bi_ctx bi = ctx_of ctx0 qt keys anc)
      (fun anc qt keys bi0 (log : list (event V)) => forall bi p, In (ECall bi p) log ->
          exists anc qt keys, p = anc ++ [bi_type bi] /\ bi_ctx bi = ctx_of ctx0 qt keys anc)).
    - intros root1 anc1 qt1 keys1 total1 lo1 _ bi1 p1 Q. destruct Q.
    - intros root1 anc1 qt1 keys1 total1 lo1 e1 _ bi1 p1 Q. destruct Q.
    - intros * _ _ bi0 _ IH bi p [Q|Q]; [injection Q as <- <-; eexists _, _, _; split; reflexivity|].
      apply in_app_iff in Q. destruct Q as [Q|[Q|[]]]; [auto|discriminate].
    - intros * _ _ bi0 _ IH _ bi p [Q|Q]; [injection Q as <- <-; eexists _, _, _; split; reflexivity|].
      apply in_app_iff in Q. destruct Q as [Q|[Q|[]]]; [auto|discriminate].
    - intros * _ _ bi0 _ IH _ IH2 bi p [Q|Q]; [injection Q as <- <-; eexists _, _, _; split; reflexivity|].
      apply in_app_iff in Q. destruct Q as [Q|[Q|Q]]; [auto|discriminate|auto].
    - intros anc1 qt1 keys1 bi0 bi1 p1 Q. destruct Q.
    - intros * _ _ IH bi1 p [Q|[Q|Q]]; [discriminate|discriminate|auto].
    - intros * _ lo _ IH _ _ IH2 bi1 p [Q|Q]; [discriminate|].
      apply in_app_iff in Q. destruct Q as [Q|[Q|Q]]; [auto|discriminate|auto]. }
  destruct (proj1 A _ _ _ _ _ _ _ _ _ L bi p HI) as (anc0 & qt & keys & -> & C).
  unfold anc. rewrite removelast_last. rewrite C. unfold ctx_of. cbn [UnderWave UnderIlst UnderUdta UnderIlstMeta UnderIlstFreeMeta ctx0 orb].
  repeat split.
  - destruct (ilst_item false anc0) as [t|]; [eauto|discriminate].
  - intros (t & ->). reflexivity.
  - destruct (ilst_item false anc0) as [t|]; [|discriminate]. intros Q. apply bytes_eqb_eq in Q. now subst t.
  - intros ->. reflexivity.
Qed.
Print Assumptions C26_context.

(** ** Examples.  A handler that expands moov and udta and passes errors on. *)
Definition walker : handler_t unit N unit := fun bi p q s =>
  if bt_eqb (bi_type bi) (bt "moov") || bt_eqb (bi_type bi) (bt "udta") then
    HExpand s q (fun r s' => match r with Ok vs => HRet s' (lenN vs) | Err e => HFail s' e | _ => HFail s' EEOF end)
  else if bt_eqb (bi_type bi) (bt "abcd") then HFail s (EMsg "abcd")
  else HRet s 0.
Definition trace_of (data : list byte) := let x := read_box_structure std_registry data (with_log walker) tt (0, (tt, [])) in
  (fst x, snd (snd (snd x))).

(** a well-formed file: free, moov with two boxes *)
Example C25_case_ok :
  let udta_ctx := mkctx false 0 false false false false true in
  trace_of (hex "0000000866726565000000186d6f6f760000001075647461000000087a7a7a7a") =
  (Ok [0; 1],
   [ECall (mkbi 0 8 8 (bt "free") false ctx0) [bt "free"]; ERet (Ok 0);
    ECall (mkbi 8 24 8 (bt "moov") false ctx0) [bt "moov"]; EOpen;
      ECall (mkbi 16 16 8 (bt "udta") false ctx0) [bt "moov"; bt "udta"]; EOpen;
        ECall (mkbi 24 8 8 (bt "zzzz") false udta_ctx) [bt "moov"; bt "udta"; bt "zzzz"]; ERet (Ok 0);
      EClose (Ok [0]); ERet (Ok 1);
    EClose (Ok [1]); ERet (Ok 1)]).
Proof. vm_compute. reflexivity. Qed.

(** the handler fails inside moov: nothing more is called *)
Example C25_case_fail :
  trace_of (hex "000000186d6f6f76000000086162636400000008667265650000000866726565") =
  (Err (EMsg "abcd"),
   [ECall (mkbi 0 24 8 (bt "moov") false ctx0) [bt "moov"]; EOpen;
      ECall (mkbi 8 8 8 (bt "abcd") false ctx0) [bt "moov"; bt "abcd"]; ERet (Err (EMsg "abcd"));
    EClose (Err (EMsg "abcd")); ERet (Err (EMsg "abcd"))]).
Proof. vm_compute. reflexivity. Qed.

(** a box in moov that claims to be larger than what is left of moov *)
Example C23_case_too_large :
  trace_of (hex "000000186d6f6f7600000008667265650000000966726565000000") =
  (Err (EMsg "too large box size"),
   [ECall (mkbi 0 24 8 (bt "moov") false ctx0) [bt "moov"]; EOpen;
      ECall (mkbi 8 8 8 (bt "free") false ctx0) [bt "moov"; bt "free"]; ERet (Ok 0);
    EClose (Err (EMsg "too large box size")); ERet (Err (EMsg "too large box size"))]).
Proof. vm_compute. reflexivity. Qed.

(** Without a bound on the end of the parent, boxes outside of it are reported as
    its children: moov at 16 has the size 2^64-1, the box in it ends at 2^64. *)
Theorem C23_absurd_size_refuted :
  exists data parent child p,
    let log := snd (trace_of data) in
    bi_hsize parent <= bi_size parent /\ bi_offset parent = 16 /\ In (ECall parent [bt "moov"]) log /\
    In (ECall child [bt "moov"; p]) log /\ bi_offset child = 0.
Proof.
  exists (hex "00000008667265650000000866726565000000016d6f6f76ffffffffffffffff000000017a7a7a7affffffffffffffe0").
  exists (mkbi 16 18446744073709551615 16 (bt "moov") false ctx0), (mkbi 0 8 8 (bt "free") false ctx0), (bt "free").
  vm_compute. repeat split; try discriminate; tauto.
Qed.
Print Assumptions C23_absurd_size_refuted.
