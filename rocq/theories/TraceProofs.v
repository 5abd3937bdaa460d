(** Every traversal, on any data, makes a right log. *)
From Verif Require Import Base BaseProofs Schema Structs Registry Unmarshal BoxInfo ReadTree SpecTree TreeProofs Flow SpecTrace.
Local Open Scope string_scope.
Local Open Scope list_scope.
Local Open Scope N_scope.
Local Open Scope monad_scope.

Section Proofs.
  Variable data : list byte.
  Variable base : context.
  Hypothesis data_small : lenN data < 2 ^ 62.
  Context {St V P : Type}.
  Variable h : handler_t St V P.
  Local Notation R := std_registry.

  Lemma payload_at_um : forall t b c,
    payload_at data t b c =
    fst (unmarshal_any R data t (payload_size b) c (bi_offset b + bi_hsize b)) \/ 2 ^ 64 <= bi_hsize b.
  Proof.
    intros t b c. unfold payload_at, payload_size, sub64, W64. change (2 ^ 64) with 18446744073709551616.
    destruct (N.leb_spec 18446744073709551616 (bi_hsize b)); [now right|]. left. now rewrite (N.mod_small (bi_hsize b)).
  Qed.
  Lemma inside_um : forall t b c, inside data b ->
    fst (unmarshal_any R data t (payload_size b) c (bi_offset b + bi_hsize b)) = payload_at data t b c.
  Proof.
    intros t b c [I _]. destruct (payload_at_um t b c) as [E|E]; [now rewrite E|].
    change (2 ^ 64) with 18446744073709551616 in E. change (2 ^ 62) with 4611686018427387904 in *. lia.
  Qed.
  Lemma dec_payload : forall bi, inside data bi -> dec data bi = payload_at data (bi_type bi) bi (bi_ctx bi).
  Proof.
    intros bi I. unfold dec, read_payload. rewrite (bind_ok _ _ _ _ _ _ _ _ (seek_inside data data_small bi 0 I)).
    now apply inside_um.
  Qed.

  Lemma prep_announce : forall anc qt keys b, inside data b ->
    prep data (set_ctx b (ctx_of base qt keys anc)) anc =
    match announce data base anc qt keys b with
    | Ok (qt', keys') => Ok (set_ctx b (ctx_of base qt' keys' anc))
    | Err e => Err e | Panic => Panic | OutOfFuel => OutOfFuel end.
  Proof.
    intros anc qt keys b I.
    assert (SK : forall c pos, seek_to_payload (set_ctx b c) pos = (Ok tt, bi_offset b + bi_hsize b)).
    { intros c pos. exact (seek_inside data data_small (set_ctx b c) pos (proj2 (inside_set data b c) I)). }
    unfold prep, prepare, announce.
    rewrite (bind_ok _ _ _ _ _ _ _ _ (SK _ _)).
    cbn [bi_type set_ctx]. rewrite (andb_comm (bt_eqb (bi_type b) (bt "ftyp"))).
    set (first := _ && bt_eqb (bi_type b) (bt "ftyp")).
    assert (K : forall qt,
      fst ((if bt_eqb (bi_type b) (bt "keys")
       then (x <- unmarshal_any R data (bt "keys") (payload_size b) (ctx_of base qt keys anc) ;;
             (let bi' := set_ctx b (set_keys (as_Z (lookup "EntryCount" (snd (fst x)))) (ctx_of base qt keys anc)) in
              seek_to_payload bi' ;;; ret bi'))
       else ret (set_ctx b (ctx_of base qt keys anc))) (bi_offset b + bi_hsize b)) =
      match
        (if bt_eqb (bi_type b) (bt "keys")
         then match payload_at data (bt "keys") b (ctx_of base qt keys anc) with
              | Ok (_, x, _) => Ok (qt, as_Z (lookup "EntryCount" x))
              | Err e => Err e | Panic => Panic | OutOfFuel => OutOfFuel
              end
         else Ok (qt, keys)) with
       | Ok (qt', keys') => Ok (set_ctx b (ctx_of base qt' keys' anc))
       | Err e => Err e | Panic => Panic | OutOfFuel => OutOfFuel end).
    { intros qt0. destruct (bt_eqb (bi_type b) (bt "keys")) eqn:EK; [|reflexivity].
      rewrite <- (inside_um _ _ _ I). unfold bind at 1.
      destruct (unmarshal_any R data (bt "keys") (payload_size b) (ctx_of base qt0 keys anc) (bi_offset b + bi_hsize b))
        as [[[[d x] n]|e| |] p1]; try reflexivity.
      cbn [fst snd]. cbv zeta. rewrite (bind_ok _ _ _ _ _ _ _ _ (SK _ p1)). reflexivity. }
    destruct first eqn:EF.
    - change (payload_size (set_ctx b (ctx_of base qt keys anc))) with (payload_size b). cbn [bi_ctx set_ctx].
      rewrite <- (inside_um _ _ _ I).
      unfold bind at 1. unfold bind at 1.
      destruct (unmarshal_any R data (bt "ftyp") (payload_size b) (ctx_of base qt keys anc) (bi_offset b + bi_hsize b))
        as [[[[d x] n]|e| |] p1]; try reflexivity.
      cbn [fst snd]. cbv zeta.
      assert (Q : (if has_compatible_brand x brand_qt then
                     set_ctx (set_ctx b (ctx_of base qt keys anc)) (set_qt (ctx_of base qt keys anc))
                   else set_ctx b (ctx_of base qt keys anc)) =
                  set_ctx b (ctx_of base (qt || has_compatible_brand x brand_qt) keys anc)).
      { destruct (has_compatible_brand x brand_qt); [rewrite orb_true_r|rewrite orb_false_r]; reflexivity. }
      rewrite Q. rewrite (bind_ok _ _ _ _ _ _ _ _ (SK _ p1)). unfold ret at 1. exact (K _).
    - unfold bind at 1, ret at 1. exact (K qt).
  Qed.

  Lemma announce_facts : forall anc qt keys b qt' keys', announce data base anc qt keys b = Ok (qt', keys') ->
    (anc <> [] -> qt' = qt) /\ (qt = true -> qt' = true) /\
    (bt_eqb (bi_type b) (bt "keys") = false -> keys' = keys).
  Proof.
    intros anc qt keys b qt' keys' H. unfold announce in H.
    match type of H with (match ?m with _ => _ end) = _ => destruct m as [qt1|e| |] eqn:E; try discriminate end.
    assert (Q : qt' = qt1 /\ (bt_eqb (bi_type b) (bt "keys") = false -> keys' = keys)).
    { destruct (bt_eqb (bi_type b) (bt "keys")).
      - destruct (payload_at data (bt "keys") b (ctx_of base qt1 keys anc)) as [[[d x] n]|e| |]; try discriminate.
        assert (Q : qt1 = qt') by (now injection H). split; [auto|discriminate].
      - assert (Q : qt1 = qt' /\ keys = keys') by (now injection H). destruct Q as [-> ->]. auto. }
    destruct Q as [-> Q]. split; [|split]; auto.
    - intros HA. destruct anc; [contradiction|]. rewrite andb_false_r in E. now injection E.
    - intros ->. destruct (bt_eqb (bi_type b) (bt "ftyp") && _).
      + destruct (payload_at data (bt "ftyp") b (ctx_of base true keys anc)) as [[[d x] n]|e| |]; try discriminate.
        injection E as <-. reflexivity.
      + now injection E.
  Qed.

  (** boxes of one level are inside what is left for it *)
  Lemma level_range : forall root anc qt keys total lo (log : list (event V)) bs r,
    level data base root anc qt keys total lo log bs r -> root = false -> anc <> [] -> lo + total < 2 ^ 64 ->
    exists hi, consecutive lo bs hi /\ hi <= lo + total /\
      (forall v, r = Ok v -> hi = lo + total \/ qt = true /\ lo + total < hi + 8).
  Proof.
    change (2 ^ 64) with 18446744073709551616.
    induction 1 as [root anc qt keys total lo HE|root anc qt keys total lo e HS|root anc qt keys total lo b qt' keys' log e F A bi B
                   |root anc qt keys total lo b qt' keys' log v F A bi B HL
                   |root anc qt keys total lo b qt' keys' log v log2 bs r F A bi B HN IH]; intros HR HA HT.
    - subst root. exists lo. cbn [consecutive]. split; [reflexivity|]. split; [lia|]. intros _ _. destruct HE as [H1 [H2| ->]]; [left; lia|right; lia].
    - exists lo. cbn [consecutive]. split; [reflexivity|]. split; [lia|]. discriminate.
    - destruct F as (_ & FO & FT). destruct (FT HR) as [_ F2]. exists (lo + bi_size b).
      cbn [consecutive bi bi_offset bi_size set_ctx]. split; [auto|]. split; [lia|]. discriminate.
    - destruct F as (_ & FO & FT). destruct (FT HR) as [_ F2]. exists (lo + bi_size b).
      cbn [consecutive bi bi_offset bi_size set_ctx]. split; [auto|]. split; [lia|]. discriminate.
    - destruct F as (_ & FO & FT). destruct (FT HR) as [_ F2].
      change (2 ^ 64) with 18446744073709551616 in *.
      rewrite N.mod_small in IH by lia.
      destruct (IH HR HA) as (hi & C & L & K); [lia|]. exists hi. cbn [consecutive bi bi_offset bi_size set_ctx].
      split; [auto|]. split; [lia|]. intros vs E. destruct (announce_facts _ _ _ _ _ _ A) as (Q & _). rewrite (Q HA) in K.
      destruct r as [vs'|e| |]; try discriminate. destruct (K vs' eq_refl); [left; lia|right; intuition lia].
  Qed.

  Definition plain {A} (r : res A) : Prop := match r with Ok _ | Err _ => True | _ => False end.

  Lemma sem_log : forall anc qt keys bi (child : N -> P -> St * list (event V) -> res (list V) * (St * list (event V))),
    inside data bi ->
    (forall d x n q y r y', payload_at data (bi_type bi) bi (bi_ctx bi) = Ok (d, x, n) ->
       child n q y = (r, y') -> plain r ->
       exists log bs, snd y' = snd y ++ log /\
         level data base false (anc ++ [bi_type bi]) qt keys
           ((bi_offset bi + bi_size bi + 2 ^ 64 - (bi_offset bi + bi_hsize bi + n)) mod 2 ^ 64)
           (bi_offset bi + bi_hsize bi + n) log bs r /\
         contained qt bi (bi_offset bi + bi_hsize bi + n) bs r) ->
    forall (p : hprog St V P) l y r y',
    sem data bi child (logged p l) y = (r, y') -> plain r ->
    exists log, snd y' = l ++ log ++ [ERet r] /\ body data base anc qt keys bi log.
  Proof.
    intros anc qt keys bi child I HC. pose proof (dec_payload bi I) as DP.
    induction p as [s0 v|s0 e|k IH|k IH|s0 q k IH|pos0 k IH]; intros l y r y' H HP; cbn [logged sem] in H.
    - injection H as <- <-. exists []. split; [reflexivity|constructor].
    - injection H as <- <-. exists []. split; [reflexivity|constructor].
    - destruct (dec data bi); try exact (IH _ _ _ _ _ H HP); injection H as <- <-; destruct HP.
    - destruct (dat data bi); try exact (IH _ _ _ _ _ H HP); injection H as <- <-; destruct HP.
    - destruct (dec data bi) as [[[d x] n]|e| |] eqn:ED.
      + destruct (child n q (s0, l ++ [EOpen])) as [r1 y1] eqn:EC.
        destruct r1 as [vs|e| |]; try (injection H as <- <-; destruct HP).
        * destruct (HC _ _ _ _ _ _ _ (eq_sym DP) EC Logic.I) as (log & bs & L & LV & CT).
          eapply IH in H; [|exact HP]. destruct H as (log2 & L2 & B2).
          exists (EOpen :: log ++ EClose (Ok vs) :: log2). split.
          { rewrite L2, L. cbn [snd]. rewrite <- !app_assoc. cbn [app]. rewrite <- !app_assoc. reflexivity. }
          econstructor; eauto.
        * destruct (HC _ _ _ _ _ _ _ (eq_sym DP) EC Logic.I) as (log & bs & L & LV & CT).
          eapply IH in H; [|exact HP]. destruct H as (log2 & L2 & B2).
          exists (EOpen :: log ++ EClose (Err e) :: log2). split.
          { rewrite L2, L. cbn [snd]. rewrite <- !app_assoc. cbn [app]. rewrite <- !app_assoc. reflexivity. }
          econstructor; eauto.
      + eapply IH in H; [|exact HP]. destruct H as (log2 & L2 & B2).
        exists (EOpen :: EClose (Err e) :: log2). split.
        { rewrite L2. cbn [snd]. rewrite <- !app_assoc. reflexivity. }
        econstructor; eauto.
      + injection H as <- <-. destruct HP.
      + injection H as <- <-. destruct HP.
    - exact (IH _ _ _ _ H HP).
  Qed.

  Lemma child_contained : forall anc qt keys bi d x n (log : list (event V)) bs r,
    inside data bi -> bi_size bi < 2 ^ 64 ->
    payload_at data (bi_type bi) bi (bi_ctx bi) = Ok (d, x, n) ->
    level data base false (anc ++ [bi_type bi]) qt keys
           ((bi_offset bi + bi_size bi + 2 ^ 64 - (bi_offset bi + bi_hsize bi + n)) mod 2 ^ 64)
           (bi_offset bi + bi_hsize bi + n) log bs r ->
    contained qt bi (bi_offset bi + bi_hsize bi + n) bs r.
  Proof.
    intros anc qt keys bi d x n log bs r I HS E L H1 H2. split; [lia|].
    destruct (dec_spec data data_small bi 0 I) as (p & _ & D). rewrite (dec_payload bi I), E in D.
    destruct D as (_ & _ & D). unfold payload_size, sub64, W64 in D.
    change (2 ^ 64) with 18446744073709551616 in *.
    assert (Hn : n <= bi_size bi - bi_hsize bi).
    { rewrite (N.mod_small (bi_hsize bi)) in D by lia.
      replace (bi_size bi + 18446744073709551616 - bi_hsize bi) with (bi_size bi - bi_hsize bi + 1 * 18446744073709551616) in D by lia.
      rewrite N.mod_add in D by lia. rewrite N.mod_small in D by lia. exact D. }
    replace ((bi_offset bi + bi_size bi + 18446744073709551616 - (bi_offset bi + bi_hsize bi + n)) mod 18446744073709551616)
      with (bi_size bi - bi_hsize bi - n) in L.
    2:{ replace (bi_offset bi + bi_size bi + 18446744073709551616 - (bi_offset bi + bi_hsize bi + n))
          with (bi_size bi - bi_hsize bi - n + 1 * 18446744073709551616) by lia.
        rewrite N.mod_add by lia. rewrite N.mod_small by lia. reflexivity. }
    destruct (level_range _ _ _ _ _ _ _ _ _ L eq_refl) as (hi & C & LL & K).
    - intros Q. destruct anc; discriminate.
    - change (2 ^ 64) with 18446744073709551616. lia.
    - exists hi. split; [exact C|]. split; [lia|]. intros v Ev. destruct (K v Ev); [left; lia|right; intuition lia].
  Qed.

  Definition lrec (fuel : nat) := lev data (with_log h) fuel.
  Definition level_ok (fuel : nat) : Prop :=
    forall root total anc qt keys params lo y r y' total',
      lev data (with_log h) fuel root total anc (ctx_of base qt keys anc) params lo y = (r, y') -> plain r ->
      (root = false -> total' = total) -> total < 2 ^ 64 ->
      exists log bs, snd y' = snd y ++ log /\ level data base root anc qt keys total' lo log bs r.

  Lemma visit_log : forall fuel anc qt keys b params y r y',
    level_ok fuel -> inside data b -> bi_size b < 2 ^ 64 ->
    visit data (with_log h) (lev data (with_log h) fuel false) (set_ctx b (ctx_of base qt keys anc)) anc params y = (r, y') ->
    plain r ->
    (exists e, r = Err e /\ y' = y /\ announce data base anc qt keys b = Err e) \/
    (exists qt' keys' log rv, announce data base anc qt keys b = Ok (qt', keys') /\
       let bi := set_ctx b (ctx_of base qt' keys' anc) in
       body data base anc qt' keys' bi log /\
       snd y' = snd y ++ ECall bi (anc ++ [bi_type b]) :: log ++ [ERet rv] /\
       match rv with
       | Ok v => r = if fits (bi_offset b + bi_size b) then Ok (v, bi) else Err ESeek
       | Err e => r = Err e
       | _ => False end).
  Proof.
    intros fuel anc qt keys b params y r y' IH I HS H HP. unfold visit in H. rewrite prep_announce in H by exact I.
    destruct (announce data base anc qt keys b) as [[qt' keys']|e| |] eqn:EA.
    2:{ injection H as <- <-. left. eauto. }
    2,3: injection H as <- <-; destruct HP.
    right. exists qt', keys'. set (bi := set_ctx b (ctx_of base qt' keys' anc)) in *. cbv zeta in H.
    match type of H with (let (_, _) := ?m in _) = _ => destruct m as [rv y1] eqn:ES end.
    assert (Ib : inside data bi) by (now apply inside_set).
    unfold with_log at 2 in ES.
    assert (PV : plain rv).
    { destruct rv; try exact Logic.I; injection H as <- <-; destruct HP. }
    eapply (sem_log anc qt' keys' bi) in ES; [| exact Ib | | exact PV].
    - destruct ES as (log & L & B). exists log, rv. split; [reflexivity|]. split; [exact B|]. split.
      + injection H as _ <-. rewrite L, <- !app_assoc. reflexivity.
      + destruct rv; injection H as <- _; auto.
    - intros d x n q y0 r0 y0' HPA HCH HP0. unfold bi at 3 in HCH. change (bi_ctx bi) with (ctx_of base qt' keys' anc) in HCH.
      change (bi_type (set_ctx b (ctx_of base qt' keys' anc))) with (bi_type bi) in HCH.
      rewrite child_ctx_of in HCH.
      assert (SP : span bi n = (bi_offset bi + bi_size bi + 2 ^ 64 - (bi_offset bi + bi_hsize bi + n)) mod 2 ^ 64).
      { destruct (dec_spec data data_small bi 0 Ib) as (p & _ & D). rewrite (dec_payload bi Ib), HPA in D.
        destruct D as (D1 & D2 & _). unfold span, sub64, W64. change (2 ^ 64) with 18446744073709551616.
        change (2 ^ 62) with 4611686018427387904 in *. rewrite (N.mod_small (bi_offset bi + bi_hsize bi + n)) by lia. reflexivity. }
      rewrite SP in HCH.
      destruct (IH _ _ _ _ _ _ _ _ _ _ _ HCH HP0 (fun _ => eq_refl) (N.mod_lt _ (2 ^ 64) ltac:(discriminate))) as (log & bs & L & LV).
      exists log, bs. split; [exact L|]. split; [exact LV|]. eapply child_contained; eauto.
  Qed.

  Lemma all_levels : forall fuel, level_ok fuel.
  Proof.
    induction fuel as [|fuel IH]; intros root total anc qt keys params lo y r y' total' H HP HT HT64.
    - cbn in H. injection H as <- <-. destruct HP.
    - cbn [lev] in H. destruct (root || (SmallHeaderSize <=? total)) eqn:EL.
      2:{ apply orb_false_iff in EL. destruct EL as [-> EL]. apply N.leb_gt in EL. unfold SmallHeaderSize in EL.
          specialize (HT eq_refl). subst total'. cbn [IsQuickTimeCompatible ctx_of] in H.
          destruct (N.eqb_spec total 0) as [E0|E0]; cbn [negb andb] in H.
          - injection H as <- <-. exists [], []. rewrite app_nil_r. split; [reflexivity|]. constructor. split; [lia|auto].
          - destruct qt; cbn [negb] in H.
            + injection H as <- <-. exists [], []. rewrite app_nil_r. split; [reflexivity|]. constructor. split; [lia|auto].
            + injection H as <- <-. exists [], []. rewrite app_nil_r. split; [reflexivity|]. constructor. right. left. repeat split; auto; lia. }
      assert (HT8 : root = false -> 8 <= total).
      { intros ->. cbn [orb] in EL. apply N.leb_le in EL. exact EL. }
      fold (box_at data lo) in H.
      destruct (box_at data lo) as [b|e| |] eqn:EB.
      + destruct (box_at_ok data data_small _ _ EB) as (BO & BI & _ & BC & BS).
        destruct (negb root && (total <? bi_size b)) eqn:EN.
        { apply andb_prop in EN. destruct EN as [EN1 EN2]. destruct root; [discriminate|]. apply N.ltb_lt in EN2.
          injection H as <- <-. exists [], []. rewrite app_nil_r. split; [reflexivity|]. constructor.
          right. right. left. split; [reflexivity|]. exists b. split; [exact EB|]. rewrite (HT eq_refl). exact EN2. }
        assert (FD : found data root total' lo b).
        { split; [exact EB|]. split; [exact BO|]. intros ->. rewrite (HT eq_refl). split; [auto|].
          cbn [negb andb] in EN. now apply N.ltb_ge in EN. }
        destruct (visit data (with_log h) (lev data (with_log h) fuel false) (set_ctx b (ctx_of base qt keys anc)) anc params y)
          as [rv y1] eqn:EV.
        assert (PV : plain rv) by (destruct rv as [[v b']|e| |]; try exact Logic.I; injection H as <- <-; destruct HP).
        destruct (visit_log _ _ _ _ _ _ _ _ _ IH BI (proj2 BS) EV PV) as [(e & -> & -> & EA)|(qt' & keys' & log & rr & EA & B & L & Q)].
        { injection H as <- <-. exists [], []. rewrite app_nil_r. split; [reflexivity|]. constructor.
          right. right. right. eauto. }
        cbv zeta in B, L, Q. set (bi := set_ctx b (ctx_of base qt' keys' anc)) in *.
        destruct rr as [v|e| |]; [| |contradiction..].
        * rewrite BO in Q. destruct (fits (lo + bi_size b)) eqn:EF.
          -- subst rv.
             assert (NC : next_ctx bi (ctx_of base qt keys anc) = ctx_of base qt' keys' anc).
             { destruct (announce_facts _ _ _ _ _ _ EA) as (_ & F2 & F3).
               exact (ctx_next base qt keys anc qt' keys' (bi_type b) F2 F3). }
             rewrite NC in H.
             destruct (lev data (with_log h) fuel root (sub64 total (bi_size b)) anc (ctx_of base qt' keys' anc) params (w64 (lo + bi_size b)) y1)
               as [r2 y2] eqn:E2.
             injection H as <- <-.
             assert (P2 : plain r2) by (destruct r2; try exact Logic.I; destruct HP).
             assert (HT2 : root = false -> total' - bi_size b = sub64 total (bi_size b)).
             { intros ->. rewrite (HT eq_refl). cbn [negb andb] in EN. apply N.ltb_ge in EN.
               unfold sub64, W64. change (2 ^ 64) with 18446744073709551616 in *. rewrite (N.mod_small (bi_size b)) by lia.
               replace (total + 18446744073709551616 - bi_size b) with (total - bi_size b + 1 * 18446744073709551616) by lia.
               rewrite N.mod_add by lia. symmetry. apply N.mod_small. lia. }
             destruct (IH _ _ _ _ _ _ _ _ _ _ _ E2 P2 HT2 (N.mod_lt _ (2 ^ 64) ltac:(discriminate))) as (log2 & bs & L2 & LV).
             exists (ECall bi (anc ++ [bi_type b]) :: log ++ ERet (Ok v) :: log2), (bi :: bs). split.
             ++ rewrite L2, L, <- !app_assoc. cbn [app]. rewrite <- !app_assoc. reflexivity.
             ++ econstructor; eauto.
          -- subst rv. injection H as <- <-. exists (ECall bi (anc ++ [bi_type b]) :: log ++ [ERet (Ok v)]), [bi].
             split; [exact L|]. econstructor; eauto. unfold fits in EF. apply N.ltb_ge in EF. exact EF.
        * subst rv. injection H as <- <-. exists (ECall bi (anc ++ [bi_type b]) :: log ++ [ERet (Err e)]), [bi].
          split; [exact L|]. econstructor; eauto.
      + assert (ST : (root = true -> e <> EEOF) -> stops data base root anc qt keys total' lo e) by (left; auto).
        destruct e; try (injection H as <- <-; exists [], []; rewrite app_nil_r; split; [reflexivity|]; constructor; apply ST; intros; discriminate).
        destruct root.
        * injection H as <- <-. exists [], []. rewrite app_nil_r. split; [reflexivity|]. constructor.
          destruct (box_at_cases data data_small lo) as [(b & E & _)|[[_ E]|[E _]]]; [congruence|exact E|congruence].
        * injection H as <- <-; exists [], []; rewrite app_nil_r; split; [reflexivity|]; constructor; apply ST; intros; discriminate.
      + pose proof (box_at_plain data data_small lo) as Q. rewrite EB in Q. destruct Q.
      + pose proof (box_at_plain data data_small lo) as Q. rewrite EB in Q. destruct Q.
  Qed.
End Proofs.
