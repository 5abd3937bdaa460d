(** C22: handlers may move the stream and read as they like.
    C24: termination. *)
From Verif Require Import Base BaseProofs Schema Structs Registry Unmarshal SpecTotal PropTotal BoxInfo ReadTree SpecTree TreeProofs Flow
     SpecTrace TraceProofs PropTrace.
Local Open Scope string_scope.
Local Open Scope list_scope.
Local Open Scope N_scope.
Local Open Scope monad_scope.

(** ** C22.  Two handler programs are alike, when the payload of the box is [rp]
    and its data [rd], if they make the same expansions and return the same, no
    matter how often and when they read the payload and the data and where they
    move the stream. *)
Inductive alike {St V P} (rp : res (boxdef * list (string * val) * N)) (rd : res (list byte * N))
  : hprog St V P -> hprog St V P -> Prop :=
| A_ret : forall s v, alike rp rd (HRet s v) (HRet s v)
| A_fail : forall s e, alike rp rd (HFail s e) (HFail s e)
| A_expand : forall s q k1 k2, (forall r s', alike rp rd (k1 r s') (k2 r s')) ->
    alike rp rd (HExpand s q k1) (HExpand s q k2)
| A_payload_l : forall k p, alike rp rd (k rp) p -> alike rp rd (HReadPayload k) p
| A_payload_r : forall k p, alike rp rd p (k rp) -> alike rp rd p (HReadPayload k)
| A_data_l : forall k p, alike rp rd (k rd) p -> alike rp rd (HReadData k) p
| A_data_r : forall k p, alike rp rd p (k rd) -> alike rp rd p (HReadData k)
| A_move_l : forall pos k p, alike rp rd k p -> alike rp rd (HMove pos k) p
| A_move_r : forall pos k p, alike rp rd p k -> alike rp rd p (HMove pos k).

Ltac both := let A := fresh "PA" in let B := fresh "PB" in intros A B; cbn in A, B; try contradiction.

Section Alike.
  Variable data : list byte.
  Hypothesis data_small : lenN data < 2 ^ 62.
  Context {St V P : Type}.
  Variables h1 h2 : handler_t St V P.
  Hypothesis same : forall rp rd bi p q s, alike rp rd (h1 bi p q s) (h2 bi p q s).

  Definition agree {A} (x y : res A * St) : Prop := plain (fst x) -> plain (fst y) -> x = y.

  Lemma sem_alike : forall bi (c1 c2 : N -> P -> St -> res (list V) * St),
    (forall n q s, agree (c1 n q s) (c2 n q s)) ->
    forall p1 p2, alike (dec data bi) (dat data bi) p1 p2 -> forall s, agree (sem data bi c1 p1 s) (sem data bi c2 p2 s).
  Proof.
    intros bi c1 c2 HC p1 p2 HA.
    induction HA as [s0 v|s0 e|s0 q k1 k2 _ IH|k p _ IH|k p _ IH|k p _ IH|k p _ IH|pos k p _ IH|pos k p _ IH]; intros s; cbn [sem].
    - intros _ _. reflexivity.
    - intros _ _. reflexivity.
    - destruct (dec data bi) as [[[d x] n]|e| |]; try (both; fail); auto.
      specialize (HC n q s0). destruct (c1 n q s0) as [[v1|e1| |] s1], (c2 n q s0) as [[v2|e2| |] s2];
        both; specialize (HC Logic.I Logic.I); try discriminate; injection HC as -> ->; apply IH; assumption.
    - destruct (dec data bi); auto; both.
    - destruct (dec data bi); auto; both.
    - destruct (dat data bi); auto; both.
    - destruct (dat data bi); auto; both.
    - auto.
    - auto.
  Qed.
  Lemma visit_alike : forall rec1 rec2 bi pth params s,
    (forall t p c q lo s, agree (rec1 t p c q lo s) (rec2 t p c q lo s)) ->
    agree (visit data h1 rec1 bi pth params s) (visit data h2 rec2 bi pth params s).
  Proof.
    intros rec1 rec2 bi0 pth params s HR. unfold visit. destruct (prep data bi0 pth) as [bi|e| |]; try (intros _ _; reflexivity).
    cbv zeta.
    set (c1 := fun n q s => rec1 _ _ _ q (_ + n) s). set (c2 := fun n q s => rec2 _ _ _ q (_ + n) s).
    assert (HC : forall n q s, agree (c1 n q s) (c2 n q s)) by (intros; apply HR).
    pose proof (sem_alike bi c1 c2 HC _ _ (same _ _ bi (pth ++ [bi_type bi]) params s) s) as A.
    destruct (sem data bi c1 _ s) as [[v1|e1| |] s1], (sem data bi c2 _ s) as [[v2|e2| |] s2];
      both; specialize (A Logic.I Logic.I); try discriminate; injection A as -> ->; reflexivity.
  Qed.
  Lemma lev_alike : forall fuel root total pth ctx params lo s,
    agree (lev data h1 fuel root total pth ctx params lo s) (lev data h2 fuel root total pth ctx params lo s).
  Proof.
    induction fuel as [|fuel IH]; intros root total pth ctx params lo s; cbn [lev]; [intros []|].
    destruct (root || _). 2:{ intros _ _. reflexivity. }
    destruct (box_at data lo) as [b|e| |]; try (intros _ _; reflexivity).
    destruct (negb root && _); [intros _ _; reflexivity|].
    pose proof (visit_alike (lev data h1 fuel false) (lev data h2 fuel false) (set_ctx b ctx) pth params s) as VA.
    destruct (visit data h1 _ _ _ _ _) as [[[v1 b1]|e1| |] s1], (visit data h2 _ _ _ _ _) as [[[v2 b2]|e2| |] s2];
      try (both; fail);
      specialize (VA (fun t p c q lo s => IH false t p c q lo s) Logic.I Logic.I); try discriminate;
      try (injection VA as -> ->; intros _ _; reflexivity).
    - injection VA as -> -> ->.
      specialize (IH root (sub64 total (bi_size b)) pth (next_ctx b2 ctx) params (w64 (lo + bi_size b)) s2).
      destruct (lev data h1 fuel root _ _ _ _ _ _) as [[w1|e1| |] t1], (lev data h2 fuel root _ _ _ _ _ _) as [[w2|e2| |] t2];
      both; specialize (IH Logic.I Logic.I); try discriminate; injection IH as -> ->; reflexivity.
  Qed.
End Alike.

Theorem C22_moves : forall data St V P (h1 h2 : handler_t St V P),
  lenN data < 2 ^ 62 ->
  (forall rp rd bi p q s, alike rp rd (h1 bi p q s) (h2 bi p q s)) ->
  forall params pos1 pos2 s r1 p1 s1 r2 p2 s2,
  read_box_structure std_registry data h1 params (pos1, s) = (r1, (p1, s1)) -> ends r1 ->
  read_box_structure std_registry data h2 params (pos2, s) = (r2, (p2, s2)) -> ends r2 ->
  r1 = r2 /\ s1 = s2.
Proof.
  intros data St V P h1 h2 HD HA params pos1 pos2 s r1 p1 s1 r2 p2 s2 H1 E1 H2 E2.
  unfold read_box_structure, bind, lift_s, s_seek in H1, H2. cbn [fst snd] in H1, H2.
  change (0 <? 9223372036854775808) with true in H1, H2. cbv iota in H1, H2.
  destruct (lev_spec data HD h1 (tree_fuel data) true 0 [] ctx0 params 0 s) as (q1 & L1).
  destruct (lev_spec data HD h2 (tree_fuel data) true 0 [] ctx0 params 0 s) as (q2 & L2).
  rewrite L1 in H1. rewrite L2 in H2.
  pose proof (lev_alike data h1 h2 HA (tree_fuel data) true 0 [] ctx0 params 0 s) as A. unfold agree in A.
  destruct (lev data h1 _ _ _ _ _ _ _ _) as [a1 b1], (lev data h2 _ _ _ _ _ _ _ _) as [a2 b2]. cbn [fst snd] in *.
  injection H1 as -> -> ->. injection H2 as -> -> ->.
  specialize (A (ends_plain _ _ E1) (ends_plain _ _ E2)). now injection A.
Qed.
Print Assumptions C22_moves.

Theorem C22_moves_from : forall data St V P (h1 h2 : handler_t St V P) bi,
  lenN data < 2 ^ 62 -> 8 <= bi_hsize bi -> bi_offset bi + bi_hsize bi <= lenN data ->
  (forall rp rd bi p q s, alike rp rd (h1 bi p q s) (h2 bi p q s)) ->
  forall params pos1 pos2 s r1 p1 s1 r2 p2 s2,
  read_box_structure_from_internal std_registry data h1 bi params (pos1, s) = (r1, (p1, s1)) -> ends r1 ->
  read_box_structure_from_internal std_registry data h2 bi params (pos2, s) = (r2, (p2, s2)) -> ends r2 ->
  r1 = r2 /\ s1 = s2.
Proof.
  intros data St V P h1 h2 bi HD H8 HI HA params pos1 pos2 s r1 p1 s1 r2 p2 s2 H1 E1 H2 E2.
  unfold read_box_structure_from_internal in H1, H2.
  assert (I : inside data bi) by (split; assumption).
  destruct (box_internal_visit data HD h1 (fun t p c q => read_structure std_registry data h1 (tree_fuel data) false t p c q)
              (lev data h1 (tree_fuel data) false) bi [] params pos1 s I) as (q1 & B1 & _).
  { intros. now apply lev_spec. }
  destruct (box_internal_visit data HD h2 (fun t p c q => read_structure std_registry data h2 (tree_fuel data) false t p c q)
              (lev data h2 (tree_fuel data) false) bi [] params pos2 s I) as (q2 & B2 & _).
  { intros. now apply lev_spec. }
  rewrite (bind_case _ _ _ _ _ _ _ _ B1) in H1. rewrite (bind_case _ _ _ _ _ _ _ _ B2) in H2.
  pose proof (visit_alike data h1 h2 HA (lev data h1 (tree_fuel data) false) (lev data h2 (tree_fuel data) false) bi [] params s
     (fun t p c q lo s => lev_alike data h1 h2 HA (tree_fuel data) false t p c q lo s)) as A. unfold agree in A.
  destruct (visit data h1 _ _ _ _ _) as [[x1|e1| |] b1], (visit data h2 _ _ _ _ _) as [[x2|e2| |] b2]; cbn [fst snd] in *;
    injection H1 as <- <- <-; injection H2 as <- <- <-;
    try (destruct (ends_plain _ _ E1)); try (destruct (ends_plain _ _ E2)); specialize (A Logic.I Logic.I); try discriminate.
  - injection A as -> ->. auto.
  - injection A as -> ->. auto.
Qed.
Print Assumptions C22_moves_from.

(** A handler that reads everything twice and seeks, and its plain counterpart *)
Definition busy : handler_t N N unit := fun bi p q s =>
  HMove 7 (HReadData (fun d => HReadPayload (fun x => HMove 0 (HReadPayload (fun y =>
    match x with
    | Ok (_, _, n) => HExpand (s + n) q (fun r s' => HReadData (fun d' => HMove 1 (HRet s' n)))
    | Err e => HMove 5 (HRet (s + 1000) 1)
    | _ => HFail s EEOF
    end)))))%N.
Definition calm : handler_t N N unit := fun bi p q s =>
  HReadPayload (fun x =>
    match x with
    | Ok (_, _, n) => HExpand (s + n) q (fun r s' => HRet s' n)
    | Err e => HRet (s + 1000) 1
    | _ => HFail s EEOF
    end).
Example C22_case : (forall rp rd bi p q s, alike rp rd (busy bi p q s) (calm bi p q s)) /\
  (let x := read_box_structure std_registry (file_bytes PropTree.case_file) busy tt (9, 0) in (fst x, snd (snd x))) =
    (Ok [16; 0; 2], 1018) /\
  (let x := read_box_structure std_registry (file_bytes PropTree.case_file) calm tt (9, 0) in (fst x, snd (snd x))) =
    (Ok [16; 0; 2], 1018).
Proof.
  split; [|vm_compute; auto]. intros rp rd bi p q s. unfold busy, calm.
  apply A_move_l, A_data_l, A_payload_l, A_move_l, A_payload_l, A_payload_r.
  destruct rp as [[[d x] n]|e| |].
  - apply A_expand. intros r s'. apply A_data_l, A_move_l, A_ret.
  - apply A_move_l, A_ret.
  - apply A_fail.
  - apply A_fail.
Qed.

(** ** C24.  [careful h]: the handler refuses a box whose size is smaller than its
    header, and a box that ends behind 2^64. *)
Definition careful {St V P} (h : handler_t St V P) : Prop :=
  forall bi p q s, bi_size bi < bi_hsize bi \/ 2 ^ 64 <= bi_offset bi + bi_size bi ->
  exists s' e, h bi p q s = HFail s' e.

Section Total.
  Variable data : list byte.
  Hypothesis data_small : lenN data < 2 ^ 48.
  Hypothesis no_endless : forall pos, pos <= lenN data -> ~ trun_endless (skipN pos data).
  Context {St V P : Type}.
  Variable h : handler_t St V P.
  Hypothesis h_careful : careful h.

  Lemma small62 : lenN data < 2 ^ 62.
  Proof. change (2 ^ 48) with 281474976710656 in *. change (2 ^ 62) with 4611686018427387904. lia. Qed.
  Lemma payload_plain : forall t bi c, inside data bi -> plain (payload_at data t bi c).
  Proof.
    intros t bi c [I _]. unfold payload_at. apply ends_plain.
    destruct (C10_unmarshal_total_partial data t ((bi_size bi + 2 ^ 64 - bi_hsize bi) mod 2 ^ 64) c _ I data_small (fun _ => no_endless _ I))
      as [(d & x & n & E)|E]; [left; eauto|right; exact E].
  Qed.
  Lemma dec_plain : forall bi, inside data bi -> plain (dec data bi).
  Proof. intros bi I. rewrite (dec_payload data small62 bi I). now apply payload_plain. Qed.
  Lemma dat_plain : forall bi, inside data bi -> plain (dat data bi).
  Proof.
    intros bi I. unfold dat, read_data. rewrite (bind_ok _ _ _ _ _ _ _ _ (seek_inside data small62 bi 0 I)).
    destruct (copy_plain data (payload_size bi) (bi_offset bi + bi_hsize bi)) as (p & [(x & E)|E]);
      unfold bind; rewrite E; exact Logic.I.
  Qed.
  Lemma sem_plain : forall bi (child : N -> P -> St -> res (list V) * St), inside data bi ->
    (forall n q s, plain (fst (child n q s))) -> forall p s, plain (fst (sem data bi child p s)).
  Proof.
    intros bi child I HC. pose proof (dec_plain bi I) as D1. pose proof (dat_plain bi I) as D2.
    induction p as [s0 v|s0 e|k IH|k IH|s0 q k IH|pos0 k IH]; intros s; cbn [sem]; try exact Logic.I.
    - destruct (dec data bi); try contradiction; auto.
    - destruct (dat data bi); try contradiction; auto.
    - destruct (dec data bi) as [[[d x] n]|e| |]; try contradiction; auto.
      specialize (HC n q s0). destruct (child n q s0) as [[vs|e| |] s2]; try contradiction; auto.
    - auto.
  Qed.
  Lemma prep_plain : forall bi pth, inside data bi -> plain (prep data bi pth).
  Proof.
    intros bi pth I.
    assert (Q : exists base qt keys, bi_ctx bi = ctx_of base qt keys pth \/ True) by (exists ctx0, true, 0%Z; auto).
    unfold prep, prepare.
    rewrite (bind_ok _ _ _ _ _ _ _ _ (seek_inside data small62 bi 0 I)).
    assert (K : forall c p, plain (fst ((if bt_eqb (bi_type (set_ctx bi c)) (bt "keys")
       then (x <- unmarshal_any std_registry data (bt "keys") (payload_size (set_ctx bi c)) (bi_ctx (set_ctx bi c)) ;;
             (let bi' := set_ctx (set_ctx bi c) (set_keys (as_Z (lookup "EntryCount" (snd (fst x)))) (bi_ctx (set_ctx bi c))) in
              seek_to_payload bi' ;;; ret bi'))
       else ret (set_ctx bi c)) p)) \/ p <> bi_offset bi + bi_hsize bi).
    { intros c p. destruct (N.eq_dec p (bi_offset bi + bi_hsize bi)) as [->|]; [left|now right].
      destruct (bt_eqb _ _); [|exact Logic.I].
      pose proof (payload_plain (bt "keys") bi c I) as U. rewrite <- (inside_um data small62 _ _ _ I) in U.
      change (payload_size (set_ctx bi c)) with (payload_size bi). cbn [bi_ctx set_ctx].
      unfold bind at 1. destruct (unmarshal_any _ _ _ _ _ _) as [[x|e| |] p]; try contradiction; [|exact Logic.I].
      cbv zeta. unfold bind. destruct (seek_plain (set_ctx (set_ctx bi c) (set_keys (as_Z (lookup "EntryCount" (snd (fst x)))) c)) p) as (p' & [E|E]);
        rewrite E; exact Logic.I. }
    assert (Z : bi = set_ctx bi (bi_ctx bi)) by (now destruct bi).
    destruct (_ && _).
    - pose proof (payload_plain (bt "ftyp") bi (bi_ctx bi) I) as U. rewrite <- (inside_um data small62 _ _ _ I) in U.
      unfold bind at 1. unfold bind at 1. destruct (unmarshal_any _ _ _ _ _ _) as [[x|e| |] p]; try contradiction; [|exact Logic.I].
      cbv zeta.
      assert (W : exists c, (if has_compatible_brand (snd (fst x)) brand_qt then set_ctx bi (set_qt (bi_ctx bi)) else bi) = set_ctx bi c)
        by (destruct (has_compatible_brand _ _); eauto).
      destruct W as (c & ->).
      rewrite (bind_ok _ _ _ _ _ _ _ _ (seek_inside data small62 (set_ctx bi c) p (proj2 (inside_set data bi c) I))).
      unfold ret at 1. destruct (K c (bi_offset bi + bi_hsize bi)) as [K1|K1]; [exact K1|contradiction].
    - unfold bind at 1, ret at 1. rewrite Z. destruct (K (bi_ctx bi) (bi_offset bi + bi_hsize bi)) as [K1|K1]; [exact K1|contradiction].
  Qed.

  Lemma lev_plain : forall fuel root total pth ctx params lo s,
    (1 <= fuel)%nat -> lenN data < N.of_nat fuel + lo ->
    plain (fst (lev data h fuel root total pth ctx params lo s)).
  Proof.
    pose proof small62 as S62. change (2 ^ 62) with 4611686018427387904 in S62.
    induction fuel as [|fuel IH]; intros root total pth ctx params lo s H1 HL; [lia|]. cbn [lev].
    destruct (root || _). 2:{ destruct (_ && _); exact Logic.I. }
    pose proof (box_at_plain data small62 lo) as BP.
    destruct (box_at data lo) as [b|e| |] eqn:EB; try contradiction.
    2:{ destruct e; try exact Logic.I. destruct root; exact Logic.I. }
    destruct (negb root && _); [exact Logic.I|].
    destruct (box_at_ok data small62 _ _ EB) as (BO & BI & BH & _ & _).
    assert (FU : (1 <= fuel)%nat /\ lenN data < N.of_nat fuel + (lo + 8)).
    { destruct BI as [BI B8]. rewrite BO in BI. split; lia. }
    destruct FU as [FU1 FU2].
    assert (VP : plain (fst (visit data h (lev data h fuel false) (set_ctx b ctx) pth params s)) /\
      forall v b', fst (visit data h (lev data h fuel false) (set_ctx b ctx) pth params s) = Ok (v, b') ->
        bi_hsize b <= bi_size b /\ bi_offset b + bi_size b < 2 ^ 64).
    { unfold visit. pose proof (prep_plain (set_ctx b ctx) pth (proj2 (inside_set data b ctx) BI)) as PP.
      destruct (prep data (set_ctx b ctx) pth) as [bi|e| |] eqn:EP; try contradiction; [|split; [exact Logic.I|discriminate]].
      destruct (prep_same data _ _ _ EP) as (c & Q).
      assert (QB : bi_size bi = bi_size b /\ bi_hsize bi = bi_hsize b /\ bi_offset bi = bi_offset b) by (subst bi; auto).
      destruct QB as (Q1 & Q2 & Q3).
      assert (Ib : inside data bi) by (subst bi; exact BI).
      cbv zeta. set (ch := fun n q s => lev data h fuel false _ _ _ q (_ + n) s).
      assert (SP : plain (fst (sem data bi ch (h bi (pth ++ [bi_type bi]) params s) s))).
      { apply sem_plain; [exact Ib|]. intros n q s0. unfold ch. apply IH; [exact FU1|]. rewrite Q3, Q2, BO.
        destruct BI as [_ B8]. lia. }
      destruct (N.ltb_spec (bi_size bi) (bi_hsize bi)) as [HB|HB].
      { destruct (h_careful bi (pth ++ [bi_type bi]) params s (or_introl HB)) as (s' & e & E). rewrite E. cbn [sem fst].
        split; [exact Logic.I|discriminate]. }
      destruct (N.leb_spec (2 ^ 64) (bi_offset bi + bi_size bi)) as [HW|HW].
      { destruct (h_careful bi (pth ++ [bi_type bi]) params s (or_intror HW)) as (s' & e & E). rewrite E. cbn [sem fst].
        split; [exact Logic.I|discriminate]. }
      destruct (sem data bi ch _ s) as [[v|e| |] s1]; try contradiction; cbn [fst].
      - destruct (fits _); split; try exact Logic.I; intros; rewrite <- ?Q1, <- ?Q2, <- ?Q3; auto.
      - split; [exact Logic.I|discriminate]. }
    destruct VP as [VP VQ].
    destruct (visit data h (lev data h fuel false) (set_ctx b ctx) pth params s) as [[[v b']|e| |] s1]; try contradiction; try exact Logic.I.
    destruct (VQ v b' eq_refl) as [Z1 Z2]. cbn [fst].
    assert (W : w64 (lo + bi_size b) = lo + bi_size b).
    { unfold w64, W64. apply N.mod_small. rewrite <- BO. exact Z2. }
    rewrite W.
    specialize (IH root (sub64 total (bi_size b)) pth (next_ctx b' ctx) params (lo + bi_size b) s1 FU1).
    destruct BI as [_ B8]. assert (LL : lenN data < N.of_nat fuel + (lo + bi_size b)) by lia. specialize (IH LL).
    destruct (lev data h fuel root _ pth _ params _ s1) as [[vs|e| |] s2]; try contradiction; exact Logic.I.
  Qed.
End Total.

(** A careful handler on a stream of less than 2^48 bytes (C10) that does not
    contain the trun payload on which the decoder loops (C10): a value or an error *)
Theorem C24_terminates_partial : forall data St V P (h : handler_t St V P) params pos s,
  lenN data < 2 ^ 48 -> (forall pos, pos <= lenN data -> ~ trun_endless (skipN pos data)) -> careful h ->
  ends (fst (read_box_structure std_registry data h params (pos, s))).
Proof.
  intros data St V P h params pos s HD HT HC.
  unfold read_box_structure, bind, lift_s, s_seek. cbn [fst snd].
  change (0 <? 9223372036854775808) with true. cbv iota.
  destruct (lev_spec data (small62 _ HD) h (tree_fuel data) true 0 [] ctx0 params 0 s) as (q1 & L1). rewrite L1. cbn [fst].
  pose proof (lev_plain data HD HT h HC (tree_fuel data) true 0 [] ctx0 params 0 s) as LP.
  destruct (lev data h _ _ _ _ _ _ _ _) as [r s1]. cbn [fst] in *.
  unfold tree_fuel in LP. destruct r; [left; eauto|right; eauto| |]; exfalso; apply LP; unfold lenN; lia.
Qed.
Print Assumptions C24_terminates_partial.

(** A careful handler, and files that meet the hypotheses, with sizes that are
    too small or too large among them *)
Definition careful_walker : handler_t unit N unit := fun bi p q s =>
  if (bi_size bi <? bi_hsize bi) || (2 ^ 64 <=? bi_offset bi + bi_size bi) then HFail s (EMsg "bad size") else walker bi p q s.
Lemma careful_walker_ok : careful careful_walker.
Proof.
  intros bi p q s H. unfold careful_walker. exists s, (EMsg "bad size").
  destruct (N.ltb_spec (bi_size bi) (bi_hsize bi)); [reflexivity|].
  destruct (N.leb_spec (2 ^ 64) (bi_offset bi + bi_size bi)); [reflexivity|]. lia.
Qed.
Lemma few_bytes : forall data, (forall pos, pos < lenN data -> trun_sample_count (skipN pos data) <> 4294967295) ->
  forall pos, pos <= lenN data -> ~ trun_endless (skipN pos data).
Proof.
  intros data H pos HP [_ Q]. destruct (N.eq_dec pos (lenN data)) as [->|].
  - rewrite skipN_all in Q by lia. discriminate.
  - apply (H pos); [lia|exact Q].
Qed.
Example C24_case :
  let file := file_bytes PropTree.case_file in
  lenN file < 2 ^ 48 /\ (forall pos, pos <= lenN file -> ~ trun_endless (skipN pos file)) /\
  fst (read_box_structure std_registry file careful_walker tt (0, tt)) = Ok [0; 2; 0] /\
  fst (read_box_structure std_registry (hex "000000046d6f6f76") careful_walker tt (0, tt)) = Err (EMsg "bad size").
Proof.
  split; [reflexivity|]. split; [|vm_compute; auto].
  apply few_bytes. intros pos HP Q.
  assert (B : forallb (fun n => negb (trun_sample_count (skipN (N.of_nat n) (file_bytes PropTree.case_file)) =? 4294967295))
                (seq 0 (List.length (file_bytes PropTree.case_file))) = true) by (vm_compute; reflexivity).
  rewrite forallb_forall in B. specialize (B (N.to_nat pos)). rewrite N2Nat.id, Q in B.
  discriminate B. apply in_seq. unfold lenN in HP. lia.
Qed.

(** Without the care it does not end.  First: 24 bytes, a box that ends at 2^64;
    the traversal goes back to the start of the file, again and again.  The handler
    does nothing. *)
Definition idle : handler_t unit unit unit := fun bi p q s => HRet s tt.
Definition round : list byte := hex "0000000866726565000000016d646174fffffffffffffff8".
Lemma round_again : forall fuel total,
  lev round idle fuel true total [] ctx0 tt 0 tt = (OutOfFuel, tt) /\
  lev round idle fuel true total [] ctx0 tt 8 tt = (OutOfFuel, tt).
Proof.
  induction fuel as [|fuel IH]; intros total; [split; reflexivity|].
  assert (B0 : box_at round 0 = Ok (mkbi 0 8 8 (bt "free") false ctx0)) by (vm_compute; reflexivity).
  assert (B8 : box_at round 8 = Ok (mkbi 8 18446744073709551608 16 (bt "mdat") false ctx0)) by (vm_compute; reflexivity).
  split; cbn [lev orb].
  - rewrite B0. cbn [negb andb].
    assert (Vi : visit round idle (lev round idle fuel false) (set_ctx (mkbi 0 8 8 (bt "free") false ctx0) ctx0) [] tt tt =
                (Ok (tt, mkbi 0 8 8 (bt "free") false ctx0), tt)) by (unfold visit; vm_compute; reflexivity).
    rewrite Vi. change (next_ctx _ ctx0) with ctx0. change (w64 (0 + bi_size _)) with 8.
    rewrite (proj2 (IH _)). reflexivity.
  - rewrite B8. cbn [negb andb].
    assert (Vi : visit round idle (lev round idle fuel false) (set_ctx (mkbi 8 18446744073709551608 16 (bt "mdat") false ctx0) ctx0) [] tt tt =
                (Ok (tt, mkbi 8 18446744073709551608 16 (bt "mdat") false ctx0), tt)) by (unfold visit; vm_compute; reflexivity).
    rewrite Vi. change (next_ctx _ ctx0) with ctx0.
    assert (Q : w64 (8 + 18446744073709551608) = 0) by (vm_compute; reflexivity). cbn [bi_size]. rewrite Q.
    rewrite (proj1 (IH _)). reflexivity.
Qed.
Theorem C24_round_refuted : exists data, lenN data = 24 /\
  forall fuel, fst (read_structure std_registry data idle fuel true 0 [] ctx0 tt (0, tt)) = OutOfFuel.
Proof.
  exists round. split; [reflexivity|]. intros fuel.
  destruct (lev_spec round ltac:(reflexivity) idle fuel true 0 [] ctx0 tt 0 tt) as (p & E).
  rewrite E, (proj1 (round_again fuel 0)). reflexivity.
Qed.
Print Assumptions C24_round_refuted.

(** Second: 32 bytes on which a handler that expands every moov goes deeper and
    deeper. *)
Definition deep : list byte := hex "000000046d6f6f76000000046d6f6f76000000017a7a7a7afffffffffffffff0".
Definition opener : handler_t unit unit unit := fun bi p q s =>
  if bt_eqb (bi_type bi) (bt "moov")
  then HExpand s q (fun r s' => match r with Ok _ => HRet s' tt | Err e => HFail s' e | _ => HFail s' EEOF end)
  else HRet s tt.
Lemma deep_prep : forall pth t o sz hs, t = bt "moov" \/ t = bt "zzzz" -> o = 0 \/ o = 8 \/ o = 16 -> hs = 8 \/ hs = 16 ->
  prep deep (mkbi o sz hs t false ctx0) pth = Ok (mkbi o sz hs t false ctx0).
Proof.
  intros pth t o sz hs [->| ->] [->|[->| ->]] [->| ->]; destruct pth; reflexivity.
Qed.
Lemma deep_again : forall fuel,
  (forall pth root total, root = true \/ total = 12 -> fst (lev deep opener fuel root total pth ctx0 tt 0 tt) = OutOfFuel) /\
  (forall pth, fst (lev deep opener fuel false 18446744073709551612 pth ctx0 tt 8 tt) = OutOfFuel) /\
  (forall pth, fst (lev deep opener fuel false 18446744073709551612 pth ctx0 tt 16 tt) = OutOfFuel).
Proof.
  induction fuel as [|fuel (IH0 & IH8 & IH16)]; [repeat split; reflexivity|].
  assert (B0 : box_at deep 0 = Ok (mkbi 0 4 8 (bt "moov") false ctx0)) by (vm_compute; reflexivity).
  assert (B8 : box_at deep 8 = Ok (mkbi 8 4 8 (bt "moov") false ctx0)) by (vm_compute; reflexivity).
  assert (B16 : box_at deep 16 = Ok (mkbi 16 18446744073709551600 16 (bt "zzzz") false ctx0)) by (vm_compute; reflexivity).
  assert (D : forall o, o = 0 \/ o = 8 -> exists d x, dec deep (mkbi o 4 8 (bt "moov") false ctx0) = Ok (d, x, 0)).
  { intros o H. destruct (dec deep (mkbi o 4 8 (bt "moov") false ctx0)) as [[[d x] n]|e| |] eqn:E;
      destruct H as [->| ->]; vm_compute in E; try discriminate E; injection E as <- <- <-; eauto. }
  assert (Vi : forall o pth, o = 0 \/ o = 8 ->
    fst (lev deep opener fuel false 18446744073709551612 (pth ++ [bt "moov"]) ctx0 tt (o + 8) tt) = OutOfFuel ->
    fst (visit deep opener (lev deep opener fuel false) (mkbi o 4 8 (bt "moov") false ctx0) pth tt tt) = OutOfFuel).
  { intros o pth Ho HL. unfold visit. rewrite deep_prep by tauto. cbv zeta. cbn [bi_type bi_offset bi_hsize bi_ctx].
    unfold opener at 2. change (bt_eqb (bi_type _) (bt "moov")) with true. cbv iota. cbn [sem].
    destruct (D o Ho) as (d & x & ->).
    change (child_ctx (bt "moov") ctx0) with ctx0.
    replace (span (mkbi o 4 8 (bt "moov") false ctx0) 0) with 18446744073709551612 by (destruct Ho as [->| ->]; reflexivity).
    rewrite N.add_0_r.
    destruct (lev deep opener fuel false 18446744073709551612 (pth ++ [bt "moov"]) ctx0 tt (o + 8) tt) as [r s]. cbn [fst] in HL.
    subst r. reflexivity. }
  repeat split.
  - intros pth root total HT. cbn [lev].
    assert (C1 : root || (SmallHeaderSize <=? total) = true) by (destruct HT as [->| ->]; [reflexivity|now rewrite orb_true_r]).
    assert (C2 : negb root && (total <? bi_size (mkbi 0 4 8 (bt "moov") false ctx0)) = false)
      by (destruct HT as [->| ->]; [reflexivity|now rewrite andb_false_r]).
    rewrite C1, B0, C2.
    specialize (Vi 0 pth (or_introl eq_refl) (IH8 _)). change (set_ctx (mkbi 0 4 8 (bt "moov") false ctx0) ctx0) with (mkbi 0 4 8 (bt "moov") false ctx0).
    destruct (visit _ _ _ _ _ _ _) as [r s]. cbn [fst] in Vi. subst r. reflexivity.
  - intros pth. cbn [lev].
    change (false || (SmallHeaderSize <=? 18446744073709551612)) with true. rewrite B8.
    change (negb false && _) with false.
    specialize (Vi 8 pth (or_intror eq_refl) (IH16 _)). change (set_ctx (mkbi 8 4 8 (bt "moov") false ctx0) ctx0) with (mkbi 8 4 8 (bt "moov") false ctx0).
    cbv iota. destruct (visit _ _ _ _ _ _ _) as [r s]. cbn [fst] in Vi. subst r. reflexivity.
  - intros pth. cbn [lev].
    change (false || (SmallHeaderSize <=? 18446744073709551612)) with true. rewrite B16.
    change (negb false && _) with false. cbv iota.
    assert (Vz : visit deep opener (lev deep opener fuel false) (set_ctx (mkbi 16 18446744073709551600 16 (bt "zzzz") false ctx0) ctx0) pth tt tt =
                 (Ok (tt, mkbi 16 18446744073709551600 16 (bt "zzzz") false ctx0), tt)).
    { unfold visit. change (set_ctx (mkbi 16 18446744073709551600 16 (bt "zzzz") false ctx0) ctx0) with (mkbi 16 18446744073709551600 16 (bt "zzzz") false ctx0).
      rewrite deep_prep by tauto. reflexivity. }
    rewrite Vz. change (next_ctx _ ctx0) with ctx0.
    assert (Q : w64 (16 + 18446744073709551600) = 0) by (vm_compute; reflexivity). cbn [bi_size]. rewrite Q.
    change (sub64 18446744073709551612 18446744073709551600) with 12.
    specialize (IH0 pth false 12 (or_intror eq_refl)).
    destruct (lev deep opener fuel false 12 pth ctx0 tt 0 tt) as [r s]. cbn [fst] in IH0. subst r. reflexivity.
Qed.
Theorem C24_deep_refuted : exists data, lenN data = 32 /\
  forall fuel, fst (read_structure std_registry data opener fuel true 0 [] ctx0 tt (0, tt)) = OutOfFuel.
Proof.
  exists deep. split; [reflexivity|]. intros fuel.
  destruct (lev_spec deep ltac:(reflexivity) opener fuel true 0 [] ctx0 tt 0 tt) as (p & E).
  rewrite E. cbn [fst]. apply (proj1 (deep_again fuel)). now left.
Qed.
Print Assumptions C24_deep_refuted.
