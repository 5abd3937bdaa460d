(** The traversal without the stream position: [lev] computes what readBoxStructure
    computes, from the offset at which it starts.  Holds on any data. *)
From Verif Require Import Base BaseProofs Schema Structs Registry Unmarshal PropUnmarshal BoxInfo ReadTree.
Local Open Scope string_scope.
Local Open Scope list_scope.
Local Open Scope N_scope.
Local Open Scope monad_scope.

Section Flow.
  Variable data : list byte.
  Hypothesis data_small : lenN data < 2 ^ 62.
  Local Notation R := std_registry.

  (** the header of the box is inside the data *)
  Definition inside (bi : boxinfo) : Prop :=
    bi_offset bi + bi_hsize bi <= lenN data /\ 8 <= bi_hsize bi.
  Definition dec (bi : boxinfo) := fst (read_payload R data bi 0).
  Definition dat (bi : boxinfo) := fst (read_data data bi 0).

  Lemma seek_inside : forall bi pos, inside bi -> seek_to_payload bi pos = (Ok tt, bi_offset bi + bi_hsize bi).
  Proof.
    intros bi pos [H H8]. change (2 ^ 62) with 4611686018427387904 in *.
    unfold seek_to_payload, s_seek, w64, W64. rewrite N.mod_small by lia.
    destruct (N.ltb_spec (bi_offset bi + bi_hsize bi) 9223372036854775808); [reflexivity|lia].
  Qed.
  Lemma bind_ok : forall S A B (m : M S A) (k : A -> M S B) s a s1,
    m s = (Ok a, s1) -> bind m k s = k a s1.
  Proof. intros S A B m k s a s1 H. unfold bind. now rewrite H. Qed.

  Lemma bind_panic : forall S A B (m : M S A) (k : A -> M S B) s s1,
    m s = (Panic, s1) -> bind m k s = (Panic, s1).
  Proof. intros S A B m k s s1 H. unfold bind. now rewrite H. Qed.
  Lemma bind_oof : forall S A B (m : M S A) (k : A -> M S B) s s1,
    m s = (OutOfFuel, s1) -> bind m k s = (OutOfFuel, s1).
  Proof. intros S A B m k s s1 H. unfold bind. now rewrite H. Qed.
  Lemma bind_err : forall S A B (m : M S A) (k : A -> M S B) s e s1,
    m s = (Err e, s1) -> bind m k s = (Err e, s1).
  Proof. intros S A B m k s e s1 H. unfold bind. now rewrite H. Qed.

  Lemma bind_case : forall S A B (m : M S A) (k : A -> M S B) s r s1,
    m s = (r, s1) -> bind m k s = match r with Ok a => k a s1 | Err e => (Err e, s1) | Panic => (Panic, s1) | OutOfFuel => (OutOfFuel, s1) end.
  Proof. intros S A B m k s r s1 H. unfold bind. now rewrite H. Qed.

  Lemma dec_spec : forall bi pos, inside bi -> exists p', read_payload R data bi pos = (dec bi, p') /\
    match dec bi with
    | Ok (_, _, n) => p' = bi_offset bi + bi_hsize bi + n /\ p' <= lenN data /\ n <= payload_size bi
    | _ => True end.
  Proof.
    intros bi pos I. unfold dec, read_payload.
    rewrite !(bind_ok _ _ _ _ _ _ _ _ (seek_inside bi _ I)).
    destruct (unmarshal_any R data (bi_type bi) (payload_size bi) (bi_ctx bi) (bi_offset bi + bi_hsize bi))
      as [[[[d x] n]| | |] p] eqn:E; cbn [fst]; eauto.
    exists p. split; [reflexivity|]. destruct I as [I _].
    apply C09_unmarshal_count in E; [|exact I|exact data_small]. intuition.
  Qed.
  Lemma dat_spec : forall bi pos, inside bi -> exists p', read_data data bi pos = (dat bi, p').
  Proof.
    intros bi pos I. unfold dat, read_data.
    rewrite !(bind_ok _ _ _ _ _ _ _ _ (seek_inside bi _ I)). destruct (bind _ _ _) as [r p]. cbn [fst]. eauto.
  Qed.
  Definition prep (bi : boxinfo) (pth : path) := fst (prepare R data bi pth 0).
  Lemma prep_spec : forall bi pth pos, inside bi -> exists p', prepare R data bi pth pos = (prep bi pth, p').
  Proof.
    intros bi pth pos I. unfold prep, prepare.
    rewrite !(bind_ok _ _ _ _ _ _ _ _ (seek_inside bi _ I)). destruct (bind _ _ _) as [r p]. cbn [fst]. eauto.
  Qed.

  Context {St V P : Type}.

  (** one run of a handler; [child n q s]: expanding, when the fields of the box take [n] bytes *)
  Section Sem.
    Variable bi : boxinfo.
    Variable child : N -> P -> St -> res (list V) * St.
    Fixpoint sem (p : hprog St V P) (s : St) : res V * St :=
      match p with
      | HRet s1 v => (Ok v, s1)
      | HFail s1 e => (Err e, s1)
      | HReadPayload k =>
          match dec bi with Panic => (Panic, s) | OutOfFuel => (OutOfFuel, s) | r => sem (k r) s end
      | HReadData k =>
          match dat bi with Panic => (Panic, s) | OutOfFuel => (OutOfFuel, s) | r => sem (k r) s end
      | HExpand s1 q k =>
          match dec bi with
          | Ok (_, _, n) =>
              let (r, s2) := child n q s1 in
              match r with Panic => (Panic, s2) | OutOfFuel => (OutOfFuel, s2) | r => sem (k r s2) s2 end
          | Err e => sem (k (Err e) s1) s1
          | Panic => (Panic, s1)
          | OutOfFuel => (OutOfFuel, s1)
          end
      | HMove _ k => sem k s
      end.
  End Sem.

  Definition span (bi : boxinfo) (n : N) : N := sub64 (bi_offset bi + bi_size bi) (bi_offset bi + bi_hsize bi + n).

  Lemma run_sem : forall bi (expand : N -> P -> M (N * St) (list V)), inside bi ->
    forall (p : hprog St V P) co pos s,
    (co = 0 \/ exists d x n, dec bi = Ok (d, x, n) /\ co = bi_offset bi + bi_hsize bi + n) ->
    let child n q s := let (r, x) := expand (span bi n) q (bi_offset bi + bi_hsize bi + n, s) in (r, snd x) in
    exists p', run_handler R data bi expand co p (pos, s) = (fst (sem bi child p s), (p', snd (sem bi child p s))).
  Proof.
    intros bi expand I p co pos s HC child. pose proof data_small as DS. change (2 ^ 62) with 4611686018427387904 in DS.
    assert (WN : forall n, bi_offset bi + bi_hsize bi + n <= lenN data ->
              w64 (bi_offset bi + bi_hsize bi + n) = bi_offset bi + bi_hsize bi + n).
    { intros n Hn. unfold w64, W64. apply N.mod_small. lia. }
    revert co pos s HC. induction p as [s0 v|s0 e|k IH|k IH|s0 q k IH|pos0 k IH]; intros co pos s HC; cbn [sem run_handler].
    - eexists. reflexivity.
    - eexists. reflexivity.
    - destruct (dec_spec bi pos I) as (p1 & E & HN).
      unfold bind at 1, attempt, lift_s. cbn [fst snd]. rewrite E.
      destruct (dec bi) as [[[d x] n]|e| |] eqn:ED; try (eexists; reflexivity).
      + destruct HN as (-> & HN & _). rewrite WN by exact HN. apply IH. right. eauto.
      + apply IH. exact HC.
    - destruct (dat_spec bi pos I) as (p1 & E).
      unfold bind at 1, attempt, lift_s. cbn [fst snd]. rewrite E.
      destruct (dat bi) as [[d n]|e| |] eqn:ED; try (eexists; reflexivity); apply IH; exact HC.
    - match goal with |- context [bind ?m ?k (pos, s)] =>
        rewrite (bind_ok _ _ _ m k (pos, s) tt (pos, s0) eq_refl) end.
      destruct (dec_spec bi pos I) as (p1 & E & HN).
      destruct (dec bi) as [[[d x] n]|e| |] eqn:ED.
      + destruct HN as (-> & HN & _).
        assert (A : exists p3,
          attempt (if co =? 0 then
            x <- lift_s (read_payload R data bi) ;;
            let co' := w64 (bi_offset bi + bi_hsize bi + snd x) in
            vs <- attempt (expand (sub64 (bi_offset bi + bi_size bi) co') q) ;; ret (co', vs)
          else
            lift_s (s_seek co) ;;;
            vs <- attempt (expand (sub64 (bi_offset bi + bi_size bi) co) q) ;; ret (co, vs)) (pos, s0)
          = (let (r, s1) := child n q s0 in
             match r with Panic => (Panic, (p3, s1)) | OutOfFuel => (OutOfFuel, (p3, s1))
             | r => (Ok (Ok (bi_offset bi + bi_hsize bi + n, r)), (p3, s1)) end)).
        { destruct (N.eqb_spec co 0) as [C0|C0].
          - unfold attempt at 1. unfold bind at 1, lift_s. cbn [fst snd]. rewrite E. cbn [snd].
            cbv zeta. rewrite WN by exact HN. unfold child, bind, attempt. fold (span bi n).
            destruct (expand (span bi n) q (bi_offset bi + bi_hsize bi + n, s0)) as [[vs|e| |] [p3 s3]]; exists p3; reflexivity.
          - destruct HC as [|(d1 & x1 & n1 & Q & ->)]; [contradiction|].
            assert (Qn : n = n1) by (now injection Q). subst n1.
            unfold attempt at 1. unfold bind at 1, lift_s, s_seek. cbn [fst snd].
            destruct (N.ltb_spec (bi_offset bi + bi_hsize bi + n) 9223372036854775808); [|lia].
            unfold child, bind, attempt. fold (span bi n).
            destruct (expand (span bi n) q (bi_offset bi + bi_hsize bi + n, s0)) as [[vs|e| |] [p3 s3]]; exists p3; reflexivity. }
        destruct A as (p3 & A). destruct (child n q s0) as [[vs|e| |] s1].
        * rewrite (bind_ok _ _ _ _ _ _ _ _ A). unfold bind, get. cbn [snd]. apply IH. right. eauto.
        * rewrite (bind_ok _ _ _ _ _ _ _ _ A). unfold bind, get. cbn [snd]. apply IH. right. eauto.
        * rewrite (bind_panic _ _ _ _ _ _ _ A). eexists. reflexivity.
        * rewrite (bind_oof _ _ _ _ _ _ _ A). eexists. reflexivity.
      + assert (C0 : co = 0) by (destruct HC as [|(d1 & x1 & n1 & Q & _)]; [auto|discriminate]). subst co.
        change (0 =? 0) with true. cbv iota.
        match goal with |- context [bind ?m ?k (pos, s0)] =>
          rewrite (bind_ok _ _ _ m k (pos, s0) (Err e) (p1, s0)) end.
        2:{ unfold attempt at 1. unfold bind at 1, lift_s. cbn [fst snd]. now rewrite E. }
        unfold bind, get. cbn [snd]. apply IH. now left.
      + assert (C0 : co = 0) by (destruct HC as [|(d1 & x1 & n1 & Q & _)]; [auto|discriminate]). subst co.
        change (0 =? 0) with true. cbv iota. exists p1. apply bind_panic.
        unfold attempt at 1. unfold bind at 1, lift_s. cbn [fst snd]. now rewrite E.
      + assert (C0 : co = 0) by (destruct HC as [|(d1 & x1 & n1 & Q & _)]; [auto|discriminate]). subst co.
        change (0 =? 0) with true. cbv iota. exists p1. apply bind_oof.
        unfold attempt at 1. unfold bind at 1, lift_s. cbn [fst snd]. now rewrite E.
    - unfold bind at 1. cbn [snd]. apply IH. exact HC.
  Qed.

  Variable handler : handler_t St V P.

  (** the box at [lo], if a header can be read there *)
  Definition box_at (lo : N) : res boxinfo := fst (read_box_info data lo).
  Definition next_ctx (bi : boxinfo) (ctx : context) : context :=
    let ctx1 := if IsQuickTimeCompatible (bi_ctx bi) then set_qt ctx else ctx in
    if bt_eqb (bi_type bi) (bt "keys") then set_keys (QuickTimeKeysMetaEntryCount (bi_ctx bi)) ctx1 else ctx1.
  Definition fits (x : N) : bool := w64 x <? 9223372036854775808.

  (** one box: the handler's value and the box as it was shown to it *)
  Definition visit (rec : N -> path -> context -> P -> N -> St -> res (list V) * St)
      (bi0 : boxinfo) (pth : path) (params : P) (s : St) : res (V * boxinfo) * St :=
    match prep bi0 pth with
    | Ok bi =>
        let pth' := pth ++ [bi_type bi] in
        let child n q s := rec (span bi n) pth' (child_ctx (bi_type bi) (bi_ctx bi)) q (bi_offset bi + bi_hsize bi + n) s in
        let (r, s1) := sem bi child (handler bi pth' params s) s in
        (match r with
         | Ok v => if fits (bi_offset bi + bi_size bi) then Ok (v, bi) else Err ESeek
         | Err e => Err e | Panic => Panic | OutOfFuel => OutOfFuel
         end, s1)
    | Err e => (Err e, s) | Panic => (Panic, s) | OutOfFuel => (OutOfFuel, s)
    end.

  Fixpoint lev (fuel : nat) (root : bool) (total : N) (pth : path) (ctx : context) (params : P) (lo : N) (s : St)
    : res (list V) * St :=
    match fuel with
    | O => (OutOfFuel, s)
    | S fuel' =>
        if root || (SmallHeaderSize <=? total) then
          match box_at lo with
          | Ok bi =>
              if negb root && (total <? bi_size bi) then (Err (EMsg "too large box size"), s)
              else
                let (r, s1) := visit (lev fuel' false) (set_ctx bi ctx) pth params s in
                match r with
                | Ok (v, bi') =>
                    let (r2, s2) := lev fuel' root (sub64 total (bi_size bi)) pth (next_ctx bi' ctx) params
                                      (w64 (lo + bi_size bi)) s1 in
                    (match r2 with Ok vs => Ok (v :: vs) | x => x end, s2)
                | Err e => (Err e, s1) | Panic => (Panic, s1) | OutOfFuel => (OutOfFuel, s1)
                end
          | Err EEOF => ((if root then Ok [] else Err EEOF), s)
          | Err e => (Err e, s)
          | _ => (Panic, s)
          end
        else if negb (total =? 0) && negb (IsQuickTimeCompatible ctx) then (Err (EMsg "unexpected EOF"), s)
        else (Ok [], s)
    end.

  (** the header read at [lo] *)
  Lemma copy_ok : forall n lo h p, 0 < n < 9223372036854775808 -> s_copy data n lo = (Ok h, p) ->
    p = lo + n /\ p <= lenN data /\ h = takeN n (skipN lo data) /\ lenN h = n.
  Proof.
    intros n lo h p Hn H. unfold s_copy in H.
    destruct (N.eqb_spec n 0); [lia|]. destruct (N.leb_spec 9223372036854775808 n); [lia|]. cbn [orb] in H. cbv zeta in H.
    destruct (N.eqb_spec (lenN (takeN n (skipN lo data))) n) as [E|]; [|discriminate].
    assert (Q : takeN n (skipN lo data) = h /\ lo + lenN (takeN n (skipN lo data)) = p) by (now injection H).
    destruct Q as [<- <-]. rewrite E. rewrite lenN_takeN, lenN_skipN in E. repeat split; try lia.
  Qed.
  Lemma copy_plain : forall n lo, exists p, (exists h, s_copy data n lo = (Ok h, p)) \/ s_copy data n lo = (Err EEOF, p).
  Proof.
    intros n lo. unfold s_copy. destruct (_ || _); [eauto|]. cbv zeta. destruct (_ =? _); eauto.
  Qed.
  Lemma seek_plain : forall bi pos, exists p, seek_to_payload bi pos = (Ok tt, p) \/ seek_to_payload bi pos = (Err ESeek, p).
  Proof. intros bi pos. unfold seek_to_payload, s_seek. destruct (_ <? _); eauto. Qed.

  Lemma box_at_cases : forall lo,
    (exists bi, box_at lo = Ok bi /\ bi_offset bi = lo /\ inside bi /\ (bi_hsize bi = 8 \/ bi_hsize bi = 16) /\
       bi_ctx bi = ctx0 /\ 0 < bi_size bi < 2 ^ 64 /\
       ((bi_hsize bi = 8 /\ bi_size bi = be_to_N (takeN 4 (skipN lo data)) /\ bi_eof bi = false) \/
        (bi_hsize bi = 16 /\ be_to_N (takeN 4 (skipN lo data)) = 1 /\
           bi_size bi = be_to_N (takeN 8 (skipN (lo + 8) data)) /\ bi_eof bi = false) \/
        (bi_hsize bi = 8 /\ be_to_N (takeN 4 (skipN lo data)) = 0 /\ bi_size bi = lenN data - lo /\ bi_eof bi = true)) /\
       bi_type bi = takeN 4 (skipN (lo + 4) data)) \/
    (box_at lo = Err EEOF /\
       (lenN data < lo + 8 \/ lenN data < lo + 16 /\ be_to_N (takeN 4 (skipN lo data)) = 1)) \/
    (box_at lo = Err (EMsg "invalid size") /\ be_to_N (takeN 4 (skipN lo data)) = 1 /\
       be_to_N (takeN 8 (skipN (lo + 8) data)) = 0).
  Proof.
    intros lo. pose proof data_small as DS. change (2 ^ 62) with 4611686018427387904 in DS.
    change (2 ^ 64) with 18446744073709551616.
    unfold box_at, read_box_info.
    rewrite (bind_ok _ _ _ get _ lo lo lo eq_refl).
    destruct (copy_plain SmallHeaderSize lo) as (p & [(h & E)|E]).
    2:{ right. left. unfold bind at 1. rewrite E. split; [reflexivity|].
        unfold s_copy, SmallHeaderSize in E. change ((8 =? 0) || (9223372036854775808 <=? 8)) with false in E. cbv iota zeta in E.
        destruct (N.eqb_spec (lenN (takeN 8 (skipN lo data))) 8) as [|NE]; [discriminate|].
        rewrite lenN_takeN, lenN_skipN in NE. left. lia. }
    rewrite (bind_ok _ _ _ _ _ _ _ _ E).
    apply copy_ok in E; [|unfold SmallHeaderSize; lia]. destruct E as (-> & L8 & Eh & Lh). unfold SmallHeaderSize in L8, Eh, Lh.
    assert (E4 : takeN 4 h = takeN 4 (skipN lo data)).
    { rewrite Eh. rewrite !takeN_firstn. rewrite firstn_firstn. reflexivity. }
    assert (ET : skipN 4 h = takeN 4 (skipN (lo + 4) data)).
    { rewrite Eh. rewrite <- skipN_skipN. generalize (skipN lo data). intros l.
      rewrite !takeN_firstn, !skipN_skipn. change (N.to_nat 8) with (N.to_nat 4 + N.to_nat 4)%nat.
      now rewrite firstn_skipn_comm. }
    cbv zeta. rewrite E4, ET. set (sz := be_to_N (takeN 4 (skipN lo data))).
    destruct (N.eqb_spec sz 0) as [S0|S0].
    - assert (SS : sub64 (lenN data) lo = lenN data - lo).
      { unfold sub64, W64. rewrite (N.mod_small lo) by lia.
        replace (lenN data + 18446744073709551616 - lo) with (lenN data - lo + 1 * 18446744073709551616) by lia.
        rewrite N.mod_add by lia. apply N.mod_small. lia. }
      rewrite SS. rewrite (bind_ok _ _ _ (put (lenN data)) _ _ tt (lenN data) eq_refl).
      set (bi := mkbi lo (lenN data - lo) SmallHeaderSize (takeN 4 (skipN (lo + 4) data)) true ctx0).
      assert (Ib : inside bi) by (unfold inside, bi, SmallHeaderSize; cbn; lia).
      rewrite (bind_ok _ _ _ _ _ _ _ _ (seek_inside bi _ Ib)).
      destruct (N.eqb_spec (lenN data - lo) 0); [lia|]. left. exists bi.
      repeat split; try apply Ib; unfold bi; cbn [bi_hsize bi_size bi_eof]; auto; try lia.
      all: right; right; auto.
    - destruct (N.eqb_spec sz 1) as [S1|S1].
      + destruct (copy_plain (LargeHeaderSize - SmallHeaderSize) (lo + SmallHeaderSize)) as (p & [(h2 & E2)|E2]).
        2:{ right. left. unfold bind at 1. rewrite E2. split; [reflexivity|].
            unfold s_copy, SmallHeaderSize, LargeHeaderSize in E2.
            change (16 - 8) with 8 in E2. change ((8 =? 0) || (9223372036854775808 <=? 8)) with false in E2. cbv iota zeta in E2.
            destruct (N.eqb_spec (lenN (takeN 8 (skipN (lo + 8) data))) 8) as [|NE]; [discriminate|].
            rewrite lenN_takeN, lenN_skipN in NE. right. split; [lia|exact S1]. }
        rewrite (bind_ok _ _ _ _ _ _ _ _ E2).
        apply copy_ok in E2; [|unfold SmallHeaderSize, LargeHeaderSize; lia].
        unfold SmallHeaderSize, LargeHeaderSize in E2. change (16 - 8) with 8 in E2.
        destruct E2 as (-> & L16 & Eh2 & Lh2). rewrite Eh2.
        destruct (N.eqb_spec (be_to_N (takeN 8 (skipN (lo + 8) data))) 0) as [Z|Z].
        * right. right. auto.
        * left. eexists. split; [reflexivity|]. cbn [bi_offset bi_hsize bi_size bi_ctx bi_type bi_eof fst].
          unfold inside. cbn [bi_offset bi_hsize]. unfold LargeHeaderSize.
          pose proof (be_to_N_lt (takeN 8 (skipN (lo + 8) data))) as B. rewrite Eh2 in Lh2. rewrite Lh2 in B.
          change (2 ^ (8 * 8)) with 18446744073709551616 in B. repeat split; auto; try lia.
          all: right; left; auto.
      + left. eexists. split; [reflexivity|]. cbn [bi_offset bi_hsize bi_size bi_ctx bi_type bi_eof fst].
        unfold inside. cbn [bi_offset bi_hsize]. unfold SmallHeaderSize.
        pose proof (be_to_N_lt (takeN 4 (skipN lo data))) as B.
        assert (L4 : lenN (takeN 4 (skipN lo data)) = 4) by (rewrite lenN_takeN, lenN_skipN; lia).
        rewrite L4 in B. change (2 ^ (8 * 4)) with 4294967296 in B. fold sz in B.
        repeat split; auto; try lia; left; auto.
  Qed.
  Lemma box_at_ok : forall lo bi, box_at lo = Ok bi ->
    bi_offset bi = lo /\ inside bi /\ (bi_hsize bi = 8 \/ bi_hsize bi = 16) /\ bi_ctx bi = ctx0 /\ 0 < bi_size bi < 2 ^ 64.
  Proof.
    intros lo bi H. destruct (box_at_cases lo) as [(b & E & C)|[[E _]|[E _]]]; rewrite E in H; try discriminate.
    injection H as ->. tauto.
  Qed.
  Lemma box_at_plain : forall lo, match box_at lo with Panic | OutOfFuel => False | _ => True end.
  Proof. intros lo. destruct (box_at_cases lo) as [(b & -> & C)|[[-> _]|[-> _]]]; exact I. Qed.
  Lemma box_at_pos : forall lo, exists p, read_box_info data lo = (box_at lo, p).
  Proof. intros lo. unfold box_at. destruct (read_box_info data lo) as [r p]. cbn. eauto. Qed.

  (** the box as the handler sees it differs from the one found in its context only *)
  Lemma prep_same : forall bi pth bi', prep bi pth = Ok bi' ->
    exists c, bi' = set_ctx bi c.
  Proof.
    intros bi pth bi' H. unfold prep, prepare in H.
    assert (S : forall A (m : M N A) (k : A -> M N boxinfo) p, fst (bind m k p) = Ok bi' ->
              exists a p', fst (k a p') = Ok bi').
    { intros A m k p Q. unfold bind in Q. destruct (m p) as [[a|e| |] p']; try discriminate. eauto. }
    assert (Z : bi = set_ctx bi (bi_ctx bi)) by (now destruct bi).
    apply S in H. destruct H as (_ & p1 & H).
    assert (S2 : exists b1 c1 p2, b1 = set_ctx bi c1 /\
       fst ((if bt_eqb (bi_type b1) (bt "keys") then
       x <- unmarshal_any R data (bt "keys") (payload_size b1) (bi_ctx b1) ;;
       let bi' := set_ctx b1 (set_keys (as_Z (lookup "EntryCount" (snd (fst x)))) (bi_ctx b1)) in
       seek_to_payload bi' ;;; ret bi'
     else ret b1) p2) = Ok bi').
    { unfold bind at 1 in H. destruct (_ && _) in H.
      - match type of H with context [match ?m p1 with _ => _ end] => destruct (m p1) as [[b1|e| |] p2] eqn:E1; try discriminate end.
        exists b1. enough (Q : exists c1, b1 = set_ctx bi c1) by (destruct Q as [c1 Q]; exists c1, p2; split; [exact Q|exact H]).
        assert (E1' : exists (x : boxdef * list (string * val) * N) p, fst (bind (seek_to_payload (if has_compatible_brand (snd (fst x)) brand_qt
                         then set_ctx bi (set_qt (bi_ctx bi)) else bi)) (fun _ => ret (if has_compatible_brand (snd (fst x)) brand_qt
                         then set_ctx bi (set_qt (bi_ctx bi)) else bi)) p) = Ok b1).
        { unfold bind at 1 in E1. destruct (unmarshal_any R data (bt "ftyp") (payload_size bi) (bi_ctx bi) p1) as [[x|e| |] p3]; try discriminate.
          exists x, p3. cbv zeta in E1. rewrite E1. reflexivity. }
        destruct E1' as (x & p & E1'). unfold bind in E1'. destruct (seek_to_payload _ p) as [[u|e| |] p4]; try discriminate.
        cbn in E1'. injection E1' as <-. destruct (has_compatible_brand _ _); eauto.
      - cbn in H. exists bi, (bi_ctx bi), p1. auto. }
    destruct S2 as (b1 & c1 & p2 & -> & H2).
    destruct (bt_eqb _ _) in H2.
    - apply S in H2. destruct H2 as (x & p3 & H2). cbv zeta in H2. apply S in H2. destruct H2 as (_ & p4 & H2).
      cbn in H2. injection H2 as <-. eexists. reflexivity.
    - cbn in H2. injection H2 as <-. eauto.
  Qed.
  Lemma inside_set : forall bi c, inside (set_ctx bi c) <-> inside bi.
  Proof. intros. unfold inside, set_ctx. cbn. tauto. Qed.

  Lemma box_internal_visit : forall recM rec bi pth params pos s,
    inside bi ->
    (forall t p c q lo s, exists p', recM t p c q (lo, s) = (fst (rec t p c q lo s), (p', snd (rec t p c q lo s)))) ->
    exists p', box_internal R data handler recM bi pth params (pos, s) =
      (fst (visit rec bi pth params s), (p', snd (visit rec bi pth params s))) /\
      match fst (visit rec bi pth params s) with
      | Ok (_, bi') => p' = w64 (bi_offset bi + bi_size bi) /\ bi_offset bi' = bi_offset bi /\ bi_size bi' = bi_size bi
      | _ => True end.
  Proof.
    intros recM rec bi0 pth params pos s I HR. unfold box_internal, visit.
    destruct (prep_spec bi0 pth pos I) as (p1 & E1).
    destruct (prep bi0 pth) as [bi|e| |] eqn:EP.
    2-4: exists p1; split; [|exact Logic.I]; unfold bind at 1, lift_s; cbn [fst snd]; rewrite E1; reflexivity.
    destruct (prep_same _ _ _ EP) as (c & Q).
    assert (I' : inside bi) by (subst bi; now apply inside_set).
    assert (LP : lift_s (St := St) (prepare R data bi0 pth) (pos, s) = (Ok bi, (p1, s))).
    { unfold lift_s. cbn [fst snd]. now rewrite E1. }
    rewrite (bind_ok _ _ _ _ _ _ _ _ LP). cbv zeta.
    set (pth' := pth ++ [bi_type bi]).
    destruct (run_sem bi (fun total p => recM total pth' (child_ctx (bi_type bi) (bi_ctx bi)) p) I'
                (handler bi pth' params s) 0 p1 s (or_introl eq_refl)) as (p2 & RS). cbv zeta in RS.
    set (ch1 := fun n q s => let (r, x) := recM (span bi n) pth' (child_ctx (bi_type bi) (bi_ctx bi)) q (bi_offset bi + bi_hsize bi + n, s) in (r, snd x)) in RS.
    set (ch2 := fun n q s => rec (span bi n) pth' (child_ctx (bi_type bi) (bi_ctx bi)) q (bi_offset bi + bi_hsize bi + n) s).
    assert (SE : forall p s, sem bi ch1 p s = sem bi ch2 p s).
    { assert (CE : forall n q s, ch1 n q s = ch2 n q s).
      { intros n q s0. unfold ch1, ch2.
        destruct (HR (span bi n) pth' (child_ctx (bi_type bi) (bi_ctx bi)) q (bi_offset bi + bi_hsize bi + n) s0) as (p' & E).
        rewrite E. cbn [snd]. now destruct (rec _ _ _ _ _ _). }
      induction p as [s0 v|s0 e|k IH|k IH|s0 q k IH|pos0 k IH]; intros s1; cbn [sem].
      - reflexivity.
      - reflexivity.
      - destruct (dec bi); auto.
      - destruct (dat bi); auto.
      - destruct (dec bi) as [[[d x] n]|e| |]; auto. rewrite CE. destruct (ch2 n q s0) as [[vs|e| |] s2]; auto.
      - auto. }
    rewrite SE in RS.
    destruct (sem bi ch2 (handler bi pth' params s) s) as [r s1] eqn:ES. cbn [fst snd] in RS.
    match goal with |- context [bind ?m ?k (p1, s)] =>
      rewrite (bind_case _ _ _ m k (p1, s) r (p2, s1) RS) end.
    destruct r as [v|e| |].
    -
      assert (OF : bi_offset bi = bi_offset bi0 /\ bi_size bi = bi_size bi0) by (subst bi; auto).
      destruct OF as [OF1 OF2]. rewrite <- OF1, <- OF2.
      unfold bind, lift_s, seek_to_end, s_seek, fits. cbn [fst snd].
      destruct (w64 (bi_offset bi + bi_size bi) <? 9223372036854775808).
      + eexists. split; [reflexivity|]. auto.
      + eexists. split; [reflexivity|]. exact Logic.I.
    - eexists. split; [reflexivity|]. exact Logic.I.
    - eexists. split; [reflexivity|]. exact Logic.I.
    - eexists. split; [reflexivity|]. exact Logic.I.
  Qed.

  Lemma lev_spec : forall fuel root total pth ctx params lo s,
    exists p', read_structure R data handler fuel root total pth ctx params (lo, s) =
      (fst (lev fuel root total pth ctx params lo s), (p', snd (lev fuel root total pth ctx params lo s))).
  Proof.
    induction fuel as [|fuel IH]; intros root total pth ctx params lo s; [eexists; reflexivity|].
    cbn [read_structure lev].
    destruct (root || (SmallHeaderSize <=? total)).
    2:{ destruct (negb (total =? 0) && negb (IsQuickTimeCompatible ctx)); eexists; reflexivity. }
    destruct (box_at_pos lo) as (p1 & E1). pose proof (box_at_plain lo) as BP.
    assert (HD : attempt (lift_s (St := St) (read_box_info data)) (lo, s) = (Ok (box_at lo), (p1, s))).
    { unfold attempt, lift_s. cbn [fst snd]. rewrite E1. now destruct (box_at lo). }
    rewrite (bind_ok _ _ _ _ _ _ _ _ HD).
    destruct (box_at lo) as [bi|e| |] eqn:EB; [| |contradiction..].
    2:{ destruct e; try (eexists; reflexivity). destruct root; eexists; reflexivity. }
    destruct (negb root && (total <? bi_size bi)); [eexists; reflexivity|].
    destruct (box_at_ok _ _ EB) as (Ho & Hi & _).
    destruct (box_internal_visit (fun t p c q => read_structure R data handler fuel false t p c q) (lev fuel false)
                (set_ctx bi ctx) pth params p1 s (proj2 (inside_set _ _) Hi)) as (p2 & BI & BP2).
    { intros t p c q lo0 s0. apply IH. }
    destruct (visit (lev fuel false) (set_ctx bi ctx) pth params s) as [r s1] eqn:EV. cbn [fst snd] in BI, BP2.
    destruct r as [[v bi']|e| |].
    - rewrite (bind_ok _ _ _ _ _ _ _ _ BI). destruct BP2 as (-> & O1 & S1).
      cbv zeta. fold (next_ctx bi' ctx).
      change (bi_offset (set_ctx bi ctx)) with (bi_offset bi). change (bi_size (set_ctx bi ctx)) with (bi_size bi).
      rewrite Ho.
      destruct (IH root (sub64 total (bi_size bi)) pth (next_ctx bi' ctx) params (w64 (lo + bi_size bi)) s1) as (p3 & E3).
      unfold bind. rewrite E3.
      destruct (lev fuel root (sub64 total (bi_size bi)) pth (next_ctx bi' ctx) params (w64 (lo + bi_size bi)) s1) as [r2 s2].
      cbn [fst snd]. exists p3. destruct r2; reflexivity.
    - rewrite (bind_err _ _ _ _ _ _ _ _ BI). eexists. reflexivity.
    - rewrite (bind_panic _ _ _ _ _ _ _ BI). eexists. reflexivity.
    - rewrite (bind_oof _ _ _ _ _ _ _ BI). eexists. reflexivity.
  Qed.
End Flow.
