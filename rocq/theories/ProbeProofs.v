(** Proofs about the loops of probe.go. *)
From Verif Require Import Base BaseProofs Schema Structs Registry BoxInfo Extract Accessors Probe SpecProbe.
Local Open Scope string_scope.
Local Open Scope list_scope.
Local Open Scope N_scope.

(** ** Loops *)
Lemma loop_nat_count : forall S A (body : N -> A -> M S A) k i a s (P : N -> A -> Prop),
  P i a -> (forall j b, i <= j < i + N.of_nat k -> P j b -> exists c, body j b s = (Ok c, s) /\ P (j + 1) c) ->
  exists c, loop_nat k (fun x => bind (body (fst x) (snd x)) (fun b => ret (fst x + 1, b))) (i, a) s = (Ok (i + N.of_nat k, c), s) /\
            P (i + N.of_nat k) c.
Proof.
  intros S A body. induction k as [|k IH]; intros i a s P H0 H.
  - exists a. cbn [loop_nat]. rewrite N.add_0_r. split; [reflexivity|exact H0].
  - destruct (H i a ltac:(lia) H0) as (c & E & HP).
    destruct (IH (i + 1) c s P HP) as (d & E2 & HD).
    { intros j b J. apply H. lia. }
    exists d. replace (i + N.of_nat (Datatypes.S k)) with (i + 1 + N.of_nat k) by lia. split; [|exact HD].
    cbn [loop_nat]. unfold bind at 1. cbn [fst snd]. unfold bind at 1. rewrite E. unfold ret at 1. exact E2.
Qed.
Lemma forN_inv : forall S A (body : N -> A -> M S A) lo hi a s (P : N -> A -> Prop),
  lo <= hi -> P lo a -> (forall j b, lo <= j < hi -> P j b -> exists c, body j b s = (Ok c, s) /\ P (j + 1) c) ->
  exists c, forN lo hi body a s = (Ok c, s) /\ P hi c.
Proof.
  intros S A body lo hi a s P L H0 H.
  destruct (loop_nat_count S A body (N.to_nat (hi - lo)) lo a s P H0) as (c & E & HP).
  { intros j b J. apply H. lia. }
  exists c. unfold forN, bind. rewrite loopN_nat. unfold bind in E. rewrite E.
  replace (lo + N.of_nat (N.to_nat (hi - lo))) with hi in * by lia. split; [reflexivity|exact HP].
Qed.
Lemma forN_none : forall S A (body : N -> A -> M S A) lo hi a s, hi <= lo -> forN lo hi body a s = (Ok a, s).
Proof.
  intros. unfold forN. replace (hi - lo) with 0 by lia. reflexivity.
Qed.
Lemma forN_total : forall S A (body : N -> A -> M S A) lo hi a s (P : A -> Prop), P a ->
  (forall j b, lo <= j < hi -> P b -> exists c, body j b s = (Ok c, s) /\ P c) ->
  exists c, forN lo hi body a s = (Ok c, s) /\ P c.
Proof.
  intros S A body lo hi a s P H0 H. destruct (N.le_gt_cases lo hi) as [L|L].
  - apply (forN_inv S A body lo hi a s (fun _ => P) L H0 H).
  - exists a. split; [apply forN_none; lia|exact H0].
Qed.
Lemma for_each_from : forall S A B (body : N -> B -> A -> M S A) L s (P : N -> A -> Prop),
  (forall i x a, nthN i L = Some x -> P i a -> exists b, body i x a s = (Ok b, s) /\ P (i + 1) b) ->
  forall l i a, i <= lenN L -> skipN i L = l -> P i a -> exists b, for_each body i l a s = (Ok b, s) /\ P (lenN L) b.
Proof.
  intros S A B body L s P H l. induction l as [|x l IH]; intros i a LE E HP.
  - exists a. split; [reflexivity|]. apply (f_equal lenN) in E. rewrite lenN_skipN, lenN_nil in E.
    replace (lenN L) with i by lia. exact HP.
  - assert (NX : nthN i L = Some x).
    { rewrite nthN_nth_error. rewrite skipN_skipn in E. rewrite <- (firstn_skipn (N.to_nat i) L), E.
      rewrite nth_error_app2; rewrite firstn_length; unfold lenN in LE;
      replace (Nat.min (N.to_nat i) (List.length L)) with (N.to_nat i) by lia; [|lia]. now rewrite Nat.sub_diag. }
    destruct (H i x a NX HP) as (b & E1 & HB).
    assert (LI : i + 1 <= lenN L).
    { apply (f_equal lenN) in E. rewrite lenN_skipN, lenN_cons in E. lia. }
    destruct (IH (i + 1) b LI) as (c & E2 & HC); [|exact HB|].
    + rewrite <- skipN_skipN, E, skipN_skipn. reflexivity.
    + exists c. split; [|exact HC]. cbn [for_each]. unfold bind. rewrite E1. exact E2.
Qed.
Lemma for_each_inv : forall S A B (body : N -> B -> A -> M S A) L a s (P : N -> A -> Prop),
  P 0 a -> (forall i x a, nthN i L = Some x -> P i a -> exists b, body i x a s = (Ok b, s) /\ P (i + 1) b) ->
  exists b, for_each body 0 L a s = (Ok b, s) /\ P (lenN L) b.
Proof.
  intros S A B body L a s P H0 H. apply (for_each_from S A B body L s P H L 0 a); auto. lia.
  rewrite skipN_skipn. reflexivity.
Qed.

(** ** modify *)
Lemma modify_map : forall A B (g : A -> B) f h i l, (forall x, g (f x) = h (g x)) ->
  option_map (map g) (modify i f l) = modify i h (map g l).
Proof.
  intros A B g f h i l H. revert i. induction l as [|x l IH]; intros i; [reflexivity|].
  cbn [modify map]. destruct (i =? 0); cbn [option_map map]; [now rewrite H|].
  rewrite <- IH. destruct (modify (i - 1) f l); reflexivity.
Qed.
Lemma modify_some : forall A (f : A -> A) i l, i < lenN l -> exists l', modify i f l = Some l' /\ lenN l' = lenN l.
Proof.
  intros A f i l. revert i. induction l as [|x l IH]; intros i H; [rewrite lenN_nil in H; lia|].
  cbn [modify]. rewrite lenN_cons in *. destruct (N.eqb_spec i 0).
  - exists (f x :: l). now rewrite lenN_cons.
  - destruct (IH (i - 1) ltac:(lia)) as (l' & -> & E). exists (x :: l'). cbn [option_map]. rewrite lenN_cons. split; [reflexivity|lia].
Qed.
Lemma modify_same : forall A B (g : A -> B) f i l l', (forall x, g (f x) = g x) -> modify i f l = Some l' -> map g l' = map g l.
Proof.
  intros A B g f i l l' H. revert i l'. induction l as [|x l IH]; intros i l' E; [discriminate|].
  cbn [modify] in E. destruct (i =? 0); [injection E as <-; cbn; now rewrite H|].
  destruct (modify (i - 1) f l) as [m|] eqn:M; [|discriminate]. injection E as <-. cbn. now rewrite (IH _ _ M).
Qed.
Lemma modify_nth : forall A (f : A -> A) i l l' k, modify i f l = Some l' ->
  nthN k l' = if k =? i then option_map f (nthN k l) else nthN k l.
Proof.
  intros A f i l. revert i. induction l as [|x l IH]; intros i l' k E; [discriminate|].
  cbn [modify] in E. destruct (N.eqb_spec i 0) as [->|NZ].
  - injection E as <-. cbn [nthN]. destruct (N.eqb_spec k 0); reflexivity.
  - destruct (modify (i - 1) f l) as [m|] eqn:M; [|discriminate]. injection E as <-. cbn [nthN].
    destruct (N.eqb_spec k 0) as [->|KZ].
    + destruct (N.eqb_spec 0 i); [lia|reflexivity].
    + rewrite <- N.sub_1_r, (IH _ _ (k - 1) M). replace (k - 1 =? i - 1) with (k =? i); [reflexivity|].
      destruct (N.eqb_spec k i), (N.eqb_spec (k - 1) (i - 1)); lia.
Qed.

(** ** stretch *)
Lemma stretch_length : forall A (d : A) n l, List.length (stretch d n l) = n.
Proof. intros. unfold stretch. rewrite firstn_length, app_length, repeat_length. lia. Qed.
Lemma stretch_nil : forall A (d : A) n, stretch d n [] = repeat d n.
Proof. intros. unfold stretch. cbn [app]. apply firstn_all2. rewrite repeat_length. lia. Qed.
Lemma stretch_long : forall A (d : A) n l m, (n <= List.length l)%nat -> stretch d n (l ++ m) = stretch d n l.
Proof.
  intros A d n l m H. unfold stretch. rewrite <- app_assoc. rewrite !firstn_app.
  replace (n - List.length l)%nat with O by lia. now rewrite !firstn_O.
Qed.
Lemma stretch_cons : forall A (d x : A) n l, stretch d (S n) (x :: l) = x :: stretch d n l.
Proof.
  intros. unfold stretch. cbn [app firstn]. f_equal. rewrite !firstn_app. f_equal.
  replace (S n) with (n + 1)%nat by lia. rewrite repeat_app, firstn_app, repeat_length.
  replace (n - List.length l - n)%nat with O by lia. now rewrite firstn_O, app_nil_r.
Qed.
Lemma stretch_put : forall A (d x : A) l n, (List.length l < n)%nat ->
  modify (lenN l) (fun _ => x) (stretch d n l) = Some (stretch d n (l ++ [x])).
Proof.
  induction l as [|y l IH]; intros n H; (destruct n as [|n]; [cbn in H; lia|]).
  - rewrite stretch_nil. cbn [app]. rewrite stretch_cons, stretch_nil. reflexivity.
  - cbn [app]. rewrite !stretch_cons. cbn [modify]. rewrite lenN_cons.
    destruct (N.eqb_spec (lenN l + 1) 0); [lia|]. rewrite N.add_sub. rewrite IH by (cbn in H; lia). reflexivity.
Qed.
Lemma runs_app : forall A (l m : list (N * A)), runs (l ++ m) = runs l ++ runs m.
Proof. intros. apply flat_map_app. Qed.
Lemma firstn_next : forall A (l : list A) i x, nthN i l = Some x ->
  firstn (N.to_nat (i + 1)) l = firstn (N.to_nat i) l ++ [x].
Proof.
  intros A l i x H. rewrite nthN_nth_error in H. replace (N.to_nat (i + 1)) with (S (N.to_nat i)) by lia.
  revert H. generalize (N.to_nat i). clear i. induction l as [|y l IH]; intros [|i] H; try discriminate.
  - injection H as <-. reflexivity.
  - cbn [firstn app]. f_equal. apply IH. exact H.
Qed.
Lemma firstn_lenN : forall A (l : list A), firstn (N.to_nat (lenN l)) l = l.
Proof. intros. apply firstn_all2. unfold lenN. lia. Qed.

(** ** stts *)
Lemma stts_ok : forall S stts (s : S),
  stts_samples stts s = (Ok (map (fun d => mksample 0 d 0) (runs (stts_runs stts))), s).
Proof.
  intros S stts s. unfold stts_samples.
  set (f := fun e => (uint_of "SampleCount" e, uint_of "SampleDelta" e)).
  destruct (for_each_inv S (list sample) fields
    (fun _ e acc => forN 0 (uint_of "SampleCount" e) (fun _ acc => ret (acc ++ [mksample 0 (uint_of "SampleDelta" e) 0])) acc)
    (structs "Entries" stts) [] s
    (fun i acc => acc = map (fun d => mksample 0 d 0) (runs (map f (firstn (N.to_nat i) (structs "Entries" stts))))))
    as (b & E & H).
  - reflexivity.
  - intros i e acc NE ->.
    edestruct (forN_inv S (list sample) (fun _ acc => ret (acc ++ [mksample 0 (uint_of "SampleDelta" e) 0]))
      0 (uint_of "SampleCount" e) (map (fun d => mksample 0 d 0) (runs (map f (firstn (N.to_nat i) (structs "Entries" stts))))) s
      (fun j acc => acc = map (fun d => mksample 0 d 0) (runs (map f (firstn (N.to_nat i) (structs "Entries" stts)))) ++
                          repeat (mksample 0 (uint_of "SampleDelta" e) 0) (N.to_nat j))) as (c & E & H).
    + lia.
    + cbn [N.to_nat repeat]. now rewrite app_nil_r.
    + intros j b J ->. eexists. split; [reflexivity|].
      replace (N.to_nat (j + 1)) with (N.to_nat j + 1)%nat by lia. rewrite repeat_app, app_assoc. reflexivity.
    + exists c. split; [exact E|]. rewrite H, (firstn_next _ _ _ _ NE), map_app, runs_app, map_app. f_equal.
      cbn [map]. unfold runs, f. cbn [flat_map fst snd]. rewrite app_nil_r. clear.
      induction (N.to_nat _); cbn; congruence.
  - rewrite firstn_lenN in H. rewrite E, H. reflexivity.
Qed.

(** ** ctts *)
Lemma nth_structs : forall name x i e, nthN i (structs name x) = Some e ->
  exists v, nthN i (items name x) = Some v /\ e = match v with VStruct l => l | _ => [] end.
Proof.
  intros name x i e H. unfold structs in H. rewrite nthN_nth_error in *. rewrite nth_error_map in H.
  destruct (nth_error (items name x) (N.to_nat i)) as [v|]; [|discriminate]. injection H as <-. eauto.
Qed.
Lemma entry_nth : forall x i e, nthN i (structs "Entries" x) = Some e -> entry x (Z.of_N i) = Ok e.
Proof.
  intros x i e H. apply nth_structs in H. destruct H as (v & E & ->).
  unfold entry, index. destruct (Z.leb_spec 0 (Z.of_N i)); [|lia]. rewrite N2Z.id, E. now destruct v.
Qed.
Definition ctts_offset (ctts e : fields) : Z :=
  if get_version ctts =? 0 then Z.of_N (uint_of "SampleOffsetV0" e)
  else if get_version ctts =? 1 then int_of "SampleOffsetV1" e else 0%Z.
Lemma ctts_offset_ok : forall ctts i e, nthN i (structs "Entries" ctts) = Some e ->
  ctts_GetSampleOffset ctts (Z.of_N i) = Ok (ctts_offset ctts e).
Proof.
  intros ctts i e H. unfold ctts_GetSampleOffset, by_version, ctts_offset. rewrite (entry_nth _ _ _ H).
  destruct (get_version ctts =? 0); [reflexivity|]. destruct (get_version ctts =? 1); reflexivity.
Qed.
Lemma ctts_ok : forall S ctts samples (s : S), lenN samples < W32 ->
  Forall (fun x => s_cto x = 0%Z) samples ->
  exists l, ctts_samples ctts samples s = (Ok l, s) /\
    map s_size l = map s_size samples /\ map s_delta l = map s_delta samples /\
    map s_cto l = stretch 0%Z (List.length samples) (runs (ctts_runs ctts)).
Proof.
  intros S ctts samples s L Z0. unfold ctts_samples.
  set (n := List.length samples).
  assert (LN : lenN samples = N.of_nat n) by reflexivity.
  pose (body := fun (ci : N) (e : fields) (st : N * list sample) =>
    forN 0 (uint_of "SampleCount" e) (fun _ (st : N * list sample) =>
        let (si, samples) := st in
        if w32 (lenN samples) <=? si then ret st
        else
          bind (lift_res (ctts_GetSampleOffset ctts (Z.of_N ci))) (fun off =>
          bind (or_panic (modify si (fun s => mksample (s_size s) (s_delta s) off) samples)) (fun samples' =>
          ret (w32 (si + 1), samples')))) st : M S (N * list sample)).
  pose (upto := fun i => runs (map (fun e => (uint_of "SampleCount" e, ctts_offset ctts e)) (firstn (N.to_nat i) (structs "Entries" ctts)))).
  pose (good := fun (done : list Z) (st : N * list sample) =>
    fst st = N.min (lenN done) (N.of_nat n) /\ map s_size (snd st) = map s_size samples /\
    map s_delta (snd st) = map s_delta samples /\ map s_cto (snd st) = stretch 0%Z n done).
  assert (GL : forall done st, good done st -> lenN (snd st) = N.of_nat n).
  { intros done st (_ & _ & _ & G). apply (f_equal (@List.length Z)) in G. rewrite map_length, stretch_length in G.
    unfold lenN. now rewrite G. }
  destruct (for_each_inv S (N * list sample) fields body (structs "Entries" ctts) (0, samples) s
    (fun i st => good (upto i) st)) as (b & E & H).
  - unfold good, upto. cbn [firstn N.to_nat map runs flat_map fst snd]. rewrite lenN_nil, N.min_0_l.
    repeat split. rewrite stretch_nil. clear - Z0. subst n. induction Z0 as [|x l H _ IH]; [reflexivity|]. cbn. now rewrite H, IH.
  - intros ci e st NE G. unfold body.
    pose proof (ctts_offset_ok _ _ _ NE) as CO.
    edestruct (forN_inv S (N * list sample) (fun _ (st : N * list sample) =>
        let (si, samples) := st in
        if w32 (lenN samples) <=? si then ret st
        else
          bind (lift_res (ctts_GetSampleOffset ctts (Z.of_N ci))) (fun off =>
          bind (or_panic (modify si (fun s => mksample (s_size s) (s_delta s) off) samples)) (fun samples' =>
          ret (w32 (si + 1), samples')))) 0 (uint_of "SampleCount" e) st s
      (fun j st => good (upto ci ++ repeat (ctts_offset ctts e) (N.to_nat j)) st)) as (c & E & H).
    + lia.
    + cbn [N.to_nat repeat]. now rewrite app_nil_r.
    + intros j st' J G'. pose proof (GL _ _ G') as LS. destruct st' as [si smp]. cbn [snd] in LS.
      set (done := upto ci ++ repeat (ctts_offset ctts e) (N.to_nat j)) in *.
      assert (ND : upto ci ++ repeat (ctts_offset ctts e) (N.to_nat (j + 1)) = done ++ [ctts_offset ctts e]).
      { unfold done. replace (N.to_nat (j + 1)) with (N.to_nat j + 1)%nat by lia. rewrite repeat_app, app_assoc. reflexivity. }
      rewrite ND. destruct G' as (G1 & G2 & G3 & G4). cbn [fst snd] in G1, G2, G3, G4.
      unfold w32. rewrite LS, N.mod_small by (rewrite <- LN; exact L). rewrite LN in L.
      destruct (N.leb_spec (N.of_nat n) si) as [LE|GT].
      * exists (si, smp). split; [reflexivity|]. unfold good. cbn [fst snd]. rewrite lenN_app.
        assert (n <= List.length done)%nat by (unfold lenN in G1; lia).
        repeat split; auto; [lia|]. rewrite stretch_long; auto.
      * assert (SD : si = lenN done) by lia. clear G1.
        assert (LD : (List.length done < n)%nat) by (unfold lenN in SD; lia).
        destruct (modify_some sample (fun s => mksample (s_size s) (s_delta s) (ctts_offset ctts e)) si smp ltac:(lia)) as (l' & M & _).
        exists (w32 (si + 1), l'). split.
        { unfold bind, lift_res. rewrite CO. unfold or_panic. rewrite M. reflexivity. }
        unfold good. cbn [fst snd]. rewrite lenN_app. change (lenN [ctts_offset ctts e]) with 1. split; [|split; [|split]].
        -- unfold w32. rewrite N.mod_small; lia.
        -- rewrite <- G2. eapply modify_same; [|exact M]. reflexivity.
        -- rewrite <- G3. eapply modify_same; [|exact M]. reflexivity.
        -- pose proof (modify_map _ _ s_cto (fun s => mksample (s_size s) (s_delta s) (ctts_offset ctts e)) (fun _ => ctts_offset ctts e) si smp (fun _ => eq_refl)) as MM.
           rewrite M, G4, SD, (stretch_put _ _ _ done n LD) in MM. now injection MM.
    + exists c. split; [exact E|]. unfold upto at 1. rewrite (firstn_next _ _ _ _ NE), map_app, runs_app.
      replace (runs (map (fun e0 => (uint_of "SampleCount" e0, ctts_offset ctts e0)) [e]))
        with (repeat (ctts_offset ctts e) (N.to_nat (uint_of "SampleCount" e))) by (unfold runs; cbn; now rewrite app_nil_r).
      exact H.
  - destruct H as (_ & H1 & H2 & H3). exists (snd b). split; [|split; [exact H1|split; [exact H2|]]].
    + unfold bind at 1. fold body. rewrite E. reflexivity.
    + rewrite H3. unfold upto, ctts_runs. rewrite firstn_lenN. reflexivity.
Qed.

(** ** stsz *)
Lemma stsz_ok : forall S stsz samples (s : S), Forall (fun x => s_size x = 0) samples ->
  exists l, stsz_samples stsz samples s = (Ok l, s) /\
    map s_cto l = map s_cto samples /\ map s_delta l = map s_delta samples /\
    map s_size l = stretch 0 (List.length samples) (uints "EntrySize" stsz).
Proof.
  intros S stsz samples s Z0. unfold stsz_samples.
  set (sizes := uints "EntrySize" stsz). set (n := List.length samples).
  destruct (forN_inv S (list sample) (fun i samples =>
    bind (or_panic (nthN i sizes)) (fun z =>
    or_panic (modify i (fun s => mksample z (s_delta s) (s_cto s)) samples))) 0 (N.min (lenN sizes) (lenN samples)) samples s
    (fun i l => map s_cto l = map s_cto samples /\ map s_delta l = map s_delta samples /\
                map s_size l = stretch 0 n (firstn (N.to_nat i) sizes))) as (b & E & H).
  - lia.
  - repeat split. cbn [N.to_nat firstn]. rewrite stretch_nil. clear - Z0. subst n.
    induction Z0 as [|x l H _ IH]; [reflexivity|]. cbn. now rewrite H, IH.
  - intros j l J (H1 & H2 & H3).
    destruct (nthN j sizes) as [z|] eqn:NZ.
    2:{ rewrite nthN_nth_error in NZ. apply nth_error_None in NZ. unfold lenN in J. lia. }
    assert (LL : lenN l = N.of_nat n).
    { apply (f_equal (@List.length N)) in H3. rewrite map_length, stretch_length in H3. unfold lenN. now rewrite H3. }
    destruct (modify_some sample (fun s => mksample z (s_delta s) (s_cto s)) j l) as (l' & M & _).
    { rewrite LL. unfold lenN in J. lia. }
    exists l'. split; [unfold bind, or_panic, ret; cbv beta iota; rewrite M; reflexivity|].
    split; [|split].
    + rewrite <- H1. eapply modify_same; [|exact M]. reflexivity.
    + rewrite <- H2. eapply modify_same; [|exact M]. reflexivity.
    + pose proof (modify_map _ _ s_size (fun s => mksample z (s_delta s) (s_cto s)) (fun _ => z) j l (fun _ => eq_refl)) as MM.
      assert (JL : j = lenN (firstn (N.to_nat j) sizes)).
      { unfold lenN. rewrite firstn_length. unfold lenN in J. lia. }
      rewrite M, H3 in MM. rewrite JL in MM at 1. rewrite (stretch_put N 0 z _ n) in MM.
      2:{ rewrite firstn_length. unfold lenN in J. lia. }
      injection MM as MM. rewrite MM. now rewrite (firstn_next _ _ _ _ NZ).
  - destruct H as (H1 & H2 & H3). exists b. split; [exact E|]. split; [exact H1|]. split; [exact H2|]. rewrite H3.
    destruct (N.le_gt_cases (lenN sizes) (lenN samples)) as [LE|GT].
    + rewrite N.min_l by exact LE. now rewrite firstn_lenN.
    + rewrite N.min_r by lia. rewrite <- (firstn_skipn (N.to_nat (lenN samples)) sizes) at 2.
      rewrite stretch_long; [reflexivity|]. rewrite firstn_length. unfold lenN in *. fold n. lia.
Qed.

(** ** stsc *)
Lemma nthN_lt : forall A (l : list A) i, i < lenN l -> exists x, nthN i l = Some x.
Proof.
  intros A l i H. rewrite nthN_nth_error. destruct (nth_error l (N.to_nat i)) eqn:E; [eauto|].
  apply nth_error_None in E. unfold lenN in H. lia.
Qed.
Lemma nthN_some_lt : forall A (l : list A) i x, nthN i l = Some x -> i < lenN l.
Proof.
  intros A l i x H. rewrite nthN_nth_error in H. assert (nth_error l (N.to_nat i) <> None) as K by congruence.
  apply nth_error_Some in K. unfold lenN. lia.
Qed.
Definition stsc_end (entries : list fields) (len si : N) : N :=
  match nthN (si + 1) entries with
  | Some nx => N.min (dec32 (first_chunk nx)) len
  | None => len
  end.
Definition set_spc (v : N) (c : chunk) : chunk := mkchunk (c_offset c) v.
Definition stsc_body {S} (entries : list fields) (si : N) (e : fields) (chunks : list chunk) : M S (list chunk) :=
  forN (dec32 (first_chunk e)) (stsc_end entries (w32 (lenN chunks)) si)
    (fun ci chunks => or_panic (modify ci (set_spc (uint_of "SamplesPerChunk" e)) chunks)) chunks.
Lemma for_each_ext : forall S A B (body body' : N -> B -> A -> M S A) L,
  (forall i x a s, nthN i L = Some x -> body i x a s = body' i x a s) ->
  forall l i a s, skipN i L = l -> for_each body i l a s = for_each body' i l a s.
Proof.
  intros S A B body body' L H. induction l as [|x l IH]; intros i a s E; [reflexivity|].
  assert (NX : nthN i L = Some x).
  { rewrite nthN_nth_error. rewrite skipN_skipn in E.
    assert (N.to_nat i <= List.length L)%nat.
    { apply (f_equal (@List.length B)) in E. rewrite skipn_length in E. cbn in E. lia. }
    rewrite <- (firstn_skipn (N.to_nat i) L), E. rewrite nth_error_app2; rewrite firstn_length;
    replace (Nat.min (N.to_nat i) (List.length L)) with (N.to_nat i) by lia; [|lia]. now rewrite Nat.sub_diag. }
  cbn [for_each]. unfold bind. rewrite (H _ _ _ _ NX). destruct (body' i x a s) as [[b| | |] s']; try reflexivity.
  apply IH. rewrite <- skipN_skipN, E, skipN_skipn. reflexivity.
Qed.
Lemma stsc_unfold : forall S stsc chunks (s : S),
  stsc_chunks stsc chunks s = for_each (stsc_body (structs "Entries" stsc)) 0 (structs "Entries" stsc) chunks s.
Proof.
  intros S stsc chunks s. unfold stsc_chunks. set (L := structs "Entries" stsc).
  apply (for_each_ext S _ _ _ _ L); [|rewrite skipN_skipn; reflexivity].
  clear chunks s. intros i e c s NE. apply nthN_some_lt in NE.
  unfold stsc_body, stsc_end. destruct (N.eqb_spec i (lenN L - 1)) as [->|NI].
  - replace (lenN L - 1 + 1) with (lenN L) by lia.
    destruct (nthN (lenN L) L) as [y|] eqn:Y; [apply nthN_some_lt in Y; lia|]. reflexivity.
  - destruct (nthN_lt _ L (i + 1) ltac:(lia)) as (y & Y). rewrite Y. unfold bind at 1. unfold bind at 1. cbn [or_panic].
    unfold ret at 1 2. unfold first_chunk.
    replace (if dec32 (uint_of "FirstChunk" y) <? w32 (lenN c) then dec32 (uint_of "FirstChunk" y) else w32 (lenN c))
      with (N.min (dec32 (uint_of "FirstChunk" y)) (w32 (lenN c))); [reflexivity|].
    destruct (N.ltb_spec (dec32 (uint_of "FirstChunk" y)) (w32 (lenN c))); lia.
Qed.
Lemma stsc_end_le : forall L len i, stsc_end L (w32 len) i <= len.
Proof.
  intros L len i. assert (w32 len <= len) by (apply N.mod_le; discriminate). unfold stsc_end. destruct (nthN (i + 1) L); lia.
Qed.
Lemma stsc_total : forall S stsc chunks (s : S),
  exists l, stsc_chunks stsc chunks s = (Ok l, s) /\ map c_offset l = map c_offset chunks.
Proof.
  intros S stsc chunks s. rewrite stsc_unfold. set (L := structs "Entries" stsc).
  apply (for_each_inv S (list chunk) fields (stsc_body L) L chunks s (fun _ l => map c_offset l = map c_offset chunks) eq_refl).
  intros i e l NE HL. unfold stsc_body.
  apply (forN_total S (list chunk) (fun ci chunks => or_panic (modify ci (set_spc (uint_of "SamplesPerChunk" e)) chunks))
    (dec32 (first_chunk e)) (stsc_end L (w32 (lenN l)) i) l s (fun l => map c_offset l = map c_offset chunks) HL).
  intros j b J HB. pose proof (stsc_end_le L (lenN l) i).
  assert (LB : lenN b = lenN l).
  { rewrite <- HL in HB. apply (f_equal (@List.length N)) in HB. rewrite !map_length in HB. unfold lenN. now rewrite HB. }
  destruct (modify_some _ (set_spc (uint_of "SamplesPerChunk" e)) j b ltac:(lia)) as (b' & M & _).
  exists b'. rewrite M. split; [reflexivity|]. rewrite <- HB. eapply modify_same; [|exact M]. reflexivity.
Qed.
Lemma increasing_nth : forall (F : fields -> N) L i e e', increasing (map F L) ->
  nthN i L = Some e -> nthN (i + 1) L = Some e' -> F e < F e'.
Proof.
  intros F L. induction L as [|x L IH]; intros i e e' H E1 E2; [discriminate|].
  cbn [nthN] in E1, E2. destruct (N.eqb_spec i 0) as [->|NZ].
  - injection E1 as ->. cbn [N.add N.eqb] in E2. change (N.pred 1) with 0 in E2.
    destruct L as [|y L]; [discriminate|]. cbn in E2. injection E2 as ->. cbn in H. now destruct H.
  - destruct (N.eqb_spec (i + 1) 0); [lia|]. replace (N.pred (i + 1)) with (N.pred i + 1) in E2 by lia.
    apply (IH (N.pred i)); auto. destruct L as [|y L]; [exact I|]. cbn in H. now destruct H.
Qed.
Definition spc_upto (L : list fields) (i k : N) : N :=
  match find (fun e => first_chunk e <=? k) (rev (firstn (N.to_nat i) L)) with
  | Some e => uint_of "SamplesPerChunk" e
  | None => 0
  end.
Definition before_next (L : list fields) (i k : N) : bool :=
  match nthN i L with Some e => k <? first_chunk e | None => true end.
Lemma stsc_spc : forall S stsc chunks (s : S) l, let L := structs "Entries" stsc in
  increasing (map first_chunk L) -> Forall (fun e => 1 <= first_chunk e < 2 ^ 32) L -> lenN chunks < 2 ^ 32 ->
  Forall (fun c => c_spc c = 0) chunks ->
  stsc_chunks stsc chunks s = (Ok l, s) ->
  forall k c, nthN k l = Some c -> c_spc c = spc_of stsc (k + 1).
Proof.
  intros S stsc chunks s l L HI HF HC HZ. rewrite stsc_unfold. fold L.
  assert (W : w32 (lenN chunks) = lenN chunks) by (apply N.mod_small; exact HC).
  assert (D : forall e, In e L -> dec32 (first_chunk e) = first_chunk e - 1).
  { intros e I. rewrite Forall_forall in HF. specialize (HF e I). unfold dec32, W32. change (2 ^ 32) with 4294967296 in HF.
    replace (first_chunk e + 4294967296 - 1) with (first_chunk e - 1 + 1 * 4294967296) by lia.
    rewrite N.mod_add by discriminate. apply N.mod_small. lia. }
  destruct (for_each_inv S (list chunk) fields (stsc_body L) L chunks s
    (fun i m => lenN m = lenN chunks /\ forall k c, nthN k m = Some c ->
       c_spc c = if before_next L i (k + 1) then spc_upto L i (k + 1) else 0)) as (b & E & H).
  - split; [reflexivity|]. intros k c K. rewrite nthN_nth_error in K. apply nth_error_In in K.
    rewrite Forall_forall in HZ. rewrite (HZ _ K). destruct (before_next L 0 (k + 1)); reflexivity.
  - intros i e m NE [LM HM]. unfold stsc_body.
    assert (IE : In e L) by (rewrite nthN_nth_error in NE; eapply nth_error_In; eauto).
    set (v := uint_of "SamplesPerChunk" e). set (hi := stsc_end L (w32 (lenN m)) i). rewrite (D e IE).
    assert (HH : hi <= lenN m) by apply stsc_end_le.
    assert (FE : 1 <= first_chunk e) by (rewrite Forall_forall in HF; apply HF; exact IE).
    assert (X : exists c, (forN (first_chunk e - 1) hi (fun ci chunks => or_panic (modify ci (set_spc v) chunks)) m s = (Ok c, s)) /\ lenN c = lenN m /\ forall k x, nthN k c = Some x ->
         c_spc x = if (first_chunk e - 1 <=? k) && (k <? hi) then v
                   else if before_next L i (k + 1) then spc_upto L i (k + 1) else 0).
    { destruct (N.le_gt_cases (first_chunk e - 1) hi) as [LE|GT].
      - apply (forN_inv S (list chunk) (fun ci chunks => or_panic (modify ci (set_spc v) chunks)) (first_chunk e - 1) hi m s
          (fun j c => lenN c = lenN m /\ forall k x, nthN k c = Some x ->
             c_spc x = if (first_chunk e - 1 <=? k) && (k <? j) then v
                       else if before_next L i (k + 1) then spc_upto L i (k + 1) else 0) LE).
        + split; [reflexivity|]. intros k x K. rewrite (HM _ _ K).
          destruct (N.leb_spec (first_chunk e - 1) k), (N.ltb_spec k (first_chunk e - 1)); try reflexivity. lia.
        + intros j c J [LC HC']. destruct (modify_some _ (set_spc v) j c ltac:(lia)) as (c' & M & LM').
          exists c'. rewrite M. split; [reflexivity|]. split; [lia|]. intros k x K.
          rewrite (modify_nth _ _ _ _ _ _ M) in K. destruct (N.eqb_spec k j) as [->|NK].
          * destruct (nthN j c); [|discriminate]. injection K as <-. cbn [c_spc set_spc].
            destruct (N.leb_spec (first_chunk e - 1) j), (N.ltb_spec j (j + 1)); try lia. reflexivity.
          * rewrite (HC' _ _ K). destruct (N.ltb_spec k j), (N.ltb_spec k (j + 1)); try lia; reflexivity.
      - exists m. split; [apply forN_none; lia|]. split; [reflexivity|]. intros k x K. rewrite (HM _ _ K).
        destruct (N.leb_spec (first_chunk e - 1) k), (N.ltb_spec k hi); try reflexivity. lia. }
    destruct X as (c & EC & LC & HX). exists c. split; [exact EC|]. split; [lia|].
    intros k x K. rewrite (HX _ _ K). pose proof (nthN_some_lt _ _ _ _ K) as KL.
    unfold spc_upto at 2. rewrite (firstn_next _ _ _ _ NE), rev_app_distr. cbn [rev app find].
    assert (BN : before_next L i (k + 1) = (k + 1 <? first_chunk e)) by (unfold before_next; now rewrite NE).
    rewrite BN. unfold before_next.
    assert (HH2 : hi = match nthN (i + 1) L with Some nx => N.min (first_chunk nx - 1) (lenN m) | None => lenN m end).
    { unfold hi, stsc_end. rewrite LM, W. destruct (nthN (i + 1) L) as [nx|] eqn:EN; [|reflexivity].
      rewrite D; [reflexivity|]. rewrite nthN_nth_error in EN. eapply nth_error_In; eauto. }
    destruct (N.leb_spec (first_chunk e - 1) k) as [C1|C1], (N.ltb_spec (k + 1) (first_chunk e)) as [C2|C2], (N.leb_spec (first_chunk e) (k + 1)) as [C3|C3];
      try lia; cbn [andb].
    + destruct (N.ltb_spec k hi) as [C4|C4].
      * destruct (nthN (i + 1) L) as [nx|] eqn:EN; [|reflexivity].
        destruct (N.ltb_spec (k + 1) (first_chunk nx)); [reflexivity|lia].
      * destruct (nthN (i + 1) L) as [nx|] eqn:EN; [|lia].
        destruct (N.ltb_spec (k + 1) (first_chunk nx)); [lia|reflexivity].
    + destruct (nthN (i + 1) L) as [nx|] eqn:EN; [|reflexivity].
      pose proof (increasing_nth first_chunk L i e nx HI NE EN).
      destruct (N.ltb_spec (k + 1) (first_chunk nx)); [reflexivity|lia].
  - intros EL k c K. rewrite E in EL. injection EL as ->. destruct H as [_ H]. rewrite (H _ _ K).
    unfold before_next. destruct (nthN (lenN L) L) eqn:X; [apply nthN_some_lt in X; lia|].
    unfold spc_upto, spc_of. now rewrite firstn_lenN.
Qed.
