(** C39, C40: average and peak bitrates. *)
From Verif Require Import Base BaseProofs Probe SpecProbe ProbeFound.
Local Open Scope list_scope.
Local Open Scope N_scope.

Lemma w64_small : forall n, n < 2 ^ 64 -> w64 n = n.
Proof. intros. now apply N.mod_small. Qed.
Lemma sum_app : forall a b, sum (a ++ b) = sum a + sum b.
Proof. induction a as [|x a IH]; intros b; [reflexivity|]. cbn [app sum fold_right]. fold (sum (a ++ b)) (sum a). rewrite IH. lia. Qed.

(** ** Averages *)
Lemma fold_pair : forall A (f g : A -> N) l a b,
  fold_left (fun st s => (w64 (fst st + f s), w64 (snd st + g s))) l (w64 a, w64 b) = (w64 (a + sum (map f l)), w64 (b + sum (map g l))).
Proof.
  intros A f g. induction l as [|x l IH]; intros a b; cbn [fold_left map sum fold_right fst snd].
  - now rewrite !N.add_0_r.
  - replace (w64 (w64 a + f x)) with (w64 (a + f x)) by (unfold w64; now rewrite N.add_mod_idemp_l by discriminate).
    replace (w64 (w64 b + g x)) with (w64 (b + g x)) by (unfold w64; now rewrite N.add_mod_idemp_l by discriminate).
    rewrite IH. unfold sum. f_equal; f_equal; lia.
Qed.
Lemma bits : forall size ts, 8 * size * ts < 2 ^ 64 -> w64 (w64 (8 * w64 size) * ts) = 8 * size * ts.
Proof.
  intros size ts H. unfold w64. rewrite N.mul_mod_idemp_l by discriminate.
  rewrite <- (N.mul_mod_idemp_l (8 * _)), (N.mul_mod_idemp_r 8), N.mul_mod_idemp_l by discriminate. now apply N.mod_small.
Qed.

(** C39.  8 * size * timescale / duration, rounded down, or 0 without duration. *)
Theorem C39_samples : forall l ts,
  8 * total_size l * ts < 2 ^ 64 -> total_delta l < 2 ^ 64 ->
  samples_bitrate l ts = if total_delta l =? 0 then 0 else 8 * total_size l * ts / total_delta l.
Proof.
  intros l ts H D. unfold samples_bitrate.
  rewrite (fold_pair _ s_size s_delta l 0 0 : fold_left _ l (0, 0) = _), !N.add_0_l.
  fold (total_size l) (total_delta l). rewrite (w64_small (total_delta l)) by exact D.
  destruct (total_delta l =? 0); [reflexivity|]. now rewrite bits.
Qed.
Print Assumptions C39_samples.
Example C39_samples_case :
  samples_bitrate [mksample 100 500 0; mksample 250 300 0; mksample 1 7 0] 1000 = 3479 /\
  samples_bitrate [mksample 100 0 0] 1000 = 0.
Proof. vm_compute. auto. Qed.

Lemma fold_track : forall id l st,
  fold_left (fun a s => if g_track s =? id then (w64 (fst a + g_size s), w64 (snd a + g_duration s)) else a) l st =
  fold_left (fun a s => (w64 (fst a + g_size s), w64 (snd a + g_duration s))) (of_track id l) st.
Proof.
  induction l as [|s l IH]; intros st; [reflexivity|]. cbn [fold_left of_track filter]. fold (of_track id l).
  destruct (g_track s =? id); [cbn [fold_left]|]; apply IH.
Qed.
Theorem C39_segments : forall l id ts, let mine := of_track id l in
  let size := sum (map g_size mine) in let duration := sum (map g_duration mine) in
  8 * size * ts < 2 ^ 64 -> duration < 2 ^ 64 ->
  segments_bitrate l id ts = if duration =? 0 then 0 else 8 * size * ts / duration.
Proof.
  intros l id ts mine size duration H D. unfold segments_bitrate. rewrite fold_track. fold mine.
  rewrite (fold_pair _ g_size g_duration mine 0 0 : fold_left _ mine (0, 0) = _), !N.add_0_l.
  fold size duration. rewrite (w64_small duration) by exact D. destruct (duration =? 0); [reflexivity|]. now rewrite bits.
Qed.
Print Assumptions C39_segments.
Example C39_segments_case :
  segments_bitrate [mkseg 1 0 0 0 1 500 0 100; mkseg 2 0 0 0 1 9 0 9; mkseg 1 0 0 0 1 300 0 250] 1 1000 = 3500.
Proof. vm_compute. reflexivity. Qed.

(** ** Peaks *)
(** C40, segments: the greatest of the rates of the track's segments that have a
    duration, 0 if there is none. *)
Theorem C40_segments : forall l id ts,
  let mine := filter (fun s => negb (g_duration s =? 0)) (of_track id l) in
  Forall (fun s => 8 * g_size s * ts < 2 ^ 64) mine ->
  greatest (segments_max_bitrate l id ts) (map (fun s => rate (g_size s) ts (g_duration s)) mine).
Proof.
  intros l id ts mine. unfold segments_max_bitrate. subst mine.
  assert (G : forall l m0 P, greatest m0 P ->
    Forall (fun s => 8 * g_size s * ts < 2 ^ 64) (filter (fun s => negb (g_duration s =? 0)) (of_track id l)) ->
    greatest (fold_left (fun m s => if (g_track s =? id) && negb (g_duration s =? 0) then
      let b := w64 (w64 (8 * g_size s) * ts) / g_duration s in if m <? b then b else m else m) l m0)
      (P ++ map (fun s => rate (g_size s) ts (g_duration s)) (filter (fun s => negb (g_duration s =? 0)) (of_track id l)))).
  { clear l. induction l as [|s l IH]; intros m0 P G F.
    - cbn. now rewrite app_nil_r.
    - cbn [fold_left of_track filter] in *. fold (of_track id l) in *. destruct (g_track s =? id); cbn [andb]; [|apply IH; auto].
      cbn [filter] in *. destruct (negb (g_duration s =? 0)); [|apply IH; auto].
      inversion F as [|? ? F1 F2]; subst. cbn [map].
      change (?x :: ?y) with ([x] ++ y). rewrite app_assoc. apply IH; [|exact F2].
      replace (w64 (w64 (8 * g_size s) * ts)) with (8 * g_size s * ts); cycle 1.
      { unfold w64. rewrite N.mul_mod_idemp_l by discriminate. symmetry. now apply N.mod_small. }
      cbv zeta. fold (rate (g_size s) ts (g_duration s)). destruct G as [G1 G2].
      destruct (N.ltb_spec m0 (rate (g_size s) ts (g_duration s))) as [L|L]; split.
      + right. apply in_or_app. right. now left.
      + apply Forall_app. split; [|repeat constructor; lia]. eapply Forall_impl; [|exact G2]. cbv beta. intros; lia.
      + destruct G1 as [->|G1]; [now left|]. right. apply in_or_app. now left.
      + apply Forall_app. split; [exact G2|]. repeat constructor. exact L. }
  intros F. apply (G l 0 []); auto. split; [now left|constructor].
Qed.
Print Assumptions C40_segments.
Example C40_segments_case :
  segments_max_bitrate [mkseg 1 0 0 0 1 500 0 100; mkseg 2 0 0 0 1 9 0 9000; mkseg 1 0 0 0 1 300 0 250; mkseg 1 0 0 0 1 0 0 250] 1 1000 = 6666.
Proof. vm_compute. reflexivity. Qed.

(** ** The sliding maximum of samples *)
Lemma delta_app : forall a b, total_delta (a ++ b) = total_delta a + total_delta b.
Proof. intros. unfold total_delta. now rewrite map_app, sum_app. Qed.
Lemma size_app : forall a b, total_size (a ++ b) = total_size a + total_size b.
Proof. intros. unfold total_size. now rewrite map_app, sum_app. Qed.
Lemma delta_cons : forall x b, total_delta (x :: b) = s_delta x + total_delta b.
Proof. reflexivity. Qed.
Lemma size_cons : forall x b, total_size (x :: b) = s_size x + total_size b.
Proof. reflexivity. Qed.
Lemma delta_one : forall x, total_delta [x] = s_delta x.
Proof. intros. unfold total_delta, sum. cbn. lia. Qed.
Lemma size_one : forall x, total_size [x] = s_size x.
Proof. intros. unfold total_size, sum. cbn. lia. Qed.

Lemma sub64_add : forall a b, a + b < 2 ^ 64 -> sub64 (a + b) a = b.
Proof.
  intros a b H. unfold sub64. change W64 with (2 ^ 64). rewrite (N.mod_small a) by lia.
  replace (a + b + 2 ^ 64 - a) with (b + 1 * 2 ^ 64) by lia. rewrite N.mod_add by discriminate. apply N.mod_small. lia.
Qed.
Section Sliding.
  Variables (l : list sample) (ts T : N).
  Hypothesis HT : 0 < T.
  Hypothesis HD : total_delta l < 2 ^ 64.
  Hypothesis HS : total_size l < 2 ^ 64.
  Hypothesis HB : 8 * total_size l * ts < 2 ^ 64.
  (** [w] cannot begin earlier *)
  Definition early (before w : list sample) : Prop := forall b y, before = b ++ [y] -> T <= total_delta (y :: w).
  Definition at_end (win after : list sample) : Prop := exists before w x,
    l = before ++ win ++ after /\ win = w ++ [x] /\ total_delta w < T /\ early before w /\ (T <= total_delta win \/ after = []).
  Lemma window_at : forall win, window T l win <-> exists after, at_end win after.
  Proof.
    intros win. split.
    - intros (before & w & x & after & H). exists after, before, w, x. exact H.
    - intros (after & before & w & x & H). exists before, w, x, after. exact H.
  Qed.
  Lemma early_unique : forall b1 w1 b2 w2, b1 ++ w1 = b2 ++ w2 -> total_delta w1 < T -> total_delta w2 < T ->
    early b1 w1 -> early b2 w2 -> w1 = w2.
  Proof.
    assert (G : forall b1 w1 b2 w2, b1 ++ w1 = b2 ++ w2 -> total_delta w1 < T -> early b2 w2 -> (List.length b2 <= List.length b1)%nat).
    { intros b1 w1 b2 w2 E H1 H2. destruct (Nat.leb_spec (List.length b2) (List.length b1)) as [L|L]; [exact L|exfalso].
      assert (Q : exists d, b2 = b1 ++ d).
      { exists (skipn (List.length b1) b2). apply (f_equal (firstn (List.length b1))) in E.
        rewrite firstn_app, Nat.sub_diag, firstn_all, firstn_O, app_nil_r in E.
        rewrite firstn_app in E. replace (List.length b1 - List.length b2)%nat with 0%nat in E by lia. rewrite firstn_O, app_nil_r in E.
        rewrite E at 1. symmetry. apply firstn_skipn. }
      destruct Q as (d & ->). rewrite app_length in L. destruct d as [|y d _] using rev_ind; [cbn in L; lia|].
      rewrite <- app_assoc in E. apply app_inv_head in E. subst w1.
      specialize (H2 (b1 ++ d) y ltac:(now rewrite <- app_assoc)).
      rewrite delta_cons in H2. rewrite !delta_app, delta_one in H1. lia. }
    intros b1 w1 b2 w2 E H1 H2 E1 E2.
    pose proof (G _ _ _ _ E H1 E2). pose proof (G _ _ _ _ (eq_sym E) H2 E1).
    assert (LB : List.length b1 = List.length b2) by lia.
    apply (f_equal (skipn (List.length b1))) in E. rewrite skipn_app, Nat.sub_diag, skipn_all in E. cbn in E.
    rewrite skipn_app, LB, Nat.sub_diag, skipn_all in E. exact E.
  Qed.
  Definition rate_of (win : list sample) : N := rate (total_size win) ts (total_delta win).
  (** the best of the windows that end no later than [rest] begins *)
  Definition best_of (best : N) (n : nat) : Prop :=
    (forall win after, at_end win after -> (n <= List.length after)%nat -> rate_of win <= best /\ total_delta win <> 0) /\
    (best = 0 \/ exists win, window T l win /\ best = rate_of win).
  Lemma split_same : forall (a b c d : list sample), a ++ b = c ++ d -> List.length b = List.length d -> a = c /\ b = d.
  Proof.
    intros a b c d E L. assert (LA : List.length a = List.length c).
    { apply (f_equal (@List.length _)) in E. rewrite !app_length in E. lia. }
    split.
    - apply (f_equal (firstn (List.length a))) in E. rewrite firstn_app, Nat.sub_diag, firstn_all, firstn_O, app_nil_r in E.
      rewrite LA, firstn_app, Nat.sub_diag, firstn_all, firstn_O, app_nil_r in E. exact E.
    - apply (f_equal (skipn (List.length a))) in E. rewrite skipn_app, Nat.sub_diag, skipn_all in E. cbn in E.
      rewrite LA, skipn_app, Nat.sub_diag, skipn_all in E. exact E.
  Qed.
  Lemma bounds : forall a w r, l = a ++ w ++ r -> total_delta w < 2 ^ 64 /\ total_size w < 2 ^ 64 /\ total_size w <= total_size l.
  Proof. intros a w r E. rewrite E, !delta_app in HD. rewrite E, !size_app in HS |- *. lia. Qed.
  Lemma only_window : forall before w x r win after, l = before ++ (w ++ [x]) ++ r -> total_delta w < T -> early before w ->
    at_end win after -> List.length after = List.length r -> win = w ++ [x] /\ after = r.
  Proof.
    intros before w x r win after E D E1 (b & w' & x' & F & -> & D' & E2 & _) L.
    assert (S : (before ++ w ++ [x]) = (b ++ w' ++ [x']) /\ r = after) by (apply split_same; [rewrite <- !app_assoc in *; congruence|now symmetry]).
    destruct S as [S ->]. rewrite !app_assoc in S. apply app_inj_tail in S. destruct S as [S ->].
    now rewrite (early_unique _ _ _ _ S D D' E1 E2).
  Qed.
  Lemma grow_ok : forall rest before w best, rest <> [] -> l = before ++ w ++ rest -> total_delta w < T -> early before w ->
    best_of best (List.length rest) ->
    exists w1 x r, grow T (total_size w) (total_delta w) rest = Ok (total_size (w1 ++ [x]), total_delta (w1 ++ [x]), r) /\
      l = before ++ (w1 ++ [x]) ++ r /\ total_delta w1 < T /\ early before w1 /\ (T <= total_delta (w1 ++ [x]) \/ r = []) /\
      best_of best (S (List.length r)) /\ (List.length r < List.length rest)%nat.
  Proof.
    induction rest as [|x rest IH]; intros before w best NE E D E1 B; [contradiction|]. clear NE. cbn [grow].
    assert (E' : l = before ++ (w ++ [x]) ++ rest) by (rewrite <- app_assoc; exact E).
    destruct (bounds _ _ _ E') as (B1 & B2 & _).
    replace (w64 (total_size w + s_size x)) with (total_size (w ++ [x])) by (rewrite size_app, size_one in *; symmetry; now apply w64_small).
    replace (w64 (total_delta w + s_delta x)) with (total_delta (w ++ [x])) by (rewrite delta_app, delta_one in *; symmetry; now apply w64_small).
    destruct ((T <=? total_delta (w ++ [x])) || match rest with [] => true | _ => false end) eqn:C.
    - exists w, x, rest. split; [reflexivity|]. split; [exact E'|]. split; [exact D|]. split; [exact E1|]. split.
      + apply orb_true_iff in C. destruct C as [C|C]; [left; now apply N.leb_le|right; now destruct rest].
      + split; [exact B|cbn; lia].
    - apply orb_false_iff in C. destruct C as [C1 C2]. apply N.leb_gt in C1.
      assert (NE : rest <> []) by (intros ->; discriminate C2).
      destruct (IH before (w ++ [x]) best NE E' C1) as (w1 & x1 & r & G & X1 & X2 & X3 & X4 & X5 & X6).
      + intros b y Q. specialize (E1 b y Q). rewrite delta_cons, delta_app in *. lia.
      + destruct B as [U V]. split; [|exact V]. intros win after A L.
        destruct (Nat.eq_dec (List.length rest) (List.length after)) as [Q|Q]; [|apply (U win after A); cbn; lia].
        destruct (only_window _ _ _ _ _ _ E' D E1 A (eq_sym Q)) as [-> ->].
        destruct A as (b & w' & x' & _ & _ & _ & _ & [A|A]); [lia|contradiction].
      + exists w1, x1, r. repeat (split; auto). cbn. lia.
  Qed.
  Lemma shrink_ok : forall win before r, l = before ++ win ++ r -> T <= total_delta win ->
    exists p w, win = p ++ w /\ shrink T (total_size win) (total_delta win) (win ++ r) = Ok (total_size w, total_delta w, w ++ r) /\
      total_delta w < T /\ early (before ++ p) w.
  Proof.
    induction win as [|s win IH]; intros before r E D; [cbn in D; lia|]. cbn [shrink app].
    destruct (bounds _ _ _ E) as (B1 & B2 & _).
    rewrite delta_cons in *. rewrite size_cons in *.
    rewrite !sub64_add by lia. destruct (N.ltb_spec (total_delta win) T) as [L|L].
    - exists [s], win. split; [reflexivity|]. split; [reflexivity|]. split; [exact L|].
      intros b y Q. apply app_inj_tail in Q. destruct Q as [_ <-]. now rewrite delta_cons.
    - destruct (IH (before ++ [s]) r) as (p & w & -> & G & X1 & X2); [now rewrite <- app_assoc|exact L|].
      exists (s :: p), w. split; [reflexivity|]. split; [exact G|]. split; [exact X1|]. now rewrite <- app_assoc in X2.
  Qed.
  Lemma loop_ok : forall fuel before w rest best, (List.length rest <= fuel)%nat ->
    l = before ++ w ++ rest -> total_delta w < T -> early before w -> best_of best (List.length rest) ->
    (exists m, max_loop fuel ts T best (total_size w) (total_delta w) (w ++ rest) rest = Ok m /\ best_of m 0) \/
    (max_loop fuel ts T best (total_size w) (total_delta w) (w ++ rest) rest = Panic /\ exists win, window T l win /\ total_delta win = 0).
  Proof.
    induction fuel as [|k IH]; intros before w rest best L E D E1 B.
    - destruct rest; [|cbn in L; lia]. left. exists best. split; [reflexivity|exact B].
    - destruct rest as [|x0 rest0] eqn:ER; [left; exists best; split; [reflexivity|exact B]|]. rewrite <- ER in *.
      assert (NE : rest <> []) by (rewrite ER; discriminate).
      destruct (grow_ok rest before w best NE E D E1 B) as (w1 & x & r & G & X1 & X2 & X3 & X4 & X5 & X6).
      assert (WW : at_end (w1 ++ [x]) r) by (exists before, w1, x; auto 10).
      assert (WN : window T l (w1 ++ [x])) by (apply window_at; eauto).
      assert (EQ : w ++ rest = (w1 ++ [x]) ++ r) by (rewrite E in X1; now apply app_inv_head in X1).
      rewrite EQ. set (win := w1 ++ [x]) in *.
      assert (U : max_loop (S k) ts T best (total_size w) (total_delta w) (win ++ r) rest =
        match grow T (total_size w) (total_delta w) rest with
        | Ok (size, duration, rest) =>
            if duration =? 0 then Panic
            else let bitrate := w64 (w64 (8 * size) * ts) / duration in
                 let best := if best <? bitrate then bitrate else best in
                 match shrink T size duration (win ++ r) with
                 | Ok (size, duration, from) => max_loop k ts T best size duration from rest
                 | Err e => Err e | Panic => Panic | OutOfFuel => OutOfFuel
                 end
        | Err e => Err e | Panic => Panic | OutOfFuel => OutOfFuel
        end) by (rewrite ER; reflexivity).
      rewrite U, G. clear U G. destruct (N.eqb_spec (total_delta win) 0) as [Z|NZ]; [right; split; [reflexivity|]; eauto|]. cbv zeta.
      destruct (bounds _ _ _ X1) as (B1 & B2 & B3).
      replace (w64 (w64 (8 * total_size win) * ts) / total_delta win) with (rate_of win); cycle 1.
      { unfold rate_of, rate. f_equal. unfold w64. rewrite N.mul_mod_idemp_l by discriminate. symmetry. apply N.mod_small.
        change W64 with (2 ^ 64). eapply N.le_lt_trans; [|exact HB]. apply N.mul_le_mono_r. lia. }
      set (best' := if best <? rate_of win then rate_of win else best).
      assert (B' : best_of best' (List.length r)).
      { destruct X5 as [U V]. unfold best'. split.
        - intros win' after A LE. destruct (Nat.eq_dec (List.length after) (List.length r)) as [Q|Q].
          + destruct (only_window _ _ _ _ _ _ X1 X2 X3 A Q) as [-> _]. fold win. split; [|exact NZ]. destruct (N.ltb_spec best (rate_of win)); lia.
          + destruct (U win' after A ltac:(lia)) as [U1 U2]. split; [|exact U2]. destruct (N.ltb_spec best (rate_of win)); lia.
        - destruct (N.ltb_spec best (rate_of win)); [right; eauto|exact V]. }
      destruct (N.le_gt_cases T (total_delta win)) as [X7|X7].
      + destruct (shrink_ok win before r X1 X7) as (p & w2 & P & G & Y1 & Y2). rewrite G.
        apply (IH (before ++ p) w2 r best'); auto; [lia|]. rewrite X1, P, <- !app_assoc. reflexivity.
      + destruct X4 as [X4|X4]; [lia|]. subst r. left. exists best'. split; [|exact B']. rewrite app_nil_r.
        assert (NW : win <> []) by (unfold win; destruct w1; discriminate). clearbody win.
        destruct win as [|s win']; [contradiction|].
        cbn [shrink]. rewrite delta_cons in *. rewrite size_cons in *. rewrite !sub64_add by lia.
        destruct (N.ltb_spec (total_delta win') T) as [LT|GE]; [now destruct k|lia].
  Qed.
End Sliding.

Lemma max_exact : forall l ts T, 0 < T ->
  total_delta l < 2 ^ 64 -> total_size l < 2 ^ 64 -> 8 * total_size l * ts < 2 ^ 64 ->
  (exists m, samples_max_bitrate l ts T = Ok m /\ best_of l ts T m 0) \/
  (samples_max_bitrate l ts T = Panic /\ exists win, window T l win /\ total_delta win = 0).
Proof.
  intros l ts T HT HD HS HB. unfold samples_max_bitrate. destruct (N.eqb_spec T 0) as [->|_]; [lia|].
  apply (loop_ok l ts T HT HD HS HB (List.length l) [] [] l 0).
  - reflexivity.
  - reflexivity.
  - exact HT.
  - intros b y Q. destruct b; discriminate Q.
  - split; [|now left]. intros win after (before & w & x & F & -> & _) L.
    apply (f_equal (@List.length _)) in F. rewrite !app_length in F. cbn in F. lia.
Qed.
(** C40, samples: the greatest rate of the windows, 0 if there is none.

    Partial: when the last window has no duration the code divides by zero. *)
Theorem C40_samples_partial : forall l ts T, 0 < T ->
  total_delta l < 2 ^ 64 -> total_size l < 2 ^ 64 -> 8 * total_size l * ts < 2 ^ 64 ->
  (forall win, window T l win -> total_delta win <> 0) ->
  exists m, samples_max_bitrate l ts T = Ok m /\
    (forall win, window T l win -> rate (total_size win) ts (total_delta win) <= m) /\
    (m = 0 \/ exists win, window T l win /\ m = rate (total_size win) ts (total_delta win)).
Proof.
  intros l ts T HT HD HS HB NZ. destruct (max_exact l ts T HT HD HS HB) as [(m & E & U & V)|(_ & win & W & Z)].
  - exists m. split; [exact E|]. split; [|exact V].
    intros win W. apply window_at in W. destruct W as (after & A). apply (U win after A). lia.
  - destruct (NZ win W Z).
Qed.
Print Assumptions C40_samples_partial.
(** It panics exactly then, whatever the sizes of the samples. *)
Definition sizeless (s : sample) : sample := mksample 0 (s_delta s) (s_cto s).
Lemma sizeless_delta : forall l, total_delta (map sizeless l) = total_delta l.
Proof. intros l. unfold total_delta. rewrite map_map. reflexivity. Qed.
Lemma grow_sizeless : forall T rest sz sz' du, match grow T sz du rest, grow T sz' du (map sizeless rest) with
  | Ok (_, d, r), Ok (_, d', r') => d = d' /\ r' = map sizeless r | Panic, Panic => True | _, _ => False end.
Proof.
  intros T. induction rest as [|s r IH]; intros sz sz' du; [exact I|]. cbn [grow map]. cbn [s_size s_delta sizeless].
  replace (match map sizeless r with [] => true | _ :: _ => false end) with (match r with [] => true | _ :: _ => false end) by now destruct r.
  destruct (_ || _); [auto|apply IH].
Qed.
Lemma shrink_sizeless : forall T from sz sz' du, match shrink T sz du from, shrink T sz' du (map sizeless from) with
  | Ok (_, d, r), Ok (_, d', r') => d = d' /\ r' = map sizeless r | Panic, Panic => True | _, _ => False end.
Proof.
  intros T. induction from as [|s r IH]; intros sz sz' du; [exact I|]. cbn [shrink map]. cbn [s_size s_delta sizeless].
  destruct (_ <? T); [auto|apply IH].
Qed.
Lemma max_sizeless : forall fuel ts ts' T best best' sz sz' du from rest,
  max_loop fuel ts T best sz du from rest = Panic <-> max_loop fuel ts' T best' sz' du (map sizeless from) (map sizeless rest) = Panic.
Proof.
  induction fuel as [|k IH]; intros ts ts' T best best' sz sz' du from rest.
  - destruct rest; cbn; split; discriminate.
  - destruct rest as [|s rest]; [cbn; split; discriminate|]. cbn [max_loop map].
    pose proof (grow_sizeless T (s :: rest) sz sz' du) as G. cbn [map] in G.
    destruct (grow T sz du (s :: rest)) as [[[s1 d1] r1]| | |], (grow T sz' du (sizeless s :: map sizeless rest)) as [[[s2 d2] r2]| | |]; try contradiction; [|tauto].
    destruct G as [<- ->]. destruct (d1 =? 0); [tauto|]. cbv zeta.
    pose proof (shrink_sizeless T from s1 s2 d1) as G.
    destruct (shrink T s1 d1 from) as [[[s3 d3] r3]| | |], (shrink T s2 d1 (map sizeless from)) as [[[s4 d4] r4]| | |]; try contradiction; [|tauto].
    destruct G as [<- ->]. apply IH.
Qed.
Lemma map_app_inv : forall A B (f : A -> B) l a b, map f l = a ++ b -> exists x y, l = x ++ y /\ a = map f x /\ b = map f y.
Proof. intros A B f l a b H. apply map_eq_app in H. destruct H as (x & y & -> & <- & <-). eauto. Qed.
Lemma window_sizeless : forall T l, (exists win, window T (map sizeless l) win /\ total_delta win = 0) <-> (exists win, window T l win /\ total_delta win = 0).
Proof.
  intros T l. split.
  - intros (win & (before & w & x & after & E & -> & D & B & M) & Z).
    apply map_app_inv in E. destruct E as (b1 & r1 & -> & -> & E). symmetry in E. apply map_app_inv in E. destruct E as (w1 & a1 & -> & E & ->).
    symmetry in E. apply map_app_inv in E. destruct E as (w2 & x2 & -> & -> & E). destruct x2 as [|y [|]]; try discriminate E.
    exists (w2 ++ [y]). rewrite E, <- map_app, sizeless_delta in Z, M. split; [|exact Z]. exists b1, w2, y, a1. repeat split.
    + now rewrite sizeless_delta in D.
    + intros b z Q. subst b1. specialize (B (map sizeless b) (sizeless z) ltac:(now rewrite map_app)).
      rewrite delta_cons, sizeless_delta in B. exact B.
    + destruct M as [M|M]; [now left|right]. now destruct a1.
  - intros (win & (before & w & x & after & -> & -> & D & B & M) & Z). exists (map sizeless (w ++ [x])). rewrite sizeless_delta. split; [|exact Z].
    exists (map sizeless before), (map sizeless w), (sizeless x), (map sizeless after). rewrite !sizeless_delta. repeat split.
    + now rewrite <- !map_app.
    + now rewrite map_app.
    + exact D.
    + intros b z Q. symmetry in Q. symmetry in Q. apply map_app_inv in Q. destruct Q as (b1 & z1 & -> & -> & Q). destruct z1 as [|z1 [|]]; try discriminate Q.
      injection Q as ->. specialize (B b1 z1 eq_refl). rewrite delta_cons in *. now rewrite sizeless_delta.
    + destruct M as [M|M]; [now left|right]. now rewrite M.
Qed.
Lemma sizeless_size : forall l, total_size (map sizeless l) = 0.
Proof. induction l as [|s l IH]; [reflexivity|]. cbn [map]. rewrite size_cons, IH. reflexivity. Qed.
Theorem C40_panics : forall l ts T, 0 < T -> total_delta l < 2 ^ 64 ->
  samples_max_bitrate l ts T = Panic <-> exists win, window T l win /\ total_delta win = 0.
Proof.
  intros l ts T HT HD. rewrite <- window_sizeless.
  destruct (max_exact (map sizeless l) 0 T HT) as [(m & E & U & V)|(E & W)]; rewrite ?sizeless_delta, ?sizeless_size; try reflexivity; try exact HD.
  - split.
    + intros P. exfalso. unfold samples_max_bitrate in P, E. destruct (N.eqb_spec T 0) as [->|_]; [lia|].
      rewrite map_length in E. apply (proj1 (max_sizeless _ _ 0 _ _ 0 _ 0 _ _ _)) in P. rewrite P in E. discriminate E.
    + intros (win & W & Z). apply window_at in W. destruct W as (after & A). exfalso. apply (U win after A); [lia|exact Z].
  - split; [intros _; exact W|]. intros _. unfold samples_max_bitrate in *. destruct (N.eqb_spec T 0) as [->|_]; [lia|].
    rewrite map_length in E. exact (proj2 (max_sizeless _ _ 0 _ _ 0 _ 0 _ _ _) E).
Qed.
Print Assumptions C40_panics.
Theorem C40_no_window : forall l ts, samples_max_bitrate l ts 0 = Ok 0.
Proof. reflexivity. Qed.
Print Assumptions C40_no_window.
Example C40_samples_case :
  let a := mksample 10 5 0 in let b := mksample 90 4 0 in let c := mksample 30 3 0 in
  samples_max_bitrate [a; b; c; a] 7 6 = Ok (rate 120 7 7) /\
  (forall win, window 6 [a; b; c; a] win -> total_delta win <> 0).
Proof.
  cbv zeta. split; [vm_compute; reflexivity|]. intros win (before & w & x & after & E & -> & _).
  rewrite delta_app, delta_one. assert (I : In x [mksample 10 5 0; mksample 90 4 0; mksample 30 3 0; mksample 10 5 0]).
  { rewrite E. apply in_or_app. right. apply in_or_app. left. apply in_or_app. right. now left. }
  destruct I as [<-|[<-|[<-|[<-|[]]]]]; cbn [s_delta]; lia.
Qed.
(** A last sample without duration after a full window makes it panic: the usual
    way to write the last sample of a track. *)
Theorem C40_samples_refuted : exists l ts T, 0 < T /\
  total_delta l < 2 ^ 64 /\ total_size l < 2 ^ 64 /\ 8 * total_size l * ts < 2 ^ 64 /\
  samples_max_bitrate l ts T = Panic.
Proof. exists [mksample 10 5 0; mksample 10 0 0], 1000, 5. vm_compute. auto 10. Qed.
Print Assumptions C40_samples_refuted.
