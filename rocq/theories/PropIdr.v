(** C41: FindIDRFrames. *)
From Verif Require Import Base BaseProofs BoxInfo Probe SpecProbe.
Local Open Scope list_scope.
Local Open Scope N_scope.

Lemma forN_step : forall S A (body : N -> A -> M S A) lo hi a s, lo < hi ->
  forN lo hi body a s = bind (body lo a) (forN (lo + 1) hi body) s.
Proof.
  intros S A body lo hi a s L. unfold forN, bind. rewrite loopN_nat.
  replace (N.to_nat (hi - lo)) with (Datatypes.S (N.to_nat (hi - (lo + 1)))) by lia.
  cbn [loop_nat]. unfold bind. cbn [fst snd]. destruct (body lo a s) as [[b| | |] s1]; try reflexivity.
  cbn [ret]. now rewrite loopN_nat.
Qed.
Lemma forN_nil : forall S A (body : N -> A -> M S A) lo a s, forN lo lo body a s = (Ok a, s).
Proof. intros. unfold forN. rewrite N.sub_diag. reflexivity. Qed.

(** ** One sample *)
Lemma fold_length : forall l a, fold_left (fun a b => w32 (w32 (a * 256) + b2N b)) l (w32 a) = w32 (be_to_N_acc a l).
Proof.
  induction l as [|b l IH]; intros a; [reflexivity|]. cbn [fold_left be_to_N_acc].
  replace (w32 (w32 (w32 a * 256) + b2N b)) with (w32 (a * 256 + b2N b)).
  - rewrite IH. f_equal. f_equal. lia.
  - unfold w32. rewrite N.add_mod_idemp_l by discriminate. rewrite <- (N.add_mod_idemp_l (a mod W32 * 256)) by discriminate.
    rewrite N.mul_mod_idemp_l by discriminate. now rewrite N.add_mod_idemp_l by discriminate.
Qed.
Lemma read_at : forall data o p rest, skipN o data = p ++ rest -> p <> [] ->
  s_read_full data (lenN p) o = (Ok p, o + lenN p).
Proof.
  intros data o p rest E NE. unfold s_read_full. rewrite E, takeN_app_exact by reflexivity. now rewrite N.eqb_refl.
Qed.
Lemma nal_bytes_app : forall w a b, nal_bytes w (a ++ b) = nal_bytes w a ++ nal_bytes w b.
Proof. intros. apply flat_map_app. Qed.
Lemma nal_bytes_cons : forall w u r, nal_bytes w (u :: r) = (N_to_be w (lenN u) ++ u) ++ nal_bytes w r.
Proof. reflexivity. Qed.
Lemma land_31 : forall n, N.land n 0x1f = n mod 32.
Proof. intros. change 0x1f with (N.ones 5). rewrite N.land_ones. reflexivity. Qed.
Lemma nal_turn_ok : forall data w o size done u r rest s, (w <= 4)%nat ->
  lenN data < 2 ^ 62 -> size + N.of_nat w + 1 < 2 ^ 32 ->
  skipN o data = nal_bytes w (done ++ u :: r) ++ rest -> size = lenN (nal_bytes w (done ++ u :: r)) ->
  0 < lenN u < 2 ^ (8 * N.of_nat w) ->
  exists s', nal_turn data (N.of_nat w) o size (lenN (nal_bytes w done)) s =
    (Ok (if is_idr u then inr true else inl (lenN (nal_bytes w (done ++ [u])))), s').
Proof.
  intros data w o size done u r rest s W HD HS E HZ HU. unfold nal_turn.
  rewrite nal_bytes_app, nal_bytes_cons in E, HZ. rewrite !lenN_app, lenN_N_to_be in HZ.
  set (off := lenN (nal_bytes w done)) in *.
  assert (HO : o + off < 2 ^ 62).
  { apply (f_equal lenN) in E. rewrite lenN_skipN, !lenN_app, lenN_N_to_be in E. fold off in E. lia. }
  unfold w32. rewrite (N.mod_small (off + N.of_nat w)) by (change W32 with (2 ^ 32); lia).
  rewrite (N.mod_small (off + N.of_nat w + 1)) by (change W32 with (2 ^ 32); lia).
  destruct (N.leb_spec (off + N.of_nat w + 1) size) as [_|L]; [|lia].
  destruct u as [|h t]; [rewrite lenN_nil in HU; lia|].
  unfold bind, s_seek. unfold w64. rewrite (N.mod_small (o + off)) by (change W64 with (2 ^ 64); lia).
  destruct (N.ltb_spec (o + off) 9223372036854775808) as [_|L]; [|lia].
  assert (Q : skipN (o + off) data = (N_to_be w (lenN (h :: t)) ++ [h]) ++ t ++ nal_bytes w r ++ rest).
  { rewrite <- skipN_skipN, E, <- !app_assoc, skipN_app_exact by reflexivity. reflexivity. }
  assert (LL : lenN (N_to_be w (lenN (h :: t)) ++ [h]) = N.of_nat w + 1) by (rewrite lenN_app, lenN_N_to_be; reflexivity).
  rewrite <- LL, (read_at _ _ _ _ Q) by (intros X; apply app_eq_nil in X; destruct X as [_ X]; discriminate X).
  rewrite takeN_app_exact by (now rewrite lenN_N_to_be).
  unfold byte_at. rewrite nthN_nth_error, nth_error_app2 by (rewrite N_to_be_length, Nat2N.id; lia).
  rewrite N_to_be_length, Nat2N.id, Nat.sub_diag. cbn [nth_error option_map or_panic ret].
  rewrite land_31. cbn [is_idr]. destruct (b2N h mod 32 =? 5); [eexists; reflexivity|].
  eexists. f_equal. f_equal. f_equal. rewrite (fold_length _ 0). fold (be_to_N (N_to_be w (lenN (h :: t)))).
  rewrite be_to_N_to_be, (N.mod_small (lenN (h :: t))) by (exact (proj2 HU)). rewrite nal_bytes_app, nal_bytes_cons, !lenN_app, lenN_N_to_be. fold off.
  change (lenN (nal_bytes w [])) with 0. unfold w32. change W32 with (2 ^ 32) in *.
  rewrite (N.mod_small (lenN (h :: t))) by lia. rewrite (N.mod_small (N.of_nat w + lenN (h :: t))) by lia.
  rewrite N.mod_small by lia. rewrite N.add_0_r. reflexivity.
Qed.
Lemma nal_end : forall data w o size s, size + N.of_nat w + 1 < 2 ^ 32 ->
  nal_turn data (N.of_nat w) o size size s = (Ok (inr false), s).
Proof.
  intros data w o size s HS. unfold nal_turn, w32. rewrite (N.mod_small (size + N.of_nat w)) by (change W32 with (2 ^ 32); lia).
  rewrite N.mod_small by (change W32 with (2 ^ 32); lia). destruct (N.leb_spec (size + N.of_nat w + 1) size); [lia|reflexivity].
Qed.
Lemma nal_while : forall data w o size rest, (w <= 4)%nat -> lenN data < 2 ^ 62 -> size + N.of_nat w + 1 < 2 ^ 32 ->
  forall units done k s, skipN o data = nal_bytes w (done ++ units) ++ rest -> size = lenN (nal_bytes w (done ++ units)) ->
  Forall (fun u => 0 < lenN u < 2 ^ (8 * N.of_nat w)) units -> (List.length units < k)%nat ->
  exists s', while_nat k (nal_turn data (N.of_nat w) o size) (lenN (nal_bytes w done)) s = (Ok (inr (existsb is_idr units)), s').
Proof.
  intros data w o size rest W HD HS. induction units as [|u r IH]; intros done k s E HZ F L.
  - destruct k as [|k]; [cbn in L; lia|]. exists s. cbn [while_nat]. unfold bind. rewrite app_nil_r in HZ. rewrite <- HZ.
    now rewrite nal_end.
  - destruct k as [|k]; [cbn in L; lia|]. inversion F as [|? ? F1 F2]; subst. cbn [while_nat existsb].
    destruct (nal_turn_ok data w o _ done u r rest s W HD HS E eq_refl F1) as (s1 & T). unfold bind. rewrite T.
    destruct (is_idr u); [exists s1; reflexivity|].
    destruct (IH (done ++ [u]) k s1) as (s2 & Q); [now rewrite <- app_assoc|now rewrite <- app_assoc|exact F2|cbn in L; lia|].
    exists s2. exact Q.
Qed.
Lemma units_bytes : forall w units, Forall (fun u => 0 < lenN u < 2 ^ (8 * N.of_nat w)) units -> lenN units <= lenN (nal_bytes w units).
Proof.
  intros w units F. induction F as [|u r H _ IH]; [cbn; lia|]. rewrite nal_bytes_cons, !lenN_app, lenN_cons. lia.
Qed.
Lemma sample_ok : forall data w p units s, (w <= 4)%nat -> lenN data < 2 ^ 62 -> l_size p + N.of_nat w + 1 < 2 ^ 32 ->
  made_of data w units p ->
  exists s', nal_loop data nal_fuel (N.of_nat w) (l_offset p) (l_size p) s = (Ok (existsb is_idr units), s').
Proof.
  intros data w p units s W HD HS (E & L & F). unfold nal_loop, while. rewrite whileP_nat.
  assert (E' : skipN (l_offset p) data = nal_bytes w ([] ++ units) ++ skipN (l_size p) (skipN (l_offset p) data)).
  { cbn [app]. rewrite <- E. symmetry. apply takeN_skipN. }
  destruct (nal_while data w (l_offset p) (l_size p) _ W HD HS units [] (Pos.to_nat nal_fuel) s E' (eq_sym L) F) as (s' & Q).
  - apply units_bytes in F. unfold lenN in F at 1. unfold nal_fuel. lia.
  - cbn [nal_bytes flat_map] in Q. change (lenN []) with 0 in Q. rewrite Q. eauto.
Qed.

(** ** All samples *)
Section All.
  Variables (data : list byte) (w : nat) (samples : list sample) (units : N -> list (list byte)).
  Hypothesis W : (w <= 4)%nat.
  Hypothesis HD : lenN data < 2 ^ 62.
  Definition good (p : place) : Prop := l_size p + N.of_nat w + 1 < 2 ^ 32 /\ made_of data w (units (l_index p)) p.
  Definition found_in (ps : list place) : list N := map l_index (filter (fun p => existsb is_idr (units (l_index p))) ps).
  Lemma chunk_ok : forall here before later o idxs s, samples = before ++ here ++ later ->
    Forall good (places_from o (lenN before) here) ->
    exists o' s', forN (lenN before) (lenN before + lenN here) (idr_sample data nal_fuel (N.of_nat w) samples) (o, idxs) s =
      (Ok (o', idxs ++ found_in (places_from o (lenN before) here)), s').
  Proof.
    induction here as [|x here IH]; intros before later o idxs s E F.
    - exists o, s. rewrite lenN_nil, N.add_0_r, forN_nil. unfold found_in. cbn. now rewrite app_nil_r.
    - cbn [places_from] in F |- *. apply Forall_inv in F as G. apply Forall_inv_tail in F as F2. destruct G as [G1 G2]. cbn [l_size l_index] in G1, G2.
      rewrite forN_step by (rewrite lenN_cons; lia). unfold bind. unfold idr_sample at 1. unfold bind.
      assert (NX : nthN (lenN before) samples = Some x).
      { rewrite E, nthN_nth_error. unfold lenN. rewrite Nat2N.id, nth_error_app2, Nat.sub_diag by lia. reflexivity. }
      rewrite NX. cbn [or_panic ret].
      assert (LB : lenN (before ++ [x]) = lenN before + 1) by (rewrite lenN_app; reflexivity).
      assert (EL : lenN before + lenN (x :: here) = lenN (before ++ [x]) + lenN here) by (rewrite LB, lenN_cons; lia).
      destruct (N.eqb_spec (s_size x) 0) as [Z|Z].
      + destruct (IH (before ++ [x]) later o idxs s) as (o' & s' & Q); [now rewrite <- app_assoc|rewrite LB; rewrite Z, N.add_0_r in F2; exact F2|].
        exists o', s'. rewrite EL, <- LB. unfold ret at 1. rewrite Q. f_equal. f_equal. f_equal. f_equal. unfold found_in. cbn [filter l_index].
        rewrite Z, N.add_0_r, LB. destruct G2 as (_ & G & G3). cbn [l_size] in G. rewrite Z in G.
        destruct (units (lenN before)) as [|u us]; [reflexivity|]. exfalso.
        apply Forall_inv in G3. rewrite nal_bytes_cons, !lenN_app in G. lia.
      + destruct (sample_ok data w (mkplace (lenN before) o (s_size x)) _ s W HD G1 G2) as (s1 & Q1). cbn [l_offset l_size] in Q1. rewrite Q1. unfold ret at 1.
        assert (HO : w64 (o + s_size x) = o + s_size x).
        { apply N.mod_small. destruct G2 as (A & B & _). cbn [l_offset l_size] in A, B. apply (f_equal lenN) in A.
          rewrite lenN_takeN, lenN_skipN in A. change W64 with (2 ^ 64). lia. }
        rewrite HO.
        destruct (IH (before ++ [x]) later (o + s_size x) (if existsb is_idr (units (lenN before)) then idxs ++ [lenN before] else idxs) s1)
          as (o' & s' & Q); [now rewrite <- app_assoc|rewrite LB; exact F2|].
        exists o', s'. rewrite EL, <- LB. cbn [l_index] in *. rewrite Q. f_equal. f_equal. f_equal.
        unfold found_in. cbn [filter l_index]. rewrite LB. destruct (existsb is_idr (units (lenN before))); [|reflexivity].
        cbn [map l_index]. now rewrite <- app_assoc.
  Qed.
  Lemma chunks_ok : forall chunks i before rest idxs s, samples = before ++ rest ->
    Forall good (places chunks (lenN before) rest) ->
    exists si s', for_each (fun _ ch st =>
            let (si, idxs) := st : N * list N in
            let stop := N.max si (N.min (si + c_spc ch) (lenN samples)) in
            bind (forN si stop (idr_sample data nal_fuel (N.of_nat w) samples) (c_offset ch, idxs)) (fun y =>
            ret (stop, snd y))) i chunks (lenN before, idxs) s =
      (Ok (si, idxs ++ found_in (places chunks (lenN before) rest)), s').
  Proof.
    induction chunks as [|c r IH]; intros i before rest idxs s E F.
    - exists (lenN before), s. cbn. now rewrite app_nil_r.
    - cbn [places] in F |- *. apply Forall_app in F. destruct F as [F1 F2]. cbn [for_each]. unfold bind at 1.
      set (here := takeN (c_spc c) rest) in *. set (later := skipN (c_spc c) rest) in *.
      assert (ER : rest = here ++ later) by (symmetry; apply takeN_skipN).
      assert (ST : N.max (lenN before) (N.min (lenN before + c_spc c) (lenN samples)) = lenN before + lenN here).
      { rewrite E, lenN_app. unfold here. rewrite lenN_takeN. lia. }
      rewrite ST. rewrite ER in E.
      destruct (chunk_ok here before later (c_offset c) idxs s E F1) as (o' & s1 & Q). unfold bind at 1. rewrite Q. cbn [ret snd].
      rewrite <- lenN_app in F2 |- *.
      destruct (IH (i + 1) (before ++ here) later (idxs ++ found_in (places_from (c_offset c) (lenN before) here)) s1) as (si & s' & Q2);
        [now rewrite <- app_assoc|exact F2|].
      exists si, s'. etransitivity; [exact Q2|]. f_equal. f_equal. f_equal. rewrite <- app_assoc. f_equal. unfold found_in. now rewrite filter_app, map_app.
  Qed.
End All.

(** C41.  When the samples consist of NAL units, the indices of the samples with
    a unit of type 5, in order.

    Partial: samples that do not consist of NAL units, or that are within 6
    bytes of 4 GiB, are not covered; for some of them it does not terminate,
    see below. *)
Theorem C41_idr_partial : forall data tr avc (w : nat) units pos,
  t_avc tr = Some avc -> a_lsize avc = N.of_nat w -> (w <= 4)%nat -> lenN data < 2 ^ 62 ->
  let ps := places (t_chunks tr) 0 (t_samples tr) in
  Forall (fun p => l_size p + N.of_nat w + 1 < 2 ^ 32 /\ made_of data w (units (l_index p)) p) ps ->
  exists pos', find_idr_frames data tr pos =
    (Ok (Some (map l_index (filter (fun p => existsb is_idr (units (l_index p))) ps))), pos').
Proof.
  intros data tr avc w units pos A L W HD ps F. unfold find_idr_frames, find_idr_frames_fuel. rewrite A, L.
  destruct (chunks_ok data w (t_samples tr) units W HD (t_chunks tr) 0 [] (t_samples tr) [] pos eq_refl F) as (si & s' & Q).
  exists s'. cbv zeta in Q |- *. unfold bind at 1. change (lenN []) with 0 in Q. rewrite Q. reflexivity.
Qed.
Print Assumptions C41_idr_partial.
(** Three samples in two chunks; the first and the last have an IDR slice. *)
Definition idr_units (i : N) : list (list byte) :=
  if i =? 0 then [hex "0910"; hex "65aabb"] else if i =? 1 then [hex "41"] else [hex "6742"; hex "0605"; hex "45ff00"].
Definition idr_data : list byte :=
  hex "ffffff" ++ nal_bytes 2 (idr_units 0) ++ nal_bytes 2 (idr_units 1) ++ hex "00" ++ nal_bytes 2 (idr_units 2).
Definition idr_track : track :=
  mktrack 1 1 1 CodecAVC1 false [] [mksample 9 1 0; mksample 3 1 0; mksample 13 1 0]
    [mkchunk 3 2; mkchunk 16 5] (Some (mkavc 1 0 0 0 2 0 0)) None.
Example C41_case :
  Forall (fun p => l_size p + N.of_nat 2 + 1 < 2 ^ 32 /\ made_of idr_data 2 (idr_units (l_index p)) p)
    (places (t_chunks idr_track) 0 (t_samples idr_track)) /\
  fst (find_idr_frames idr_data idr_track 0) = Ok (Some [0; 2]).
Proof.
  split; [|vm_compute; reflexivity].
  change (places (t_chunks idr_track) 0 (t_samples idr_track)) with [mkplace 0 3 9; mkplace 1 12 3; mkplace 2 16 13].
  apply Forall_cons; [|apply Forall_cons; [|apply Forall_cons; [|apply Forall_nil]]];
  (split; [vm_compute; reflexivity|]; split; [vm_compute; reflexivity|]; split; [vm_compute; reflexivity|]);
  cbn [l_index idr_units N.eqb Pos.eqb]; repeat (apply Forall_cons; [split; vm_compute; reflexivity|]); apply Forall_nil.
Qed.
(** ** Termination *)
Section Ends.
  Variables (data : list byte) (w : N) (samples : list sample).
  Hypothesis W : 1 <= w <= 4.
  (** no unit starts so late that 32 bits do not hold the end of its length *)
  Definition steady (p : place) : Prop :=
    l_offset p + l_size p < 2 ^ 63 /\ l_size p < 2 ^ 32 /\ forall o, unit_start data w p o -> o + w + 1 < 2 ^ 32.

  Definition ends {A} (r : res A) : Prop := match r with OutOfFuel => False | _ => True end.
  Lemma turn_ends : forall p o s, steady p -> unit_start data w p o ->
    match fst (nal_turn data w (l_offset p) (l_size p) o s) with
    | Ok (inl o') => unit_start data w p o' /\ o < o' /\ o + w + 1 <= l_size p
    | Ok (inr _) => True
    | r => ends r
    end.
  Proof.
    intros p o s (HO & HS & ST) U. pose proof (ST o U) as Ho. change (2 ^ 32) with 4294967296 in *.
    change (2 ^ 63) with 9223372036854775808 in *.
    unfold nal_turn, w32. change W32 with 4294967296. rewrite (N.mod_small (o + w)) by lia.
    rewrite (N.mod_small (o + w + 1)) by lia. destruct (N.leb_spec (o + w + 1) (l_size p)) as [L|L]; [|exact I].
    unfold bind at 1. unfold s_seek, w64. change W64 with 18446744073709551616. rewrite (N.mod_small (l_offset p + o)) by lia.
    destruct (N.ltb_spec (l_offset p + o) 9223372036854775808) as [_|X]; [|exact I].
    unfold bind at 1. unfold s_read_full. set (buf := takeN (w + 1) (skipN (l_offset p + o) data)).
    destruct (N.eqb_spec (lenN buf) (w + 1)) as [LB|_]; [|destruct (lenN buf =? 0); exact I].
    assert (TB : takeN w buf = takeN w (skipN (l_offset p + o) data)).
    { unfold buf. rewrite !takeN_firstn, firstn_firstn. f_equal. lia. }
    unfold byte_at. rewrite nthN_nth_error. destruct (nth_error buf (N.to_nat w)) as [h|] eqn:EN; [|exact I].
    cbn [option_map or_panic ret bind fst]. unfold bind. cbn [ret fst].
    destruct (N.land (b2N h) 0x1f =? 5); [exact I|]. cbn [ret fst].
    rewrite (fold_length _ 0), TB. fold (be_to_N (takeN w (skipN (l_offset p + o) data))).
    set (len := be_to_N (takeN w (skipN (l_offset p + o) data))).
    assert (NU : unit_start data w p (o + w + len)) by (apply next_unit; auto).
    pose proof (ST _ NU) as Hn. unfold w32. change W32 with 4294967296.
    rewrite (N.mod_small len) by lia. rewrite (N.mod_small (w + len)) by lia. rewrite N.mod_small by lia.
    replace (o + (w + len)) with (o + w + len) by lia. split; [exact NU|]. split; [lia|exact L].
  Qed.
  Lemma loop_ends : forall p, steady p -> forall k o s, unit_start data w p o -> l_size p + 1 - o < N.of_nat k ->
    match fst (while_nat k (nal_turn data w (l_offset p) (l_size p)) o s) with Ok (inl _) => False | r => ends r end.
  Proof.
    intros p ST. induction k as [|k IH]; intros o s U L; [lia|]. cbn [while_nat]. unfold bind.
    pose proof (turn_ends p o s ST U) as T. destruct (nal_turn data w (l_offset p) (l_size p) o s) as [[[o'|b]|e| |] s1]; cbn [fst] in *.
    - destruct T as (U' & L1 & L2). apply IH; [exact U'|]. lia.
    - exact I.
    - exact I.
    - exact I.
    - destruct T.
  Qed.
  Lemma sample_ends : forall p s, steady p -> ends (fst (nal_loop data nal_fuel w (l_offset p) (l_size p) s)).
  Proof.
    intros p s ST. unfold nal_loop, while. rewrite whileP_nat.
    pose proof (loop_ends p ST (Pos.to_nat nal_fuel) 0 s (first_unit _ _ _)) as T.
    destruct (while_nat _ _ 0 s) as [[[o'|b]|e| |] s1]; cbn [fst] in *; try exact I; apply T;
      destruct ST as (_ & HS & _); unfold nal_fuel; change (2 ^ 32) with 4294967296 in HS; lia.
  Qed.
  Lemma chunk_ends : forall here before later o idxs s, samples = before ++ here ++ later ->
    Forall steady (places_from o (lenN before) here) ->
    ends (fst (forN (lenN before) (lenN before + lenN here) (idr_sample data nal_fuel w samples) (o, idxs) s)).
  Proof.
    induction here as [|x here IH]; intros before later o idxs s E F.
    - rewrite lenN_nil, N.add_0_r, forN_nil. exact I.
    - cbn [places_from] in F. apply Forall_inv in F as G. apply Forall_inv_tail in F as F2.
      rewrite forN_step by (rewrite lenN_cons; lia). unfold bind. unfold idr_sample at 1. unfold bind.
      assert (NX : nthN (lenN before) samples = Some x).
      { rewrite E, nthN_nth_error. unfold lenN. rewrite Nat2N.id, nth_error_app2, Nat.sub_diag by lia. reflexivity. }
      rewrite NX. cbn [or_panic ret].
      assert (LB : lenN (before ++ [x]) = lenN before + 1) by (rewrite lenN_app; reflexivity).
      assert (EL : lenN before + lenN (x :: here) = lenN (before ++ [x]) + lenN here) by (rewrite LB, lenN_cons; lia).
      rewrite EL, <- LB. assert (E' : samples = (before ++ [x]) ++ here ++ later) by (rewrite <- app_assoc; exact E).
      rewrite <- LB in F2. destruct (N.eqb_spec (s_size x) 0) as [Z|Z].
      + cbn [ret]. apply (IH _ later); [exact E'|]. rewrite Z, N.add_0_r in F2. exact F2.
      + pose proof (sample_ends _ s G) as SE. cbn [l_offset l_size] in SE.
        destruct (nal_loop data nal_fuel w o (s_size x) s) as [[found|e| |] s1]; cbn [fst] in SE; try exact I; [|destruct SE].
        cbn [ret]. destruct G as (G1 & _). cbn [l_offset l_size] in G1. unfold w64.
        rewrite N.mod_small by (change W64 with 18446744073709551616; change (2 ^ 63) with 9223372036854775808 in G1; lia).
        apply (IH _ later); [exact E'|exact F2].
  Qed.
  Lemma chunks_end : forall chunks i before rest idxs s, samples = before ++ rest ->
    Forall steady (places chunks (lenN before) rest) ->
    ends (fst (for_each (fun _ ch st =>
            let (si, idxs) := st : N * list N in
            let stop := N.max si (N.min (si + c_spc ch) (lenN samples)) in
            bind (forN si stop (idr_sample data nal_fuel w samples) (c_offset ch, idxs)) (fun y =>
            ret (stop, snd y))) i chunks (lenN before, idxs) s)).
  Proof.
    induction chunks as [|c r IH]; intros i before rest idxs s E F; [exact I|].
    cbn [places] in F. apply Forall_app in F. destruct F as [F1 F2]. cbn [for_each]. unfold bind at 1.
    set (here := takeN (c_spc c) rest) in *. set (later := skipN (c_spc c) rest) in *.
    assert (ER : rest = here ++ later) by (symmetry; apply takeN_skipN).
    assert (ST : N.max (lenN before) (N.min (lenN before + c_spc c) (lenN samples)) = lenN before + lenN here).
    { rewrite E, lenN_app. unfold here. rewrite lenN_takeN. lia. }
    rewrite ST. rewrite ER in E.
    pose proof (chunk_ends here before later (c_offset c) idxs s E F1) as Q. unfold bind at 1.
    destruct (forN _ _ _ _ s) as [[y|e| |] s1]; cbn [fst] in Q; try exact I; [|destruct Q].
    cbn [ret]. rewrite <- lenN_app in F2 |- *. apply (IH (i + 1) (before ++ here) later); [now rewrite <- app_assoc|exact F2].
  Qed.
End Ends.
(** It comes to an end on every file and track whose unit lengths do not make the
    32-bit offset in a sample wrap.  Missing: the others, for which it may not
    terminate (below). *)
Theorem C41_terminates_partial : forall data tr avc pos,
  t_avc tr = Some avc -> 1 <= a_lsize avc <= 4 ->
  Forall (fun p => l_offset p + l_size p < 2 ^ 63 /\ l_size p < 2 ^ 32 /\
                   forall o, unit_start data (a_lsize avc) p o -> o + a_lsize avc + 1 < 2 ^ 32)
         (places (t_chunks tr) 0 (t_samples tr)) ->
  fst (find_idr_frames data tr pos) <> OutOfFuel.
Proof.
  intros data tr avc pos A W F. unfold find_idr_frames, find_idr_frames_fuel. rewrite A. cbv zeta.
  pose proof (chunks_end data (a_lsize avc) (t_samples tr) W (t_chunks tr) 0 [] (t_samples tr) [] pos eq_refl F) as Q.
  change (lenN (A:=sample) []) with 0 in Q. cbv zeta in Q. unfold bind at 1.
  destruct (for_each _ _ _ _ _) as [[y|e| |] s1]; cbn [fst] in Q; [|discriminate|discriminate|destruct Q].
  discriminate.
Qed.
Print Assumptions C41_terminates_partial.
(** In particular it terminates whatever the file contains when the lengths have
    at most three bytes and no sample comes within 16 MiB of 4 GiB. *)
Theorem C41_short_lengths_terminate : forall data tr avc pos,
  t_avc tr = Some avc -> 1 <= a_lsize avc <= 3 ->
  Forall (fun p => l_offset p + l_size p < 2 ^ 63 /\ l_size p + 2 ^ 24 + 4 < 2 ^ 32)
         (places (t_chunks tr) 0 (t_samples tr)) ->
  fst (find_idr_frames data tr pos) <> OutOfFuel.
Proof.
  intros data tr avc pos A W F. apply (C41_terminates_partial data tr avc pos A); [lia|].
  eapply Forall_impl; [|exact F]. cbv beta. intros p (H1 & H2).
  change (2 ^ 24) with 16777216 in *. change (2 ^ 32) with 4294967296 in *.
  split; [exact H1|]. split; [lia|]. intros o U. destruct U as [|o U L]; [lia|].
  assert (B : be_to_N (takeN (a_lsize avc) (skipN (l_offset p + o) data)) < 2 ^ (8 * lenN (takeN (a_lsize avc) (skipN (l_offset p + o) data))))
    by apply be_to_N_lt.
  assert (B2 : 2 ^ (8 * lenN (takeN (a_lsize avc) (skipN (l_offset p + o) data))) <= 2 ^ 24).
  { apply N.pow_le_mono_r; [discriminate|]. rewrite lenN_takeN. lia. }
  change (2 ^ 24) with 16777216 in B2. lia.
Qed.
Print Assumptions C41_short_lengths_terminate.
(** Two-byte lengths that do not fit at all: the run ends. *)
Example C41_short_case :
  let tr := mktrack 1 1 1 CodecAVC1 false [] [mksample 9 1 0; mksample 70000 1 0] [mkchunk 3 2] (Some (mkavc 1 0 0 0 2 0 0)) None in
  Forall (fun p => l_offset p + l_size p < 2 ^ 63 /\ l_size p + 2 ^ 24 + 4 < 2 ^ 32) (places (t_chunks tr) 0 (t_samples tr)) /\
  fst (find_idr_frames (hex "000000ffff010203040506070000010000020000ffffffff") tr 0) = Err EEOF.
Proof.
  cbv zeta. split; [|vm_compute; reflexivity].
  cbn [t_chunks t_samples]. change (places _ _ _) with [mkplace 0 3 9; mkplace 1 12 70000].
  apply Forall_cons; [|apply Forall_cons; [|apply Forall_nil]]; split; vm_compute; reflexivity.
Qed.
(** A length that makes the offset of the next unit come back to the same unit:
    however long it runs, it does not end. *)
Theorem C41_terminates_refuted : exists data tr pos, forall fuel,
  fst (find_idr_frames_fuel data fuel tr pos) = OutOfFuel.
Proof.
  exists (hex "fffffffc0100"),
    (mktrack 1 1 1 CodecAVC1 false [] [mksample 6 1 0] [mkchunk 0 1] (Some (mkavc 1 0 0 0 4 0 0)) None), 0.
  intros fuel. set (data := hex "fffffffc0100").
  assert (T : forall s, exists s', nal_turn data 4 0 6 0 s = (Ok (inl 0), s')).
  { intros s. eexists. vm_compute. reflexivity. }
  assert (L : forall k s, exists s', while_nat k (nal_turn data 4 0 6) 0 s = (Ok (inl 0), s')).
  { induction k as [|k IH]; intros s; [eexists; reflexivity|]. cbn [while_nat]. unfold bind.
    destruct (T s) as (s1 & ->). apply IH. }
  assert (NL : forall s, exists s', nal_loop data fuel 4 0 6 s = (OutOfFuel, s')).
  { intros s. unfold nal_loop, while. rewrite whileP_nat. destruct (L (Pos.to_nat fuel) s) as (s' & ->). eauto. }
  unfold find_idr_frames_fuel. cbn [t_avc t_samples t_chunks a_lsize for_each c_spc c_offset].
  change (N.max 0 (N.min (0 + 1) (lenN [mksample 6 1 0]))) with 1.
  unfold bind at 1 2 3. rewrite forN_step by lia. unfold bind at 1. unfold idr_sample at 1. unfold bind at 1.
  change (nthN 0 [mksample 6 1 0]) with (Some (mksample 6 1 0)). cbn [or_panic ret s_size].
  change (6 =? 0) with false. cbv iota. unfold bind at 1. destruct (NL 0) as (s' & ->). reflexivity.
Qed.
Print Assumptions C41_terminates_refuted.
