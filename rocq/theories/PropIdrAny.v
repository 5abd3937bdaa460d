(** C41: FindIDRFrames on samples of whatever contents. *)
From Verif Require Import Base BaseProofs BoxInfo Probe SpecProbe SpecIdr PropIdr.
Local Open Scope list_scope.
Local Open Scope N_scope.

Lemma picked_app : forall Q a l b m, picked Q a l -> picked Q b m -> picked Q (a ++ b) (l ++ m).
Proof. intros Q a l b m H K. induction H; cbn [app]; [exact K|apply picked_yes|apply picked_no]; auto. Qed.

Lemma nth_window : forall (data : list byte) o n i, (i < n)%nat ->
  nth_error (firstn n (skipn o data)) i = nth_error data (o + i).
Proof.
  induction data as [|b data IH]; intros o n i L.
  - rewrite skipn_nil, firstn_nil. now destruct i, (o + _)%nat.
  - destruct o as [|o]; [|cbn [skipn]; rewrite IH by exact L; reflexivity].
    cbn [skipn]. destruct n as [|n]; [lia|]. destruct i as [|i]; [reflexivity|]. cbn [firstn nth_error].
    apply (IH O n i). lia.
Qed.

Section Any.
  Variables (data : list byte) (w : N) (samples : list sample).
  Hypothesis W : 1 <= w <= 4.
  Notation steady := (steady data w).
  Definition missing (p : place) : Prop := exists o, unit_in data w p o /\ beyond data w p o.
  Definition eofs {A} (r : res A) (P : Prop) : Prop := (r = Err EEOF \/ r = Err EUnexpectedEOF) /\ P.

  Lemma turn_any : forall p o s, steady p -> unit_start data w p o ->
    match fst (nal_turn data w (l_offset p) (l_size p) o s) with
    | Ok (inl o') => o' = o + w + be_to_N (takeN w (skipN (l_offset p + o) data)) /\ o < o' /\ o + w + 1 <= l_size p /\
                     ~ idr_unit data w p o
    | Ok (inr true) => unit_in data w p o /\ idr_unit data w p o
    | Ok (inr false) => l_size p < o + w + 1
    | Err e => (e = EEOF \/ e = EUnexpectedEOF) /\ unit_in data w p o /\ beyond data w p o
    | _ => False
    end.
  Proof.
    intros p o s (HO & HS & ST) U. pose proof (ST o U) as Ho. change (2 ^ 32) with 4294967296 in *.
    change (2 ^ 63) with 9223372036854775808 in *.
    unfold nal_turn, w32. change W32 with 4294967296. rewrite (N.mod_small (o + w)) by lia.
    rewrite (N.mod_small (o + w + 1)) by lia. destruct (N.leb_spec (o + w + 1) (l_size p)) as [L|L]; [|exact L].
    unfold bind at 1. unfold s_seek, w64. change W64 with 18446744073709551616. rewrite (N.mod_small (l_offset p + o)) by lia.
    destruct (N.ltb_spec (l_offset p + o) 9223372036854775808) as [_|X]; [|exfalso; lia].
    unfold bind at 1. unfold s_read_full. set (buf := takeN (w + 1) (skipN (l_offset p + o) data)).
    assert (LBUF : lenN buf = N.min (w + 1) (lenN data - (l_offset p + o))) by (unfold buf; now rewrite lenN_takeN, lenN_skipN).
    destruct (N.eqb_spec (lenN buf) (w + 1)) as [LB|NB].
    2: { assert (B : unit_in data w p o /\ beyond data w p o) by (split; [split; [exact U|exact L]|unfold beyond; lia]).
         destruct (lenN buf =? 0); cbn [fst]; split; auto. }
    assert (TB : takeN w buf = takeN w (skipN (l_offset p + o) data)).
    { unfold buf. rewrite !takeN_firstn, firstn_firstn. f_equal. lia. }
    assert (NB : nth_error buf (N.to_nat w) = nth_error data (N.to_nat (l_offset p + o + w))).
    { unfold buf. rewrite takeN_firstn, skipN_skipn, nth_window by lia. f_equal. lia. }
    unfold byte_at. rewrite nthN_nth_error, NB.
    destruct (nth_error data (N.to_nat (l_offset p + o + w))) as [h|] eqn:EN.
    2: { exfalso. apply nth_error_None in EN. unfold lenN in *. lia. }
    cbn [option_map or_panic ret bind fst]. unfold bind. cbn [ret fst]. rewrite land_31.
    destruct (N.eqb_spec (b2N h mod 32) 5) as [E5|E5].
    - cbn [ret fst]. split; [split; [exact U|exact L]|exists h; auto].
    - cbn [ret fst].
      rewrite (fold_length _ 0), TB. fold (be_to_N (takeN w (skipN (l_offset p + o) data))).
      set (len := be_to_N (takeN w (skipN (l_offset p + o) data))).
      assert (NU : unit_start data w p (o + w + len)) by (apply next_unit; auto).
      pose proof (ST _ NU) as Hn. unfold w32. change W32 with 4294967296.
      change (2 ^ 32) with 4294967296 in Hn.
      rewrite (N.mod_small len) by lia. rewrite (N.mod_small (w + len)) by lia. rewrite N.mod_small by lia.
      replace (o + (w + len)) with (o + w + len) by lia. split; [reflexivity|]. split; [lia|]. split; [exact L|].
      intros (h' & EH & E'). rewrite EN in EH. injection EH as <-. contradiction.
  Qed.

  (** every unit is at [o] or later, or was passed and is no IDR slice *)
  Definition passed (p : place) (o : N) : Prop :=
    forall q, unit_start data w p q -> q < o -> ~ idr_unit data w p q.
  Definition on_chain (p : place) (o : N) : Prop :=
    forall q, unit_start data w p q -> q < o -> q + w + be_to_N (takeN w (skipN (l_offset p + q) data)) <= o.
  Lemma chain_next : forall p o, on_chain p o -> unit_start data w p o -> o + w + 1 <= l_size p ->
    let o' := o + w + be_to_N (takeN w (skipN (l_offset p + o) data)) in
    forall q, unit_start data w p q -> q < o' -> q <= o.
  Proof.
    intros p o C U L o' q UQ. induction UQ as [|q UQ IH LQ]; intros H; [lia|].
    assert (Q : q < o') by (unfold o'; lia). specialize (IH Q). destruct (N.eq_dec q o) as [E|NE].
    - subst q. fold o' in H. lia.
    - assert (q < o) by lia. pose proof (C q UQ H0). lia.
  Qed.
  Lemma loop_any : forall p, steady p -> forall k o s, unit_start data w p o -> on_chain p o -> passed p o -> l_size p + 1 - o < N.of_nat k ->
    match fst (while_nat k (nal_turn data w (l_offset p) (l_size p)) o s) with
    | Ok (inr true) => has_idr data w p
    | Ok (inr false) => ~ has_idr data w p
    | Err e => (e = EEOF \/ e = EUnexpectedEOF) /\ missing p
    | _ => False
    end.
  Proof.
    intros p ST. induction k as [|k IH]; intros o s U C P L; [lia|]. cbn [while_nat]. unfold bind.
    pose proof (turn_any p o s ST U) as T. destruct (nal_turn data w (l_offset p) (l_size p) o s) as [[[o'|[|]]|e| |] s1]; cbn [fst] in *.
    - destruct T as (EO & L1 & L2 & NI). pose proof (chain_next p o C U L2) as CN. cbv zeta in CN. rewrite <- EO in CN.
      apply IH.
      + rewrite EO. apply next_unit; assumption.
      + intros q UQ LQ. pose proof (CN q UQ LQ) as Q. destruct (N.eq_dec q o) as [E|NE]; [subst q; lia|].
        assert (Q' : q < o) by lia. pose proof (C q UQ Q'). lia.
      + intros q UQ LQ. pose proof (CN q UQ LQ) as Q. destruct (N.eq_dec q o) as [E|NE]; [now subst q|].
        apply P; [exact UQ|lia].
      + lia.
    - exists o. exact T.
    - intros (q & (UQ & LQ) & I). assert (H : q < o) by lia. exact (P q UQ H I).
    - destruct T as (E & T). split; [exact E|exists o; exact T].
    - destruct T.
    - destruct T.
  Qed.
  Lemma sample_any : forall p s, steady p ->
    match fst (nal_loop data nal_fuel w (l_offset p) (l_size p) s) with
    | Ok true => has_idr data w p
    | Ok false => ~ has_idr data w p
    | Err e => (e = EEOF \/ e = EUnexpectedEOF) /\ missing p
    | _ => False
    end.
  Proof.
    intros p s ST. unfold nal_loop, while. rewrite whileP_nat.
    pose proof (loop_any p ST (Pos.to_nat nal_fuel) 0 s (first_unit _ _ _)) as T.
    destruct (while_nat _ _ 0 s) as [[[o'|b]|e| |] s1]; cbn [fst] in *; apply T;
      try (intros q _ H; exfalso; clear - H; lia);
      destruct ST as (_ & HS & _); unfold nal_fuel; change (2 ^ 32) with 4294967296 in HS; lia.
  Qed.
  Lemma none_in_empty : forall p, l_size p = 0 -> ~ has_idr data w p.
  Proof. intros p Z (o & (_ & L) & _). lia. Qed.
  Lemma chunk_any : forall here before later o idxs s, samples = before ++ here ++ later ->
    Forall steady (places_from o (lenN before) here) ->
    match fst (forN (lenN before) (lenN before + lenN here) (idr_sample data nal_fuel w samples) (o, idxs) s) with
    | Ok (_, l) => exists new, l = idxs ++ new /\ picked (has_idr data w) (places_from o (lenN before) here) new
    | Err e => (e = EEOF \/ e = EUnexpectedEOF) /\ Exists missing (places_from o (lenN before) here)
    | _ => False
    end.
  Proof.
    induction here as [|x here IH]; intros before later o idxs s E F.
    - rewrite lenN_nil, N.add_0_r, forN_nil. exists []. rewrite app_nil_r. split; [reflexivity|constructor].
    - cbn [places_from] in F |- *. apply Forall_inv in F as G. apply Forall_inv_tail in F as F2.
      rewrite forN_step by (rewrite lenN_cons; lia). unfold bind. unfold idr_sample at 1. unfold bind.
      assert (NX : nthN (lenN before) samples = Some x).
      { rewrite E, nthN_nth_error. unfold lenN. rewrite Nat2N.id, nth_error_app2, Nat.sub_diag by lia. reflexivity. }
      rewrite NX. cbn [or_panic ret].
      assert (LB : lenN (before ++ [x]) = lenN before + 1) by (rewrite lenN_app; reflexivity).
      assert (EL : lenN before + lenN (x :: here) = lenN (before ++ [x]) + lenN here) by (rewrite LB, lenN_cons; lia).
      rewrite EL, <- LB. assert (E' : samples = (before ++ [x]) ++ here ++ later) by (rewrite <- app_assoc; exact E).
      rewrite <- LB in F2. destruct (N.eqb_spec (s_size x) 0) as [Z|Z].
      + cbn [ret]. rewrite Z, N.add_0_r in F2. pose proof (IH _ later o idxs s E' F2) as Q.
        rewrite Z, N.add_0_r.
        destruct (forN _ _ _ _ s) as [[[? l]|e| |] s1]; cbn [fst] in Q |- *; try exact Q.
        * destruct Q as (new & -> & K). exists new. split; [reflexivity|]. apply picked_no; [|exact K].
          apply none_in_empty. reflexivity.
        * destruct Q as (Q1 & Q2). split; [exact Q1|now apply Exists_cons_tl].
      + pose proof (sample_any _ s G) as SE. cbn [l_offset l_size] in SE.
        destruct (nal_loop data nal_fuel w o (s_size x) s) as [[found|e| |] s1]; cbn [fst] in SE |- *; try exact SE.
        2: { destruct SE as (Q1 & Q2). split; [exact Q1|now apply Exists_cons_hd]. }
        cbn [ret]. destruct G as (G1 & _). cbn [l_offset l_size] in G1. unfold w64.
        rewrite N.mod_small by (change W64 with 18446744073709551616; change (2 ^ 63) with 9223372036854775808 in G1; lia).
        pose proof (IH _ later (o + s_size x) (if found then idxs ++ [lenN before] else idxs) s1 E' F2) as Q.
        destruct (forN _ _ _ _ s1) as [[[? l]|e| |] s2]; cbn [fst] in Q |- *; try exact Q.
        * destruct Q as (new & -> & K). destruct found.
          -- exists (lenN before :: new). split; [now rewrite <- app_assoc|].
             exact (picked_yes _ (mkplace (lenN before) o (s_size x)) _ _ SE K).
          -- exists new. split; [reflexivity|]. apply picked_no; assumption.
        * destruct Q as (Q1 & Q2). split; [exact Q1|now apply Exists_cons_tl].
  Qed.
  Lemma chunks_any : forall chunks i before rest idxs s, samples = before ++ rest ->
    Forall steady (places chunks (lenN before) rest) ->
    match fst (for_each (fun _ ch st =>
            let (si, idxs) := st : N * list N in
            let stop := N.max si (N.min (si + c_spc ch) (lenN samples)) in
            bind (forN si stop (idr_sample data nal_fuel w samples) (c_offset ch, idxs)) (fun y =>
            ret (stop, snd y))) i chunks (lenN before, idxs) s) with
    | Ok (_, l) => exists new, l = idxs ++ new /\ picked (has_idr data w) (places chunks (lenN before) rest) new
    | Err e => (e = EEOF \/ e = EUnexpectedEOF) /\ Exists missing (places chunks (lenN before) rest)
    | _ => False
    end.
  Proof.
    induction chunks as [|c r IH]; intros i before rest idxs s E F.
    { cbn. exists []. rewrite app_nil_r. split; [reflexivity|constructor]. }
    cbn [places] in F |- *. apply Forall_app in F. destruct F as [F1 F2]. cbn [for_each]. unfold bind at 1.
    set (here := takeN (c_spc c) rest) in *. set (later := skipN (c_spc c) rest) in *.
    assert (ER : rest = here ++ later) by (symmetry; apply takeN_skipN).
    assert (ST : N.max (lenN before) (N.min (lenN before + c_spc c) (lenN samples)) = lenN before + lenN here).
    { rewrite E, lenN_app. unfold here. rewrite lenN_takeN. lia. }
    rewrite ST. rewrite ER in E.
    pose proof (chunk_any here before later (c_offset c) idxs s E F1) as Q. unfold bind at 1.
    destruct (forN _ _ _ _ s) as [[[? l]|e| |] s1]; cbn [fst] in Q |- *; try exact Q.
    2: { destruct Q as (Q1 & Q2). split; [exact Q1|]. apply Exists_app. now left. }
    cbn [ret snd]. rewrite <- lenN_app in F2 |- *.
    destruct Q as (new & -> & K).
    assert (E2 : samples = (before ++ here) ++ later) by (now rewrite <- app_assoc).
    pose proof (IH (i + 1) (before ++ here) later (idxs ++ new) s1 E2 F2) as Q2.
    cbv zeta in Q2 |- *.
    destruct (for_each _ _ _ _ s1) as [[[? l]|e| |] s2]; cbn [fst] in Q2 |- *; try exact Q2.
    - destruct Q2 as (new2 & -> & K2). exists (new ++ new2). split; [now rewrite app_assoc|].
      apply picked_app; assumption.
    - destruct Q2 as (Q1 & Q2). split; [exact Q1|]. apply Exists_app. now right.
  Qed.
End Any.

(** Whatever the samples contain: when there is a result, it is the indices of the
    samples in which, following the lengths in the file, one comes to a unit of
    type 5, in order; when there is an error, it is that the file ends, and there is
    a unit whose length or first byte is beyond the end of the file; there is no
    panic.  Missing: samples in which the lengths make the 32-bit offset wrap. *)
Theorem C41_any_samples_partial : forall data tr avc pos,
  t_avc tr = Some avc -> 1 <= a_lsize avc <= 4 ->
  let ps := places (t_chunks tr) 0 (t_samples tr) in
  Forall (fun p => l_offset p + l_size p < 2 ^ 63 /\ l_size p < 2 ^ 32 /\
                   forall o, unit_start data (a_lsize avc) p o -> o + a_lsize avc + 1 < 2 ^ 32) ps ->
  match fst (find_idr_frames data tr pos) with
  | Ok (Some l) => picked (has_idr data (a_lsize avc)) ps l
  | Err e => (e = EEOF \/ e = EUnexpectedEOF) /\
             exists p o, In p ps /\ unit_in data (a_lsize avc) p o /\ beyond data (a_lsize avc) p o
  | _ => False
  end.
Proof.
  intros data tr avc pos A W ps F. unfold find_idr_frames, find_idr_frames_fuel. rewrite A. cbv zeta.
  pose proof (chunks_any data (a_lsize avc) (t_samples tr) W (t_chunks tr) 0 [] (t_samples tr) [] pos eq_refl F) as Q.
  change (lenN (A:=sample) []) with 0 in Q. cbv zeta in Q. unfold bind at 1.
  destruct (for_each _ _ _ _ _) as [[[? y]|e| |] s1]; cbn [fst] in Q; try exact Q.
  - destruct Q as (new & -> & K). exact K.
  - destruct Q as (Q1 & Q2). split; [exact Q1|]. apply Exists_exists in Q2. destruct Q2 as (p & I & o & U).
    exists p, o. tauto.
Qed.
Print Assumptions C41_any_samples_partial.

(** No AVC track: no result and no error. *)
Theorem C41_not_avc : forall data tr pos, t_avc tr = None -> find_idr_frames data tr pos = (Ok None, pos).
Proof. intros data tr pos A. unfold find_idr_frames, find_idr_frames_fuel. now rewrite A. Qed.
Print Assumptions C41_not_avc.

(** In particular for any file whatever, when the lengths have at most three bytes
    and no sample comes within 16 MiB of 4 GiB. *)
Theorem C41_any_short_lengths : forall data tr avc pos,
  t_avc tr = Some avc -> 1 <= a_lsize avc <= 3 ->
  let ps := places (t_chunks tr) 0 (t_samples tr) in
  Forall (fun p => l_offset p + l_size p < 2 ^ 63 /\ l_size p + 2 ^ 24 + 4 < 2 ^ 32) ps ->
  match fst (find_idr_frames data tr pos) with
  | Ok (Some l) => picked (has_idr data (a_lsize avc)) ps l
  | Err e => (e = EEOF \/ e = EUnexpectedEOF) /\
             exists p o, In p ps /\ unit_in data (a_lsize avc) p o /\ beyond data (a_lsize avc) p o
  | _ => False
  end.
Proof.
  intros data tr avc pos A W ps F. apply (C41_any_samples_partial data tr avc pos A); [lia|].
  eapply Forall_impl; [|exact F]. cbv beta. intros p (H1 & H2).
  change (2 ^ 24) with 16777216 in *. change (2 ^ 32) with 4294967296 in *.
  split; [exact H1|]. split; [lia|]. intros o U. destruct U as [|o U L]; [lia|].
  assert (B : be_to_N (takeN (a_lsize avc) (skipN (l_offset p + o) data)) < 2 ^ (8 * lenN (takeN (a_lsize avc) (skipN (l_offset p + o) data))))
    by apply be_to_N_lt.
  assert (B2 : 2 ^ (8 * lenN (takeN (a_lsize avc) (skipN (l_offset p + o) data))) <= 2 ^ 24).
  { apply N.pow_le_mono_r; [discriminate|]. rewrite lenN_takeN. lia. }
  change (2 ^ 24) with 16777216 in B2. lia.
Qed.
Print Assumptions C41_any_short_lengths.

(** Three samples: one with an IDR slice that runs beyond it, an empty one, and one
    with a unit of length 0; the file ends in a fourth. *)
Definition odd_data : list byte := hex "ffffff000109000965000041ff".
Definition odd_track (n : nat) : track :=
  mktrack 1 1 1 CodecAVC1 false [] (firstn n [mksample 6 1 0; mksample 0 1 0; mksample 3 1 0; mksample 5 1 0])
    [mkchunk 3 4] (Some (mkavc 1 0 0 0 2 0 0)) None.
Example C41_any_case :
  Forall (fun p => l_offset p + l_size p < 2 ^ 63 /\ l_size p + 2 ^ 24 + 4 < 2 ^ 32)
    (places (t_chunks (odd_track 4)) 0 (t_samples (odd_track 4))) /\
  fst (find_idr_frames odd_data (odd_track 3) 0) = Ok (Some [0]) /\
  fst (find_idr_frames odd_data (odd_track 4) 0) = Err EUnexpectedEOF.
Proof.
  split; [|split; vm_compute; reflexivity].
  change (places (t_chunks (odd_track 4)) 0 (t_samples (odd_track 4))) with [mkplace 0 3 6; mkplace 1 9 0; mkplace 2 9 3; mkplace 3 12 5].
  apply Forall_cons; [|apply Forall_cons; [|apply Forall_cons; [|apply Forall_cons; [|apply Forall_nil]]]]; split; vm_compute; reflexivity.
Qed.
