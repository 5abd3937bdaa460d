(** What Probe makes of the boxes it found. *)
From Verif Require Import Base BaseProofs Schema Structs Registry BoxInfo Extract Accessors SpecTree Probe SpecProbe ProbeProofs.
Local Open Scope string_scope.
Local Open Scope list_scope.
Local Open Scope N_scope.

(** ** The switches keep the last box of each type *)
Definition sel (t : string) (b : boxinfo * (boxdef * fields)) (o : option fields) : option fields :=
  if bt_eqb (bi_type (fst b)) (bt t) then Some (snd (snd b)) else o.
Lemma last_of_app : forall t l b, last_of t (l ++ [b]) = sel t b (last_of t l).
Proof. intros. unfold last_of. rewrite fold_left_app. reflexivity. Qed.
Lemma payload_as_some : forall S n p (s s' : S) x, payload_as n p s = (Ok x, s') -> s' = s /\ x = Some (snd p).
Proof. intros S n p s s' x H. unfold payload_as in H. destruct (String.eqb _ _); [|discriminate]. injection H. auto. Qed.
Record kept (l : list (boxinfo * (boxdef * fields))) (f : found) : Prop := mkkept
  { k_tkhd : f_tkhd f = last_of "tkhd" l; k_elst : f_elst f = last_of "elst" l; k_mdhd : f_mdhd f = last_of "mdhd" l;
    k_avc1 : f_avc1 f = last_of "avc1" l; k_avcC : f_avcC f = last_of "avcC" l; k_esds : f_esds f = last_of "esds" l;
    k_stco : f_stco f = last_of "stco" l; k_stts : f_stts f = last_of "stts" l; k_stsc : f_stsc f = last_of "stsc" l;
    k_ctts : f_ctts f = last_of "ctts" l; k_stsz : f_stsz f = last_of "stsz" l; k_co64 : f_co64 f = last_of "co64" l }.
Lemma note_box_kept : forall S l b f f' (s s' : S), kept l f -> note_box b f s = (Ok f', s') -> s' = s /\ kept (l ++ [b]) f'.
Proof.
  intros S l b f f' s s' K H. unfold note_box in H. destruct f as [co en tkhd elst mdhd avc1 avcC audio esds stco stts stsc ctts stsz co64].
  set (t := bi_type (fst b)) in *. destruct K. cbn [f_tkhd f_elst f_mdhd f_avc1 f_avcC f_esds f_stco f_stts f_stsc f_ctts f_stsz f_co64] in *. subst.
  repeat match type of H with
  | (if bt_eqb t ?c then _ else _) _ = _ => let E := fresh "E" in destruct (bt_eqb t c) eqn:E
  end;
  (match type of H with
   | bind _ _ _ = _ =>
       unfold bind in H; destruct (payload_as _ (snd b) s) as [[x| | |] s1] eqn:P; try discriminate;
       apply payload_as_some in P; destruct P as [-> ->]; injection H as <- <-
   | _ => injection H as <- <-
   end; split; [reflexivity|];
   constructor; cbn [f_tkhd f_elst f_mdhd f_avc1 f_avcC f_esds f_stco f_stts f_stsc f_ctts f_stsz f_co64];
   rewrite last_of_app; unfold sel; fold t;
   first [ match goal with E : bt_eqb t ?c = false |- context[bt_eqb t ?c] => rewrite E; reflexivity end
         | match goal with E : bt_eqb t ?c = true |- _ =>
             apply bytes_eqb_eq in E; rewrite E; vm_compute; reflexivity end
         | idtac ]).
Qed.
Lemma for_each_ok : forall S A B (body : N -> B -> A -> M S A) (P : list B -> A -> Prop),
  (forall i l b a a' (s s' : S), P l a -> body i b a s = (Ok a', s') -> s' = s /\ P (l ++ [b]) a') ->
  forall l i pre a a' s s', P pre a -> for_each body i l a s = (Ok a', s') -> s' = s /\ P (pre ++ l) a'.
Proof.
  intros S A B body P H. induction l as [|b l IH]; intros i pre a a' s s' HP E; cbn [for_each] in E.
  - injection E as <- <-. now rewrite app_nil_r.
  - unfold bind in E. destruct (body i b a s) as [[x| | |] s1] eqn:F; try discriminate E.
    apply (H _ _ _ _ _ _ _ HP) in F. destruct F as [-> HP'].
    apply (IH _ _ _ _ _ _ HP') in E. now rewrite <- app_assoc in E.
Qed.
Lemma kept_nothing : kept [] nothing.
Proof. constructor; reflexivity. Qed.
Lemma note_boxes : forall S bips f (s s' : S),
  for_each (fun _ bip f => note_box bip f) 0 bips nothing s = (Ok f, s') -> s' = s /\ kept bips f.
Proof.
  intros S bips f s s' E.
  apply (for_each_ok S found _ (fun _ bip f => note_box bip f) kept) with (pre := []) in E; auto using kept_nothing.
  intros i l b a a' s1 s1' K F. exact (note_box_kept _ _ _ _ _ _ _ K F).
Qed.

Lemma ctts_total : forall S ctts samples (s : S),
  exists l, ctts_samples ctts samples s = (Ok l, s) /\
    map s_size l = map s_size samples /\ map s_delta l = map s_delta samples.
Proof.
  intros S ctts samples s. unfold ctts_samples.
  pose (P := fun st : N * list sample => map s_size (snd st) = map s_size samples /\ map s_delta (snd st) = map s_delta samples).
  match goal with |- context[for_each ?body 0 ?L ?a] =>
    destruct (for_each_inv _ _ _ body L a s (fun _ => P)) as (b & E & H1 & H2) end.
  - split; reflexivity.
  - intros i e a NE HP. pose proof (ctts_offset_ok _ _ _ NE) as CO. apply forN_total; [exact HP|].
    intros j [si smp] J [G1 G2]. cbn [snd] in G1, G2. destruct (N.leb_spec (w32 (lenN smp)) si).
    + exists (si, smp). split; [reflexivity|]. now split.
    + assert (w32 (lenN smp) <= lenN smp) by (apply N.mod_le; discriminate).
      destruct (modify_some sample (fun s => mksample (s_size s) (s_delta s) (ctts_offset ctts e)) si smp ltac:(lia)) as (l' & M & _).
      exists (w32 (si + 1), l'). split.
      { unfold bind, lift_res. rewrite CO. unfold or_panic. rewrite M. reflexivity. }
      split; cbn [snd]; [rewrite <- G1|rewrite <- G2]; eapply modify_same; try exact M; reflexivity.
  - exists (snd b). split; [|split; assumption]. unfold bind at 1. rewrite E. reflexivity.
Qed.
Lemma elst_ok : forall S elst (s : S), elst_edits elst s = (Ok (map (edit_of elst) (structs "Entries" elst)), s).
Proof.
  intros S elst s. unfold elst_edits. set (L := structs "Entries" elst).
  match goal with |- for_each ?body 0 ?L ?a _ = _ =>
    destruct (for_each_inv _ _ _ body L a s (fun i acc => acc = map (edit_of elst) (firstn (N.to_nat i) L))) as (b & E & H) end.
  - reflexivity.
  - intros i e a NE ->. exists (map (edit_of elst) (firstn (N.to_nat i) L) ++ [edit_of elst e]). unfold bind, lift_res.
    unfold elst_GetMediaTime, elst_GetSegmentDuration, by_version. rewrite (entry_nth _ _ _ NE).
    rewrite (firstn_next _ _ _ _ NE), map_app. unfold edit_of.
    destruct (get_version elst =? 0); [split; reflexivity|]. destruct (get_version elst =? 1); split; reflexivity.
  - rewrite E, H, firstn_lenN. reflexivity.
Qed.

Lemma repeat_const : forall A B (f : A -> B) c l, (forall x, In x l -> f x = c) -> map f l = repeat c (List.length l).
Proof. induction l as [|x l IH]; intros H; [reflexivity|]. cbn. rewrite (H x) by now left. rewrite IH; [reflexivity|]. intros y I. apply H. now right. Qed.

(** what a track says, given the boxes found *)
Record track_of (bips : list (boxinfo * (boxdef * fields))) (tr : track) : Prop := mktrack_of
  { to_tkhd : exists tkhd, last_of "tkhd" bips = Some tkhd /\ t_id tr = uint_of "TrackID" tkhd;
    to_mdhd : exists mdhd, last_of "mdhd" bips = Some mdhd /\ t_timescale tr = uint_of "Timescale" mdhd /\
                           t_duration tr = mdhd_GetDuration mdhd;
    to_edits : t_edits tr = match last_of "elst" bips with Some x => map (edit_of x) (structs "Entries" x) | None => [] end;
    to_stts : exists stts, last_of "stts" bips = Some stts /\ map s_delta (t_samples tr) = runs (stts_runs stts);
    to_ctts : lenN (t_samples tr) < 2 ^ 32 -> map s_cto (t_samples tr) = ctos_of bips (List.length (t_samples tr));
    to_stsz : map s_size (t_samples tr) =
                match last_of "stsz" bips with
                | Some stsz => stretch 0 (List.length (t_samples tr)) (uints "EntrySize" stsz)
                | None => repeat 0 (List.length (t_samples tr))
                end;
    to_offsets : chunk_offsets bips = Some (map c_offset (t_chunks tr));
    to_stsc : exists stsc, last_of "stsc" bips = Some stsc /\
       (increasing (map first_chunk (structs "Entries" stsc)) ->
        Forall (fun e => 1 <= first_chunk e < 2 ^ 32) (structs "Entries" stsc) ->
        lenN (t_chunks tr) < 2 ^ 32 ->
        forall k c, nthN k (t_chunks tr) = Some c -> c_spc c = spc_of stsc (k + 1)) }.
Lemma make_track_ok : forall S bips f tr (s s' : S), kept bips f -> make_track f s = (Ok tr, s') -> track_of bips tr.
Proof.
  intros S bips f tr s s' K H. unfold make_track in H.
  rewrite (k_tkhd _ _ K), (k_elst _ _ K), (k_mdhd _ _ K), (k_stts _ _ K), (k_stsc _ _ K), (k_ctts _ _ K), (k_stsz _ _ K),
    (k_stco _ _ K), (k_co64 _ _ K) in H.
  destruct (last_of "tkhd" bips) as [tkhd|] eqn:Tk; [|discriminate H].
  assert (ED : (match last_of "elst" bips with Some elst => elst_edits elst | None => ret [] end) s =
    (Ok match last_of "elst" bips with Some x => map (edit_of x) (structs "Entries" x) | None => [] end, s)).
  { destruct (last_of "elst" bips); [apply elst_ok|reflexivity]. }
  unfold bind at 1 in H. rewrite ED in H. clear ED.
  destruct (last_of "mdhd" bips) as [mdhd|] eqn:Md; [|discriminate H].
  unfold bind at 1 in H.
  match type of H with (match ?m with _ => _ end) = _ => destruct m as [[mp4a| | |] s1] eqn:A; try discriminate H end.
  clear A. unfold bind at 1 in H.
  assert (CH : (match last_of "stco" bips, last_of "co64" bips with
     | Some x, _ => ret (offsets_chunks (uints "ChunkOffset" x))
     | None, Some x => ret (offsets_chunks (uints "ChunkOffset" x))
     | None, None => fail (EMsg "stco/co64 box not found") end) s1 =
     (match chunk_offsets bips with Some l => Ok (offsets_chunks l) | None => Err (EMsg "stco/co64 box not found") end, s1)).
  { unfold chunk_offsets. destruct (last_of "stco" bips), (last_of "co64" bips); reflexivity. }
  rewrite CH in H. clear CH. destruct (chunk_offsets bips) as [offs|] eqn:CO; [|discriminate H].
  destruct (last_of "stts" bips) as [stts|] eqn:Ts; [|discriminate H].
  unfold bind at 1 in H. rewrite stts_ok in H.
  set (smp := map (fun d => mksample 0 d 0) (runs (stts_runs stts))) in *.
  destruct (last_of "stsc" bips) as [stsc|] eqn:Tc; [|discriminate H].
  unfold bind at 1 in H.
  destruct (stsc_total S stsc (offsets_chunks offs) s1) as (chs & E & OFF). rewrite E in H.
  assert (Z0 : map s_size smp = repeat 0 (List.length smp) /\ map s_delta smp = runs (stts_runs stts) /\ map s_cto smp = repeat 0%Z (List.length smp)).
  { unfold smp. split; [|split].
    - apply repeat_const. intros x I. apply in_map_iff in I. destruct I as (d & <- & _). reflexivity.
    - rewrite map_map. cbn. apply map_id.
    - apply repeat_const. intros x I. apply in_map_iff in I. destruct I as (d & <- & _). reflexivity. }
  destruct Z0 as (Z1 & Z2 & Z3).
  unfold bind at 1 in H.
  assert (CT : exists l, (match last_of "ctts" bips with Some ctts => ctts_samples ctts smp | None => ret smp end) s1 = (Ok l, s1) /\
     map s_size l = map s_size smp /\ map s_delta l = map s_delta smp /\ (lenN smp < 2 ^ 32 -> map s_cto l = ctos_of bips (List.length smp))).
  { unfold ctos_of. destruct (last_of "ctts" bips) as [ctts|].
    - destruct (ctts_total S ctts smp s1) as (l & C1 & C2 & C3). exists l. repeat split; auto. intros L.
      destruct (ctts_ok S ctts smp s1 L) as (l' & D1 & _ & _ & D4).
      { unfold smp. rewrite Forall_map. apply Forall_forall. reflexivity. }
      rewrite C1 in D1. injection D1 as <-. exact D4.
    - exists smp. auto. }
  destruct CT as (smp2 & CE & C1 & C2 & C3). rewrite CE in H. clear CE.
  assert (LE : List.length smp2 = List.length smp) by (apply (f_equal (@List.length N)) in C1; now rewrite !map_length in C1).
  unfold bind at 1 in H.
  assert (CT : exists l, (match last_of "stsz" bips with Some stsz => stsz_samples stsz smp2 | None => ret smp2 end) s1 = (Ok l, s1) /\
     map s_cto l = map s_cto smp2 /\ map s_delta l = map s_delta smp2 /\
     map s_size l = match last_of "stsz" bips with
                | Some stsz => stretch 0 (List.length smp) (uints "EntrySize" stsz)
                | None => repeat 0 (List.length smp)
                end).
  { destruct (last_of "stsz" bips) as [stsz|].
    - rewrite <- LE. apply stsz_ok. apply Forall_forall. intros x I. apply (in_map s_size) in I. rewrite C1, Z1 in I.
      now apply repeat_spec in I.
    - exists smp2. repeat split. now rewrite C1, Z1. }
  destruct CT as (smp3 & CE & D1 & D2 & D3). rewrite CE in H. clear CE.
  assert (LE2 : List.length smp3 = List.length smp) by (apply (f_equal (@List.length N)) in D2; rewrite !map_length in D2; congruence).
  injection H as <- <-. constructor; cbn [t_id t_timescale t_duration t_edits t_samples t_chunks].
  - eauto.
  - eauto.
  - reflexivity.
  - exists stts. split; auto. congruence.
  - unfold lenN. rewrite LE2. intros L. rewrite D1. auto.
  - rewrite LE2. exact D3.
  - rewrite OFF. unfold offsets_chunks. rewrite map_map. cbn. now rewrite map_id.
  - exists stsc. split; auto. intros I1 I2 I3 k c N1.
    assert (lenN chs = lenN (offsets_chunks offs)) as LC.
    { apply (f_equal (@List.length N)) in OFF. rewrite !map_length in OFF. unfold lenN. now rewrite OFF. }
    rewrite LC in I3. refine (stsc_spc S stsc (offsets_chunks offs) s1 chs I1 I2 I3 _ E k c N1).
    unfold offsets_chunks. rewrite Forall_map. apply Forall_forall. reflexivity.
Qed.

(** ** moof *)
Definition kept3 (l : list (boxinfo * (boxdef * fields))) (f : option fields * option fields * option fields) : Prop :=
  f = (last_of "tfhd" l, last_of "tfdt" l, last_of "trun" l).
Lemma note_traf_kept : forall S l b f f' (s s' : S), kept3 l f -> note_traf b f s = (Ok f', s') -> s' = s /\ kept3 (l ++ [b]) f'.
Proof.
  intros S l b f f' s s' K H. unfold note_traf in H. unfold kept3 in *. subst f. rewrite !last_of_app. unfold sel.
  set (t := bi_type (fst b)) in *.
  repeat match type of H with
  | (if bt_eqb t ?c then _ else _) _ = _ => let E := fresh "E" in destruct (bt_eqb t c) eqn:E
  end;
  (match type of H with
   | bind _ _ _ = _ =>
       unfold bind in H; destruct (payload_as _ (snd b) s) as [[x| | |] s1] eqn:P; try discriminate;
       apply payload_as_some in P; destruct P as [-> ->]; injection H as <- <-
   | _ => injection H as <- <-
   end; split; [reflexivity|]);
  try (match goal with E : bt_eqb t ?c = true |- _ => apply bytes_eqb_eq in E; rewrite E end; vm_compute; reflexivity).
  all: reflexivity.
Qed.
Lemma note_trafs : forall S bips f (s s' : S),
  for_each (fun _ bip f => note_traf bip f) 0 bips (None, None, None) s = (Ok f, s') -> s' = s /\ kept3 bips f.
Proof.
  intros S bips f s s' E.
  apply (for_each_ok S _ _ (fun _ bip f => note_traf bip f) kept3) with (pre := []) in E; auto; [|reflexivity].
  intros i l b a a' s1 s1' K F. exact (note_traf_kept _ _ _ _ _ _ _ K F).
Qed.

Lemma fold_w32 : forall (f : fields -> N) l a, fold_left (fun a e => w32 (a + f e)) l (w32 a) = w32 (a + sum (map f l)).
Proof.
  induction l as [|e l IH]; intros a; cbn [fold_left map sum fold_right].
  - now rewrite N.add_0_r.
  - replace (w32 (w32 a + f e)) with (w32 (a + f e)).
    + rewrite IH. f_equal. unfold sum. lia.
    + unfold w32. now rewrite N.add_mod_idemp_l by discriminate.
Qed.
Lemma sum_repeat : forall x n, sum (repeat x n) = x * N.of_nat n.
Proof. induction n as [|n IH]; [cbn; lia|]. cbn [repeat sum fold_right]. fold (sum (repeat x n)). rewrite IH. lia. Qed.
Lemma trun_duration_ok : forall tfhd trun, trun_duration tfhd trun = sum (sample_durations tfhd trun) mod 2 ^ 32.
Proof.
  intros. unfold trun_duration, sample_durations, check_flag. destruct (negb _).
  - rewrite (fold_w32 _ _ 0). now rewrite N.add_0_l.
  - rewrite sum_repeat, N2Nat.id. reflexivity.
Qed.
Lemma trun_size_ok : forall tfhd trun, trun_size tfhd trun = sum (sample_sizes tfhd trun) mod 2 ^ 32.
Proof.
  intros. unfold trun_size, sample_sizes, check_flag. destruct (negb _).
  - rewrite (fold_w32 _ _ 0). now rewrite N.add_0_l.
  - rewrite sum_repeat, N2Nat.id. reflexivity.
Qed.

Local Ltac Zify.zify_post_hook ::= Z.to_euclidean_division_equations.
Lemma int32_wrap : forall z, int32 z = wrap32 z.
Proof.
  intros z. unfold int32, wrap32, toZ, ofZ. cbv zeta.
  change (2 ^ (32 - 1)) with 2147483648. change (2 ^ 32) with 4294967296.
  change (Z.of_N 4294967296) with 4294967296%Z.
  change (2 ^ 31)%Z with 2147483648%Z. change (2 ^ 32)%Z with 4294967296%Z.
  destruct (N.ltb_spec (Z.to_N (z mod 4294967296) mod 4294967296) 2147483648); lia.
Qed.
Lemma wrap32_mod : forall a b, (a mod 2 ^ 32 = b mod 2 ^ 32)%Z -> wrap32 a = wrap32 b.
Proof. intros a b H. unfold wrap32. rewrite <- (Z.add_mod_idemp_l a), <- (Z.add_mod_idemp_l b), H by discriminate. reflexivity. Qed.
Lemma wrap32_same : forall a, (wrap32 a mod 2 ^ 32 = a mod 2 ^ 32)%Z.
Proof.
  intros a. unfold wrap32. change (2 ^ 31)%Z with 2147483648%Z. change (2 ^ 32)%Z with 4294967296%Z. lia.
Qed.
Lemma wrap32_id : forall a, (- 2 ^ 31 <= a < 2 ^ 31)%Z -> wrap32 a = a.
Proof. intros a. unfold wrap32. change (2 ^ 31)%Z with 2147483648%Z. change (2 ^ 32)%Z with 4294967296%Z. lia. Qed.
Lemma wrap32_add : forall a b, wrap32 (wrap32 a + wrap32 b) = wrap32 (a + b).
Proof. intros. apply wrap32_mod. rewrite Z.add_mod, !wrap32_same, <- Z.add_mod by discriminate. reflexivity. Qed.
Local Ltac Zify.zify_post_hook ::= idtac.
(** ** The least composition time *)
Definition step_of (tfhd trun e : fields) : N :=
  if negb (N.land (get_flags trun) 0x100 =? 0) then uint_of "SampleDuration" e else uint_of "DefaultSampleDuration" tfhd.
Lemma times_app : forall tfhd trun a t b,
  composition_times tfhd trun t (a ++ b) =
  composition_times tfhd trun t a ++ composition_times tfhd trun (t + sum (map (step_of tfhd trun) a)) b.
Proof.
  intros tfhd trun. induction a as [|e a IH]; intros t b; cbn [app composition_times map sum fold_right].
  - now rewrite N.add_0_r.
  - f_equal. rewrite IH. f_equal. f_equal. unfold step_of, sum. lia.
Qed.
Lemma trun_offset_ok : forall trun i e, nthN i (structs "Entries" trun) = Some e ->
  trun_GetSampleCompositionTimeOffset trun (Z.of_N i) = Ok (sample_offset trun e).
Proof.
  intros trun i e H. unfold trun_GetSampleCompositionTimeOffset, by_version, sample_offset. rewrite (entry_nth _ _ _ H).
  destruct (get_version trun =? 0); [reflexivity|]. destruct (get_version trun =? 1); reflexivity.
Qed.
Lemma trun_cto_ok : forall S tfhd trun (s : S), exists z, trun_cto tfhd trun s = (Ok z, s) /\
  match structs "Entries" trun with
  | [] => z = 0%Z
  | es => least z (map wrap32 (composition_times tfhd trun 0 es))
  end.
Proof.
  intros S tfhd trun s. unfold trun_cto. set (L := structs "Entries" trun).
  pose (P := fun (i : N) (st : N * Z) =>
    fst st = w32 (sum (map (step_of tfhd trun) (firstn (N.to_nat i) L))) /\
    match firstn (N.to_nat i) L with
    | [] => snd st = 0%Z
    | es => least (snd st) (map wrap32 (composition_times tfhd trun 0 es))
    end).
  match goal with |- context[for_each ?body 0 ?L ?a] =>
    destruct (for_each_inv _ _ _ body L a s P) as (b & E & HP) end.
  - split; reflexivity.
  - intros i e [du ct] NE [H1 H2]. cbn [fst snd] in H1, H2.
    rewrite (trun_offset_ok _ _ _ NE). unfold bind, lift_res, ret.
    eexists. split; [reflexivity|]. unfold P. cbn [fst snd].
    rewrite (firstn_next _ _ _ _ NE), map_app. set (done := firstn (N.to_nat i) L) in *.
    assert (ADD : sum (map (step_of tfhd trun) done ++ map (step_of tfhd trun) [e]) =
                  sum (map (step_of tfhd trun) done) + step_of tfhd trun e).
    { unfold sum. rewrite fold_right_app. cbn [map fold_right]. clear.
      induction (map (step_of tfhd trun) done) as [|x l IH]; cbn; [lia|]. rewrite IH. lia. }
    rewrite ADD. split.
    + subst du. unfold check_flag. fold (step_of tfhd trun e). unfold w32. now rewrite N.add_mod_idemp_l by discriminate.
    + assert (NN : forall (Q : list fields -> Prop) X, Q (done ++ [e]) -> match done ++ [e] with [] => X | e0 :: l0 => Q (e0 :: l0) end).
      { clear. intros Q X H. destruct (done ++ [e]) eqn:D; [destruct done; discriminate D|exact H]. }
      apply (NN (fun l => least _ (map wrap32 (composition_times tfhd trun 0 l)))). clear NN.
      rewrite times_app, map_app, N.add_0_l. cbn [composition_times map].
      set (off := wrap32 (Z.of_N (sum (map (step_of tfhd trun) done)) + sample_offset trun e)).
      replace (int32 (int32 (Z.of_N du) + int32 (sample_offset trun e))) with off; cycle 1.
      { rewrite !int32_wrap, wrap32_add. unfold off. apply wrap32_mod. rewrite H1. unfold w32.
        rewrite N2Z.inj_mod. change (Z.of_N W32) with (2 ^ 32)%Z. now rewrite Z.add_mod_idemp_l by discriminate. }
      destruct (N.eqb_spec i 0) as [->|NZ].
      * cbn [orb]. subst done. cbn [firstn N.to_nat app composition_times map]. split; [now left|]. repeat constructor. lia.
      * assert (ND : done <> []).
        { apply nthN_some_lt in NE. unfold done. intros Q. apply (f_equal (@List.length _)) in Q. rewrite firstn_length in Q.
          cbn in Q. unfold lenN in NE. lia. }
        assert (H3 : least ct (map wrap32 (composition_times tfhd trun 0 done))) by (clear - H2 ND; now destruct done).
        destruct H3 as [I F]. cbn [orb]. destruct (Z.ltb_spec off ct).
        -- split; [apply in_or_app; right; now left|]. apply Forall_app. split.
           ++ eapply Forall_impl; [|exact F]. intros; cbn in *; lia.
           ++ repeat constructor. lia.
        -- split; [apply in_or_app; now left|]. apply Forall_app. split; [exact F|]. repeat constructor. lia.
  - exists (snd b). split.
    + unfold bind at 1. rewrite E. reflexivity.
    + destruct HP as [_ HP]. rewrite firstn_lenN in HP. exact HP.
Qed.
