(** A value that was decoded has a layout, and nothing of it is lost in that
    layout: for boxes with strings and integers of variable length. *)
From Verif Require Import Base BitIO Schema Structs Methods Registry Marshal Unmarshal SpecCodec
     SpecRoundTrip SpecReencode Decode.
From Verif Require Import BaseProofs BitIOProofs BitIOFacts MarshalProofs MarshalCount UnmarshalProofs
     DecodeFacts VersionFacts Causal RoundTripBase RoundTripProofs Shape Lossless Truncate.
Local Open Scope string_scope.
Local Open Scope list_scope.
Local Open Scope N_scope.
Local Open Scope dec_scope.
Ltac Zify.zify_post_hook ::= Z.to_euclidean_division_equations.

(** ** Checks on schemas *)
(** no string in it *)
Fixpoint nostr (t : sty) : bool :=
  match t with
  | SStr => false
  | SArr _ u | SSlice u | SPtr u => nostr u
  | SStruct _ _ fs => nostr_flds fs
  | _ => true
  end
with nostr_flds (fs : flds) : bool :=
  match fs with FNil => true | FCons _ t r => nostr t && nostr_flds r end.
(** as many bits are written as were read *)
Fixpoint exact (f : finfo) (t : sty) : bool :=
  match t with
  | SUint _ => negb (f_varint f)
  | SStr => false
  | SArr _ u | SSlice u | SPtr u => exact f u
  | SStruct _ _ fs => exact_flds fs
  | _ => true
  end
with exact_flds (fs : flds) : bool :=
  match fs with FNil => true | FCons f t r => exact f t && exact_flds r end.
(** there is a list of variable length in it *)
Fixpoint hasslice (t : sty) : bool :=
  match t with
  | SSlice _ => true
  | SArr _ u | SPtr u => hasslice u
  | SStruct _ _ fs => hasslice_flds fs
  | _ => false
  end
with hasslice_flds (fs : flds) : bool :=
  match fs with FNil => false | FCons _ t r => hasslice t || hasslice_flds r end.
(** number of strings *)
Fixpoint strs (t : sty) : N :=
  match t with
  | SStr => 1
  | SPtr u => strs u
  | SStruct _ _ fs => strs_flds fs
  | _ => 0
  end
with strs_flds (fs : flds) : N :=
  match fs with FNil => 0 | FCons _ t r => strs t + strs_flds r end.
Lemma nostr_strs : (forall t, nostr t = true -> strs t = 0) /\ (forall fs, nostr_flds fs = true -> strs_flds fs = 0).
Proof.
  apply sty_flds_mutind; try reflexivity; try discriminate; auto.
  intros f t IH r IHr H. change (nostr t && nostr_flds r = true) in H. apply andb_prop in H. destruct H.
  change (strs t + strs_flds r = 0). rewrite IH, IHr; auto.
Qed.

Section Check.
  Variables (rname : string) (rootfs : flds).
  (** [last]: nothing is written after it *)
  Fixpoint gl_val (zub : option N) (lok last : bool) (f : finfo) (t : sty) : bool :=
    match t with
    | SUint w => (w <=? 64) && match zub with Some z => if f_varint f then z =? 0 else z <=? w | None => false end
    | SInt w => (w <=? 64) && match zub with Some z => z <=? w | None => false end
    | SBool => match zub with Some z => z <=? 1 | None => false end
    | SStr => negb (f_cp f) && (negb (f_boxString f) || last)
    | SPtr u => gl_val zub lok last f u
    | SArr _ u => nostr u && gl_val zub lok false f u
    | SSlice u => (negb (is_u8 u) || lok && negb (f_varint f)) && nostr u &&
                  (match zub with Some z => z =? 0 | None => false end || exact f u) && gl_val zub lok false f u
    | SStruct name cfo fs => match zub with Some z => z =? 0 | None => false end && gl_flds last name cfo fs fs
    end
  with gl_flds (last : bool) (sname : string) (cfo : bool) (all fs : flds) : bool :=
    match fs with
    | FNil => true
    | FCons f t r =>
        let cn := if cfo then sname else rname in
        let bfs := if cfo then all else rootfs in
        match hook_of cn (f_name f) with
        | HNone => gl_val (if f_sizeDyn f then ub bfs (m_size cn (f_name f)) else Some (f_size f))
                     (if f_lenDyn f then len_ok bfs (m_len cn (f_name f)) else f_length f <? 2 ^ 61)
                     (last && match r with FNil => true | _ => false end) f t &&
                   (negb (hasslice t) || nostr_flds r)
        | _ => false
        end && gl_flds last sname cfo all r
    end.
End Check.
Definition gl_names : list string :=
  ["Url"; "Urn"; "XMLSubtitleSampleEntry"; "TextSubtitleSampleEntry"; "Esds";
   "WebVTTConfigurationBox"; "WebVTTSourceLabelBox"; "CueTimeBox";
   "CueIDBox"; "CueSettingsBox"; "CuePayloadBox"; "VTTAdditionalTextBox"].
Lemma std_gl : forallb (fun d => implb (str_in (bd_name d) gl_names)
  (gl_flds (bd_name d) (bd_flds d) true (bd_name d) true (bd_flds d) (bd_flds d))) all_defs = true.
Proof. vm_compute. reflexivity. Qed.
Lemma gl_names_all : forallb (fun d => SpecLossless.plain_box d || str_in (bd_name d) (["Emsg"; "Hdlr"; "Meta"] ++ gl_names))
  all_defs = true.
Proof. vm_compute. reflexivity. Qed.

Lemma gl_flds_cons : forall rname rootfs last sname (cfo : bool) all f t r,
  gl_flds rname rootfs last sname cfo all (FCons f t r) =
        let cn := if cfo then sname else rname in
        let bfs := if cfo then all else rootfs in
        match hook_of cn (f_name f) with
        | HNone => gl_val rname rootfs (if f_sizeDyn f then ub bfs (m_size cn (f_name f)) else Some (f_size f))
                     (if f_lenDyn f then len_ok bfs (m_len cn (f_name f)) else f_length f <? 2 ^ 61)
                     (last && match r with FNil => true | _ => false end) f t &&
                   (negb (hasslice t) || nostr_flds r)
        | _ => false
        end && gl_flds rname rootfs last sname cfo all r.
Proof. reflexivity. Qed.
Lemma gl_hook : forall rname rootfs last sname (cfo : bool) all f t r,
  gl_flds rname rootfs last sname cfo all (FCons f t r) = true ->
  hook_of (if cfo then sname else rname) (f_name f) = HNone /\ gl_flds rname rootfs last sname cfo all r = true.
Proof.
  intros rname rootfs last sname cfo all f t r H. rewrite gl_flds_cons in H. cbv zeta in H.
  apply andb_prop in H. destruct H as [H Hr]. split; [|exact Hr].
  destruct (hook_of _ (f_name f)); try discriminate. reflexivity.
Qed.
Lemma gl_frame : forall k rn vs ctx rootfs last all rt lim base sname (cfo : bool) fs self st self' st',
  gl_flds rn rootfs last sname cfo all fs = true ->
  dec_flds k rn vs ctx rt lim base sname cfo self fs st = Ok (self', st') ->
  map fst self' = map fst self /\
  forall j, ~ In j (names_of fs) -> lookup j self' = lookup j self.
Proof.
  intros k rn vs ctx rootfs last all rt lim base sname cfo.
  induction fs as [|f t rest IH]; intros self st self' st' P H.
  { assert (self = self') by (now injection H). subst. auto. }
  destruct (gl_hook _ _ _ _ _ _ _ _ _ P) as [HK PR].
  rewrite dec_flds_cons in H. cbv zeta in H.
  destruct (resolve_size _ _ f) as [size|]; [|discriminate].
  destruct (resolve_len _ _ f) as [len|]; [|discriminate].
  unfold dbind in H at 1.
  match type of H with match ?m st with _ => _ end = _ => set (step := m) in H end.
  destruct (step st) as [[s1 st1]| | |] eqn:E; try discriminate.
  assert (L : map fst s1 = map fst self /\ forall j, j <> f_name f -> lookup j s1 = lookup j self).
  { unfold step in E. clear step H. destruct (is_target _ _ _ _ _).
    2:{ assert (self = s1) by (now injection E). subst. auto. }
    unfold dbind in E at 1. unfold dpos in E at 1. unfold dbind in E at 1.
    rewrite HK in E; cbn [d_hook] in E; unfold dret in E at 1.
    destruct (lookup (f_name f) self) as [cur|]; [|discriminate]. unfold dbind in E.
    destruct (dec_val _ _ _ _ _ _ _ _ _ _ _ _ _) as [[x st3]| | |]; try discriminate.
    destruct (_ && _); [discriminate|].
    assert (X : update (f_name f) x self = s1) by (now injection E). subst s1.
    split; [apply keys_update|]. intros j Hj. now apply lookup_update_other. }
  destruct L as [L1 L2]. destruct (IH s1 st1 self' st' PR H) as [I1 I2]. split; [congruence|].
  intros j Hj. cbn [names_of In] in Hj. rewrite I2 by tauto. apply L2. intros ->. tauto.
Qed.

(** ** Leaves *)
Lemma uvarint_read : forall n acc p bits v p' bits',
  dwhile n (fun val =>
      o <~ d_take 8 ;;
      let b := bits_to_N o in
      let val' := w64 (w64 (128 * val) + b mod 128) in
      dret (if b <? 128 then inr val' else inl val')) acc (p, bits) = Ok (v : N, (p', bits')) ->
  p + 8 <= p' /\ p' mod 8 = p mod 8.
Proof.
  induction n as [|n IH]; intros acc p bits v p' bits' H; cbn [dwhile] in H; [discriminate|].
  unfold dbind in H. destruct (d_take 8 (p, bits)) as [[c [p1 bits1]]| | |] eqn:T; try discriminate.
  apply d_take_inv in T. destruct T as (_ & _ & ->). cbv zeta in H. unfold dret in H.
  destruct (bits_to_N c <? 128).
  - assert (p' = p + 8) by (now injection H). subst p'. clear. lia.
  - apply IH in H. clear IH. lia.
Qed.
Lemma string_read : forall lim base n acc p bits s p' bits',
  dwhile n (fun acc =>
           p <~ dpos ;;
           if lim <=? p - base then dret (inr acc)
           else c <~ d_take 8 ;;
                let b := N2b (bits_to_N c) in
                if b2N b =? 0 then dret (inr acc) else dret (inl (b :: acc))) acc (p, bits) = Ok (s, (p', bits')) ->
  exists s', s = s' ++ acc /\ no_nul s' = true /\ (p' = p + 8 * lenN s' \/ p' = p + 8 * lenN s' + 8).
Proof.
  intros lim base. induction n as [|n IH]; intros acc p bits s p' bits' H; cbn [dwhile] in H; [discriminate|].
  unfold dbind, dpos in H. cbn [fst] in H. destruct (lim <=? p - base).
  - unfold dret in H. assert (E : s = acc /\ p' = p) by (now injection H as <- <- <-). destruct E as [-> ->].
    exists []. rewrite lenN_nil. repeat split. left. lia.
  - destruct (d_take 8 (p, bits)) as [[c [p1 bits1]]| | |] eqn:T; try discriminate.
    apply d_take_inv in T. destruct T as (_ & _ & ->). cbv zeta in H. unfold dret in H.
    destruct (b2N (N2b (bits_to_N c)) =? 0) eqn:Z.
    + assert (E : s = acc /\ p' = p + 8) by (now injection H as <- <- <-). destruct E as [-> ->].
      exists []. rewrite lenN_nil. repeat split. right. lia.
    + apply IH in H. destruct H as (s' & -> & N1 & P). exists (s' ++ [N2b (bits_to_N c)]).
      rewrite <- app_assoc. split; [reflexivity|]. rewrite lenN_app, lenN_cons, lenN_nil. split; [|lia].
      unfold no_nul in *. rewrite forallb_app, N1. cbn [forallb]. rewrite Z. reflexivity.
Qed.
Lemma no_nul_rev : forall s, no_nul s = true -> no_nul (rev s) = true.
Proof.
  intros s H. unfold no_nul in *. rewrite forallb_forall in *. intros x I. apply H. now apply in_rev.
Qed.

Lemma val_eqb_refl : forall v, val_eqb v v = true.
Proof.
  fix G 1. intros v. destruct v as [n|n|b|s|l|[x|]|l]; cbn [val_eqb].
  - apply N.eqb_refl.
  - apply Z.eqb_refl.
  - apply eqb_reflx.
  - apply bytes_eqb_refl.
  - induction l as [|x l IH]; [reflexivity|]. now rewrite (G x), IH.
  - apply G.
  - reflexivity.
  - induction l as [|[j x] l IH]; [reflexivity|]. now rewrite String.eqb_refl, (G x), IH.
Qed.
Lemma strs_eqb_refl : forall a, strs_eqb a a = true.
Proof. induction a as [|x a IH]; [reflexivity|]. cbn [strs_eqb]. now rewrite String.eqb_refl. Qed.

(** ** Values *)
Section GL.
  Variables (k : nat) (rname : string) (versions : list N) (ctx : context) (root : fields) (rootfs : flds).
  Local Notation v0 := (get_version root =? 0).

  Definition GV (t : sty) : Prop := forall vf droot rd lim base f size len zub lok last cur p bits v p' bits',
    chk_val rname v0 vf droot t = true -> agree_root root vf droot rd -> bounded rootfs rd ->
    gl_val rname rootfs zub lok last f t = true -> (forall z, zub = Some z -> size <= z) ->
    (lok = true -> len_fine len) -> nodup_val t = true -> no_cp_val t = true -> f_cp f = false -> shaped t cur ->
    base <= p -> lim < 2 ^ 64 -> p' <= base + lim -> varints_fit f t v = true ->
    dec_val k rname versions ctx rd lim base f size len t cur (p, bits) = Ok (v, (p', bits')) ->
    exists lb, layout_val rname root ctx f size len t v = Some lb /\
      (p + lenN lb) mod 8 = p' mod 8 /\ lenN lb <= 4 * (p' - p) + 8 * strs t /\
      (nostr t = true -> (lb = [] <-> p' = p)) /\ (exact f t = true -> lenN lb = p' - p) /\
      forall pl rem, (hasslice t = true -> base + lim <= p' -> rem = 0) -> (last = true -> rem = 0) ->
        rt_val rname root ctx pl rem f size len t cur v = true.

  Definition GF (fs : flds) : Prop :=
    forall top vf droot cfo sname all last D Dend rt ltop lim base selfd self cur p bits p' bits',
    chk_flds rname v0 top vf droot cfo sname D fs = Some Dend ->
    match top with
    | Some hf => rt = None /\ self = root /\ (hf = false -> ~ In "FullBox" (map fst self)) /\ all = rootfs
    | None => exists rd, rt = Some rd /\ agree_root root vf droot rd /\ bounded rootfs rd
    end ->
    (forall j, In j D -> ~ In j (names_of fs)) ->
    gl_flds rname rootfs last sname cfo all fs = true -> nodup_flds fs = true -> no_cp_flds fs = true ->
    shaped_in fs selfd -> bounded all selfd ->
    (forall j, In j (names_of fs) -> bound_of all j = bound_of fs j /\ sbound_of all j = sbound_of fs j) ->
    (forall j, In j (names_of fs) -> lookup j selfd = lookup j cur) ->
    base <= p -> lim < 2 ^ 64 -> p' <= base + lim -> varints_fit_flds fs self = true ->
    dec_flds k rname versions ctx rt lim base sname cfo selfd fs (p, bits) = Ok (self, (p', bits')) ->
    exists lb, layout_flds rname root ctx ltop sname cfo self fs = Some lb /\
      (p + lenN lb) mod 8 = p' mod 8 /\ lenN lb <= 4 * (p' - p) + 8 * strs_flds fs /\
      (nostr_flds fs = true -> (lb = [] <-> p' = p)) /\ (exact_flds fs = true -> lenN lb = p' - p) /\
      forall pl rem, (hasslice_flds fs = true -> base + lim <= p' -> rem = 0) -> (last = true -> rem = 0) ->
        rt_flds rname root ctx ltop pl (rem + lenN lb) sname cfo self cur fs = true.

  Section Elem.
    Variables (u : sty) (vf : bool) (droot : list string) (rd : fields) (lim base : N) (f : finfo) (size len : N)
              (zub : option N) (lok : bool).
    Hypothesis HV : GV u.
    Hypothesis C : chk_val rname v0 vf droot u = true.
    Hypothesis A : agree_root root vf droot rd.
    Hypothesis B : bounded rootfs rd.
    Hypothesis P : gl_val rname rootfs zub lok false f u = true.
    Hypothesis Z : forall z, zub = Some z -> size <= z.
    Hypothesis L : lok = true -> len_fine len.
    Hypothesis N0 : nodup_val u = true.
    Hypothesis NC : no_cp_val u = true.
    Hypothesis CP : f_cp f = false.
    Hypothesis NS : nostr u = true.
    Hypothesis LM : lim < 2 ^ 64.
    Local Notation enc := (layout_val rname root ctx f size len u).
    Local Notation dv := (dec_val k rname versions ctx rd lim base f size len u).

    Lemma map_mono : forall cl p bits vs p' bits', d_map dv cl (p, bits) = Ok (vs, (p', bits')) -> p <= p'.
    Proof.
      intros cl p bits vs p' bits' H.
      destruct (local_map (fun k => dec_val k rname versions ctx rd lim base f size len u)
          (fun v => proj1 (dec_local rname versions ctx) u NC rd lim base f size len v CP) cl k p bits vs p' bits' H)
          as (c2 & _ & -> & _). lia.
    Qed.

    Lemma g_map : forall cl p bits vs p' bits', Forall (shaped u) cl -> base <= p -> p' <= base + lim ->
      forallb (varints_fit f u) vs = true ->
      d_map dv cl (p, bits) = Ok (vs, (p', bits')) ->
      lenN vs = lenN cl /\
      exists lb, concat_bits enc vs = Some lb /\
        (p + lenN lb) mod 8 = p' mod 8 /\ lenN lb <= 4 * (p' - p) /\
        (lb = [] <-> p' = p) /\ (exact f u = true -> lenN lb = p' - p) /\
        forall pl rem, (hasslice u = true -> base + lim <= p' -> rem = 0) ->
          rt_list (fun p rem => rt_val rname root ctx p rem f size len u) enc pl (rem + lenN lb) cl vs = true.
    Proof.
      induction cl as [|c cl IH]; intros p bits vs p' bits' S B1 B2 VF H; cbn [d_map] in H.
      - assert (E : vs = [] /\ p' = p) by (now injection H as <- <- <-). destruct E as (-> & ->).
        split; [reflexivity|]. exists []. cbn [concat_bits rt_list]. rewrite lenN_nil, N.add_0_r. repeat split; intros; lia.
      - inversion S as [|? ? S1 S2]; subst. unfold dbind in H.
        destruct (dec_val _ _ _ _ _ _ _ _ _ _ _ c (p, bits)) as [[x [p1 bits1]]| | |] eqn:E1; try discriminate.
        destruct (d_map _ cl (p1, bits1)) as [[xs [p2 bits2]]| | |] eqn:E2; try discriminate.
        assert (E : vs = x :: xs /\ p' = p2 /\ bits' = bits2) by (now injection H as <- <- <-).
        destruct E as (-> & -> & ->). clear H. cbn [forallb] in VF. apply andb_prop in VF. destruct VF as [VF1 VF2].
        pose proof (mono_val k rname versions ctx u NC _ _ _ _ _ _ _ _ _ _ _ _ CP E1) as M1.
        pose proof (map_mono _ _ _ _ _ _ E2) as M2.
        destruct (HV vf droot rd lim base f size len zub lok false c p bits x p1 bits1) as (b1 & L1 & Q1 & Q2 & Q3 & Q4 & Q5);
          auto; try lia.
        destruct (IH p1 bits1 xs p2 bits2) as (LL & b2 & K1 & K2 & K3 & K4 & K5 & K6); auto; try lia.
        rewrite (proj1 nostr_strs u NS) in Q2. specialize (Q3 NS).
        split; [rewrite !lenN_cons; lia|]. exists (b1 ++ b2). cbn [concat_bits]. rewrite L1. cbn [obind]. rewrite K1.
        cbn [obind]. rewrite lenN_app. split; [reflexivity|]. split; [clear - Q1 K2 M1 M2; lia|]. split; [lia|].
        split; [|split].
        + split.
          * intros E. apply app_eq_nil in E. destruct E as [-> ->]. destruct Q3 as [Q3 _], K4 as [K4 _].
            rewrite (K4 eq_refl). apply Q3. reflexivity.
          * intros ->. assert (p1 = p) by lia. subst p1. destruct Q3 as [_ Q3], K4 as [_ K4].
            rewrite Q3, K4; auto.
        + intros E. rewrite Q4, K5 by exact E. lia.
        + intros pl rem HR. cbn [rt_list]. rewrite L1.
          replace (rem + (lenN b1 + lenN b2) - lenN b1) with (rem + lenN b2) by lia.
          rewrite K6 by exact HR. rewrite andb_true_r. apply Q5; [|discriminate].
          intros HS HE. assert (p1 = p2) by lia. subst p2. destruct K4 as [_ K4]. rewrite (K4 eq_refl), lenN_nil.
          rewrite HR; auto.
    Qed.

    Lemma loop_map : forall n acc p bits vs p' bits',
      dloop n (elem k rname versions ctx rd lim base f size len u) acc (p, bits) = Ok (vs, (p', bits')) ->
      exists l, vs = rev l ++ acc /\ List.length l = n /\
        d_map dv (repeat (zero u) n) (p, bits) = Ok (l, (p', bits')).
    Proof.
      induction n as [|n IH]; intros acc p bits vs p' bits' H; cbn [dloop] in H.
      - unfold dret in H. assert (E : vs = acc /\ p' = p /\ bits' = bits) by (now injection H as <- <- <-).
        destruct E as (-> & -> & ->). exists []. auto.
      - unfold dbind in H.
        destruct (elem _ _ _ _ _ _ _ _ _ _ _ _ _) as [[a1 [p1 bits1]]| | |] eqn:E1; try discriminate.
        unfold elem, dbind in E1.
        destruct (dec_val _ _ _ _ _ _ _ _ _ _ _ _ _) as [[x [p2 bits2]]| | |] eqn:E2; try discriminate.
        unfold dpos in E1. cbn [fst] in E1. destruct (lim <? p2 - base); [discriminate|].
        assert (E : a1 = x :: acc /\ p1 = p2 /\ bits1 = bits2) by (now injection E1 as <- <- <-).
        destruct E as (-> & -> & ->). apply IH in H. destruct H as (l & -> & Ln & H). exists (x :: l).
        cbn [rev List.length repeat d_map]. rewrite <- app_assoc. split; [reflexivity|]. split; [now rewrite Ln|].
        unfold dbind. rewrite E2, H. reflexivity.
    Qed.
    Lemma while_map : forall n acc p bits vs p' bits', base <= p -> p <= base + lim ->
      dwhile n (fun acc => p <~ dpos ;;
                if lim <=? p - base then dret (inr acc)
                else acc' <~ elem k rname versions ctx rd lim base f size len u acc ;; dret (inl acc')) acc (p, bits)
        = Ok (vs, (p', bits')) ->
      exists l, vs = rev l ++ acc /\ p' = base + lim /\
        d_map dv (repeat (zero u) (List.length l)) (p, bits) = Ok (l, (p', bits')) /\
        Forall (fun x => exists p0 bits0 p1 bits1, base <= p0 /\ p1 <= base + lim /\ p1 <> p0 /\
                           dv (zero u) (p0, bits0) = Ok (x, (p1, bits1))) l.
    Proof.
      induction n as [|n IH]; intros acc p bits vs p' bits' B1 B2 H; cbn [dwhile] in H; [discriminate|].
      unfold dbind in H at 1. unfold dbind at 1 in H. unfold dpos in H at 1. cbn [fst] in H.
      destruct (N.leb_spec lim (p - base)) as [Q|Q].
      - unfold dret in H. assert (E : vs = acc /\ p' = p /\ bits' = bits) by (now injection H as <- <- <-).
        destruct E as (-> & -> & ->). exists []. split; [reflexivity|]. split; [lia|]. split; [reflexivity|constructor].
      - unfold dbind in H at 1.
        destruct (elem _ _ _ _ _ _ _ _ _ _ _ _ _) as [[a1 [p1 bits1]]| | |] eqn:E1; try discriminate.
        unfold dret in H.
        unfold elem in E1. unfold dbind in E1 at 1.
        destruct (dec_val _ _ _ _ _ _ _ _ _ _ _ _ _) as [[x [p2 bits2]]| | |] eqn:E2; try discriminate.
        unfold dbind, dpos in E1. cbn [fst] in E1. destruct (N.ltb_spec lim (p2 - base)) as [|Q2]; [discriminate|].
        unfold dret in E1. assert (E : a1 = x :: acc /\ p1 = p2 /\ bits1 = bits2) by (now injection E1 as <- <- <-).
        destruct E as (-> & -> & ->).
        pose proof (mono_val k rname versions ctx u NC _ _ _ _ _ _ _ _ _ _ _ _ CP E2) as M1.
        assert (PR : p2 <> p).
        { intros ->.
          destruct (proj1 (dec_local rname versions ctx) u NC rd lim base f size len (zero u) CP k p bits x p bits2 E2)
            as (c & Ec & Ep & _).
          assert (c = []) by (destruct c; [reflexivity|rewrite lenN_cons in Ep; lia]). subst c. cbn [app] in Ec. subst bits2.
          rewrite dwhile_stay in H; [discriminate|]. intros a. exists (x :: a). unfold dbind at 1. unfold dpos at 1. cbn [fst].
          destruct (N.leb_spec lim (p - base)); [lia|]. unfold dbind at 1. unfold elem. unfold dbind at 1. rewrite E2.
          unfold dbind, dpos. cbn [fst]. destruct (N.ltb_spec lim (p - base)); [lia|]. reflexivity. }
        apply IH in H; try lia. destruct H as (l & -> & -> & H & FA). exists (x :: l).
        cbn [rev List.length repeat d_map]. rewrite <- app_assoc. split; [reflexivity|]. split; [reflexivity|].
        split; [unfold dbind; rewrite E2, H; reflexivity|]. constructor; [|exact FA].
        exists p, bits, p2, bits2. repeat split; try lia. exact E2.
    Qed.
  End Elem.

  Lemma rt_list_ok : forall ok enc (g : byte -> val) c bs, (forall b, exists e, enc (g b) = Some e) ->
    (forall p rem b, ok p rem c (g b) = true) ->
    forall pl rem, rt_list ok enc pl rem (repeat c (List.length bs)) (map g bs) = true.
  Proof.
    intros ok enc g c bs H1 H2. induction bs as [|b bs IH]; intros pl rem; [reflexivity|].
    cbn [List.length repeat map rt_list]. destruct (H1 b) as [e E]. rewrite E, H2, IH. reflexivity.
  Qed.
  Lemma rt_list_u8 : forall f len bs pl rem, f_varint f = false ->
    rt_list (fun p rem => rt_val rname root ctx p rem f 8 len (SUint 8)) (layout_val rname root ctx f 8 len (SUint 8))
      pl rem (repeat (zero (SUint 8)) (List.length bs)) (map (fun b : byte => VUint (b2N b)) bs) = true.
  Proof.
    intros f len bs pl rem V. apply (rt_list_ok _ _ (fun b : byte => VUint (b2N b))).
    - intros b. cbn [layout_val]. rewrite V. unfold uint_fits. change (2 ^ 8) with 256.
      destruct (N.ltb_spec (b2N b) 256) as [|Bad]; [|pose proof (b2N_lt b); lia]. cbn [andb]. eauto.
    - intros q r b. cbn [rt_val]. rewrite V. reflexivity.
  Qed.
  Lemma u8_nonempty : forall f len bs, f_varint f = false ->
    forallb (fun x => match layout_val rname root ctx f 8 len (SUint 8) x with Some (_ :: _) => true | _ => false end)
      (map (fun b : byte => VUint (b2N b)) bs) = true.
  Proof.
    intros f len bs V. induction bs as [|b bs IH]; [reflexivity|]. cbn [map forallb]. rewrite IH, andb_true_r.
    cbn [layout_val]. rewrite V. unfold uint_fits. change (2 ^ 8) with 256.
    destruct (N.ltb_spec (b2N b) 256) as [|Bad]; [|pose proof (b2N_lt b); lia]. cbn [andb]. reflexivity.
  Qed.
  Lemma rt_slice_eq : forall pl rem f size len u cur l,
    rt_val rname root ctx pl rem f size len (SSlice u) cur (VList l) =
        let enc := layout_val rname root ctx f size len u in
        match concat_bits enc l with
        | Some b =>
            (if len =? LengthUnlimited
             then (rem =? 0) && ((size =? 0) || (lenN b mod size =? 0)) &&
                  forallb (fun x => match enc x with Some (_ :: _) => true | _ => false end) l
             else lenN l =? len) &&
            rt_list (fun p rem => rt_val rname root ctx p rem f size len u) enc pl (rem + lenN b)
                    (repeat (zero u) (List.length l)) l
        | None => false
        end.
  Proof. reflexivity. Qed.
  Lemma layout_slice_eq : forall f size len u l,
    layout_val rname root ctx f size len (SSlice u) (VList l) =
        if len =? LengthUnlimited then concat_bits (layout_val rname root ctx f size len u) l
        else if len <=? lenN l then concat_bits (layout_val rname root ctx f size len u) (takeN len l)
        else None.
  Proof. reflexivity. Qed.

  Lemma Forall_repeat : forall (Q : val -> Prop) x n, Q x -> Forall Q (repeat x n).
  Proof. intros Q x n H. induction n; cbn [repeat]; constructor; auto. Qed.

  Lemma g_slice : forall u, GV u -> GV (SSlice u).
  Proof.
    intros u HV vf droot rd lim base f size len zub lok last cur p bits v p' bits' C A B P Z L N0 NC CP S B1 LM B2 VF H.
    pose proof (mono_val k rname versions ctx (SSlice u) NC _ _ _ _ _ _ _ _ _ _ _ _ CP H) as M.
    assert (UE : len = LengthUnlimited -> p' = base + lim).
    { intros HU. apply (slice_end k rname versions ctx u NC rd lim base f size len cur p bits v p' bits' CP B1 LM); auto. }
    rewrite dec_slice_eq in H. unfold dbind in H at 1. unfold dpos in H at 1. cbn [fst] in H. cbv zeta in H.
    cbn [chk_val nodup_val no_cp_val] in C, N0, NC.
    change ((negb (is_u8 u) || lok && negb (f_varint f)) && nostr u &&
                  (match zub with Some z => z =? 0 | None => false end || exact f u) &&
             gl_val rname rootfs zub lok false f u = true) in P.
    apply andb_prop in P. destruct P as [P Pu]. apply andb_prop in P. destruct P as [P Pz].
    apply andb_prop in P. destruct P as [P0 NS].
    destruct ((len =? LengthUnlimited) && negb (size =? 0) && negb (sub64 lim (p - base) mod size =? 0)) eqn:AL;
      [discriminate|].
    change (strs (SSlice u)) with 0. change (nostr (SSlice u)) with (nostr u). change (exact f (SSlice u)) with (exact f u).
    change (hasslice (SSlice u)) with true.
    destruct (((p - base) mod 8 =? 0) && is_u8 u && (size =? 8)) eqn:U8.
    - clear AL. apply andb_prop in U8. destruct U8 as [U8 S8]. apply andb_prop in U8. destruct U8 as [P8 U8].
      rewrite U8 in P0. cbn [negb orb] in P0. apply andb_prop in P0. destruct P0 as [P0 FV]. apply negb_true_iff in FV.
      specialize (L P0). apply N.eqb_eq in S8. apply is_u8_inv in U8. subst u size.
      set (total := w64 _ / 8) in H. unfold dbind, d_has in H.
      match type of H with (if negb ?c then _ else _) _ = _ => destruct c; [cbn [negb] in H|discriminate] end.
      destruct (N.leb_spec maxAlloc total) as [|TM]; [discriminate|].
      destruct (d_bytes total (p, bits)) as [[bs [p1 bits1]]| | |] eqn:E; try discriminate.
      apply d_bytes_inv in E. destruct E as (-> & Lb & ->). unfold dret in H.
      assert (E : v = VList (map (fun b : byte => VUint (b2N b)) bs) /\ p' = p + 8 * total)
        by (now injection H as <- <- <-).
      destruct E as (-> & ->). exists (bits_of_bytes bs). clear H.
      set (vs := map (fun b : byte => VUint (b2N b)) bs).
      assert (Lv : lenN vs = lenN bs) by (unfold vs, lenN; now rewrite map_length).
      assert (T : len <> LengthUnlimited -> lenN vs = len).
      { intros NU. apply N.eqb_neq in NU. rewrite Lv, Lb. unfold total in *. rewrite NU in *.
        unfold len_fine in L. destruct L as [L|L]; [|lia]. clear - L. unfold w64, W64.
        change (2 ^ 61) with 2305843009213693952 in L. lia. }
      rewrite layout_slice_eq, lenN_bits_of_bytes, Lb. split; [|split; [|split; [|split; [|split]]]].
      + destruct (N.eqb_spec len LengthUnlimited) as [HU|HU]; [now apply layout_u8|].
        rewrite (T HU), N.leb_refl, takeN_all by (rewrite (T HU); apply N.le_refl). now apply layout_u8.
      + reflexivity.
      + clear. lia.
      + intros _. split.
        * intros E. assert (X : lenN (bits_of_bytes bs) = 0) by (rewrite E; apply lenN_nil).
          rewrite lenN_bits_of_bytes in X. clear - X Lb. lia.
        * intros E. destruct bs; [reflexivity|]. rewrite lenN_cons in Lb. clear - E Lb. lia.
      + intros _. clear. lia.
      + intros pl rem HR _. rewrite rt_slice_eq. cbv zeta. unfold vs. rewrite (layout_u8 rname ctx root f len bs FV).
        rewrite map_length. rewrite (rt_list_u8 f len bs pl _ FV), andb_true_r. fold vs.
        destruct (N.eqb_spec len LengthUnlimited) as [HU|HU].
        * rewrite HR; auto; [|rewrite (UE HU); apply N.le_refl]. rewrite N.eqb_refl. cbn [andb].
          unfold vs. rewrite (u8_nonempty f len bs FV). rewrite lenN_bits_of_bytes.
          assert (X : (8 * lenN bs) mod 8 = 0) by (clear; lia). rewrite X. reflexivity.
        * rewrite (T HU). apply N.eqb_refl.
    - clear U8 P0. unfold dbind in H at 1.
      match type of H with match ?m with _ => _ end = _ =>
        destruct m as [[xs [p1 bits1]]| | |] eqn:E; try discriminate end.
      unfold dret in H.
      assert (EE : v = VList (rev xs) /\ p' = p1 /\ bits' = bits1) by (now injection H as <- <- <-).
      destruct EE as (-> & -> & ->). clear H.
      change (forallb (varints_fit f u) (rev xs) = true) in VF.
      assert (MAP : exists l, rev xs = l /\
        d_map (dec_val k rname versions ctx rd lim base f size len u) (repeat (zero u) (List.length l)) (p, bits) = Ok (l, (p1, bits1)) /\
        (len <> LengthUnlimited -> lenN l = len) /\
        (len = LengthUnlimited -> Forall (fun x => exists p0 bits0 p1 bits1, base <= p0 /\ p1 <= base + lim /\ p1 <> p0 /\
             dec_val k rname versions ctx rd lim base f size len u (zero u) (p0, bits0) = Ok (x, (p1, bits1))) l)).
      { destruct (N.eqb_spec len LengthUnlimited) as [HU|HU].
        - apply (while_map u rd lim base f size len zub Z NC CP LM) in E; [|exact B1|lia].
          destruct E as (l & -> & _ & E & FA). exists l. rewrite rev_app_distr, rev_involutive. cbn [rev app].
          split; [reflexivity|]. split; [exact E|]. split; [contradiction|]. intros _. exact FA.
        - apply (loop_map u rd lim base f size len) in E. destruct E as (l & -> & Ln & E). exists l.
          rewrite rev_app_distr, rev_involutive. cbn [rev app]. split; [reflexivity|]. rewrite Ln. split; [exact E|].
          split; [|contradiction]. intros _. unfold lenN. rewrite Ln. apply N2Nat.id. }
      destruct MAP as (l & El & E1 & E2 & E3). rewrite El in *. clear El.
      assert (SZ : shaped u (zero u)) by (now apply (proj1 zero_shaped)).
      destruct (g_map u vf droot rd lim base f size len zub lok HV C A B Pu Z L N0 NC CP NS LM
                  (repeat (zero u) (List.length l)) p bits l p1 bits1) as (_ & lb & K1 & K2 & K3 & K4 & K5 & K6); auto.
      { now apply Forall_repeat. }
      exists lb. rewrite layout_slice_eq. split; [|split; [exact K2|split; [lia|split; [auto|split; [exact K5|]]]]].
      + destruct (N.eqb_spec len LengthUnlimited) as [HU|HU]; [exact K1|].
        rewrite (E2 HU), N.leb_refl, takeN_all by (rewrite (E2 HU); apply N.le_refl). exact K1.
      + intros pl rem HR _. rewrite rt_slice_eq. cbv zeta. rewrite K1. rewrite K6 by (intros _; exact (HR eq_refl)).
        rewrite andb_true_r. destruct (N.eqb_spec len LengthUnlimited) as [HU|HU]; [|rewrite (E2 HU); apply N.eqb_refl].
        specialize (UE HU). rewrite (HR eq_refl) by lia. rewrite N.eqb_refl. cbn [andb].
        apply andb_true_intro. split.
        * destruct (N.eqb_spec size 0) as [S0|S0]; [reflexivity|]. cbn [orb].
          assert (X : exact f u = true).
          { apply orb_prop in Pz. destruct Pz as [Pz|Pz]; [|exact Pz]. destruct zub as [z|]; [|discriminate].
            apply N.eqb_eq in Pz. subst z. specialize (Z 0 eq_refl). elim S0. lia. }
          rewrite (K5 X). cbn [negb andb] in AL. apply negb_false_iff in AL. rewrite sub64_sub in AL by lia.
          replace (p1 - p) with (lim - (p - base)) by lia. exact AL.
        * specialize (E3 HU). clear - E3 HV C A B Pu Z L N0 NC CP NS LM SZ VF.
          induction l as [|x l IH]; [reflexivity|]. inversion E3 as [|? ? X1 X2]; subst.
          cbn [forallb] in VF |- *. apply andb_prop in VF. destruct VF as [VF1 VF2]. rewrite (IH VF2 X2), andb_true_r.
          destruct X1 as (p0 & bits0 & p1 & bits1 & Y1 & Y2 & Y3 & Y4).
          destruct (HV vf droot rd lim base f size len zub lok false (zero u) p0 bits0 x p1 bits1)
            as (b1 & L1 & _ & _ & Q3 & _); auto.
          rewrite L1. destruct b1; [|reflexivity]. elim Y3. apply (Q3 NS). reflexivity.
  Qed.

  Lemma g_all : (forall t, GV t) /\ (forall fs, GF fs).
  Proof.
    apply sty_flds_mutind.
    - (* SUint *)
      intros w vf droot rd lim base f size len zub lok last cur p bits v p' bits' C A B P Z L N0 NC CP S B1 LM B2 VF H.
      pose proof (mono_val k rname versions ctx (SUint w) NC _ _ _ _ _ _ _ _ _ _ _ _ CP H) as M.
      cbn [gl_val dec_val strs nostr exact hasslice] in *. apply andb_prop in P. destruct P as [P1 P2].
      apply N.leb_le in P1. destruct zub as [z|]; [|discriminate]. specialize (Z z eq_refl).
      destruct (f_varint f) eqn:FV.
      + apply N.eqb_eq in P2. subst z. assert (S0 : size = 0) by lia. subst size.
        unfold d_uint, dbind in H. destruct (d_uvarint k (p, bits)) as [[n [p1 bits1]]| | |] eqn:E; try discriminate.
        unfold d_uvarint in E. apply uvarint_read in E. unfold dret in H.
        assert (EE : v = VUint (n mod 2 ^ w) /\ p' = p1) by (now injection H as <- <- <-). destruct EE as (-> & ->).
        cbn [varints_fit] in VF. rewrite FV in VF. cbn [negb orb] in VF.
        exists (varint_bits (n mod 2 ^ w)). cbn [layout_val]. rewrite FV. unfold uint_fits.
        assert (X : n mod 2 ^ w <? 2 ^ w = true).
        { apply N.ltb_lt. apply N.mod_lt. apply N.pow_nonzero. discriminate. }
        rewrite X, VF. cbn [N.eqb andb]. change (lenN (varint_bits (n mod 2 ^ w))) with 32.
        split; [reflexivity|]. split; [clear - E; lia|]. split; [clear - E; lia|].
        split; [intros _; split; [discriminate|clear - E; lia]|]. split; [discriminate|].
        intros pl rem _ _. cbn [rt_val]. rewrite FV. reflexivity.
      + apply N.leb_le in P2.
        assert (SN : size <> 0) by (intros ->; discriminate H).
        apply d_uint_inv in H; [|exact P1|lia]. destruct H as (b & -> & -> & Lb & -> & X1 & X2). exists b.
        cbn [layout_val]. rewrite FV. unfold uint_fits. apply N.ltb_lt in X1, X2. rewrite X1, X2. cbn [andb].
        split; [f_equal; rewrite <- Lb; apply uint_bits_of|]. split; [reflexivity|]. split; [clear; lia|].
        split; [intros _; split; [intros ->; rewrite lenN_nil in Lb; lia|lia]|]. split; [intros _; lia|].
        intros pl rem _ _. cbn [rt_val]. destruct (N.leb_spec 1 size); [|lia]. destruct (N.leb_spec size 64); [|lia].
        now rewrite orb_true_r.
    - (* SInt *)
      intros w vf droot rd lim base f size len zub lok last cur p bits v p' bits' C A B P Z L N0 NC CP S B1 LM B2 VF H.
      cbn [gl_val dec_val strs nostr exact hasslice] in *. apply andb_prop in P. destruct P as [P1 P3].
      apply N.leb_le in P1. destruct zub as [z|]; [|discriminate]. apply N.leb_le in P3. specialize (Z z eq_refl).
      unfold d_int in H. destruct (f_varint f) eqn:FV; [discriminate|].
      destruct (N.eqb_spec size 0) as [|S0]; [discriminate|]. unfold dbind in H.
      destruct (d_take size (p, bits)) as [[b [p1 bits1]]| | |] eqn:E; try discriminate.
      apply d_take_inv in E. destruct E as (-> & Lb & ->). unfold dret in H. cbv zeta in H.
      change (match b with
          | true :: _ => (Z.of_N (bits_to_N b) - Z.of_N (2 ^ size))%Z
          | _ => Z.of_N (bits_to_N b) end) with (twos size b) in H.
      destruct (twos_fits b) as [T1 T2]; [congruence|]. rewrite Lb in T1, T2.
      rewrite (toZ_ofZ w size) in H by (auto; lia).
      assert (E : v = VInt (twos size b) /\ p' = p + size) by (now injection H as <- <- <-).
      destruct E as (-> & ->). exists b. clear H. rewrite Lb.
      cbn [layout_val]. rewrite FV, T1. destruct (N.leb_spec size 64); [|lia]. cbn [negb andb].
      split; [unfold int_bits; rewrite T2; f_equal; rewrite <- Lb; apply uint_bits_of|].
      split; [reflexivity|]. split; [clear; lia|].
      split; [intros _; split; [intros ->; rewrite lenN_nil in Lb; lia|lia]|]. split; [intros _; lia|].
      intros pl rem _ _. cbn [rt_val]. destruct (N.leb_spec size w); [|lia]. destruct (N.leb_spec w 64); [|lia]. reflexivity.
    - (* SBool *)
      intros vf droot rd lim base f size len zub lok last cur p bits v p' bits' C A B P Z L N0 NC CP S B1 LM B2 VF H.
      cbn [gl_val dec_val strs nostr exact hasslice] in *. destruct zub as [z|]; [|discriminate]. apply N.leb_le in P.
      specialize (Z z eq_refl).
      unfold d_bool in H. destruct (N.eqb_spec size 0) as [|S0]; [discriminate|]. unfold dbind in H.
      destruct (d_take size (p, bits)) as [[b [p1 bits1]]| | |] eqn:E; try discriminate.
      apply d_take_inv in E. destruct E as (-> & Lb & ->). unfold dret in H.
      match type of H with Ok (?a, _) = _ =>
        assert (E : v = a /\ p' = p + size) by (now injection H as <- <- <-) end.
      destruct E as (-> & ->). clear H. exists b. rewrite Lb.
      assert (S1 : size = 1) by lia. rewrite S1 in *. clear S1. split.
      { cbn [layout_val]. destruct (N.leb_spec 1 8); [|lia].
        destruct b as [|x [|y b]]; rewrite ?lenN_cons, ?lenN_nil in *; try lia.
        cbn [existsb]. rewrite orb_false_r. reflexivity. }
      split; [reflexivity|]. split; [clear; lia|].
      split; [intros _; split; [intros ->; rewrite lenN_nil in Lb; lia|lia]|]. split; [intros _; lia|].
      reflexivity.
    - (* SStr *)
      intros vf droot rd lim base f size len zub lok last cur p bits v p' bits' C A B P Z L N0 NC CP S B1 LM B2 VF H.
      cbn [gl_val dec_val strs nostr exact hasslice] in *. apply andb_prop in P. destruct P as [_ P].
      unfold d_string in H. rewrite CP in H. unfold d_string_c in H. unfold dbind in H at 1.
      match type of H with match ?m with _ => _ end = _ =>
        destruct m as [[s [p1 bits1]]| | |] eqn:E; try discriminate end.
      apply string_read in E. destruct E as (s' & -> & NN & PP). rewrite app_nil_r in H. unfold dret in H.
      assert (E : v = VStr (rev s') /\ p' = p1) by (now injection H as <- <- <-). destruct E as (-> & ->). clear H.
      assert (LR : lenN (rev s') = lenN s') by (unfold lenN; now rewrite rev_length).
      cbn [layout_val]. eexists. split; [reflexivity|].
      assert (LB : lenN (if f_boxString f then bits_of_bytes (rev s') else cstring_bits (rev s')) = 8 * lenN s' \/
                   lenN (if f_boxString f then bits_of_bytes (rev s') else cstring_bits (rev s')) = 8 * lenN s' + 8).
      { destruct (f_boxString f); [left|right]; unfold cstring_bits; rewrite lenN_bits_of_bytes, ?lenN_app, LR; [reflexivity|].
        rewrite lenN_cons, lenN_nil. lia. }
      set (X := lenN _) in *. clearbody X.
      split; [clear - PP LB; lia|]. split; [clear - PP LB; lia|]. split; [discriminate|]. split; [discriminate|].
      intros pl rem _ HL. cbn [rt_val]. rewrite CP, (no_nul_rev _ NN). cbn [negb andb].
      destruct (f_boxString f); [|reflexivity]. cbn [negb orb] in P |- *. rewrite (HL P). reflexivity.
    - (* SArr *)
      intros n u HV vf droot rd lim base f size len zub lok last cur p bits v p' bits' C A B P Z L N0 NC CP S B1 LM B2 VF H.
      change (nostr u && gl_val rname rootfs zub lok false f u = true) in P. apply andb_prop in P. destruct P as [NS P].
      cbn [dec_val chk_val nodup_val no_cp_val] in *. destruct S as (cl & -> & Ln & S).
      unfold dbind in H. destruct (d_map _ cl (p, bits)) as [[xs [p1 bits1]]| | |] eqn:E; try discriminate.
      unfold dret in H.
      assert (EE : v = VList xs /\ p' = p1 /\ bits' = bits1) by (now injection H as <- <- <-).
      destruct EE as (-> & -> & ->). change (forallb (varints_fit f u) xs = true) in VF.
      destruct (g_map u vf droot rd lim base f size len zub lok HV C A B P Z L N0 NC CP NS LM cl p bits xs p1 bits1)
        as (LL & lb & K1 & K2 & K3 & K4 & K5 & K6); auto.
      exists lb. cbn [layout_val]. rewrite LL, Ln, N.eqb_refl. split; [exact K1|]. split; [exact K2|].
      split; [lia|]. split; [auto|]. split; [exact K5|].
      intros pl rem HR _. cbn [rt_val]. cbv zeta. rewrite K1. now apply K6.
    - exact g_slice.
    - (* SPtr *)
      intros u HV vf droot rd lim base f size len zub lok last cur p bits v p' bits' C A B P Z L N0 NC CP S B1 LM B2 VF H.
      cbn [gl_val dec_val chk_val nodup_val no_cp_val strs nostr exact hasslice] in *. unfold dbind in H.
      destruct (dec_val _ _ _ _ _ _ _ _ _ _ _ _ _) as [[x [p1 bits1]]| | |] eqn:E1; try discriminate.
      unfold dret in H.
      assert (EE : v = VPtr (Some x) /\ p' = p1 /\ bits' = bits1) by (now injection H as <- <- <-).
      destruct EE as (-> & -> & ->). cbn [layout_val rt_val]. change (varints_fit f u x = true) in VF.
      apply (HV vf droot rd lim base f size len zub lok last (zero u) p bits x p1 bits1); auto.
      now apply (proj1 zero_shaped).
    - (* SStruct *)
      intros name cfo fs HF vf droot rd lim base f size len zub lok last cur p bits v p' bits' C A B P Z L N0 NC CP S B1 LM B2 VF H.
      change (match chk_flds rname v0 None vf droot cfo name [] fs with
              | Some D => all_in (names_of fs) D | None => false end = true) in C.
      change (match zub with Some z => z =? 0 | None => false end && gl_flds rname rootfs last name cfo fs fs = true) in P.
      apply andb_prop in P. destruct P as [P0 P]. destruct zub as [z|]; [|discriminate]. apply N.eqb_eq in P0. subst z.
      specialize (Z 0 eq_refl). assert (S0 : size = 0) by lia. subst size. clear Z.
      change (nodup_names (names_of fs) && nodup_flds fs = true) in N0. apply andb_prop in N0. destruct N0 as [N1 N2].
      change (no_cp_flds fs = true) in NC.
      destruct (chk_flds _ _ _ _ _ _ _ _ _) as [Dend|] eqn:CE; [|discriminate].
      destruct S as (l & -> & Kl & Sl & Bl).
      rewrite dec_val_struct in H. cbn [N.eqb negb andb] in H. unfold dbind in H.
      destruct (dec_flds _ _ _ _ _ _ _ _ _ _ _ _) as [[x [p1 bits1]]| | |] eqn:E; try discriminate.
      unfold dret in H.
      assert (EE : v = VStruct x /\ p' = p1 /\ bits' = bits1) by (now injection H as <- <- <-).
      destruct EE as (-> & -> & ->). change (varints_fit_flds fs x = true) in VF.
      destruct (gl_frame _ _ _ _ _ _ _ _ _ _ _ _ _ _ _ _ _ P E) as [Kx _].
      destruct (HF None vf droot cfo name fs last [] Dend (Some rd) None lim base l x l p bits p1 bits1)
        as (lb & K1 & K2 & K3 & K4 & K5 & K6); auto.
      { eauto. }
      exists lb. split; [exact K1|]. split; [exact K2|]. split; [exact K3|]. split; [exact K4|]. split; [exact K5|].
      intros pl rem HR HL. rewrite rt_val_struct. rewrite Kx, Kl, strs_eqb_refl, K1. cbn [N.eqb negb andb]. now apply K6.
    - (* FNil *)
      intros top vf droot cfo sname all last D Dend rt ltop lim base selfd self cur p bits p' bits'
             C T HD P N0 NC S B HB HC B1 LM B2 VF H.
      assert (E : p' = p /\ bits' = bits) by (now injection H as <- <- <-).
      destruct E as (-> & ->). exists []. rewrite lenN_nil, N.add_0_r. repeat split; intros; lia.
    - (* FCons *)
      intros f t HV rest HF top vf droot cfo sname all last D Dend rt ltop lim base selfd self cur p bits p' bits'
             C T HD P N0 NC S B HB HC B1 LM B2 VF H.
      pose proof (mono_flds k rname versions ctx (FCons f t rest) NC _ _ _ _ _ _ _ _ _ _ _ H) as M.
      destruct (gl_frame _ _ _ _ _ _ _ _ _ _ _ _ _ _ _ _ _ P H) as [Ks FR].
      destruct (gl_hook _ _ _ _ _ _ _ _ _ P) as [HK PR].
      rewrite chk_flds_cons in C. cbv zeta in C.
      match type of C with (if ?c then _ else _) = _ => destruct c eqn:CC; [|discriminate] end.
      apply andb_prop in CC. destruct CC as [CC C6]. apply andb_prop in CC. destruct CC as [CC C5].
      apply andb_prop in CC. destruct CC as [CC C4]. apply andb_prop in CC. destruct CC as [CC C3].
      apply andb_prop in CC. destruct CC as [C1 C2].
      apply negb_true_iff in C3, C4.
      assert (N4 : ~ In (f_name f) (names_of rest)) by (rewrite <- str_in_In; congruence).
      clear C3 C4.
      assert (HDx : forall j, In j D -> lookup j selfd = lookup j self).
      { intros j Hj. symmetry. apply FR. auto. }
      set (vfc := vf_at top vf D) in *. set (drc := dr_at top droot D) in *.
      set (rootd := box_of rt selfd).
      assert (A0 : agree_root root vfc drc rootd /\ bounded rootfs rootd).
      { destruct top as [hf|].
        - destruct T as (-> & -> & T & ->). unfold rootd. cbn [box_of]. split; [|exact B]. split; [|exact HDx]. intros Hv.
          unfold vfc, vf_at in Hv.
          assert (X : lookup "FullBox" selfd = lookup "FullBox" root).
          { apply orb_prop in Hv. destruct Hv as [Hv|Hv].
            - apply HDx. now apply str_in_In.
            - apply negb_true_iff in Hv. specialize (T Hv).
              rewrite (lookup_None "FullBox" root) by auto. apply lookup_None. now rewrite <- Ks. }
          unfold get_version, get_flags, fullbox_of. rewrite X. auto.
        - destruct T as (rd & -> & T & T2). exact (conj T T2). }
      destruct A0 as [A0 B0].
      rewrite dec_flds_cons in H. cbv zeta in H. fold rootd in H.
      rewrite layout_flds_cons.
      set (envd := if cfo then mkenv selfd (get_version rootd) (get_flags rootd) ctx
                   else mkenv rootd (get_version rootd) (get_flags rootd) ctx) in *.
      set (cn := if cfo then sname else rname) in *.
      destruct (owner rname root ctx cfo sname self) as [cn' env] eqn:OW.
      assert (Ecn : cn' = cn /\ env = (if cfo then spec_env root ctx self else spec_env root ctx root)).
      { unfold owner in OW. unfold cn. destruct cfo; injection OW as <- <-; auto. }
      destruct Ecn as [-> Eenv].
      assert (AE : agree_env (fdeps cn f) (fver cn f) envd env).
      { subst env envd. destruct A0 as [A1 A2].
        assert (HVV : fver cn f = true -> get_version rootd = get_version root /\ get_flags rootd = get_flags root).
        { intros Fv. rewrite Fv in C2. apply A1. now rewrite orb_false_r in C2. }
        destruct cfo; (split; [|split; [exact HVV|reflexivity]]); cbn [e_self spec_env]; intros j Hj;
          [apply HDx|apply A2]; eapply all_in_In; eauto. }
      destruct (fdeps_agree cn f envd env AE) as (ES & EL & ET).
      assert (ET' : is_target (get_version rootd) (get_flags rootd) cn envd f =
                    enabled (get_version root) (get_flags root) cn env f).
      { rewrite <- is_target_enabled. destruct cfo; subst env envd; exact ET. }
      assert (RT' : forall pl rem, rt_flds rname root ctx ltop pl rem sname cfo self cur (FCons f t rest) =
        match resolve_size cn envd f, resolve_len cn envd f, lookup (f_name f) self, lookup (f_name f) cur with
        | Some size, Some len, Some x, Some c =>
            match (if is_target (get_version rootd) (get_flags rootd) cn envd f
                   then layout_val rname root ctx f size len t x else Some []) with
            | Some b =>
                ((if is_target (get_version rootd) (get_flags rootd) cn envd f
                  then rt_val rname root ctx pl (rem - lenN b) f size len t c x
                  else val_eqb x c) &&
                 rt_flds rname root ctx (option_map (fun n => n + lenN b) ltop) (pl + lenN b) (rem - lenN b) sname cfo
                   self cur rest)%bool
            | None => false
            end
        | _, _, _, _ => false
        end).
      { intros pl rem. rewrite rt_flds_cons, OW. rewrite ES, EL, ET'. cbv zeta. unfold field_bits. rewrite HK. reflexivity. }
      rewrite <- ES, <- EL. unfold field_bits. rewrite HK, <- ET'. clear ET ET' ES EL AE.
      assert (ZB : forall zz m, (if f_sizeDyn f then ub (if cfo then all else rootfs) (m_size cn (f_name f))
                    else Some (f_size f)) = Some zz -> resolve_size cn envd f = Some m -> m <= zz).
      { intros zz m Hz Hm. unfold resolve_size in Hm. destruct (f_sizeDyn f).
        - unfold envd in Hm. destruct cfo; eapply ub_ok; try exact Hm; try exact Hz; assumption.
        - assert (f_size f = zz) by congruence. assert (f_size f = m) by congruence. lia. }
      assert (LB : forall m, (if f_lenDyn f then len_ok (if cfo then all else rootfs) (m_len cn (f_name f))
                    else f_length f <? 2 ^ 61) = true -> resolve_len cn envd f = Some m -> len_fine m).
      { intros m Hz Hm. unfold resolve_len in Hm. destruct (f_lenDyn f).
        - unfold envd in Hm. destruct cfo; eapply len_ok_fine; try exact Hm; try exact Hz; assumption.
        - assert (f_length f = m) by congruence. subst m. left. now apply N.ltb_lt. }
      destruct (resolve_size cn envd f) as [size|] eqn:RS; [|discriminate].
      destruct (resolve_len cn envd f) as [len|] eqn:RL; [|discriminate].
      cbn [obind].
      change (nodup_val t && nodup_flds rest = true) in N0. apply andb_prop in N0. destruct N0 as [N1 N2].
      change (negb (f_cp f) && no_cp_val t && no_cp_flds rest = true) in NC.
      apply andb_prop in NC. destruct NC as [NC NCr]. apply andb_prop in NC. destruct NC as [CP NCt].
      apply negb_true_iff in CP.
      change (match lookup (f_name f) self with Some v => varints_fit f t v | None => true end &&
              varints_fit_flds rest self = true) in VF.
      apply andb_prop in VF. destruct VF as [VFt VFr].
      change (strs_flds (FCons f t rest)) with (strs t + strs_flds rest).
      change (nostr_flds (FCons f t rest)) with (nostr t && nostr_flds rest).
      change (exact_flds (FCons f t rest)) with (exact f t && exact_flds rest).
      change (hasslice_flds (FCons f t rest)) with (hasslice t || hasslice_flds rest).
      destruct S as [(c & Lc & Sc) Sr].
      assert (Lcur : lookup (f_name f) cur = Some c) by (rewrite <- HC; [exact Lc|now left]).
      rewrite Lcur in RT'.
      assert (HNx : forall s2, (forall j, j <> f_name f -> lookup j s2 = lookup j selfd) -> shaped_in rest s2).
      { intros s2 H2. apply (shaped_in_ext rest selfd); auto. intros j Hj. apply H2. intros ->. contradiction. }
      assert (HBr : forall j, In j (names_of rest) -> bound_of all j = bound_of rest j /\ sbound_of all j = sbound_of rest j).
      { intros j Hj. destruct (HB j) as [Q1 Q2]; [now right|]. rewrite Q1, Q2. cbn [bound_of sbound_of].
        destruct (String.eqb_spec j (f_name f)) as [->|]; [contradiction|]. auto. }
      assert (HBf : bound_of all (f_name f) = field_bound f t /\ sbound_of all (f_name f) =
                    match t with SInt w => (1 <=? w) && (w <=? 32) | _ => false end).
      { destruct (HB (f_name f)) as [Q1 Q2]; [now left|]. rewrite Q1, Q2. cbn [bound_of sbound_of].
        rewrite String.eqb_refl. auto. }
      (* what follows *)
      assert (CONT : forall lt s2 p1 bits1, base <= p1 ->
        chk_flds rname v0 top vf droot cfo sname (f_name f :: D) rest = Some Dend ->
        (forall j, j <> f_name f -> lookup j s2 = lookup j selfd) -> bounded all s2 ->
        dec_flds k rname versions ctx rt lim base sname cfo s2 rest (p1, bits1) = Ok (self, (p', bits')) ->
        p1 <= p' /\ lookup (f_name f) self = lookup (f_name f) s2 /\
        exists lb, layout_flds rname root ctx lt sname cfo self rest = Some lb /\
          (p1 + lenN lb) mod 8 = p' mod 8 /\ lenN lb <= 4 * (p' - p1) + 8 * strs_flds rest /\
          (nostr_flds rest = true -> (lb = [] <-> p' = p1)) /\ (exact_flds rest = true -> lenN lb = p' - p1) /\
          forall pl rem, (hasslice_flds rest = true -> base + lim <= p' -> rem = 0) -> (last = true -> rem = 0) ->
            rt_flds rname root ctx lt pl (rem + lenN lb) sname cfo self cur rest = true).
      { intros lt s2 p1 bits1 B3 Cr H2 B4 Hd.
        split; [exact (mono_flds k rname versions ctx rest NCr _ _ _ _ _ _ _ _ _ _ _ Hd)|]. split.
        { apply (gl_frame _ _ _ _ _ _ _ _ _ _ _ _ _ _ _ _ _ PR Hd). exact N4. }
        apply (HF top vf droot cfo sname all last (f_name f :: D) Dend rt lt lim base s2 self cur p1 bits1 p' bits'); auto.
        - intros j [<-|Hj]; [exact N4|]. intros I. apply (HD j Hj). now right.
        - intros j Hj. rewrite H2; [apply HC; now right|]. intros ->. contradiction. }
      unfold dbind in H at 1.
      rewrite HK in C.
      destruct (is_target (get_version rootd) (get_flags rootd) cn envd f).
      2:{ (* absent *)
        unfold dret in H at 1.
        destruct (CONT (option_map (fun n => n + lenN (@nil bool)) ltop) selfd p bits) as (M1 & Lf & lb & K1 & K2 & K3 & K4 & K5 & K6); auto.
        exists lb. cbn [obind]. rewrite K1. cbn [obind app]. split; [reflexivity|]. split; [exact K2|].
        split; [lia|]. split; [intros E; apply andb_prop in E; now apply K4|].
        split; [intros E; apply andb_prop in E; now apply K5|].
        intros pl rem HR HL. rewrite RT'. rewrite Lf, Lc. rewrite val_eqb_refl. cbn [andb].
        rewrite lenN_nil, N.sub_0_r, N.add_0_r. rewrite lenN_nil in K6. apply K6; [|exact HL].
        intros E. apply HR. rewrite E. apply orb_true_r. }
      unfold dbind in H at 1. unfold dpos in H at 1. unfold dbind in H at 1.
      rewrite HK in H; cbn [d_hook] in H; unfold dret in H at 1.
      rewrite Lc in H. unfold dbind in H at 1. fold rootd in H.
      destruct (dec_val k rname versions ctx rootd lim base f size len t c (p, bits)) as [[x [p1 bits1]]| | |] eqn:E1;
        try discriminate.
      destruct (is_fullbox t && _); [discriminate|]. unfold dret in H.
      pose proof (mono_val k rname versions ctx t NCt _ _ _ _ _ _ _ _ _ _ _ _ CP E1) as M1.
      rewrite gl_flds_cons in P. cbv zeta in P. fold cn in P. rewrite HK in P. apply andb_prop in P. destruct P as [P _].
      apply andb_prop in P. destruct P as [P PS].
      assert (LU : lookup (f_name f) (update (f_name f) x selfd) = Some x).
      { apply lookup_update_same. rewrite Lc. discriminate. }
      destruct (dec_val_bound _ _ _ _ _ _ _ _ _ _ _ _ _ _ _ _ _ RS E1) as [X1 X2].
      assert (CN : forall lt, p1 <= p' /\ lookup (f_name f) self = Some x /\
        exists lb, layout_flds rname root ctx lt sname cfo self rest = Some lb /\
          (p1 + lenN lb) mod 8 = p' mod 8 /\ lenN lb <= 4 * (p' - p1) + 8 * strs_flds rest /\
          (nostr_flds rest = true -> (lb = [] <-> p' = p1)) /\ (exact_flds rest = true -> lenN lb = p' - p1) /\
          forall pl rem, (hasslice_flds rest = true -> base + lim <= p' -> rem = 0) -> (last = true -> rem = 0) ->
            rt_flds rname root ctx lt pl (rem + lenN lb) sname cfo self cur rest = true).
      { intros lt. rewrite <- LU. apply (CONT lt (update (f_name f) x selfd) p1 bits1); auto; try lia.
        - intros j Hj. now apply lookup_update_other.
        - destruct HBf as [Q1 Q2]. split.
          + intros j n Hj. destruct (string_dec j (f_name f)) as [->|Nj].
            * rewrite LU. rewrite Q1 in Hj. now apply X1.
            * rewrite lookup_update_other by auto. now apply (proj1 B).
          + intros j Hj. destruct (string_dec j (f_name f)) as [->|Nj].
            * rewrite LU. rewrite Q2 in Hj. now apply X2.
            * rewrite lookup_update_other by auto. now apply (proj2 B). }
      destruct (CN None) as (M2 & Lf & _).
      rewrite Lf in VFt.
      destruct (HV vfc drc rootd lim base f size len _ _ _ c p bits x p1 bits1 C6 A0 B0 P
                  (fun z Hz => ZB z size Hz eq_refl) (fun Hl => LB len Hl eq_refl) N1 NCt CP Sc B1 LM ltac:(lia) VFt E1)
        as (b1 & L1 & J2 & J3 & J4 & J5 & J6).
      destruct (CN (option_map (fun n => n + lenN b1) ltop)) as (_ & _ & lb & K1 & K2 & K3 & K4 & K5 & K6).
      exists (b1 ++ lb). rewrite Lf. cbn [obind]. rewrite L1. cbn [obind]. rewrite K1. cbn [obind]. rewrite lenN_app.
      split; [reflexivity|]. split; [clear - J2 K2 M1 M2; lia|]. split; [lia|]. split; [|split].
      + intros E. apply andb_prop in E. destruct E as [Ea Eb]. specialize (J4 Ea). specialize (K4 Eb). split.
        * intros E. apply app_eq_nil in E. destruct E as [-> ->]. destruct J4 as [J4 _], K4 as [K4 _].
          rewrite (K4 eq_refl). now apply J4.
        * intros E. assert (p1 = p) by lia. destruct J4 as [_ J4], K4 as [_ K4]. rewrite J4, K4 by lia. reflexivity.
      + intros E. apply andb_prop in E. destruct E as [Ea Eb]. rewrite (J5 Ea), (K5 Eb). lia.
      + intros pl rem HR HL. rewrite RT', Lf, L1.
        replace (rem + (lenN b1 + lenN lb) - lenN b1) with (rem + lenN lb) by lia.
        apply andb_true_intro. split.
        * apply J6.
          -- intros Hs HE. assert (p1 = p') by lia. rewrite Hs in PS. cbn [negb orb] in PS.
             destruct (K4 PS) as [_ K4']. rewrite K4', lenN_nil by auto. rewrite HR; [reflexivity|now rewrite Hs|lia].
          -- intros E. apply andb_prop in E. destruct E as [E1' E2']. destruct rest; [|discriminate].
             cbn in K1. assert (lb = []) by congruence. subst lb. rewrite lenN_nil, (HL E1'). reflexivity.
        * apply K6; [|exact HL]. intros Hs. apply HR. rewrite Hs. apply orb_true_r.
  Qed.

End GL.
