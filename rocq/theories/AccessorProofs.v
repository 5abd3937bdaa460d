(** Lemmas for C46. *)
From Verif Require Import Base BaseProofs BitIO Schema Structs Methods Registry Marshal Unmarshal Decode.
From Verif Require Import SpecCodec SpecLossless PropMarshal BitIOProofs UnmarshalProofs VersionFacts Causal
     MarshalProofs MarshalCount Shape Lossless PropUnmarshal RoundTripBase RoundTripProofs PropLookup LocateFacts Accessors SpecAccessors.
Local Open Scope string_scope.
Local Open Scope list_scope.
Local Open Scope N_scope.
Ltac Zify.zify_post_hook ::= Z.to_euclidean_division_equations.

(** the bits that were consumed are the layout of the value *)
Lemma decoded_bits : forall data t size ctx pos d x n pos',
  pos <= lenN data -> lenN data < 2 ^ 62 -> plain_box d = true ->
  unmarshal_any std_registry data t size ctx pos = (Ok (d, x, n), pos') ->
  layout (bd_name d) (bd_flds d) ctx x = Some (bits_of_bytes (takeN n (skipN pos data))) /\
  lenN (takeN n (skipN pos data)) = n.
Proof.
  intros data t size ctx pos d x n pos' Hp Hd PB H.
  pose proof (unmarshal_any_def _ _ _ _ _ _ _ _ _ H) as G.
  pose proof (unmarshal_any_decode t ctx d data size pos G Hp Hd) as U. cbv zeta in U.
  rewrite H in U. destruct U as (_ & U & _ & L).
  pose proof (all_defs_check _ _ _ _ _ eq_refl std_causal G) as HC. cbv beta in HC.
  pose proof (all_defs_check _ _ _ _ _ eq_refl std_nodup G) as HN. cbv beta in HN.
  pose proof (all_defs_check _ _ _ _ _ eq_refl std_plain G) as HP. cbv beta in HP.
  pose proof (all_defs_check _ _ _ _ _ eq_refl std_start G) as HS. cbv beta in HS.
  destruct (start_shaped d HN) as (S1 & S2 & S3).
  { apply orb_prop in HS. destruct HS as [HS|HS]; [now left|right].
    destruct (fullbox_of _); [discriminate|reflexivity]. }
  destruct (decode_lossless _ _ _ _ _ _ _ HC HN HP S1 S2 S3 PB U) as (b & r & E1 & E2 & E3).
  assert (Q : bits_of_bytes (takeN n (skipN pos data)) = b).
  { rewrite <- takeN_bits_of_bytes, E1, <- E2. now rewrite takeN_app_exact. }
  rewrite Q. split; [exact E3|].
  apply (f_equal lenN) in Q. rewrite lenN_bits_of_bytes, E2 in Q. lia.
Qed.

(** ** The definition of a type that is registered for every context *)
Definition always (t : btype) (p : boxdef -> bool) : bool :=
  existsb (fun x => bt_eqb t (fst x) && match bd_pred (snd x) with PAlways => true | _ => false end) std_registry &&
  forallb (fun x => implb (bt_eqb t (fst x)) (p (snd x))) std_registry.
Lemma find_def_last : forall t c l d0, In (t, d0) l -> pred_holds (bd_pred d0) c = true ->
  find_def t c l <> None.
Proof.
  intros t c l. induction l as [|[t' e] l IH]; intros d0 I P; [destruct I|]. cbn [find_def].
  destruct (bt_eqb t t' && pred_holds (bd_pred e) c) eqn:E; [discriminate|].
  destruct I as [I|I]; [|eauto]. injection I as -> ->. rewrite P in E.
  assert (X : bt_eqb t t = true) by now apply bt_eqb_iff. rewrite X in E. discriminate.
Qed.
Lemma find_def_in : forall t c l d, find_def t c l = Some d -> In (t, d) l.
Proof.
  intros t c l. induction l as [|[t' e] l IH]; intros d F; [discriminate|].
  cbn [find_def] in F. destruct (bt_eqb t t' && _) eqn:E; [|right; auto].
  injection F as ->. apply andb_prop in E. destruct E as [E _]. apply bt_eqb_iff in E. subst. now left.
Qed.
Lemma always_ok : forall t p ctx d, always t p = true -> get_box_def std_registry t ctx = Some d -> p d = true.
Proof.
  intros t p ctx d A G. unfold always in A. apply andb_prop in A. destruct A as [A1 A2].
  apply existsb_exists in A1. destruct A1 as ([t0 d0] & I0 & A1). cbn [fst snd] in A1.
  apply andb_prop in A1. destruct A1 as [T0 P0]. apply bt_eqb_iff in T0. subst t0.
  rewrite forallb_forall in A2. unfold get_box_def in G.
  destruct (find_def t ctx (rev std_registry)) as [d'|] eqn:F.
  - injection G as ->. apply find_def_in in F. apply in_rev in F. specialize (A2 _ F). cbn [fst snd] in A2.
    assert (X : bt_eqb t t = true) by now apply bt_eqb_iff. now rewrite X in A2.
  - exfalso. revert F. apply (find_def_last t ctx _ d0); [now apply -> in_rev|].
    destruct (bd_pred d0); try discriminate. reflexivity.
Qed.

(** ** Numbers at byte positions *)
Lemma mid_bits : forall (p : list byte) b1 bk b2 off w,
  bits_of_bytes p = b1 ++ bk ++ b2 -> lenN b1 = 8 * off -> lenN bk = 8 * w ->
  bits_of_bytes (takeN w (skipN off p)) = bk.
Proof.
  intros p b1 bk b2 off w E L1 L2. rewrite <- takeN_bits_of_bytes, <- skipN_bits_of_bytes, E.
  rewrite skipN_app_exact, takeN_app_exact by auto. reflexivity.
Qed.
Lemma number_bits : forall p off w bk, bits_of_bytes (takeN w (skipN off p)) = bk -> number_at p off w = bits_to_N bk.
Proof. intros p off w bk <-. unfold number_at. now rewrite be_to_N_bits. Qed.
Lemma uint_val : forall rn root ctx f s len w v bk, f_varint f = false ->
  layout_val rn root ctx f s len (SUint w) v = Some bk -> bits_to_N bk = as_uint (Some v) /\ lenN bk = s /\ as_uint (Some v) < 2 ^ s.
Proof.
  intros rn root ctx f s len w v bk F L. cbn in L. destruct v; try discriminate. rewrite F in L.
  destruct (uint_fits w n && uint_fits s n) eqn:U; [|discriminate]. injection L as <-.
  apply andb_prop in U. destruct U as [_ U]. unfold uint_fits in U. apply N.ltb_lt in U.
  rewrite bits_to_uint_bits. cbn [as_uint]. split; [now apply N.mod_small|]. split; [|exact U].
  unfold uint_bits. now rewrite lenN_N_to_bits, N2Nat.id.
Qed.
Lemma toZ_ofZ : forall s z, int_fits s z = true -> toZ s (ofZ s z) = z /\ ofZ s z < 2 ^ s.
Proof.
  intros s z H. unfold int_fits in H. apply andb_prop in H. destruct H as [H H3]. apply andb_prop in H.
  destruct H as [H1 H2]. apply N.leb_le in H1. apply Z.leb_le in H2. apply Z.ltb_lt in H3.
  unfold toZ, ofZ. assert (P : 2 ^ s = 2 * 2 ^ (s - 1)).
  { replace s with (N.succ (s - 1)) at 1 by lia. now rewrite N.pow_succ_r'. }
  assert (0 < 2 ^ (s - 1)) by (apply N.neq_0_lt_0, N.pow_nonzero; discriminate).
  rewrite P. set (h := 2 ^ (s - 1)) in *.
  assert (M : Z.to_N (z mod Z.of_N (2 * h)) < 2 * h).
  { pose proof (Z.mod_pos_bound z (Z.of_N (2 * h)) ltac:(lia)). lia. }
  split; [|exact M]. rewrite (N.mod_small _ _ M).
  destruct (Z_lt_le_dec z 0) as [Ng|Ps].
  - assert (Q : (z mod Z.of_N (2 * h) = z + Z.of_N (2 * h))%Z).
    { symmetry. apply (Z.mod_unique_pos _ _ (-1)); lia. }
    rewrite Q. destruct (N.ltb_spec (Z.to_N (z + Z.of_N (2 * h))) h); lia.
  - assert (Q : (z mod Z.of_N (2 * h) = z)%Z) by (apply Z.mod_small; lia).
    rewrite Q. destruct (N.ltb_spec (Z.to_N z) h); lia.
Qed.
Lemma int_val : forall rn root ctx f s len w v bk,
  layout_val rn root ctx f s len (SInt w) v = Some bk ->
  toZ s (bits_to_N bk) = as_Z (Some v) /\ lenN bk = s /\ bits_to_N bk = ofZ s (as_Z (Some v)) /\
  int_fits s (as_Z (Some v)) = true.
Proof.
  intros rn root ctx f s len w v bk L. cbn in L. destruct v; try discriminate.
  destruct (negb (f_varint f) && _ && int_fits s z) eqn:U; [|discriminate]. injection L as <-.
  apply andb_prop in U. destruct U as [_ U]. destruct (toZ_ofZ s z U) as [T1 T2].
  unfold int_bits. change (N_to_bits (N.to_nat s) (ofZ s z)) with (uint_bits s (ofZ s z)).
  rewrite bits_to_uint_bits. cbn [as_Z]. rewrite (N.mod_small _ _ T2). repeat split; auto.
  unfold uint_bits. now rewrite lenN_N_to_bits, N2Nat.id.
Qed.

(** ** Fields of the box itself *)
Lemma layout_top : forall name fs ctx v, layout name fs ctx v = layout_flds name v ctx (Some 0) name false v fs.
Proof.
  intros name fs ctx v. unfold layout. generalize (Some 0). induction fs as [|f t r IH]; intros top; [reflexivity|].
  rewrite !layout_cons. cbn [owner].
  destruct (resolve_size _ _ _) as [s|]; [|reflexivity]. cbn [obind].
  destruct (resolve_len _ _ _) as [l|]; [|reflexivity]. cbn [obind].
  destruct (field_bits _ _ _ _ _ _ _ _ _) as [b|]; [|reflexivity]. cbn [obind]. now rewrite IH.
Qed.
Definition at_place (has : N -> bool) (ver : N) (sgn : bool) (name : string) (p : N * N) (d : boxdef) : bool :=
  match locate (bd_name d) ver has (fun _ => None) (bd_name d) false name (bd_flds d) with
  | Some (o, s, f, t) =>
      (o =? 8 * fst p) && (s =? 8 * snd p) && negb (f_varint f) &&
      match t with SUint _ => negb sgn | SInt _ => sgn | _ => false end
  | None => false
  end.
Definition flag_test (x : fields) (m : N) : bool := negb (N.land (get_flags x) m =? 0).

Lemma at_place_ok : forall ctx d x (p : list byte) sgn name o w,
  layout (bd_name d) (bd_flds d) ctx x = Some (bits_of_bytes p) ->
  at_place (flag_test x) (get_version x) sgn name (o, w) d = true ->
  lenN (takeN w (skipN o p)) = w /\
  if sgn then signed_at p o w = as_Z (lookup name x) /\ int_fits (8 * w) (as_Z (lookup name x)) = true
  else number_at p o w = as_uint (lookup name x) /\ as_uint (lookup name x) < 2 ^ (8 * w).
Proof.
  intros ctx d x p sgn name o w L C. unfold at_place in C.
  destruct (locate _ _ _ _ _ _ _ _) as [[[[o' s] f] t]|] eqn:E; [|discriminate]. cbn [fst snd] in C.
  apply andb_prop in C. destruct C as [C C4]. apply andb_prop in C. destruct C as [C C3].
  apply andb_prop in C. destruct C as [C1 C2]. apply N.eqb_eq in C1. apply N.eqb_eq in C2. apply negb_true_iff in C3. subst.
  rewrite layout_top in L.
  destruct (locate_ok (bd_name d) x ctx (fun _ => None) ltac:(discriminate) _ _ (bd_name d) false x _ _ _ _ _ _ E L)
    as (b1 & bk & b2 & v & len & EB & L1 & LV & _ & LB).
  destruct t; try discriminate; destruct sgn; try discriminate; rewrite LV.
  - destruct (uint_val _ _ _ _ _ _ _ _ _ C3 LB) as (U1 & U2 & U3).
    pose proof (mid_bits _ _ _ _ _ _ EB L1 U2) as M. split; [|split; [|exact U3]].
    + apply (f_equal lenN) in M. rewrite lenN_bits_of_bytes in M. lia.
    + rewrite (number_bits _ _ _ _ M). exact U1.
  - destruct (int_val _ _ _ _ _ _ _ _ _ LB) as (U1 & U2 & U3 & U4).
    pose proof (mid_bits _ _ _ _ _ _ EB L1 U2) as M. split; [|split; [|exact U4]].
    + apply (f_equal lenN) in M. rewrite lenN_bits_of_bytes in M. lia.
    + unfold signed_at. rewrite (number_bits _ _ _ _ M). exact U1.
Qed.

(** a plain full box with the versions 0 and 1 *)
Definition two_versions (d : boxdef) : bool :=
  plain_box d && full_box d && negb (String.eqb (bd_name d) "Meta") &&
  match bd_versions d with [a; b] => (a =? 0) && (b =? 1) | _ => false end.
Lemma decoded_two : forall data t size ctx pos d x n pos' p,
  pos <= lenN data -> lenN data < 2 ^ 62 ->
  unmarshal_any std_registry data t size ctx pos = (Ok (d, x, n), pos') ->
  always t (fun d => two_versions d && p d) = true ->
  p d = true /\ two_versions d = true /\
  layout (bd_name d) (bd_flds d) ctx x = Some (bits_of_bytes (takeN n (skipN pos data))) /\
  (get_version x = 0 \/ get_version x = 1) /\
  exists ver, nthN pos data = Some ver /\ get_version x = b2N ver.
Proof.
  intros data t size ctx pos d x n pos' p Hp Hd H A.
  pose proof (unmarshal_any_def _ _ _ _ _ _ _ _ _ H) as G.
  pose proof (always_ok _ _ _ _ A G) as C. cbv beta in C. apply andb_prop in C. destruct C as [T P].
  split; [exact P|]. split; [exact T|]. unfold two_versions in T.
  apply andb_prop in T. destruct T as [T T4]. apply andb_prop in T. destruct T as [T T3].
  apply andb_prop in T. destruct T as [T1 T2].
  split; [exact (proj1 (decoded_bits _ _ _ _ _ _ _ _ _ Hp Hd T1 H))|].
  destruct (C11_never_succeeds_unsupported _ _ _ _ _ _ _ _ _ Hp Hd H T2) as [V B].
  { intros E. rewrite E in T3. discriminate. }
  split; [|exact B].
  assert (Q : bd_versions d = [0; 1]).
  { destruct (bd_versions d) as [|a [|b [|? ?]]]; try discriminate T4.
    apply andb_prop in T4. destruct T4 as [Q1 Q2]. apply N.eqb_eq in Q1. apply N.eqb_eq in Q2. now subst. }
  rewrite Q in V. destruct V as [V|[V|[V|[]]]]; [discriminate|left|right]; auto.
Qed.

(** ** Numbers in the entries of a list *)
Definition entry_place (rn : string) (ver : N) (has : N -> bool) (dyn : string -> option N) (lname name : string) (fs : flds)
  : option (N * N * N * N * bool) :=
  match locate rn ver has dyn rn false lname fs with
  | Some (base, _, f, SSlice (SStruct _ false es)) =>
      if f_lenDyn f && String.eqb (f_name f) lname then
        match fsize rn ver has dyn rn false es, locate rn ver has dyn rn false name es with
        | Some e, Some (o, w, f', t) =>
            if f_varint f' then None
            else match t with
                 | SUint _ => Some (base, e, o, w, false)
                 | SInt _ => Some (base, e, o, w, true)
                 | _ => None
                 end
        | _, _ => None
        end
      else None
  | _ => None
  end.
Section HasExt.
  Variable (rn : string) (ver : N) (has has' : N -> bool) (dyn : string -> option N).
  Hypothesis HE : forall m, has m = has' m.
  Lemma allowed_ext : forall f, allowed ver has f = allowed ver has' f.
  Proof. intros f. unfold allowed. now rewrite !HE. Qed.
  Lemma size_ext : (forall t f s, vsize rn ver has dyn f s t = vsize rn ver has' dyn f s t) /\
    (forall fs cn cfo, fsize rn ver has dyn cn cfo fs = fsize rn ver has' dyn cn cfo fs).
  Proof.
    apply sty_flds_ind2; intros; try reflexivity.
    - cbn [vsize]. now rewrite H.
    - cbn [vsize]. apply H.
    - rewrite !fsize_cons, allowed_ext, H0. destruct (size_here dyn cfo f); [|reflexivity]. now rewrite H.
  Qed.
  Lemma locate_ext : forall name fs cn cfo,
    locate rn ver has dyn cn cfo name fs = locate rn ver has' dyn cn cfo name fs.
  Proof.
    intros name fs. induction fs as [|f t r IH]; intros cn cfo; [reflexivity|]. cbn [locate].
    rewrite allowed_ext, IH. destruct (size_here dyn cfo f); [|reflexivity]. now rewrite (proj1 size_ext).
  Qed.
  Lemma entry_place_ext : forall lname name fs,
    entry_place rn ver has dyn lname name fs = entry_place rn ver has' dyn lname name fs.
  Proof.
    intros. unfold entry_place. rewrite locate_ext. destruct (locate _ _ _ _ _ _ _ _) as [[[[b s] f] t]|]; [|reflexivity].
    destruct t as [| | | | |t| |]; try reflexivity. destruct t as [| | | | | | |en cfo es]; try reflexivity.
    destruct cfo; [reflexivity|]. now rewrite locate_ext, (proj2 size_ext).
  Qed.
End HasExt.
Lemma entry_ok : forall ctx d x (p : list byte) dyn lname name B E o w sgn cname i,
  layout (bd_name d) (bd_flds d) ctx x = Some (bits_of_bytes p) ->
  (forall f s, f_sizeDyn f = true -> dyn (f_name f) = Some s ->
    resolve_size (bd_name d) (spec_env x ctx x) f = Some s) ->
  entry_place (bd_name d) (get_version x) (flag_test x) dyn lname name (bd_flds d) = Some (8 * B, 8 * E, 8 * o, 8 * w, sgn) ->
  m_len (bd_name d) lname = MField cname ->
  as_uint (lookup cname x) <> LengthUnlimited -> i < as_uint (lookup cname x) ->
  exists e, nthN i (items lname x) = Some (VStruct e) /\
    if sgn then signed_at p (B + i * E + o) w = as_Z (lookup name e)
    else number_at p (B + i * E + o) w = as_uint (lookup name e).
Proof.
  intros ctx d x p dyn lname name B E o w sgn cname i L HD C ML NU I. unfold entry_place in C.
  remember (8 * B) as B8 eqn:HB. remember (8 * E) as E8 eqn:HE. remember (8 * o) as o8 eqn:Ho. remember (8 * w) as w8 eqn:Hw.
  destruct (locate _ _ _ _ _ _ lname _) as [[[[base s] f] t]|] eqn:E1; [|discriminate].
  destruct t as [| | | | |t| |]; try discriminate. destruct t as [| | | | | | |en cfo es]; try discriminate.
  destruct cfo; [discriminate|]. destruct (f_lenDyn f && _) eqn:CC; [|discriminate].
  apply andb_prop in CC. destruct CC as [LD FN]. apply String.eqb_eq in FN.
  destruct (fsize _ _ _ _ _ _ es) as [e|] eqn:E2; [|discriminate].
  destruct (locate _ _ _ _ _ _ name es) as [[[[o' w'] f'] t']|] eqn:E3; [|discriminate].
  destruct (f_varint f') eqn:VI; [discriminate|].
  rewrite layout_top in L.
  destruct (locate_ok (bd_name d) x ctx dyn HD _ _ (bd_name d) false x _ _ _ _ _ _ E1 L)
    as (b1 & bk & b2 & v & len & EB & L1 & LV & RL & LB).
  cbn [owner] in RL. unfold resolve_len in RL. rewrite LD, FN, ML in RL. cbn [meval e_self spec_env] in RL.
  injection RL as RL. unfold spec_env in RL. cbn in RL. subst len.
  cbn [layout_val] in LB. destruct v as [| | | |l| |]; try discriminate.
  destruct (N.eqb_spec (as_uint (lookup cname x)) LengthUnlimited) as [|_]; [contradiction|].
  destruct (N.leb_spec (as_uint (lookup cname x)) (lenN l)) as [LE|]; [|discriminate].
  set (cnt := as_uint (lookup cname x)) in *.
  assert (G : forall v c, (match v with VStruct l0 => layout_flds (bd_name d) x ctx None en false l0 es | _ => None end) = Some c ->
              lenN c = e).
  { intros v c HV. destruct v; try discriminate. eapply (proj2 (size_all (bd_name d) x ctx dyn HD)); [|exact HV]. exact E2. }
  destruct (concat_nth (fun v => match v with VStruct l0 => layout_flds (bd_name d) x ctx None en false l0 es | _ => None end)
              e (takeN cnt l) bk i G) as (v & c & N1 & N2 & c1 & c2 & EC & LC).
  { exact LB. }
  { rewrite lenN_takeN. lia. }
  destruct v as [| | | | | |ve]; try discriminate.
  destruct (locate_ok (bd_name d) x ctx dyn HD _ _ en false ve _ _ _ _ _ _ E3 N2)
    as (a1 & ak & a2 & v' & len' & EA & LA & LV' & _ & LB').
  exists ve. split.
  { unfold items. rewrite LV. rewrite <- N1. rewrite !nthN_nth_error, takeN_firstn.
    rewrite <- (firstn_skipn (N.to_nat cnt) l) at 1. apply nth_error_app1. rewrite firstn_length.
    unfold lenN in LE. lia. }
  rewrite LV'. rewrite EC, EA in EB.
  assert (EB' : bits_of_bytes p = (b1 ++ c1 ++ a1) ++ ak ++ (a2 ++ c2 ++ b2)) by (rewrite EB; rewrite <- !app_assoc; reflexivity).
  destruct t'; try discriminate; injection C as C1 C2 C3 C4 <-; rewrite C1 in *; rewrite C2 in *; rewrite C3 in *; rewrite C4 in *; clear C1 C2 C3 C4; subst B8 E8 o8 w8.
  - destruct (uint_val _ _ _ _ _ _ _ _ _ VI LB') as (U1 & U2 & U3).
    rewrite (number_bits _ _ _ ak); [exact U1|]. apply (mid_bits _ _ _ _ _ _ EB'); [|exact U2].
    rewrite !lenN_app. rewrite L1, LC, LA. ring.
  - destruct (int_val _ _ _ _ _ _ _ _ _ LB') as (U1 & U2 & U3 & U4).
    unfold signed_at. rewrite (number_bits _ _ _ ak); [exact U1|]. apply (mid_bits _ _ _ _ _ _ EB'); [|exact U2].
    rewrite !lenN_app. rewrite L1, LC, LA. ring.
Qed.

(** a list of numbers *)
Definition ints_place (rn : string) (ver : N) (has : N -> bool) (lname : string) (fs : flds) : option (N * N) :=
  match locate rn ver has (fun _ => None) rn false lname fs with
  | Some (base, w, f, SSlice (SUint _)) =>
      if f_lenDyn f && String.eqb (f_name f) lname && negb (f_varint f) then Some (base, w) else None
  | _ => None
  end.
Lemma ints_ok : forall ctx d x (p : list byte) lname B w cname i,
  layout (bd_name d) (bd_flds d) ctx x = Some (bits_of_bytes p) ->
  ints_place (bd_name d) (get_version x) (flag_test x) lname (bd_flds d) = Some (8 * B, 8 * w) ->
  m_len (bd_name d) lname = MField cname ->
  as_uint (lookup cname x) <> LengthUnlimited -> i < as_uint (lookup cname x) ->
  exists v, nthN i (items lname x) = Some v /\ number_at p (B + i * w) w = as_uint (Some v).
Proof.
  intros ctx d x p lname B w cname i L C ML NU I. unfold ints_place in C.
  remember (8 * B) as B8 eqn:HB. remember (8 * w) as w8 eqn:Hw.
  destruct (locate _ _ _ _ _ _ lname _) as [[[[base s] f] t]|] eqn:E1; [|discriminate].
  destruct t as [| | | | |t| |]; try discriminate. destruct t as [sw| | | | | | |]; try discriminate.
  destruct (f_lenDyn f && _ && _) eqn:C1; [|discriminate]. injection C as -> ->. subst B8 w8.
  apply andb_prop in C1. destruct C1 as [C1 VI]. apply negb_true_iff in VI.
  apply andb_prop in C1. destruct C1 as [LD FN]. apply String.eqb_eq in FN.
  rewrite layout_top in L.
  destruct (locate_ok (bd_name d) x ctx (fun _ => None) ltac:(discriminate) _ _ (bd_name d) false x _ _ _ _ _ _ E1 L)
    as (b1 & bk & b2 & v & len & EB & L1 & LV & RL & LB).
  cbn [owner] in RL. unfold resolve_len in RL. rewrite LD, FN, ML in RL. cbn in RL. injection RL as RL. subst len.
  cbn [layout_val] in LB. destruct v as [| | | |l| |]; try discriminate.
  destruct (N.eqb_spec (as_uint (lookup cname x)) LengthUnlimited) as [|_]; [contradiction|].
  destruct (N.leb_spec (as_uint (lookup cname x)) (lenN l)) as [LE|]; [|discriminate].
  set (cnt := as_uint (lookup cname x)) in *.
  destruct (concat_nth (layout_val (bd_name d) x ctx f (8 * w) cnt (SUint sw))
              (8 * w) (takeN cnt l) bk i) as (v & c & N1 & N2 & c1 & c2 & EC & LC).
  { intros v c HV. now destruct (uint_val _ _ _ _ _ _ _ _ _ VI HV) as (_ & U2 & _). }
  { exact LB. }
  { rewrite lenN_takeN. lia. }
  destruct (uint_val _ _ _ _ _ _ _ _ _ VI N2) as (U1 & U2 & _).
  exists v. split.
  { unfold items. rewrite LV. rewrite <- N1. rewrite !nthN_nth_error, takeN_firstn.
    rewrite <- (firstn_skipn (N.to_nat cnt) l) at 1. apply nth_error_app1. rewrite firstn_length.
    unfold lenN in LE. lia. }
  rewrite EC in EB.
  rewrite (number_bits _ _ _ c); [exact U1|]. apply (mid_bits p (b1 ++ c1) c (c2 ++ b2)); [|rewrite lenN_app, L1, LC; ring|exact U2].
  rewrite EB. rewrite <- !app_assoc. reflexivity.
Qed.

(** ** The version and the flags *)
Lemma land_shift_small : forall a c k, c < 2 ^ k -> N.land (N.shiftl a k) c = 0.
Proof.
  intros a c k H. apply N.bits_inj_0. intros i. rewrite N.land_spec.
  destruct (N.lt_ge_cases i k) as [L|L]; [now rewrite N.shiftl_spec_low|].
  assert (X : N.testbit c i = false).
  { destruct (N.eq_dec c 0) as [->|Z]; [apply N.bits_0|]. apply N.bits_above_log2.
    apply N.log2_lt_pow2 in H; lia. }
  rewrite X. apply andb_false_r.
Qed.
Lemma flags_number : forall a b c : byte,
  flags_of_bytes [VUint (b2N a); VUint (b2N b); VUint (b2N c)] = be_to_N [a; b; c].
Proof.
  intros a b c. cbn [flags_of_bytes]. pose proof (b2N_lt b) as B. pose proof (b2N_lt c) as C.
  replace (N.lxor (N.shiftl (b2N a) 16) (N.shiftl (b2N b) 8)) with (N.shiftl (b2N a * 256 + b2N b) 8).
  - rewrite <- N.add_nocarry_lxor by (apply land_shift_small; exact C).
    rewrite N.shiftl_mul_pow2. unfold be_to_N. cbn [be_to_N_acc]. change (2 ^ 8) with 256. lia.
  - change 16 with (8 + 8). rewrite <- N.shiftl_shiftl, <- N.shiftl_lxor. f_equal.
    rewrite <- N.add_nocarry_lxor by (apply land_shift_small; exact B). rewrite N.shiftl_mul_pow2. reflexivity.
Qed.

Lemma head_ok : forall d ctx x p, full_box d = true ->
  layout (bd_name d) (bd_flds d) ctx x = Some (bits_of_bytes p) ->
  number_at p 0 1 = get_version x /\ number_at p 1 3 = get_flags x.
Proof.
  intros d ctx x p F L. destruct (full_box_inv d F) as (r & E & _ & HK). unfold layout in L. rewrite E in L.
  rewrite layout_cons in L. cbn [owner] in L. rewrite plain_size, plain_len in L. cbn [obind] in L.
  unfold field_bits in L. rewrite <- is_target_enabled, plain_target in L. cbn [f_name plain_info] in L. rewrite HK in L.
  apply obind_some in L. destruct L as (b1 & E1 & L). apply obind_some in L. destruct L as (b2 & E2 & L).
  apply obind_some in E1. destruct E1 as (fb & LF & E1). clear E2 HK E.
  unfold fb_ty in E1. destruct fb as [| | | | | |l]; try discriminate.
  match type of E1 with layout_val ?a ?b ?c _ _ _ (SStruct ?n ?cc ?fs) _ = _ =>
    change (layout_flds a b c None n cc l fs = Some b1) in E1 end.
  rewrite layout_cons in E1. cbn [owner] in E1. rewrite plain_size, plain_len in E1. cbn [obind] in E1.
  unfold field_bits in E1. rewrite <- is_target_enabled, plain_target in E1. cbn [f_name plain_info] in E1.
  change (hook_of "FullBox" "Version") with HNone in E1. cbv iota in E1.
  apply obind_some in E1. destruct E1 as (c1 & V1 & E1). apply obind_some in E1. destruct E1 as (c2 & V2 & E1).
  apply obind_some in V1. destruct V1 as (v1 & LV & V1).
  assert (VF : f_varint (plain_info "Version" 0 8 false) = false) by reflexivity. destruct (uint_val _ _ _ _ _ _ _ _ _ VF V1) as (U1 & U2 & U3).
  rewrite layout_cons in V2. cbn [owner] in V2. rewrite plain_size, plain_len in V2. cbn [obind] in V2.
  unfold field_bits in V2. rewrite <- is_target_enabled, plain_target in V2. cbn [f_name plain_info] in V2.
  change (hook_of "FullBox" "Flags") with HNone in V2. cbv iota in V2.
  apply obind_some in V2. destruct V2 as (c3 & V3 & V2). cbn in V2.
  apply obind_some in V3. destruct V3 as (x3 & L3 & V3).
  destruct x3 as [| | | |l3| |]; try discriminate.
  match type of V3 with layout_val ?a ?b ?c ?f ?s ?ln _ _ = _ =>
    change ((if lenN l3 =? 3 then concat_bits (layout_val a b c f s ln (SUint 8)) l3 else None) = Some c3) in V3 end.
  destruct (N.eqb_spec (lenN l3) 3) as [N3|]; [|discriminate].
  destruct (u8_bytes _ _ _ _ _ _ _ V3) as (bs & -> & ->).
  assert (LM : lenN (map (fun c : byte => VUint (b2N c)) bs) = lenN bs) by (unfold lenN; now rewrite map_length).
  rewrite LM in N3. assert (Q2 : c2 = bits_of_bytes bs) by (injection V2 as <-; now rewrite app_nil_r). subst c2.
  assert (Q1 : b1 = c1 ++ bits_of_bytes bs) by (now injection E1). subst b1.
  assert (Q : bits_of_bytes p = (c1 ++ bits_of_bytes bs) ++ b2) by (now injection L).
  unfold get_version, get_flags, fullbox_of. rewrite LF, LV, L3. split.
  - rewrite (number_bits _ _ _ c1); [exact U1|]. apply (mid_bits p [] c1 (bits_of_bytes bs ++ b2)); auto.
    rewrite Q. now rewrite <- app_assoc.
  - rewrite (number_bits _ _ _ (bits_of_bytes bs)).
    + rewrite <- be_to_N_bits. destruct bs as [|a [|b [|c [|? ?]]]]; try discriminate N3; [|rewrite !lenN_cons in N3; lia].
      now rewrite <- flags_number.
    + apply (mid_bits p c1 (bits_of_bytes bs) b2); [now rewrite <- app_assoc in Q|exact U2|].
      rewrite lenN_bits_of_bytes, N3. reflexivity.
Qed.

(** ** The only definition of a type *)
Definition the_def_in (R : registry) (t : btype) : boxdef :=
  match find (fun x => bt_eqb t (fst x)) R with Some (_, d) => d | None => item_def end.
Definition unique_in (R : registry) (t : btype) : bool :=
  match filter (fun x => bt_eqb t (fst x)) R with
  | [(_, d)] => match bd_pred d with PAlways => true | _ => false end
  | _ => false
  end.
Lemma find_filter : forall A (f : A -> bool) l x r, filter f l = x :: r -> find f l = Some x.
Proof.
  intros A f l. induction l as [|a l IH]; intros x r H; [discriminate|]. cbn in *. destruct (f a); [congruence|eauto].
Qed.
Lemma the_def_in_ok : forall R t ctx d, unique_in R t = true -> get_box_def R t ctx = Some d -> d = the_def_in R t.
Proof.
  intros R t ctx d U G. unfold unique_in in U. unfold the_def_in.
  destruct (filter _ R) as [|[t1 d1] [|? ?]] eqn:F; try discriminate.
  rewrite (find_filter _ _ _ _ _ F). destruct (bd_pred d1) eqn:P; try discriminate.
  assert (I1 : In (t1, d1) R /\ bt_eqb t t1 = true).
  { assert (X : In (t1, d1) (filter (fun x => bt_eqb t (fst x)) R)) by (rewrite F; now left).
    apply filter_In in X. exact X. }
  destruct I1 as [I1 T1]. apply bt_eqb_iff in T1. subst t1.
  unfold get_box_def in G. destruct (find_def t ctx (rev R)) as [d'|] eqn:FD.
  - injection G as ->. apply find_def_in in FD. apply in_rev in FD.
    assert (X : In (t, d) (filter (fun x => bt_eqb t (fst x)) R)).
    { apply filter_In. split; [exact FD|]. now apply bt_eqb_iff. }
    rewrite F in X. destruct X as [X|[]]. congruence.
  - exfalso. revert FD. apply (find_def_last t ctx _ d1); [now apply -> in_rev|]. now rewrite P.
Qed.
Definition the_def (t : btype) : boxdef := the_def_in std_registry t.
Definition unique (t : btype) : bool := unique_in std_registry t.
Lemma the_def_ok : forall t ctx d, unique t = true -> get_box_def std_registry t ctx = Some d -> d = the_def t.
Proof. exact (the_def_in_ok std_registry). Qed.

(** ** Fields inside a word *)
Lemma takeN_plus : forall A (l : list A) a b, takeN (a + b) l = takeN a l ++ takeN b (skipN a l).
Proof.
  intros A l a b. rewrite !takeN_firstn, skipN_skipn. rewrite N2Nat.inj_add. revert l.
  induction (N.to_nat a) as [|k IH]; intros l; [reflexivity|]. destruct l as [|x l]; [cbn [plus Nat.add firstn skipn app]; now rewrite firstn_nil|].
  cbn. now rewrite IH.
Qed.
Lemma bits_in_word : forall (B : list bool) o W j k, o + W <= lenN B -> j + k <= W ->
  bits_to_N (takeN k (skipN (o + j) B)) = (bits_to_N (takeN W (skipN o B)) / 2 ^ (W - j - k)) mod 2 ^ k.
Proof.
  intros B o W j k H1 H2.
  assert (E : takeN W (skipN o B) = takeN j (skipN o B) ++ takeN k (skipN (o + j) B) ++ takeN (W - j - k) (skipN (o + j + k) B)).
  { rewrite <- (skipN_skipN _ B k (o + j)), <- !takeN_plus. rewrite <- (skipN_skipN _ B j o), <- takeN_plus.
    f_equal. lia. }
  rewrite E. rewrite !bits_to_N_app, lenN_app.
  assert (L2 : lenN (takeN k (skipN (o + j) B)) = k) by (rewrite lenN_takeN, lenN_skipN; lia).
  assert (L3 : lenN (takeN (W - j - k) (skipN (o + j + k) B)) = W - j - k) by (rewrite lenN_takeN, lenN_skipN; lia).
  pose proof (bits_to_N_lt (takeN k (skipN (o + j) B))) as B2. pose proof (bits_to_N_lt (takeN (W - j - k) (skipN (o + j + k) B))) as B3.
  rewrite L2 in *. rewrite L3 in *.
  set (m := W - j - k) in *. rewrite N.pow_add_r.
  set (x := bits_to_N (takeN j _)). set (y := bits_to_N (takeN k _)) in *. set (z := bits_to_N (takeN m _)) in *.
  replace (x * (2 ^ k * 2 ^ m) + (y * 2 ^ m + z)) with (z + (x * 2 ^ k + y) * 2 ^ m) by ring.
  rewrite N.div_add by (apply N.pow_nonzero; discriminate). rewrite (N.div_small z) by exact B3.
  rewrite N.add_0_l, N.add_comm, N.mod_add by (apply N.pow_nonzero; discriminate). symmetry. now apply N.mod_small.
Qed.

(** a number of [s] bits, [j] bits into the 32-bit word at the byte [off] *)
Definition bits_place (rn : string) (has : N -> bool) (ver : N) (name : string) (fs : flds) : option (N * N) :=
  match locate rn ver has (fun _ => None) rn false name fs with
  | Some (o, s, f, SUint _) => if f_varint f then None else Some (o, s)
  | _ => None
  end.
Lemma bits_place_ok : forall ctx d x (p : list byte) name off j s,
  layout (bd_name d) (bd_flds d) ctx x = Some (bits_of_bytes p) ->
  bits_place (bd_name d) (flag_test x) (get_version x) name (bd_flds d) = Some (8 * off + j, s) ->
  j + s <= 32 -> off + 4 <= lenN p ->
  as_uint (lookup name x) = (number_at p off 4 / 2 ^ (32 - j - s)) mod 2 ^ s.
Proof.
  intros ctx d x p name off j s L C J P. unfold bits_place in C. remember (8 * off + j) as o eqn:Ho.
  destruct (locate _ _ _ _ _ _ _ _) as [[[[o' s'] f] t]|] eqn:E; [|discriminate C].
  destruct t; try discriminate C. destruct (f_varint f) eqn:VI; [discriminate C|]. injection C as -> ->.
  rewrite layout_top in L.
  destruct (locate_ok (bd_name d) x ctx (fun _ => None) ltac:(discriminate) _ _ (bd_name d) false x _ _ _ _ _ _ E L)
    as (b1 & bk & b2 & v & len & EB & L1 & LV & _ & LB).
  destruct (uint_val _ _ _ _ _ _ _ _ _ VI LB) as (U1 & U2 & _). rewrite LV, <- U1.
  rewrite (number_bits p off 4 _ eq_refl), <- takeN_bits_of_bytes, <- skipN_bits_of_bytes.
  change (8 * 4) with 32. rewrite <- (bits_in_word (bits_of_bytes p) (8 * off) 32 j s); [|rewrite lenN_bits_of_bytes; lia|lia].
  rewrite <- Ho, EB. rewrite skipN_app_exact, takeN_app_exact by auto. reflexivity.
Qed.
