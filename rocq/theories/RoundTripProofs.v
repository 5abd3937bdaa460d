(** Decoding the layout of a well-formed value gives the value back. *)
From Verif Require Import Base BitIO Schema Structs Methods Registry Marshal Unmarshal SpecCodec
     SpecRoundTrip Decode.
From Verif Require Import BaseProofs BitIOProofs BitIOFacts MarshalProofs MarshalCount UnmarshalProofs
     DecodeFacts VersionFacts Causal RoundTripBase.
Local Open Scope string_scope.
Local Open Scope list_scope.
Local Open Scope N_scope.
Local Open Scope dec_scope.
Ltac Zify.zify_post_hook ::= Z.to_euclidean_division_equations.

(** ** records *)
Lemma fields_ext : forall (a b : fields), map fst a = map fst b -> NoDup (map fst a) ->
  (forall k, In k (map fst a) -> lookup k a = lookup k b) -> a = b.
Proof.
  induction a as [|[k x] a IH]; destruct b as [|[k' y] b]; cbn [map fst]; try discriminate; auto.
  intros E ND H. injection E as <- E. inversion ND as [|? ? N1 N2]; subst.
  assert (X : lookup k ((k, x) :: a) = lookup k ((k, y) :: b)) by (apply H; now left).
  cbn in X. rewrite String.eqb_refl in X. injection X as ->. f_equal. apply IH; auto.
  intros j Hj. assert (X : lookup j ((k, y) :: a) = lookup j ((k, y) :: b)) by (apply H; now right).
  cbn in X. destruct (String.eqb_spec j k) as [->|]; [contradiction|]. exact X.
Qed.

Lemma rt_flds_cons : forall rname root ctx top p rem sname cfo self cur f t rest,
  rt_flds rname root ctx top p rem sname cfo self cur (FCons f t rest) =
        let (cn, env) := owner rname root ctx cfo sname self in
        match resolve_size cn env f, resolve_len cn env f, lookup (f_name f) self,
              lookup (f_name f) cur with
        | Some size, Some len, Some x, Some c =>
            let plain := layout_val rname root ctx f size len t x in
            match field_bits rname root ctx top cn env self f plain with
            | Some b =>
                let rem' := rem - lenN b in
                (if enabled (get_version root) (get_flags root) cn env f then
                   match hook_of cn (f_name f) with
                   | HNone => rt_val rname root ctx p rem' f size len t c x
                   | HEmsgSkip =>
                       if get_version root =? 0 then rt_val rname root ctx p rem' f size len t c x else true
                   | HEmsgData =>
                       if get_version root =? 0 then rt_val rname root ctx p rem' f size len t c x
                       else match lookup "SchemeIdUri" self, lookup "Value" self with
                            | Some (VStr s1), Some (VStr s2) =>
                                no_nul s1 && no_nul s2 && (p mod 8 =? 0) &&
                                rt_val rname root ctx (p + 8 * (lenN s1 + 1) + 8 * (lenN s2 + 1)) rem' f size len t c x
                            | _, _ => false
                            end
                   | HHdlrName =>
                       match t, x with
                       | SStr, VStr s =>
                           negb (f_boxString f) && no_nul s && (rem' =? 0) && (p mod 8 =? 0) &&
                           negb (negb (as_uint (lookup "PreDefined" self) =? 0) &&
                                 match s with
                                 | [] => false
                                 | b :: _ => lenN s + 1 =? (b2N b + 1) mod 256
                                 end)
                       | _, _ => false
                       end
                   | HAvcHigh =>
                       match x with
                       | VBool h => Bool.eqb h ((32 <=? rem) &&
                                                is_high_profile (as_uint (lookup "Profile" self)))
                       | _ => false
                       end
                   end
                 else val_eqb x c) &&
                rt_flds rname root ctx (option_map (fun n => n + lenN b) top) (p + lenN b) rem' sname cfo self cur rest
            | None => false
            end
        | _, _, _, _ => false
        end.
Proof. reflexivity. Qed.

Lemma rt_val_struct : forall rname root ctx p rem f size len name cfo fs cl l,
  rt_val rname root ctx p rem f size len (SStruct name cfo fs) (VStruct cl) (VStruct l) =
            (strs_eqb (map fst l) (names_of fs) && strs_eqb (map fst cl) (names_of fs) &&
            match layout_flds rname root ctx None name cfo l fs with
            | Some b =>
                if negb (size =? 0) && (size mod 8 =? 0)
                then (p mod 8 =? 0) && (lenN b =? size) && rt_flds rname root ctx None p size name cfo l cl fs
                else rt_flds rname root ctx None p (rem + lenN b) name cfo l cl fs
            | None => false
            end).
Proof. reflexivity. Qed.
Lemma chk_flds_cons : forall rname v0 top vf droot cfo sname D f t rest,
  chk_flds rname v0 top vf droot cfo sname D (FCons f t rest) =
        let cn := if cfo : bool then sname else rname in
        let vfc := vf_at top vf D in
        let drc := dr_at top droot D in
        if all_in (fdeps cn f) (if cfo then D else drc) && (vfc || negb (fver cn f)) &&
           negb (str_in (f_name f) D) && negb (str_in (f_name f) (names_of rest)) &&
           implb (is_fullbox t) (is_top top && String.eqb (f_name f) "FullBox") &&
           chk_val rname v0 vfc drc t
        then
          match hook_of cn (f_name f) with
          | HNone => chk_flds rname v0 top vf droot cfo sname (f_name f :: D) rest
          | HEmsgSkip =>
              if unconditional f && vfc
              then chk_flds rname v0 top vf droot cfo sname (if v0 : bool then f_name f :: D else D) rest else None
          | HEmsgData =>
              if unconditional f && vfc then
                if v0 then chk_flds rname v0 top vf droot cfo sname (f_name f :: D) rest
                else if negb (existsb (fun k => str_in k (f_name f :: names_of rest ++ D))
                                ["SchemeIdUri"; "Value"])
                     then chk_flds rname v0 top vf droot cfo sname (f_name f :: "SchemeIdUri" :: "Value" :: D) rest
                     else None
              else None
          | HHdlrName =>
              if str_in "PreDefined" D then chk_flds rname v0 top vf droot cfo sname (f_name f :: D) rest else None
          | HAvcHigh =>
              if str_in "Profile" D then chk_flds rname v0 top vf droot cfo sname (f_name f :: D) rest else None
          end
        else None.
Proof. reflexivity. Qed.

Lemma hook_hdlr : forall cn fn, hook_of cn fn = HHdlrName -> fn = "Name".
Proof.
  intros cn fn H. unfold hook_of in H.
  destruct (String.eqb cn "Emsg"); [destruct (str_in fn _), (String.eqb fn "MessageData"); discriminate|].
  destruct (String.eqb cn "Hdlr"); [destruct (String.eqb_spec fn "Name"); [auto|discriminate]|].
  destruct (String.eqb cn _); [destruct (String.eqb fn _)|]; discriminate.
Qed.
Lemma hook_avc : forall cn fn, hook_of cn fn = HAvcHigh -> fn = "HighProfileFieldsEnabled".
Proof.
  intros cn fn H. unfold hook_of in H.
  destruct (String.eqb cn "Emsg"); [destruct (str_in fn _), (String.eqb fn "MessageData"); discriminate|].
  destruct (String.eqb cn "Hdlr"); [destruct (String.eqb fn "Name"); discriminate|].
  destruct (String.eqb cn _); [|discriminate].
  destruct (String.eqb_spec fn "HighProfileFieldsEnabled"); [auto|discriminate].
Qed.

Lemma u8_bytes : forall rn root ctx f len l b,
  concat_bits (layout_val rn root ctx f 8 len (SUint 8)) l = Some b ->
  exists bs, l = map (fun c => VUint (b2N c)) bs /\ b = bits_of_bytes bs.
Proof.
  intros rn root ctx f len. induction l as [|v l IH]; intros b E; cbn [concat_bits] in E.
  - exists []. split; [reflexivity|]. now injection E as <-.
  - apply obind_some in E. destruct E as (b1 & E1 & E). apply obind_some in E. destruct E as (b2 & E2 & E).
    assert (Eb : b = b1 ++ b2) by (now injection E). subst b.
    destruct (IH b2 E2) as (bs & -> & ->). cbn [layout_val] in E1. destruct v as [n| | | | | |]; try discriminate.
    destruct (f_varint f); [discriminate|].
    destruct (uint_fits 8 n) eqn:F; [|discriminate]. cbn [andb] in E1. injection E1 as <-.
    unfold uint_fits in F. apply N.ltb_lt in F. change (2 ^ 8) with 256 in F.
    exists (N2b n :: bs). cbn [map]. rewrite b2N_N2b, (N.mod_small n) by auto. split; [reflexivity|].
    rewrite bits_of_bytes_cons. f_equal. now rewrite bits_of_N2b.
Qed.

Lemma take_until_nul_rt : forall s, no_nul s = true -> take_until_nul (s ++ [bzero]) = s.
Proof.
  induction s as [|c s IH]; intros H; cbn [app take_until_nul]; [reflexivity|].
  cbn [no_nul forallb] in H. apply andb_prop in H. destruct H as [H1 H2].
  apply negb_true_iff in H1. rewrite H1. f_equal. auto.
Qed.

Lemma sub64_sub : forall a b, b <= a -> a < 2 ^ 64 -> sub64 a b = a - b.
Proof.
  intros a b H1 H2. unfold sub64, W64. change (2 ^ 64) with 18446744073709551616 in H2. lia.
Qed.

Section RT.
  Variables (k : nat) (rname : string) (versions : list N) (ctx : context) (root : fields).
  Hypothesis Hver : version_in versions (get_version root) = true.
  Local Notation v0 := (get_version root =? 0).

  Definition agree_root (vf : bool) (droot : list string) (rd : fields) : Prop :=
    (vf = true -> get_version rd = get_version root /\ get_flags rd = get_flags root) /\
    forall j, In j droot -> lookup j rd = lookup j root.

  Definition V (t : sty) : Prop := forall vf droot rd lim base p rem f size len cur v b r,
    chk_val rname v0 vf droot t = true -> agree_root vf droot rd ->
    layout_val rname root ctx f size len t v = Some b ->
    rt_val rname root ctx p rem f size len t cur v = true ->
    base <= p -> base mod 8 = 0 -> lim = (p - base) + lenN b + rem -> lim < 2 ^ 51 ->
    (List.length b < k)%nat ->
    dec_val k rname versions ctx rd lim base f size len t cur (p, b ++ r) = Ok (v, (p + lenN b, r)).

  Definition F (fs : flds) : Prop :=
    forall top vf droot cfo sname D Dend rt ltop lim base p rem self selfd cur b r,
    chk_flds rname v0 top vf droot cfo sname D fs = Some Dend ->
    match top with
    | Some hf => rt = None /\ self = root /\ (hf = false -> ~ In "FullBox" (map fst self))
    | None => exists rd, rt = Some rd /\ agree_root vf droot rd
    end ->
    map fst selfd = map fst self ->
    (forall j, In j D -> lookup j selfd = lookup j self) ->
    (forall j, In j (names_of fs) -> lookup j selfd = lookup j cur) ->
    layout_flds rname root ctx ltop sname cfo self fs = Some b ->
    rt_flds rname root ctx ltop p rem sname cfo self cur fs = true ->
    base <= p -> base mod 8 = 0 -> lim = (p - base) + rem -> lim < 2 ^ 51 ->
    lenN b <= rem -> (List.length b < k)%nat ->
    exists selfd', dec_flds k rname versions ctx rt lim base sname cfo selfd fs (p, b ++ r)
        = Ok (selfd', (p + lenN b, r)) /\
      map fst selfd' = map fst self /\ (forall j, In j Dend -> lookup j selfd' = lookup j self).

  Lemma rt_map : forall u, V u -> forall vf droot rd lim base f size len,
    chk_val rname v0 vf droot u = true -> agree_root vf droot rd -> base mod 8 = 0 -> lim < 2 ^ 51 ->
    forall l cl p rem b r,
    concat_bits (layout_val rname root ctx f size len u) l = Some b ->
    rt_list (fun p rem => rt_val rname root ctx p rem f size len u)
            (layout_val rname root ctx f size len u) p (rem + lenN b) cl l = true ->
    base <= p -> lim = (p - base) + lenN b + rem -> (List.length b < k)%nat ->
    d_map (dec_val k rname versions ctx rd lim base f size len u) cl (p, b ++ r) = Ok (l, (p + lenN b, r)).
  Proof.
    intros u HV vf droot rd lim base f size len C A B0 L51. induction l as [|x l IH]; intros cl p rem b r E R B1 L K.
    - destruct cl; [|discriminate]. cbn in E. injection E as <-. cbn [d_map app]. rewrite lenN_nil, N.add_0_r.
      reflexivity.
    - destruct cl as [|c cl]; [discriminate|]. cbn [concat_bits] in E.
      apply obind_some in E. destruct E as (b1 & E1 & E). apply obind_some in E. destruct E as (b2 & E2 & E).
      assert (Eb : b = b1 ++ b2) by (now injection E). subst b. clear E.
      cbn [rt_list] in R. rewrite E1 in R. apply andb_prop in R. destruct R as [R1 R2].
      rewrite lenN_app in *. rewrite app_length in K. cbn [d_map]. unfold dbind. rewrite <- app_assoc.
      rewrite (HV vf droot rd lim base p (rem + (lenN b1 + lenN b2) - lenN b1) f size len c x b1 (b2 ++ r));
        auto; try lia.
      rewrite (IH cl (p + lenN b1) rem b2 r); auto; try lia.
      + unfold dret. do 3 f_equal. lia.
      + now replace (rem + lenN b2) with (rem + (lenN b1 + lenN b2) - lenN b1) by lia.
  Qed.

  Definition elem rd lim base f size len u (acc : list val) : D (list val) :=
    x <~ dec_val k rname versions ctx rd lim base f size len u (zero u) ;;
    p <~ dpos ;;
    if lim <? p - base
    then dfail (EMsg "failed to read array completely")
    else dret (x :: acc).
  Lemma elem_rt : forall u, V u -> forall vf droot rd lim base f size len,
    chk_val rname v0 vf droot u = true -> agree_root vf droot rd -> base mod 8 = 0 -> lim < 2 ^ 51 ->
    forall acc x p rem b r,
    layout_val rname root ctx f size len u x = Some b ->
    rt_val rname root ctx p rem f size len u (zero u) x = true ->
    base <= p -> lim = (p - base) + lenN b + rem -> (List.length b < k)%nat ->
    elem rd lim base f size len u acc (p, b ++ r) = Ok (x :: acc, (p + lenN b, r)).
  Proof.
    intros u HV vf droot rd lim base f size len C A B0 L51 acc x p rem b r E R B1 L K.
    unfold elem, dbind. rewrite (HV vf droot rd lim base p rem f size len (zero u) x b r); auto.
    unfold dpos. cbn [fst]. destruct (N.ltb_spec lim (p + lenN b - base)); [lia|]. reflexivity.
  Qed.

  Lemma rt_loop : forall u, V u -> forall vf droot rd lim base f size len,
    chk_val rname v0 vf droot u = true -> agree_root vf droot rd -> base mod 8 = 0 -> lim < 2 ^ 51 ->
    forall l acc p rem b r,
    concat_bits (layout_val rname root ctx f size len u) l = Some b ->
    rt_list (fun p rem => rt_val rname root ctx p rem f size len u)
            (layout_val rname root ctx f size len u) p (rem + lenN b) (repeat (zero u) (List.length l)) l = true ->
    base <= p -> lim = (p - base) + lenN b + rem -> (List.length b < k)%nat ->
    dloop (List.length l) (elem rd lim base f size len u) acc (p, b ++ r) =
      Ok (rev l ++ acc, (p + lenN b, r)).
  Proof.
    intros u HV vf droot rd lim base f size len C A B0 L51. induction l as [|x l IH]; intros acc p rem b r E R B1 L K.
    - cbn in E. injection E as <-. cbn [dloop List.length app rev]. rewrite lenN_nil, N.add_0_r. reflexivity.
    - cbn [concat_bits] in E.
      apply obind_some in E. destruct E as (b1 & E1 & E). apply obind_some in E. destruct E as (b2 & E2 & E).
      assert (Eb : b = b1 ++ b2) by (now injection E). subst b. clear E.
      cbn [List.length repeat rt_list] in R. rewrite E1 in R. apply andb_prop in R. destruct R as [R1 R2].
      rewrite lenN_app in *. rewrite app_length in K. cbn [dloop List.length]. unfold dbind. rewrite <- app_assoc.
      rewrite (elem_rt u HV vf droot rd lim base f size len C A B0 L51 acc x p
                 (rem + (lenN b1 + lenN b2) - lenN b1) b1 (b2 ++ r)); auto; try lia.
      rewrite (IH (x :: acc) (p + lenN b1) rem b2 r); auto; try lia.
      + cbn [rev]. rewrite <- app_assoc. do 3 f_equal. lia.
      + now replace (rem + lenN b2) with (rem + (lenN b1 + lenN b2) - lenN b1) by lia.
  Qed.

  Lemma rt_while : forall u, V u -> forall vf droot rd lim base f size len,
    chk_val rname v0 vf droot u = true -> agree_root vf droot rd -> base mod 8 = 0 -> lim < 2 ^ 51 ->
    forall l acc p b r j,
    concat_bits (layout_val rname root ctx f size len u) l = Some b ->
    rt_list (fun p rem => rt_val rname root ctx p rem f size len u)
            (layout_val rname root ctx f size len u) p (lenN b) (repeat (zero u) (List.length l)) l = true ->
    forallb (fun x => match layout_val rname root ctx f size len u x with Some (_ :: _) => true | _ => false end) l = true ->
    base <= p -> lim = (p - base) + lenN b -> (List.length b < k)%nat -> (List.length b < j)%nat ->
    dwhile j (fun acc => p <~ dpos ;;
                if lim <=? p - base then dret (inr acc)
                else acc' <~ elem rd lim base f size len u acc ;; dret (inl acc')) acc (p, b ++ r) =
      Ok (rev l ++ acc, (p + lenN b, r)).
  Proof.
    intros u HV vf droot rd lim base f size len C A B0 L51. induction l as [|x l IH]; intros acc p b r j E R NE B1 L K J.
    - cbn in E. injection E as <-. destruct j; [cbn in J; lia|]. rewrite lenN_nil in *.
      cbn [dwhile app rev]. unfold dbind, dpos. cbn [fst].
      destruct (N.leb_spec lim (p - base)); [|lia]. unfold dret. rewrite N.add_0_r. reflexivity.
    - cbn [concat_bits] in E.
      apply obind_some in E. destruct E as (b1 & E1 & E). apply obind_some in E. destruct E as (b2 & E2 & E).
      assert (Eb : b = b1 ++ b2) by (now injection E). subst b. clear E.
      cbn [List.length repeat rt_list] in R. rewrite E1 in R. apply andb_prop in R. destruct R as [R1 R2].
      cbn [forallb] in NE. rewrite E1 in NE. apply andb_prop in NE. destruct NE as [NE1 NE2].
      assert (G1 : (1 <= List.length b1)%nat) by (destruct b1; [discriminate|cbn; lia]).
      assert (G2 : 1 <= lenN b1) by (destruct b1; [discriminate|rewrite lenN_cons; lia]).
      rewrite lenN_app in *. rewrite app_length in *. destruct j; [lia|]. cbn [dwhile].
      unfold dbind at 1. unfold dbind at 1. unfold dpos at 1. cbn [fst].
      destruct (N.leb_spec lim (p - base)); [lia|]. unfold dbind at 1. rewrite <- app_assoc.
      rewrite (elem_rt u HV vf droot rd lim base f size len C A B0 L51 acc x p
                 (lenN b1 + lenN b2 - lenN b1) b1 (b2 ++ r)); auto; try lia.
      unfold dret at 1.
      rewrite (IH (x :: acc) (p + lenN b1) b2 r); auto; try lia.
      + cbn [rev]. rewrite <- app_assoc. do 3 f_equal. lia.
      + now replace (lenN b2) with (lenN b1 + lenN b2 - lenN b1) by lia.
  Qed.

  Lemma chk_nodup : forall fs top vf droot cfo sname D Dend,
    chk_flds rname v0 top vf droot cfo sname D fs = Some Dend -> NoDup (names_of fs).
  Proof.
    induction fs as [|f t rest IH]; intros top vf droot cfo sname D Dend H; [constructor|].
    rewrite chk_flds_cons in H. cbv zeta in H.
    match type of H with (if ?c then _ else _) = _ => destruct c eqn:C; [|discriminate] end.
    apply andb_prop in C. destruct C as [C _]. apply andb_prop in C. destruct C as [C _].
    apply andb_prop in C. destruct C as [C C4]. apply negb_true_iff in C4.
    cbn [names_of]. constructor.
    - intros I. apply str_in_In in I. congruence.
    - destruct (hook_of _ _).
      + eauto.
      + destruct (unconditional f && _); [eauto|discriminate].
      + destruct (unconditional f && _); [|discriminate]. destruct v0; [eauto|].
        match type of H with (if ?c then _ else _) = _ => destruct c; [eauto|discriminate] end.
      + match type of H with (if ?c then _ else _) = _ => destruct c; [eauto|discriminate] end.
      + match type of H with (if ?c then _ else _) = _ => destruct c; [eauto|discriminate] end.
  Qed.

  Lemma rt_struct : forall fs, F fs -> forall vf droot rd cfo name lim base p rem l cl b r,
    match chk_flds rname v0 None vf droot cfo name [] fs with
    | Some D => all_in (names_of fs) D | None => false end = true ->
    agree_root vf droot rd ->
    map fst l = names_of fs -> map fst cl = names_of fs ->
    layout_flds rname root ctx None name cfo l fs = Some b ->
    rt_flds rname root ctx None p rem name cfo l cl fs = true ->
    base <= p -> base mod 8 = 0 -> lim = (p - base) + rem -> lim < 2 ^ 51 ->
    lenN b <= rem -> (List.length b < k)%nat ->
    dec_flds k rname versions ctx (Some rd) lim base name cfo cl fs (p, b ++ r) = Ok (l, (p + lenN b, r)).
  Proof.
    intros fs HF vf droot rd cfo name lim base p rem l cl b r C A Kl Kc E R B1 B2 L L51 Lb K.
    destruct (chk_flds rname v0 None vf droot cfo name [] fs) as [De|] eqn:CE; [|discriminate].
    destruct (HF None vf droot cfo name [] De (Some rd) None lim base p rem l cl cl b r) as (s' & Ed & Ks & Hs);
      auto; try congruence.
    - exists rd. auto.
    - intros j [].
    - rewrite Ed. do 2 f_equal. apply fields_ext; [congruence| |].
      + rewrite Ks, Kl. eapply chk_nodup; eauto.
      + intros j Hj. apply Hs. eapply all_in_In; eauto. congruence.
  Qed.

  Lemma dec_slice_eq : forall rd lim base f size len u cur,
    dec_val k rname versions ctx rd lim base f size len (SSlice u) cur =
        (p <~ dpos ;;
        let left := sub64 lim (p - base) in
        if (len =? LengthUnlimited) && negb (size =? 0) && negb (left mod size =? 0)
        then dfail (EMsg "invalid alignment")
        else
          let length := if len =? LengthUnlimited
                        then (if size =? 0 then 0 else left / size) else len in
          if ((p - base) mod 8 =? 0) && is_u8 u && (size =? 8) then
            let total := w64 (length * size) / 8 in
            ok <~ d_has total ;;
            if negb ok then dfail (EMsg "not enough bits")
            else if maxAlloc <=? total then dpanic
            else buf <~ d_bytes total ;; dret (bytes_val buf)
          else
            xs <~ (if len =? LengthUnlimited then
                     dwhile k (fun acc =>
                       p <~ dpos ;;
                       if lim <=? p - base then dret (inr acc)
                       else acc' <~ elem rd lim base f size len u acc ;; dret (inl acc')) []
                   else dloop (N.to_nat len) (elem rd lim base f size len u) []) ;;
            dret (VList (rev xs))).
  Proof. reflexivity. Qed.

  Lemma rt_slice : forall u, V u -> V (SSlice u).
  Proof.
    intros u HV vf droot rd lim base p rem f size len cur v b r C A E R B1 B0 L L51 K.
    destruct v as [| | | |l| |]; try discriminate. cbn [layout_val] in E. cbn [rt_val] in R. cbv zeta in R.
    cbn [chk_val] in C.
    assert (Ec : concat_bits (layout_val rname root ctx f size len u) l = Some b).
    { destruct (N.eqb_spec len LengthUnlimited) as [Hu|Hu]; [exact E|].
      destruct (concat_bits _ l) as [b'|] eqn:Eb; [|discriminate].
      apply andb_prop in R. destruct R as [R _]. apply N.eqb_eq in R. subst len.
      destruct (N.leb_spec (lenN l) (lenN l)); [|lia]. rewrite takeN_all in E by lia. congruence. }
    rewrite Ec in R. apply andb_prop in R. destruct R as [R1 R2].
    rewrite dec_slice_eq. unfold dbind at 1. unfold dpos at 1. cbn [fst]. cbv zeta.
    rewrite sub64_sub by (change (2 ^ 51) with 2251799813685248 in L51;
                          change (2 ^ 64) with 18446744073709551616; lia).
    change (2 ^ 51) with 2251799813685248 in L51.
    assert (Al : (len =? LengthUnlimited) && negb (size =? 0) && negb ((lim - (p - base)) mod size =? 0) = false).
    { destruct (len =? LengthUnlimited); [|reflexivity]. destruct (size =? 0) eqn:S0; [reflexivity|].
      apply andb_prop in R1. destruct R1 as [R1 _]. apply andb_prop in R1. destruct R1 as [R1 R3].
      apply N.eqb_eq in R1. subst rem. replace (lim - (p - base)) with (lenN b) by lia.
      cbn [orb] in R3. rewrite R3. reflexivity. }
    rewrite Al.
    destruct (((p - base) mod 8 =? 0) && is_u8 u && (size =? 8)) eqn:U8.
    - apply andb_prop in U8. destruct U8 as [U8 S8]. apply andb_prop in U8. destruct U8 as [P8 U8].
      apply N.eqb_eq in S8, P8. apply is_u8_inv in U8. subst u size.
      destruct (u8_bytes _ _ _ _ _ _ _ Ec) as (bs & -> & ->).
      rewrite lenN_bits_of_bytes in *. 
      assert (LM : lenN (map (fun c : byte => VUint (b2N c)) bs) = lenN bs) by (unfold lenN; now rewrite map_length).
      rewrite LM in R1.
      assert (T : w64 ((if len =? LengthUnlimited then if 8 =? 0 then 0 else (lim - (p - base)) / 8 else len) * 8) / 8
                  = lenN bs).
      { unfold w64, W64. destruct (len =? LengthUnlimited).
        - apply andb_prop in R1. destruct R1 as [R1 _]. apply andb_prop in R1. destruct R1 as [R1 _].
          apply N.eqb_eq in R1. subst rem. change (8 =? 0) with false. cbv iota.
          replace (lim - (p - base)) with (8 * lenN bs) by lia. lia.
        - apply N.eqb_eq in R1. subst len. lia. }
      rewrite T. unfold dbind, d_has. cbn [fst snd].
      assert (P0 : p mod 8 = 0) by lia. pose proof P0 as P0'. apply N.eqb_eq in P0'. rewrite P0'.
      rewrite lenN_app, lenN_bits_of_bytes. destruct (N.leb_spec (8 * lenN bs) (8 * lenN bs + lenN r)); [|lia].
      cbn [andb negb]. unfold maxAlloc. destruct (N.leb_spec 281474976710656 (lenN bs)); [lia|].
      rewrite d_bytes_app by auto. reflexivity.
    - clear U8 Al. unfold dbind at 1. destruct (N.eqb_spec len LengthUnlimited) as [Hu|Hu].
      + apply andb_prop in R1. destruct R1 as [R1 R4]. apply andb_prop in R1. destruct R1 as [R1 R3].
        apply N.eqb_eq in R1. subst rem. rewrite N.add_0_l in R2.
        rewrite (rt_while u HV vf droot rd lim base f size len) with (l := l) by (auto; lia).
        unfold dret. rewrite app_nil_r, rev_involutive. reflexivity.
      + apply N.eqb_eq in R1. subst len.
        replace (N.to_nat (lenN l)) with (List.length l) by (unfold lenN; lia).
        rewrite (rt_loop u HV vf droot rd lim base f size (lenN l)) with (l := l) (rem := rem) by (auto; lia).
        unfold dret. rewrite app_nil_r, rev_involutive. reflexivity.
  Qed.

  Lemma lookup_keys : forall j (a b : fields), map fst a = map fst b -> lookup j b <> None -> lookup j a <> None.
  Proof.
    intros j. induction a as [|[x y] a IH]; destruct b as [|[x' y'] b]; cbn [map fst]; try discriminate; auto.
    intros E. injection E as <- E. cbn. destruct (String.eqb j x); [discriminate|]. eauto.
  Qed.

  Lemma rt_all : (forall t, V t) /\ (forall fs, F fs).
  Proof.
    apply sty_flds_mutind.
    - (* SUint *)
      intros w vf droot rd lim base p rem f size len cur v b r C A E R B1 B0 L L51 K.
      destruct v as [n| | | | | |]; try discriminate. cbn [layout_val rt_val dec_val] in *.
      destruct (f_varint f) eqn:FV.
      + destruct (size =? 0); [|discriminate]. destruct (uint_fits w n) eqn:F1; [|discriminate].
        destruct (uint_fits 28 n) eqn:F2; [|discriminate]. cbn [andb] in E.
        assert (Eb : b = varint_bits n) by (now injection E). subst b.
        apply N.ltb_lt in F1, F2.
        assert (L32 : lenN (varint_bits n) = 32) by reflexivity.
        assert (K32 : (List.length (varint_bits n) = 32)%nat) by reflexivity.
        rewrite L32. apply d_varint_rt; auto; lia.
      + destruct (uint_fits w n) eqn:F1; [|discriminate].
        destruct (uint_fits size n) eqn:F2; [|discriminate]. cbn [andb orb] in *.
        assert (Eb : b = uint_bits size n) by (now injection E). subst b.
        apply N.ltb_lt in F1, F2. apply andb_prop in R. destruct R as [R1 R2]. apply N.leb_le in R1, R2.
        rewrite lenN_uint_bits. apply d_uint_rt; auto.
    - (* SInt *)
      intros w vf droot rd lim base p rem f size len cur v b r C A E R B1 B0 L L51 K.
      destruct v as [|z| | | | |]; try discriminate. cbn [layout_val rt_val dec_val] in *.
      destruct (f_varint f); [discriminate|]. destruct (size <=? 64); [|discriminate].
      destruct (int_fits size z) eqn:F1; [|discriminate]. cbn [negb andb] in *.
      assert (Eb : b = int_bits size z) by (now injection E). subst b.
      apply andb_prop in R. destruct R as [R1 R2]. apply N.leb_le in R1, R2.
      rewrite lenN_int_bits. apply d_int_rt; auto.
    - (* SBool *)
      intros vf droot rd lim base p rem f size len cur v b r C A E R B1 B0 L L51 K.
      destruct v as [| |x| | | |]; try discriminate. cbn [layout_val rt_val dec_val] in *.
      destruct (size <=? 8); [|discriminate].
      assert (Eb : b = bool_bits size x) by (now injection E). subst b.
      apply N.leb_le in R. rewrite d_bool_rt by auto. unfold bool_bits. rewrite lenN_repeat.
      do 3 f_equal. lia.
    - (* SStr *)
      intros vf droot rd lim base p rem f size len cur v b r C A E R B1 B0 L L51 K.
      destruct v as [| | |s| | |]; try discriminate. cbn [layout_val rt_val dec_val] in *.
      apply andb_prop in R. destruct R as [R R3]. apply andb_prop in R. destruct R as [R1 R2].
      apply negb_true_iff in R1. unfold d_string. rewrite R1.
      destruct (f_boxString f).
      + cbn [negb orb] in R3. apply N.eqb_eq in R3. subst rem.
        assert (Eb : b = bits_of_bytes s) by (now injection E). subst b.
        rewrite lenN_bits_of_bytes in *. rewrite bits_of_bytes_length in K.
        apply d_boxstring_rt; auto. lia.
      + assert (Eb : b = cstring_bits s) by (now injection E). subst b. unfold cstring_bits in L, K.
        rewrite lenN_bits_of_bytes, lenN_app in L. rewrite bits_of_bytes_length, app_length in K.
        change (lenN [bzero]) with 1 in L. cbn [List.length] in K.
        rewrite d_cstring_rt by (auto; lia). unfold cstring_bits. rewrite lenN_bits_of_bytes, lenN_app.
        reflexivity.
    - (* SArr *)
      intros n u HV vf droot rd lim base p rem f size len cur v b r C A E R B1 B0 L L51 K.
      destruct v as [| | | |l| |]; try discriminate. cbn [layout_val rt_val dec_val chk_val] in *.
      destruct cur as [| | | |cl| |]; try discriminate. cbv zeta in R.
      destruct (lenN l =? n); [|discriminate]. rewrite E in R.
      unfold dbind. rewrite (rt_map u HV vf droot rd lim base f size len) with (l := l) (rem := rem) by auto.
      reflexivity.
    - (* SSlice *)
      exact rt_slice.
    - (* SPtr *)
      intros u HV vf droot rd lim base p rem f size len cur v b r C A E R B1 B0 L L51 K.
      destruct v as [| | | | |[x|]|]; try discriminate. cbn [layout_val rt_val dec_val chk_val] in *.
      unfold dbind. rewrite (HV vf droot rd lim base p rem f size len (zero u) x b r) by auto. reflexivity.
    - (* SStruct *)
      intros name cfo fs HF vf droot rd lim base p rem f size len cur v b r C A E R B1 B0 L L51 K.
      destruct v as [| | | | | |l]; try discriminate.
      change (layout_flds rname root ctx None name cfo l fs = Some b) in E.
      change (match chk_flds rname v0 None vf droot cfo name [] fs with
              | Some D => all_in (names_of fs) D | None => false end = true) in C.
      destruct cur as [| | | | | |cl]; try discriminate. rewrite rt_val_struct in R. apply andb_prop in R. destruct R as [R R3].
      apply andb_prop in R. destruct R as [R1 R2]. apply strs_eqb_eq in R1, R2. rewrite E in R3.
      rewrite dec_val_struct. destruct (negb (size =? 0) && (size mod 8 =? 0)).
      + apply andb_prop in R3. destruct R3 as [R3 R4]. apply andb_prop in R3. destruct R3 as [R3 R5].
        apply N.eqb_eq in R3, R5. unfold dbind at 1. unfold dpos at 1. cbn [fst]. unfold dbind at 1.
        change (2 ^ 51) with 2251799813685248 in L51.
        rewrite (rt_struct fs HF vf droot rd cfo name (w64 size) p p size l cl b r); auto; try lia.
        * unfold dbind, dpos. cbn [fst]. replace (p + lenN b - p) with size by lia.
          rewrite N.eqb_refl. reflexivity.
        * unfold w64, W64. lia.
        * change (2 ^ 51) with 2251799813685248. unfold w64, W64. lia.
      + unfold dbind. rewrite (rt_struct fs HF vf droot rd cfo name lim base p (rem + lenN b) l cl b r);
          auto; try lia.
    - (* FNil *)
      intros top vf droot cfo sname D Dend rt ltop lim base p rem self selfd cur b r C T Ks HD HN E R B1 B0 L L51 Lb K.
      cbn in E. injection E as <-. cbn in C. injection C as <-. exists selfd. rewrite lenN_nil, N.add_0_r. auto.
    - (* FCons *)
      intros f t HV rest HF top vf droot cfo sname D Dend rt ltop lim base p rem self selfd cur b r
             C T Ks HD HN E R B1 B0 L L51 Lb K.
      rewrite chk_flds_cons in C. cbv zeta in C.
      match type of C with (if ?c then _ else _) = _ => destruct c eqn:CC; [|discriminate] end.
      apply andb_prop in CC. destruct CC as [CC C6]. apply andb_prop in CC. destruct CC as [CC C5].
      apply andb_prop in CC. destruct CC as [CC C4]. apply andb_prop in CC. destruct CC as [CC C3].
      apply andb_prop in CC. destruct CC as [C1 C2].
      apply negb_true_iff in C3, C4.
      assert (N3 : ~ In (f_name f) D) by (rewrite <- str_in_In; congruence).
      assert (N4 : ~ In (f_name f) (names_of rest)) by (rewrite <- str_in_In; congruence).
      clear C3 C4.
      set (vfc := vf_at top vf D) in *. set (drc := dr_at top droot D) in *.
      assert (AR : forall sx, map fst sx = map fst self -> (forall j, In j D -> lookup j sx = lookup j self) ->
                   agree_root vfc drc (box_of rt sx)).
      { intros sx Kx Hx. destruct top as [hf|].
        - destruct T as (-> & -> & T). cbn [box_of]. split; [|exact Hx]. intros Hv.
          unfold vfc, vf_at in Hv.
          assert (X : lookup "FullBox" sx = lookup "FullBox" root).
          { apply orb_prop in Hv. destruct Hv as [Hv|Hv].
            - apply Hx. now apply str_in_In.
            - apply negb_true_iff in Hv. specialize (T Hv).
              rewrite (lookup_None "FullBox" root) by auto. apply lookup_None. now rewrite Kx. }
          unfold get_version, get_flags, fullbox_of. rewrite X. auto.
        - destruct T as (rd & -> & T). exact T. }
      pose proof (AR selfd Ks HD) as A0.
      rewrite layout_flds_cons in E. rewrite rt_flds_cons in R. rewrite dec_flds_cons. cbv zeta.
      set (rootd := box_of rt selfd) in *.
      set (envd := if cfo then mkenv selfd (get_version rootd) (get_flags rootd) ctx
                   else mkenv rootd (get_version rootd) (get_flags rootd) ctx).
      set (cn := if cfo then sname else rname) in *.
      destruct (owner rname root ctx cfo sname self) as [cn' env] eqn:OW.
      assert (Ecn : cn' = cn /\ env = (if cfo then spec_env root ctx self else spec_env root ctx root)).
      { unfold owner in OW. unfold cn. destruct cfo; injection OW as <- <-; auto. }
      destruct Ecn as [-> Eenv].
      assert (AE : agree_env (fdeps cn f) (fver cn f) envd env).
      { subst env envd. destruct A0 as [A1 A2].
        assert (HVV : fver cn f = true -> get_version rootd = get_version root /\ get_flags rootd = get_flags root).
        { intros Fv. rewrite Fv in C2. apply A1. now rewrite orb_false_r in C2. }
        destruct cfo; (split; [|split; [exact HVV|reflexivity]]); cbn [e_self spec_env]; intros j Hj;
          [apply HD|apply A2]; eapply all_in_In; eauto. }
      destruct (fdeps_agree cn f envd env AE) as (ES & EL & ET).
      rewrite ES, EL.
      assert (ET' : is_target (get_version rootd) (get_flags rootd) cn envd f =
                    enabled (get_version root) (get_flags root) cn env f).
      { rewrite <- is_target_enabled. destruct cfo; subst env envd; exact ET. }
      rewrite ET'. clear ET ET' ES EL AE.
      destruct (resolve_size cn env f) as [size|]; [|discriminate].
      destruct (resolve_len cn env f) as [len|]; [|discriminate].
      destruct (lookup (f_name f) self) as [x|] eqn:Lx; [|discriminate].
      destruct (lookup (f_name f) cur) as [c|] eqn:Lc; [|discriminate].
      cbn [obind] in E. cbv zeta in E, R.
      destruct (field_bits rname root ctx ltop cn env self f (layout_val rname root ctx f size len t x))
        as [b1|] eqn:FB; [|discriminate].
      cbn [obind] in E. apply obind_some in E. destruct E as (b2 & E2 & E).
      assert (Eb : b = b1 ++ b2) by (now injection E). subst b. clear E.
      apply andb_prop in R. destruct R as [R RR].
      rewrite lenN_app in *. rewrite app_length in K.
      (* the rest *)
      assert (CONT : forall D' s2,
        chk_flds rname v0 top vf droot cfo sname D' rest = Some Dend ->
        map fst s2 = map fst self -> (forall j, In j D' -> lookup j s2 = lookup j self) ->
        (forall j, In j (names_of rest) -> lookup j s2 = lookup j cur) ->
        exists selfd', dec_flds k rname versions ctx rt lim base sname cfo s2 rest (p + lenN b1, b2 ++ r)
            = Ok (selfd', (p + (lenN b1 + lenN b2), r)) /\
          map fst selfd' = map fst self /\ (forall j, In j Dend -> lookup j selfd' = lookup j self)).
      { intros D' s2 Cr K2 H2 HN2.
        destruct (HF top vf droot cfo sname D' Dend rt (option_map (fun n => n + lenN b1) ltop) lim base
                    (p + lenN b1) (rem - lenN b1) self s2 cur b2 r) as (s' & Ed & G); auto; try lia.
        exists s'. rewrite Ed. split; [|exact G]. do 3 f_equal. lia. }
      (* a plain value, decoded into s1 *)
      assert (PLAIN : forall D' s1 p1 bv,
        map fst s1 = map fst self -> (forall j, In j D -> lookup j s1 = lookup j self) ->
        (forall j, In j (f_name f :: names_of rest) -> lookup j s1 = lookup j cur) ->
        (forall j, In j D' -> j = f_name f \/ lookup j s1 = lookup j self) ->
        chk_flds rname v0 top vf droot cfo sname D' rest = Some Dend ->
        layout_val rname root ctx f size len t x = Some bv ->
        rt_val rname root ctx p1 (rem - lenN b1) f size len t c x = true ->
        base <= p1 -> p1 + lenN bv = p + lenN b1 -> (List.length bv < k)%nat ->
        exists selfd', (self' <~ (match lookup (f_name f) s1 with
                   | None => dpanic
                   | Some cur =>
                       x <~ dec_val k rname versions ctx (box_of rt s1) lim base f size len t cur ;;
                       if is_fullbox t && negb (version_in versions (get_version (box_of rt (update (f_name f) x s1))))
                       then dfail EUnsupportedVersion
                       else dret (update (f_name f) x s1)
                   end) ;; dec_flds k rname versions ctx rt lim base sname cfo self' rest) (p1, bv ++ b2 ++ r)
            = Ok (selfd', (p + (lenN b1 + lenN b2), r)) /\
          map fst selfd' = map fst self /\ (forall j, In j Dend -> lookup j selfd' = lookup j self)).
      { intros D' s1 p1 bv K1 H1 HN1 HD1 Cr Ev Rv B1' Pe Kv.
        rewrite (HN1 (f_name f)) by (now left). rewrite Lc. unfold dbind at 1. unfold dbind at 1.
        rewrite (HV vfc drc (box_of rt s1) lim base p1 (rem - lenN b1) f size len c x bv (b2 ++ r)); auto; try lia.
        assert (NN : lookup (f_name f) s1 <> None).
        { apply (lookup_keys _ _ self K1). rewrite Lx. discriminate. }
        assert (FBX : is_fullbox t && negb (version_in versions
                  (get_version (box_of rt (update (f_name f) x s1)))) = false).
        { destruct (is_fullbox t); [|reflexivity]. cbn [implb] in C5. apply andb_prop in C5.
          destruct C5 as [C5 C7]. destruct top as [hf|]; [|discriminate]. destruct T as (-> & -> & T).
          cbn [box_of]. apply String.eqb_eq in C7. rewrite C7 in *.
          assert (X : lookup "FullBox" (update "FullBox" x s1) = lookup "FullBox" root).
          { rewrite lookup_update_same by auto. now rewrite Lx. }
          unfold get_version at 1, fullbox_of. rewrite X. fold (fullbox_of root). fold (get_version root).
          rewrite Hver. reflexivity. }
        rewrite FBX. unfold dret. rewrite Pe. apply (CONT D'); auto.
        - now rewrite keys_update.
        - intros j Hj. destruct (string_dec j (f_name f)) as [->|Nj].
          + rewrite lookup_update_same by auto. auto.
          + rewrite lookup_update_other by auto. destruct (HD1 j Hj); [contradiction|auto].
        - intros j Hj. assert (Nj : j <> f_name f) by (intros ->; contradiction).
          rewrite lookup_update_other by auto. apply HN1. now right. }
      unfold field_bits in FB. rewrite <- app_assoc.
      destruct (enabled (get_version root) (get_flags root) cn env f) eqn:EN.
      2:{ (* absent *)
        assert (Eb1 : b1 = []) by (now injection FB). subst b1. apply val_eqb_eq in R. subst c.
        unfold dbind at 1. unfold dret at 1. rewrite lenN_nil in *. cbn [app].
        rewrite !N.add_0_l. rewrite N.add_0_r in CONT. rewrite !N.add_0_l in CONT.
        assert (HDx : forall j, In j (f_name f :: D) -> lookup j selfd = lookup j self).
        { intros j [<-|Hj]; [|auto]. rewrite (HN (f_name f)) by (now left). congruence. }
        assert (HNx : forall j, In j (names_of rest) -> lookup j selfd = lookup j cur).
        { intros j Hj. apply HN. now right. }
        assert (UC : unconditional f = true -> option_allows cn env f = true ->
                     enabled (get_version root) (get_flags root) cn env f = true).
        { intros Hu Ho. unfold unconditional in Hu. unfold enabled, version_allows, flags_allow. rewrite Ho.
          repeat (apply andb_prop in Hu; let X := fresh in destruct Hu as [Hu X]; rewrite ?X).
          rewrite Hu. cbn [orb andb]. rewrite orb_true_r. reflexivity. }
        assert (UO : unconditional f = true -> False).
        { intros Hu. assert (option_allows cn env f = true).
          { unfold option_allows. unfold unconditional in Hu. apply andb_prop in Hu. destruct Hu as [_ Hu].
            apply negb_true_iff in Hu. now rewrite Hu. }
          rewrite UC in EN by auto. discriminate. }
        destruct (hook_of cn (f_name f)).
        - apply (CONT (f_name f :: D)); auto.
        - destruct (unconditional f); [now elim UO|discriminate].
        - destruct (unconditional f); [now elim UO|discriminate].
        - destruct (str_in _ D); [|discriminate]. apply (CONT (f_name f :: D)); auto.
        - destruct (str_in _ D); [|discriminate]. apply (CONT (f_name f :: D)); auto. }
      set (rest_of := fun self' => dec_flds k rname versions ctx rt lim base sname cfo self' rest) in *.
      assert (LB : sub64 lim (p - base) = rem).
      { change (2 ^ 51) with 2251799813685248 in L51.
        rewrite sub64_sub by (change (2 ^ 64) with 18446744073709551616; lia). lia. }
      assert (PLAIN0 : chk_flds rname v0 top vf droot cfo sname (f_name f :: D) rest = Some Dend ->
         layout_val rname root ctx f size len t x = Some b1 ->
         rt_val rname root ctx p (rem - lenN b1) f size len t c x = true ->
         exists selfd', (self' <~ (match lookup (f_name f) selfd with
                   | None => dpanic
                   | Some cur =>
                       x <~ dec_val k rname versions ctx rootd lim base f size len t cur ;;
                       if is_fullbox t && negb (version_in versions (get_version (box_of rt (update (f_name f) x selfd))))
                       then dfail EUnsupportedVersion
                       else dret (update (f_name f) x selfd)
                   end) ;; rest_of self') (p, b1 ++ b2 ++ r)
            = Ok (selfd', (p + (lenN b1 + lenN b2), r)) /\
          map fst selfd' = map fst self /\ (forall j, In j Dend -> lookup j selfd' = lookup j self)).
      { intros Cr Ev Rv. apply (PLAIN (f_name f :: D)); auto; try lia.
        intros j [Hj|Hj]; [now left|right; auto]. }
      destruct (hook_of cn (f_name f)) eqn:HK; cbn [d_hook].
      + (* no hook *)
        exact (PLAIN0 C FB R).
      + (* emsg strings *)
        destruct (unconditional f); [|discriminate]. destruct vfc eqn:Hvfc; [|discriminate]. cbn [andb] in C.
        destruct A0 as [A1 _]. destruct (A1 eq_refl) as [Av _]. rewrite Av.
        destruct (get_version root =? 0) eqn:V0.
        * exact (PLAIN0 C FB R).
        * assert (Eb1 : b1 = []) by (now injection FB). subst b1.
          unfold dbind, dpos, dret. cbn [fst negb app]. rewrite lenN_nil in *. rewrite N.add_0_r in CONT.
          apply (CONT D); auto. intros j Hj. apply HN. now right.
      + (* emsg data *)
        destruct (unconditional f); [|discriminate]. destruct vfc eqn:Hvfc; [|discriminate]. cbn [andb] in C.
        destruct A0 as [A1 _]. destruct (A1 eq_refl) as [Av _]. rewrite Av.
        destruct (get_version root =? 0) eqn:V0.
        * exact (PLAIN0 C FB R).
        * destruct ltop as [n|]; [|discriminate]. destruct (n mod 8 =? 0); [|discriminate].
          apply obind_some in FB. destruct FB as (bv & Ev & FB).
          destruct (lookup "SchemeIdUri" self) as [[| | |s1| | |]|] eqn:L1; try discriminate.
          destruct (lookup "Value" self) as [[| | |s2| | |]|] eqn:L2; try discriminate.
          cbn [as_bytes] in FB.
          assert (Eb1 : b1 = cstring_bits s1 ++ cstring_bits s2 ++ bv) by (now injection FB). subst b1. clear FB.
          apply andb_prop in R. destruct R as [R Rv]. apply andb_prop in R. destruct R as [R R8].
          apply andb_prop in R. destruct R as [R1 R2]. apply N.eqb_eq in R8.
          destruct (negb (existsb (fun k0 => str_in k0 (f_name f :: names_of rest ++ D)) ["SchemeIdUri"; "Value"]))
            eqn:NX; [|discriminate]. apply negb_true_iff in NX. cbn [existsb] in NX.
          apply orb_false_iff in NX. destruct NX as [X1 NX]. apply orb_false_iff in NX. destruct NX as [X2 _].
          assert (Y1 : ~ In "SchemeIdUri" (f_name f :: names_of rest ++ D)) by (rewrite <- str_in_In; congruence).
          assert (Y2 : ~ In "Value" (f_name f :: names_of rest ++ D)) by (rewrite <- str_in_In; congruence).
          assert (LS : forall s, lenN (cstring_bits s) = 8 * (lenN s + 1)).
          { intros s. unfold cstring_bits. rewrite lenN_bits_of_bytes, lenN_app. reflexivity. }
          assert (KS : forall s, List.length (cstring_bits s) = (8 * (List.length s + 1))%nat).
          { intros s. unfold cstring_bits. rewrite bits_of_bytes_length, app_length. reflexivity. }
          rewrite !app_length, !KS in K. rewrite !lenN_app, !LS in *.
          set (sx := update "Value" (VStr s2) (update "SchemeIdUri" (VStr s1) selfd)).
          destruct (PLAIN (f_name f :: "SchemeIdUri" :: "Value" :: D) sx
                      (p + 8 * (lenN s1 + 1) + 8 * (lenN s2 + 1)) bv) as (s' & Ed & G); auto; try lia.
          { unfold sx. now rewrite !keys_update. }
          { intros j Hj. unfold sx. rewrite !lookup_update_other; auto;
              intros ->; [apply Y1|apply Y2]; right; apply in_or_app; now right. }
          { intros j Hj. unfold sx. rewrite !lookup_update_other; auto;
              intros ->; [apply Y1|apply Y2]; (destruct Hj as [->|Hj]; [now left|]); right; apply in_or_app; now left. }
          { intros j [Hj|[Hj|[Hj|Hj]]].
            - now left.
            - right. subst j. unfold sx. rewrite lookup_update_other by discriminate.
              rewrite lookup_update_same; auto. apply (lookup_keys _ _ self Ks). rewrite L1. discriminate.
            - right. subst j. unfold sx. rewrite lookup_update_same; auto.
              rewrite lookup_update_other by discriminate.
              apply (lookup_keys _ _ self Ks). rewrite L2. discriminate.
            - right. unfold sx. rewrite !lookup_update_other; auto;
                intros ->; [apply Y1|apply Y2]; right; apply in_or_app; now right. }
          exists s'. split; [|exact G]. rewrite <- Ed. rewrite <- !app_assoc.
          set (tail := bv ++ b2 ++ r). unfold dbind, dpos. cbn [fst].
          rewrite d_zstring_rt by (auto; lia). rewrite d_zstring_rt by (auto; lia).
          unfold dret. reflexivity.
      + (* hdlr name *)
        destruct (str_in "PreDefined" D) eqn:PD; [|discriminate]. apply str_in_In in PD.
        pose proof (hook_hdlr _ _ HK) as Hn.
        destruct t; try discriminate. destruct x as [| | |s| | |]; try discriminate.
        apply andb_prop in R. destruct R as [R R5]. apply andb_prop in R. destruct R as [R R4].
        apply andb_prop in R. destruct R as [R R3]. apply andb_prop in R. destruct R as [R1 R2].
        apply negb_true_iff in R1. apply N.eqb_eq in R3, R4. apply negb_true_iff in R5.
        cbn [layout_val] in FB. rewrite R1 in FB.
        assert (Eb1 : b1 = bits_of_bytes (s ++ [bzero])) by (now injection FB). subst b1. clear FB.
        rewrite lenN_bits_of_bytes in *. rewrite bits_of_bytes_length in K.
        rewrite lenN_app in *. change (lenN [bzero]) with 1 in *.
        rewrite app_length in K. cbn [List.length] in K.
        assert (NN : lookup "Name" selfd <> None).
        { apply (lookup_keys _ _ self Ks). rewrite <- Hn, Lx. discriminate. }
        destruct (CONT (f_name f :: D) (update "Name" (VStr s) selfd)) as (s' & Ed & G); auto.
        { now rewrite keys_update. }
        { intros j Hj. destruct (string_dec j "Name") as [->|Nj].
          - rewrite lookup_update_same by auto. congruence.
          - rewrite lookup_update_other by auto. destruct Hj as [Hj|Hj]; [congruence|auto]. }
        { intros j Hj. rewrite lookup_update_other by (intros ->; rewrite Hn in N4; contradiction).
          apply HN. now right. }
        exists s'. split; [|exact G]. unfold dbind at 1. unfold dbind at 1. unfold dpos at 1. cbn [fst].
        rewrite LB. unfold dbind at 1. cbn [d_hook].
        assert (Rs : rem / 8 = lenN s + 1) by lia. rewrite Rs.
        destruct (N.eqb_spec (lenN s + 1) 0); [lia|]. unfold dbind at 1. unfold d_has. cbn [fst snd].
        pose proof R4 as R4'. apply N.eqb_eq in R4'. rewrite R4'.
        rewrite lenN_app, lenN_bits_of_bytes, lenN_app. change (lenN [bzero]) with 1.
        destruct (N.leb_spec (8 * (lenN s + 1)) (8 * (lenN s + 1) + lenN (b2 ++ r))); [|lia].
        cbn [andb negb]. unfold maxAlloc. change (2 ^ 51) with 2251799813685248 in L51.
        destruct (N.leb_spec 281474976710656 (lenN s + 1)); [lia|].
        unfold dbind at 1.
        pose proof (d_bytes_app (s ++ [bzero]) p (b2 ++ r) R4) as DB.
        rewrite lenN_app in DB. change (lenN [bzero]) with 1 in DB. rewrite DB. clear DB.
        assert (NM : match s ++ [bzero] with
            | [] => dpanic
            | p0 :: tl =>
                dret (true, update "Name" (VStr (if negb (as_uint (lookup "PreDefined" selfd) =? 0)
                   && (2 <=? lenN s + 1) && (lenN s + 1 =? (b2N p0 + 1) mod 256)
                   then takeN (b2N p0) tl else take_until_nul (s ++ [bzero]))) selfd)
            end = dret (true, update "Name" (VStr s) selfd)).
        { rewrite (HD _ PD). destruct s as [|c0 s0].
          - cbn [app]. change (2 <=? lenN [] + 1) with false. rewrite andb_false_r. cbn [andb].
            reflexivity.
          - rewrite lenN_cons in *. rewrite take_until_nul_rt by auto. cbn [app].
            replace (2 <=? lenN s0 + 1 + 1) with true by (symmetry; apply N.leb_le; lia).
            rewrite andb_true_r. rewrite R5. reflexivity. }
        cbv zeta. rewrite NM. unfold dret at 1. exact Ed.
      + (* avcC *)
        destruct (str_in "Profile" D) eqn:PD; [|discriminate]. apply str_in_In in PD.
        pose proof (hook_avc _ _ HK) as Hn.
        destruct x as [| |h| | | |]; try discriminate. apply Bool.eqb_prop in R.
        assert (Eb1 : b1 = []).
        { destruct (implb _ _) in FB; [now injection FB|discriminate]. }
        subst b1. clear FB. rewrite lenN_nil in *. cbn [app].
        assert (NN : lookup "HighProfileFieldsEnabled" selfd <> None).
        { apply (lookup_keys _ _ self Ks). rewrite <- Hn, Lx. discriminate. }
        unfold dbind at 1. unfold dbind at 1. unfold dpos at 1. cbn [fst].
        rewrite LB. unfold dbind at 1. unfold dret at 1. unfold dret at 1.
        rewrite (HD _ PD), high_profile_spec, <- R. rewrite N.add_0_r in CONT.
        apply (CONT (f_name f :: D)); auto.
        * now rewrite keys_update.
        * intros j Hj. destruct (string_dec j "HighProfileFieldsEnabled") as [->|Nj].
          -- rewrite lookup_update_same by auto. congruence.
          -- rewrite lookup_update_other by auto. destruct Hj as [Hj|Hj]; [congruence|auto].
        * intros j Hj. rewrite lookup_update_other by (intros ->; rewrite Hn in N4; contradiction).
          apply HN. now right.
  Qed.
End RT.
