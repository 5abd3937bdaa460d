(** Where a field is found in the payload of a box: positions computed from the
    declarations, and that [layout] puts the field there. *)
From Verif Require Import Base BaseProofs Schema Methods Registry SpecCodec RoundTripBase.
Local Open Scope string_scope.
Local Open Scope list_scope.
Local Open Scope N_scope.

Scheme sty_mut2 := Induction for sty Sort Prop with flds_mut2 := Induction for flds Sort Prop.
Combined Scheme sty_flds_ind2 from sty_mut2, flds_mut2.

Section Static.
  Variable rname : string.
  Variable ver : N.
  Variable has : N -> bool.                 (* some of these flags are set *)
  Variable dyn : string -> option N.        (* dynamic sizes answered by the box *)

  Definition allowed (f : finfo) : bool :=
    (version_allows ver f) && ((f_optFlag f =? 0) || has (f_optFlag f)) &&
    ((f_nOptFlag f =? 0) || negb (has (f_nOptFlag f))).
  Definition simple (cn : string) (f : finfo) : bool :=
    negb (f_optDyn f) && match hook_of cn (f_name f) with HNone => true | _ => false end.
  Definition size_here (cfo : bool) (f : finfo) : option N :=
    if f_sizeDyn f then if cfo then None else dyn (f_name f) else Some (f_size f).

  Fixpoint vsize (f : finfo) (size : N) (t : sty) : option N :=
    match t with
    | SUint _ | SInt _ => if f_varint f then None else Some size
    | SBool => Some size
    | SArr n u => option_map (N.mul n) (vsize f size u)
    | SStruct name cfo fs => fsize (if cfo then name else rname) cfo fs
    | _ => None
    end
  with fsize (cn : string) (cfo : bool) (fs : flds) : option N :=
    match fs with
    | FNil => Some 0
    | FCons f t r =>
        if simple cn f then
          if allowed f then
            match size_here cfo f with
            | Some s => match vsize f s t, fsize cn cfo r with Some a, Some b => Some (a + b) | _, _ => None end
            | None => None
            end
          else fsize cn cfo r
        else None
    end.
  Fixpoint locate (cn : string) (cfo : bool) (name : string) (fs : flds) : option (N * N * finfo * sty) :=
    match fs with
    | FNil => None
    | FCons f t r =>
        if simple cn f then
          if allowed f then
            match size_here cfo f with
            | Some s =>
                if String.eqb (f_name f) name then Some (0, s, f, t)
                else match vsize f s t, locate cn cfo name r with
                     | Some a, Some (o, s', f', t') => Some (a + o, s', f', t')
                     | _, _ => None
                     end
            | None => None
            end
          else locate cn cfo name r
        else None
    end.
  Lemma fsize_cons : forall cn cfo f t r, fsize cn cfo (FCons f t r) =
    if simple cn f then
      if allowed f then
        match size_here cfo f with
        | Some s => match vsize f s t, fsize cn cfo r with Some a, Some b => Some (a + b) | _, _ => None end
        | None => None
        end
      else fsize cn cfo r
    else None.
  Proof. reflexivity. Qed.
End Static.
Lemma layout_cons : forall rname root ctx top sname cfo self f t rest,
  layout_flds rname root ctx top sname cfo self (FCons f t rest) =
  let (cn, env) := owner rname root ctx cfo sname self in
  obind (resolve_size cn env f) (fun size =>
  obind (resolve_len cn env f) (fun len =>
  obind (field_bits rname root ctx top cn env self f
           (obind (lookup (f_name f) self) (layout_val rname root ctx f size len t)))
    (fun b => obind (layout_flds rname root ctx (option_map (fun n => n + lenN b) top) sname cfo self rest)
                    (fun r => Some (b ++ r))))).
Proof. reflexivity. Qed.

  Lemma concat_len : forall (g : val -> option (list bool)) n l b,
    (forall v c, g v = Some c -> lenN c = n) -> concat_bits g l = Some b -> lenN b = lenN l * n.
  Proof.
    intros g n l. induction l as [|v l IH]; intros b G H; cbn [concat_bits] in H.
    - injection H as <-. reflexivity.
    - destruct (g v) as [c|] eqn:E; [|discriminate]. cbn [obind] in H.
      destruct (concat_bits g l) as [b'|] eqn:E'; [|discriminate]. injection H as <-.
      rewrite lenN_app, (G _ _ E), (IH b' G eq_refl), lenN_cons. lia.
  Qed.
  Lemma concat_nth : forall (g : val -> option (list bool)) n l b i,
    (forall v c, g v = Some c -> lenN c = n) -> concat_bits g l = Some b -> i < lenN l ->
    exists v c, nthN i l = Some v /\ g v = Some c /\ exists b1 b2, b = b1 ++ c ++ b2 /\ lenN b1 = i * n.
  Proof.
    intros g n l. induction l as [|v l IH]; intros b i G H I; [rewrite lenN_nil in I; lia|].
    cbn [concat_bits] in H.
    destruct (g v) as [c|] eqn:E; [|discriminate]. cbn [obind] in H.
    destruct (concat_bits g l) as [b'|] eqn:E'; [|discriminate]. injection H as <-.
    destruct (N.eq_dec i 0) as [->|NZ].
    - exists v, c. split; [reflexivity|]. split; [exact E|]. exists [], b'. split; reflexivity.
    - rewrite lenN_cons in I. destruct (IH b' (i - 1) G eq_refl ltac:(lia)) as (v' & c' & N1 & N2 & b1 & b2 & -> & L1).
      exists v', c'. split.
      { cbn [nthN]. destruct (N.eqb_spec i 0); [lia|]. now rewrite <- N.sub_1_r. }
      split; [exact N2|]. exists (c ++ b1), b2. split; [now rewrite app_assoc|].
      rewrite lenN_app, (G _ _ E), L1. nia.
  Qed.

Section Ok.
  Variable rname : string.
  Variable root : fields.
  Variable ctx : context.
  Variable dyn : string -> option N.
  Let has (m : N) : bool := negb (N.land (get_flags root) m =? 0).
  Hypothesis Hdyn : forall f s, f_sizeDyn f = true -> dyn (f_name f) = Some s ->
    resolve_size rname (spec_env root ctx root) f = Some s.

  Let ver := get_version root.
  Lemma allowed_ok : forall cn env f, simple cn f = true ->
    enabled ver (get_flags root) cn env f = allowed ver has f.
  Proof.
    intros cn env f S. unfold simple in S. apply andb_prop in S. destruct S as [S _]. apply negb_true_iff in S.
    unfold enabled, allowed, option_allows, flags_allow, has. rewrite S, andb_true_r, andb_assoc.
    now rewrite negb_involutive.
  Qed.
  Lemma simple_hook : forall cn f, simple cn f = true -> hook_of cn (f_name f) = HNone.
  Proof. intros cn f S. unfold simple in S. apply andb_prop in S. destruct S as [_ S]. now destruct (hook_of _ _). Qed.
  Lemma size_ok : forall cfo sname self f s, size_here dyn cfo f = Some s ->
    let (cn, env) := owner rname root ctx cfo sname self in resolve_size cn env f = Some s.
  Proof.
    intros cfo sname self f s H. unfold size_here in H. unfold owner. destruct (f_sizeDyn f) eqn:D.
    - destruct cfo; [discriminate|]. now apply Hdyn.
    - injection H as <-. destruct cfo; unfold resolve_size; now rewrite D.
  Qed.


  Lemma size_all :
    (forall t f size len v b n, vsize rname ver has dyn f size t = Some n ->
       layout_val rname root ctx f size len t v = Some b -> lenN b = n) /\
    (forall fs top sname (cfo : bool) self b n, fsize rname ver has dyn (if cfo then sname else rname) cfo fs = Some n ->
       layout_flds rname root ctx top sname cfo self fs = Some b -> lenN b = n).
  Proof.
    apply sty_flds_ind2.
    - intros w f size len v b n V L. cbn in V, L. destruct v; try discriminate.
      destruct (f_varint f); [discriminate|]. injection V as <-.
      destruct (_ && _); [|discriminate]. injection L as <-. unfold uint_bits. now rewrite lenN_N_to_bits, N2Nat.id.
    - intros w f size len v b n V L. cbn in V, L. destruct v; try discriminate.
      destruct (f_varint f); [discriminate|]. injection V as <-.
      destruct (_ && _); [|discriminate]. injection L as <-. unfold int_bits. now rewrite lenN_N_to_bits, N2Nat.id.
    - intros f size len v b n V L. cbn in V, L. destruct v; try discriminate. injection V as <-.
      destruct (_ <=? _); [|discriminate]. injection L as <-. unfold bool_bits, lenN. now rewrite repeat_length, N2Nat.id.
    - discriminate.
    - intros m t IH f size len v b n V L. cbn in V, L. destruct v; try discriminate.
      destruct (lenN l =? m) eqn:E; [|discriminate]. apply N.eqb_eq in E.
      destruct (vsize rname ver has dyn f size t) as [k|] eqn:K; [|discriminate]. injection V as <-.
      rewrite (concat_len (layout_val rname root ctx f size len t) k l b); [now rewrite E| |exact L].
      intros v c. now apply IH.
    - discriminate.
    - discriminate.
    - intros name cfo fs IH f size len v b n V L. cbn [vsize] in V. cbn in L. destruct v; try discriminate.
      exact (IH _ _ _ _ _ _ V L).
    - intros top sname cfo self b n V L. cbn in V, L. injection V as <-. injection L as <-. reflexivity.
    - intros f t IHt r IHr top sname cfo self b n V L. rewrite fsize_cons in V. rewrite layout_cons in L.
      destruct (simple _ f) eqn:S; [|discriminate].
      pose proof (size_ok cfo sname self f) as SO.
      assert (OW : fst (owner rname root ctx cfo sname self) = if cfo then sname else rname) by (unfold owner; destruct cfo; reflexivity).
      destruct (owner rname root ctx cfo sname self) as [cn env]. cbn [fst] in OW. rewrite <- OW in S, V.
      destruct (resolve_size cn env f) as [sz|] eqn:RS; [|discriminate]. cbn [obind] in L.
      destruct (resolve_len cn env f) as [ln|]; [|discriminate]. cbn [obind] in L. unfold field_bits in L.
      fold ver in L. rewrite (allowed_ok cn env f S), (simple_hook cn f S) in L.
      destruct (allowed ver has f).
      + destruct (size_here dyn cfo f) as [s|] eqn:SH; [|discriminate].
        specialize (SO s eq_refl). injection SO as ->.
        destruct (vsize _ _ _ _ f s t) as [a|] eqn:VA; [|discriminate].
        destruct (fsize _ _ _ _ cn cfo r) as [c|] eqn:FC; [|discriminate]. injection V as <-.
        destruct (lookup (f_name f) self) as [v|]; [|discriminate]. cbn [obind] in L.
        destruct (layout_val _ _ _ f s ln t v) as [bv|] eqn:BV; [|discriminate]. cbn [obind] in L.
        destruct (layout_flds _ _ _ _ sname cfo self r) as [br|] eqn:BR; [|discriminate]. injection L as <-.
        rewrite lenN_app, (IHt _ _ _ _ _ _ VA BV). f_equal. eapply IHr; [|exact BR]. rewrite <- OW. exact FC.
      + cbn [obind] in L. destruct (layout_flds _ _ _ _ sname cfo self r) as [br|] eqn:BR; [|discriminate].
        injection L as <-. cbn [app]. eapply IHr; [|exact BR]. rewrite <- OW. exact V.
  Qed.

  Lemma locate_ok : forall fs top sname (cfo : bool) self b name o s f t,
    locate rname ver has dyn (if cfo then sname else rname) cfo name fs = Some (o, s, f, t) ->
    layout_flds rname root ctx top sname cfo self fs = Some b ->
    exists b1 bk b2 v len, b = b1 ++ bk ++ b2 /\ lenN b1 = o /\ lookup name self = Some v /\
      (let (cn, env) := owner rname root ctx cfo sname self in resolve_len cn env f = Some len) /\
      layout_val rname root ctx f s len t v = Some bk.
  Proof.
    induction fs as [|f t r IHr]; intros top sname cfo self b name o s f' t' V L; [discriminate|].
    cbn [locate] in V. rewrite layout_cons in L.
    destruct (simple _ f) eqn:S; [|discriminate].
    pose proof (size_ok cfo sname self f) as SO.
    assert (OW : fst (owner rname root ctx cfo sname self) = if cfo then sname else rname) by (unfold owner; destruct cfo; reflexivity).
    specialize (fun top b o => IHr top sname cfo self b name o s f' t').
    destruct (owner rname root ctx cfo sname self) as [cn env]. cbn [fst] in OW. rewrite <- OW in S, V, IHr.
    destruct (resolve_size cn env f) as [sz|] eqn:RS; [|discriminate]. cbn [obind] in L.
    destruct (resolve_len cn env f) as [ln|] eqn:RL; [|discriminate]. cbn [obind] in L. unfold field_bits in L.
    fold ver in L. rewrite (allowed_ok cn env f S), (simple_hook cn f S) in L.
    destruct (allowed ver has f).
    - destruct (size_here dyn cfo f) as [s'|] eqn:SH; [|discriminate].
      specialize (SO s' eq_refl). injection SO as ->.
      destruct (lookup (f_name f) self) as [v|] eqn:LU; [|discriminate]. cbn [obind] in L.
      destruct (layout_val _ _ _ f s' ln t v) as [bv|] eqn:BV; [|discriminate]. cbn [obind] in L.
      destruct (layout_flds _ _ _ _ sname cfo self r) as [br|] eqn:BR; [|discriminate]. injection L as <-.
      destruct (String.eqb_spec (f_name f) name) as [EN|EN].
      + injection V as <- <- <- <-. exists [], bv, br, v, ln. rewrite <- EN. repeat split; auto.
      + destruct (vsize _ _ _ _ f s' t) as [a|] eqn:VA; [|discriminate].
        destruct (locate _ _ _ _ cn cfo name r) as [[[[o' s''] f''] t'']|] eqn:FC; [|discriminate].
        injection V as <- -> -> ->.
        destruct (IHr _ _ _ eq_refl BR) as (b1 & bk & b2 & v' & len & -> & <- & LV & RLL & LL).
        exists (bv ++ b1), bk, b2, v', len. repeat split; auto.
        * now rewrite app_assoc.
        * rewrite lenN_app. now rewrite (proj1 size_all _ _ _ _ _ _ _ VA BV).
    - cbn [obind] in L. destruct (layout_flds _ _ _ _ sname cfo self r) as [br|] eqn:BR; [|discriminate].
      injection L as <-. cbn [app]. exact (IHr _ _ _ V BR).
  Qed.

End Ok.
