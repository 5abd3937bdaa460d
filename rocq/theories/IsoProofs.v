(** The tables that the declarations of a box amount to. *)
From Verif Require Import Base BaseProofs Schema Methods Registry Structs SpecCodec MarshalProofs SpecIso.
Local Open Scope string_scope.
Local Open Scope list_scope.
Local Open Scope N_scope.

Definition cands (l : list mcond) : mcond :=
  match filter (fun c => match c with CTrue => false | _ => true end) l with
  | [] => CTrue
  | c :: r => fold_left CAnd r c
  end.
Definition cond_of (cn : string) (f : finfo) : mcond :=
  cands [ (if f_version f =? anyVersion then CTrue else CVersion (f_version f));
          (if f_nVersion f =? anyVersion then CTrue else CNot (CVersion (f_nVersion f)));
          (if f_optFlag f =? 0 then CTrue else CFlag (f_optFlag f));
          (if f_nOptFlag f =? 0 then CTrue else CNot (CFlag (f_nOptFlag f)));
          (if f_optDyn f then m_opt cn (f_name f) else CTrue) ].

Section IsoOf.
  Variable rname : string.
  Definition size_of (cn : string) (f : finfo) : mexp :=
    if f_sizeDyn f then m_size cn (f_name f) else MConst (f_size f).
  Definition len_of (cn : string) (f : finfo) : option mexp :=
    if f_lenDyn f then Some (m_len cn (f_name f))
    else if f_length f =? LengthUnlimited then None else Some (MConst (f_length f)).
  Fixpoint form_of (cn : string) (f : finfo) (t : sty) : form :=
    match t with
    | SUint _ => if f_varint f then Expandable else UInt (size_of cn f)
    | SInt _ => SInt' (size_of cn f)
    | SBool => Bit (size_of cn f)
    | SStr => if f_boxString f then RestString else ZString
    | SArr n u => Times n (form_of cn f u)
    | SSlice u => match len_of cn f with
                  | None => ToTheEnd (form_of cn f u)
                  | Some e => Several e (form_of cn f u)
                  end
    | SPtr u => Present (form_of cn f u)
    | SStruct name cfo fs => Group cfo (cols_of name cfo fs)
    end
  with cols_of (sname : string) (cfo : bool) (fs : flds) : table :=
    match fs with
    | FNil => []
    | FCons f t r =>
        let cn := if cfo then sname else rname in
        let c := cond_of cn f in
        match hook_of cn (f_name f) with
        | HAvcHigh => [(c, f_name f, Absent)]
        | HEmsgSkip => [(cands [c; CVersion 0], f_name f, form_of cn f t)]
        | HEmsgData => [(cands [c; CNot (CVersion 0)], "SchemeIdUri", ZString);
                        (cands [c; CNot (CVersion 0)], "Value", ZString); (c, f_name f, form_of cn f t)]
        | _ => [(c, f_name f, form_of cn f t)]
        end ++ cols_of sname cfo r
    end.
End IsoOf.
Lemma cols_of_cons : forall rname sname cfo f t r,
  cols_of rname sname cfo (FCons f t r) =
  let cn := if cfo then sname else rname in
  let c := cond_of cn f in
  match hook_of cn (f_name f) with
  | HAvcHigh => [(c, f_name f, Absent)]
  | HEmsgSkip => [(cands [c; CVersion 0], f_name f, form_of rname cn f t)]
  | HEmsgData => [(cands [c; CNot (CVersion 0)], "SchemeIdUri", ZString);
                  (cands [c; CNot (CVersion 0)], "Value", ZString); (c, f_name f, form_of rname cn f t)]
  | _ => [(c, f_name f, form_of rname cn f t)]
  end ++ cols_of rname sname cfo r.
Proof. reflexivity. Qed.
Definition table_of (d : boxdef) : table := cols_of (bd_name d) (bd_name d) true (bd_flds d).

Lemma ceval_cands : forall env l, ceval env (cands l) = forallb (ceval env) l.
Proof.
  intros env l. unfold cands.
  assert (F : forallb (ceval env) l =
    forallb (ceval env) (filter (fun c => match c with CTrue => false | _ => true end) l)).
  { induction l as [|c l IH]; [reflexivity|]. cbn [forallb filter]. rewrite IH. destruct c; reflexivity. }
  rewrite F. destruct (filter _ l) as [|c r]; [reflexivity|]. clear F.
  cbn [forallb]. revert c. induction r as [|d r IH]; intros c; cbn [fold_left forallb].
  - now rewrite andb_true_r.
  - rewrite IH. cbn [ceval]. now rewrite andb_assoc.
Qed.
Lemma cond_ok : forall cn env f, e_ver env <> anyVersion ->
  ceval env (cond_of cn f) = enabled (e_ver env) (e_flags env) cn env f.
Proof.
  intros cn env f V. unfold cond_of, enabled, version_allows, flags_allow, option_allows. rewrite ceval_cands.
  cbn [forallb]. apply N.eqb_neq in V. rewrite V. cbn [orb].
  destruct (f_version f =? anyVersion), (f_nVersion f =? anyVersion), (f_optFlag f =? 0), (f_nOptFlag f =? 0), (f_optDyn f);
    cbn [ceval orb andb negb];
    rewrite ?andb_true_r, ?andb_true_l, ?negb_involutive, ?andb_assoc, ?(N.eqb_sym (e_ver env)); reflexivity.
Qed.

Lemma concat_flat : forall f g l b, concat_bits f l = Some b ->
  (forall v b, In v l -> f v = Some b -> g v = b) -> flat_map g l = b.
Proof.
  induction l as [|v l IH]; intros b H G; cbn [concat_bits] in H.
  - injection H as <-. reflexivity.
  - destruct (f v) as [b1|] eqn:E1; [|discriminate]. cbn [obind] in H.
    destruct (concat_bits f l) as [b2|] eqn:E2; [|discriminate]. injection H as <-.
    cbn [flat_map]. rewrite (G v b1) by (auto; now left). rewrite (IH b2); auto. intros; apply G; auto; now right.
Qed.

Section Ok.
  Variable rname : string.
  Variable root : fields.
  Variable ctx : context.
  Hypothesis V : get_version root <> anyVersion.
  Lemma number_size : forall cn env f size, resolve_size cn env f = Some size -> number env (size_of cn f) = size.
  Proof.
    intros cn env f size H. unfold resolve_size in H. unfold number, size_of. destruct (f_sizeDyn f).
    - now rewrite H.
    - cbn [meval]. congruence.
  Qed.
  Definition col_bits (env : menv) (self : fields) (c : mcond * string * form) : list bool :=
    let '(cond, name, s) := c in
    if ceval env cond then bits_of root ctx env s (member name (VStruct self)) else [].

  Lemma form_ok :
    (forall t f cn env size len v b,
       resolve_size cn env f = Some size -> resolve_len cn env f = Some len ->
       layout_val rname root ctx f size len t v = Some b -> bits_of root ctx env (form_of rname cn f t) v = b) /\
    (forall fs sname (cfo : bool) self top b,
       layout_flds rname root ctx top sname cfo self fs = Some b ->
       flat_map (col_bits (seen_from root ctx (if cfo then self else root)) self) (cols_of rname sname cfo fs) = b).
  Proof.
    apply sty_flds_mutind.
    - intros w f cn env size len v b RS RL H. cbn [layout_val] in H. destruct v; try discriminate.
      cbn [form_of]. destruct (f_varint f).
      + destruct (_ && _)%bool; [|discriminate]. injection H as <-. reflexivity.
      + destruct (_ && _)%bool; [|discriminate]. injection H as <-. cbn [bits_of]. now rewrite (number_size _ _ _ _ RS).
    - intros w f cn env size len v b RS RL H. cbn [layout_val] in H. destruct v; try discriminate.
      destruct (_ && _)%bool; [|discriminate]. injection H as <-. cbn [form_of bits_of].
      now rewrite (number_size _ _ _ _ RS).
    - intros f cn env size len v b RS RL H. cbn [layout_val] in H. destruct v as [| |x| | | |]; try discriminate.
      destruct (size <=? 8); [|discriminate]. injection H as <-. cbn [form_of bits_of].
      now rewrite (number_size _ _ _ _ RS).
    - intros f cn env size len v b RS RL H. cbn [layout_val] in H. destruct v; try discriminate.
      injection H as <-. cbn [form_of]. destruct (f_boxString f); reflexivity.
    - intros n t IH f cn env size len v b RS RL H. cbn [layout_val] in H. destruct v; try discriminate.
      destruct (N.eqb_spec (lenN l) n) as [E|]; [|discriminate]. cbn [form_of bits_of elements].
      rewrite takeN_all by lia. eapply concat_flat; [exact H|]. intros; eapply IH; eauto.
    - intros t IH f cn env size len v b RS RL H. cbn [layout_val] in H. destruct v; try discriminate.
      cbn [form_of]. unfold len_of. unfold resolve_len in RL. destruct (f_lenDyn f) eqn:LD.
      + cbn [bits_of elements]. unfold number. rewrite RL. unfold LengthUnlimited in H.
        destruct (len =? 4294967295).
        * eapply concat_flat; [exact H|]. intros; eapply IH; eauto. unfold resolve_len. now rewrite LD.
        * destruct (len <=? lenN l); [|discriminate].
          eapply concat_flat; [exact H|]. intros; eapply IH; eauto. unfold resolve_len. now rewrite LD.
      + injection RL as RL. rewrite RL. destruct (len =? LengthUnlimited) eqn:EU.
        * cbn [bits_of elements]. eapply concat_flat; [exact H|]. intros; eapply IH; eauto. unfold resolve_len. rewrite LD. congruence.
        * cbn [bits_of elements]. unfold number. cbn [meval]. unfold LengthUnlimited in EU. rewrite EU.
          destruct (len <=? lenN l); [|discriminate].
          eapply concat_flat; [exact H|]. intros; eapply IH; eauto. unfold resolve_len. rewrite LD. congruence.
    - intros t IH f cn env size len v b RS RL H. cbn [layout_val] in H. destruct v as [| | | | |[x|]|]; try discriminate.
      cbn [form_of bits_of pointee]. eapply IH; eauto.
    - intros name cfo fs IH f cn env size len v b RS RL H. cbn [layout_val] in H. destruct v; try discriminate.
      cbn [form_of bits_of]. apply (IH name cfo fs0 None b H).
    - intros sname cfo self top b H. cbn in H. injection H as <-. reflexivity.
    - intros f t IHt r IHr sname cfo self top b H.
      rewrite cols_of_cons. cbv zeta. rewrite layout_flds_cons in H. unfold owner in H.
      set (cn := if cfo then sname else rname) in *.
      set (env := seen_from root ctx (if cfo then self else root)) in *.
      replace (if cfo then (sname, spec_env root ctx self) else (rname, spec_env root ctx root)) with (cn, env) in H
        by (unfold cn, env; destruct cfo; reflexivity).
      destruct (resolve_size cn env f) as [size|] eqn:RS; [|discriminate]. cbn [obind] in H.
      destruct (resolve_len cn env f) as [len|] eqn:RL; [|discriminate]. cbn [obind] in H.
      assert (EV : e_ver env <> anyVersion) by exact V.
      destruct (field_bits _ _ _ _ _ _ _ _ _) as [b1|] eqn:E1 in H; [|discriminate]. cbn [obind] in H. unfold field_bits in E1.
      destruct (layout_flds _ _ _ _ _ _ _ r) as [b2|] eqn:E2; [|discriminate]. injection H as <-.
      pose proof (IHr _ _ _ _ _ E2) as X. fold env in X. rewrite flat_map_app, X. f_equal.
      assert (P : forall b, obind (lookup (f_name f) self) (layout_val rname root ctx f size len t) = Some b ->
                  bits_of root ctx env (form_of rname cn f t) (member (f_name f) (VStruct self)) = b).
      { intros b0 E. unfold member, members. destruct (lookup (f_name f) self) as [x|]; [|discriminate].
        eapply IHt; eauto. }
      assert (S : forall n, bits_of root ctx env ZString (member n (VStruct self)) = cstring_bits (as_bytes (lookup n self))).
      { intros n. unfold member, members. destruct (lookup n self) as [x|]; reflexivity. }
      pose proof (cond_ok cn env f EV) as EC.
      change (e_ver env) with (get_version root) in EC. change (e_flags env) with (get_flags root) in EC.
      assert (EZ : ceval env (CVersion 0) = (get_version root =? 0)) by reflexivity.
      destruct (hook_of cn (f_name f)) eqn:HK; cbn [flat_map]; unfold col_bits; rewrite ?ceval_cands; cbn [forallb];
        rewrite ?app_nil_r, ?andb_true_r, EC.
      + destruct (enabled _ _ _ _ _); [exact (P _ E1)|congruence].
      + rewrite EZ. destruct (enabled _ _ _ _ _); cbn [andb]; [|congruence].
        destruct (get_version root =? 0); [exact (P _ E1)|congruence].
      + cbn [ceval]. change (e_ver env) with (get_version root).
        destruct (enabled _ _ _ _ _); cbn [andb]; [|injection E1 as <-; reflexivity].
        destruct (get_version root =? 0); cbn [negb]; [exact (P _ E1)|].
        destruct top as [n|]; [|discriminate]. destruct (n mod 8 =? 0); [|discriminate].
        apply obind_some in E1. destruct E1 as (b3 & E3 & E1).
        injection E1 as <-. rewrite !S. do 2 f_equal. exact (P _ E3).
      + destruct (enabled _ _ _ _ _); [exact (P _ E1)|congruence].
      + destruct (enabled _ _ _ _ _); [|congruence]. destruct (implb _ _); [|discriminate]. injection E1 as <-. reflexivity.
  Qed.
End Ok.

Lemma table_ok : forall d ctx x b, get_version x <> anyVersion ->
  layout (bd_name d) (bd_flds d) ctx x = Some b -> table_bits (table_of d) ctx x = b.
Proof.
  intros d ctx x b V L. unfold layout in L. destruct (form_ok (bd_name d) x ctx V) as [_ F].
  exact (F (bd_flds d) (bd_name d) true x _ b L).
Qed.
