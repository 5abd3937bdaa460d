(** A check on schemas: every dynamic size, length or option of a field depends
    only on fields decoded before it, and every field of a struct is decoded
    exactly once.  It holds for all registered boxes. *)
From Verif Require Import Base BitIO Schema Structs Methods Registry Marshal Unmarshal SpecCodec
     SpecRoundTrip MarshalProofs MarshalCount VersionFacts.
Local Open Scope string_scope.
Local Open Scope list_scope.
Local Open Scope N_scope.

Fixpoint cdeps (c : mcond) : list string :=
  match c with
  | CNot a => cdeps a
  | CAnd a b | COr a b => cdeps a ++ cdeps b
  | CFieldB f | CFieldIs f _ | CFieldZ f _ | CFieldS f _ => [f]
  | _ => []
  end.
Fixpoint cver (c : mcond) : bool :=
  match c with
  | CNot a => cver a
  | CAnd a b | COr a b => cver a || cver b
  | CVersion _ | CFlag _ => true
  | _ => false
  end.
Fixpoint mdeps (x : mexp) : list string :=
  match x with
  | MField f => [f]
  | MIf c a b => cdeps c ++ mdeps a ++ mdeps b
  | MAdd a b | MSub a b | MMul a b | MMul32 a b => mdeps a ++ mdeps b
  | _ => []
  end.
Fixpoint mver (x : mexp) : bool :=
  match x with
  | MIf c a b => cver c || mver a || mver b
  | MAdd a b | MSub a b | MMul a b | MMul32 a b => mver a || mver b
  | _ => false
  end.

Definition fdeps (cn : string) (f : finfo) : list string :=
  (if f_sizeDyn f then mdeps (m_size cn (f_name f)) else []) ++
  (if f_lenDyn f then mdeps (m_len cn (f_name f)) else []) ++
  (if f_optDyn f then cdeps (m_opt cn (f_name f)) else []).
Definition fver (cn : string) (f : finfo) : bool :=
  (f_sizeDyn f && mver (m_size cn (f_name f))) ||
  (f_lenDyn f && mver (m_len cn (f_name f))) ||
  (f_optDyn f && cver (m_opt cn (f_name f))) ||
  negb (f_version f =? anyVersion) || negb (f_nVersion f =? anyVersion) ||
  negb (f_optFlag f =? 0) || negb (f_nOptFlag f =? 0).
Definition unconditional (f : finfo) : bool :=
  (f_version f =? anyVersion) && (f_nVersion f =? anyVersion) &&
  (f_optFlag f =? 0) && (f_nOptFlag f =? 0) && negb (f_optDyn f).
Definition all_in (a b : list string) : bool := forallb (fun k => str_in k b) a.

Section Check.
  Variable rname : string.
  Variable v0 : bool.      (* version 0 or not *)

  (** [vf]: version and flags are known; [droot]: fields of the box that are known.
      [top]: [Some h] at the level of the box itself, h telling whether it has a
      FullBox.  [D]: fields of this struct that are known. *)
  Definition vf_at (top : option bool) (vf : bool) (D : list string) : bool :=
    match top with Some h => str_in "FullBox" D || negb h | None => vf end.
  Definition dr_at (top : option bool) (droot D : list string) : list string :=
    match top with Some _ => D | None => droot end.
  Definition is_top (top : option bool) : bool := match top with Some _ => true | None => false end.

  Fixpoint chk_val (vf : bool) (droot : list string) (t : sty) : bool :=
    match t with
    | SArr _ u | SSlice u | SPtr u => chk_val vf droot u
    | SStruct name cfo fs =>
        match chk_flds None vf droot cfo name [] fs with
        | Some D => all_in (names_of fs) D
        | None => false
        end
    | _ => true
    end
  with chk_flds (top : option bool) (vf : bool) (droot : list string) (cfo : bool)
       (sname : string) (D : list string) (fs : flds) : option (list string) :=
    match fs with
    | FNil => Some D
    | FCons f t rest =>
        let cn := if cfo then sname else rname in
        let vfc := vf_at top vf D in
        let drc := dr_at top droot D in
        if all_in (fdeps cn f) (if cfo then D else drc) && (vfc || negb (fver cn f)) &&
           negb (str_in (f_name f) D) && negb (str_in (f_name f) (names_of rest)) &&
           implb (is_fullbox t) (is_top top && String.eqb (f_name f) "FullBox") &&
           chk_val vfc drc t
        then
          match hook_of cn (f_name f) with
          | HNone => chk_flds top vf droot cfo sname (f_name f :: D) rest
          | HEmsgSkip =>
              if unconditional f && vfc
              then chk_flds top vf droot cfo sname (if v0 then f_name f :: D else D) rest else None
          | HEmsgData =>
              if unconditional f && vfc then
                if v0 then chk_flds top vf droot cfo sname (f_name f :: D) rest
                else if negb (existsb (fun k => str_in k (f_name f :: names_of rest ++ D))
                                ["SchemeIdUri"; "Value"])
                     then chk_flds top vf droot cfo sname (f_name f :: "SchemeIdUri" :: "Value" :: D) rest
                     else None
              else None
          | HHdlrName =>
              if str_in "PreDefined" D then chk_flds top vf droot cfo sname (f_name f :: D) rest else None
          | HAvcHigh =>
              if str_in "Profile" D then chk_flds top vf droot cfo sname (f_name f :: D) rest else None
          end
        else None
    end.
End Check.

Definition causal (v0 : bool) (d : boxdef) : bool :=
  match chk_flds (bd_name d) v0 (Some (str_in "FullBox" (names_of (bd_flds d)))) false [] true
          (bd_name d) [] (bd_flds d) with
  | Some D => all_in (names_of (bd_flds d)) D
  | None => false
  end.
Lemma std_causal : forallb (fun d => causal true d && causal false d) all_defs = true.
Proof. vm_compute. reflexivity. Qed.

(** ** Evaluation depends on the dependencies only *)
Definition agree_env (D : list string) (ver : bool) (a b : menv) : Prop :=
  (forall k, In k D -> lookup k (e_self a) = lookup k (e_self b)) /\
  (ver = true -> e_ver a = e_ver b /\ e_flags a = e_flags b) /\ e_ctx a = e_ctx b.

Lemma agree_env_incl : forall D E v w a b, agree_env D v a b ->
  (forall k, In k E -> In k D) -> (w = true -> v = true) -> agree_env E w a b.
Proof.
  intros D E v w a b (A & B & C) HE HV. repeat split; auto; apply B; auto.
Qed.
Lemma ceval_agree : forall a b c, agree_env (cdeps c) (cver c) a b -> ceval a c = ceval b c.
Proof.
  intros a b. induction c; intros H; cbn [ceval cdeps cver] in *; try reflexivity.
  - now rewrite IHc.
  - rewrite IHc1, IHc2; auto; eapply agree_env_incl; eauto using in_or_app;
      intros ->; auto using orb_true_r.
  - rewrite IHc1, IHc2; auto; eapply agree_env_incl; eauto using in_or_app;
      intros ->; auto using orb_true_r.
  - destruct H as (H & _). rewrite H; auto. now left.
  - destruct H as (H & _). rewrite H; auto. now left.
  - destruct H as (H & _). rewrite H; auto. now left.
  - destruct H as (H & _). rewrite H; auto. now left.
  - destruct H as (_ & H & _). destruct (H eq_refl) as [-> _]. reflexivity.
  - destruct H as (_ & H & _). destruct (H eq_refl) as [_ ->]. reflexivity.
  - destruct H as (_ & _ & ->). reflexivity.
  - destruct H as (_ & _ & ->). reflexivity.
Qed.
Lemma meval_agree : forall a b x, agree_env (mdeps x) (mver x) a b -> meval a x = meval b x.
Proof.
  intros a b.
  assert (K : forall x y, agree_env (mdeps x ++ mdeps y) (mver x || mver y) a b ->
     agree_env (mdeps x) (mver x) a b /\ agree_env (mdeps y) (mver y) a b).
  { intros x y H. split; eapply agree_env_incl; eauto using in_or_app; intros ->; auto using orb_true_r. }
  induction x; intros H; cbn [meval mdeps mver] in *; try reflexivity.
  - destruct H as (H & _). rewrite H; auto. now left.
  - rewrite (ceval_agree a b c), IHx1, IHx2; [reflexivity| | |];
      eapply agree_env_incl; eauto using in_or_app; intros ->; auto using orb_true_r.
    now rewrite orb_true_r.
  - destruct (K _ _ H). now rewrite IHx1, IHx2.
  - destruct (K _ _ H). now rewrite IHx1, IHx2.
  - destruct (K _ _ H). now rewrite IHx1, IHx2.
  - destruct (K _ _ H). now rewrite IHx1, IHx2.
Qed.

Lemma fdeps_agree : forall cn f a b, agree_env (fdeps cn f) (fver cn f) a b ->
  resolve_size cn a f = resolve_size cn b f /\ resolve_len cn a f = resolve_len cn b f /\
  is_target (e_ver a) (e_flags a) cn a f = is_target (e_ver b) (e_flags b) cn b f.
Proof.
  intros cn f a b H. unfold fdeps, fver in H. repeat split.
  - unfold resolve_size. destruct (f_sizeDyn f); [|reflexivity]. apply meval_agree.
    eapply agree_env_incl; eauto using in_or_app. now intros ->.
  - unfold resolve_len. destruct (f_lenDyn f); [|reflexivity]. apply meval_agree.
    eapply agree_env_incl; eauto using in_or_app. intros ->. now rewrite orb_true_r.
  - rewrite !is_target_enabled. unfold enabled, version_allows, flags_allow, option_allows.
    f_equal; [f_equal|].
    + destruct (N.eqb_spec (f_version f) anyVersion) as [E1|E1],
               (N.eqb_spec (f_nVersion f) anyVersion) as [E2|E2];
        try (destruct (e_ver a =? anyVersion), (e_ver b =? anyVersion); reflexivity);
        (destruct H as (_ & HV & _); destruct HV as [-> _]; [|reflexivity];
         cbn [negb]; rewrite ?orb_true_r; reflexivity).
    + destruct (N.eqb_spec (f_optFlag f) 0) as [E1|E1],
               (N.eqb_spec (f_nOptFlag f) 0) as [E2|E2]; try reflexivity;
        (destruct H as (_ & HV & _); destruct HV as [_ ->]; [|reflexivity];
         cbn [negb]; rewrite ?orb_true_r; reflexivity).
    + destruct (f_optDyn f); [|reflexivity]. apply ceval_agree.
      eapply agree_env_incl; eauto using in_or_app. intros ->. cbn [andb].
      rewrite orb_true_r. reflexivity.
Qed.

Lemma str_in_In : forall k l, str_in k l = true <-> In k l.
Proof.
  intros k l. unfold str_in. rewrite existsb_exists. split.
  - intros (x & I & E). apply String.eqb_eq in E. now subst.
  - intros I. exists k. split; auto. apply String.eqb_refl.
Qed.
Lemma all_in_In : forall a b, all_in a b = true -> forall k, In k a -> In k b.
Proof. intros a b H k I. unfold all_in in H. rewrite forallb_forall in H. apply str_in_In. auto. Qed.
Lemma strs_eqb_eq : forall a b, strs_eqb a b = true -> a = b.
Proof.
  induction a as [|x a IH]; destruct b as [|y b]; cbn; try discriminate; auto.
  intros H. apply andb_prop in H. destruct H as [H1 H2]. apply String.eqb_eq in H1. f_equal; auto.
Qed.
