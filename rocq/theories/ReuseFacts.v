(** Decoding into a box that has been used before, against decoding into a fresh
    one: the two runs in step. *)
From Verif Require Import Base BitIO Schema Structs Methods Registry Marshal Unmarshal SpecCodec
     SpecRoundTrip Decode SpecReuse.
From Verif Require Import BaseProofs BitIOProofs BitIOFacts MarshalProofs MarshalCount UnmarshalProofs
     DecodeFacts VersionFacts Causal Shape Total Typed.
Local Open Scope string_scope.
Local Open Scope list_scope.
Local Open Scope N_scope.
Local Open Scope dec_scope.

(** ** Loops over equal bodies *)
Lemma dbind_ext : forall A B (m m' : D A) (k k' : A -> D B) st,
  m st = m' st -> (forall a st1, k a st1 = k' a st1) -> (x <~ m ;; k x) st = (x <~ m' ;; k' x) st.
Proof. intros. unfold dbind. rewrite H. destruct (m' st) as [[a s]| | |]; auto. Qed.
Lemma dloop_ext : forall A (b b' : A -> D A), (forall a st, b a st = b' a st) ->
  forall k a st, dloop k b a st = dloop k b' a st.
Proof. intros A b b' H. induction k as [|k IH]; intros a st; [reflexivity|]. cbn [dloop]. apply dbind_ext; auto. Qed.
Lemma dwhile_ext : forall A B (b b' : A -> D (A + B)), (forall a st, b a st = b' a st) ->
  forall k a st, dwhile k b a st = dwhile k b' a st.
Proof.
  intros A B b b' H. induction k as [|k IH]; intros a st; [reflexivity|]. cbn [dwhile]. apply dbind_ext; auto.
  intros [x|x] s; auto.
Qed.

Lemma chk_flds_cons : forall rname v0 top vf droot cfo sname D f t rest,
  chk_flds rname v0 top vf droot cfo sname D (FCons f t rest) =
        let cn := if cfo : bool then sname else rname in
        let vfc := vf_at top vf D in
        let drc := dr_at top droot D in
        if all_in (fdeps cn f) (if cfo then D else drc) && (vfc || negb (fver cn f)) &&
           negb (str_in (f_name f) D) && negb (str_in (f_name f) (names_of rest)) &&
           implb (is_fullbox t) (is_top top && String.eqb (f_name f) "FullBox") &&
           chk_val rname v0 vfc drc t
        then
          match hook_of cn (f_name f) with
          | HNone => chk_flds rname v0 top vf droot cfo sname (f_name f :: D) rest
          | HEmsgSkip =>
              if unconditional f && vfc
              then chk_flds rname v0 top vf droot cfo sname (if v0 then f_name f :: D else D) rest else None
          | HEmsgData =>
              if unconditional f && vfc then
                if v0 then chk_flds rname v0 top vf droot cfo sname (f_name f :: D) rest
                else if negb (existsb (fun k => str_in k (f_name f :: names_of rest ++ D))
                                ["SchemeIdUri"; "Value"])
                     then chk_flds rname v0 top vf droot cfo sname (f_name f :: "SchemeIdUri" :: "Value" :: D) rest
                     else None
              else None
          | HHdlrName =>
              if str_in "PreDefined" D then chk_flds rname v0 top vf droot cfo sname (f_name f :: D) rest else None
          | HAvcHigh =>
              if str_in "Profile" D then chk_flds rname v0 top vf droot cfo sname (f_name f :: D) rest else None
          end
        else None.
Proof. reflexivity. Qed.

(** ** The same content, boxes that agree on what is read of them *)
Section Same.
  Variables (k : nat) (rn : string) (vs : list N) (ctx : context) (v0 : bool).
  Variables (rt rt' : fields) (K : list string).
  Hypothesis HK : forall j, In j K -> lookup j rt = lookup j rt'.
  Hypothesis HV : get_version rt = get_version rt'.
  Hypothesis HF : get_flags rt = get_flags rt'.

  Lemma same_all :
    (forall t, chk_val rn v0 true K t = true -> forall lim base f size len cur st,
       dec_val k rn vs ctx rt lim base f size len t cur st = dec_val k rn vs ctx rt' lim base f size len t cur st) /\
    (forall fs sname cfo D0, chk_flds rn v0 None true K cfo sname D0 fs <> None ->
       forall lim base self st,
       dec_flds k rn vs ctx (Some rt) lim base sname cfo self fs st =
       dec_flds k rn vs ctx (Some rt') lim base sname cfo self fs st).
  Proof.
    apply sty_flds_mutind.
    - reflexivity.
    - reflexivity.
    - reflexivity.
    - reflexivity.
    - intros n u IH H lim base f size len cur st. cbn [dec_val]. destruct cur; try reflexivity.
      apply dbind_ext; [|reflexivity]. revert st. induction l as [|x l IHl]; intros st; [reflexivity|].
      cbn [d_map]. apply dbind_ext; [now apply IH|]. intros a s. apply dbind_ext; [apply IHl|reflexivity].
    - intros u IH H lim base f size len cur st. cbn [dec_val].
      apply dbind_ext; [reflexivity|]. intros p s. cbv zeta.
      destruct (_ && _ && _); [reflexivity|]. destruct (_ && _ && _); [reflexivity|].
      assert (E : forall acc s,
        (x <~ dec_val k rn vs ctx rt lim base f size len u (zero u) ;;
         p0 <~ dpos ;; if lim <? p0 - base then dfail (EMsg "failed to read array completely") else dret (x :: acc)) s =
        (x <~ dec_val k rn vs ctx rt' lim base f size len u (zero u) ;;
         p0 <~ dpos ;; if lim <? p0 - base then dfail (EMsg "failed to read array completely") else dret (x :: acc)) s).
      { intros acc s0. apply dbind_ext; [now apply IH|reflexivity]. }
      apply dbind_ext; [|reflexivity]. destruct (len =? LengthUnlimited).
      + apply dwhile_ext. intros a s0. apply dbind_ext; [reflexivity|]. intros q s1.
        destruct (lim <=? q - base); [reflexivity|]. apply dbind_ext; [apply E|reflexivity].
      + apply dloop_ext. exact E.
    - intros u IH H lim base f size len cur st. cbn [dec_val]. apply dbind_ext; [now apply IH|reflexivity].
    - intros name cfo fs IH H lim base f size len cur st.
      destruct cur; try reflexivity. rewrite !dec_val_struct.
      change (match chk_flds rn v0 None true K cfo name [] fs with Some D => all_in (names_of fs) D | None => false end = true) in H.
      destruct (chk_flds rn v0 None true K cfo name [] fs) as [D0|] eqn:E; [|discriminate].
      assert (I : forall lim base self st,
        dec_flds k rn vs ctx (Some rt) lim base name cfo self fs st =
        dec_flds k rn vs ctx (Some rt') lim base name cfo self fs st)
        by (apply (IH name cfo []); congruence).
      destruct (_ && _).
      + apply dbind_ext; [reflexivity|]. intros p s. apply dbind_ext; [apply I|reflexivity].
      + apply dbind_ext; [apply I|reflexivity].
    - reflexivity.
    - intros f t IHt rest IHr sname cfo D0 H lim base self st. rewrite !dec_flds_cons. cbv zeta.
      cbn [box_of]. rewrite chk_flds_cons in H. cbv zeta in H. cbn [vf_at dr_at is_top andb] in H.
      rewrite HV, HF.
      match type of H with (if ?c then _ else _) <> _ => destruct c eqn:C; [|now elim H] end.
      repeat (apply andb_prop in C; destruct C as [C ?]).
      set (cn := if cfo then sname else rn) in *.
      set (env := if cfo then mkenv self (get_version rt') (get_flags rt') ctx
                  else mkenv rt (get_version rt') (get_flags rt') ctx) in *.
      set (env' := if cfo then mkenv self (get_version rt') (get_flags rt') ctx
                  else mkenv rt' (get_version rt') (get_flags rt') ctx) in *.
      assert (A : agree_env (fdeps cn f) (fver cn f) env env').
      { unfold env, env'. destruct cfo; [repeat split; auto|]. split; [|split; auto].
        intros j Hj. cbn [e_self]. apply HK. now apply (all_in_In _ _ C). }
      destruct (fdeps_agree cn f env env' A) as (S1 & S2 & S3).
      assert (V : e_ver env = get_version rt' /\ e_flags env = get_flags rt' /\
                  e_ver env' = get_version rt' /\ e_flags env' = get_flags rt').
      { unfold env, env'. destruct cfo; auto. }
      destruct V as (V1 & V2 & V3 & V4). rewrite V1, V2, V3, V4 in S3.
      rewrite S1, S2, S3. clear S1 S2 S3 A.
      destruct (resolve_size cn env' f) as [size|]; [|reflexivity].
      destruct (resolve_len cn env' f) as [len|]; [|reflexivity].
      assert (NF : is_fullbox t = false).
      { match goal with X : implb (is_fullbox t) _ = true |- _ => destruct (is_fullbox t); [discriminate X|reflexivity] end. }
      assert (IHr' : forall lim base self st,
        dec_flds k rn vs ctx (Some rt) lim base sname cfo self rest st =
        dec_flds k rn vs ctx (Some rt') lim base sname cfo self rest st).
      { assert (Q : exists D1, chk_flds rn v0 None true K cfo sname D1 rest <> None).
        { repeat match type of H with
                 | chk_flds _ _ _ _ _ _ _ ?D1 _ <> None => now exists D1
                 | None <> None => now elim H
                 | match ?x with _ => _ end <> None => destruct x
                 | (if ?x then _ else _) <> None => destruct x
                 end. }
        destruct Q as [D1 Q]. now apply (IHr sname cfo D1). }
      apply dbind_ext; [|intros; apply IHr'].
      destruct (is_target _ _ _ _ _); [|reflexivity].
      apply dbind_ext; [reflexivity|]. intros p s. apply dbind_ext; [reflexivity|].
      intros [o s1] s2. destruct o; [reflexivity|].
      destruct (lookup (f_name f) s1); [|reflexivity].
      apply dbind_ext; [now apply IHt|]. intros x s3. rewrite NF. reflexivity.
  Qed.
End Same.

(** ** Values of a struct *)
Fixpoint got (fs : flds) (l : fields) : Prop :=
  match fs with
  | FNil => True
  | FCons f t r => (exists c, lookup (f_name f) l = Some c /\ go_value t c) /\ got r l
  end.
Lemma got_ext : forall fs l m, got fs l -> (forall j, In j (names_of fs) -> lookup j m = lookup j l) -> got fs m.
Proof.
  induction fs as [|f t r IH]; intros l m H E; [exact I|]. destruct H as [(c & H1 & H2) H]. split.
  - exists c. rewrite E by (now left). auto.
  - apply (IH l); auto. intros j Hj. apply E. now right.
Qed.
Lemma go_struct_keys : forall fs l, go_struct fs l -> map fst l = names_of fs.
Proof.
  induction fs as [|f t r IH]; intros [|[n v] m] H; try reflexivity; try destruct H as []; try contradiction.
  subst. cbn [map fst names_of]. f_equal. apply IH. tauto.
Qed.
Lemma nodup_names_NoDup : forall l, nodup_names l = true -> NoDup l.
Proof.
  induction l as [|n l IH]; intros H; [constructor|]. cbn [nodup_names] in H. apply andb_prop in H.
  destruct H as [H1 H2]. constructor; auto. intros I. apply str_in_In in I. rewrite I in H1. discriminate.
Qed.
Lemma go_struct_got : forall fs l, NoDup (names_of fs) -> go_struct fs l -> got fs l.
Proof.
  induction fs as [|f t r IH]; intros l N H; [exact I|]. destruct l as [|[n v] m]; [destruct H|].
  destruct H as (-> & Hv & H). cbn [names_of] in N. inversion N; subst. split.
  - exists v. cbn [lookup]. rewrite String.eqb_refl. auto.
  - apply (got_ext r m); auto. intros j Hj. cbn [lookup].
    destruct (String.eqb_spec j (f_name f)); [subst; contradiction|reflexivity].
Qed.
Lemma lookup_ext_eq : forall l m, NoDup (map fst l) -> map fst l = map fst m ->
  (forall j, lookup j l = lookup j m) -> l = m.
Proof.
  induction l as [|[n v] l IH]; intros [|[k w] m] N E L; try discriminate; [reflexivity|].
  cbn [map fst] in *. injection E as -> E. inversion N; subst.
  pose proof (L k) as L0. cbn [lookup] in L0. rewrite String.eqb_refl in L0. injection L0 as ->. f_equal.
  apply IH; auto. intros j. destruct (string_dec j k) as [->|NE].
  - rewrite !lookup_None; auto. now rewrite <- E.
  - specialize (L j). cbn [lookup] in L. destruct (String.eqb_spec j k); [contradiction|exact L].
Qed.
Lemma lookup_update_both : forall j n x l m, map fst l = map fst m -> lookup j l = lookup j m \/ j = n ->
  lookup j (update n x l) = lookup j (update n x m).
Proof.
  intros j n x l m E [H| ->].
  - destruct (string_dec j n) as [->|NE]; [|now rewrite !lookup_update_other].
    destruct (in_dec string_dec n (map fst l)) as [I|I].
    + rewrite !lookup_update_same; auto; apply lookup_In; congruence.
    + rewrite !lookup_None; auto; rewrite keys_update; congruence.
  - destruct (in_dec string_dec n (map fst l)) as [I|I].
    + rewrite !lookup_update_same; auto; apply lookup_In; congruence.
    + rewrite !lookup_None; auto; rewrite keys_update; congruence.
Qed.

(** ** A struct held in place, all of whose fields are always read *)
Section Solid.
  Variables (rn : string) (K : list string).
  Definition no_hook (cn fn : string) : bool := match hook_of cn fn with HNone => true | _ => false end.
  Fixpoint solid_val (t : sty) : bool :=
    match t with
    | SArr _ u => solid_val u
    | SSlice u | SPtr u => chk_val rn true true K u
    | SStruct n cfo fs => nodup_names (names_of fs) && solid_flds cfo n fs
    | _ => true
    end
  with solid_flds (cfo : bool) (n : string) (fs : flds) : bool :=
    match fs with
    | FNil => true
    | FCons f t r => unconditional f && negb (f_sizeDyn f) && negb (f_lenDyn f) &&
                     no_hook (if cfo then n else rn) (f_name f) && negb (is_fullbox t) &&
                     solid_val t && solid_flds cfo n r
    end.
  Lemma solid_flds_cons : forall cfo n f t r, solid_flds cfo n (FCons f t r) =
    unconditional f && negb (f_sizeDyn f) && negb (f_lenDyn f) &&
                     no_hook (if cfo : bool then n else rn) (f_name f) && negb (is_fullbox t) &&
                     solid_val t && solid_flds cfo n r.
  Proof. reflexivity. Qed.
  Lemma solid_struct : forall n cfo fs, solid_val (SStruct n cfo fs) = nodup_names (names_of fs) && solid_flds cfo n fs.
  Proof. reflexivity. Qed.

  Variables (k : nat) (vs : list N) (ctx : context).
  Variables (rt rt' : fields).
  Hypothesis HK : forall j, In j K -> lookup j rt = lookup j rt'.
  Hypothesis HV : get_version rt = get_version rt'.
  Hypothesis HF : get_flags rt = get_flags rt'.

  Lemma unconditional_target : forall ver flags cn env f, unconditional f = true -> is_target ver flags cn env f = true.
  Proof.
    intros ver flags cn env f H. unfold unconditional in H.
    repeat (apply andb_prop in H; let X := fresh in destruct H as [H X]).
    rewrite is_target_enabled. unfold enabled, version_allows, flags_allow, option_allows.
    apply N.eqb_eq in H. apply N.eqb_eq in H3. apply N.eqb_eq in H2. apply N.eqb_eq in H1.
    rewrite H, H3, H2, H1. apply negb_true_iff in H0. rewrite H0. rewrite !N.eqb_refl. cbn [orb andb].
    rewrite orb_true_r. reflexivity.
  Qed.

  Lemma solid_all :
    (forall t, solid_val t = true -> forall lim base f size len cur cur' st,
       go_value t cur -> go_value t cur' ->
       dec_val k rn vs ctx rt lim base f size len t cur st = dec_val k rn vs ctx rt' lim base f size len t cur' st) /\
    (forall fs sname cfo, solid_flds cfo sname fs = true -> NoDup (names_of fs) ->
       forall lim base self self' st,
       map fst self = map fst self' -> NoDup (map fst self) ->
       (forall j, ~ In j (names_of fs) -> lookup j self = lookup j self') ->
       got fs self -> got fs self' ->
       dec_flds k rn vs ctx (Some rt) lim base sname cfo self fs st =
       dec_flds k rn vs ctx (Some rt') lim base sname cfo self' fs st).
  Proof.
    apply sty_flds_mutind.
    - reflexivity.
    - reflexivity.
    - reflexivity.
    - reflexivity.
    - intros n u IH H lim base f size len cur cur' st (l & -> & L & F) (l' & -> & L' & F'). cbn [dec_val].
      apply dbind_ext; [|reflexivity]. cbn [solid_val] in H.
      assert (E : List.length l = List.length l') by (unfold lenN in *; lia).
      clear L L'. revert l' F' E st. induction F as [|x l X F IHl]; intros l' F' E st.
      + destruct l'; [reflexivity|discriminate].
      + destruct l' as [|x' l']; [discriminate|]. inversion F'; subst. cbn [d_map].
        apply dbind_ext; [now apply IH|]. intros a s. apply dbind_ext; [|reflexivity].
        apply IHl; auto.
    - intros u IH H lim base f size len cur cur' st _ _. cbn [solid_val] in H.
      change (dec_val k rn vs ctx rt lim base f size len (SSlice u) cur st = dec_val k rn vs ctx rt' lim base f size len (SSlice u) cur st).
      apply (proj1 (same_all k rn vs ctx true rt rt' K HK HV HF) (SSlice u)). exact H.
    - intros u IH H lim base f size len cur cur' st _ _. cbn [solid_val] in H.
      change (dec_val k rn vs ctx rt lim base f size len (SPtr u) cur st = dec_val k rn vs ctx rt' lim base f size len (SPtr u) cur st).
      apply (proj1 (same_all k rn vs ctx true rt rt' K HK HV HF) (SPtr u)). exact H.
    - intros name cfo fs IH H lim base f size len cur cur' st (l & -> & G) (l' & -> & G').
      rewrite solid_struct in H. apply andb_prop in H. destruct H as [N H]. apply nodup_names_NoDup in N.
      rewrite !dec_val_struct.
      pose proof (go_struct_keys _ _ G) as E. pose proof (go_struct_keys _ _ G') as E'.
      assert (I : forall lim base st,
        dec_flds k rn vs ctx (Some rt) lim base name cfo l fs st =
        dec_flds k rn vs ctx (Some rt') lim base name cfo l' fs st).
      { intros. apply IH; auto; try (now apply go_struct_got); [congruence|now rewrite E|].
        intros j Hj. rewrite !lookup_None; auto; congruence. }
      destruct (_ && _).
      + apply dbind_ext; [reflexivity|]. intros p s. apply dbind_ext; [apply I|reflexivity].
      + apply dbind_ext; [apply I|reflexivity].
    - intros sname cfo _ _ lim base self self' st E N L _ _. cbn [dec_flds]. unfold dret.
      rewrite (lookup_ext_eq self self'); auto.
    - intros f t IHt rest IHr sname cfo H N lim base self self' st E ND L [(c & C1 & C2) Gr] [(c' & C1' & C2') Gr'].
      rewrite !dec_flds_cons. cbv zeta. cbn [box_of]. rewrite solid_flds_cons in H.
      do 6 (apply andb_prop in H; let X := fresh "X" in destruct H as [H X]).
      unfold resolve_size, resolve_len. apply negb_true_iff in X3. apply negb_true_iff in X4. rewrite X3, X4.
      rewrite !unconditional_target by exact H.
      set (cn := if cfo then sname else rn) in *. unfold no_hook in X2.
      destruct (hook_of cn (f_name f)); try discriminate X2.
      apply negb_true_iff in X1. rewrite X1. cbn [andb d_hook].
      unfold dbind, dpos, dret. rewrite C1, C1'.
      rewrite (IHt X0 lim base f (f_size f) (f_length f) c c' st C2 C2').
      destruct (dec_val _ _ _ _ _ _ _ _ _ _ _ _ _) as [[x s]| | |]; try reflexivity.
      cbn [names_of] in N. inversion N as [|? ? N1 N2]; subst.
      assert (U : forall j l, In j (names_of rest) -> lookup j (update (f_name f) x l) = lookup j l).
      { intros j l Hj. apply lookup_update_other. intros ->. contradiction. }
      apply IHr; auto.
      + now rewrite !keys_update.
      + now rewrite keys_update.
      + intros j Hj. apply lookup_update_both; [exact E|].
        destruct (string_dec j (f_name f)) as [->|NE]; [now right|left]. apply L. cbn [names_of]. intros [Q|Q]; auto.
      + apply (got_ext rest self); auto.
      + apply (got_ext rest self'); auto.
  Qed.
End Solid.

(** ** The box itself, its version known *)
Definition mcond_eq_dec : forall a b : mcond, {a = b} + {a <> b}.
Proof. decide equality; try apply N.eq_dec; try apply Z.eq_dec; apply string_dec. Defined.
Definition mcond_eqb a b : bool := if mcond_eq_dec a b then true else false.
Lemma mcond_eqb_eq : forall a b, mcond_eqb a b = true -> a = b.
Proof. intros a b. unfold mcond_eqb. destruct (mcond_eq_dec a b); [auto|discriminate]. Qed.

Section Simplify.
  Variables (ver : N) (qt wave : bool).
  Definition cbool (b : bool) : mcond := if b then CTrue else CFalse.
  Fixpoint csimp (c : mcond) : mcond :=
    match c with
    | CNot a => match csimp a with CTrue => CFalse | CFalse => CTrue | a' => CNot a' end
    | CAnd a b => match csimp a with
                  | CTrue => csimp b
                  | CFalse => CFalse
                  | a' => match csimp b with CFalse => CFalse | CTrue => a' | b' => CAnd a' b' end
                  end
    | COr a b => match csimp a with
                 | CTrue => CTrue
                 | CFalse => csimp b
                 | a' => match csimp b with CFalse => a' | CTrue => CTrue | b' => COr a' b' end
                 end
    | CVersion n => cbool (ver =? n)
    | CQt => cbool qt
    | CWave => cbool wave
    | c => c
    end.
  Fixpoint msimp (x : mexp) : mexp :=
    match x with
    | MIf c a b => match csimp c with CTrue => msimp a | CFalse => msimp b | c' => MIf c' (msimp a) (msimp b) end
    | MAdd a b => MAdd (msimp a) (msimp b)
    | MSub a b => MSub (msimp a) (msimp b)
    | MMul a b => MMul (msimp a) (msimp b)
    | MMul32 a b => MMul32 (msimp a) (msimp b)
    | x => x
    end.
  Variable e : menv.
  Hypothesis E1 : e_ver e = ver.
  Hypothesis E2 : IsQuickTimeCompatible (e_ctx e) = qt.
  Hypothesis E3 : UnderWave (e_ctx e) = wave.
  Lemma csimp_eval : forall c, ceval e (csimp c) = ceval e c.
  Proof.
    assert (CB : forall b, ceval e (cbool b) = b) by (intros []; reflexivity).
    induction c; cbn [csimp ceval]; try reflexivity.
    - rewrite <- IHc. destruct (csimp c); cbn [ceval negb]; rewrite ?negb_involutive; reflexivity.
    - rewrite <- IHc1, <- IHc2.
      destruct (csimp c1); try reflexivity;
        destruct (csimp c2); cbn [ceval]; rewrite ?andb_true_r, ?andb_false_r; reflexivity.
    - rewrite <- IHc1, <- IHc2.
      destruct (csimp c1); try reflexivity;
        destruct (csimp c2); cbn [ceval]; rewrite ?orb_true_r, ?orb_false_r; reflexivity.
    - now rewrite CB, E1.
    - now rewrite CB, E2.
    - now rewrite CB, E3.
  Qed.
  Lemma msimp_eval : forall x, meval e (msimp x) = meval e x.
  Proof.
    induction x; cbn [msimp meval]; try reflexivity; try (now rewrite IHx1, IHx2).
    rewrite <- (csimp_eval c), <- IHx1, <- IHx2. destruct (csimp c); reflexivity.
  Qed.
End Simplify.
Fixpoint no_panic (x : mexp) : bool :=
  match x with
  | MPanic => false
  | MIf _ a b | MAdd a b | MSub a b | MMul a b | MMul32 a b => no_panic a && no_panic b
  | _ => true
  end.
Lemma no_panic_some : forall e x, no_panic x = true -> meval e x <> None.
Proof.
  intros e. induction x; cbn [no_panic meval]; intros H; try discriminate;
    apply andb_prop in H; destruct H as [H1 H2]; specialize (IHx1 H1); specialize (IHx2 H2).
  - destruct (ceval e c); auto.
  - destruct (meval e x1), (meval e x2); cbn [obind]; congruence.
  - destruct (meval e x1), (meval e x2); cbn [obind]; congruence.
  - destruct (meval e x1), (meval e x2); cbn [obind]; congruence.
  - destruct (meval e x1), (meval e x2); cbn [obind]; congruence.
Qed.

Definition upds (us : list (string * val)) (l : fields) : fields :=
  fold_left (fun l u => update (fst u) (snd u) l) us l.
Lemma keys_upds : forall us l, map fst (upds us l) = map fst l.
Proof. induction us as [|[n x] us IH]; intros l; [reflexivity|]. cbn. unfold upds in IH. now rewrite IH, keys_update. Qed.
Lemma lookup_upds_other : forall j us l, ~ In j (map fst us) -> lookup j (upds us l) = lookup j l.
Proof.
  intros j us. induction us as [|[n x] us IH]; intros l H; [reflexivity|]. cbn [map fst In] in H.
  cbn. unfold upds in IH. rewrite IH by tauto. apply lookup_update_other. intros ->. tauto.
Qed.
Lemma lookup_upds_both : forall j us l m, map fst l = map fst m -> lookup j l = lookup j m \/ In j (map fst us) ->
  lookup j (upds us l) = lookup j (upds us m).
Proof.
  intros j us. induction us as [|[n x] us IH]; intros l m E H; cbn; [destruct H as [H|[]]; exact H|].
  unfold upds in IH. apply IH; [now rewrite !keys_update|].
  destruct H as [H|[H|H]]; [left|left|now right]; apply lookup_update_both; auto.
Qed.

Section Top.
  Variables (rn : string) (ver : N) (qt wave : bool).
  (** what decoding a field is sure to set *)
  Definition adds (fn : string) : list string :=
    match hook_of rn fn with
    | HEmsgSkip => if ver =? 0 then [fn] else []
    | HEmsgData => if ver =? 0 then [fn] else [fn; "SchemeIdUri"; "Value"]
    | _ => [fn]
    end.
  Definition sets (fn : string) : list string :=
    fn :: match hook_of rn fn with
          | HEmsgData => if ver =? 0 then [] else ["SchemeIdUri"; "Value"]
          | _ => []
          end.
  Definition hook_fine (K : list string) (fn : string) : bool :=
    match hook_of rn fn with
    | HHdlrName => String.eqb fn "Name" && str_in "PreDefined" K
    | HAvcHigh => String.eqb fn "HighProfileFieldsEnabled" && str_in "Profile" K
    | HEmsgData => negb (str_in fn ["SchemeIdUri"; "Value"])
    | _ => true
    end.
  Definition size_exp (f : finfo) : mexp := if f_sizeDyn f then msimp ver qt wave (m_size rn (f_name f)) else MConst (f_size f).
  Definition len_exp (f : finfo) : mexp := if f_lenDyn f then msimp ver qt wave (m_len rn (f_name f)) else MConst (f_length f).
  (** when the field is part of the box *)
  Definition when (f : finfo) : mcond :=
    if version_allows ver f then
      csimp ver qt wave
        (CAnd (CAnd (if f_optFlag f =? 0 then CTrue else CFlag (f_optFlag f))
                    (if f_nOptFlag f =? 0 then CTrue else CNot (CFlag (f_nOptFlag f))))
              (if f_optDyn f then m_opt rn (f_name f) else CTrue))
    else CFalse.
  Lemma when_eval : forall s flags ctx f, IsQuickTimeCompatible ctx = qt -> UnderWave ctx = wave ->
    enabled ver flags rn (mkenv s ver flags ctx) f = ceval (mkenv s ver flags ctx) (when f).
  Proof.
    intros s flags ctx f H1 H2. unfold enabled, when. destruct (version_allows ver f); [|reflexivity].
    rewrite csimp_eval by auto. unfold flags_allow, option_allows. cbn [ceval andb]. f_equal; [f_equal|].
    - destruct (f_optFlag f =? 0); reflexivity.
    - destruct (f_nOptFlag f =? 0); [reflexivity|]. cbn [ceval e_flags orb]. now rewrite negb_involutive.
    - destruct (f_optDyn f); reflexivity.
  Qed.

  (** [K]: fields that hold the same in both runs; [G]: fields that do when a
      condition holds; [U]: fields that are left alone unless a condition holds *)
  Definition conds : Type := list (string * mcond).
  Fixpoint reuse_flds (K : list string) (G U : conds) (fs : flds) : option (list string * conds * conds) :=
    match fs with
    | FNil => Some (K, G, U)
    | FCons f t r =>
        let c := when f in
        let U' := (f_name f, c) :: U in
        if no_panic (size_exp f) && no_panic (len_exp f) then
          if mcond_eqb c CFalse then reuse_flds K G U' r
          else if all_in (cdeps c) K &&
            all_in (mdeps (size_exp f) ++ mdeps (len_exp f)) (K ++ map fst (filter (fun p => mcond_eqb (snd p) c) G)) &&
            negb (is_fullbox t) && solid_val rn K t && hook_fine K (f_name f) &&
            negb (str_in "FullBox" (sets (f_name f))) && disjoint (sets (f_name f)) (names_of r) &&
            forallb (fun p => disjoint (cdeps (snd p)) (sets (f_name f))) G &&
            forallb (fun p => disjoint (fst p :: cdeps (snd p)) (sets (f_name f)) || mcond_eqb (snd p) CTrue) U &&
            disjoint (cdeps c) (sets (f_name f)) then
            reuse_flds (if mcond_eqb c CTrue then adds (f_name f) ++ K else K)
                       (if mcond_eqb c CTrue then G else map (fun j => (j, c)) (adds (f_name f)) ++ G) U' r
          else None
        else None
    end.

  Definition same_res {A} (Q : A -> A -> Prop) (a b : res (A * dst)) : Prop :=
    match a, b with
    | Ok (x, s), Ok (y, s') => s = s' /\ Q x y
    | Err e, Err e' => e = e'
    | Panic, Panic => True
    | OutOfFuel, OutOfFuel => True
    | _, _ => False
    end.
  Lemma same_bind : forall A B (P : A -> A -> Prop) (Q : B -> B -> Prop) (m m' : D A) (g g' : A -> D B) st,
    same_res P (m st) (m' st) ->
    (forall a a' s, P a a' -> same_res Q (g a s) (g' a' s)) ->
    same_res Q ((x <~ m ;; g x) st) ((x <~ m' ;; g' x) st).
  Proof.
    intros A B P Q m m' g g' st H1 H2. unfold dbind. unfold same_res in H1 at 1.
    destruct (m st) as [[a s]| | |], (m' st) as [[a' s']| | |]; try contradiction; auto.
    destruct H1 as [<- H1]. auto.
  Qed.
  Lemma same_eq : forall A (Q : A -> A -> Prop) (a : res (A * dst)), (forall x, Q x x) -> same_res Q a a.
  Proof. intros A Q [[x s]| | |] H; cbn; auto. Qed.

  Variables (k : nat) (vs : list N) (ctx : context).
  Hypothesis Hqt : IsQuickTimeCompatible ctx = qt.
  Hypothesis Hwave : UnderWave ctx = wave.
  Variables a b : fields.    (* the contents before *)

  Definition env_of (s : fields) : menv := mkenv s ver (get_flags s) ctx.
  (** [R]: fields that have not been read yet *)
  Definition inv (K : list string) (G U : conds) (R : list string) (s s' : fields) : Prop :=
    map fst s = map fst s' /\
    (get_version s = ver /\ get_version s' = ver /\ get_flags s = get_flags s') /\
    (forall j, In j K -> lookup j s = lookup j s') /\
    (forall j c, In (j, c) G -> ceval (env_of s) c = true -> lookup j s = lookup j s') /\
    (forall j c, In (j, c) U -> ceval (env_of s) c = false -> lookup j s = lookup j a /\ lookup j s' = lookup j b) /\
    (forall j, In j R -> lookup j s = lookup j a /\ lookup j s' = lookup j b).

  Lemma vf_lookup : forall s m, lookup "FullBox" s = lookup "FullBox" m ->
    get_version s = get_version m /\ get_flags s = get_flags m.
  Proof. intros s m H. unfold get_version, get_flags, fullbox_of. rewrite H. auto. Qed.

  Lemma inv_upds : forall K G U R s s' us, inv K G U R s s' ->
    ~ In "FullBox" (map fst us) ->
    (forall j c, In (j, c) G -> forall i, In i (cdeps c) -> ~ In i (map fst us)) ->
    (forall j c, In (j, c) U -> (forall i, In i (j :: cdeps c) -> ~ In i (map fst us)) \/ c = CTrue) ->
    (forall j, In j R -> ~ In j (map fst us)) ->
    inv (map fst us ++ K) G U R (upds us s) (upds us s').
  Proof.
    intros K G U R s s' us (I1 & (V1 & V2 & V3) & I2 & I3 & I4 & I5) NF HG HU HR.
    destruct (vf_lookup (upds us s) s (lookup_upds_other _ _ _ NF)) as [W1 W2].
    destruct (vf_lookup (upds us s') s' (lookup_upds_other _ _ _ NF)) as [W3 W4].
    assert (CE : forall c, (forall i, In i (cdeps c) -> ~ In i (map fst us)) ->
      ceval (env_of (upds us s)) c = ceval (env_of s) c).
    { intros c Hc. apply ceval_agree. split; [|split].
      - intros i Hi. cbn [e_self env_of]. apply lookup_upds_other. auto.
      - intros _. cbn [e_ver e_flags env_of]. auto.
      - reflexivity. }
    split; [now rewrite !keys_upds|]. split; [repeat split; congruence|]. split; [|split; [|split]].
    - intros j Hj. apply lookup_upds_both; [exact I1|]. apply in_app_or in Hj. destruct Hj; auto.
    - intros j c Hj Hc. apply lookup_upds_both; [exact I1|]. left. apply (I3 j c Hj).
      rewrite CE in Hc; auto. now apply (HG j c).
    - intros j c Hj Hc. destruct (HU j c Hj) as [H| ->]; [|discriminate Hc].
      rewrite CE in Hc by (intros i Hi; apply H; now right).
      rewrite !lookup_upds_other by (apply H; now left). now apply (I4 j c).
    - intros j Hj. rewrite !lookup_upds_other by (now apply HR). auto.
  Qed.

  Lemma hook_same : forall K fn s s' left st,
    hook_fine K fn = true -> (forall j, In j K -> lookup j s = lookup j s') ->
    same_res (fun x y => fst x = fst y /\ exists us, snd x = upds us s /\ snd y = upds us s' /\
                (forall j, In j (map fst us) -> In j (sets fn)) /\
                (fst x = false -> ~ In fn (map fst us)) /\
                (forall j, In j (adds fn) -> (j = fn /\ fst x = false) \/ In j (map fst us)))
      (d_hook k (hook_of rn fn) ver s left st) (d_hook k (hook_of rn fn) ver s' left st).
  Proof.
    intros K fn s s' left st HF HK. unfold hook_fine in HF. unfold adds, sets.
    destruct (hook_of rn fn); cbn [d_hook].
    - split; [reflexivity|]. split; [reflexivity|]. exists []. cbn. repeat split; auto; try tauto.
      intros j [<-|[]]. auto.
    - split; [reflexivity|]. split; [reflexivity|]. exists []. cbn. repeat split; auto; try tauto.
      intros j Hj. destruct (ver =? 0); [|destruct Hj]. destruct Hj as [<-|[]]. auto.
    - destruct (ver =? 0).
      + split; [reflexivity|]. split; [reflexivity|]. exists []. cbn. repeat split; auto; try tauto.
        intros j [<-|[]]. auto.
      + unfold dbind. destruct (d_zstring k st) as [[x st1]| | |]; try reflexivity; try exact I.
        destruct (d_zstring k st1) as [[y st2]| | |]; try reflexivity; try exact I.
        split; [reflexivity|]. split; [reflexivity|]. exists [("SchemeIdUri", VStr x); ("Value", VStr y)].
        cbn [fst snd map]. split; [reflexivity|]. split; [reflexivity|]. split; [cbn; tauto|]. split.
        * intros _ Hi. apply str_in_In in Hi. rewrite Hi in HF. discriminate.
        * intros j [<-|Hj]; auto.
    - apply andb_prop in HF. destruct HF as [HF1 HF2]. apply String.eqb_eq in HF1. subst fn.
      apply str_in_In in HF2. rewrite (HK _ HF2).
      assert (P : forall v st, same_res (fun x y => fst x = fst y /\ exists us, snd x = upds us s /\ snd y = upds us s' /\
                (forall j, In j (map fst us) -> In j ["Name"]) /\
                (fst x = false -> ~ In "Name" (map fst us)) /\
                (forall j, In j ["Name"] -> (j = "Name" /\ fst x = false) \/ In j (map fst us)))
                (@Ok ((bool * fields) * dst) (true, update "Name" v s, st)) (Ok (true, update "Name" v s', st))).
      { intros v st0. split; [reflexivity|]. split; [reflexivity|]. exists [("Name", v)]. cbn [fst snd map].
        repeat split; auto. discriminate. }
      cbv zeta. destruct (_ =? 0); [apply P|].
      unfold dbind, d_has. destruct (negb _); [reflexivity|]. destruct (maxAlloc <=? _); [exact I|].
      destruct (d_bytes _ _) as [[[|c tl] st1]| | |]; try reflexivity; try exact I. apply P.
    - apply andb_prop in HF. destruct HF as [HF1 HF2]. apply String.eqb_eq in HF1. subst fn.
      apply str_in_In in HF2. rewrite (HK _ HF2).
      split; [reflexivity|]. split; [reflexivity|].
      eexists [("HighProfileFieldsEnabled", _)]. cbn [fst snd map]. repeat split; auto. discriminate.
  Qed.

  Lemma reuse_flds_cons : forall K G U f t r, reuse_flds K G U (FCons f t r) =
        let c := when f in
        let U' := (f_name f, c) :: U in
        if no_panic (size_exp f) && no_panic (len_exp f) then
          if mcond_eqb c CFalse then reuse_flds K G U' r
          else if all_in (cdeps c) K &&
            all_in (mdeps (size_exp f) ++ mdeps (len_exp f)) (K ++ map fst (filter (fun p => mcond_eqb (snd p) c) G)) &&
            negb (is_fullbox t) && solid_val rn K t && hook_fine K (f_name f) &&
            negb (str_in "FullBox" (sets (f_name f))) && disjoint (sets (f_name f)) (names_of r) &&
            forallb (fun p => disjoint (cdeps (snd p)) (sets (f_name f))) G &&
            forallb (fun p => disjoint (fst p :: cdeps (snd p)) (sets (f_name f)) || mcond_eqb (snd p) CTrue) U &&
            disjoint (cdeps c) (sets (f_name f)) then
            reuse_flds (if mcond_eqb c CTrue then adds (f_name f) ++ K else K)
                       (if mcond_eqb c CTrue then G else map (fun j => (j, c)) (adds (f_name f)) ++ G) U' r
          else None
        else None.
  Proof. reflexivity. Qed.

  Lemma reuse_run : forall fs K G U KF GF UF s s' lim base st,
    reuse_flds K G U fs = Some (KF, GF, UF) -> inv K G U (names_of fs) s s' -> got fs s -> got fs s' ->
    same_res (fun x y => inv KF GF UF [] x y)
      (dec_flds k rn vs ctx None lim base rn true s fs st)
      (dec_flds k rn vs ctx None lim base rn true s' fs st).
  Proof.
    induction fs as [|f t r IH]; intros K G U KF GF UF s s' lim base st H I Gs Gs'.
    { cbn [dec_flds same_res dret]. split; [reflexivity|]. cbn [reuse_flds] in H. injection H as <- <- <-. exact I. }
    rewrite reuse_flds_cons in H. cbv zeta in H. set (c := when f) in *.
    match type of H with (if ?q then _ else _) = _ => destruct q eqn:NP; [|discriminate H] end.
    apply andb_prop in NP. destruct NP as [NP1 NP2].
    rewrite !dec_flds_cons. cbv zeta. cbn [box_of].
    pose proof I as I'. destruct I' as (I1 & (V1 & V2 & V3) & I2 & I3 & I4 & I5).
    rewrite V1, V2, <- V3.
    assert (RS : forall e, e_ver e = ver -> e_ctx e = ctx -> resolve_size rn e f = meval e (size_exp f)).
    { intros e X1 X2. unfold resolve_size, size_exp. destruct (f_sizeDyn f); [|reflexivity].
      symmetry. apply msimp_eval; congruence. }
    assert (RL : forall e, e_ver e = ver -> e_ctx e = ctx -> resolve_len rn e f = meval e (len_exp f)).
    { intros e X1 X2. unfold resolve_len, len_exp. destruct (f_lenDyn f); [|reflexivity].
      symmetry. apply msimp_eval; congruence. }
    rewrite !RS, !RL by reflexivity. clear RS RL.
    rewrite !is_target_enabled, !when_eval by assumption. fold c. fold (env_of s).
    set (env := env_of s) in *. set (env' := mkenv s' ver (get_flags s) ctx).
    destruct (meval env (size_exp f)) as [size|] eqn:Es; [|now apply no_panic_some in Es].
    destruct (meval env (len_exp f)) as [len|] eqn:El; [|now apply no_panic_some in El].
    destruct (meval env' (size_exp f)) as [size'|] eqn:Es'; [|now apply no_panic_some in Es'].
    destruct (meval env' (len_exp f)) as [len'|] eqn:El'; [|now apply no_panic_some in El'].
    destruct Gs as [(cu & C1 & C2) Gr]. destruct Gs' as [(cu' & C1' & C2') Gr'].
    assert (SKIP : ceval env c = false -> forall K' G',
       (forall j, In j K' -> In j K \/ c = CTrue) ->
       (forall j x, In (j, x) G' -> In (j, x) G \/ x = c) ->
       inv K' G' ((f_name f, c) :: U) (names_of r) s s').
    { intros B K' G' HK' HG'. split; [exact I1|]. split; [auto|]. split; [|split; [|split]].
      - intros j Hj. destruct (HK' j Hj) as [X|X]; [auto|]. rewrite X in B. discriminate B.
      - intros j x Hj Hx. destruct (HG' j x Hj) as [X| ->]; [now apply (I3 j x)|]. fold env in Hx. congruence.
      - intros j x [E|Hj] Hx; [|now apply (I4 j x)]. injection E as <- <-. apply I5. now left.
      - intros j Hj. apply I5. now right. }
    destruct (mcond_eqb c CFalse) eqn:CF.
    { apply mcond_eqb_eq in CF.
      assert (Z : ceval env c = false /\ ceval env' c = false) by (rewrite CF; auto).
      destruct Z as [Z Z']. rewrite Z, Z'.
      unfold dbind, dret. apply (IH K G ((f_name f, c) :: U) KF GF UF); auto. }
    match type of H with (if ?q then _ else _) = _ => destruct q eqn:H2; [|discriminate H] end.
    apply andb_prop in H2. destruct H2 as [H2 S10]. apply andb_prop in H2. destruct H2 as [H2 S9].
    apply andb_prop in H2. destruct H2 as [H2 S8].
    apply andb_prop in H2. destruct H2 as [H2 S7]. apply andb_prop in H2. destruct H2 as [H2 S6].
    apply andb_prop in H2. destruct H2 as [H2 S5]. apply andb_prop in H2. destruct H2 as [H2 S4].
    apply andb_prop in H2. destruct H2 as [H2 S3]. apply andb_prop in H2. destruct H2 as [S1 S2].
    assert (EC : ceval env c = ceval env' c).
    { apply ceval_agree. split; [|split; auto]. intros j Hj. apply I2. now apply (all_in_In _ _ S1). }
    rewrite <- EC. rewrite forallb_forall in S8, S9.
    apply negb_true_iff in S3.
    set (K' := if mcond_eqb c CTrue then adds (f_name f) ++ K else K) in *.
    set (G' := if mcond_eqb c CTrue then G else map (fun j => (j, c)) (adds (f_name f)) ++ G) in *.
    apply (same_bind _ _ (fun x y => inv K' G' ((f_name f, c) :: U) (names_of r) x y /\ got r x /\ got r y)).
    2:{ intros x y s0 (J1 & J2 & J3). now apply (IH K' G' ((f_name f, c) :: U)). }
    destruct (ceval env c) eqn:B.
    2:{ cbn [same_res dret]. split; [reflexivity|]. split; [|split; assumption]. apply SKIP; [reflexivity| |].
        - intros j Hj. unfold K' in Hj. destruct (mcond_eqb c CTrue) eqn:Q; [right; now apply mcond_eqb_eq|now left].
        - intros j x Hj. unfold G' in Hj. destruct (mcond_eqb c CTrue); [now left|].
          apply in_app_or in Hj. destruct Hj as [Hj|Hj]; [right|now left].
          apply in_map_iff in Hj. destruct Hj as (i & Ei & _). congruence. }
    clear SKIP.
    assert (DE : forall j, In j (mdeps (size_exp f) ++ mdeps (len_exp f)) -> lookup j s = lookup j s').
    { intros j Hj. apply (all_in_In _ _ S2) in Hj. apply in_app_or in Hj. destruct Hj as [Hj|Hj]; [auto|].
      apply in_map_iff in Hj. destruct Hj as ([i c0] & <- & Hj). apply filter_In in Hj. destruct Hj as [Hj Q].
      cbn [snd fst] in *. apply mcond_eqb_eq in Q. subst c0. now apply (I3 i c). }
    assert (size' = size).
    { rewrite (meval_agree env env' (size_exp f)) in Es; [congruence|]. split; [|split; auto].
      intros j Hj. apply DE. apply in_or_app. now left. }
    assert (len' = len).
    { rewrite (meval_agree env env' (len_exp f)) in El; [congruence|]. split; [|split; auto].
      intros j Hj. apply DE. apply in_or_app. now right. }
    subst size' len'.
    assert (NFB : ~ In "FullBox" (sets (f_name f))).
    { intros X. apply str_in_In in X. rewrite X in S6. discriminate. }
    assert (HR : forall us : fields, (forall j, In j (map fst us) -> In j (sets (f_name f))) ->
      forall j, In j (names_of r) -> ~ In j (map fst us)).
    { intros us Hus j Hj X. apply Hus in X. now apply (disjoint_not _ _ j S7). }
    assert (I0 : inv K G U (names_of r) s s').
    { destruct I as (A1 & A2 & A3 & A4 & A5 & A6). repeat (split; [assumption|]). intros j Hj. apply A6. now right. }
    assert (HG : forall us : fields, (forall j, In j (map fst us) -> In j (sets (f_name f))) ->
      inv (map fst us ++ K) G U (names_of r) (upds us s) (upds us s')).
    { intros us Hus. apply inv_upds; auto.
      - intros j c0 Hj i Hi Hn. specialize (S8 _ Hj). cbn [snd] in S8. apply (disjoint_not _ _ i S8); auto.
      - intros j c0 Hj. specialize (S9 _ Hj). cbn [fst snd] in S9. apply orb_prop in S9.
        destruct S9 as [S9|S9]; [left|right; now apply mcond_eqb_eq].
        intros i Hi Hn. apply (disjoint_not _ _ i S9); auto. }
    assert (GR : forall us l : fields, (forall j, In j (map fst us) -> In j (sets (f_name f))) -> got r l -> got r (upds us l)).
    { intros us l Hus Hl. apply (got_ext r l); auto. intros j Hj. apply lookup_upds_other. now apply HR. }
    (* a step that sets what it must *)
    assert (DONE : forall us : fields, (forall j, In j (map fst us) -> In j (sets (f_name f))) ->
      (forall j, In j (adds (f_name f)) -> In j (map fst us)) ->
      inv K' G' ((f_name f, c) :: U) (names_of r) (upds us s) (upds us s') /\ got r (upds us s) /\ got r (upds us s')).
    { intros us Hus Ha. split; [|split; now apply GR].
      pose proof (HG us Hus) as J.
      destruct J as (J1 & J2 & J3 & J4 & J5 & J6).
      split; [exact J1|]. split; [exact J2|]. split; [|split; [|split; [|exact J6]]].
      - intros j Hj. apply J3. unfold K' in Hj. destruct (mcond_eqb c CTrue); [|apply in_or_app; now right].
        apply in_app_or in Hj. apply in_or_app. destruct Hj; auto.
      - intros j c0 Hj Hc. unfold G' in Hj. destruct (mcond_eqb c CTrue); [eauto|].
        apply in_app_or in Hj. destruct Hj as [Hj|Hj]; [|eauto].
        apply in_map_iff in Hj. destruct Hj as (i & Ei & Hi). injection Ei as -> _.
        apply J3. apply in_or_app. auto.
      - intros j c0 [E|Hj] Hc; [|eauto]. exfalso. injection E as _ <-.
        assert (X : ceval (env_of (upds us s)) c = ceval env c).
        { apply ceval_agree. split; [|split].
          - intros i Hi. cbn [e_self env_of env]. apply lookup_upds_other. intros X. apply Hus in X.
            now apply (disjoint_not _ _ i S10).
          - intros _. cbn [e_ver e_flags env_of env]. split; [reflexivity|].
            apply vf_lookup. apply lookup_upds_other. intros X. apply NFB. auto.
          - reflexivity. }
        congruence. }
    apply (same_bind _ _ eq); [split; reflexivity|]. intros p p' s0 <-.
    apply (same_bind _ _ (fun x y : bool * fields => fst x = fst y /\ exists us : fields, snd x = upds us s /\ snd y = upds us s' /\
                (forall j, In j (map fst us) -> In j (sets (f_name f))) /\
                (fst x = false -> ~ In (f_name f) (map fst us)) /\
                (forall j, In j (adds (f_name f)) -> (j = f_name f /\ fst x = false) \/ In j (map fst us)))).
    { now apply (hook_same K). }
    intros [o s1] [o' s1'] s2 (Eo & us & Eu & Eu' & U1 & U2 & U3). cbn [fst snd] in *. subst o' s1 s1'.
    destruct o.
    { cbn [same_res dret]. split; [reflexivity|]. apply DONE; auto.
      intros j Hj. destruct (U3 j Hj) as [[_ X]|X]; [discriminate|exact X]. }
    rewrite !lookup_upds_other by (now apply U2). rewrite C1, C1'.
    pose proof (HG us U1) as (J1 & (J2 & J2' & J2'') & J3 & _).
    apply (same_bind _ _ eq).
    { rewrite (proj1 (solid_all rn K k vs ctx (upds us s) (upds us s')
                 ltac:(intros j Hj; apply J3; apply in_or_app; now right) ltac:(congruence) J2'') t S4
                 lim base f size len cu cu' s2 C2 C2'). now apply same_eq. }
    intros x x' s3 <-. rewrite S3. cbn [andb same_res dret]. split; [reflexivity|].
    assert (W : forall l, update (f_name f) x (upds us l) = upds (us ++ [(f_name f, x)]) l).
    { intros l. unfold upds. rewrite fold_left_app. reflexivity. }
    rewrite !W. apply DONE.
    - intros j Hj. rewrite map_app in Hj. apply in_app_or in Hj. destruct Hj as [Hj|[<-|[]]]; [auto|].
      now left.
    - intros j Hj. rewrite map_app. apply in_or_app. destruct (U3 j Hj) as [[-> _]|X]; [right; now left|now left].
  Qed.

  (** every field is accounted for *)
  Definition is_in (p : string * mcond) (l : conds) : bool :=
    existsb (fun q => String.eqb (fst p) (fst q) && mcond_eqb (snd p) (snd q)) l.
  Definition covered (K : list string) (G U : conds) (f : finfo) : bool :=
    let c := when f in
    (str_in (f_name f) K || is_in (f_name f, c) G || mcond_eqb c CFalse) &&
    (is_in (f_name f, c) U).
  Lemma is_in_In : forall p l, is_in p l = true -> In p l.
  Proof.
    intros [n c] l H. unfold is_in in H. apply existsb_exists in H. destruct H as ([m d] & I & E).
    cbn [fst snd] in E. apply andb_prop in E. destruct E as [E1 E2]. apply String.eqb_eq in E1.
    apply mcond_eqb_eq in E2. now subst.
  Qed.
  Lemma covered_ok : forall K G U x y f, inv K G U [] x y -> covered K G U f = true ->
    if enabled ver (get_flags x) rn (env_of x) f then lookup (f_name f) x = lookup (f_name f) y
    else lookup (f_name f) x = lookup (f_name f) a /\ lookup (f_name f) y = lookup (f_name f) b.
  Proof.
    intros K G U x y f (_ & _ & I2 & I3 & I4 & _) H. unfold covered in H. cbv zeta in H.
    apply andb_prop in H. destruct H as [H1 H2]. unfold env_of at 1. rewrite when_eval by assumption.
    fold (env_of x). apply is_in_In in H2. destruct (ceval (env_of x) (when f)) eqn:E; [|now apply (I4 _ _ H2)].
    apply orb_prop in H1. destruct H1 as [H1|H1]; [apply orb_prop in H1; destruct H1 as [H1|H1]|].
    - apply I2. now apply str_in_In.
    - apply is_in_In in H1. now apply (I3 _ _ H1).
    - apply mcond_eqb_eq in H1. rewrite H1 in E. discriminate E.
  Qed.
End Top.

(** ** All registered boxes *)
Definition bools : list bool := [true; false].
(** [fs]: the fields still to be read; [fb]: FullBox has been read *)
Definition reuse_at (rn : string) (ver : N) (qt wave : bool) (K : list string) (fs : flds) : bool :=
  match reuse_flds rn ver qt wave K [] [] fs with
  | Some (KF, GF, UF) => forallb (covered rn ver qt wave KF GF UF) (finfos fs)
  | None => false
  end.
Definition reuse_ok (except : list N) (d : boxdef) : bool :=
  nodup_names (names_of (bd_flds d)) &&
  forallb (fun qt => forallb (fun wave =>
    if full_box d then
      match bd_flds d with
      | FCons _ _ r =>
          forallb (fun ver => existsb (N.eqb ver) except || reuse_at (bd_name d) ver qt wave ["FullBox"] r)
            (ver_list (bd_versions d))
      | FNil => false
      end
    else negb (str_in "FullBox" (names_of (bd_flds d))) && reuse_at (bd_name d) 0 qt wave [] (bd_flds d)) bools) bools.
Definition excepted (d : boxdef) : list N := if String.eqb (bd_name d) "Sgpd" then [2] else [].
Lemma std_reuse : forallb (fun d => reuse_ok (excepted d) d) all_defs = true.
Proof. vm_compute. reflexivity. Qed.

Lemma fb_shape : forall c, go_value fb_ty c ->
  exists v0 a0 b0 c0, c = VStruct [("Version", v0); ("Flags", VList [a0; b0; c0])].
Proof.
  intros c (l & -> & G). cbn [go_struct] in G.
  destruct l as [|[n1 v1] [|[n2 v2] [|]]]; try contradiction; try tauto.
  destruct G as (-> & _ & -> & (fl & -> & L & _) & _). cbn [f_name plain_info].
  destruct fl as [|a [|b [|c [|]]]]; cbn in L; try discriminate L; [now exists v1, a, b, c|].
  exfalso. unfold lenN in L. cbn [List.length] in L. lia.
Qed.

Lemma fb_eof : forall k rn vs ctx rt lim base o len v0 a0 b0 c0 st,
  lenN (snd st) < 32 ->
  dec_val k rn vs ctx rt lim base o 0 len fb_ty (VStruct [("Version", v0); ("Flags", VList [a0; b0; c0])]) st = Err EEOF.
Proof.
  intros k rn vs ctx rt lim base o len v0 a0 b0 c0 [p b] L. cbn [snd] in L.
  assert (T : forall q c, d_uint k 8 false 8 (q, c) = Err EEOF \/
             exists x, d_uint k 8 false 8 (q, c) = Ok (x, (q + 8, skipN 8 c)) /\ lenN (skipN 8 c) + 8 = lenN c).
  { intros q c. unfold d_uint. cbn [N.eqb]. unfold dbind, d_take. cbn [fst snd].
    destruct (N.leb_spec 8 (lenN c)); [right|left; reflexivity]. eexists. split; [reflexivity|].
    rewrite lenN_skipN. lia. }
  unfold fb_ty. rewrite dec_val_struct. change (negb (0 =? 0) && (0 mod 8 =? 0)) with false. cbv iota.
  unfold dbind at 1. rewrite dec_flds_cons. cbv zeta. rewrite plain_size, plain_len, plain_target.
  cbn [f_name plain_info]. change (hook_of "FullBox" "Version") with HNone.
  unfold dbind at 1. unfold dbind at 1. unfold dpos at 1. cbn [d_hook]. unfold dbind at 1, dret at 1.
  change (lookup "Version" [("Version", v0); ("Flags", VList [a0; b0; c0])]) with (Some v0). cbv iota.
  cbn [dec_val f_varint plain_info]. unfold dbind at 1.
  destruct (T p b) as [E1|(x1 & E1 & L1)]; rewrite E1; [reflexivity|].
  cbn [is_fullbox andb]. unfold dret at 1.
  change (update "Version" x1 [("Version", v0); ("Flags", VList [a0; b0; c0])])
    with [("Version", x1); ("Flags", VList [a0; b0; c0])].
  rewrite dec_flds_cons. cbv zeta. rewrite plain_size, plain_len, plain_target.
  cbn [f_name plain_info]. change (hook_of "FullBox" "Flags") with HNone.
  unfold dbind at 1. unfold dbind at 1. unfold dpos at 1. cbn [d_hook]. unfold dbind at 1, dret at 1.
  match goal with |- context [lookup "Flags" ?l] =>
    change (lookup "Flags" l) with (Some (VList [a0; b0; c0])) end. cbv iota.
  cbn [dec_val f_varint d_map plain_info]. unfold dbind.
  destruct (T (p + 8) (skipN 8 b)) as [E2|(x2 & E2 & L2)]; rewrite E2; [reflexivity|].
  destruct (T (p + 8 + 8) (skipN 8 (skipN 8 b))) as [E3|(x3 & E3 & L3)]; rewrite E3; [reflexivity|].
  destruct (T (p + 8 + 8 + 8) (skipN 8 (skipN 8 (skipN 8 b)))) as [E4|(x4 & E4 & L4)]; rewrite E4; [reflexivity|]. lia.
Qed.

Lemma all_bools : forall p, forallb p bools = true -> forall x, p x = true.
Proof. intros p H x. unfold bools in H. cbn [forallb] in H. apply andb_prop in H. destruct H as [H1 H2]. rewrite andb_true_r in H2. destruct x; assumption. Qed.

Lemma reuse_flds_keeps : forall rn ver qt wave fs K G U KF GF UF,
  reuse_flds rn ver qt wave K G U fs = Some (KF, GF, UF) -> forall j, In j K -> In j KF.
Proof.
  intros rn ver qt wave. induction fs as [|f t r IH]; intros K G U KF GF UF H.
  { cbn [reuse_flds] in H. injection H as <- <- <-. auto. }
  rewrite reuse_flds_cons in H. cbv zeta in H.
  repeat match type of H with (if ?q then _ else _) = _ => destruct q; try discriminate H end;
    pose proof (IH _ _ _ _ _ _ H) as Q; clear H; rename Q into H; auto.
  intros j Hj. apply H. destruct (mcond_eqb _ CTrue); [apply in_or_app; now right|exact Hj].
Qed.
(** the decoder on a used box and on another *)
Lemma reuse_decode : forall k d size ctx x y bytes,
  reuse_ok (excepted d) d = true ->
  (bd_name d = "Meta" -> bd_flds d = FCons (plain_info "FullBox" 0 0 true) fb_ty FNil) ->
  go_struct (bd_flds d) x -> go_struct (bd_flds d) y ->
  (bd_name d = "Sgpd" -> match bytes with v :: _ => b2N v <> 2 | [] => True end) ->
  match decode k d size ctx x (bits_of_bytes bytes), decode k d size ctx y (bits_of_bytes bytes) with
  | Ok (r, n), Ok (r', n') => n = n' /\ map fst r = map fst r' /\ (forall f, In f (finfos (bd_flds d)) -> left_or_read d ctx x y r r' f)
  | Err e, Err e' => e = e'
  | Panic, Panic => True
  | OutOfFuel, OutOfFuel => True
  | _, _ => False
  end.
Proof.
  intros k d size ctx x y bytes H HM Gx Gy Hv. unfold reuse_ok in H.
  apply andb_prop in H. destruct H as [ND H].
  apply nodup_names_NoDup in ND.
  pose proof (all_bools _ (all_bools _ H (IsQuickTimeCompatible ctx)) (UnderWave ctx)) as H1. cbv beta in H1. clear H.
  pose proof (go_struct_keys _ _ Gx) as Kx. pose proof (go_struct_keys _ _ Gy) as Ky.
  unfold decode, d_before.
  set (X := set_version anyVersion x). set (Y := set_version anyVersion y).
  assert (ENA : forall r f, unconditional f = true ->
    enabled (get_version r) (get_flags r) (bd_name d) (mkenv r (get_version r) (get_flags r) ctx) f = true).
  { intros r f Hf. rewrite <- is_target_enabled. now apply unconditional_target. }
  assert (MX : bd_name d = "Meta" -> forall v,
     map fst (update "FullBox" v X) = map fst (update "FullBox" v Y) /\
     (forall f, In f (finfos (bd_flds d)) -> left_or_read d ctx x y (update "FullBox" v X) (update "FullBox" v Y) f)).
  { intros EM v. specialize (HM EM).
    assert (E : forall l, map fst (set_version anyVersion l) = map fst l).
    { intros l. unfold set_version. destruct (fullbox_of l); [apply keys_update|reflexivity]. }
    split; [rewrite !keys_update; unfold X, Y; rewrite !E; congruence|].
    intros f Hf. rewrite HM in Hf. destruct Hf as [<-|[]]. unfold left_or_read. rewrite ENA by reflexivity.
    apply lookup_update_both; [unfold X, Y; rewrite !E; congruence|now right]. }
  assert (MAIN : match
     dec_flds k (bd_name d) (bd_versions d) ctx None (w64 (size * 8)) 0 (bd_name d) true X (bd_flds d) (0, bits_of_bytes bytes),
     dec_flds k (bd_name d) (bd_versions d) ctx None (w64 (size * 8)) 0 (bd_name d) true Y (bd_flds d) (0, bits_of_bytes bytes) with
   | Ok (r, s), Ok (r', s') => s = s' /\ map fst r = map fst r' /\ (forall f, In f (finfos (bd_flds d)) -> left_or_read d ctx x y r r' f)
   | Err e, Err e' => e = e'
   | Panic, Panic => True
   | OutOfFuel, OutOfFuel => True
   | _, _ => False
   end).
  { destruct (full_box d) eqn:FB.
    - destruct (full_box_inv d FB) as (r & E & NI & HH). rewrite E in H1, ND, Gx, Gy, Kx, Ky.
      destruct x as [|[n1 c1] zx]; [destruct Gx|]. destruct y as [|[n2 c2] zy]; [destruct Gy|].
      destruct Gx as (-> & Gx1 & Gx2). destruct Gy as (-> & Gy1 & Gy2). cbn [f_name plain_info] in *.
      destruct (fb_shape c1 Gx1) as (v1 & a1 & b1 & d1 & ->).
      destruct (fb_shape c2 Gy1) as (v2 & a2 & b2 & d2 & ->).
      change X with (("FullBox", VStruct [("Version", VUint 255); ("Flags", VList [a1; b1; d1])]) :: zx).
      change Y with (("FullBox", VStruct [("Version", VUint 255); ("Flags", VList [a2; b2; d2])]) :: zy).
      assert (STEP : forall v0 a0 b0 c0 z, dec_flds k (bd_name d) (bd_versions d) ctx None (w64 (size * 8)) 0 (bd_name d) true
         (("FullBox", VStruct [("Version", v0); ("Flags", VList [a0; b0; c0])]) :: z) (bd_flds d) (0, bits_of_bytes bytes) =
         if lenN (bits_of_bytes bytes) <? 32 then Err EEOF
         else match bytes with
              | v :: a :: b :: c :: rest =>
                  if version_in (bd_versions d) (b2N v)
                  then dec_flds k (bd_name d) (bd_versions d) ctx None (w64 (size * 8)) 0 (bd_name d) true
                         (("FullBox", fb_val v a b c) :: z) r (32, bits_of_bytes rest)
                  else Err EUnsupportedVersion
              | _ => Panic
              end).
      { intros v0 a0 b0 c0 z. rewrite E, dec_flds_cons. cbv zeta.
        rewrite plain_size, plain_len, plain_target. cbn [f_name plain_info]. rewrite HH.
        unfold dbind at 1. unfold dbind at 1. unfold dpos at 1. cbn [d_hook]. unfold dbind at 1, dret at 1.
        match goal with |- context [lookup "FullBox" (?x :: ?l)] =>
          change (lookup "FullBox" (x :: l)) with (Some (snd x)) end. cbv iota. cbn [snd].
        unfold dbind at 1. destruct (N.ltb_spec (lenN (bits_of_bytes bytes)) 32) as [L|L].
        { rewrite fb_eof by exact L. reflexivity. }
        assert (exists v a b c pr, bytes = v :: a :: b :: c :: pr) as (v & a & b & c & pr & ->).
        { rewrite lenN_bits_of_bytes in L.
          destruct bytes as [|v [|a [|b [|c pr]]]]; rewrite ?lenN_cons, ?lenN_nil in L; try lia. now exists v, a, b, c, pr. }
        change (v :: a :: b :: c :: pr) with ([v; a; b; c] ++ pr) at 1. rewrite bits_of_bytes_app, dec_fullbox.
        cbn [is_fullbox fb_ty]. change (String.eqb "FullBox" "FullBox") with true. cbn [andb].
        match goal with |- context [update "FullBox" ?y (?x :: ?l)] =>
          change (update "FullBox" y (x :: l)) with (("FullBox", y) :: l) end.
        cbn [box_of]. change (get_version (("FullBox", fb_val v a b c) :: z)) with (b2N v).
        destruct (version_in (bd_versions d) (b2N v)); reflexivity. }
      rewrite !STEP. clear STEP. destruct (_ <? 32); [reflexivity|].
      destruct bytes as [|v [|a [|b [|c rest]]]]; try exact I.
      destruct (version_in (bd_versions d) (b2N v)) eqn:VI; [|reflexivity].
      rewrite forallb_forall in H1. specialize (H1 _ (ver_list_in _ _ VI)). apply orb_prop in H1.
      assert (H2 : reuse_at (bd_name d) (b2N v) (IsQuickTimeCompatible ctx) (UnderWave ctx) ["FullBox"] r = true).
      { destruct H1 as [H1|H1]; [exfalso|exact H1]. unfold excepted in H1.
        destruct (String.eqb_spec (bd_name d) "Sgpd") as [ES|_]; [|discriminate H1].
        cbn [existsb] in H1. rewrite orb_false_r in H1. apply N.eqb_eq in H1. now apply (Hv ES). }
      cbn [names_of] in ND. inversion ND as [|? ? ND1 ND2]; subst.
      assert (GG : forall z, go_struct r z -> got r (("FullBox", fb_val v a b c) :: z)).
      { intros z Gz. apply (got_ext r z); [now apply go_struct_got|]. intros j Hj. cbn [lookup].
        destruct (String.eqb_spec j "FullBox") as [->|]; [contradiction|reflexivity]. }
      unfold reuse_at in H2.
      destruct (reuse_flds (bd_name d) (b2N v) (IsQuickTimeCompatible ctx) (UnderWave ctx) ["FullBox"] [] [] r)
        as [[[KF GF] UF]|] eqn:RF; [|discriminate H2]. rewrite forallb_forall in H2.
      assert (KZ : map fst zx = map fst zy) by (cbn [map fst] in Kx, Ky; congruence).
      set (x0 := ("FullBox", VStruct [("Version", v1); ("Flags", VList [a1; b1; d1])]) :: zx) in *.
      set (y0 := ("FullBox", VStruct [("Version", v2); ("Flags", VList [a2; b2; d2])]) :: zy) in *.
      assert (I0 : inv (b2N v) ctx x0 y0 ["FullBox"] [] [] (names_of r)
                     (("FullBox", fb_val v a b c) :: zx) (("FullBox", fb_val v a b c) :: zy)).
      { split; [cbn [map fst]; congruence|]. split; [repeat split|]. split; [|split; [|split]].
        - intros j [<-|[]]. reflexivity.
        - intros j c0 [].
        - intros j c0 [].
        - intros j Hj. unfold x0, y0. cbn [lookup]. destruct (String.eqb_spec j "FullBox") as [->|]; [contradiction|auto]. }
      pose proof (reuse_run (bd_name d) (b2N v) (IsQuickTimeCompatible ctx) (UnderWave ctx) k (bd_versions d) ctx eq_refl eq_refl
               _ _ r _ _ _ KF GF UF _ _ (w64 (size * 8)) 0 (32, bits_of_bytes rest) RF I0 (GG zx Gx2) (GG zy Gy2)) as S.
      clear I0. unfold same_res in S.
      destruct (dec_flds k (bd_name d) _ _ _ _ _ _ _ (_ :: zx) _ _) as [[r1 s1]| | |] eqn:D1,
               (dec_flds k (bd_name d) _ _ _ _ _ _ _ (_ :: zy) _ _) as [[r2 s2]| | |] eqn:D2; auto.
      destruct S as (-> & S). split; [reflexivity|]. split; [apply S|]. intros f Hf. rewrite E in Hf.
      destruct Hf as [<-|Hf].
      + unfold left_or_read. rewrite ENA by reflexivity. cbn [f_name plain_info].
        pose proof (reuse_flds_keeps _ _ _ _ r _ _ _ KF GF UF RF) as KK.
        destruct S as (_ & _ & S & _). apply S. apply KK. now left.
      + unfold left_or_read. pose proof S as (_ & (S1 & _) & _). rewrite S1.
        exact (covered_ok (bd_name d) (b2N v) (IsQuickTimeCompatible ctx) (UnderWave ctx) ctx eq_refl eq_refl
                 _ _ KF GF UF r1 r2 f S (H2 f Hf)).
    - apply andb_prop in H1. destruct H1 as [NF H1]. apply negb_true_iff in NF.
      assert (NI : forall l, map fst l = names_of (bd_flds d) -> lookup "FullBox" l = None).
      { intros l El. apply lookup_None. rewrite El. intros I. apply str_in_In in I. congruence. }
      assert (EX : X = x) by (unfold X, set_version, fullbox_of; now rewrite (NI x Kx)).
      assert (EY : Y = y) by (unfold Y, set_version, fullbox_of; now rewrite (NI y Ky)).
      rewrite EX, EY. unfold reuse_at in H1.
      destruct (reuse_flds (bd_name d) 0 (IsQuickTimeCompatible ctx) (UnderWave ctx) [] [] [] (bd_flds d))
        as [[[KF GF] UF]|] eqn:RF; [|discriminate H1]. rewrite forallb_forall in H1.
      assert (I0 : inv 0 ctx x y [] [] [] (names_of (bd_flds d)) x y).
      { split; [congruence|]. split.
        { unfold get_version, get_flags, fullbox_of. now rewrite (NI x Kx), (NI y Ky). }
        split; [intros j []|]. split; [intros j c0 []|]. split; [intros j c0 []|]. auto. }
      pose proof (reuse_run (bd_name d) 0 (IsQuickTimeCompatible ctx) (UnderWave ctx) k (bd_versions d) ctx eq_refl eq_refl
               _ _ (bd_flds d) _ _ _ KF GF UF _ _ (w64 (size * 8)) 0 (0, bits_of_bytes bytes) RF I0
               (go_struct_got _ _ ND Gx) (go_struct_got _ _ ND Gy)) as S.
      clear I0. unfold same_res in S.
      destruct (dec_flds k (bd_name d) _ _ _ _ _ _ _ x _ _) as [[r1 s1]| | |],
               (dec_flds k (bd_name d) _ _ _ _ _ _ _ y _ _) as [[r2 s2]| | |]; auto.
      destruct S as (-> & S). split; [reflexivity|]. split; [apply S|]. intros f Hf.
      unfold left_or_read. pose proof S as (_ & (S1 & _) & _). rewrite S1.
      exact (covered_ok (bd_name d) 0 (IsQuickTimeCompatible ctx) (UnderWave ctx) ctx eq_refl eq_refl
               _ _ KF GF UF r1 r2 f S (H1 f Hf)). }
  set (RX := dec_flds k _ _ _ _ _ _ _ _ X _ _) in *. set (RY := dec_flds k _ _ _ _ _ _ _ _ Y _ _) in *.
  assert (REST : match (match RX with
      | Ok (x, (p, _)) =>
          if negb (p mod 8 =? 0) then Err (EMsg "box size is not multiple of 8 bits")
          else if w64 (size * 8) <? p then Err (EMsg "overrun error")
          else Ok (x, p / 8)
      | Err e => Err e
      | Panic => Panic
      | OutOfFuel => OutOfFuel
      end), (match RY with
      | Ok (x, (p, _)) =>
          if negb (p mod 8 =? 0) then Err (EMsg "box size is not multiple of 8 bits")
          else if w64 (size * 8) <? p then Err (EMsg "overrun error")
          else Ok (x, p / 8)
      | Err e => Err e
      | Panic => Panic
      | OutOfFuel => OutOfFuel
      end) with
     | Ok (r, n), Ok (r', n') => n = n' /\ map fst r = map fst r' /\ (forall f, In f (finfos (bd_flds d)) -> left_or_read d ctx x y r r' f)
     | Err e, Err e' => e = e'
     | Panic, Panic => True
     | OutOfFuel, OutOfFuel => True
     | _, _ => False
     end).
  { clear H1. clearbody RX RY. destruct RX as [[r [p q]]| | |], RY as [[r' [p' q']]| | |]; try contradiction; try exact MAIN.
    destruct MAIN as (ES & M1 & M2). injection ES as <- <-.
    destruct (negb _); [exact eq_refl|]. destruct (_ <? p); [exact eq_refl|]. exact (conj eq_refl (conj M1 M2)). }
  destruct (String.eqb_spec (bd_name d) "Meta") as [EM|_]; [|exact REST].
  destruct (d_bytes 4 (0, bits_of_bytes bytes)) as [[buf st]| | |]; try reflexivity; try exact I.
  destruct (existsb _ buf); [|exact REST].
  split; [reflexivity|]. now apply MX.
Qed.

(** ** What Unmarshal leaves is a value of the type again *)
Lemma zero_go : (forall t, go_value t (zero t)) /\ (forall fs, go_struct fs (zero_flds fs)).
Proof.
  apply sty_flds_mutind; cbn [go_value].
  - intros w. now exists 0.
  - intros w. now exists 0%Z.
  - now exists false.
  - now exists [].
  - intros n u IH. eexists. split; [reflexivity|]. split.
    + unfold lenN. rewrite repeat_length. lia.
    + apply Forall_forall. intros x Hx. apply repeat_spec in Hx. now subst.
  - intros u IH. exists []. split; [reflexivity|constructor].
  - intros u IH. now left.
  - intros n c fs IH. eexists. split; [reflexivity|]. exact IH.
  - exact I.
  - intros f t IHt r IHr. split; [reflexivity|]. split; [exact IHt|exact IHr].
Qed.

Fixpoint fpairs (fs : flds) : list (finfo * sty) := match fs with FNil => [] | FCons f t r => (f, t) :: fpairs r end.
Definition gotp (l : list (finfo * sty)) (s : fields) : Prop :=
  forall f t, In (f, t) l -> exists c, lookup (f_name f) s = Some c /\ go_value t c.
Lemma keys_unique : forall (all : list (finfo * sty)) p q, NoDup (map (fun p => f_name (fst p)) all) ->
  In p all -> In q all -> f_name (fst p) = f_name (fst q) -> p = q.
Proof.
  induction all as [|h all IH]; intros p q ND Hp Hq E; [destruct Hp|]. cbn [map] in ND.
  inversion ND as [|? ? A1 A2]; subst. destruct Hp as [->|Hp], Hq as [->|Hq].
  - reflexivity.
  - exfalso. apply A1. apply in_map_iff. exists q. auto.
  - exfalso. apply A1. apply in_map_iff. exists p. auto.
  - now apply IH.
Qed.
Lemma got_gotp : forall fs s, got fs s -> gotp (fpairs fs) s.
Proof.
  induction fs as [|f t r IH]; intros s H g u Hi; [destruct Hi|]. destruct Hi as [E|Hi]; destruct H as [H1 H2].
  - now injection E as <- <-.
  - now apply (IH s H2).
Qed.
Lemma gotp_got : forall fs s, gotp (fpairs fs) s -> got fs s.
Proof.
  induction fs as [|f t r IH]; intros s H; [exact I|]. split; [apply H; now left|].
  apply IH. intros g u Hi. apply H. now right.
Qed.
Lemma got_go_struct : forall fs s, NoDup (names_of fs) -> map fst s = names_of fs -> got fs s -> go_struct fs s.
Proof.
  induction fs as [|f t r IH]; intros [|[n v] s] ND E G; cbn [names_of map fst] in *; try discriminate E; [exact I|].
  injection E as -> E. inversion ND as [|? ? N1 N2]; subst. destruct G as [(c & C1 & C2) G].
  cbn [lookup] in C1. rewrite String.eqb_refl in C1. injection C1 as ->.
  split; [reflexivity|]. split; [exact C2|]. apply IH; auto. apply (got_ext r _ _ G).
  intros j Hj. cbn [lookup]. destruct (String.eqb_spec j (f_name f)); [subst; contradiction|reflexivity].
Qed.

Definition okr {A} (P : A -> Prop) (r : res (A * dst)) : Prop := match r with Ok (a, _) => P a | _ => True end.
Lemma okr_bind : forall A B (P : A -> Prop) (Q : B -> Prop) (m : D A) (g : A -> D B) st,
  okr P (m st) -> (forall a s, P a -> okr Q (g a s)) -> okr Q ((x <~ m ;; g x) st).
Proof. intros A B P Q m g st H1 H2. unfold dbind. destruct (m st) as [[a s]| | |]; cbn in *; auto. Qed.
Lemma okr_loop : forall A (P : A -> Prop) (b : A -> D A), (forall a st, P a -> okr P (b a st)) ->
  forall k a st, P a -> okr P (dloop k b a st).
Proof. intros A P b H. induction k as [|k IH]; intros a st Ha; [exact Ha|]. cbn [dloop]. apply (okr_bind _ _ P); auto. Qed.
Lemma okr_while : forall A B (P : A -> Prop) (Q : B -> Prop) (b : A -> D (A + B)),
  (forall a st, P a -> okr (fun x => match x with inl y => P y | inr z => Q z end) (b a st)) ->
  forall k a st, P a -> okr Q (dwhile k b a st).
Proof.
  intros A B P Q b H. induction k as [|k IH]; intros a st Ha; [exact I|]. cbn [dwhile].
  apply (okr_bind _ _ (fun x => match x with inl y => P y | inr z => Q z end)); auto.
  intros [y|z] s Hs; auto.
Qed.
Lemma okr_any : forall A (r : res (A * dst)), okr (fun _ => True) r.
Proof. intros A [[a s]| | |]; exact I. Qed.

Section Go.
  Variables (k : nat) (rn : string) (vs : list N) (ctx : context).

  Lemma go_update' : forall all s n x, gotp all s -> (forall g u, In (g, u) all -> f_name g = n -> go_value u x) ->
    gotp all (update n x s).
  Proof.
    intros all s n x H Hx g u Hg. destruct (string_dec (f_name g) n) as [E|NE].
    - exists x. split; [|now apply (Hx g)]. destruct (H g u Hg) as (c & C & _). rewrite <- E.
      apply lookup_update_same. congruence.
    - rewrite lookup_update_other by exact NE. now apply H.
  Qed.

  Definition names_fine (all : list (finfo * sty)) : Prop := forall f t, In (f, t) all -> name_ok f t = true.
  Lemma fine_str : forall all n s g u, names_fine all -> In n ["Name"; "SchemeIdUri"; "Value"] ->
    In (g, u) all -> f_name g = n -> go_value u (VStr s).
  Proof.
    intros all n s g u H Hn Hg E. specialize (H g u Hg). unfold name_ok in H. rewrite E in H.
    apply str_in_In in Hn. rewrite Hn in H. destruct u; try discriminate H. now eexists.
  Qed.
  Lemma fine_bool : forall all b g u, names_fine all -> In (g, u) all ->
    f_name g = "HighProfileFieldsEnabled" -> go_value u (VBool b).
  Proof.
    intros all b g u H Hg E. specialize (H g u Hg). unfold name_ok in H. rewrite E in H.
    cbn in H. destruct u; try discriminate H. now eexists.
  Qed.
  Lemma hook_go : forall all h ver s left st, names_fine all -> gotp all s ->
    okr (fun x => gotp all (snd x) /\ map fst (snd x) = map fst s) (d_hook k h ver s left st).
  Proof.
    intros all h ver s left st NF G. destruct h; cbn [d_hook].
    - cbn. auto.
    - cbn. auto.
    - destruct (ver =? 0); [cbn; auto|].
      apply (okr_bind _ _ (fun _ => True)); [apply okr_any|]. intros x s1 _.
      apply (okr_bind _ _ (fun _ => True)); [apply okr_any|]. intros y s2 _. cbn [okr dret snd].
      split; [|now rewrite !keys_update].
      apply go_update'; [apply go_update'; [exact G|]|]; intros g u Hg Hn; eapply fine_str; eauto; cbn; auto.
    - cbv zeta. destruct (_ =? 0).
      { cbn [okr dret snd]. split; [|now rewrite keys_update]. apply go_update'; [exact G|].
        intros g u Hg Hn; eapply fine_str; eauto; cbn; auto. }
      unfold dbind, d_has. destruct (negb _); [exact I|]. destruct (maxAlloc <=? _); [exact I|].
      destruct (d_bytes _ _) as [[[|c tl] st1]| | |]; try exact I. cbn [okr dret snd].
      split; [|now rewrite keys_update]. apply go_update'; [exact G|].
      intros g u Hg Hn; eapply fine_str; eauto; cbn; auto.
    - cbn [okr dret snd]. split; [|now rewrite keys_update]. apply go_update'; [exact G|].
      intros g u Hg Hn; eapply fine_bool; eauto.
  Qed.

  Lemma nodup_flds_cons : forall f t r, nodup_flds (FCons f t r) = nodup_val t && nodup_flds r.
  Proof. reflexivity. Qed.
  Lemma tk_fine : forall fs top rl cfo sname, tk_flds rn top rl cfo sname fs = true -> names_fine (fpairs fs).
  Proof.
    induction fs as [|f t r IH]; intros top rl cfo sname H g u Hg; [destruct Hg|].
    rewrite tk_flds_cons in H. cbv zeta in H.
    apply andb_prop in H. destruct H as [H H2]. apply andb_prop in H. destruct H as [H _].
    apply andb_prop in H. destruct H as [H _]. apply andb_prop in H. destruct H as [H _].
    apply andb_prop in H. destruct H as [H _]. apply andb_prop in H. destruct H as [_ H].
    destruct Hg as [E|Hg]; [now injection E as <- <-|]. now apply (IH _ _ _ _ H2 g u).
  Qed.
  Lemma tk_struct : forall rl n c fs, tk_val rn rl (SStruct n c fs) = tk_flds rn false rl c n fs.
  Proof. reflexivity. Qed.

  Lemma dec_go :
    (forall t, nodup_val t = true -> forall rl, tk_val rn rl t = true -> forall rt lim base f size len cur st,
       go_value t cur -> okr (go_value t) (dec_val k rn vs ctx rt lim base f size len t cur st)) /\
    (forall fs, nodup_flds fs = true -> forall top rl cfo sname, tk_flds rn top rl cfo sname fs = true ->
       forall all rt lim base s st,
       names_fine all -> NoDup (map (fun p => f_name (fst p)) all) -> gotp all s -> (forall p, In p (fpairs fs) -> In p all) ->
       okr (fun x => gotp all x /\ map fst x = map fst s)
         (dec_flds k rn vs ctx rt lim base sname cfo s fs st)).
  Proof.
    apply sty_flds_mutind.
    - intros w _ rl _ rt lim base f size len cur st _. cbn [dec_val]. unfold d_uint. destruct (f_varint f).
      + apply (okr_bind _ _ (fun _ => True)); [apply okr_any|]. intros; cbn; now eexists.
      + destruct (size =? 0); [exact I|].
        apply (okr_bind _ _ (fun _ => True)); [apply okr_any|]. intros; cbn; now eexists.
    - intros w _ rl _ rt lim base f size len cur st _. cbn [dec_val]. unfold d_int. destruct (f_varint f); [exact I|].
      destruct (size =? 0); [exact I|].
      apply (okr_bind _ _ (fun _ => True)); [apply okr_any|]. intros; cbn; now eexists.
    - intros _ rl _ rt lim base f size len cur st _. cbn [dec_val]. unfold d_bool.
      destruct (size =? 0); [exact I|].
      apply (okr_bind _ _ (fun _ => True)); [apply okr_any|]. intros; cbn; now eexists.
    - intros _ rl _ rt lim base f size len cur st _. cbn [dec_val].
      assert (SC : forall s, okr (go_value SStr) (d_string_c k lim base s)).
      { intros s. unfold d_string_c. apply (okr_bind _ _ (fun _ => True)); [apply okr_any|]. intros; cbn; now eexists. }
      unfold d_string. destruct (f_cp f); [|apply SC].
      apply (okr_bind _ _ (fun o => match o with Some v => go_value SStr v | None => True end)).
      + unfold d_pstring. apply (okr_bind _ _ (fun _ => True)); [apply okr_any|]. intros p s _. cbv zeta.
        destruct (_ <? 2); [exact I|]. destruct (negb _); [exact I|].
        apply (okr_bind _ _ (fun _ => True)); [apply okr_any|]. intros b0 s1 _.
        destruct (_ <? be_to_N b0); [exact I|].
        apply (okr_bind _ _ (fun _ => True)); [apply okr_any|]. intros; cbn; now eexists.
      + intros [v|] s Hv; [exact Hv|apply SC].
    - intros n u IH N rl H rt lim base f size len cur st (l & -> & L & F). cbn [dec_val].
      apply (okr_bind _ _ (fun xs => List.length xs = List.length l /\ Forall (go_value u) xs)).
      + clear L. revert st. induction F as [|x l X F IHl]; intros st; [cbn; auto|]. cbn [d_map].
        apply (okr_bind _ _ (go_value u)); [now apply (IH N rl H)|]. intros y s Hy.
        apply (okr_bind _ _ (fun xs => List.length xs = List.length l /\ Forall (go_value u) xs)); [apply IHl|].
        intros xs s1 [L1 F1]. cbn. split; [now f_equal|]. now constructor.
      + intros xs s [L1 F1]. cbn [okr dret go_value]. exists xs. split; [reflexivity|]. split; [|exact F1].
        unfold lenN in *. congruence.
    - intros u IH N rl H rt lim base f size len cur st _. cbn [dec_val].
      apply (okr_bind _ _ (fun _ => True)); [apply okr_any|]. intros p s _. cbv zeta.
      destruct (_ && negb _ && _); [exact I|].
      destruct (_ && is_u8 u && _) eqn:U8.
      { apply andb_prop in U8. destruct U8 as [U8 _]. apply andb_prop in U8. destruct U8 as [_ U8].
        apply (okr_bind _ _ (fun _ => True)); [apply okr_any|]. intros o s1 _.
        destruct (negb o); [exact I|]. destruct (maxAlloc <=? _); [exact I|].
        apply (okr_bind _ _ (fun _ => True)); [apply okr_any|]. intros buf s2 _. cbn [okr dret go_value].
        unfold bytes_val. eexists. split; [reflexivity|].
        apply Forall_forall. intros x Hx. apply in_map_iff in Hx. destruct Hx as (b & <- & _).
        destruct u; try discriminate U8. now eexists. }
      apply (okr_bind _ _ (Forall (go_value u))).
      + assert (EL : forall acc s, Forall (go_value u) acc -> okr (Forall (go_value u))
          ((x <~ dec_val k rn vs ctx rt lim base f size len u (zero u) ;;
            p0 <~ dpos ;; if lim <? p0 - base then dfail (EMsg "failed to read array completely") else dret (x :: acc)) s)).
        { intros acc s0 Ha. apply (okr_bind _ _ (go_value u)); [apply (IH N rl H); apply zero_go|]. intros x s1 Hx.
          apply (okr_bind _ _ (fun _ => True)); [apply okr_any|]. intros q s2 _.
          destruct (_ <? _); [exact I|]. cbn. now constructor. }
        destruct (len =? LengthUnlimited).
        * apply (okr_while _ _ (Forall (go_value u))); [|constructor]. intros acc s0 Ha.
          apply (okr_bind _ _ (fun _ => True)); [apply okr_any|]. intros q s1 _.
          destruct (lim <=? q - base); [exact Ha|].
          apply (okr_bind _ _ (Forall (go_value u))); [now apply EL|]. intros; assumption.
        * apply okr_loop; [|constructor]. intros; now apply EL.
      + intros xs s1 Hx. cbn [okr dret go_value]. eexists. split; [reflexivity|]. now apply Forall_rev.
    - intros u IH N rl H rt lim base f size len cur st _. cbn [dec_val].
      apply (okr_bind _ _ (go_value u)); [apply (IH N rl H); apply zero_go|]. intros x s Hx. cbn. right. eauto.
    - intros name cfo fs IH N rl H rt lim base f size len cur st (l & -> & G). rewrite tk_struct in H.
      change (nodup_names (names_of fs) && nodup_flds fs = true) in N. apply andb_prop in N. destruct N as [N1 N2].
      apply nodup_names_NoDup in N1. rewrite dec_val_struct.
      pose proof (go_struct_keys _ _ G) as E.
      assert (NP : NoDup (map (fun p => f_name (fst p)) (fpairs fs))).
      { replace (map (fun p => f_name (fst p)) (fpairs fs)) with (names_of fs); [exact N1|].
        clear. induction fs as [|f t r IH]; [reflexivity|]. cbn. now rewrite IH. }
      assert (Q : forall lim base st, okr (fun x => go_struct fs x) (dec_flds k rn vs ctx (Some rt) lim base name cfo l fs st)).
      { intros lim0 base0 st0.
        pose proof (IH N2 false rl cfo name H (fpairs fs) (Some rt) lim0 base0 l st0 (tk_fine _ _ _ _ _ H) NP
          (got_gotp _ _ (go_struct_got _ _ N1 G)) ltac:(auto)) as Z.
        destruct (dec_flds _ _ _ _ _ _ _ _ _ _ _ _) as [[x s]| | |]; cbn in *; auto.
        destruct Z as [Z1 Z2]. apply got_go_struct; [exact N1|congruence|now apply gotp_got]. }
      destruct (_ && _).
      + apply (okr_bind _ _ (fun _ => True)); [apply okr_any|]. intros p s _.
        apply (okr_bind _ _ (fun x => go_struct fs x)); [apply Q|]. intros x s1 Hx.
        apply (okr_bind _ _ (fun _ => True)); [apply okr_any|]. intros q s2 _.
        destruct (_ =? size); [|exact I]. cbn [okr dret go_value]. eauto.
      + apply (okr_bind _ _ (fun x => go_struct fs x)); [apply Q|]. intros x s1 Hx. cbn [okr dret go_value]. eauto.
    - intros _ top rl cfo sname _ all rt lim base s st _ _ G _. cbn. auto.
    - intros f t IHt r IHr N top rl cfo sname H all rt lim base s st NF ND G Sub.
      rewrite nodup_flds_cons in N. apply andb_prop in N. destruct N as [N1 N2].
      rewrite tk_flds_cons in H. cbv zeta in H.
      apply andb_prop in H. destruct H as [H H2]. apply andb_prop in H. destruct H as [_ H1].
      rewrite dec_flds_cons. cbv zeta.
      destruct (resolve_size _ _ f) as [size|]; [|exact I]. destruct (resolve_len _ _ f) as [len|]; [|exact I].
      apply (okr_bind _ _ (fun x => gotp all x /\ map fst x = map fst s)).
      2:{ intros x s1 [Gx Kx].
          pose proof (IHr N2 top rl cfo sname H2 all rt lim base x s1 NF ND Gx ltac:(intros p Hp; apply Sub; now right)) as Z.
          destruct (dec_flds _ _ _ _ _ _ _ _ _ _ _ _) as [[y s2]| | |]; cbn in *; auto.
          destruct Z as [Z1 Z2]. split; [exact Z1|congruence]. }
      destruct (is_target _ _ _ _ _); [|cbn; auto].
      apply (okr_bind _ _ (fun _ => True)); [apply okr_any|]. intros p s1 _.
      apply (okr_bind _ _ (fun x => gotp all (snd x) /\ map fst (snd x) = map fst s)); [now apply hook_go|].
      intros [o s2] s3 [G2 K2]. cbn [snd] in *. destruct o; [cbn; auto|].
      destruct (G2 f t (Sub _ (or_introl eq_refl))) as (c & C1 & C2). rewrite C1.
      apply (okr_bind _ _ (go_value t)); [now apply (IHt N1 _ H1)|]. intros x s4 Hx.
      destruct (_ && _); [exact I|]. cbn [okr dret]. split; [|now rewrite keys_update].
      apply go_update'; [exact G2|]. intros g u Hg E.
      assert (X : (g, u) = (f, t)).
      { apply (keys_unique all); [exact ND|exact Hg|apply Sub; now left|exact E]. }
      injection X as -> ->. exact Hx.
  Qed.
End Go.

Lemma fpairs_names : forall fs, map (fun p => f_name (fst p)) (fpairs fs) = names_of fs.
Proof. induction fs as [|f t r IH]; [reflexivity|]. cbn. now rewrite IH. Qed.
Lemma decode_go : forall k d size ctx x bits y n,
  nodup_names (names_of (bd_flds d)) && nodup_flds (bd_flds d) = true ->
  tk_flds (bd_name d) true [] true (bd_name d) (bd_flds d) = true ->
  (forall f t, In (f, t) (fpairs (bd_flds d)) -> f_name f = "FullBox" -> t = fb_ty) ->
  go_struct (bd_flds d) x -> decode k d size ctx x bits = Ok (y, n) -> go_struct (bd_flds d) y.
Proof.
  intros k d size ctx x bits y n N T FB G H. apply andb_prop in N. destruct N as [N1 N2].
  apply nodup_names_NoDup in N1. pose proof (go_struct_keys _ _ G) as E.
  assert (ND : NoDup (map (fun p => f_name (fst p)) (fpairs (bd_flds d)))) by (now rewrite fpairs_names).
  pose proof (got_gotp _ _ (go_struct_got _ _ N1 G)) as P.
  assert (BACK : forall s, gotp (fpairs (bd_flds d)) s -> map fst s = map fst x -> go_struct (bd_flds d) s).
  { intros s Gs Ks. apply got_go_struct; [exact N1|congruence|now apply gotp_got]. }
  assert (SV : gotp (fpairs (bd_flds d)) (set_version anyVersion x) /\ map fst (set_version anyVersion x) = map fst x).
  { unfold set_version, fullbox_of. destruct (lookup "FullBox" x) as [v|] eqn:L; [|auto].
    destruct v as [| | | | | |l]; auto. split; [|apply keys_update]. apply go_update'; [exact P|].
    intros g u Hg En. destruct (P g u Hg) as (c & C1 & C2). rewrite En, L in C1. injection C1 as <-.
    rewrite (FB g u Hg En) in *. destruct (fb_shape _ C2) as (v0 & a0 & b0 & c0 & X). injection X as ->.
    destruct C2 as (l & El & Gl). injection El as <-. cbn [go_struct] in Gl.
    destruct Gl as (_ & _ & _ & Gl & _). eexists. split; [reflexivity|]. cbn [go_struct].
    split; [reflexivity|]. split; [now eexists|]. split; [reflexivity|]. split; [exact Gl|exact I]. }
  destruct SV as [P1 K1]. unfold decode in H.
  set (X := set_version anyVersion x) in *. clearbody X.
  destruct (d_before (bd_name d) X (0, bits)) as [[[o s1] st1]| | |] eqn:BF; try discriminate H.
  assert (Q : gotp (fpairs (bd_flds d)) s1 /\ map fst s1 = map fst x).
  { unfold d_before in BF. destruct (String.eqb (bd_name d) "Meta"); [|injection BF as <- <- <-; auto].
    destruct (d_bytes 4 _) as [[buf st2]| | |]; try discriminate BF.
    destruct (existsb _ buf); injection BF as <- <- <-; [|auto]. split; [|now rewrite keys_update].
    apply go_update'; [exact P1|]. intros g u Hg En. rewrite (FB g u Hg En).
    eexists. split; [reflexivity|]. split; [reflexivity|]. split; [now eexists|]. split; [reflexivity|]. split; [|exact I].
    eexists. split; [reflexivity|]. split; [reflexivity|]. repeat constructor; now eexists. }
  destruct Q as [P2 K2]. destruct o; [injection H as <- <-; now apply BACK|].
  pose proof (proj2 (dec_go k (bd_name d) (bd_versions d) ctx) (bd_flds d) N2 true [] true (bd_name d) T
     (fpairs (bd_flds d)) None (w64 (size * 8)) 0 s1 (0, bits) (tk_fine _ _ _ _ _ _ T) ND P2 ltac:(auto)) as Z.
  destruct (dec_flds _ _ _ _ _ _ _ _ _ _ _ _) as [[z [p q]]| | |]; try discriminate H.
  destruct (negb _); [discriminate H|]. destruct (_ <? p); [discriminate H|]. injection H as <- <-.
  destruct Z as [Z1 Z2]. apply BACK; [exact Z1|congruence].
Qed.
Definition fb_named (d : boxdef) : bool :=
  forallb (fun p => negb (String.eqb (f_name (fst p)) "FullBox") || sty_eqb (snd p) fb_ty) (fpairs (bd_flds d)).
Lemma std_fb_named : forallb fb_named all_defs = true.
Proof. vm_compute. reflexivity. Qed.
Lemma fb_named_ok : forall d, fb_named d = true ->
  forall f t, In (f, t) (fpairs (bd_flds d)) -> f_name f = "FullBox" -> t = fb_ty.
Proof.
  intros d H f t Hf E. unfold fb_named in H. rewrite forallb_forall in H. specialize (H _ Hf). cbn [fst snd] in H.
  rewrite E in H. cbn [String.eqb Ascii.eqb Bool.eqb negb orb] in H. now apply sty_eqb_eq.
Qed.
