(** A decoded box is complete: each field it has holds a value of its type, no
    pointer is nil, no slice is longer than declared. *)
From Verif Require Import Base BitIO Schema Structs Methods Registry Marshal Unmarshal SpecCodec
     SpecRoundTrip GoText SpecStringify Decode.
From Verif Require Import BaseProofs BitIOProofs BitIOFacts MarshalProofs MarshalCount UnmarshalProofs
     DecodeFacts VersionFacts Causal RoundTripBase RoundTripProofs Shape Total Lossless EditTime.
Local Open Scope string_scope.
Local Open Scope list_scope.
Local Open Scope N_scope.
Local Open Scope dec_scope.

(** ** The fields that are still to be decoded, with those that hooks will set *)
Definition targets (cn fn : string) : list string :=
  match hook_of cn fn with
  | HEmsgData => ["SchemeIdUri"; "Value"]
  | HHdlrName => ["Name"]
  | HAvcHigh => ["HighProfileFieldsEnabled"]
  | _ => []
  end.
Fixpoint later (cn : string) (fs : flds) : list string :=
  match fs with FNil => [] | FCons f _ r => f_name f :: targets cn (f_name f) ++ later cn r end.
Definition disjoint (a b : list string) : bool := forallb (fun j => negb (str_in j b)) a.
Lemma disjoint_not : forall a b j, disjoint a b = true -> In j a -> ~ In j b.
Proof.
  intros a b j H I J. unfold disjoint in H. rewrite forallb_forall in H. specialize (H j I).
  apply str_in_In in J. rewrite J in H. discriminate.
Qed.
Definition name_ok (f : finfo) (t : sty) : bool :=
  if str_in (f_name f) ["Name"; "SchemeIdUri"; "Value"] then match t with SStr => true | _ => false end
  else if String.eqb (f_name f) "HighProfileFieldsEnabled" then match t with SBool => true | _ => false end
  else true.
Definition hook_ok (cn : string) (f : finfo) (t : sty) : bool :=
  match hook_of cn (f_name f) with
  | HNone | HEmsgData => true
  | HEmsgSkip => match t with SStr => true | _ => false end
  | HHdlrName => String.eqb (f_name f) "Name"
  | HAvcHigh => String.eqb (f_name f) "HighProfileFieldsEnabled"
  end.

Section Check.
  Variable rname : string.
  (** [rl]: the fields of the box that are still to be decoded *)
  Fixpoint tk_val (rl : list string) (t : sty) : bool :=
    match t with
    | SArr _ u | SSlice u | SPtr u => tk_val rl u
    | SStruct name cfo fs => tk_flds false rl cfo name fs
    | _ => true
    end
  with tk_flds (top : bool) (rl : list string) (cfo : bool) (sname : string) (fs : flds) : bool :=
    match fs with
    | FNil => true
    | FCons f t rest =>
        let cn := if cfo then sname else rname in
        let late := later cn (FCons f t rest) in
        let rl' := if top then late else rl in
        disjoint (fdeps cn f) (if cfo then late else rl') &&
        (negb (fver cn f) || negb (str_in "FullBox" rl')) &&
        name_ok f t && hook_ok cn f t &&
        negb (str_in (f_name f) (names_of rest)) && disjoint (targets cn (f_name f)) (names_of rest) &&
        tk_val rl' t && tk_flds top rl cfo sname rest
    end.
End Check.
Lemma std_tk : forallb (fun d => tk_flds (bd_name d) true [] true (bd_name d) (bd_flds d)) all_defs = true.
Proof. vm_compute. reflexivity. Qed.
Lemma tk_flds_cons : forall rname top rl (cfo : bool) sname f t rest,
  tk_flds rname top rl cfo sname (FCons f t rest) =
        let cn := if cfo then sname else rname in
        let late := later cn (FCons f t rest) in
        let rl' := if top then late else rl in
        disjoint (fdeps cn f) (if cfo then late else rl') &&
        (negb (fver cn f) || negb (str_in "FullBox" rl')) &&
        name_ok f t && hook_ok cn f t &&
        negb (str_in (f_name f) (names_of rest)) && disjoint (targets cn (f_name f)) (names_of rest) &&
        tk_val rname rl' t && tk_flds rname top rl cfo sname rest.
Proof. reflexivity. Qed.

(** ** What a hook does *)
Definition hook_value (j : string) (v : val) : Prop :=
  if String.eqb j "HighProfileFieldsEnabled" then exists b, v = VBool b else exists s, v = VStr s.
Lemma hook_value_typed : forall rname root ctx f t size len v, name_ok f t = true -> In (f_name f) hook_targets ->
  hook_value (f_name f) v -> has_type rname root ctx f size len t v = true.
Proof.
  intros rname root ctx f t size len v N I H. unfold name_ok in N. unfold hook_value in H.
  destruct (String.eqb_spec (f_name f) "HighProfileFieldsEnabled") as [E|E].
  - rewrite E in N. change (str_in _ _) with false in N. cbv iota in N. destruct t; try discriminate.
    destruct H as [b ->]. reflexivity.
  - assert (S : str_in (f_name f) ["Name"; "SchemeIdUri"; "Value"] = true).
    { apply str_in_In. destruct I as [I|[I|[I|[I|[]]]]]; try (rewrite <- I; cbn; tauto). congruence. }
    rewrite S in N. destruct t; try discriminate. destruct H as [s ->]. reflexivity.
Qed.

Lemma hook_frame : forall k cn fn ver self left st o self' st' j,
  d_hook k (hook_of cn fn) ver self left st = Ok ((o, self'), st') ->
  map fst self' = map fst self /\
  (lookup j self' = lookup j self \/
   (In j (targets cn fn) /\ exists v, lookup j self' = Some v /\ hook_value j v)).
Proof.
  intros k cn fn ver self left st o self' st' j H.
  assert (K : forall n x l, In n (targets cn fn) -> hook_value n x ->
    lookup j (update n x l) = lookup j l \/
    (In j (targets cn fn) /\ exists v, lookup j (update n x l) = Some v /\ hook_value j v)).
  { intros n x l Hn Hx. destruct (string_dec j n) as [->|NE].
    - destruct (lookup n l) as [y|] eqn:E.
      + right. split; [exact Hn|]. exists x. split; [|exact Hx]. apply lookup_update_same. congruence.
      + left. clear - E. induction l as [|[a b] l IH]; [reflexivity|]. cbn [lookup update] in *.
        destruct (String.eqb_spec n a) as [->|NE]; [discriminate|]. cbn [lookup].
        destruct (String.eqb_spec n a); [contradiction|]. auto.
    - left. now apply lookup_update_other. }
  unfold targets in *. destruct (hook_of cn fn); cbn [d_hook] in H.
  - injection H as <- <- <-. auto.
  - injection H as <- <- <-. auto.
  - destruct (ver =? 0); [injection H as <- <- <-; auto|].
    unfold dbind in H. destruct (d_zstring k st) as [[x st1]| | |]; try discriminate.
    destruct (d_zstring k st1) as [[y st2]| | |]; try discriminate. injection H as <- <- <-.
    split; [now rewrite !keys_update|].
    destruct (K "Value" (VStr y) (update "SchemeIdUri" (VStr x) self)) as [E|E]; [cbn; auto|eexists; reflexivity| |now right].
    rewrite E. apply K; [cbn; auto|]. eexists; reflexivity.
  - cbv zeta in H. destruct (_ =? 0).
    { injection H as <- <- <-. split; [now rewrite keys_update|]. apply K; [cbn; auto|eexists; reflexivity]. }
    unfold dbind, d_has in H. destruct (negb _); [discriminate|].
    destruct (maxAlloc <=? _); [discriminate|].
    destruct (d_bytes _ _) as [[[|c tl] st1]| | |]; try discriminate.
    injection H as <- <- <-. split; [now rewrite keys_update|]. apply K; [cbn; auto|eexists; reflexivity].
  - injection H as <- <- <-. split; [now rewrite keys_update|]. apply K; [cbn; auto|eexists; reflexivity].
Qed.
Lemma targets_sub : forall cn fn j, In j (targets cn fn) -> In j hook_targets.
Proof. intros cn fn j H. unfold targets in H. unfold hook_targets. destruct (hook_of cn fn); cbn in *; tauto. Qed.

Lemma dec_frame : forall k rn vs ctx rt lim base sname (cfo : bool) j fs self st self' st',
  dec_flds k rn vs ctx rt lim base sname cfo self fs st = Ok (self', st') ->
  ~ In j (names_of fs) ->
  map fst self' = map fst self /\
  (lookup j self' = lookup j self \/
   (In j (later (if cfo then sname else rn) fs) /\ In j hook_targets /\
    exists v, lookup j self' = Some v /\ hook_value j v)).
Proof.
  intros k rn vs ctx rt lim base sname cfo j.
  induction fs as [|f t rest IH]; intros self st self' st' H Hn.
  { assert (self = self') by (now injection H). subst. auto. }
  rewrite dec_flds_cons in H. cbv zeta in H.
  destruct (resolve_size _ _ f) as [size|]; [|discriminate].
  destruct (resolve_len _ _ f) as [len|]; [|discriminate].
  cbn [names_of In] in Hn.
  unfold dbind in H at 1.
  match type of H with match ?m st with _ => _ end = _ => set (step := m) in H end.
  destruct (step st) as [[s1 st1]| | |] eqn:E; try discriminate.
  set (cn := if cfo then sname else rn) in *.
  assert (L : map fst s1 = map fst self /\
    (lookup j s1 = lookup j self \/
     (In j (targets cn (f_name f)) /\ exists v, lookup j s1 = Some v /\ hook_value j v))).
  { unfold step in E. clear step. destruct (is_target _ _ _ _ _).
    2:{ assert (self = s1) by (now injection E). subst. auto. }
    unfold dbind in E at 1. unfold dpos in E at 1. unfold dbind in E at 1.
    destruct (d_hook _ _ _ _ _ _) as [[[o s2] st2]| | |] eqn:Eh; try discriminate.
    destruct (hook_frame _ _ _ _ _ _ _ _ _ _ j Eh) as [Kh Lh].
    destruct o; [assert (s2 = s1) by (now injection E); subst; auto|].
    destruct (lookup (f_name f) s2) as [cur|]; [|discriminate].
    unfold dbind in E at 1.
    destruct (dec_val _ _ _ _ _ _ _ _ _ _ _ _ _) as [[x st3]| | |]; try discriminate.
    destruct (_ && _); [discriminate|].
    assert (X : update (f_name f) x s2 = s1) by (now injection E). subst s1.
    rewrite lookup_update_other, keys_update by (intros ->; apply Hn; auto). auto. }
  destruct L as [L1 L2]. destruct (IH s1 st1 self' st' H) as [I1 I2]; [tauto|]. split; [congruence|].
  destruct I2 as [I2|(I2 & I3 & v & I4 & I5)].
  - destruct L2 as [L2|(L2 & v & L3 & L4)]; [left; congruence|]. right. cbn [later]. split.
    + right. apply in_or_app. now left.
    + split; [eapply targets_sub; eauto|]. exists v. split; [congruence|exact L4].
  - right. cbn [later]. split; [right; apply in_or_app; now right|]. split; [exact I3|]. eauto.
Qed.
Lemma names_later : forall cn fs j, In j (names_of fs) -> In j (later cn fs).
Proof.
  induction fs as [|f t r IH]; intros j H; [destruct H|]. cbn [names_of later In] in *.
  destruct H as [H|H]; [now left|right]. apply in_or_app. right. auto.
Qed.
Lemma dec_frame_late : forall k rn vs ctx rt lim base sname (cfo : bool) j fs self st self' st',
  dec_flds k rn vs ctx rt lim base sname cfo self fs st = Ok (self', st') ->
  ~ In j (later (if cfo then sname else rn) fs) -> lookup j self' = lookup j self.
Proof.
  intros k rn vs ctx rt lim base sname cfo j fs self st self' st' H N.
  destruct (dec_frame _ _ _ _ _ _ _ _ _ j _ _ _ _ _ H) as [_ [E|(I & _)]]; auto; [|contradiction].
  intros I. apply N. now apply names_later.
Qed.

(** ** Destinations *)
Fixpoint start (t : sty) (v : val) : Prop :=
  match t with
  | SArr n u => exists l, v = VList l /\ lenN l = n /\ Forall (start u) l
  | SStruct _ _ fs => exists l, v = VStruct l /\ start_in fs l
  | SStr => exists s, v = VStr s
  | _ => True
  end
with start_in (fs : flds) (l : fields) : Prop :=
  match fs with
  | FNil => True
  | FCons f t r => (exists c, lookup (f_name f) l = Some c /\ start t c) /\ start_in r l
  end.
Lemma start_in_ext : forall fs l m, start_in fs l ->
  (forall j, In j (names_of fs) -> lookup j m = lookup j l) -> start_in fs m.
Proof.
  induction fs as [|f t r IH]; intros l m H E; [exact I|].
  destruct H as [(c & L & H) Hr]. split.
  - exists c. rewrite E by (now left). auto.
  - apply (IH l); auto. intros j Hj. apply E. now right.
Qed.
Lemma zero_start : forall rname,
  (forall t rl, tk_val rname rl t = true -> start t (zero t)) /\
  (forall fs top rl cfo sname, tk_flds rname top rl cfo sname fs = true -> start_in fs (zero_flds fs)).
Proof.
  intros rname. apply sty_flds_mutind; try (intros; exact I).
  - intros rl _. eexists; reflexivity.
  - intros n u IH rl H. cbn [start zero]. eexists. split; [reflexivity|]. split.
    + rewrite lenN_repeat. lia.
    + apply Forall_forall. intros x Hx. apply repeat_spec in Hx. subst. eauto.
  - intros name cfo fs IH rl H. exists (zero_flds fs). split; [reflexivity|]. eapply IH. exact H.
  - intros f t IHt r IHr top rl cfo sname H. rewrite tk_flds_cons in H. cbv zeta in H.
    apply andb_prop in H. destruct H as [H H8]. apply andb_prop in H. destruct H as [H H7].
    apply andb_prop in H. destruct H as [H _]. apply andb_prop in H. destruct H as [_ H5].
    change (zero_flds (FCons f t r)) with ((f_name f, zero t) :: zero_flds r). split.
    + exists (zero t). cbn [lookup]. rewrite String.eqb_refl. eauto.
    + apply (start_in_ext r (zero_flds r)); [eauto|]. intros j Hj. cbn [lookup].
      destruct (String.eqb_spec j (f_name f)) as [->|]; [|reflexivity].
      apply str_in_In in Hj. apply negb_true_iff in H5. congruence.
Qed.

Lemma hook_value_start : forall f t v, name_ok f t = true -> In (f_name f) hook_targets ->
  hook_value (f_name f) v -> start t v.
Proof.
  intros f t v N I H. unfold name_ok in N. unfold hook_value in H.
  destruct (String.eqb_spec (f_name f) "HighProfileFieldsEnabled") as [E|E].
  - rewrite E in N. change (str_in _ _) with false in N. cbv iota in N. destruct t; try discriminate. exact Logic.I.
  - assert (S : str_in (f_name f) ["Name"; "SchemeIdUri"; "Value"] = true).
    { apply str_in_In. destruct I as [I|[I|[I|[I|[]]]]]; try (rewrite <- I; cbn; tauto). congruence. }
    rewrite S in N. destruct t; try discriminate. exact H.
Qed.

(** ** Values *)
Section Typed.
  Variables (k : nat) (rname : string) (versions : list N) (ctx : context) (root : fields).
  Notation has_type := (has_type rname root ctx).
  Notation has_fields := (has_fields rname root ctx).
  Definition known (rl : list string) (rd : fields) : Prop := forall j, ~ In j rl -> lookup j rd = lookup j root.

  Definition TV (t : sty) : Prop := forall rl rd lim base f size len cur st v st',
    tk_val rname rl t = true -> known rl rd -> start t cur ->
    dec_val k rname versions ctx rd lim base f size len t cur st = Ok (v, st') ->
    has_type f size len t v = true.
  Definition TF (fs : flds) : Prop := forall top rl cfo sname rt lim base selfd self st st',
    tk_flds rname top rl cfo sname fs = true ->
    (if top : bool then rt = None /\ self = root /\ cfo = true /\ sname = rname
     else exists rd, rt = Some rd /\ known rl rd) ->
    start_in fs selfd ->
    dec_flds k rname versions ctx rt lim base sname cfo selfd fs st = Ok (self, st') ->
    has_fields sname cfo self fs = true.

  Lemma map_typed : forall u, TV u -> forall rl rd lim base f size len,
    tk_val rname rl u = true -> known rl rd -> forall l st l' st', Forall (start u) l ->
    d_map (dec_val k rname versions ctx rd lim base f size len u) l st = Ok (l', st') ->
    lenN l' = lenN l /\ forallb (has_type f size len u) l' = true.
  Proof.
    intros u HV rl rd lim base f size len C A. induction l as [|x l IH]; intros st l' st' F H; cbn [d_map] in H.
    - assert ([] = l') by (now injection H). subst. auto.
    - unfold dbind in H. destruct (dec_val _ _ _ _ _ _ _ _ _ _ _ _ _) as [[y st1]| | |] eqn:E; try discriminate.
      destruct (d_map _ l st1) as [[ys st2]| | |] eqn:E2; try discriminate.
      assert (X : y :: ys = l') by (now injection H). subst l'. clear H.
      destruct (IH _ _ _ (Forall_inv_tail F) E2) as [L B]. rewrite !lenN_cons, L. split; [reflexivity|].
      cbn [forallb]. rewrite B, andb_true_r. eapply HV; eauto. now apply Forall_inv in F.
  Qed.
  Definition goodacc (f : finfo) (size len : N) (u : sty) (acc : list val) : Prop := forallb (has_type f size len u) acc = true.
  Lemma elem_typed : forall u, TV u -> forall rl rd lim base f size len,
    tk_val rname rl u = true -> known rl rd -> forall acc acc' st st', goodacc f size len u acc ->
    elem k rname versions ctx rd lim base f size len u acc st = Ok (acc', st') ->
    goodacc f size len u acc' /\ lenN acc' = lenN acc + 1.
  Proof.
    intros u HV rl rd lim base f size len C A acc acc' st st' G H. unfold elem, dbind in H.
    destruct (dec_val _ _ _ _ _ _ _ _ _ _ _ _ _) as [[y st1]| | |] eqn:E; try discriminate.
    unfold dpos in H. destruct (_ <? _); [discriminate|].
    assert (X : y :: acc = acc') by (now injection H). subst acc'. rewrite lenN_cons. split; [|lia].
    unfold goodacc in *. cbn [forallb]. rewrite G, andb_true_r.
    eapply HV; eauto. eapply (proj1 (zero_start rname)); eauto.
  Qed.
  Lemma loop_typed : forall u, TV u -> forall rl rd lim base f size len,
    tk_val rname rl u = true -> known rl rd -> forall n acc acc' st st', goodacc f size len u acc ->
    dloop n (elem k rname versions ctx rd lim base f size len u) acc st = Ok (acc', st') ->
    goodacc f size len u acc' /\ lenN acc' = lenN acc + N.of_nat n.
  Proof.
    intros u HV rl rd lim base f size len C A. induction n as [|n IH]; intros acc acc' st st' G H; cbn [dloop] in H.
    - assert (acc = acc') by (now injection H). subst. split; [exact G|lia].
    - unfold dbind in H. destruct (elem _ _ _ _ _ _ _ _ _ _ _ _ _) as [[a st1]| | |] eqn:E; try discriminate.
      destruct (elem_typed u HV rl _ _ _ _ _ _ C A _ _ _ _ G E) as [G1 L1].
      destruct (IH _ _ _ _ G1 H) as [G2 L2]. split; [exact G2|]. lia.
  Qed.
  Lemma while_typed : forall u, TV u -> forall rl rd lim base f size len,
    tk_val rname rl u = true -> known rl rd -> forall n acc acc' st st', goodacc f size len u acc ->
    dwhile n (fun acc => p <~ dpos ;;
                       if lim <=? p - base then dret (inr acc)
                       else acc' <~ elem k rname versions ctx rd lim base f size len u acc ;; dret (inl acc')) acc st
      = Ok (acc', st') -> goodacc f size len u acc'.
  Proof.
    intros u HV rl rd lim base f size len C A. induction n as [|n IH]; intros acc acc' st st' G H; [discriminate|].
    cbn [dwhile] in H. unfold dbind at 1 in H. unfold dbind at 1 in H. unfold dpos at 1 in H.
    destruct (_ <=? _).
    - unfold dret in H. assert (acc = acc') by (now injection H). now subst.
    - unfold dbind at 1 in H.
      destruct (elem _ _ _ _ _ _ _ _ _ _ _ _ _) as [[a st1]| | |] eqn:E; try discriminate.
      destruct (elem_typed u HV rl _ _ _ _ _ _ C A _ _ _ _ G E) as [G1 L1].
      unfold dret in H at 1. eapply IH; eauto.
  Qed.
  Lemma forallb_rev : forall (p : val -> bool) l, forallb p l = true -> forallb p (rev l) = true.
  Proof. intros p l H. rewrite forallb_forall in *. intros x Hx. apply H. now apply in_rev. Qed.

  Lemma slice_typed : forall u, TV u -> TV (SSlice u).
  Proof.
    intros u HV rl rd lim base f size len cur st v st' C A _ H. rewrite dec_slice_eq in H.
    unfold dbind at 1 in H. unfold dpos at 1 in H. cbv zeta in H.
    destruct (_ && _ && _) in H; [discriminate|].
    set (length := if len =? LengthUnlimited then _ else len) in H.
    assert (LL : (len =? LengthUnlimited) = false -> length = len) by (unfold length; now intros ->).
    clearbody length. cbn [SpecStringify.has_type].
    destruct (_ && _ && _) eqn:FAST in H.
    - apply andb_prop in FAST. destruct FAST as [FAST S8]. apply andb_prop in FAST. destruct FAST as [_ U8].
      apply N.eqb_eq in S8. subst size.
      assert (U : u = SUint 8).
      { destruct u; try discriminate. cbn in U8. destruct w as [|p]; try discriminate.
        do 4 (destruct p as [p|p|]; try discriminate; try reflexivity). }
      subst u. unfold dbind in H. unfold d_has in H. destruct (negb _); [discriminate|].
      destruct (maxAlloc <=? _); [discriminate|].
      destruct (d_bytes _ _) as [[buf st1]| | |] eqn:EB; try discriminate.
      assert (X : bytes_val buf = v) by (now injection H). subst v. clear H. unfold bytes_val.
      apply andb_true_intro. split.
      + destruct (len =? LengthUnlimited) eqn:EU; [reflexivity|]. rewrite (LL eq_refl) in EB. cbn [orb].
        destruct st as [p bits], st1 as [p1 bits1]. apply d_bytes_inv in EB.
        apply N.leb_le. rewrite lenN_map.
        assert (B : lenN buf = w64 (len * 8) / 8) by apply EB. rewrite B.
        unfold w64. assert (M : (len * 8) mod W64 <= len * 8) by (apply N.mod_le; discriminate).
        apply N.div_le_upper_bound; lia.
      + rewrite forallb_forall. intros x Hx. apply in_map_iff in Hx. destruct Hx as (b & <- & _).
        cbn [SpecStringify.has_type]. change (2 ^ 8) with 256. pose proof (b2N_lt b) as BL. apply N.ltb_lt in BL.
        rewrite BL. apply orb_true_r.
    - unfold dbind in H at 1.
      match type of H with match ?m with _ => _ end = _ => destruct m as [[xs st1]| | |] eqn:E; try discriminate end.
      unfold dret in H. assert (X : VList (rev xs) = v) by (now injection H). subst v. clear H.
      destruct (len =? LengthUnlimited) eqn:EU.
      + cbn [orb andb]. apply forallb_rev.
        eapply (while_typed u HV rl rd lim base f size len C A); [|exact E]. reflexivity.
      + destruct (loop_typed u HV rl rd lim base f size len C A (N.to_nat len) [] xs _ _ eq_refl E) as [G L].
        cbn [orb]. rewrite (forallb_rev _ _ G), andb_true_r. apply N.leb_le.
        unfold lenN in *. rewrite rev_length. cbn [List.length] in L. lia.
  Qed.

  Lemma typed_all : (forall t, TV t) /\ (forall fs, TF fs).
  Proof.
    apply sty_flds_mutind.
    - intros w rl rd lim base f size len cur st v st' _ _ _ H. cbn [dec_val] in H.
      assert (T : exists n, v = VUint n).
      { unfold d_uint, dbind in H. destruct (f_varint f).
        - destruct (d_uvarint k st) as [[n st1]| | |]; try discriminate. unfold dret in H.
          eexists. symmetry. injection H as H _. exact H.
        - destruct (size =? 0); [discriminate|]. destruct (d_take size st) as [[b st1]| | |]; try discriminate.
          unfold dret in H. eexists. symmetry. injection H as H _. exact H. }
      destruct T as [n ->]. apply d_uint_lt in H. destruct H as [H H2]. cbn [SpecStringify.has_type as_uint] in *.
      apply N.ltb_lt in H. rewrite H. destruct (f_varint f); [reflexivity|]. apply N.ltb_lt, H2. reflexivity.
    - intros w rl rd lim base f size len cur st v st' _ _ _ H. cbn [dec_val] in H.
      unfold d_int, dbind in H. destruct (f_varint f); [discriminate|]. destruct (size =? 0); [discriminate|].
      destruct (d_take size st) as [[b st1]| | |]; try discriminate. unfold dret in H. cbv zeta in H.
      match type of H with Ok (?a, _) = _ => assert (X : a = v) by (now injection H) end. now subst v.
    - intros rl rd lim base f size len cur st v st' _ _ _ H. cbn [dec_val] in H.
      unfold d_bool, dbind in H. destruct (size =? 0); [discriminate|].
      destruct (d_take size st) as [[b st1]| | |]; try discriminate. unfold dret in H.
      match type of H with Ok (?a, _) = _ => assert (X : a = v) by (now injection H) end. now subst v.
    - intros rl rd lim base f size len cur st v st' _ _ _ H. cbn [dec_val] in H.
      assert (C : forall st v st', d_string_c k lim base st = Ok (v, st') -> has_type f size len SStr v = true).
      { clear. intros st v st' H. unfold d_string_c, dbind in H.
        destruct (dwhile _ _ _ _) as [[s st1]| | |]; try discriminate. unfold dret in H.
        match type of H with Ok (?a, _) = _ => assert (X : a = v) by (now injection H) end. now subst v. }
      unfold d_string in H. destruct (f_cp f); [|eauto].
      unfold dbind in H at 1. destruct (d_pstring lim base st) as [[o st1]| | |] eqn:E; try discriminate.
      destruct o as [x|]; [|eauto].
      unfold dret in H. assert (X : x = v) by (now injection H). subst v. clear H.
      unfold d_pstring, dbind, dpos in E. cbv zeta in E.
      destruct (_ <? 2); [discriminate|]. destruct (negb _); [discriminate|].
      destruct (d_bytes 1 st) as [[b0 st2]| | |]; try discriminate.
      destruct (_ <? be_to_N b0); [discriminate|].
      destruct (d_bytes _ st2) as [[buf st3]| | |]; try discriminate. unfold dret in E.
      assert (X : VStr buf = x) by (now injection E). now subst x.
    - intros n u IH rl rd lim base f size len cur st v st' C A S H. destruct S as (l & -> & L & F).
      cbn [dec_val] in H. unfold dbind in H.
      destruct (d_map _ l st) as [[xs st1]| | |] eqn:E; try discriminate. unfold dret in H.
      assert (X : VList xs = v) by (now injection H). subst v.
      destruct (map_typed u IH rl rd lim base f size len C A _ _ _ _ F E) as [L1 B].
      cbn [SpecStringify.has_type]. rewrite B, andb_true_r. apply N.eqb_eq. congruence.
    - apply slice_typed.
    - intros u IH rl rd lim base f size len cur st v st' C A S H. cbn [dec_val] in H. unfold dbind in H.
      destruct (dec_val _ _ _ _ _ _ _ _ _ _ _ _ _) as [[x st1]| | |] eqn:E; try discriminate. unfold dret in H.
      assert (X : VPtr (Some x) = v) by (now injection H). subst v. cbn [SpecStringify.has_type].
      eapply IH; eauto. eapply (proj1 (zero_start rname)); eauto.
    - intros name cfo fs IH rl rd lim base f size len cur st v st' C A S H. destruct S as (l & -> & S).
      rewrite dec_val_struct in H.
      assert (Q : exists lim1 base1 x st1 st2,
        dec_flds k rname versions ctx (Some rd) lim1 base1 name cfo l fs st1 = Ok (x, st2) /\ v = VStruct x).
      { destruct (_ && _).
        - unfold dbind in H at 1. unfold dpos in H at 1. unfold dbind in H at 1.
          destruct (dec_flds _ _ _ _ _ _ _ _ _ _ _ _) as [[x st1]| | |] eqn:E; try discriminate.
          unfold dbind in H. unfold dpos in H. destruct (_ =? size); [|discriminate]. unfold dret in H.
          assert (X : VStruct x = v) by (now injection H). subst v. eauto 10.
        - unfold dbind in H.
          destruct (dec_flds _ _ _ _ _ _ _ _ _ _ _ _) as [[x st1]| | |] eqn:E; try discriminate.
          unfold dret in H. assert (X : VStruct x = v) by (now injection H). subst v. eauto 10. }
      destruct Q as (lim1 & base1 & x & st1 & st2 & E & ->).
      change (has_fields name cfo x fs = true).
      eapply (IH false rl); eauto.
    - unfold TF. intros. reflexivity.
    - (* a field *)
      intros f t HV rest HF top rl cfo sname rt lim base selfd self st st' C T S H.
      rewrite tk_flds_cons in C. cbv zeta in C.
      set (cn := if cfo then sname else rname) in *.
      set (late := later cn (FCons f t rest)) in *. set (rl' := if top then late else rl) in *.
      apply andb_prop in C. destruct C as [C C8]. apply andb_prop in C. destruct C as [C C7].
      apply andb_prop in C. destruct C as [C C6]. apply andb_prop in C. destruct C as [C C5].
      apply andb_prop in C. destruct C as [C C4]. apply andb_prop in C. destruct C as [C C3].
      apply andb_prop in C. destruct C as [C1 C2].
      apply negb_true_iff in C5. assert (N5 : ~ In (f_name f) (names_of rest)) by (rewrite <- str_in_In; congruence).
      clear C5.
      assert (FR : forall j, ~ In j late -> lookup j selfd = lookup j self).
      { intros j Hj. symmetry. eapply dec_frame_late; eauto. }
      set (rootd := box_of rt selfd).
      assert (A0 : known rl' rootd).
      { destruct top.
        - destruct T as (-> & -> & T). exact FR.
        - destruct T as (rd & -> & T). exact T. }
      assert (HF' : forall s1 st1, dec_flds k rname versions ctx rt lim base sname cfo s1 rest st1 = Ok (self, st') ->
                start_in rest s1 -> has_fields sname cfo self rest = true).
      { intros s1 st1 Hd Hs. eapply (HF top rl); eauto. }
      rewrite dec_flds_cons in H. cbv zeta in H. fold rootd in H. fold cn in H.
      set (envd := if cfo then mkenv selfd (get_version rootd) (get_flags rootd) ctx
                   else mkenv rootd (get_version rootd) (get_flags rootd) ctx) in *.
      change (has_fields sname cfo self (FCons f t rest)) with
        (let (cn, env) := owner rname root ctx cfo sname self in
         match resolve_size cn env f, resolve_len cn env f with
         | Some size, Some len =>
            (if enabled (get_version root) (get_flags root) cn env f then
               match lookup (f_name f) self with Some v => has_type f size len t v | None => false end
             else true) && has_fields sname cfo self rest
         | _, _ => false
         end).
      destruct (owner rname root ctx cfo sname self) as [cn' env] eqn:OW.
      assert (Ecn : cn' = cn /\ env = (if cfo then spec_env root ctx self else spec_env root ctx root)).
      { unfold owner in OW. unfold cn. destruct cfo; injection OW as <- <-; auto. }
      destruct Ecn as [-> Eenv].
      assert (AE : agree_env (fdeps cn f) (fver cn f) envd env).
      { subst env envd.
        assert (HVV : fver cn f = true -> get_version rootd = get_version root /\ get_flags rootd = get_flags root).
        { intros Fv. rewrite Fv in C2. cbn [negb orb] in C2. apply negb_true_iff in C2.
          assert (X : lookup "FullBox" rootd = lookup "FullBox" root).
          { apply A0. rewrite <- str_in_In. congruence. }
          unfold get_version, get_flags, fullbox_of. rewrite X. auto. }
        destruct cfo; (split; [|split; [exact HVV|reflexivity]]); cbn [e_self spec_env]; intros j Hj;
          pose proof (disjoint_not _ _ _ C1 Hj) as DJ; [apply FR|apply A0]; exact DJ. }
      destruct (fdeps_agree cn f envd env AE) as (ES & EL & ET).
      assert (ET' : is_target (get_version rootd) (get_flags rootd) cn envd f =
                    enabled (get_version root) (get_flags root) cn env f).
      { rewrite <- is_target_enabled. destruct cfo; subst env envd; exact ET. }
      rewrite <- ES, <- EL, <- ET'. clear ET ET' ES EL AE.
      destruct (resolve_size cn envd f) as [size|] eqn:RS; [|discriminate].
      destruct (resolve_len cn envd f) as [len|] eqn:RL; [|discriminate].
      destruct S as [(c & Lc & Sc) Sr].
      unfold dbind in H at 1.
      destruct (is_target (get_version rootd) (get_flags rootd) cn envd f).
      2:{ unfold dret in H at 1. cbn [andb]. eapply HF'; eauto. }
      unfold dbind in H at 1. unfold dpos in H at 1. unfold dbind in H at 1.
      destruct (d_hook k (hook_of cn (f_name f)) (get_version rootd) selfd _ st) as [[[o s1] st1]| | |] eqn:Eh;
        try discriminate.
      assert (HK : forall j, lookup j s1 = lookup j selfd \/
                (In j (targets cn (f_name f)) /\ exists v, lookup j s1 = Some v /\ hook_value j v)).
      { intros j. exact (proj2 (hook_frame _ _ _ _ _ _ _ _ _ _ j Eh)). }
      assert (Sr1 : start_in rest s1).
      { apply (start_in_ext rest selfd); auto. intros j Hj. destruct (HK j) as [E|(I & _)]; [exact E|].
        exfalso. exact (disjoint_not _ _ _ C6 I Hj). }
      (* the value that the field ends up with *)
      assert (FIN : forall s2 st2 w, dec_flds k rname versions ctx rt lim base sname cfo s2 rest st2 = Ok (self, st') ->
                start_in rest s2 -> lookup (f_name f) s2 = Some w -> has_type f size len t w = true ->
                match lookup (f_name f) self with Some v => has_type f size len t v | None => false end &&
                has_fields sname cfo self rest = true).
      { intros s2 st2 w Hd Hs Hw Ht. rewrite (HF' _ _ Hd Hs), andb_true_r.
        destruct (dec_frame _ _ _ _ _ _ _ _ _ (f_name f) _ _ _ _ _ Hd N5) as [_ [E|(_ & I & v & E & HVv)]].
        - rewrite E, Hw. exact Ht.
        - rewrite E. eapply hook_value_typed; eauto. }
      destruct o.
      + (* read by the hook *)
        unfold dret in H.
        assert (W : exists w, lookup (f_name f) s1 = Some w /\ has_type f size len t w = true).
        { destruct (HK (f_name f)) as [E|(I & v & E & HVv)].
          - rewrite Lc in E. exists c. split; [exact E|].
            unfold hook_ok in C4. unfold targets in HK. destruct (hook_of cn (f_name f)) eqn:HO.
            + cbn [d_hook] in Eh. discriminate.
            + destruct t; try discriminate. destruct Sc as [s ->]. reflexivity.
            + cbn [d_hook] in Eh. destruct (_ =? 0); [discriminate|]. unfold dbind in Eh.
              destruct (d_zstring k _) as [[x stx]| | |]; try discriminate.
              destruct (d_zstring k _) as [[y sty]| | |]; try discriminate.
            + apply String.eqb_eq in C4. unfold name_ok in C3. rewrite C4 in C3.
              change (str_in _ _) with true in C3. cbv iota in C3. destruct t; try discriminate.
              destruct Sc as [s ->]. reflexivity.
            + apply String.eqb_eq in C4. cbn [d_hook] in Eh. unfold dret in Eh.
              match type of Eh with Ok (_, ?a, _) = _ => assert (X : a = s1) by (now injection Eh) end.
              subst s1. rewrite C4 in E, Lc.
              rewrite lookup_update_same in E by (rewrite Lc; discriminate).
              unfold name_ok in C3. rewrite C4 in C3.
              change (str_in _ _) with false in C3. cbv iota in C3. rewrite String.eqb_refl in C3.
              destruct t; try discriminate. apply some_inj in E. now subst c.
          - exists v. split; [exact E|]. eapply hook_value_typed; eauto using targets_sub. }
        destruct W as (w & Lw & Tw). eapply FIN; eauto.
      + destruct (lookup (f_name f) s1) as [cur|] eqn:Lcur; [|discriminate].
        unfold dbind in H at 1.
        destruct (dec_val k rname versions ctx (box_of rt s1) lim base f size len t cur st1) as [[x st2]| | |] eqn:E1;
          try discriminate.
        destruct (is_fullbox t && _); [discriminate|]. unfold dret in H.
        assert (Sc1 : start t cur).
        { destruct (HK (f_name f)) as [E|(I & v & E & HVv)].
          - rewrite Lc in E. assert (cur = c) by congruence. now subst.
          - assert (v = cur) by congruence. subst v.
            eapply hook_value_start; eauto using targets_sub. }
        assert (A1 : known rl' (box_of rt s1)).
        { destruct top.
          - destruct T as (-> & -> & T). cbn [box_of]. intros j Hj. rewrite <- FR by exact Hj.
            destruct (HK j) as [E|(I & _)]; [exact E|]. exfalso. apply Hj. unfold rl', late. cbn [later].
            right. apply in_or_app. now left.
          - destruct T as (rd & -> & T). exact T. }
        pose proof (HV rl' _ lim base f size len cur st1 x st2 C7 A1 Sc1 E1) as TX.
        eapply FIN; [exact H| | |exact TX].
        * apply (start_in_ext rest s1); auto. intros j Hj. apply lookup_update_other. intros ->. contradiction.
        * apply lookup_update_same. rewrite Lcur. discriminate.
  Qed.
End Typed.

Lemma start_box : forall d rn, tk_flds rn true [] true (bd_name d) (bd_flds d) = true ->
  (full_box d = true \/ fullbox_of (zero_flds (bd_flds d)) = None) ->
  start_in (bd_flds d) (set_version anyVersion (zero_flds (bd_flds d))).
Proof.
  intros d rn H FB. pose proof (proj2 (zero_start rn) (bd_flds d) _ _ _ _ H) as S. destruct FB as [FB|FB].
  - destruct (full_box_inv d FB) as (r & E & NI & _). pose proof (set_version_fb d r E) as Z. rewrite Z.
    rewrite E in *. destruct S as [_ S]. split.
    + eexists. cbn [lookup f_name plain_info]. rewrite String.eqb_refl. split; [reflexivity|].
      eexists. split; [reflexivity|]. split; [|split; [|exact I]].
      * eexists. split; [reflexivity|exact I].
      * eexists. split; [reflexivity|]. eexists. split; [reflexivity|]. split; [reflexivity|]. repeat constructor.
    + apply (start_in_ext r _ _ S). intros j Hj.
      change (zero_flds (FCons (plain_info "FullBox" 0 0 true) fb_ty r)) with
        (("FullBox", zero fb_ty) :: zero_flds r).
      cbn [lookup]. destruct (String.eqb_spec j "FullBox") as [->|]; [|reflexivity].
      exfalso. apply NI. rewrite field_names_of. exact Hj.
  - unfold set_version. rewrite FB. exact S.
Qed.

Lemma std_meta : forallb (fun d => implb (String.eqb (bd_name d) "Meta")
  (flds_eqb (bd_flds d) (FCons (plain_info "FullBox" 0 0 true) fb_ty FNil))) all_defs = true.
Proof. vm_compute. reflexivity. Qed.

Lemma decoded_complete : forall data t size ctx pos d x n pos',
  pos <= lenN data -> lenN data < 2 ^ 62 ->
  unmarshal_any std_registry data t size ctx pos = (Ok (d, x, n), pos') ->
  complete_box ctx d x = true.
Proof.
  intros data t size ctx pos d x n pos' Hp Hd H.
  pose proof (unmarshal_any_def _ _ _ _ _ _ _ _ _ H) as G.
  pose proof (unmarshal_any_decode t ctx d data size pos G Hp Hd) as U. cbv zeta in U.
  rewrite H in U. destruct U as (_ & U & _).
  pose proof (all_defs_check _ _ _ _ _ eq_refl std_tk G) as HT. cbv beta in HT.
  pose proof (all_defs_check _ _ _ _ _ eq_refl std_start G) as HS. cbv beta in HS.
  pose proof (all_defs_check _ _ _ _ _ eq_refl std_meta G) as HM. cbv beta in HM.
  clear G H. unfold decode in U. set (z := set_version anyVersion (zero_flds (bd_flds d))) in *.
  assert (ST : start_in (bd_flds d) z).
  { apply (start_box d (bd_name d)); auto. apply orb_prop in HS. destruct HS as [HS|HS]; [now left|right].
    destruct (fullbox_of _); [discriminate|reflexivity]. }
  set (bits := bits_of_bytes (skipN pos data)) in *. clearbody bits.
  destruct (d_before (bd_name d) z (0, bits)) as [[[o s1] st1]| | |] eqn:BF; try discriminate.
  assert (Q : (o = false /\ s1 = z) \/ (o = true /\ bd_name d = "Meta" /\
     s1 = update "FullBox" (VStruct [("Version", VUint 0); ("Flags", VList [VUint 0; VUint 0; VUint 0])]) z)).
  { unfold d_before in BF. destruct (String.eqb_spec (bd_name d) "Meta") as [E|].
    - destruct (d_bytes 4 _) as [[buf st2]| | |]; try discriminate.
      destruct (existsb _ buf).
      + right. assert (true = o) by congruence. split; [congruence|]. split; [exact E|]. symmetry. congruence.
      + left. split; congruence.
    - left. split; congruence. }
  destruct Q as [[-> ->]|(-> & EM & ->)].
  - destruct (dec_flds _ _ _ _ _ _ _ _ _ _ _ _) as [[y [p r]]| | |] eqn:E; try discriminate.
    destruct (negb _) in U; [discriminate|]. destruct (_ <? p) in U; [discriminate|].
    assert (y = x) by congruence. subst y. clear U.
    unfold complete_box.
    eapply (proj2 (typed_all _ (bd_name d) (bd_versions d) ctx x) (bd_flds d) true []); [exact HT| |exact ST|exact E].
    cbv iota. auto.
  - rewrite EM in HM. cbn [String.eqb Ascii.eqb Bool.eqb implb] in HM. apply sty_eqb_eq in HM.
    assert (X : x = [("FullBox", VStruct [("Version", VUint 0); ("Flags", VList [VUint 0; VUint 0; VUint 0])])]).
    { assert (E : update "FullBox" (VStruct [("Version", VUint 0); ("Flags", VList [VUint 0; VUint 0; VUint 0])]) z = x)
        by congruence. rewrite <- E. unfold z. rewrite HM. vm_compute. reflexivity. }
    subst x. unfold complete_box. rewrite EM, HM. vm_compute. reflexivity.
Qed.
