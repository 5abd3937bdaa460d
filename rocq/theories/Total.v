(** Unmarshal stops and does not panic. *)
From Verif Require Import Base BitIO Schema Structs Methods Registry Marshal Unmarshal SpecCodec
     SpecRoundTrip Decode SpecTotal.
From Verif Require Import BaseProofs BitIOProofs BitIOFacts MarshalProofs MarshalCount UnmarshalProofs
     DecodeFacts VersionFacts Causal RoundTripBase RoundTripProofs Shape.
Local Open Scope string_scope.
Local Open Scope list_scope.
Local Open Scope N_scope.
Local Open Scope dec_scope.
Ltac Zify.zify_post_hook ::= Z.to_euclidean_division_equations.

(** ** Static checks *)
(** an expression that does not panic in a box of that version *)
Definition cstat (ver : N) (c : mcond) : option bool :=
  match c with CVersion n => Some (ver =? n) | _ => None end.
Fixpoint msafe (ver : N) (e : mexp) : bool :=
  match e with
  | MConst _ | MField _ => true
  | MIf c a b => match cstat ver c with
                 | Some true => msafe ver a
                 | Some false => msafe ver b
                 | None => msafe ver a && msafe ver b
                 end
  | MAdd a b | MSub a b | MMul a b | MMul32 a b => msafe ver a && msafe ver b
  | MPanic => false
  end.
Definition uncond (f : finfo) : bool :=
  (f_version f =? anyVersion) && (f_nVersion f =? anyVersion) && (f_optFlag f =? 0) &&
  (f_nOptFlag f =? 0) && negb (f_optDyn f).
Definition no_hook (cn fn : string) : bool := match hook_of cn fn with HNone => true | _ => false end.

Section Static.
  Variable rname : string.
  Variable ver : N.

  (** decoding takes at least one bit *)
  Fixpoint prog_val (f : finfo) (t : sty) : bool :=
    match t with
    | SUint _ => negb (f_varint f)
    | SInt _ | SBool => true
    | SStr | SSlice _ => false
    | SArr n u => negb (n =? 0) && prog_val f u
    | SPtr u => prog_val f u
    | SStruct name cfo fs => prog_flds name cfo fs
    end
  with prog_flds (sname : string) (cfo : bool) (fs : flds) : bool :=
    match fs with
    | FNil => false
    | FCons f t r =>
        (uncond f && no_hook (if cfo then sname else rname) (f_name f) && prog_val f t)
        || prog_flds sname cfo r
    end.

  Definition is_entries (cn fn : string) : bool := String.eqb cn "Trun" && String.eqb fn "Entries".
  (** a struct without lists, strings or pointers *)
  Fixpoint flat_val (t : sty) : bool :=
    match t with
    | SUint _ | SInt _ | SBool => true
    | SArr _ u => flat_val u
    | SStruct _ _ fs => flat_flds fs
    | _ => false
    end
  with flat_flds (fs : flds) : bool :=
    match fs with FNil => true | FCons _ t r => flat_val t && flat_flds r end.
  Definition flat_struct (t : sty) : bool := match t with SStruct _ _ fs => flat_flds fs | _ => false end.

  Fixpoint ts_val (ex : bool) (f : finfo) (t : sty) : bool :=
    match t with
    | SArr _ u | SPtr u => ts_val false f u
    | SSlice u => (prog_val f u || (ex && flat_struct u)) && ts_val false f u
    | SStruct name cfo fs =>
        negb (str_in "Entries" (names_of fs) && String.eqb (if cfo then name else rname) "Trun") &&
        ts_flds name cfo fs
    | _ => true
    end
  with ts_flds (sname : string) (cfo : bool) (fs : flds) : bool :=
    match fs with
    | FNil => true
    | FCons f t r =>
        let cn := if cfo then sname else rname in
        (negb (f_sizeDyn f) || msafe ver (m_size cn (f_name f))) &&
        (negb (f_lenDyn f) || msafe ver (m_len cn (f_name f))) &&
        (negb (is_entries cn (f_name f)) || (f_sizeDyn f && f_lenDyn f && cfo)) &&
        ts_val (is_entries cn (f_name f)) f t && ts_flds sname cfo r
    end.
End Static.

(** the fields that the hooks set are neither arrays nor structs *)
Definition trivial_shape (t : sty) : bool :=
  match t with SArr _ _ | SStruct _ _ _ => false | _ => true end.
Fixpoint ht_val (t : sty) : bool :=
  match t with
  | SArr _ u | SPtr u | SSlice u => ht_val u
  | SStruct _ _ fs => ht_flds fs
  | _ => true
  end
with ht_flds (fs : flds) : bool :=
  match fs with
  | FNil => true
  | FCons f t r => (negb (str_in (f_name f) hook_targets) || trivial_shape t) && ht_val t && ht_flds r
  end.

(** all versions that come past the version check *)
Definition ver_list (vs : list N) : list N := match vs with [] => map N.of_nat (seq 0 256) | _ => vs end.
Definition ts_box (d : boxdef) : bool :=
  match bd_flds d with
  | FCons f t r =>
      if full_box d then forallb (fun ver => ts_flds (bd_name d) ver (bd_name d) true r) (ver_list (bd_versions d))
      else ts_flds (bd_name d) 0 (bd_name d) true (bd_flds d)
  | FNil => true
  end.
Lemma std_total : forallb ts_box all_defs = true.
Proof. vm_compute. reflexivity. Qed.
Lemma std_ht : forallb (fun d => ht_flds (bd_flds d)) all_defs = true.
Proof. vm_compute. reflexivity. Qed.

Lemma msafe_ok : forall e env, msafe (e_ver env) e = true -> meval env e <> None.
Proof.
  assert (O : forall (x y : option N) (g : N -> N -> N), x <> None -> y <> None ->
            obind x (fun a => obind y (fun b => Some (g a b))) <> None).
  { intros [x|] [y|] g Hx Hy; try congruence. discriminate. }
  induction e as [n|f|c a IHa b IHb|a IHa b IHb|a IHa b IHb|a IHa b IHb|a IHa b IHb|]; intros env H;
    try discriminate; cbn [msafe] in H.
  - cbn [meval]. unfold cstat in H. destruct (ceval env c) eqn:C.
    + apply IHa. destruct c; try (apply andb_prop in H; tauto).
      cbn [ceval] in C. rewrite C in H. exact H.
    + apply IHb. destruct c; try (apply andb_prop in H; tauto).
      cbn [ceval] in C. rewrite C in H. exact H.
  - apply andb_prop in H. destruct H. cbn [meval]. apply O; auto.
  - apply andb_prop in H. destruct H. cbn [meval]. apply O; auto.
  - apply andb_prop in H. destruct H. cbn [meval]. apply O; auto.
  - apply andb_prop in H. destruct H. cbn [meval]. apply O; auto.
Qed.

Lemma uncond_target : forall f ver flags cn env, uncond f = true -> is_target ver flags cn env f = true.
Proof.
  intros f ver flags cn env H. unfold uncond in H.
  apply andb_prop in H. destruct H as [H H5]. apply andb_prop in H. destruct H as [H H4].
  apply andb_prop in H. destruct H as [H H3]. apply andb_prop in H. destruct H as [H1 H2].
  unfold is_target. rewrite H1, H2, H3, H4. apply negb_true_iff in H5. rewrite H5.
  destruct (negb (ver =? anyVersion)); reflexivity.
Qed.

(** A result that is no panic; with [strict], also one that came in time. *)
Section Strict.
Variable strict : bool.
Definition fine {A} (r : res A) : Prop :=
  match r with Ok _ | Err _ => True | OutOfFuel => strict = false | Panic => False end.

(** ** The elementary readers *)
Lemma fine_bind : forall A B (m : D A) (f : A -> D B) st, fine (m st) ->
  (forall a st1, m st = Ok (a, st1) -> fine (f a st1)) -> fine (dbind m f st).
Proof.
  intros A B m f st H1 H2. unfold dbind. destruct (m st) as [[a st1]| | |]; auto.
Qed.
Lemma fine_take : forall n st, fine (d_take n st).
Proof. intros n st. unfold d_take. destruct (_ <=? _); exact I. Qed.
Lemma fine_bytes : forall n st, fine (d_bytes n st).
Proof.
  intros n st. unfold d_bytes. destruct (_ =? _); [destruct (_ <=? _); [|destruct (_ =? _)]|destruct (_ =? _)]; exact I.
Qed.
(** a loop whose rounds take at least one bit each *)
Lemma fine_while : forall A B (body : A -> D (A + B)) k,
  (forall a p b, (List.length b < k)%nat -> fine (body a (p, b))) ->
  (forall a p b a1 p1 b1, body a (p, b) = Ok (inl a1, (p1, b1)) -> (List.length b1 < List.length b)%nat) ->
  forall j a p b, (List.length b < j)%nat -> (j <= k)%nat -> fine (dwhile j body a (p, b)).
Proof.
  intros A B body k H1 H2. induction j as [|j IH]; intros a p b L J; [lia|]. cbn [dwhile].
  apply fine_bind; [apply H1; lia|].
  intros [a1|r] [p1 b1] E; [|exact I]. apply IH; [|lia]. apply H2 in E. lia.
Qed.
Lemma take_shorter : forall n p b x p1 b1, n <> 0 -> d_take n (p, b) = Ok (x, (p1, b1)) ->
  (List.length b1 < List.length b)%nat.
Proof.
  intros n p b x p1 b1 Hn H. unfold d_take in H. cbn [fst snd] in H.
  destruct (N.leb_spec n (lenN b)) as [L|]; [|discriminate].
  assert (E : b1 = skipN n b) by (now injection H). subst b1.
  pose proof (lenN_skipN _ b n) as Q. unfold lenN in *. lia.
Qed.
Lemma bytes1_shorter : forall p b x p1 b1, d_bytes 1 (p, b) = Ok (x, (p1, b1)) ->
  (List.length b1 < List.length b)%nat /\ lenN x = 1.
Proof.
  intros p b x p1 b1 H. unfold d_bytes in H. cbn [fst snd N.eqb] in H.
  destruct (p mod 8 =? 0); [|discriminate].
  destruct (N.leb_spec (8 * 1) (lenN b)) as [L|]; [|destruct (lenN b =? 0); discriminate].
  assert (E : b1 = skipN (8 * 1) b /\ x = pack (takeN (8 * 1) b)) by (now injection H). destruct E as [-> ->].
  pose proof (lenN_skipN _ b (8 * 1)) as Q. split; [unfold lenN in *; lia|].
  assert (L2 : List.length (takeN (8 * 1) b) = (8 * N.to_nat 1)%nat).
  { pose proof (lenN_takeN _ b (8 * 1)). unfold lenN in *. lia. }
  destruct (pack_bits (N.to_nat 1) _ L2) as [_ LP]. unfold lenN. rewrite LP. reflexivity.
Qed.
Lemma fine_uvarint : forall k p b, (List.length b < k)%nat -> fine (d_uvarint k (p, b)).
Proof.
  intros k p b L. unfold d_uvarint. apply (fine_while _ _ _ k); auto.
  - intros a q c _. apply fine_bind; [apply fine_take|]. intros; exact I.
  - intros a q c a1 p1 b1 E. unfold dbind in E.
    destruct (d_take 8 (q, c)) as [[x [p2 b2]]| | |] eqn:T; try discriminate.
    apply take_shorter in T; [|lia]. unfold dret in E. assert (b2 = b1) by (now injection E). now subst.
Qed.
Lemma fine_uint : forall k w vi size p b, (List.length b < k)%nat -> fine (d_uint k w vi size (p, b)).
Proof.
  intros. unfold d_uint. destruct vi.
  - apply fine_bind; [now apply fine_uvarint|]. intros; exact I.
  - destruct (size =? 0); [exact I|]. apply fine_bind; [apply fine_take|]. intros; exact I.
Qed.
Lemma fine_int : forall w vi size st, fine (d_int w vi size st).
Proof.
  intros. unfold d_int. destruct vi; [exact I|]. destruct (size =? 0); [exact I|].
  apply fine_bind; [apply fine_take|]. intros; exact I.
Qed.
Lemma fine_bool : forall size st, fine (d_bool size st).
Proof.
  intros. unfold d_bool. destruct (size =? 0); [exact I|].
  apply fine_bind; [apply fine_take|]. intros; exact I.
Qed.
Lemma fine_string : forall k lim base p b, (List.length b < k)%nat -> fine (d_string_c k lim base (p, b)).
Proof.
  intros k lim base p b L. unfold d_string_c. apply fine_bind; [|intros; exact I].
  apply (fine_while _ _ _ k); auto.
  - intros a q c _. unfold dbind at 1, dpos. destruct (_ <=? _); [exact I|].
    apply fine_bind; [apply fine_take|]. intros x st _. destruct (_ =? _); exact I.
  - intros a q c a1 p1 b1 E. unfold dbind at 1, dpos in E. destruct (_ <=? _); [discriminate|]. unfold dbind in E.
    destruct (d_take 8 (q, c)) as [[x [p2 b2]]| | |] eqn:T; try discriminate.
    apply take_shorter in T; [|lia]. destruct (_ =? 0); [discriminate|].
    unfold dret in E. assert (b2 = b1) by (now injection E). now subst.
Qed.
Lemma fine_zstring : forall k p b, (List.length b < k)%nat -> fine (d_zstring k (p, b)).
Proof.
  intros k p b L. unfold d_zstring. apply fine_bind; [|intros; exact I].
  apply (fine_while _ _ _ k); auto.
  - intros a q c _. apply fine_bind; [apply fine_bytes|]. intros x [p1 b1] E.
    apply bytes1_shorter in E. destruct E as [_ E]. destruct x as [|x0 [|y x]]; rewrite ?lenN_cons, ?lenN_nil in E; try lia.
    destruct (_ =? _); exact I.
  - intros a q c a1 p1 b1 E. unfold dbind in E.
    destruct (d_bytes 1 (q, c)) as [[x [p2 b2]]| | |] eqn:T; try discriminate.
    apply bytes1_shorter in T. destruct T as [T _]. destruct x as [|x0 [|y x]]; try discriminate.
    destruct (_ =? 0); [discriminate|].
    unfold dret in E. assert (b2 = b1) by (now injection E). now subst.
Qed.
Lemma local_shorter : forall A (d : nat -> D A) k p b v p' r, local d -> d k (p, b) = Ok (v, (p', r)) ->
  (List.length r <= List.length b)%nat /\ (p' <> p -> (List.length r < List.length b)%nat).
Proof.
  intros A d k p b v p' r L H. destruct (L _ _ _ _ _ _ H) as (c & -> & -> & _). rewrite app_length. split; [lia|].
  intros Q. destruct c; [rewrite lenN_nil in Q; lia|]. cbn [List.length]. lia.
Qed.
Lemma fine_hook : forall k h ver self left p b, (List.length b < k)%nat -> lenN b < 8 * maxAlloc ->
  fine (d_hook k h ver self left (p, b)).
Proof.
  intros k h ver self left p b L B. destruct h; cbn [d_hook]; try exact I.
  - destruct (ver =? 0); [exact I|]. apply fine_bind; [now apply fine_zstring|]. intros x [p1 b1] E.
    apply (local_shorter _ (fun k => d_zstring k) k) in E; [|apply local_zstring]. destruct E as [E _].
    apply fine_bind; [apply fine_zstring; lia|]. intros; exact I.
  - cbv zeta. destruct (N.eqb_spec (left / 8) 0) as [|N0]; [exact I|].
    unfold dbind at 1, d_has. cbn [fst snd].
    destruct (N.eqb_spec (p mod 8) 0) as [P8|]; [|exact I].
    destruct (N.leb_spec (8 * (left / 8)) (lenN b)) as [Q|]; [|exact I]. cbn [andb negb].
    destruct (N.leb_spec maxAlloc (left / 8)) as [M|]; [exfalso; clear - Q M B; unfold maxAlloc in *; lia|].
    apply fine_bind; [apply fine_bytes|]. intros x st E. destruct x; [|exact I].
    unfold d_bytes in E. cbn [fst snd] in E. rewrite P8 in E. cbn [N.eqb] in E.
    destruct (N.leb_spec (8 * (left / 8)) (lenN b)) as [_|]; [|lia].
    assert (X : pack (takeN (8 * (left / 8)) b) = []) by (now injection E).
    assert (L2 : List.length (takeN (8 * (left / 8)) b) = (8 * N.to_nat (left / 8))%nat).
    { pose proof (lenN_takeN _ b (8 * (left / 8))). unfold lenN in *. lia. }
    destruct (pack_bits (N.to_nat (left / 8)) _ L2) as [_ LP]. rewrite X in LP. cbn [List.length] in LP. lia.
Qed.

Section Progress.
  Variables (k : nat) (rname : string) (versions : list N) (ctx : context).

  Lemma dec_mono_val : forall rt lim base f size len t cur p b v p' b',
    no_cp_val t = true -> f_cp f = false ->
    dec_val k rname versions ctx rt lim base f size len t cur (p, b) = Ok (v, (p', b')) ->
    p <= p' /\ (List.length b' <= List.length b)%nat /\ (p' <> p -> (List.length b' < List.length b)%nat).
  Proof.
    intros rt lim base f size len t cur p b v p' b' Hn Hc H.
    pose proof (proj1 (dec_local rname versions ctx) t Hn rt lim base f size len cur Hc) as L.
    destruct (L k p b v p' b' H) as (c & -> & -> & _). rewrite app_length. split; [lia|]. split; [lia|].
    intros Q. destruct c; [rewrite lenN_nil in Q; lia|]. cbn [List.length]. lia.
  Qed.
  Lemma dec_mono_flds : forall rt lim base sname cfo self fs p b v p' b',
    no_cp_flds fs = true ->
    dec_flds k rname versions ctx rt lim base sname cfo self fs (p, b) = Ok (v, (p', b')) ->
    p <= p' /\ (List.length b' <= List.length b)%nat.
  Proof.
    intros rt lim base sname cfo self fs p b v p' b' Hn H.
    pose proof (proj2 (dec_local rname versions ctx) fs Hn rt lim base sname cfo self) as L.
    destruct (L k p b v p' b' H) as (c & -> & -> & _). rewrite app_length. split; lia.
  Qed.

  (** one field *)
  Definition dec_step rt lim base sname (cfo : bool) self f t size len : D fields :=
    let root := box_of rt self in
    let env := if cfo then mkenv self (get_version root) (get_flags root) ctx
               else mkenv root (get_version root) (get_flags root) ctx in
    let cn := if cfo then sname else rname in
    if is_target (get_version root) (get_flags root) cn env f then
      p <~ dpos ;;
      h <~ d_hook k (hook_of cn (f_name f)) (get_version root) self (sub64 lim (p - base)) ;;
      let '(override, self1) := h in
      if override then dret self1
      else
        match lookup (f_name f) self1 with
        | None => dpanic
        | Some cur =>
            x <~ dec_val k rname versions ctx (box_of rt self1) lim base f size len t cur ;;
            let self2 := update (f_name f) x self1 in
            if is_fullbox t && negb (version_in versions (get_version (box_of rt self2)))
            then dfail EUnsupportedVersion
            else dret self2
        end
    else dret self.
  Lemma dec_flds_step : forall rt lim base sname cfo self f t rest,
    dec_flds k rname versions ctx rt lim base sname cfo self (FCons f t rest) =
    let root := box_of rt self in
    let env := if cfo then mkenv self (get_version root) (get_flags root) ctx
               else mkenv root (get_version root) (get_flags root) ctx in
    let cn := if cfo then sname else rname in
    match resolve_size cn env f, resolve_len cn env f with
    | Some size, Some len =>
        dbind (dec_step rt lim base sname cfo self f t size len)
              (fun self' => dec_flds k rname versions ctx rt lim base sname cfo self' rest)
    | _, _ => dpanic
    end.
  Proof. reflexivity. Qed.

  Lemma step_mono : forall rt lim base sname cfo self f t size len p b v p' b',
    no_cp_val t = true -> f_cp f = false ->
    dec_step rt lim base sname cfo self f t size len (p, b) = Ok (v, (p', b')) ->
    p <= p' /\ (List.length b' <= List.length b)%nat.
  Proof.
    intros rt lim base sname cfo self f t size len p b v p' b' Hn Hc H. unfold dec_step in H.
    destruct (is_target _ _ _ _ _).
    2:{ unfold dret in H. assert (E : p = p' /\ b = b') by (now injection H). destruct E as [-> ->]. split; lia. }
    unfold dbind at 1, dpos in H. unfold dbind at 1 in H. cbn [fst] in H.
    match type of H with (match d_hook ?k ?h ?ver ?s ?l ?st with _ => _ end) = _ =>
      destruct (d_hook k h ver s l st) as [[[ov self1] [p1 b1]]| | |] eqn:EH; try discriminate;
      pose proof (local_hook h ver s l k p b _ _ _ EH) as (c & E1 & E2 & _) end.
    assert (B1 : p <= p1 /\ (List.length b1 <= List.length b)%nat).
    { subst b p1. rewrite app_length. split; lia. }
    destruct ov.
    { unfold dret in H. assert (E : p1 = p' /\ b1 = b') by (now injection H). destruct E as [-> ->]. exact B1. }
    destruct (lookup _ _) as [cur|]; [|discriminate]. unfold dbind in H.
    destruct (dec_val _ _ _ _ _ _ _ _ _ _ _ _ _) as [[x [p2 b2]]| | |] eqn:EV; try discriminate.
    apply dec_mono_val in EV; auto. destruct (_ && _); [discriminate|]. unfold dret in H.
    assert (E : p2 = p' /\ b2 = b') by (now injection H). destruct E as [-> ->]. split; lia.
  Qed.

  Lemma hook_frame : forall h ver self left st ov s1 st1,
    d_hook k h ver self left st = Ok ((ov, s1), st1) ->
    (forall j, ~ In j hook_targets -> lookup j s1 = lookup j self) /\
    (forall j, lookup j self <> None -> lookup j s1 <> None).
  Proof.
    assert (U : forall j x v (l : fields), lookup j l <> None -> lookup j (update x v l) <> None).
    { intros j x v l H. destruct (string_dec j x) as [->|Hj].
      - rewrite lookup_update_same by auto. discriminate.
      - rewrite lookup_update_other by auto. exact H. }
    assert (W : forall j x v (l : fields), In x hook_targets -> ~ In j hook_targets -> lookup j (update x v l) = lookup j l).
    { intros j x v l Hx Hj. apply lookup_update_other. intros ->. contradiction. }
    assert (I1 : In "Name" hook_targets) by (cbn; tauto).
    assert (I2 : In "SchemeIdUri" hook_targets) by (cbn; tauto).
    assert (I3 : In "Value" hook_targets) by (cbn; tauto).
    assert (I4 : In "HighProfileFieldsEnabled" hook_targets) by (cbn; tauto).
    intros h ver self left st ov s1 st1 H. destruct h; cbn [d_hook] in H.
    - unfold dret in H. assert (self = s1) by (now injection H). subst. auto.
    - unfold dret in H. assert (self = s1) by (now injection H). subst. auto.
    - destruct (ver =? 0).
      + unfold dret in H. assert (self = s1) by (now injection H). subst. auto.
      + unfold dbind in H. destruct (d_zstring k st) as [[a st2]| | |]; try discriminate.
        destruct (d_zstring k st2) as [[b st3]| | |]; try discriminate. unfold dret in H.
        match type of H with Ok (_, ?x, _) = _ => assert (E : x = s1) by (now injection H) end.
        subst s1. split; intros j Hj.
        * rewrite !W by auto. reflexivity.
        * auto.
    - cbv zeta in H. destruct (_ =? 0).
      + unfold dret in H.
        match type of H with Ok (_, ?x, _) = _ => assert (E : x = s1) by (now injection H) end.
        subst s1. split; intros j Hj; [now apply W|auto].
      + unfold dbind in H. destruct (d_has _ st) as [[ok st2]| | |]; try discriminate.
        destruct ok; [|discriminate]. cbn [negb] in H. destruct (_ <=? _); [discriminate|].
        destruct (d_bytes _ st2) as [[[|c tl] st3]| | |]; try discriminate.
        cbv zeta in H. unfold dret in H.
        match type of H with Ok (_, ?x, _) = _ => assert (E : x = s1) by (now injection H) end.
        subst s1. split; intros j Hj; [now apply W|auto].
    - unfold dret in H.
      match type of H with Ok (_, ?x, _) = _ => assert (E : x = s1) by (now injection H) end.
      subst s1. split; intros j Hj; [now apply W|auto].
  Qed.
  Lemma step_frame : forall rt lim base sname cfo self f t size len st s1 st1,
    dec_step rt lim base sname cfo self f t size len st = Ok (s1, st1) ->
    (forall j, j <> f_name f -> ~ In j hook_targets -> lookup j s1 = lookup j self) /\
    (forall j, lookup j self <> None -> lookup j s1 <> None).
  Proof.
    intros rt lim base sname cfo self f t size len st s1 st1 H. unfold dec_step in H.
    destruct (is_target _ _ _ _ _).
    2:{ unfold dret in H. assert (self = s1) by (now injection H). subst. auto. }
    unfold dbind at 1, dpos in H. unfold dbind at 1 in H.
    destruct (d_hook _ _ _ _ _ _) as [[[ov self1] st2]| | |] eqn:EH; try discriminate.
    apply hook_frame in EH. destruct EH as [F1 F2]. destruct ov.
    { unfold dret in H. assert (self1 = s1) by (now injection H). subst. auto. }
    destruct (lookup (f_name f) self1) as [cur|] eqn:Lc; [|discriminate]. unfold dbind in H.
    destruct (dec_val _ _ _ _ _ _ _ _ _ _ _ _ _) as [[x st3]| | |] eqn:EV; try discriminate.
    cbv zeta in H. destruct (_ && _); [discriminate|]. unfold dret in H.
    assert (E : update (f_name f) x self1 = s1) by (now injection H). subst s1. split.
    - intros j Hj Hh. rewrite lookup_update_other by auto. auto.
    - intros j Hj. destruct (string_dec j (f_name f)) as [->|Hn].
      + rewrite lookup_update_same by congruence. discriminate.
      + rewrite lookup_update_other by auto. auto.
  Qed.
  Lemma shaped_in_step : forall fs l m, shaped_in fs l -> ht_flds fs = true ->
    (forall j, In j (names_of fs) -> ~ In j hook_targets -> lookup j m = lookup j l) ->
    (forall j, lookup j l <> None -> lookup j m <> None) -> shaped_in fs m.
  Proof.
    induction fs as [|f t r IH]; intros l m S H E1 E2; [exact I|].
    change ((negb (str_in (f_name f) hook_targets) || trivial_shape t) && ht_val t && ht_flds r = true) in H.
    apply andb_prop in H. destruct H as [H H3]. apply andb_prop in H. destruct H as [H1 H2].
    destruct S as [(c & L & S) Sr]. split.
    - destruct (str_in (f_name f) hook_targets) eqn:Hs.
      + cbn [negb orb] in H1. specialize (E2 (f_name f)). rewrite L in E2.
        destruct (lookup (f_name f) m) as [c'|]; [|exfalso; now apply E2].
        exists c'. split; [reflexivity|]. destruct t; try discriminate; exact I.
      + exists c. split; [|exact S]. rewrite E1; [exact L|now left|]. rewrite <- str_in_In. congruence.
    - apply (IH l); auto. intros j Hj. apply E1. now right.
  Qed.

  Lemma progress :
    (forall t, forall rt lim base f size len cur p b v p' b',
       prog_val rname f t = true -> shaped t cur -> nodup_val t = true -> no_cp_val t = true -> f_cp f = false -> ht_val t = true ->
       dec_val k rname versions ctx rt lim base f size len t cur (p, b) = Ok (v, (p', b')) -> p < p') /\
    (forall fs, forall rt lim base sname cfo self p b v p' b',
       prog_flds rname sname cfo fs = true -> shaped_in fs self -> nodup_names (names_of fs) = true ->
       nodup_flds fs = true -> no_cp_flds fs = true ->
       ht_flds fs = true ->
       dec_flds k rname versions ctx rt lim base sname cfo self fs (p, b) = Ok (v, (p', b')) -> p < p').
  Proof.
    apply sty_flds_mutind.
    - intros w rt lim base f size len cur p b v p' b' P S N0 Hn Hc Ht H. cbn [prog_val dec_val] in *.
      apply negb_true_iff in P. rewrite P in H. unfold d_uint in H.
      destruct (N.eqb_spec size 0); [discriminate|]. unfold dbind in H.
      destruct (d_take size (p, b)) as [[x [p1 b1]]| | |] eqn:E; try discriminate.
      unfold d_take in E. cbn [fst snd] in E. destruct (_ <=? _); [|discriminate].
      assert (p1 = p + size) by (now injection E). assert (p1 = p') by (now injection H). lia.
    - intros w rt lim base f size len cur p b v p' b' P S N0 Hn Hc Ht H. cbn [prog_val dec_val] in *.
      unfold d_int in H. destruct (f_varint f); [discriminate|].
      destruct (N.eqb_spec size 0); [discriminate|]. unfold dbind in H.
      destruct (d_take size (p, b)) as [[x [p1 b1]]| | |] eqn:E; try discriminate.
      unfold d_take in E. cbn [fst snd] in E. destruct (_ <=? _); [|discriminate].
      assert (p1 = p + size) by (now injection E). assert (p1 = p') by (now injection H). lia.
    - intros rt lim base f size len cur p b v p' b' P S N0 Hn Hc Ht H. cbn [prog_val dec_val] in *.
      unfold d_bool in H. destruct (N.eqb_spec size 0); [discriminate|]. unfold dbind in H.
      destruct (d_take size (p, b)) as [[x [p1 b1]]| | |] eqn:E; try discriminate.
      unfold d_take in E. cbn [fst snd] in E. destruct (_ <=? _); [|discriminate].
      assert (p1 = p + size) by (now injection E). assert (p1 = p') by (now injection H). lia.
    - discriminate.
    - intros n u IH rt lim base f size len cur p b v p' b' P S N0 Hn Hc Ht H. cbn [prog_val dec_val no_cp_val nodup_val ht_val] in *.
      apply andb_prop in P. destruct P as [P1 P2]. apply negb_true_iff, N.eqb_neq in P1.
      destruct S as (l & -> & L & S). unfold dbind in H.
      destruct (d_map _ l (p, b)) as [[xs [p1 b1]]| | |] eqn:E; try discriminate.
      assert (p1 = p') by (now injection H). subst p1.
      destruct l as [|c l]; [rewrite lenN_nil in L; congruence|]. inversion S; subst. cbn [d_map] in E. unfold dbind in E.
      destruct (dec_val _ _ _ _ _ _ _ _ _ _ _ _ _) as [[x [p2 b2]]| | |] eqn:EV; try discriminate.
      apply IH in EV; auto.
      destruct (d_map _ l (p2, b2)) as [[ys [p3 b3]]| | |] eqn:EM; try discriminate.
      assert (p3 = p') by (now injection E). subst p3.
      pose proof (local_map (fun k => dec_val k rname versions ctx rt lim base f size len u)
        (fun v => proj1 (dec_local rname versions ctx) u Hn rt lim base f size len v Hc) l) as LM.
      destruct (LM k p2 b2 _ _ _ EM) as (cc & _ & -> & _). lia.
    - discriminate.
    - intros u IH rt lim base f size len cur p b v p' b' P S N0 Hn Hc Ht H. cbn [prog_val dec_val no_cp_val nodup_val ht_val] in *.
      unfold dbind in H.
      destruct (dec_val _ _ _ _ _ _ _ _ _ _ _ _ _) as [[x [p2 b2]]| | |] eqn:EV; try discriminate.
      assert (p2 = p') by (now injection H). subst p2. apply IH in EV; auto. now apply (proj1 zero_shaped).
    - intros name cfo fs IH rt lim base f size len cur p b v p' b' P S N0 Hn Hc Ht H.
      change (prog_flds rname name cfo fs = true) in P.
      change (nodup_names (names_of fs) && nodup_flds fs = true) in N0.
      apply andb_prop in N0. destruct N0 as [N1 N2]. change (no_cp_flds fs = true) in Hn. change (ht_flds fs = true) in Ht.
      destruct S as (l & -> & Kl & Sl & _). rewrite dec_val_struct in H. destruct (_ && _).
      + unfold dbind in H at 1. unfold dpos in H at 1. cbn [fst] in H. unfold dbind in H at 1.
        destruct (dec_flds _ _ _ _ _ _ _ _ _ _ _ _) as [[x [p1 b1]]| | |] eqn:E; try discriminate.
        apply IH in E; auto. unfold dbind, dpos in H. cbn [fst] in H. destruct (_ =? _); [|discriminate].
        assert (p1 = p') by (now injection H). now subst.
      + unfold dbind in H.
        destruct (dec_flds _ _ _ _ _ _ _ _ _ _ _ _) as [[x [p1 b1]]| | |] eqn:E; try discriminate.
        apply IH in E; auto. assert (p1 = p') by (now injection H). now subst.
    - discriminate.
    - intros f t IHt rest IHr rt lim base sname cfo self p b v p' b' P S N1 N2 Hn HT H.
      rewrite dec_flds_step in H. cbv zeta in H.
      cbn [names_of nodup_names] in N1. apply andb_prop in N1. destruct N1 as [N0 N1].
      change ((negb (str_in (f_name f) hook_targets) || trivial_shape t) && ht_val t && ht_flds rest = true) in HT.
      apply andb_prop in HT. destruct HT as [HT HT3]. apply andb_prop in HT. destruct HT as [HT1 HT2].
      change (nodup_val t && nodup_flds rest = true) in N2. apply andb_prop in N2. destruct N2 as [N2 N3].
      change (negb (f_cp f) && no_cp_val t && no_cp_flds rest = true) in Hn.
      apply andb_prop in Hn. destruct Hn as [Hn Hr].
      apply andb_prop in Hn. destruct Hn as [Hf Ht]. apply negb_true_iff in Hf.
      change (uncond f && no_hook (if cfo then sname else rname) (f_name f) && prog_val rname f t
              || prog_flds rname sname cfo rest = true) in P.
      destruct (resolve_size _ _ _) as [size|]; [|discriminate].
      destruct (resolve_len _ _ _) as [len|]; [|discriminate].
      unfold dbind in H.
      destruct (dec_step _ _ _ _ _ _ _ _ _ _ _) as [[s1 [p1 b1]]| | |] eqn:ES; try discriminate.
      destruct S as [(c & Lc & Sc) Sr].
      pose proof (step_mono _ _ _ _ _ _ _ _ _ _ _ _ _ _ _ Ht Hf ES) as [M1 _].
      apply orb_prop in P. destruct P as [P|P].
      + pose proof (dec_mono_flds _ _ _ _ _ _ _ _ _ _ _ _ Hr H) as [M2 _].
        apply andb_prop in P. destruct P as [P P3]. apply andb_prop in P. destruct P as [P1 P2].
        unfold dec_step in ES. rewrite uncond_target in ES by auto.
        unfold no_hook in P2. destruct (hook_of _ _); try discriminate. cbn [d_hook] in ES.
        unfold dbind, dpos, dret in ES. rewrite Lc in ES.
        destruct (dec_val _ _ _ _ _ _ _ _ _ _ _ _ _) as [[x [p2 b2]]| | |] eqn:EV; try discriminate.
        apply IHt in EV; auto. destruct (_ && _); [discriminate|].
        assert (p2 = p1) by (now injection ES). lia.
      + enough (p1 < p') by lia. apply (IHr rt lim base sname cfo s1 p1 b1 v p' b'); auto.
        destruct (step_frame _ _ _ _ _ _ _ _ _ _ _ _ _ ES) as [F1 F2].
        apply (shaped_in_step rest self); auto. intros j Hj. apply F1. intros ->.
        apply negb_true_iff in N0. apply str_in_In in Hj. congruence.
  Qed.
End Progress.

Section Fine.
  Variables (k : nat) (rname : string) (versions : list N) (ctx : context) (ver flags : N).

  Definition small (b : list bool) : Prop := (List.length b < k)%nat /\ lenN b < 8 * maxAlloc.
  Lemma small_le : forall b c, small b -> (List.length c <= List.length b)%nat -> small c.
  Proof. intros b c [S1 S2] L. split; [lia|]. unfold lenN in *. lia. Qed.

  (** what the endless loop is excluded by, where a trun's entries are read *)
  Definition exc_ok (ex : bool) (size len : N) : Prop :=
    strict = true -> ex = true -> (size <> 0 /\ size mod 8 = 0) \/ len <> LengthUnlimited.

  Definition TV (t : sty) : Prop := forall rt lim base f size len ex cur p b,
    get_version rt = ver -> get_flags rt = flags -> ts_val rname ver ex f t = true -> nodup_val t = true ->
    no_cp_val t = true -> f_cp f = false -> ht_val t = true -> exc_ok ex size len -> shaped t cur -> small b ->
    fine (dec_val k rname versions ctx rt lim base f size len t cur (p, b)).

  Definition GX (self : fields) (fs : flds) : Prop :=
    N.land flags 3840 <> 0 \/
    (as_uint (lookup "SampleCount" self) <> LengthUnlimited /\ ~ In "SampleCount" (names_of fs)).
  Definition TF (fs : flds) : Prop := forall rt lim base sname cfo self p b,
    get_version (box_of rt self) = ver -> get_flags (box_of rt self) = flags ->
    (rt = None -> ~ In "FullBox" (names_of fs)) ->
    ts_flds rname ver sname cfo fs = true -> nodup_names (names_of fs) = true -> nodup_flds fs = true ->
    no_cp_flds fs = true -> ht_flds fs = true ->
    (strict = true -> (if cfo then sname else rname) = "Trun" -> In "Entries" (names_of fs) -> GX self fs) ->
    shaped_in fs self -> small b ->
    fine (dec_flds k rname versions ctx rt lim base sname cfo self fs (p, b)).

  Lemma land_flags : forall n, N.land n 256 = 0 -> N.land n 512 = 0 -> N.land n 1024 = 0 -> N.land n 2048 = 0 ->
    N.land n 3840 = 0.
  Proof.
    intros n H1 H2 H3 H4.
    assert (E : N.land n 3840 = N.lor (N.lor (N.land n 256) (N.land n 512)) (N.lor (N.land n 1024) (N.land n 2048))).
    { rewrite <- !N.land_lor_distr_r. reflexivity. }
    rewrite E, H1, H2, H3, H4. reflexivity.
  Qed.
  Lemma trun_entry_size : forall env s, meval env (m_size "Trun" "Entries") = Some s ->
    N.land (e_flags env) 3840 <> 0 -> s <> 0 /\ s mod 8 = 0.
  Proof.
    intros env s H F. cbn in H.
    destruct (N.eqb_spec (N.land (e_flags env) 256) 0) as [F1|F1];
    destruct (N.eqb_spec (N.land (e_flags env) 512) 0) as [F2|F2];
    destruct (N.eqb_spec (N.land (e_flags env) 1024) 0) as [F3|F3];
    destruct (N.eqb_spec (N.land (e_flags env) 2048) 0) as [F4|F4]; cbn in H;
    try (injection H as <-; split; [discriminate|reflexivity]).
    exfalso. apply F. now apply land_flags.
  Qed.

  Lemma fine_map : forall u, TV u -> forall rt lim base f size len, 
    get_version rt = ver -> get_flags rt = flags -> ts_val rname ver false f u = true -> nodup_val u = true ->
    no_cp_val u = true -> f_cp f = false -> ht_val u = true ->
    forall l p b, Forall (shaped u) l -> small b ->
    fine (d_map (dec_val k rname versions ctx rt lim base f size len u) l (p, b)).
  Proof.
    intros u HV rt lim base f size len Gv Gf Ts Nd Nc Fc Ht. induction l as [|c l IH]; intros p b S B; [exact I|].
    inversion S; subst. cbn [d_map]. apply fine_bind.
    - apply (HV rt lim base f size len false); auto. discriminate.
    - intros x [p1 b1] E. apply dec_mono_val in E; auto. destruct E as (_ & E & _).
      apply fine_bind; [apply IH; auto; eapply small_le; eauto|]. intros; exact I.
  Qed.

  Lemma fine_elem : forall u, TV u -> forall rt lim base f size len, 
    get_version rt = ver -> get_flags rt = flags -> ts_val rname ver false f u = true -> nodup_val u = true ->
    no_cp_val u = true -> f_cp f = false -> ht_val u = true ->
    forall acc p b, small b -> fine (elem k rname versions ctx rt lim base f size len u acc (p, b)).
  Proof.
    intros u HV rt lim base f size len Gv Gf Ts Nd Nc Fc Ht acc p b B. unfold elem. apply fine_bind.
    - apply (HV rt lim base f size len false); auto; [discriminate|]. now apply (proj1 zero_shaped).
    - intros x [p1 b1] E. unfold dbind, dpos. destruct (_ <? _); exact I.
  Qed.
  Lemma elem_mono : forall rt lim base f size len u acc p b x p1 b1, no_cp_val u = true -> f_cp f = false ->
    elem k rname versions ctx rt lim base f size len u acc (p, b) = Ok (x, (p1, b1)) ->
    (List.length b1 <= List.length b)%nat /\
    exists v, dec_val k rname versions ctx rt lim base f size len u (zero u) (p, b) = Ok (v, (p1, b1)).
  Proof.
    intros rt lim base f size len u acc p b x p1 b1 Nc Fc H. unfold elem, dbind, dpos in H.
    destruct (dec_val _ _ _ _ _ _ _ _ _ _ _ _ _) as [[v [p2 b2]]| | |] eqn:E; try discriminate. cbn [fst] in H.
    destruct (_ <? _); [discriminate|]. unfold dret in H.
    assert (Q : p2 = p1 /\ b2 = b1) by (now injection H). destruct Q as [-> ->].
    pose proof (dec_mono_val _ _ _ _ _ _ _ _ _ _ _ _ _ _ _ _ _ Nc Fc E) as (_ & M & _). eauto.
  Qed.

  Lemma fine_all : (forall t, TV t) /\ (forall fs, TF fs).
  Proof.
    apply sty_flds_mutind.
    - intros w rt lim base f size len ex cur p b Gv Gf Ts Nd Nc Fc Ht X S [B1 B2]. cbn [dec_val]. now apply fine_uint.
    - intros w rt lim base f size len ex cur p b Gv Gf Ts Nd Nc Fc Ht X S [B1 B2]. cbn [dec_val]. apply fine_int.
    - intros rt lim base f size len ex cur p b Gv Gf Ts Nd Nc Fc Ht X S [B1 B2]. cbn [dec_val]. apply fine_bool.
    - intros rt lim base f size len ex cur p b Gv Gf Ts Nd Nc Fc Ht X S [B1 B2]. cbn [dec_val]. unfold d_string.
      rewrite Fc. now apply fine_string.
    - (* array *)
      intros n u HV rt lim base f size len ex cur p b Gv Gf Ts Nd Nc Fc Ht X S B.
      cbn [dec_val ts_val nodup_val no_cp_val ht_val] in *. destruct S as (l & -> & L & S).
      apply fine_bind; [|intros; exact I]. now apply fine_map.
    - (* slice *)
      intros u HV rt lim base f size len ex cur p b Gv Gf Ts Nd Nc Fc Ht X S B. rewrite dec_slice_eq.
      cbn [ts_val nodup_val no_cp_val ht_val] in *. apply andb_prop in Ts. destruct Ts as [Tp Ts].
      unfold dbind at 1, dpos at 1. cbn [fst]. cbv zeta.
      destruct (_ && _ && _); [exact I|].
      destruct (_ && _ && _).
      { match goal with |- context [d_has ?n] => set (total := n) end.
        unfold dbind at 1, d_has. cbn [fst snd].
        destruct (N.eqb_spec (p mod 8) 0) as [P8|]; [|exact I].
        destruct (N.leb_spec (8 * total) (lenN b)) as [Q|]; [|exact I]. cbn [andb negb].
        destruct B as [_ B].
        destruct (N.leb_spec maxAlloc total) as [M|]; [exfalso; clear - Q M B; unfold maxAlloc in *; lia|].
        apply fine_bind; [apply fine_bytes|]. intros; exact I. }
      apply fine_bind; [|intros; exact I].
      destruct (N.eqb_spec len LengthUnlimited) as [EL|NL].
      + destruct (Bool.bool_dec strict true) as [ST|ST].
        2:{ apply Bool.not_true_is_false in ST.
          assert (G : forall j a p b, small b -> fine
            (dwhile j (fun acc => q <~ dpos;;
               (if lim <=? q - base then dret (inr acc)
                else acc' <~ elem k rname versions ctx rt lim base f size len u acc;; dret (inl acc'))) a (p, b))).
          { induction j as [|j IH]; intros a q c L; [exact ST|]. cbn [dwhile]. apply fine_bind.
            - unfold dbind at 1, dpos. destruct (_ <=? _); [exact I|].
              apply fine_bind; [|intros; exact I]. now apply fine_elem.
            - intros [a1|r] [p1 b1] E; [|exact I]. unfold dbind at 1, dpos in E. destruct (_ <=? _); [discriminate|].
              unfold dbind in E.
              destruct (elem _ _ _ _ _ _ _ _ _ _ _ _ _) as [[y [p2 b2]]| | |] eqn:EE; try discriminate.
              unfold dret in E. assert (Q : b2 = b1) by (now injection E). subst b2. apply elem_mono in EE; auto.
              destruct EE as (EE & _). apply IH. eapply small_le; eauto. }
          now apply G. }
        assert (PR : forall acc p b x p1 b1, elem k rname versions ctx rt lim base f size len u acc (p, b) = Ok (x, (p1, b1)) ->
                 (List.length b1 < List.length b)%nat).
        { intros acc q c x p1 b1 E. apply elem_mono in E; auto. destruct E as (_ & v & E).
          pose proof (dec_mono_val _ _ _ _ _ _ _ _ _ _ _ _ _ _ _ _ _ Nc Fc E) as (_ & _ & M). apply M. clear M.
          apply orb_prop in Tp. destruct Tp as [Tp|Tp].
          - apply (proj1 (progress k rname versions ctx)) in E; auto; [lia|]. now apply (proj1 zero_shaped).
          - apply andb_prop in Tp. destruct Tp as [-> Tp]. destruct (X ST eq_refl) as [[X1 X2]|X1]; [|congruence].
            destruct u as [| | | | | | |nm cf fs]; try discriminate.
            change (zero (SStruct nm cf fs)) with (VStruct (zero_flds fs)) in E. rewrite dec_val_struct in E.
            apply N.eqb_neq in X1. rewrite X1, X2 in E. cbn [negb andb N.eqb] in E.
            unfold dbind, dpos in E. cbn [fst] in E.
            destruct (dec_flds _ _ _ _ _ _ _ _ _ _ _ _) as [[y [p2 b2]]| | |]; try discriminate. cbn [fst] in E.
            destruct (N.eqb_spec (p2 - q) size) as [Q|]; [|discriminate].
            assert (p2 = p1) by (now injection E). apply N.eqb_neq in X1. lia. }
        destruct B as [B1 B2].
        assert (G : forall j a p b, (List.length b < j)%nat -> (j <= k)%nat -> lenN b < 8 * maxAlloc -> fine
          (dwhile j (fun acc => q <~ dpos;;
             (if lim <=? q - base then dret (inr acc)
              else acc' <~ elem k rname versions ctx rt lim base f size len u acc;; dret (inl acc'))) a (p, b))).
        { induction j as [|j IH]; intros a q c L1 L2 L3; [lia|]. cbn [dwhile]. apply fine_bind.
          - unfold dbind at 1, dpos. destruct (_ <=? _); [exact I|].
            apply fine_bind; [|intros; exact I]. apply fine_elem; auto. split; [lia|exact L3].
          - intros [a1|r] [p1 b1] E; [|exact I]. unfold dbind at 1, dpos in E. destruct (_ <=? _); [discriminate|].
            unfold dbind in E.
            destruct (elem _ _ _ _ _ _ _ _ _ _ _ _ _) as [[y [p2 b2]]| | |] eqn:EE; try discriminate.
            unfold dret in E. assert (Q : b2 = b1) by (now injection E). subst b2. apply PR in EE.
            apply IH; [lia|lia|unfold lenN in *; lia]. }
        apply G; auto.
      + assert (G : forall j a p b, small b -> fine (dloop j (elem k rname versions ctx rt lim base f size len u) a (p, b))).
        { induction j as [|j IH]; intros a q c L; [exact I|]. cbn [dloop]. apply fine_bind.
          - now apply fine_elem.
          - intros a1 [p1 b1] E. apply elem_mono in E; auto. destruct E as (E & _). apply IH. eapply small_le; eauto. }
        now apply G.
    - (* pointer *)
      intros u HV rt lim base f size len ex cur p b Gv Gf Ts Nd Nc Fc Ht X S B.
      cbn [dec_val ts_val nodup_val no_cp_val ht_val] in *. apply fine_bind; [|intros; exact I].
      apply (HV rt lim base f size len false); auto; [discriminate|]. now apply (proj1 zero_shaped).
    - (* struct *)
      intros name cfo fs HF rt lim base f size len ex cur p b Gv Gf Ts Nd Nc Fc Ht X S B.
      change (negb (str_in "Entries" (names_of fs) && String.eqb (if cfo then name else rname) "Trun") &&
              ts_flds rname ver name cfo fs = true) in Ts.
      apply andb_prop in Ts. destruct Ts as [Te Ts].
      change (nodup_names (names_of fs) && nodup_flds fs = true) in Nd.
      apply andb_prop in Nd. destruct Nd as [N1 N2]. change (no_cp_flds fs = true) in Nc.
      change (ht_flds fs = true) in Ht. destruct S as (l & -> & Kl & Sl & _). rewrite dec_val_struct.
      assert (NG : strict = true -> (if cfo then name else rname) = "Trun" -> In "Entries" (names_of fs) -> GX l fs).
      { intros _ E I1. apply str_in_In in I1. rewrite I1, E in Te. discriminate. }
      clear Te. destruct (negb (size =? 0) && (size mod 8 =? 0)).
      + unfold dbind at 1, dpos at 1. cbn [fst]. apply fine_bind.
        * apply HF; auto; discriminate.
        * intros y [q c] E. unfold dbind, dpos. destruct (_ =? _); exact I.
      + apply fine_bind; [|intros; exact I]. apply HF; auto; discriminate.
    - intros rt lim base sname cfo self p b; intros. exact I.
    - intros f t HV rest HF rt lim base sname cfo self p b Gv Gf Fb Ts N1 N2 Nc Ht G S B.
      rewrite dec_flds_step. cbv zeta.
      change (let cn := if cfo then sname else rname in
        (negb (f_sizeDyn f) || msafe ver (m_size cn (f_name f))) &&
        (negb (f_lenDyn f) || msafe ver (m_len cn (f_name f))) &&
        (negb (is_entries cn (f_name f)) || (f_sizeDyn f && f_lenDyn f && cfo)) &&
        ts_val rname ver (is_entries cn (f_name f)) f t && ts_flds rname ver sname cfo rest = true) in Ts. cbv zeta in Ts.
      set (cn := if cfo then sname else rname) in *. set (root := box_of rt self) in *.
      set (env := if cfo then mkenv self (get_version root) (get_flags root) ctx
                  else mkenv root (get_version root) (get_flags root) ctx).
      apply andb_prop in Ts. destruct Ts as [Ts T5]. apply andb_prop in Ts. destruct Ts as [Ts T4].
      apply andb_prop in Ts. destruct Ts as [Ts T3]. apply andb_prop in Ts. destruct Ts as [T1 T2].
      cbn [names_of nodup_names] in N1. apply andb_prop in N1. destruct N1 as [N0 N1].
      change (nodup_val t && nodup_flds rest = true) in N2. apply andb_prop in N2. destruct N2 as [N2 N3].
      change (negb (f_cp f) && no_cp_val t && no_cp_flds rest = true) in Nc.
      apply andb_prop in Nc. destruct Nc as [Nc Nr].
      apply andb_prop in Nc. destruct Nc as [Nf Nt]. apply negb_true_iff in Nf.
      change ((negb (str_in (f_name f) hook_targets) || trivial_shape t) && ht_val t && ht_flds rest = true) in Ht.
      apply andb_prop in Ht. destruct Ht as [Ht H3]. apply andb_prop in Ht. destruct Ht as [H1 H2].
      destruct S as [(c & Lc & Sc) Sr].
      assert (Ev : e_ver env = ver /\ e_flags env = flags) by (unfold env; destruct cfo; cbn; auto).
      destruct Ev as [Ev Ef].
      destruct (resolve_size cn env f) as [size|] eqn:RS.
      2:{ exfalso. unfold resolve_size in RS. destruct (f_sizeDyn f); [|discriminate]. cbn [negb orb] in T1.
          rewrite <- Ev in T1. now apply msafe_ok in T1. }
      destruct (resolve_len cn env f) as [len|] eqn:RL.
      2:{ exfalso. unfold resolve_len in RL. destruct (f_lenDyn f); [|discriminate]. cbn [negb orb] in T2.
          rewrite <- Ev in T2. now apply msafe_ok in T2. }
      (* the exception *)
      assert (EX : exc_ok (is_entries cn (f_name f)) size len).
      { intros ST IE. rewrite IE in T3. cbn [negb orb] in T3. apply andb_prop in T3. destruct T3 as [T3 Tc].
        apply andb_prop in T3. destruct T3 as [Tz Tl]. unfold is_entries in IE. apply andb_prop in IE.
        destruct IE as [I1 I2]. apply String.eqb_eq in I1, I2.
        destruct (G ST I1) as [X|[X1 X2]]; [left; exact I2|left|right].
        - unfold resolve_size in RS. rewrite Tz, I1, I2 in RS. apply trun_entry_size in RS; [exact RS|]. now rewrite Ef.
        - unfold resolve_len in RL. rewrite Tl, I1, I2 in RL. cbn in RL. unfold env in RL. rewrite Tc in RL. cbn in RL.
          injection RL as <-. exact X1. }
      assert (SF : fine (dec_step k rname versions ctx rt lim base sname cfo self f t size len (p, b))).
      { unfold dec_step. cbv zeta. fold root. destruct (is_target _ _ _ _ _); [|exact I].
        unfold dbind at 1, dpos at 1. cbn [fst]. apply fine_bind; [apply fine_hook; apply B|].
        intros [ov s1] [p1 b1] EH. pose proof EH as EH2. apply hook_frame in EH2. destruct EH2 as [F1 F2].
        destruct ov; [exact I|].
        assert (LS : (List.length b1 <= List.length b)%nat).
        { pose proof (local_hook (hook_of (if cfo then sname else rname) (f_name f)) (get_version root) self (sub64 lim (p - base)) k p b _ _ _ EH)
            as (cc & -> & _). rewrite app_length. lia. }
        assert (SC : exists c1, lookup (f_name f) s1 = Some c1 /\ shaped t c1).
        { destruct (str_in (f_name f) hook_targets) eqn:Hs.
          - cbn [negb orb] in H1. specialize (F2 (f_name f)). rewrite Lc in F2.
            destruct (lookup (f_name f) s1) as [c'|]; [|exfalso; now apply F2].
            exists c'. split; [reflexivity|]. destruct t; try discriminate; exact I.
          - exists c. split; [|exact Sc]. rewrite F1; [exact Lc|]. rewrite <- str_in_In. congruence. }
        destruct SC as (c1 & L1 & S1). rewrite L1.
        assert (FBs : lookup "FullBox" s1 = lookup "FullBox" self).
        { apply F1. cbn. intros [Q|[Q|[Q|[Q|[]]]]]; discriminate. }
        apply fine_bind.
        - apply (HV (box_of rt s1) lim base f size len (is_entries cn (f_name f)) c1); auto.
          + destruct rt as [rd|]; cbn [box_of] in *; [exact Gv|]. unfold get_version, fullbox_of in *. rewrite FBs. exact Gv.
          + destruct rt as [rd|]; cbn [box_of] in *; [exact Gf|]. unfold get_flags, fullbox_of in *. rewrite FBs. exact Gf.
          + eapply small_le; eauto.
        - intros y st E. cbv zeta. clear T3. destruct (_ && _); exact I. }
      apply fine_bind; [exact SF|]. intros s1 [p1 b1] ES.
      pose proof (step_mono _ _ _ _ _ _ _ _ _ _ _ _ _ _ _ _ _ _ _ Nt Nf ES) as [_ LS].
      destruct (step_frame _ _ _ _ _ _ _ _ _ _ _ _ _ _ _ _ _ ES) as [F1 F2].
      assert (FBs : rt = None -> lookup "FullBox" s1 = lookup "FullBox" self).
      { intros ->. apply F1.
        - intros E. apply (Fb eq_refl). left. now symmetry.
        - cbn. intros [Q|[Q|[Q|[Q|[]]]]]; discriminate. }
      apply HF; auto.
      + destruct rt as [rd|]; cbn [box_of] in *; [exact Gv|]. unfold get_version, fullbox_of in *. rewrite FBs by reflexivity. exact Gv.
      + destruct rt as [rd|]; cbn [box_of] in *; [exact Gf|]. unfold get_flags, fullbox_of in *. rewrite FBs by reflexivity. exact Gf.
      + intros E I1. apply (Fb E). now right.
      + intros ST E I1. destruct (G ST E) as [X|[X1 X2]]; [right; exact I1|left; exact X|right]. split.
        * rewrite F1; [exact X1| |].
          -- intros Q. apply X2. left. now symmetry.
          -- cbn. intros [Q|[Q|[Q|[Q|[]]]]]; discriminate.
        * intros I2. apply X2. now right.
      + apply (shaped_in_step rest self); auto. intros j Hj. apply F1. intros ->.
        apply negb_true_iff in N0. apply str_in_In in Hj. congruence.
      + eapply small_le; eauto.
  Qed.
End Fine.

(** ** Boxes *)
Lemma fb_short : forall k rn vs ctx rt lim base o len v0 a0 b0 c0 st,
  lenN (snd st) < 32 ->
  exists e, dec_val k rn vs ctx rt lim base o 0 len fb_ty (VStruct [("Version", v0); ("Flags", VList [a0; b0; c0])]) st = Err e.
Proof.
  intros k rn vs ctx rt lim base o len v0 a0 b0 c0 [p b] L. cbn [snd] in L.
  assert (T : forall q c, d_uint k 8 false 8 (q, c) = Err EEOF \/
             exists x, d_uint k 8 false 8 (q, c) = Ok (x, (q + 8, skipN 8 c)) /\ lenN (skipN 8 c) + 8 = lenN c).
  { intros q c. unfold d_uint. cbn [N.eqb]. unfold dbind, d_take. cbn [fst snd].
    destruct (N.leb_spec 8 (lenN c)); [right|left; reflexivity]. eexists. split; [reflexivity|].
    rewrite lenN_skipN. lia. }
  unfold fb_ty. rewrite dec_val_struct. change (negb (0 =? 0) && (0 mod 8 =? 0)) with false. cbv iota.
  unfold dbind at 1. rewrite dec_flds_cons. cbv zeta. rewrite plain_size, plain_len, plain_target.
  cbn [f_name plain_info]. change (hook_of "FullBox" "Version") with HNone.
  unfold dbind at 1. unfold dbind at 1. unfold dpos at 1. cbn [d_hook]. unfold dbind at 1, dret at 1.
  change (lookup "Version" [("Version", v0); ("Flags", VList [a0; b0; c0])]) with (Some v0). cbv iota.
  cbn [dec_val f_varint plain_info]. unfold dbind at 1.
  destruct (T p b) as [E1|(x1 & E1 & L1)]; rewrite E1; [eauto|].
  cbn [is_fullbox andb]. unfold dret at 1.
  change (update "Version" x1 [("Version", v0); ("Flags", VList [a0; b0; c0])])
    with [("Version", x1); ("Flags", VList [a0; b0; c0])].
  rewrite dec_flds_cons. cbv zeta. rewrite plain_size, plain_len, plain_target.
  cbn [f_name plain_info]. change (hook_of "FullBox" "Flags") with HNone.
  unfold dbind at 1. unfold dbind at 1. unfold dpos at 1. cbn [d_hook]. unfold dbind at 1, dret at 1.
  match goal with |- context [lookup "Flags" ?l] =>
    change (lookup "Flags" l) with (Some (VList [a0; b0; c0])) end. cbv iota.
  cbn [dec_val f_varint d_map plain_info]. unfold dbind.
  destruct (T (p + 8) (skipN 8 b)) as [E2|(x2 & E2 & L2)]; rewrite E2; [eauto|].
  destruct (T (p + 8 + 8) (skipN 8 (skipN 8 b))) as [E3|(x3 & E3 & L3)]; rewrite E3; [eauto|].
  destruct (T (p + 8 + 8 + 8) (skipN 8 (skipN 8 (skipN 8 b)))) as [E4|(x4 & E4 & L4)]; rewrite E4; [eauto|]. lia.
Qed.

Lemma split32 : forall bits : list bool, 32 <= lenN bits ->
  exists v a b c r, bits = bits_of_bytes [v; a; b; c] ++ r.
Proof.
  intros bits L. exists (byte_of_bits (firstn 8 bits)), (byte_of_bits (firstn 8 (skipn 8 bits))),
               (byte_of_bits (firstn 8 (skipn 16 bits))), (byte_of_bits (firstn 8 (skipn 24 bits))), (skipn 32 bits).
  assert (Lb : (List.length bits >= 32)%nat) by (unfold lenN in L; lia). cbn [bits_of_bytes flat_map].
  rewrite !bits_of_byte_of_bits by (rewrite firstn_length, ?skipn_length; apply Nat.min_l; clear - Lb; lia).
  rewrite app_nil_r, <- !app_assoc.
  replace (skipn 32 bits) with (skipn 8 (skipn 24 bits)) by (apply skipn_add).
  rewrite firstn_skipn.
  replace (skipn 24 bits) with (skipn 8 (skipn 16 bits)) by (apply skipn_add).
  rewrite firstn_skipn.
  replace (skipn 16 bits) with (skipn 8 (skipn 8 bits)) by (apply skipn_add).
  now rewrite !firstn_skipn.
Qed.

(** a 24-bit number in three bytes *)
Lemma flags_add : forall a b c : byte,
  flags_of_bytes [VUint (b2N a); VUint (b2N b); VUint (b2N c)] = 65536 * b2N a + 256 * b2N b + b2N c.
Proof.
  intros a b c. cbn [flags_of_bytes]. pose proof (b2N_lt b) as B. pose proof (b2N_lt c) as C.
  set (x := b2N a). set (y := b2N b) in *. set (z := b2N c) in *. clearbody x y z.
  assert (D : forall m n k, n < 2 ^ k -> N.lxor (N.shiftl m k) n = 2 ^ k * m + n).
  { intros m n j H. rewrite N.shiftl_mul_pow2, <- N.add_nocarry_lxor; [lia|].
    apply N.bits_inj_0. intros i. rewrite N.land_spec. destruct (N.ltb_spec i j) as [Q|Q].
    - rewrite N.mul_pow2_bits_low by auto. reflexivity.
    - replace (N.testbit n i) with false; [apply andb_false_r|]. symmetry.
      destruct (N.eq_dec n 0) as [->|Hz]; [apply N.bits_0|].
      apply N.bits_above_log2. apply N.log2_lt_pow2 in H; lia. }
  rewrite N.lxor_assoc, (D y z 8 C).
  rewrite (D x (2 ^ 8 * y + z) 16).
  - change (2 ^ 16) with 65536. change (2 ^ 8) with 256. lia.
  - change (2 ^ 16) with 65536. change (2 ^ 8) with 256. lia.
Qed.
Lemma flags_3840 : forall a b c : byte,
  N.land (flags_of_bytes [VUint (b2N a); VUint (b2N b); VUint (b2N c)]) 3840 = 256 * N.land (b2N b) 15.
Proof.
  intros a b c. rewrite flags_add. pose proof (b2N_lt c) as C.
  change 3840 with (N.shiftl 15 8).
  assert (E : N.land (65536 * b2N a + 256 * b2N b + b2N c) (N.shiftl 15 8) =
              N.shiftl (N.land (N.shiftr (65536 * b2N a + 256 * b2N b + b2N c) 8) 15) 8).
  { apply N.bits_inj. intros i. rewrite N.land_spec. destruct (N.ltb_spec i 8) as [Q|Q].
    - rewrite !N.shiftl_spec_low by auto. apply andb_false_r.
    - rewrite !N.shiftl_spec_high' by auto. rewrite N.land_spec, N.shiftr_spec'. f_equal. f_equal. lia. }
  rewrite E. clear E. rewrite N.shiftl_mul_pow2, N.shiftr_div_pow2. change (2 ^ 8) with 256.
  replace ((65536 * b2N a + 256 * b2N b + b2N c) / 256) with (256 * b2N a + b2N b) by lia.
  change 15 with (N.ones 4). rewrite !N.land_ones. change (2 ^ 4) with 16.
  set (x := b2N a). set (y := b2N b). clearbody x y. clear. lia.
Qed.

Definition trun_ok (d : boxdef) : bool :=
  implb (String.eqb (bd_name d) "Trun")
    (full_box d &&
     match bd_flds d with
     | FCons _ _ (FCons f t r) => finfo_eqb f (plain_info "SampleCount" 1 32 false) && sty_eqb t (SUint 32)
                                  && negb (str_in "SampleCount" (names_of r))
     | _ => false
     end).
Lemma std_trun : forallb trun_ok all_defs = true.
Proof. vm_compute. reflexivity. Qed.
Lemma ver_list_in : forall vs (v : byte), version_in vs (b2N v) = true -> In (b2N v) (ver_list vs).
Proof.
  intros [|x vs] v H; unfold ver_list.
  - apply in_map_iff. exists (N.to_nat (b2N v)). split; [lia|]. apply in_seq. pose proof (b2N_lt v). lia.
  - unfold version_in in H. apply existsb_exists in H. destruct H as (y & I1 & E).
    apply N.eqb_eq in E. now subst.
Qed.
Lemma field_names_of : forall fs, field_names fs = names_of fs.
Proof. induction fs as [|f t r IH]; [reflexivity|]. cbn. now rewrite IH. Qed.

Lemma decode_fine : forall k d size ctx payload,
  ts_box d = true -> ht_flds (bd_flds d) = true -> trun_ok d = true ->
  nodup_names (names_of (bd_flds d)) && nodup_flds (bd_flds d) = true ->
  full_box d || negb (str_in "FullBox" (names_of (bd_flds d))) = true ->
  no_cp_flds (bd_flds d) = true ->
  (List.length (bits_of_bytes payload) < k)%nat -> lenN payload < maxAlloc ->
  (strict = true -> bd_name d = "Trun" -> ~ trun_endless payload) ->
  fine (decode k d size ctx (zero_flds (bd_flds d)) (bits_of_bytes payload)).
Proof.
  intros k d size ctx payload Ts Ht Tr Nd Fb Nc Hk Hm NT.
  apply andb_prop in Nd. destruct Nd as [Nn Nd].
  assert (SM : small k (bits_of_bytes payload)).
  { split; [exact Hk|]. rewrite lenN_bits_of_bytes. lia. }
  unfold decode. set (z := set_version anyVersion (zero_flds (bd_flds d))).
  enough (G : fine (dec_flds k (bd_name d) (bd_versions d) ctx None (w64 (size * 8)) 0 (bd_name d) true z
                      (bd_flds d) (0, bits_of_bytes payload))).
  { unfold d_before. destruct (String.eqb (bd_name d) "Meta").
    - pose proof (fine_bytes 4 (0, bits_of_bytes payload)) as FB.
      destruct (d_bytes 4 (0, bits_of_bytes payload)) as [[buf st]| | |]; auto.
      destruct (existsb _ buf); [exact I|].
      destruct (dec_flds _ _ _ _ _ _ _ _ _ _ _ _) as [[x [p r]]| | |]; auto.
      destruct (negb (p mod 8 =? 0)); [exact I|]. destruct (_ <? _); exact I.
    - destruct (dec_flds _ _ _ _ _ _ _ _ _ _ _ _) as [[x [p r]]| | |]; auto.
      destruct (negb (p mod 8 =? 0)); [exact I|]. destruct (_ <? _); exact I. }
  destruct (full_box d) eqn:FB.
  - destruct (full_box_inv d FB) as (r & E & NF & HH). rewrite field_names_of in NF.
    pose proof (set_version_fb d r E) as Z. fold z in Z. rewrite Z.
    destruct (N.ltb_spec (lenN (bits_of_bytes payload)) 32) as [L|L].
    { rewrite E. rewrite dec_flds_cons. cbv zeta.
      rewrite plain_size, plain_len, plain_target. cbn [f_name plain_info]. rewrite HH.
      unfold dbind at 1. unfold dbind at 1. unfold dpos at 1. cbn [d_hook]. unfold dbind at 1, dret at 1.
      match goal with |- context [lookup "FullBox" (?x :: ?l)] =>
        change (lookup "FullBox" (x :: l)) with (Some (snd x)) end. cbv iota. cbn [snd].
      unfold dbind at 1.
      match goal with |- context [dec_val ?k ?a ?b ?c ?rt ?l ?ba ?f ?s ?ln ?t ?cu ?st] =>
        destruct (fb_short k a b c rt l ba f ln (VUint 255) (VUint 0) (VUint 0) (VUint 0) st L) as [e Ee] end.
      rewrite Ee. exact I. }
    assert (exists v a b c pr, payload = v :: a :: b :: c :: pr) as (v & a & b & c & pr & ->).
    { rewrite lenN_bits_of_bytes in L.
      destruct payload as [|v [|a [|b [|c pr]]]]; rewrite ?lenN_cons, ?lenN_nil in L; try lia. now exists v, a, b, c, pr. }
    change (v :: a :: b :: c :: pr) with ([v; a; b; c] ++ pr) in *.
    rewrite bits_of_bytes_app in *. rewrite (decode_full_box k d r) by auto.
    destruct (version_in (bd_versions d) (b2N v)) eqn:VI; [|exact I].
    unfold ts_box in Ts. rewrite FB, E in Ts. rewrite forallb_forall in Ts. specialize (Ts _ (ver_list_in _ _ VI)).
    rewrite E in Ht, Nn, Nd, Nc. cbn [names_of nodup_names] in Nn. apply andb_prop in Nn. destruct Nn as [Nn1 Nn2].
    change (nodup_val fb_ty && nodup_flds r = true) in Nd. apply andb_prop in Nd. destruct Nd as [_ Nd].
    change (no_cp_flds r = true) in Nc. change (ht_flds r = true) in Ht.
    set (self := ("FullBox", fb_val v a b c) :: zero_flds r).
    assert (SI : shaped_in r self).
    { apply (shaped_in_ext r (zero_flds r)); [now apply (proj2 zero_shaped)|].
      intros j Hj. unfold self. cbn [lookup]. destruct (String.eqb_spec j "FullBox") as [->|]; [contradiction|reflexivity]. }
    assert (S2 : small k (bits_of_bytes pr)).
    { destruct SM as [S1 S2]. rewrite app_length in S1. rewrite lenN_app in S2. split; lia. }
    set (fl := flags_of_bytes [VUint (b2N a); VUint (b2N b); VUint (b2N c)]).
    destruct (N.eq_dec (N.land fl 3840) 0) as [F0|F1].
    2:{ apply (proj2 (fine_all k (bd_name d) (bd_versions d) ctx (b2N v) fl)); auto. intros _ _ _. now left. }
    destruct (string_dec (bd_name d) "Trun") as [ET|NTr].
    2:{ apply (proj2 (fine_all k (bd_name d) (bd_versions d) ctx (b2N v) fl)); auto. intros _ Q. contradiction. }
    (* trun without sample fields *)
    unfold trun_ok in Tr. rewrite ET, FB, E in Tr. cbn [String.eqb implb andb] in Tr.
    destruct r as [|f t r]; [discriminate|]. apply andb_prop in Tr. destruct Tr as [Tr T3].
    apply andb_prop in Tr. destruct Tr as [T1 T2]. apply finfo_eqb_eq in T1. apply (proj1 sty_eqb_eq) in T2. subst f t.
    apply negb_true_iff in T3.
    rewrite dec_flds_cons. cbv zeta. rewrite plain_size, plain_len, plain_target. cbn [f_name plain_info].
    rewrite ET. change (hook_of "Trun" "SampleCount") with HNone.
    unfold dbind at 1. unfold dbind at 1. unfold dpos at 1. cbn [d_hook]. unfold dbind at 1, dret at 1.
    change (lookup "SampleCount" self)
      with (Some (VUint 0)). cbv iota. cbn [dec_val f_varint plain_info is_fullbox andb]. unfold d_uint. cbn [N.eqb].
    unfold dbind, d_take. cbn [fst snd].
    destruct (N.leb_spec 32 (lenN (bits_of_bytes pr))) as [L4|]; [|exact I]. unfold dret.
    set (n := w64 (bits_to_N (takeN 32 (bits_of_bytes pr))) mod 2 ^ 32).
    change (update "SampleCount" (VUint n) self)
      with (("FullBox", fb_val v a b c) :: ("SampleCount", VUint n) :: zero_flds r).
    apply (proj2 (fine_all k "Trun" (bd_versions d) ctx (b2N v) fl)); auto.
    + intros _ I1. apply NF. now right.
    + rewrite ET in Ts.
      change (ts_flds "Trun" (b2N v) "Trun" true (FCons (plain_info "SampleCount" 1 32 false) (SUint 32) r) = true) in Ts.
      cbn [ts_flds] in Ts. cbv zeta in Ts. apply andb_prop in Ts. apply Ts.
    + cbn [names_of nodup_names] in Nn2. apply andb_prop in Nn2. apply Nn2.
    + intros ST _ _. right. split; [|rewrite <- str_in_In; congruence].
      change (as_uint (lookup "SampleCount" (("FullBox", fb_val v a b c) :: ("SampleCount", VUint n) :: zero_flds r))) with n.
      intros En. apply (NT ST ET). split.
      * cbn [app trun_has_fields]. unfold fl in F0. rewrite flags_3840 in F0.
        destruct (N.eqb_spec (N.land (b2N b) 15) 0); [reflexivity|lia].
      * unfold trun_sample_count. change (skipN 4 ([v; a; b; c] ++ pr)) with (skipN (lenN [v; a; b; c]) ([v; a; b; c] ++ pr)).
        rewrite skipN_app_exact by reflexivity. rewrite be_to_N_bits, <- takeN_bits_of_bytes.
        change (8 * 4) with 32. transitivity n; [|exact En]. unfold n, w64, W64.
        assert (LT : bits_to_N (takeN 32 (bits_of_bytes pr)) < 2 ^ 32).
        { pose proof (bits_to_N_lt (takeN 32 (bits_of_bytes pr))) as Q.
          assert (QL : lenN (takeN 32 (bits_of_bytes pr)) = 32) by (rewrite lenN_takeN; lia).
          replace (2 ^ 32) with (2 ^ lenN (takeN 32 (bits_of_bytes pr))) by (now rewrite QL). exact Q. }
        change (2 ^ 32) with 4294967296 in *. change (2 ^ 64) with 18446744073709551616.
        rewrite !N.mod_small; lia.
    + destruct SI as [_ SI]. apply (shaped_in_ext r _ _ SI). intros j Hj. unfold self.
      change (zero_flds (FCons (plain_info "SampleCount" 1 32 false) (SUint 32) r)) with
        (("SampleCount", VUint 0) :: zero_flds r). cbn [lookup].
      destruct (String.eqb j "FullBox"); [reflexivity|].
      destruct (String.eqb_spec j "SampleCount") as [->|]; [|reflexivity].
      apply str_in_In in Hj. congruence.
    + destruct S2 as [A1 A2]. split.
      * pose proof (lenN_skipN _ (bits_of_bytes pr) 32) as Q. unfold lenN in *. lia.
      * rewrite lenN_skipN. lia.
  - cbn [orb] in Fb. apply negb_true_iff in Fb.
    assert (NF : ~ In "FullBox" (names_of (bd_flds d))) by (rewrite <- str_in_In; congruence).
    assert (FN : fullbox_of (zero_flds (bd_flds d)) = None).
    { unfold fullbox_of. rewrite lookup_None; [reflexivity|]. now rewrite names_zero. }
    assert (Z : z = zero_flds (bd_flds d)) by (unfold z, set_version; now rewrite FN).
    rewrite Z. clear Z. unfold ts_box in Ts. rewrite FB in Ts.
    assert (Ts' : ts_flds (bd_name d) 0 (bd_name d) true (bd_flds d) = true) by (destruct (bd_flds d); auto).
    clear Ts.
    apply (proj2 (fine_all k (bd_name d) (bd_versions d) ctx 0 0)); auto.
    + cbn [box_of]. unfold get_version. now rewrite FN.
    + cbn [box_of]. unfold get_flags. now rewrite FN.
    + intros _ ET. unfold trun_ok in Tr. rewrite ET, FB in Tr. discriminate.
    + now apply (proj2 zero_shaped).
Qed.
End Strict.
Lemma std_fb : forallb (fun d => full_box d || negb (str_in "FullBox" (names_of (bd_flds d)))) all_defs = true.
Proof. vm_compute. reflexivity. Qed.
