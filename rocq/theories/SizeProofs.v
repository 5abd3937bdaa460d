(** The decoded value is not larger than what was read. *)
From Verif Require Import Base BitIO Schema Structs Methods Registry Marshal Unmarshal SpecCodec
     SpecRoundTrip Decode SpecTotal SpecSize.
From Verif Require Import BaseProofs BitIOProofs BitIOFacts MarshalProofs MarshalCount UnmarshalProofs
     DecodeFacts VersionFacts Causal RoundTripBase RoundTripProofs Shape Total RoundTripMeta.
Local Open Scope string_scope.
Local Open Scope list_scope.
Local Open Scope N_scope.
Local Open Scope dec_scope.
Ltac Zify.zify_post_hook ::= Z.to_euclidean_division_equations.

Lemma elems_str : forall t s, elems t (VStr s) <= lenN s.
Proof. destruct t; intros; cbn [elems]; lia. Qed.
Lemma elems_bool : forall t b, elems t (VBool b) = 0.
Proof. destruct t; reflexivity. Qed.
Lemma sumN_app : forall a b, sumN (a ++ b) = sumN a + sumN b.
Proof. induction a as [|x a IH]; intros b; [reflexivity|]. cbn [app]. change (x + sumN (a ++ b) = x + sumN a + sumN b). rewrite IH. lia. Qed.
Lemma sumN_rev : forall a, sumN (rev a) = sumN a.
Proof.
  induction a as [|x a IH]; [reflexivity|]. cbn [rev]. rewrite sumN_app, IH. change (sumN [x]) with (x + 0).
  change (sumN (x :: a)) with (x + sumN a). lia.
Qed.
Lemma sumN_cons : forall x a, sumN (x :: a) = x + sumN a.
Proof. reflexivity. Qed.


Lemma elems_flds_ext : forall fs l m, (forall j, In j (names_of fs) -> lookup j m = lookup j l) ->
  elems_flds fs m = elems_flds fs l.
Proof.
  induction fs as [|f t r IH]; intros l m H; [reflexivity|].
  change (elems_flds (FCons f t r) ?x) with
    (match lookup (f_name f) x with Some v => elems t v | None => 0 end + elems_flds r x).
  rewrite (H (f_name f)) by (now left). rewrite (IH l m); [reflexivity|]. intros j Hj. apply H. now right.
Qed.
Lemma elems_zero :
  (forall t, nodup_val t = true -> elems t (zero t) = 0) /\
  (forall fs, nodup_names (names_of fs) = true -> nodup_flds fs = true -> elems_flds fs (zero_flds fs) = 0).
Proof.
  apply sty_flds_mutind; try reflexivity.
  - intros n u IH H. cbn [elems zero]. cbn [nodup_val] in H.
    induction (N.to_nat n) as [|k IHk]; [reflexivity|]. cbn [repeat map]. rewrite sumN_cons, IHk, IH by auto. reflexivity.
  - intros name cfo fs IH H. change (nodup_names (names_of fs) && nodup_flds fs = true) in H.
    apply andb_prop in H. destruct H as [H1 H2]. exact (IH H1 H2).
  - intros f t IHt r IHr H1 H2. cbn [names_of nodup_names] in H1.
    change (nodup_val t && nodup_flds r = true) in H2.
    apply andb_prop in H1. destruct H1 as [N1 N2]. apply andb_prop in H2. destruct H2 as [H2 H3].
    change (zero_flds (FCons f t r)) with ((f_name f, zero t) :: zero_flds r).
    change (elems_flds (FCons f t r) ?x) with
      (match lookup (f_name f) x with Some v => elems t v | None => 0 end + elems_flds r x).
    cbn [lookup]. rewrite String.eqb_refl, IHt by auto. rewrite (elems_flds_ext r (zero_flds r)).
    + now apply IHr.
    + intros j Hj. cbn [lookup]. destruct (String.eqb_spec j (f_name f)) as [->|]; [|reflexivity].
      apply str_in_In in Hj. apply negb_true_iff in N1. congruence.
Qed.

Fixpoint type_of (fs : flds) (j : string) : option sty :=
  match fs with FNil => None | FCons f t r => if String.eqb j (f_name f) then Some t else type_of r j end.
Lemma type_of_In : forall fs j t, type_of fs j = Some t -> In j (names_of fs).
Proof.
  induction fs as [|f t r IH]; intros j u H; [discriminate|]. cbn [type_of] in H.
  destruct (String.eqb_spec j (f_name f)) as [->|]; [now left|right; eauto].
Qed.
(** replacing one field *)
Lemma elems_update : forall fs l j x c, nodup_names (names_of fs) = true -> lookup j l = Some c ->
  elems_flds fs (update j x l) + match type_of fs j with Some t => elems t c | None => 0 end =
  elems_flds fs l + match type_of fs j with Some t => elems t x | None => 0 end.
Proof.
  induction fs as [|f t r IH]; intros l j x c H L; [reflexivity|].
  cbn [names_of nodup_names] in H. apply andb_prop in H. destruct H as [H1 H2].
  change (elems_flds (FCons f t r) ?y) with
    (match lookup (f_name f) y with Some v => elems t v | None => 0 end + elems_flds r y).
  cbn [type_of]. destruct (String.eqb_spec j (f_name f)) as [->|Hj].
  - rewrite lookup_update_same by congruence. rewrite L. rewrite (elems_flds_ext r l); [lia|].
    intros i Hi. apply lookup_update_other. intros ->. apply str_in_In in Hi. apply negb_true_iff in H1. congruence.
  - rewrite lookup_update_other by congruence. specialize (IH l j x c H2 L). lia.
Qed.
Lemma elems_update_le : forall fs l j x n, nodup_names (names_of fs) = true ->
  (forall t, elems t x <= n) -> elems_flds fs (update j x l) <= elems_flds fs l + n.
Proof.
  intros fs l j x n H X. destruct (lookup j l) as [c|] eqn:L.
  - pose proof (elems_update fs l j x c H L) as E. destruct (type_of fs j) as [t|]; [specialize (X t); lia|lia].
  - replace (update j x l) with l; [lia|]. clear - L. induction l as [|[k v] l IH]; [reflexivity|].
    cbn [lookup update] in *. destruct (String.eqb j k); [discriminate|]. now rewrite <- IH.
Qed.

(** ** Strings *)
Lemma zstring_size : forall k p b s p' b', d_zstring k (p, b) = Ok (s, (p', b')) -> p + lenN s <= p'.
Proof.
  intros k p b s p' b' H. unfold d_zstring in H. unfold dbind at 1 in H.
  match type of H with match dwhile _ ?body _ _ with _ => _ end = _ => set (bd := body) in H end.
  assert (G : forall j acc p b r p' b', dwhile j bd acc (p, b) = Ok (r, (p', b')) -> p + lenN r <= p' + lenN acc).
  { induction j as [|j IH]; intros acc q c r q' c' E; [discriminate|]. cbn [dwhile] in E. unfold dbind at 1 in E.
    unfold bd at 1 in E. unfold dbind at 1 in E.
    destruct (d_bytes 1 (q, c)) as [[x [p1 b1]]| | |] eqn:EB; try discriminate.
    pose proof (bytes1_shorter _ _ _ _ _ EB) as [_ L1].
    assert (P1 : p1 = q + 8).
    { unfold d_bytes in EB. cbn [fst snd N.eqb] in EB. destruct (q mod 8 =? 0); [|discriminate].
      destruct (_ <=? _); [|destruct (_ =? 0); discriminate]. change (8 * 1) with 8 in EB. now injection EB. }
    destruct x as [|x0 [|y x]]; try discriminate. destruct (b2N x0 =? 0); unfold dret in E.
    - assert (Q : acc = r /\ p1 = q') by (now injection E). destruct Q as [-> ->]. lia.
    - apply IH in E. rewrite lenN_cons in E. lia. }
  destruct (dwhile k bd [] (p, b)) as [[r [p1 b1]]| | |] eqn:E; try discriminate. apply G in E. rewrite lenN_nil in E.
  unfold dret in H. assert (Q : rev r = s /\ p1 = p') by (now injection H). destruct Q as [<- ->].
  unfold lenN in *. rewrite rev_length. lia.
Qed.
Lemma string_size : forall k lim base p b v p' b' t, d_string_c k lim base (p, b) = Ok (v, (p', b')) ->
  p + elems t v <= p'.
Proof.
  intros k lim base p b v p' b' t H. unfold d_string_c in H. unfold dbind at 1 in H.
  match type of H with match dwhile _ ?body _ _ with _ => _ end = _ => set (bd := body) in H end.
  assert (G : forall j acc p b r p' b', dwhile j bd acc (p, b) = Ok (r, (p', b')) -> p + lenN r <= p' + lenN acc).
  { induction j as [|j IH]; intros acc q c r q' c' E; [discriminate|]. cbn [dwhile] in E. unfold dbind at 1 in E.
    unfold bd at 1 in E. unfold dbind at 1, dpos in E. cbn [fst] in E.
    destruct (lim <=? q - base).
    { unfold dret in E. assert (Q : acc = r /\ q = q') by (now injection E). destruct Q as [-> ->]. lia. }
    unfold dbind at 1 in E.
    destruct (d_take 8 (q, c)) as [[x [p1 b1]]| | |] eqn:EB; try discriminate.
    assert (P1 : p1 = q + 8).
    { unfold d_take in EB. cbn [fst snd] in EB. destruct (_ <=? _); [|discriminate]. now injection EB. }
    cbv zeta in E. destruct (_ =? 0); unfold dret in E.
    - assert (Q : acc = r /\ p1 = q') by (now injection E). destruct Q as [-> ->]. lia.
    - apply IH in E. rewrite lenN_cons in E. lia. }
  destruct (dwhile k bd [] (p, b)) as [[r [p1 b1]]| | |] eqn:E; try discriminate. apply G in E. rewrite lenN_nil in E.
  unfold dret in H. assert (Q : VStr (rev r) = v /\ p1 = p') by (now injection H). destruct Q as [<- ->].
  pose proof (elems_str t (rev r)) as X. unfold lenN in *. rewrite rev_length in X. lia.
Qed.
Lemma take_until_nul_len : forall l, lenN (take_until_nul l) <= lenN l.
Proof.
  induction l as [|c l IH]; [cbn; lia|]. cbn [take_until_nul]. destruct (_ =? _); rewrite ?lenN_cons, ?lenN_nil; lia.
Qed.
Lemma hook_size : forall k h ver self left p b ov s1 p' b' fs, nodup_names (names_of fs) = true ->
  d_hook k h ver self left (p, b) = Ok ((ov, s1), (p', b')) ->
  elems_flds fs s1 + p <= elems_flds fs self + p'.
Proof.
  intros k h ver self left p b ov s1 p' b' fs ND H. destruct h; cbn [d_hook] in H.
  - unfold dret in H. assert (Q : self = s1 /\ p = p') by (now injection H). destruct Q as [-> ->]. lia.
  - unfold dret in H. assert (Q : self = s1 /\ p = p') by (now injection H). destruct Q as [-> ->]. lia.
  - destruct (ver =? 0).
    { unfold dret in H. assert (Q : self = s1 /\ p = p') by (now injection H). destruct Q as [-> ->]. lia. }
    unfold dbind in H. destruct (d_zstring k (p, b)) as [[x [p1 b1]]| | |] eqn:E1; try discriminate.
    destruct (d_zstring k (p1, b1)) as [[y [p2 b2]]| | |] eqn:E2; try discriminate.
    apply zstring_size in E1, E2. unfold dret in H.
    match type of H with Ok (_, ?s, (?q, _)) = _ => assert (Q : s = s1 /\ q = p') by (now injection H) end.
    destruct Q as [<- ->].
    pose proof (elems_update_le fs (update "SchemeIdUri" (VStr x) self) "Value" (VStr y) (lenN y) ND (fun t => elems_str t y)) as U1.
    pose proof (elems_update_le fs self "SchemeIdUri" (VStr x) (lenN x) ND (fun t => elems_str t x)) as U2. lia.
  - cbv zeta in H. destruct (left / 8 =? 0).
    { unfold dret in H.
      match type of H with Ok (_, ?s, (?q, _)) = _ => assert (Q : s = s1 /\ q = p') by (now injection H) end.
      destruct Q as [<- ->].
      pose proof (elems_update_le fs self "Name" (VStr []) 0 ND (fun t => elems_str t [])) as U2. lia. }
    set (n := left / 8) in *. clearbody n. unfold dbind in H. unfold d_has in H. cbn [fst snd] in H.
    destruct (_ && _); [|discriminate]. cbn [negb] in H. destruct (_ <=? _); [discriminate|].
    destruct (d_bytes n (p, b)) as [[[|c tl] [p1 b1]]| | |] eqn:EB; try discriminate.
    assert (LB : p + lenN (c :: tl) <= p1).
    { unfold d_bytes in EB. cbn [fst snd] in EB. destruct (p mod 8 =? 0).
      - destruct (N.leb_spec (8 * n) (lenN b)); [|destruct (_ =? 0); discriminate].
        assert (Q : pack (takeN (8 * n) b) = c :: tl /\ p + 8 * n = p1) by (now injection EB). destruct Q as [<- <-].
        assert (L2 : List.length (takeN (8 * n) b) = (8 * N.to_nat n)%nat).
        { pose proof (lenN_takeN _ b (8 * n)). unfold lenN in *. lia. }
        destruct (pack_bits (N.to_nat n) _ L2) as [_ LP]. unfold lenN. rewrite LP. lia.
      - destruct (n =? 0); discriminate. }
    cbv zeta in H. unfold dret in H.
    match type of H with Ok (_, update _ (VStr ?nm) _, (?q, _)) = _ => 
      assert (Q : update "Name" (VStr nm) self = s1 /\ q = p') by (now injection H); set (name := nm) in Q end.
    destruct Q as [<- ->].
    pose proof (elems_update_le fs self "Name" (VStr name) (lenN name) ND (fun t => elems_str t name)) as U2.
    assert (LN : lenN name <= lenN (c :: tl)).
    { unfold name. match goal with |- lenN (if ?c then _ else _) <= _ => destruct c end.
      - rewrite lenN_takeN, lenN_cons. lia.
      - apply take_until_nul_len. }
    lia.
  - unfold dret in H.
    match type of H with Ok (_, update _ ?nm _, (?q, _)) = _ => 
      assert (Q : update "HighProfileFieldsEnabled" nm self = s1 /\ q = p') by (now injection H); set (name := nm) in Q end.
    destruct Q as [<- ->].
    pose proof (elems_update_le fs self "HighProfileFieldsEnabled" name 0 ND) as U2.
    assert (X : forall t, elems t name <= 0) by (intros t; unfold name; rewrite elems_bool; lia). specialize (U2 X). lia.
Qed.

Lemma flat_zero :
  (forall t, flat_val t = true -> forall v, elems t v = 0) /\
  (forall fs, flat_flds fs = true -> forall l, elems_flds fs l = 0).
Proof.
  apply sty_flds_mutind; try discriminate; try reflexivity; try (intros; destruct v; reflexivity).
  - intros n u IH H v. cbn [flat_val] in H. destruct v as [| | | |l| |]; try reflexivity. cbn [elems].
    induction l as [|x l IHl]; [reflexivity|]. cbn [map]. rewrite sumN_cons, IHl, IH by auto. reflexivity.
  - intros name cfo fs IH H v. change (flat_flds fs = true) in H. destruct v as [| | | | | |l]; try reflexivity.
    exact (IH H l).
  - intros f t IHt r IHr H l. change (flat_val t && flat_flds r = true) in H. apply andb_prop in H. destruct H as [H1 H2].
    change (elems_flds (FCons f t r) l) with
      (match lookup (f_name f) l with Some v => elems t v | None => 0 end + elems_flds r l).
    rewrite IHr by auto. destruct (lookup (f_name f) l); [rewrite IHt by auto|]; reflexivity.
Qed.

Section Size.
  Variables (k : nat) (rname : string) (versions : list N) (ctx : context) (ver flags : N).

  Definition pr1 (b : bool) : N := if b then 1 else 0.
  Definition exc_sz (ex : bool) (size : N) : Prop := ex = true -> size <> 0 /\ size mod 8 = 0.

  Definition EV (t : sty) : Prop := forall rt lim base f size len ex cur p b v p' b',
    get_flags rt = flags -> ts_val rname ver ex f t = true -> nodup_val t = true ->
    no_cp_val t = true -> f_cp f = false -> ht_val t = true -> exc_sz ex size -> shaped t cur ->
    dec_val k rname versions ctx rt lim base f size len t cur (p, b) = Ok (v, (p', b')) ->
    p + elems t v + pr1 (prog_val rname f t) <= p' + elems t cur.

  Definition EF (fs : flds) : Prop := forall rt lim base sname cfo all selfd self p b p' b',
    get_flags (box_of rt selfd) = flags ->
    (rt = None -> ~ In "FullBox" (names_of fs)) ->
    ts_flds rname ver sname cfo fs = true -> nodup_names (names_of fs) = true -> nodup_flds fs = true ->
    no_cp_flds fs = true -> ht_flds fs = true -> nodup_names (names_of all) = true ->
    (forall j, In j (names_of fs) -> type_of all j = type_of fs j) ->
    ((if cfo then sname else rname) = "Trun" -> In "Entries" (names_of fs) -> N.land flags 3840 <> 0) ->
    shaped_in fs selfd ->
    dec_flds k rname versions ctx rt lim base sname cfo selfd fs (p, b) = Ok (self, (p', b')) ->
    p + elems_flds all self + pr1 (prog_flds rname sname cfo fs) <= p' + elems_flds all selfd.

  Lemma size_map : forall u, EV u -> forall rt lim base f size len,
    get_flags rt = flags -> ts_val rname ver false f u = true -> nodup_val u = true ->
    no_cp_val u = true -> f_cp f = false -> ht_val u = true ->
    forall l p b xs p' b', Forall (shaped u) l ->
    d_map (dec_val k rname versions ctx rt lim base f size len u) l (p, b) = Ok (xs, (p', b')) ->
    p + sumN (map (elems u) xs) + lenN l * pr1 (prog_val rname f u) <= p' + sumN (map (elems u) l).
  Proof.
    intros u HV rt lim base f size len Gf Ts Nd Nc Fc Ht.
    induction l as [|c l IH]; intros p b xs p' b' S H; cbn [d_map] in H.
    - unfold dret in H. assert (Q : [] = xs /\ p = p') by (now injection H). destruct Q as [<- <-].
      cbn [map]. rewrite lenN_nil. lia.
    - inversion S; subst. unfold dbind in H.
      destruct (dec_val _ _ _ _ _ _ _ _ _ _ _ _ _) as [[x [p1 b1]]| | |] eqn:E1; try discriminate.
      destruct (d_map _ l (p1, b1)) as [[ys [p2 b2]]| | |] eqn:E2; try discriminate.
      unfold dret in H. assert (Q : x :: ys = xs /\ p2 = p') by (now injection H). destruct Q as [<- <-].
      apply (HV rt lim base f size len false c) in E1; auto; [|discriminate]. apply IH in E2; auto.
      cbn [map]. rewrite !sumN_cons, lenN_cons. unfold pr1 in *. destruct (prog_val rname f u); lia.
  Qed.

  Lemma size_all : (forall t, EV t) /\ (forall fs, EF fs).
  Proof.
    apply sty_flds_mutind.
    - intros w rt lim base f size len ex cur p b v p' b' Gf Ts Nd Nc Fc Ht X S H.
      pose proof (dec_mono_val _ _ _ _ _ _ _ _ _ _ _ _ _ _ _ _ _ Nc Fc H) as (M & _).
      assert (E : elems (SUint w) v = 0) by (destruct v; reflexivity). rewrite E.
      destruct (prog_val rname f (SUint w)) eqn:P; cbn [pr1]; [|lia].
      apply (proj1 (progress k rname versions ctx)) in H; auto. lia.
    - intros w rt lim base f size len ex cur p b v p' b' Gf Ts Nd Nc Fc Ht X S H.
      pose proof (dec_mono_val _ _ _ _ _ _ _ _ _ _ _ _ _ _ _ _ _ Nc Fc H) as (M & _).
      assert (E : elems (SInt w) v = 0) by (destruct v; reflexivity). rewrite E.
      destruct (prog_val rname f (SInt w)) eqn:P; cbn [pr1]; [|lia].
      apply (proj1 (progress k rname versions ctx)) in H; auto. lia.
    - intros rt lim base f size len ex cur p b v p' b' Gf Ts Nd Nc Fc Ht X S H.
      pose proof (dec_mono_val _ _ _ _ _ _ _ _ _ _ _ _ _ _ _ _ _ Nc Fc H) as (M & _).
      assert (E : elems SBool v = 0) by (destruct v; reflexivity). rewrite E.
      destruct (prog_val rname f SBool) eqn:P; cbn [pr1]; [|lia].
      apply (proj1 (progress k rname versions ctx)) in H; auto. lia.
    - intros rt lim base f size len ex cur p b v p' b' Gf Ts Nd Nc Fc Ht X S H.
      cbn [dec_val] in H. unfold d_string in H. rewrite Fc in H. apply (string_size _ _ _ _ _ _ _ _ SStr) in H.
      cbn [prog_val pr1]. lia.
    - (* array *)
      intros n u HV rt lim base f size len ex cur p b v p' b' Gf Ts Nd Nc Fc Ht X S H.
      cbn [dec_val ts_val nodup_val no_cp_val ht_val prog_val] in *. destruct S as (l & -> & L & S).
      unfold dbind in H. destruct (d_map _ l (p, b)) as [[xs [p1 b1]]| | |] eqn:E; try discriminate.
      unfold dret in H. assert (Q : VList xs = v /\ p1 = p') by (now injection H). destruct Q as [<- <-].
      apply (size_map u HV) in E; auto. cbn [elems]. rewrite L in E.
      unfold pr1 in *. destruct (N.eqb_spec n 0); cbn [negb andb]; [lia|]. destruct (prog_val rname f u); lia.
    - (* slice *)
      intros u HV rt lim base f size len ex cur p b v p' b' Gf Ts Nd Nc Fc Ht X S H. rewrite dec_slice_eq in H.
      cbn [ts_val nodup_val no_cp_val ht_val prog_val pr1] in *. apply andb_prop in Ts. destruct Ts as [Tp Ts].
      rewrite N.add_0_r. enough (p + elems (SSlice u) v <= p') by lia.
      unfold dbind at 1, dpos at 1 in H. cbn [fst] in H. cbv zeta in H.
      match type of H with (if ?c then _ else _) _ = _ => destruct c end; [discriminate|].
      match type of H with (if ?c then _ else _) _ = _ => destruct c eqn:U8 end.
      { match type of H with context [d_has ?n] => set (total := n) in * end.
        unfold dbind at 1, d_has in H. cbn [fst snd] in H.
        match type of H with (if negb ?c then _ else _) _ = _ => destruct c; [cbn [negb] in H|discriminate] end.
        destruct (maxAlloc <=? total); [discriminate|].
        unfold dbind in H. destruct (d_bytes total (p, b)) as [[buf [p1 b1]]| | |] eqn:EB; try discriminate.
        unfold dret in H. assert (Q : bytes_val buf = v /\ p1 = p') by (now injection H). destruct Q as [<- <-].
        apply andb_prop in U8. destruct U8 as [U8 _]. apply andb_prop in U8. destruct U8 as [_ U8].
        apply is_u8_inv in U8. subst u. unfold bytes_val. cbn [elems].
        assert (Z : forall l : list byte, sumN (map (elems (SUint 8)) (map (fun b => VUint (b2N b)) l)) = 0).
        { induction l as [|y l IH]; [reflexivity|]. cbn [map]. rewrite sumN_cons, IH. reflexivity. }
        rewrite Z. unfold lenN at 1. rewrite map_length. fold (lenN buf).
        unfold d_bytes in EB. cbn [fst snd] in EB. destruct (p mod 8 =? 0).
        - destruct (N.leb_spec (8 * total) (lenN b)); [|destruct (lenN b =? 0); discriminate].
          assert (Q : pack (takeN (8 * total) b) = buf /\ p + 8 * total = p1) by (now injection EB). destruct Q as [<- <-].
          assert (L2 : List.length (takeN (8 * total) b) = (8 * N.to_nat total)%nat).
          { pose proof (lenN_takeN _ b (8 * total)). unfold lenN in *. lia. }
          destruct (pack_bits (N.to_nat total) _ L2) as [_ LP]. unfold lenN. rewrite LP. lia.
        - destruct (total =? 0); [|discriminate].
          assert (Q : [] = buf /\ p = p1) by (now injection EB). destruct Q as [<- <-]. rewrite lenN_nil. lia. }
      assert (EL : forall acc q c x q' c', elem k rname versions ctx rt lim base f size len u acc (q, c) = Ok (x, (q', c')) ->
                exists y, x = y :: acc /\ q + 1 + elems u y <= q').
      { intros acc q c x q' c' E. pose proof E as E0. unfold elem, dbind, dpos in E.
        destruct (dec_val _ _ _ _ _ _ _ _ _ _ _ _ _) as [[y [p2 b2]]| | |] eqn:ED; try discriminate. cbn [fst] in E.
        destruct (lim <? p2 - base); [discriminate|]. unfold dret in E.
        assert (Q : y :: acc = x /\ p2 = q') by (now injection E). destruct Q as [<- ->]. exists y. split; [reflexivity|].
        pose proof (proj1 elems_zero u Nd) as Z.
        pose proof (proj1 zero_shaped u Nd) as SZ.
        apply orb_prop in Tp. destruct Tp as [Tp|Tp].
        - apply (HV rt lim base f size len false (zero u)) in ED; auto; [|discriminate].
          rewrite Tp in ED. cbn [pr1] in ED. lia.
        - apply andb_prop in Tp. destruct Tp as [-> Tp]. destruct (X eq_refl) as [X1 X2].
          destruct u as [| | | | | | |nm cf fs]; try discriminate.
          rewrite (proj1 flat_zero (SStruct nm cf fs) Tp).
          change (zero (SStruct nm cf fs)) with (VStruct (zero_flds fs)) in ED. rewrite dec_val_struct in ED.
          apply N.eqb_neq in X1. rewrite X1, X2 in ED. cbn [negb andb N.eqb] in ED.
          unfold dbind, dpos in ED. cbn [fst] in ED.
          destruct (dec_flds _ _ _ _ _ _ _ _ _ _ _ _) as [[z [p2 b3]]| | |]; try discriminate. cbn [fst] in ED.
          destruct (N.eqb_spec (p2 - q) size) as [Q|]; [|discriminate].
          assert (p2 = q') by (now injection ED). apply N.eqb_neq in X1. lia. }
      assert (FIN : forall xs q, p + (lenN xs + sumN (map (elems u) xs)) <= q ->
                p + elems (SSlice u) (VList (rev xs)) <= q).
      { intros xs q Q. cbn [elems]. rewrite map_rev, sumN_rev. unfold lenN in *. rewrite rev_length. exact Q. }
      unfold dbind at 1 in H. destruct (len =? LengthUnlimited).
      + match type of H with match dwhile _ ?body _ _ with _ => _ end = _ => set (bd := body) in H end.
        assert (G : forall j acc q c xs q' c', dwhile j bd acc (q, c) = Ok (xs, (q', c')) ->
                  q + (lenN xs + sumN (map (elems u) xs)) <= q' + (lenN acc + sumN (map (elems u) acc))).
        { induction j as [|j IH]; intros acc q c xs q' c' E; [discriminate|]. cbn [dwhile] in E. unfold dbind at 1 in E.
          unfold bd at 1 in E. unfold dbind at 1, dpos in E. cbn [fst] in E.
          destruct (lim <=? q - base).
          { unfold dret in E. assert (Q : acc = xs /\ q = q') by (now injection E). destruct Q as [-> ->]. lia. }
          unfold dbind at 1 in E.
          destruct (elem _ _ _ _ _ _ _ _ _ _ _ _ _) as [[ac [p2 b2]]| | |] eqn:EE; try discriminate. unfold dret in E.
          apply EL in EE. destruct EE as (y & -> & EE). apply IH in E. cbn [map] in E. rewrite lenN_cons, sumN_cons in E. lia. }
        destruct (dwhile k bd [] (p, b)) as [[xs [p1 b1]]| | |] eqn:E; try discriminate. apply G in E.
        rewrite lenN_nil in E. change (sumN (map (elems u) [])) with 0 in E.
        unfold dret in H. assert (Q : VList (rev xs) = v /\ p1 = p') by (now injection H). destruct Q as [<- <-].
        apply FIN. lia.
      + assert (G : forall j acc q c xs q' c', dloop j (elem k rname versions ctx rt lim base f size len u) acc (q, c) = Ok (xs, (q', c')) ->
                  q + (lenN xs + sumN (map (elems u) xs)) <= q' + (lenN acc + sumN (map (elems u) acc))).
        { induction j as [|j IH]; intros acc q c xs q' c' E; cbn [dloop] in E.
          { unfold dret in E. assert (Q : acc = xs /\ q = q') by (now injection E). destruct Q as [-> ->]. lia. }
          unfold dbind at 1 in E.
          destruct (elem _ _ _ _ _ _ _ _ _ _ _ _ _) as [[ac [p2 b2]]| | |] eqn:EE; try discriminate.
          apply EL in EE. destruct EE as (y & -> & EE). apply IH in E. cbn [map] in E. rewrite lenN_cons, sumN_cons in E. lia. }
        destruct (dloop _ _ _ _) as [[xs [p1 b1]]| | |] eqn:E; try discriminate. apply G in E.
        rewrite lenN_nil in E. change (sumN (map (elems u) [])) with 0 in E.
        unfold dret in H. assert (Q : VList (rev xs) = v /\ p1 = p') by (now injection H). destruct Q as [<- <-].
        apply FIN. lia.
    - (* pointer *)
      intros u HV rt lim base f size len ex cur p b v p' b' Gf Ts Nd Nc Fc Ht X S H.
      cbn [dec_val ts_val nodup_val no_cp_val ht_val prog_val] in *. unfold dbind in H.
      destruct (dec_val _ _ _ _ _ _ _ _ _ _ _ _ _) as [[x [p1 b1]]| | |] eqn:E; try discriminate.
      unfold dret in H. assert (Q : VPtr (Some x) = v /\ p1 = p') by (now injection H). destruct Q as [<- <-].
      apply (HV rt lim base f size len false) in E; auto; [|discriminate|now apply (proj1 zero_shaped)].
      rewrite (proj1 elems_zero u Nd) in E. cbn [elems]. lia.
    - (* struct *)
      intros name cfo fs HF rt lim base f size len ex cur p b v p' b' Gf Ts Nd Nc Fc Ht X S H.
      change (negb (str_in "Entries" (names_of fs) && String.eqb (if cfo then name else rname) "Trun") &&
              ts_flds rname ver name cfo fs = true) in Ts.
      apply andb_prop in Ts. destruct Ts as [Te Ts].
      change (nodup_names (names_of fs) && nodup_flds fs = true) in Nd.
      apply andb_prop in Nd. destruct Nd as [N1 N2]. change (no_cp_flds fs = true) in Nc.
      change (ht_flds fs = true) in Ht. destruct S as (l & -> & Kl & Sl & _). rewrite dec_val_struct in H.
      assert (NG : (if cfo then name else rname) = "Trun" -> In "Entries" (names_of fs) -> N.land flags 3840 <> 0).
      { intros E I1. apply str_in_In in I1. rewrite I1, E in Te. discriminate. }
      clear Te.
      change (prog_val rname f (SStruct name cfo fs)) with (prog_flds rname name cfo fs).
      assert (G : forall lim base x p1 b1,
        dec_flds k rname versions ctx (Some rt) lim base name cfo l fs (p, b) = Ok (x, (p1, b1)) ->
        p + elems (SStruct name cfo fs) (VStruct x) + pr1 (prog_flds rname name cfo fs) <=
        p1 + elems (SStruct name cfo fs) (VStruct l)).
      { intros lim' base' x p1 b1 E. apply (HF (Some rt) lim' base' name cfo fs l x p b p1 b1); auto. discriminate. }
      destruct (negb (size =? 0) && (size mod 8 =? 0)).
      + unfold dbind at 1, dpos at 1 in H. cbn [fst] in H. unfold dbind at 1 in H.
        destruct (dec_flds _ _ _ _ _ _ _ _ _ _ _ _) as [[x [p1 b1]]| | |] eqn:E; try discriminate.
        apply G in E. unfold dbind, dpos in H. cbn [fst] in H. destruct (_ =? _); [|discriminate]. unfold dret in H.
        assert (Q : VStruct x = v /\ p1 = p') by (now injection H). destruct Q as [<- <-]. exact E.
      + unfold dbind in H.
        destruct (dec_flds _ _ _ _ _ _ _ _ _ _ _ _) as [[x [p1 b1]]| | |] eqn:E; try discriminate.
        apply G in E. unfold dret in H.
        assert (Q : VStruct x = v /\ p1 = p') by (now injection H). destruct Q as [<- <-]. exact E.
    - intros rt lim base sname cfo all selfd self p b p' b' Gf Fb Ts N1 N2 Nc Ht Na Ty G S H.
      assert (Q : selfd = self /\ p = p') by (now injection H). destruct Q as [-> ->]. cbn [prog_flds pr1]. lia.
    - intros f t HV rest HF rt lim base sname cfo all selfd self p b p' b' Gf Fb Ts N1 N2 Nc Ht Na Ty G S H.
      rewrite dec_flds_step in H. cbv zeta in H.
      change (let cn := if cfo then sname else rname in
        (negb (f_sizeDyn f) || msafe ver (m_size cn (f_name f))) &&
        (negb (f_lenDyn f) || msafe ver (m_len cn (f_name f))) &&
        (negb (is_entries cn (f_name f)) || (f_sizeDyn f && f_lenDyn f && cfo)) &&
        ts_val rname ver (is_entries cn (f_name f)) f t && ts_flds rname ver sname cfo rest = true) in Ts. cbv zeta in Ts.
      change (prog_flds rname sname cfo (FCons f t rest)) with
        (uncond f && no_hook (if cfo then sname else rname) (f_name f) && prog_val rname f t || prog_flds rname sname cfo rest).
      set (cn := if cfo then sname else rname) in *. set (root := box_of rt selfd) in *.
      set (env := if cfo then mkenv selfd (get_version root) (get_flags root) ctx
                  else mkenv root (get_version root) (get_flags root) ctx) in *.
      apply andb_prop in Ts. destruct Ts as [Ts T5]. apply andb_prop in Ts. destruct Ts as [Ts T4].
      apply andb_prop in Ts. destruct Ts as [Ts T3]. clear Ts.
      cbn [names_of nodup_names] in N1. apply andb_prop in N1. destruct N1 as [N0 N1].
      change (nodup_val t && nodup_flds rest = true) in N2. apply andb_prop in N2. destruct N2 as [N2 N3].
      change (negb (f_cp f) && no_cp_val t && no_cp_flds rest = true) in Nc.
      apply andb_prop in Nc. destruct Nc as [Nc Nr].
      apply andb_prop in Nc. destruct Nc as [Nf Nt]. apply negb_true_iff in Nf.
      change ((negb (str_in (f_name f) hook_targets) || trivial_shape t) && ht_val t && ht_flds rest = true) in Ht.
      apply andb_prop in Ht. destruct Ht as [Ht H3]. apply andb_prop in Ht. destruct Ht as [H1 H2].
      destruct S as [(c & Lc & Sc) Sr].
      assert (Ef : e_flags env = flags) by (unfold env; destruct cfo; cbn; auto).
      destruct (resolve_size cn env f) as [size|] eqn:RS; [|discriminate].
      destruct (resolve_len cn env f) as [len|] eqn:RL; [|discriminate].
      assert (EX : exc_sz (is_entries cn (f_name f)) size).
      { intros IE. rewrite IE in T3. cbn [negb orb] in T3. apply andb_prop in T3. destruct T3 as [T3 Tc].
        apply andb_prop in T3. destruct T3 as [Tz Tl]. unfold is_entries in IE. apply andb_prop in IE.
        destruct IE as [I1 I2]. apply String.eqb_eq in I1, I2.
        unfold resolve_size in RS. rewrite Tz, I1, I2 in RS. apply trun_entry_size in RS; [exact RS|].
        rewrite Ef. apply G; [exact I1|left; exact I2]. }
      unfold dbind at 1 in H.
      destruct (dec_step k rname versions ctx rt lim base sname cfo selfd f t size len (p, b)) as [[s1 [p1 b1]]| | |] eqn:ES;
        try discriminate.
      assert (ST : p + elems_flds all s1 + pr1 (uncond f && no_hook cn (f_name f) && prog_val rname f t) <= p1 + elems_flds all selfd).
      { unfold dec_step in ES. cbv zeta in ES. fold root cn env in ES.
        destruct (uncond f) eqn:UC.
        1: rewrite uncond_target in ES by auto.
        2: destruct (is_target _ _ _ _ _).
        3:{ unfold dret in ES. assert (Q : selfd = s1 /\ p = p1) by (now injection ES). destruct Q as [-> ->]. cbn. lia. }
        all: unfold dbind at 1, dpos at 1 in ES; cbn [fst] in ES; unfold dbind at 1 in ES;
          destruct (d_hook _ _ _ _ _ _) as [[[ov s2] [p2 b2]]| | |] eqn:EH; try discriminate;
          pose proof (hook_size _ _ _ _ _ _ _ _ _ _ _ all Na EH) as HS;
          pose proof (hook_frame _ _ _ _ _ _ _ _ _ EH) as [F1 F2];
          destruct ov.
        1,3: unfold dret in ES; assert (Q : s2 = s1 /\ p2 = p1) by (now injection ES); destruct Q as [-> ->];
          unfold no_hook; destruct (hook_of cn (f_name f)); cbn [d_hook andb] in *; cbn [pr1]; try lia;
          unfold dret in EH; discriminate.
        all: assert (SC : exists c1, lookup (f_name f) s2 = Some c1 /\ shaped t c1) by
          (destruct (str_in (f_name f) hook_targets) eqn:Hs;
           [cbn [negb orb] in H1; specialize (F2 (f_name f)); rewrite Lc in F2;
            destruct (lookup (f_name f) s2) as [c'|]; [|exfalso; now apply F2];
            exists c'; split; [reflexivity|]; destruct t; try discriminate; exact I
           |exists c; split; [|exact Sc]; rewrite F1; [exact Lc|]; rewrite <- str_in_In; congruence]);
          destruct SC as (c1 & L1 & S1); rewrite L1 in ES; unfold dbind at 1 in ES;
          destruct (dec_val _ _ _ _ _ _ _ _ _ _ _ _ _) as [[x [p3 b3]]| | |] eqn:ED; try discriminate;
          cbv zeta in ES;
          match type of ES with (if ?c then _ else _) _ = _ => destruct c; [discriminate|] end;
          unfold dret in ES;
          assert (Q : update (f_name f) x s2 = s1 /\ p3 = p1) by (now injection ES); destruct Q as [<- <-];
          assert (FBs : lookup "FullBox" s2 = lookup "FullBox" selfd) by
            (apply F1; cbn; intros [Q|[Q|[Q|[Q|[]]]]]; discriminate);
          assert (Gf2 : get_flags (box_of rt s2) = flags) by
            (destruct rt as [rd|]; cbn [box_of] in *; [exact Gf|]; unfold get_flags, fullbox_of in *; rewrite FBs; exact Gf);
          pose proof (HV (box_of rt s2) lim base f size len (is_entries cn (f_name f)) c1 p2 b2 x p3 b3 Gf2 T4 N2 Nt Nf H2 EX S1 ED) as SV;
          pose proof (elems_update all s2 (f_name f) x c1 Na L1) as UP;
          rewrite (Ty (f_name f)) in UP by (now left); cbn [type_of] in UP; rewrite String.eqb_refl in UP;
          unfold pr1 in *; destruct (no_hook cn (f_name f)), (prog_val rname f t); cbn [andb] in *; lia. }
      destruct (step_frame _ _ _ _ _ _ _ _ _ _ _ _ _ _ _ _ _ ES) as [F1 F2].
      assert (FBs : rt = None -> lookup "FullBox" s1 = lookup "FullBox" selfd).
      { intros ->. apply F1.
        - intros E. apply (Fb eq_refl). left. now symmetry.
        - cbn. intros [Q|[Q|[Q|[Q|[]]]]]; discriminate. }
      assert (RE : p1 + elems_flds all self + pr1 (prog_flds rname sname cfo rest) <= p' + elems_flds all s1).
      { apply (HF rt lim base sname cfo all s1 self p1 b1 p' b'); auto.
        + destruct rt as [rd|]; cbn [box_of] in *; [exact Gf|]. unfold get_flags, fullbox_of in *. rewrite FBs by reflexivity. exact Gf.
        + intros E I1. apply (Fb E). now right.
        + intros j Hj. rewrite Ty by (now right). cbn [type_of].
          destruct (String.eqb_spec j (f_name f)) as [->|]; [|reflexivity].
          apply negb_true_iff in N0. apply str_in_In in Hj. congruence.
        + intros E I1. apply G; [exact E|now right].
        + apply (shaped_in_step rest selfd); auto. intros j Hj. apply F1. intros ->.
          apply negb_true_iff in N0. apply str_in_In in Hj. congruence. }
      unfold pr1 in *. destruct (uncond f && no_hook cn (f_name f) && prog_val rname f t), (prog_flds rname sname cfo rest); cbn [orb]; lia.
  Qed.
End Size.

Lemma type_of_fb : forall r j, ~ In "FullBox" (names_of r) -> In j (names_of r) ->
  type_of (FCons (plain_info "FullBox" 0 0 true) fb_ty r) j = type_of r j.
Proof.
  intros r j N I1. cbn [type_of f_name plain_info]. destruct (String.eqb_spec j "FullBox") as [->|]; [contradiction|reflexivity].
Qed.
Lemma elems_fb : forall f r l, elems_flds (FCons f fb_ty r) l = elems_flds r l.
Proof.
  intros f r l. change (elems_flds (FCons f fb_ty r) l) with
    (match lookup (f_name f) l with Some v => elems fb_ty v | None => 0 end + elems_flds r l).
  destruct (lookup (f_name f) l) as [v|]; [|reflexivity].
  rewrite (proj1 flat_zero fb_ty eq_refl v). reflexivity.
Qed.

Lemma decode_size : forall k d size ctx payload x n,
  ts_box d = true -> ht_flds (bd_flds d) = true -> trun_ok d = true ->
  nodup_names (names_of (bd_flds d)) && nodup_flds (bd_flds d) = true ->
  full_box d || negb (str_in "FullBox" (names_of (bd_flds d))) = true ->
  no_cp_flds (bd_flds d) = true ->
  implb (String.eqb (bd_name d) "Meta") (is_fb1 (bd_flds d)) = true ->
  (bd_name d = "Trun" -> trun_has_fields payload = true) ->
  decode k d size ctx (zero_flds (bd_flds d)) (bits_of_bytes payload) = Ok (x, n) ->
  elems_flds (bd_flds d) x <= 8 * n.
Proof.
  intros k d size ctx payload x n Ts Ht Tr Nd Fb Nc Me NT H.
  pose proof Nd as Nd0. apply andb_prop in Nd. destruct Nd as [Nn Nd].
  unfold decode in H. set (z := set_version anyVersion (zero_flds (bd_flds d))) in *.
  assert (H1 : is_fb1 (bd_flds d) = true \/ exists p r, dec_flds k (bd_name d) (bd_versions d) ctx None (w64 (size * 8)) 0 (bd_name d) true z
                      (bd_flds d) (0, bits_of_bytes payload) = Ok (x, (p, r)) /\ p mod 8 = 0 /\ n = p / 8).
  { unfold d_before in H. destruct (String.eqb (bd_name d) "Meta"); [left; exact Me|right].
    destruct (dec_flds _ _ _ _ _ _ _ _ _ _ _ _) as [[x1 [p r]]| | |] eqn:E; try discriminate.
    destruct (N.eqb_spec (p mod 8) 0); [cbn [negb] in H|discriminate].
    match type of H with (if ?c then _ else _) = _ => destruct c; [discriminate|] end.
    assert (Q : x1 = x /\ p / 8 = n) by (now injection H). destruct Q as [-> <-]. eauto. }
  clear H. destruct H1 as [H1|(p & r0 & H & P8 & ->)].
  { unfold is_fb1 in H1. apply (proj2 sty_eqb_eq) in H1. rewrite H1, elems_fb. cbn [elems_flds]. lia. }
  enough (G : 0 + elems_flds (bd_flds d) x <= p + 0) by lia. clear P8.
  destruct (full_box d) eqn:FB.
  - destruct (full_box_inv d FB) as (r & E & NF & HH). rewrite field_names_of in NF.
    pose proof (set_version_fb d r E) as Z. fold z in Z. rewrite Z in H.
    destruct (N.ltb_spec (lenN (bits_of_bytes payload)) 32) as [L|L].
    { exfalso. rewrite E in H. rewrite dec_flds_cons in H. cbv zeta in H.
      rewrite plain_size, plain_len, plain_target in H. cbn [f_name plain_info] in H. rewrite HH in H.
      unfold dbind at 1 in H. unfold dbind at 1 in H. unfold dpos at 1 in H. cbn [d_hook] in H. unfold dbind at 1, dret at 1 in H.
      match type of H with context [lookup "FullBox" (?x :: ?l)] =>
        change (lookup "FullBox" (x :: l)) with (Some (snd x)) in H end. cbv iota in H. cbn [snd] in H.
      unfold dbind at 1 in H.
      match type of H with context [dec_val ?k ?a ?b ?c ?rt ?l ?ba ?f ?s ?ln ?t ?cu ?st] =>
        destruct (fb_short k a b c rt l ba f ln (VUint 255) (VUint 0) (VUint 0) (VUint 0) st L) as [e Ee] end.
      rewrite Ee in H. discriminate. }
    assert (exists v a b c pr, payload = v :: a :: b :: c :: pr) as (v & a & b & c & pr & ->).
    { rewrite lenN_bits_of_bytes in L.
      destruct payload as [|v [|a [|b [|c pr]]]]; rewrite ?lenN_cons, ?lenN_nil in L; try lia. now exists v, a, b, c, pr. }
    change (v :: a :: b :: c :: pr) with ([v; a; b; c] ++ pr) in *.
    rewrite bits_of_bytes_app in *. rewrite (decode_full_box k d r) in H by auto.
    destruct (version_in (bd_versions d) (b2N v)) eqn:VI; [|discriminate].
    unfold ts_box in Ts. rewrite FB, E in Ts. rewrite forallb_forall in Ts. specialize (Ts _ (ver_list_in _ _ VI)).
    rewrite E in Ht, Nn, Nd, Nc. pose proof Nn as Nall. cbn [names_of nodup_names] in Nn. apply andb_prop in Nn. destruct Nn as [Nn1 Nn2].
    change (nodup_val fb_ty && nodup_flds r = true) in Nd. apply andb_prop in Nd. destruct Nd as [_ Nd].
    change (no_cp_flds r = true) in Nc. change (ht_flds r = true) in Ht.
    set (self := ("FullBox", fb_val v a b c) :: zero_flds r) in *.
    assert (SE : forall j, In j (names_of r) -> lookup j self = lookup j (zero_flds r)).
    { intros j Hj. unfold self. cbn [lookup]. destruct (String.eqb_spec j "FullBox") as [->|]; [contradiction|reflexivity]. }
    assert (SI : shaped_in r self).
    { apply (shaped_in_ext r (zero_flds r)); [now apply (proj2 zero_shaped)|exact SE]. }
    set (fl := flags_of_bytes [VUint (b2N a); VUint (b2N b); VUint (b2N c)]).
    assert (G : 32 + elems_flds (FCons (plain_info "FullBox" 0 0 true) fb_ty r) x + pr1 (prog_flds (bd_name d) (bd_name d) true r)
                <= p + elems_flds (FCons (plain_info "FullBox" 0 0 true) fb_ty r) self).
    { eapply (proj2 (size_all k (bd_name d) (bd_versions d) ctx (b2N v) fl)); try exact H; auto.
      - intros j Hj. now apply type_of_fb.
      - intros ET _. specialize (NT ET). cbn [app trun_has_fields] in NT. unfold fl. rewrite flags_3840.
        destruct (N.eqb_spec (N.land (b2N b) 15) 0); [discriminate|lia]. }
    rewrite E. rewrite elems_fb in *. rewrite elems_fb in G.
    rewrite (elems_flds_ext r (zero_flds r) self SE), (proj2 elems_zero r Nn2 Nd) in G. lia.
  - cbn [orb] in Fb. apply negb_true_iff in Fb.
    assert (NF : ~ In "FullBox" (names_of (bd_flds d))) by (rewrite <- str_in_In; congruence).
    assert (FN : fullbox_of (zero_flds (bd_flds d)) = None).
    { unfold fullbox_of. rewrite lookup_None; [reflexivity|]. now rewrite names_zero. }
    assert (Z : z = zero_flds (bd_flds d)) by (unfold z, set_version; now rewrite FN).
    rewrite Z in H. clear Z. unfold ts_box in Ts. rewrite FB in Ts.
    assert (Ts' : ts_flds (bd_name d) 0 (bd_name d) true (bd_flds d) = true) by (destruct (bd_flds d); auto).
    clear Ts.
    assert (G : 0 + elems_flds (bd_flds d) x + pr1 (prog_flds (bd_name d) (bd_name d) true (bd_flds d))
                <= p + elems_flds (bd_flds d) (zero_flds (bd_flds d))).
    { eapply (proj2 (size_all k (bd_name d) (bd_versions d) ctx 0 0)); try exact H; auto.
      + cbn [box_of]. unfold get_flags. now rewrite FN.
      + intros ET. unfold trun_ok in Tr. rewrite ET, FB in Tr. discriminate.
      + now apply (proj2 zero_shaped). }
    rewrite (proj2 elems_zero _ Nn Nd) in G. lia.
Qed.
