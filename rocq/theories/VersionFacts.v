(** The FullBox header: what decoding makes of the version byte. *)
From Verif Require Import Base BitIO Schema Structs Methods Registry Marshal Unmarshal SpecCodec Decode.
From Verif Require Import BaseProofs BitIOProofs MarshalProofs MarshalCount UnmarshalProofs DecodeFacts.
Local Open Scope string_scope.
Local Open Scope list_scope.
Local Open Scope N_scope.
Local Open Scope dec_scope.
Ltac Zify.zify_post_hook ::= Z.to_euclidean_division_equations.

(** ** association lists *)
Lemma lookup_update_other : forall k k' x l, k <> k' -> lookup k (update k' x l) = lookup k l.
Proof.
  intros k k' x l Hk. induction l as [|[n v] l IH]; [reflexivity|]. cbn [update].
  destruct (String.eqb_spec k' n) as [->|]; cbn [lookup].
  - destruct (String.eqb_spec k n); [contradiction|]. reflexivity.
  - destruct (String.eqb k n); auto.
Qed.
Lemma lookup_update_same : forall k x l, lookup k l <> None -> lookup k (update k x l) = Some x.
Proof.
  intros k x l. induction l as [|[n v] l IH]; [intros H; now elim H|]. cbn [update lookup].
  destruct (String.eqb_spec k n) as [->|]; cbn [lookup].
  - now rewrite String.eqb_refl.
  - destruct (String.eqb_spec k n); [contradiction|]. auto.
Qed.
Lemma keys_update : forall k x l, map fst (update k x l) = map fst l.
Proof.
  intros k x l. induction l as [|[n v] l IH]; [reflexivity|]. cbn [update].
  destruct (String.eqb k n); cbn [map fst]; [reflexivity|]. now rewrite IH.
Qed.
Lemma lookup_In : forall k l, In k (map fst l) -> lookup k l <> None.
Proof.
  intros k l. induction l as [|[n v] l IH]; [intros []|]. cbn [map fst lookup].
  destruct (String.eqb_spec k n) as [->|Hn]; [congruence|]. intros [E|E]; [congruence|auto].
Qed.
Lemma lookup_None : forall k l, ~ In k (map fst l) -> lookup k l = None.
Proof.
  intros k l. induction l as [|[n v] l IH]; [reflexivity|]. cbn [map fst lookup]. intros H.
  destruct (String.eqb_spec k n) as [->|Hn]; [exfalso; apply H; now left|]. apply IH. intros X. apply H. now right.
Qed.

Lemma skipn_add : forall A (l : list A) x y, skipn x (skipn y l) = skipn (y + x) l.
Proof.
  intros A l x y. revert l. induction y as [|y IH]; intros l; [reflexivity|].
  destruct l; cbn [skipn Nat.add]; [now rewrite skipn_nil|]. apply IH.
Qed.

(** ** equality of schemas *)
Definition finfo_eq_dec : forall a b : finfo, {a = b} + {a <> b}.
Proof.
  decide equality; try apply bool_dec; try apply N.eq_dec; try apply Z.eq_dec; apply string_dec.
Defined.
Definition finfo_eqb a b : bool := if finfo_eq_dec a b then true else false.
Fixpoint sty_eqb (a b : sty) : bool :=
  match a, b with
  | SUint v, SUint w | SInt v, SInt w => v =? w
  | SBool, SBool | SStr, SStr => true
  | SArr n t, SArr m u => (n =? m) && sty_eqb t u
  | SSlice t, SSlice u | SPtr t, SPtr u => sty_eqb t u
  | SStruct n c f, SStruct m d g => String.eqb n m && Bool.eqb c d && flds_eqb f g
  | _, _ => false
  end
with flds_eqb (a b : flds) : bool :=
  match a, b with
  | FNil, FNil => true
  | FCons f t r, FCons g u s => finfo_eqb f g && sty_eqb t u && flds_eqb r s
  | _, _ => false
  end.
Lemma finfo_eqb_eq : forall a b, finfo_eqb a b = true -> a = b.
Proof. intros a b. unfold finfo_eqb. destruct (finfo_eq_dec a b); [auto|discriminate]. Qed.
Lemma sty_eqb_eq : (forall a b, sty_eqb a b = true -> a = b) /\ (forall a b, flds_eqb a b = true -> a = b).
Proof.
  apply sty_flds_mutind; intros; destruct b; cbn in *; try discriminate; try reflexivity.
  - apply N.eqb_eq in H. congruence.
  - apply N.eqb_eq in H. congruence.
  - apply andb_prop in H0. destruct H0 as [A B]. apply N.eqb_eq in A. f_equal; auto.
  - f_equal; auto.
  - f_equal; auto.
  - apply andb_prop in H0. destruct H0 as [H0 C]. apply andb_prop in H0. destruct H0 as [A B].
    apply String.eqb_eq in A. apply Bool.eqb_prop in B. f_equal; auto.
  - apply andb_prop in H1. destruct H1 as [H1 C]. apply andb_prop in H1. destruct H1 as [A B].
    apply finfo_eqb_eq in A. f_equal; auto.
Qed.

(** ** The FullBox field *)
Definition plain_info (name : string) (order : Z) (size : N) (extend : bool) : finfo :=
  mkfi name "" order 0 0 size LengthUnlimited anyVersion anyVersion false extend false false false
       false false false false false false false false.
Definition fb_ty : sty :=
  SStruct "FullBox" true
    (FCons (plain_info "Version" 0 8 false) (SUint 8)
    (FCons (plain_info "Flags" 1 8 false) (SArr 3 (SUint 8)) FNil)).

Fixpoint field_names (fs : flds) : list string :=
  match fs with FNil => [] | FCons f _ r => f_name f :: field_names r end.
Definition hook_targets : list string := ["Name"; "SchemeIdUri"; "Value"; "HighProfileFieldsEnabled"].

(** the struct begins with an embedded FullBox, and no other field is called so *)
Definition full_box (d : boxdef) : bool :=
  match bd_flds d with
  | FCons f t r => finfo_eqb f (plain_info "FullBox" 0 0 true) && sty_eqb t fb_ty
                   && negb (str_in "FullBox" (field_names r))
                   && match hook_of (bd_name d) "FullBox" with HNone => true | _ => false end
  | FNil => false
  end.
Fixpoint any_fullbox_val (t : sty) : bool :=
  is_fullbox t ||
  match t with
  | SArr _ u | SSlice u | SPtr u => any_fullbox_val u
  | SStruct _ _ fs => any_fullbox_flds fs
  | _ => false
  end
with any_fullbox_flds (fs : flds) : bool :=
  match fs with
  | FNil => false
  | FCons f t r => String.eqb (f_name f) "FullBox" || any_fullbox_val t || any_fullbox_flds r
  end.
(** every registered box struct either begins with FullBox, its only one, or has none *)
Lemma std_full_box : forallb (fun d =>
  match bd_flds d with
  | FCons f t r => if full_box d then negb (any_fullbox_flds r)
                   else negb (any_fullbox_flds (bd_flds d))
  | FNil => true
  end) all_defs = true.
Proof. vm_compute. reflexivity. Qed.

Lemma d_take_app : forall n b r p, n = lenN b -> d_take n (p, b ++ r) = Ok (b, (p + n, r)).
Proof.
  intros n b r p ->. unfold d_take. cbn [fst snd]. rewrite lenN_app.
  destruct (N.leb_spec (lenN b) (lenN b + lenN r)); [|lia].
  now rewrite takeN_app_exact, skipN_app_exact.
Qed.
Lemma lenN_bits_of_byte : forall b, lenN (bits_of_byte b) = 8.
Proof. intros b. unfold lenN. now rewrite bits_of_byte_length. Qed.

Lemma d_u8 : forall k p b r, d_uint k 8 false 8 (p, bits_of_byte b ++ r) = Ok (VUint (b2N b), (p + 8, r)).
Proof.
  intros. unfold d_uint. change (8 =? 0) with false. cbv iota. unfold dbind.
  rewrite d_take_app by (now rewrite lenN_bits_of_byte). unfold dret.
  rewrite bits_to_N_byte. pose proof (b2N_lt b). unfold w64, W64. change (2 ^ 8) with 256.
  rewrite !N.mod_small by lia. reflexivity.
Qed.

Definition fb_val (v a b c : byte) : val :=
  VStruct [("Version", VUint (b2N v)); ("Flags", VList [VUint (b2N a); VUint (b2N b); VUint (b2N c)])].

Lemma plain_target : forall ver flags cn env n o s e,
  is_target ver flags cn env (plain_info n o s e) = true.
Proof. intros. unfold is_target. destruct (negb (ver =? anyVersion)); reflexivity. Qed.
Lemma plain_size : forall cn env n o s e, resolve_size cn env (plain_info n o s e) = Some s.
Proof. reflexivity. Qed.
Lemma plain_len : forall cn env n o s e, resolve_len cn env (plain_info n o s e) = Some LengthUnlimited.
Proof. reflexivity. Qed.

(** decoding four bytes into a FullBox *)
Lemma dec_fullbox : forall k rn vs ctx rt lim base o v0 a0 b0 c0 len v a b c r p,
  dec_val k rn vs ctx rt lim base o 0 len fb_ty
    (VStruct [("Version", v0); ("Flags", VList [a0; b0; c0])]) (p, bits_of_bytes [v; a; b; c] ++ r)
  = Ok (fb_val v a b c, (p + 32, r)).
Proof.
  intros. unfold fb_ty. rewrite dec_val_struct. change (negb (0 =? 0) && (0 mod 8 =? 0)) with false.
  cbv iota. unfold dbind at 1.
  rewrite dec_flds_cons. cbv zeta. rewrite plain_size, plain_len, plain_target.
  cbn [f_name plain_info].
  change (hook_of "FullBox" "Version") with HNone.
  unfold dbind at 1. unfold dbind at 1. unfold dpos at 1. cbn [d_hook]. unfold dbind at 1, dret at 1.
  change (lookup "Version" [("Version", v0); ("Flags", VList [a0; b0; c0])]) with (Some v0). cbv iota.
  cbn [dec_val f_varint]. unfold dbind at 1. cbn [bits_of_bytes flat_map]. rewrite <- !app_assoc.
  rewrite d_u8. cbn [is_fullbox andb]. unfold dret at 1.
  change (update "Version" (VUint (b2N v)) [("Version", v0); ("Flags", VList [a0; b0; c0])])
    with [("Version", VUint (b2N v)); ("Flags", VList [a0; b0; c0])].
  rewrite dec_flds_cons. cbv zeta. rewrite plain_size, plain_len, plain_target.
  cbn [f_name plain_info].
  change (hook_of "FullBox" "Flags") with HNone.
  unfold dbind at 1. unfold dbind at 1. unfold dpos at 1. cbn [d_hook]. unfold dbind at 1, dret at 1.
  match goal with |- context [lookup "Flags" ?l] =>
    change (lookup "Flags" l) with (Some (VList [a0; b0; c0])) end. cbv iota.
  cbn [dec_val f_varint d_map]. unfold dbind. rewrite d_u8, d_u8, d_u8. unfold dret.
  cbn [is_fullbox andb app dec_flds]. unfold dret. f_equal. f_equal. f_equal. lia.
Qed.

Lemma full_box_inv : forall d, full_box d = true ->
  exists r, bd_flds d = FCons (plain_info "FullBox" 0 0 true) fb_ty r /\
            ~ In "FullBox" (field_names r) /\ hook_of (bd_name d) "FullBox" = HNone.
Proof.
  intros d H. unfold full_box in H. destruct (bd_flds d) as [|f t r]; [discriminate|].
  apply andb_prop in H. destruct H as [H H4]. apply andb_prop in H. destruct H as [H H3].
  apply andb_prop in H. destruct H as [H1 H2].
  apply finfo_eqb_eq in H1. apply sty_eqb_eq in H2. subst. exists r. split; [reflexivity|]. split.
  - intros I. apply negb_true_iff in H3. unfold str_in in H3.
    assert (existsb (String.eqb "FullBox") (field_names r) = true); [|congruence].
    apply existsb_exists. exists "FullBox". split; auto.
  - destruct (hook_of _ _); auto; discriminate.
Qed.

Lemma set_version_fb : forall d r, bd_flds d = FCons (plain_info "FullBox" 0 0 true) fb_ty r ->
  set_version anyVersion (zero_flds (bd_flds d)) =
  ("FullBox", VStruct [("Version", VUint 255); ("Flags", VList [VUint 0; VUint 0; VUint 0])]) :: zero_flds r.
Proof. intros d r ->. reflexivity. Qed.

(** the first step of decoding a box with FullBox, into a fresh box *)
Lemma decode_full_box : forall k d r ctx lim v a b c rest zr,
  bd_flds d = FCons (plain_info "FullBox" 0 0 true) fb_ty r ->
  hook_of (bd_name d) "FullBox" = HNone ->
  dec_flds k (bd_name d) (bd_versions d) ctx None lim 0 (bd_name d) true
    (("FullBox", VStruct [("Version", VUint 255); ("Flags", VList [VUint 0; VUint 0; VUint 0])]) :: zr)
    (bd_flds d) (0, bits_of_bytes [v; a; b; c] ++ rest) =
  if version_in (bd_versions d) (b2N v)
  then dec_flds k (bd_name d) (bd_versions d) ctx None lim 0 (bd_name d) true
         (("FullBox", fb_val v a b c) :: zr) r (32, rest)
  else Err EUnsupportedVersion.
Proof.
  intros k d r ctx lim v a b c rest zr E HH. rewrite E. rewrite dec_flds_cons. cbv zeta.
  rewrite plain_size, plain_len, plain_target. cbn [f_name plain_info]. rewrite HH.
  unfold dbind at 1. unfold dbind at 1. unfold dpos at 1. cbn [d_hook]. unfold dbind at 1, dret at 1.
  match goal with |- context [lookup "FullBox" (?x :: ?l)] =>
    change (lookup "FullBox" (x :: l)) with (Some (snd x)) end. cbv iota. cbn [snd].
  unfold dbind at 1. unfold box_of at 1.
  rewrite dec_fullbox. cbn [is_fullbox fb_ty].
  change (String.eqb "FullBox" "FullBox") with true. cbn [andb].
  match goal with |- context [update "FullBox" ?y (?x :: ?l)] =>
    change (update "FullBox" y (x :: l)) with (("FullBox", y) :: l) end.
  cbn [box_of]. change (get_version (("FullBox", fb_val v a b c) :: zr)) with (b2N v).
  destruct (version_in (bd_versions d) (b2N v)); cbn [negb]; [|reflexivity].
  unfold dret. reflexivity.
Qed.

(** ** Fields that a struct does not declare keep their value *)
Lemma d_hook_frame : forall k h ver self left st o self' st' key,
  d_hook k h ver self left st = Ok ((o, self'), st') -> ~ In key hook_targets ->
  lookup key self' = lookup key self /\ map fst self' = map fst self.
Proof.
  intros k h ver self left st o self' st' key H Hk.
  assert (K : forall n x l, In n hook_targets -> lookup key (update n x l) = lookup key l).
  { intros n x l Hn. apply lookup_update_other. intros ->. auto. }
  assert (T : In "Name" hook_targets /\ In "SchemeIdUri" hook_targets /\ In "Value" hook_targets /\
              In "HighProfileFieldsEnabled" hook_targets) by (cbn; auto 10).
  destruct T as (T1 & T2 & T3 & T4).
  destruct h; cbn [d_hook] in H.
  - injection H as <- <- <-. auto.
  - injection H as <- <- <-. auto.
  - destruct (ver =? 0); [injection H as <- <- <-; auto|].
    unfold dbind in H. destruct (d_zstring k st) as [[x st1]| | |]; try discriminate.
    destruct (d_zstring k st1) as [[y st2]| | |]; try discriminate. injection H as <- <- <-.
    now rewrite !K, !keys_update.
  - cbv zeta in H. destruct (_ =? 0); [injection H as <- <- <-; rewrite K, keys_update by auto; auto|].
    unfold dbind, d_has in H. destruct (negb _); [discriminate|].
    destruct (maxAlloc <=? _); [discriminate|].
    destruct (d_bytes _ _) as [[[|c tl] st1]| | |]; try discriminate.
    injection H as <- <- <-. now rewrite K, keys_update by auto.
  - injection H as <- <- <-. now rewrite K, keys_update by auto.
Qed.

Lemma dec_flds_frame : forall k rn vs ctx rt lim base sname (cfo : bool) key fs self st self' st',
  dec_flds k rn vs ctx rt lim base sname cfo self fs st = Ok (self', st') ->
  ~ In key hook_targets -> ~ In key (field_names fs) ->
  lookup key self' = lookup key self /\ map fst self' = map fst self.
Proof.
  intros k rn vs ctx rt lim base sname cfo key.
  induction fs as [|f t rest IH]; intros self st self' st' H Hh Hn.
  { injection H as <- <-. auto. }
  rewrite dec_flds_cons in H. cbv zeta in H.
  destruct (resolve_size _ _ f) as [size|]; [|discriminate].
  destruct (resolve_len _ _ f) as [len|]; [|discriminate].
  cbn [field_names In] in Hn.
  unfold dbind in H at 1.
  match type of H with match ?m st with _ => _ end = _ => set (step := m) in H end.
  destruct (step st) as [[s1 st1]| | |] eqn:E; try discriminate.
  assert (L : lookup key s1 = lookup key self /\ map fst s1 = map fst self).
  { unfold step in E. clear step. destruct (is_target _ _ _ _ _).
    2:{ injection E as <- <-. auto. }
    unfold dbind in E at 1. unfold dpos in E at 1. unfold dbind in E at 1.
    destruct (d_hook _ _ _ _ _ _) as [[[o s2] st2]| | |] eqn:Eh; try discriminate.
    destruct (d_hook_frame _ _ _ _ _ _ _ _ _ key Eh Hh) as [Lh Kh].
    destruct o; [injection E as <- <-; auto|].
    destruct (lookup (f_name f) s2) as [cur|]; [|discriminate].
    unfold dbind in E at 1.
    destruct (dec_val _ _ _ _ _ _ _ _ _ _ _ _ _) as [[x st3]| | |]; try discriminate.
    destruct (_ && _); [discriminate|]. injection E as <- <-.
    rewrite lookup_update_other, keys_update by (intros ->; apply Hn; auto). auto. }
  destruct L as [L1 L2]. rewrite <- L1, <- L2. apply (IH s1 st1 self' st'); auto.
Qed.

(** ** Unmarshal and versions *)
Lemma take4_inv : forall (data : list byte) pos, pos + 4 <= lenN data ->
  exists v a b c post, skipN pos data = v :: a :: b :: c :: post.
Proof.
  intros data pos H. pose proof (lenN_skipN byte data pos) as L.
  destruct (skipN pos data) as [|v [|a [|b [|c post]]]];
    try (repeat rewrite lenN_cons in L; rewrite lenN_nil in L; lia).
  now exists v, a, b, c, post.
Qed.

Lemma std_no_hdlr : forallb (fun d => no_hdlr_inside (bd_name d) (bd_flds d)) all_defs = true.
Proof. vm_compute. reflexivity. Qed.

(** the link between UnmarshalAny and the decoder, for the registered boxes *)
Lemma unmarshal_any_decode : forall t ctx d data size pos,
  get_box_def std_registry t ctx = Some d -> pos <= lenN data -> lenN data < 2 ^ 62 ->
  let dec := decode (dfuel data) d size ctx (zero_flds (bd_flds d))
               (bits_of_bytes (skipN pos data)) in
  match unmarshal_any std_registry data t size ctx pos with
  | (Ok (d', x, n), pos') => d' = d /\ dec = Ok (x, n) /\ pos' = pos + n /\ pos + n <= lenN data
  | (Err e, pos') => dec = Err e /\ (e = EUnsupportedVersion -> pos' = pos)
  | (Panic, _) => dec = Panic
  | (OutOfFuel, _) => dec = OutOfFuel
  end.
Proof.
  intros t ctx d data size pos G Hp Hd dec.
  pose proof (all_defs_check _ _ _ _ _ eq_refl std_no_hdlr G) as Hh. cbv beta in Hh.
  pose proof (unmarshal_decode d data size ctx (zero_flds (bd_flds d)) pos Hp Hd Hh) as U.
  cbv zeta in U. rewrite skipN_bits_of_bytes in U. fold dec in U.
  unfold unmarshal_any, new_box. rewrite G.
  destruct (unmarshal_def d data size ctx (zero_flds (bd_flds d)) pos) as [[[x n]| | |] p]; auto.
Qed.

Lemma unmarshal_any_def : forall t ctx data size pos d x n p,
  unmarshal_any std_registry data t size ctx pos = (Ok (d, x, n), p) ->
  get_box_def std_registry t ctx = Some d.
Proof.
  intros t ctx data size pos d x n p H. unfold unmarshal_any, new_box in H.
  destruct (get_box_def std_registry t ctx) as [d'|]; [|discriminate].
  destruct (unmarshal_def _ _ _ _ _ _) as [[[y m]| | |] q]; try discriminate. congruence.
Qed.

Lemma unsupported_rejected : forall t ctx d data size pos ver,
  get_box_def std_registry t ctx = Some d -> full_box d = true -> bd_name d <> "Meta" ->
  pos + 4 <= lenN data -> lenN data < 2 ^ 62 ->
  nthN pos data = Some ver -> version_in (bd_versions d) (b2N ver) = false ->
  unmarshal_any std_registry data t size ctx pos = (Err EUnsupportedVersion, pos).
Proof.
  intros t ctx d data size pos ver G F Hm Hp Hd Hv Hs.
  pose proof (unmarshal_any_decode t ctx d data size pos G ltac:(lia) Hd) as U. cbv zeta in U.
  destruct (full_box_inv d F) as (r & E & _ & HH).
  destruct (take4_inv data pos Hp) as (v & a & b & c & post & S).
  rewrite nthN_skipN, S in Hv. injection Hv as ->.
  rewrite S in U. rewrite (bits_of_bytes_app [ver; a; b; c] post : bits_of_bytes (ver :: a :: b :: c :: post) = _) in U.
  unfold decode, d_before in U. destruct (String.eqb_spec (bd_name d) "Meta"); [contradiction|].
  rewrite (set_version_fb d r E) in U.
  rewrite (decode_full_box _ _ _ _ _ _ _ _ _ _ _ E HH), Hs in U.
  destruct (unmarshal_any std_registry data t size ctx pos) as [[[[d1 x1] n1]|e1| |] p1]; try discriminate.
  - destruct U as (_ & U & _). discriminate.
  - destruct U as (U & P). injection U as <-. now rewrite P.
Qed.

(** decoded version *)
Lemma decoded_version : forall t ctx data size pos d x n p,
  pos <= lenN data -> lenN data < 2 ^ 62 ->
  unmarshal_any std_registry data t size ctx pos = (Ok (d, x, n), p) ->
  full_box d = true -> bd_name d <> "Meta" ->
  version_in (bd_versions d) (get_version x) = true /\
  option_map b2N (nthN pos data) = Some (get_version x).
Proof.
  intros t ctx data size pos d x n p Hp Hd H F Hm.
  pose proof (unmarshal_any_def _ _ _ _ _ _ _ _ _ H) as G.
  pose proof (unmarshal_any_decode t ctx d data size pos G ltac:(lia) Hd) as U. cbv zeta in U.
  rewrite H in U. destruct U as (_ & U & _ & Hn).
  destruct (full_box_inv d F) as (r & E & HN & HH).
  unfold decode, d_before in U. destruct (String.eqb_spec (bd_name d) "Meta"); [contradiction|].
  rewrite (set_version_fb d r E) in U.
  destruct (N.le_gt_cases (pos + 4) (lenN data)) as [L4|L4].
  - destruct (take4_inv data pos L4) as (v & a & b & c & post & S).
    rewrite S in U. rewrite (bits_of_bytes_app [v; a; b; c] post : bits_of_bytes (v :: a :: b :: c :: post) = _) in U.
    rewrite (decode_full_box _ _ _ _ _ _ _ _ _ _ _ E HH) in U.
    destruct (version_in (bd_versions d) (b2N v)) eqn:V; [|discriminate].
    destruct (dec_flds _ _ _ _ _ _ _ _ _ _ _) as [[z [p2 b2]]| | |] eqn:D; try discriminate.
    assert (Z : z = x).
    { destruct (negb _); [discriminate|]. destruct (_ <? _); [discriminate|]. now injection U as ->. }
    subst z.
    destruct (dec_flds_frame _ _ _ _ _ _ _ _ _ "FullBox" _ _ _ _ _ D) as [L _]; auto.
    { cbn. intros [X|[X|[X|[X|[]]]]]; discriminate. }
    assert (GV : get_version x = b2N v).
    { unfold get_version, fullbox_of. rewrite L. reflexivity. }
    rewrite GV. split; auto. rewrite nthN_skipN, S. reflexivity.
  - exfalso.
    destruct (dec_flds _ _ _ _ _ _ _ _ _ _ _) as [[z [p2 b2]]| | |] eqn:D; try discriminate.
    (* fewer than 32 bits *)
    assert (B : lenN (bits_of_bytes (skipN pos data)) < 32).
    { rewrite lenN_bits_of_bytes, lenN_skipN. lia. }
    clear U. rewrite E in D. rewrite dec_flds_cons in D. cbv zeta in D.
    rewrite plain_size, plain_len, plain_target in D. cbn [f_name plain_info] in D. rewrite HH in D.
    unfold dbind in D at 1. unfold dbind in D at 1. unfold dpos in D at 1. cbn [d_hook] in D.
    unfold dbind in D at 1. unfold dret in D at 1.
    match type of D with context [lookup "FullBox" (?x :: ?l)] =>
      change (lookup "FullBox" (x :: l)) with (Some (snd x)) in D end. cbv iota in D. cbn [snd] in D.
    unfold dbind in D at 1. 
    match type of D with context [dec_val ?k ?a ?b ?c ?rt ?l ?ba ?f ?s ?ln ?t ?cu ?st] =>
      assert (X : forall y st', dec_val k a b c rt l ba f s ln t cu st <> Ok (y, st')) end.
    { intros y [q q'] X.
      pose proof (proj1 (dec_local (bd_name d) (bd_versions d) ctx) fb_ty eq_refl _ _ _ _ _ _ _
                    (eq_refl : f_cp (plain_info "FullBox" 0 0 true) = false) _ _ _ _ _ _ X) as (cc & E1 & E2 & L).
      set (A := ascii_of_N 0).
      specialize (L 100%nat (bits_of_bytes [A; A; A; A])).
      assert (H0 : (List.length cc < 32)%nat).
      { apply (f_equal (@List.length bool)) in E1. rewrite app_length in E1. unfold lenN in B. lia. }
      specialize (L ltac:(lia)).
      (* cc ++ 32 zero bits are 4 bytes and more *)
      set (bs := cc ++ bits_of_bytes [A; A; A; A]) in *.
      assert (exists w x1 y1 z1 tl, bs = bits_of_bytes [w; x1; y1; z1] ++ tl) as (w & x1 & y1 & z1 & tl & Ebs).
      { assert (Lb : (List.length bs >= 32)%nat) by (unfold bs; rewrite app_length, bits_of_bytes_length; cbn; lia).
        exists (byte_of_bits (firstn 8 bs)), (byte_of_bits (firstn 8 (skipn 8 bs))),
               (byte_of_bits (firstn 8 (skipn 16 bs))), (byte_of_bits (firstn 8 (skipn 24 bs))), (skipn 32 bs).
        cbn [bits_of_bytes flat_map].
        rewrite !bits_of_byte_of_bits by (rewrite firstn_length, ?skipn_length; apply Nat.min_l; clear - Lb; lia).
        rewrite app_nil_r, <- !app_assoc.
        replace (skipn 32 bs) with (skipn 8 (skipn 24 bs)) by (apply skipn_add).
        rewrite firstn_skipn.
        replace (skipn 24 bs) with (skipn 8 (skipn 16 bs)) by (apply skipn_add).
        rewrite firstn_skipn.
        replace (skipn 16 bs) with (skipn 8 (skipn 8 bs)) by (apply skipn_add).
        now rewrite !firstn_skipn. }
      rewrite Ebs, dec_fullbox in L. injection L as _ P _. clear - P E2 H0. unfold lenN in E2. lia. }
    destruct (dec_val _ _ _ _ _ _ _ _ _ _ _ _ _) as [[y st']| | |]; try discriminate.
    now apply (X y st').
Qed.

(** ** Dependence on the payload only *)
Lemma std_no_cp : forallb (fun d => no_cp_flds (bd_flds d)) all_defs = true.
Proof. vm_compute. reflexivity. Qed.

Lemma decode_local : forall k1 k2 d size ctx dst0 b1 b2 x n,
  no_cp_flds (bd_flds d) = true -> (bd_name d = "Meta" -> 4 <= size) ->
  decode k1 d size ctx dst0 b1 = Ok (x, n) ->
  takeN (8 * size) b1 = takeN (8 * size) b2 -> (List.length b2 < k2)%nat ->
  decode k2 d size ctx dst0 b2 = Ok (x, n).
Proof.
  intros k1 k2 d size ctx dst0 b1 b2 x n Hc Hm H E Hk. unfold decode in *.
  set (s0 := set_version anyVersion dst0) in *.
  assert (B : match d_before (bd_name d) s0 (0, b1) with
              | Ok (y, _) => d_before (bd_name d) s0 (0, b2) = Ok (y, (0, b2)) /\
                             d_before (bd_name d) s0 (0, b1) = Ok (y, (0, b1))
              | _ => True end).
  { unfold d_before. destruct (String.eqb_spec (bd_name d) "Meta") as [M|]; [|auto].
    specialize (Hm M). unfold d_bytes. cbn [fst snd]. change (0 mod 8 =? 0) with true. cbv iota.
    destruct (N.leb_spec (8 * 4) (lenN b1)) as [L|]; [|destruct (lenN b1 =? 0); exact I].
    assert (T : takeN (8 * 4) b1 = takeN (8 * 4) b2).
    { replace (8 * 4) with (N.min (8 * 4) (8 * size)) by lia. rewrite <- !takeN_takeN, E. reflexivity. }
    assert (L2 : 8 * 4 <= lenN b2).
    { apply (f_equal (@lenN bool)) in T. rewrite !lenN_takeN in T. lia. }
    destruct (N.leb_spec (8 * 4) (lenN b2)); [|lia]. rewrite T.
    destruct (existsb _ _); auto. }
  destruct (d_before (bd_name d) s0 (0, b1)) as [[[b self] st]| | |]; try discriminate.
  destruct B as [B1 B2]. injection B2 as ->. rewrite B1. destruct b; [exact H|].
  destruct (dec_flds k1 _ _ _ _ _ _ _ _ _ _ (0, b1)) as [[z [p r]]| | |] eqn:D; try discriminate.
  destruct (proj2 (dec_local (bd_name d) (bd_versions d) ctx) _ Hc _ _ _ _ _ _ _ _ _ _ _ _ D)
    as (c & E1 & E2 & L).
  destruct (negb (p mod 8 =? 0)) eqn:A8; [discriminate|].
  destruct (N.ltb_spec (w64 (size * 8)) p) as [|Lp]; [discriminate|].
  assert (Lc : lenN c <= 8 * size) by (unfold w64, W64 in Lp; lia).
  assert (E3 : b2 = c ++ skipN (lenN c) b2).
  { transitivity (takeN (lenN c) b2 ++ skipN (lenN c) b2); [now rewrite takeN_skipN|]. f_equal.
    replace (takeN (lenN c) b2) with (takeN (lenN c) b1); [rewrite E1; now apply takeN_app_exact|].
    replace (lenN c) with (N.min (lenN c) (8 * size)) by lia. rewrite <- !takeN_takeN, E. reflexivity. }
  rewrite E3. rewrite L.
  2:{ apply (f_equal (@List.length bool)) in E3. rewrite app_length in E3. lia. }
  rewrite A8. destruct (N.ltb_spec (w64 (size * 8)) p); [lia|]. exact H.
Qed.

Lemma unmarshal_local : forall t ctx data1 data2 pos1 pos2 size d x n p,
  pos1 <= lenN data1 -> pos2 <= lenN data2 -> lenN data1 < 2 ^ 62 -> lenN data2 < 2 ^ 62 ->
  takeN size (skipN pos1 data1) = takeN size (skipN pos2 data2) ->
  (bd_name d = "Meta" -> 4 <= size) ->
  unmarshal_any std_registry data1 t size ctx pos1 = (Ok (d, x, n), p) ->
  unmarshal_any std_registry data2 t size ctx pos2 = (Ok (d, x, n), pos2 + n).
Proof.
  intros t ctx data1 data2 pos1 pos2 size d x n p H1 H2 D1 D2 E Hm H.
  pose proof (unmarshal_any_def _ _ _ _ _ _ _ _ _ H) as G.
  pose proof (unmarshal_any_decode t ctx d data1 size pos1 G H1 D1) as U1. cbv zeta in U1.
  rewrite H in U1. destruct U1 as (_ & U1 & _).
  pose proof (all_defs_check _ _ _ _ _ eq_refl std_no_cp G) as Hc. cbv beta in Hc.
  apply (decode_local _ (dfuel data2) _ _ _ _ _ (bits_of_bytes (skipN pos2 data2)) _ _ Hc Hm) in U1.
  - pose proof (unmarshal_any_decode t ctx d data2 size pos2 G H2 D2) as U2. cbv zeta in U2.
    destruct (unmarshal_any std_registry data2 t size ctx pos2) as [[[[d' y] m]|e| |] q].
    + destruct U2 as (-> & U2 & -> & _). rewrite U1 in U2. congruence.
    + destruct U2 as (U2 & _). congruence.
    + congruence.
    + congruence.
  - now rewrite !takeN_bits_of_bytes, E.
  - pose proof (lenN_bits_of_bytes (skipN pos2 data2)) as L. rewrite lenN_skipN in L.
    unfold dfuel. unfold lenN in *. lia.
Qed.
