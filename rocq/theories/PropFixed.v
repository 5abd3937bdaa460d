(** C46: the accessors that return a fixed point number as a float, and those of
    the audio sample entries. *)
From Verif Require Import Base BaseProofs BitIO Schema Structs Methods Registry Marshal Unmarshal.
From Verif Require Import SpecCodec SpecLossless PropMarshal PropUnmarshal VersionFacts LocateFacts Accessors SpecAccessors
     AccessorProofs PropAccessors Vectors Floats SpecFloats FloatFacts.
Local Open Scope string_scope.
Local Open Scope list_scope.
Local Open Scope N_scope.

(** (box type, accessor, signed, offset in version 0, offset in version 1): 16.16
    numbers of four bytes *)
Definition fixed_accessors : list (string * (list (string * val) -> float) * bool * N * N) :=
  [ ("mvhd", mvhd_GetRate, true, 20, 32);
    ("tkhd", tkhd_GetWidth, false, 76, 88);
    ("tkhd", tkhd_GetHeight, false, 80, 92) ].
Definition fixed_at (p : list byte) (sgn : bool) (off w : N) : Z :=
  if sgn then signed_at p off w else Z.of_N (number_at p off w).

Lemma fits_32 : forall z, int_fits 32 z = true -> (Z.abs z < 2 ^ 53)%Z.
Proof.
  intros z H. unfold int_fits in H. apply andb_prop in H. destruct H as [H H3]. apply andb_prop in H. destruct H as [_ H2].
  apply Z.leb_le in H2. apply Z.ltb_lt in H3. change (Z.of_N (2 ^ (32 - 1))) with 2147483648%Z in *.
  change (2 ^ 53)%Z with 9007199254740992%Z. lia.
Qed.
Lemma fits_16 : forall z, int_fits 16 z = true -> (Z.abs z < 2 ^ 24)%Z.
Proof.
  intros z H. unfold int_fits in H. apply andb_prop in H. destruct H as [H H3]. apply andb_prop in H. destruct H as [_ H2].
  apply Z.leb_le in H2. apply Z.ltb_lt in H3. change (Z.of_N (2 ^ (16 - 1))) with 32768%Z in *.
  change (2 ^ 24)%Z with 16777216%Z. lia.
Qed.
Lemma fits_u32 : forall n, n < 2 ^ (8 * 4) -> (Z.abs (Z.of_N n) < 2 ^ 53)%Z.
Proof.
  intros n H. change (2 ^ (8 * 4)) with 4294967296 in H. change (2 ^ 53)%Z with 9007199254740992%Z. lia.
Qed.

Theorem C46_fixed_point : forall t get sgn o0 o1 data size ctx pos d x n pos',
  In (t, get, sgn, o0, o1) fixed_accessors ->
  pos <= lenN data -> lenN data < 2 ^ 62 ->
  unmarshal_any std_registry data (bt t) size ctx pos = (Ok (d, x, n), pos') ->
  let p := takeN n (skipN pos data) in
  (number_at p 0 1 = 0 /\ is_quotient (get x) (fixed_at p sgn o0 4) 16) \/
  (number_at p 0 1 = 1 /\ is_quotient (get x) (fixed_at p sgn o1 4) 16).
Proof.
  intros t get sgn o0 o1 data size ctx pos d x n pos' I Hp Hd H p.
  assert (K : forall (sgn : bool) a p0 p1,
    (forall has, always (bt t) (fun d => two_versions d && (at_place has 0 sgn a (p0, 4) d && at_place has 1 sgn a (p1, 4) d)) = true) ->
    exists o, ((number_at p 0 1 = 0 /\ o = p0) \/ (number_at p 0 1 = 1 /\ o = p1)) /\
      if sgn then signed_at p o 4 = as_Z (lookup a x) /\ int_fits (8 * 4) (as_Z (lookup a x)) = true
      else number_at p o 4 = as_uint (lookup a x) /\ as_uint (lookup a x) < 2 ^ (8 * 4)).
  { intros sg a p0 p1 C.
    destruct (decoded_two _ _ _ _ _ _ _ _ _ _ Hp Hd H (C (flag_test x))) as (P & T & L & V & _).
    fold p in L. apply andb_prop in P. destruct P as [P0 P1].
    assert (F : full_box d = true).
    { unfold two_versions in T. apply andb_prop in T. destruct T as [T _]. apply andb_prop in T. destruct T as [T _].
      apply andb_prop in T. now destruct T. }
    destruct (head_ok d ctx x p F L) as [HV _].
    destruct V as [V|V]; [exists p0|exists p1]; (split; [rewrite HV, V; auto|]).
    - rewrite <- V in P0. exact (proj2 (at_place_ok ctx d x p sg a p0 4 L P0)).
    - rewrite <- V in P1. exact (proj2 (at_place_ok ctx d x p sg a p1 4 L P1)). }
  assert (U : forall a p0 p1, (forall has, always (bt t) (fun d => two_versions d && (at_place has 0 false a (p0, 4) d && at_place has 1 false a (p1, 4) d)) = true) ->
    let g x := float64_div (float64_of (Z.of_N (uint_of a x))) (float64_of 65536) in
    (number_at p 0 1 = 0 /\ is_quotient (g x) (fixed_at p false p0 4) 16) \/
    (number_at p 0 1 = 1 /\ is_quotient (g x) (fixed_at p false p1 4) 16)).
  { intros a p0 p1 C. cbv zeta. destruct (K false a p0 p1 C) as (o & E & E1 & E2). cbv iota in E1.
    assert (Q : is_quotient (float64_div (float64_of (Z.of_N (uint_of a x))) (float64_of 65536)) (fixed_at p false o 4) 16).
    { unfold fixed_at. rewrite E1. apply quotient64, fits_u32, E2. }
    destruct E as [[V ->]|[V ->]]; [left|right]; auto. }
  assert (S : forall a p0 p1, (forall has, always (bt t) (fun d => two_versions d && (at_place has 0 true a (p0, 4) d && at_place has 1 true a (p1, 4) d)) = true) ->
    let g x := float64_div (float64_of (int_of a x)) (float64_of 65536) in
    (number_at p 0 1 = 0 /\ is_quotient (g x) (fixed_at p true p0 4) 16) \/
    (number_at p 0 1 = 1 /\ is_quotient (g x) (fixed_at p true p1 4) 16)).
  { intros a p0 p1 C. cbv zeta. destruct (K true a p0 p1 C) as (o & E & E1 & E2).
    assert (Q : is_quotient (float64_div (float64_of (int_of a x)) (float64_of 65536)) (fixed_at p true o 4) 16).
    { unfold fixed_at. rewrite E1. apply quotient64, fits_32, E2. }
    destruct E as [[V ->]|[V ->]]; [left|right]; auto. }
  cbn [fixed_accessors In] in I. destruct I as [I|[I|[I|[]]]]; injection I as <- <- <- <- <-.
  - apply S. intros has; vm_compute; reflexivity.
  - apply U. intros has; vm_compute; reflexivity.
  - apply U. intros has; vm_compute; reflexivity.
Qed.
Print Assumptions C46_fixed_point.

(** smhd: an 8.8 number at 4 *)
Theorem C46_balance_float : forall data size ctx pos d x n pos',
  pos <= lenN data -> lenN data < 2 ^ 62 ->
  unmarshal_any std_registry data (bt "smhd") size ctx pos = (Ok (d, x, n), pos') ->
  is_quotient (smhd_GetBalance x) (signed_at (takeN n (skipN pos data)) 4 2) 8.
Proof.
  intros data size ctx pos d x n pos' Hp Hd H.
  pose proof (unmarshal_any_def _ _ _ _ _ _ _ _ _ H) as G.
  assert (A : forall has, always (bt "smhd") (fun d => plain_box d && full_box d && negb (String.eqb (bd_name d) "Meta") &&
     match bd_versions d with [a] => a =? 0 | _ => false end && at_place has 0 true "Balance" (4, 2) d) = true)
    by (intros has; vm_compute; reflexivity).
  pose proof (always_ok _ _ _ _ (A (flag_test x)) G) as C. cbv beta in C. clear A.
  apply andb_prop in C. destruct C as [C P]. apply andb_prop in C. destruct C as [C V].
  apply andb_prop in C. destruct C as [C M]. apply andb_prop in C. destruct C as [PB F].
  destruct (decoded_bits _ _ _ _ _ _ _ _ _ Hp Hd PB H) as [L _].
  destruct (C11_never_succeeds_unsupported _ _ _ _ _ _ _ _ _ Hp Hd H F) as [W _].
  { intros E. rewrite E in M. discriminate. }
  assert (GV : get_version x = 0).
  { clear - V W. destruct (bd_versions d) as [|a [|? ?]]; try discriminate V. apply N.eqb_eq in V. subst.
    destruct W as [W|[W|[]]]; [discriminate|auto]. }
  rewrite <- GV in P.
  destruct (at_place_ok ctx d x _ true "Balance" 4 2 L P) as (X1 & X2 & X3).
  unfold smhd_GetBalance, int_of. rewrite X2. apply quotient32, fits_16, X3.
Qed.
Print Assumptions C46_balance_float.

Example C46_case_fixed :
  let p := hex "01000000000000010000000200000003000000040000000a0000000500000006fffe8000010000000000000000000000000100000000000000000000000000000001000000000000000000000000000000400000000000000000000000000000000000000000000000000000000000000000000002" in
  match decoded "mvhd" p mvhd_GetRate with Some x => is_quotient x (-3) 1 | None => False end /\
  match decoded "smhd" (hex "00000000ff400000") smhd_GetBalance with Some x => is_quotient x (-3) 2 | None => False end.
Proof. vm_compute. split; reflexivity. Qed.

(** ** Audio sample entries *)
(** The fields up to the sample rate are there unless the box is in a QuickTime
    wave box. *)
Definition open_field (rn : string) (f : finfo) : bool :=
  (f_version f =? anyVersion) && (f_nVersion f =? anyVersion) && (f_optFlag f =? 0) && (f_nOptFlag f =? 0) &&
  negb (f_sizeDyn f) && match hook_of rn (f_name f) with HNone => true | _ => false end &&
  (negb (f_optDyn f) || match m_opt rn (f_name f) with CNot (CAnd CQt CWave) => true | _ => false end).
(** sizes of types whose fields are in every version *)
Fixpoint osize (rn : string) (f : finfo) (size : N) (t : sty) : option N :=
  match t with
  | SUint _ | SInt _ => if f_varint f then None else Some size
  | SBool => Some size
  | SArr n u => option_map (N.mul n) (osize rn f size u)
  | SStruct name cfo fs => ofsize rn (if cfo then name else rn) fs
  | _ => None
  end
with ofsize (rn cn : string) (fs : flds) : option N :=
  match fs with
  | FNil => Some 0
  | FCons f t r =>
      if open_field cn f && negb (f_optDyn f) then
        match osize rn f (f_size f) t, ofsize rn cn r with Some a, Some b => Some (a + b) | _, _ => None end
      else None
  end.
Lemma fsize_cons : forall rn ver has dyn cn cfo f t r, fsize rn ver has dyn cn cfo (FCons f t r) =
  if simple cn f then
    if allowed ver has f then
      match size_here dyn cfo f with
      | Some s => match vsize rn ver has dyn f s t, fsize rn ver has dyn cn cfo r with Some a, Some b => Some (a + b) | _, _ => None end
      | None => None
      end
    else fsize rn ver has dyn cn cfo r
  else None.
Proof. reflexivity. Qed.
Lemma ofsize_cons : forall rn cn f t r, ofsize rn cn (FCons f t r) =
  if open_field cn f && negb (f_optDyn f) then
    match osize rn f (f_size f) t, ofsize rn cn r with Some a, Some b => Some (a + b) | _, _ => None end
  else None.
Proof. reflexivity. Qed.
Lemma osize_vsize : forall rn ver has,
  (forall t f size a, osize rn f size t = Some a -> vsize rn ver has (fun _ => None) f size t = Some a) /\
  (forall fs cn cfo a, ofsize rn cn fs = Some a -> fsize rn ver has (fun _ => None) cn cfo fs = Some a).
Proof.
  intros rn ver has. apply sty_flds_ind2; try (intros; discriminate).
  - intros w f size a E. exact E.
  - intros w f size a E. exact E.
  - intros f size a E. exact E.
  - intros n u IH f size a E. cbn [osize] in E. cbn [vsize]. destruct (osize rn f size u) as [q|] eqn:Q; [|discriminate].
    rewrite (IH _ _ _ Q). exact E.
  - intros name cfo fs IH f size a E. cbn [osize] in E. cbn [vsize]. apply IH, E.
  - intros cn cfo a E. exact E.
  - intros f t IHt r IHr cn cfo a E. rewrite ofsize_cons in E. rewrite fsize_cons.
    destruct (open_field cn f && negb (f_optDyn f)) eqn:OF; [|discriminate].
    apply andb_prop in OF. destruct OF as [OF OD]. unfold open_field in OF.
    repeat (apply andb_prop in OF; destruct OF as [OF ?]).
    unfold simple, allowed, version_allows, size_here. rewrite OD.
    match goal with H : negb (f_sizeDyn f) = true |- _ => apply negb_true_iff in H; rewrite H end.
    repeat match goal with H : (_ =? _) = true |- _ => rewrite H; clear H end.
    destruct (hook_of cn (f_name f)); try discriminate. cbn [andb orb]. rewrite orb_true_r. cbn [andb].
    destruct (osize rn f (f_size f) t) as [p|] eqn:P; [|discriminate].
    destruct (ofsize rn cn r) as [q|] eqn:Q; [|discriminate].
    now rewrite (IHt _ _ _ P), (IHr _ _ _ Q).
Qed.
Fixpoint locate_open (rn : string) (name : string) (fs : flds) : option (N * N * finfo * sty) :=
  match fs with
  | FNil => None
  | FCons f t r =>
      if open_field rn f then
        if String.eqb (f_name f) name then Some (0, f_size f, f, t)
        else match osize rn f (f_size f) t, locate_open rn name r with
             | Some a, Some (o, s', f', t') => Some (a + o, s', f', t')
             | _, _ => None
             end
      else None
  end.
Lemma locate_open_ok : forall rn x ctx, IsQuickTimeCompatible ctx && UnderWave ctx = false ->
  forall fs top b name o s f t, locate_open rn name fs = Some (o, s, f, t) ->
  layout_flds rn x ctx top rn false x fs = Some b ->
  exists b1 bk b2 v len, b = b1 ++ bk ++ b2 /\ lenN b1 = o /\ lookup name x = Some v /\
    layout_val rn x ctx f s len t v = Some bk.
Proof.
  intros rn x ctx Q. induction fs as [|f t r IH]; intros top b name o s f' t' E L; [discriminate|].
  cbn [locate_open] in E. rewrite layout_cons in L. cbn [owner] in L.
  destruct (open_field rn f) eqn:OF; [|discriminate]. unfold open_field in OF.
  repeat (apply andb_prop in OF; destruct OF as [OF ?]).
  match goal with H : negb (f_sizeDyn f) = true |- _ => apply negb_true_iff in H; rename H into SD end.
  unfold resolve_size in L. rewrite SD in L. cbn [obind] in L.
  destruct (resolve_len rn (spec_env x ctx x) f) as [len|]; [|discriminate]. cbn [obind] in L.
  assert (EN : enabled (get_version x) (get_flags x) rn (spec_env x ctx x) f = true).
  { unfold enabled, version_allows, flags_allow, option_allows.
    repeat match goal with H : (_ =? _) = true |- _ => rewrite H; clear H end.
    cbn [orb andb]. rewrite !orb_true_r. cbn [andb].
    match goal with H : (_ || _) = true |- _ => apply orb_prop in H; destruct H as [H|H] end.
    - apply negb_true_iff in H. now rewrite H.
    - destruct (f_optDyn f); [|reflexivity]. destruct (m_opt rn (f_name f)) as [| |[| | |[] []| | | | | | | | |]| | | | | | | | | |]; try discriminate.
      cbn [ceval spec_env e_ctx]. now rewrite Q. }
  unfold field_bits in L. rewrite EN in L. destruct (hook_of rn (f_name f)); try discriminate.
  destruct (lookup (f_name f) x) as [v|] eqn:LK; [|discriminate]. cbn [obind] in L.
  destruct (layout_val rn x ctx f (f_size f) len t v) as [bv|] eqn:BV; [|discriminate]. cbn [obind] in L.
  destruct (layout_flds rn x ctx _ rn false x r) as [br|] eqn:BR; [|discriminate]. injection L as <-.
  destruct (String.eqb_spec (f_name f) name) as [EQ|NE].
  - injection E as <- <- <- <-. exists [], bv, br, v, len. rewrite <- EQ. auto.
  - destruct (osize _ f (f_size f) t) as [a|] eqn:VA; [|discriminate].
    destruct (locate_open rn name r) as [[[[o' s'] g] u]|] eqn:LO; [|discriminate]. injection E as <- <- <- <-.
    destruct (IH _ _ _ _ _ _ _ LO BR) as (b1 & bk & b2 & w & len' & -> & L1 & LW & BK).
    exists (bv ++ b1), bk, b2, w, len'. split; [now rewrite <- app_assoc|]. split; [|auto].
    rewrite lenN_app, L1. f_equal.
    exact (proj1 (size_all rn x ctx (fun _ => None) ltac:(discriminate)) t f (f_size f) len v bv a
             (proj1 (osize_vsize _ _ _) _ _ _ _ VA) BV).
Qed.

Definition audio_types : list string := ["mp4a"; "enca"; "ac-3"; "ipcm"; "fpcm"; "Opus"].
Definition rate_place (d : boxdef) : bool :=
  match locate_open (bd_name d) "SampleRate" (bd_flds d) with
  | Some (o, s, f, SUint _) => (o =? 8 * 24) && (s =? 8 * 4) && negb (f_varint f)
  | _ => false
  end.
Lemma rate_places : forall t, In t audio_types ->
  always (bt t) (fun d => plain_box d && rate_place d) = true.
Proof.
  intros t I. cbn [audio_types In] in I.
  repeat (destruct I as [<-|I]; [vm_compute; reflexivity|]). destruct I.
Qed.

(** The sample rate of an audio sample entry that is not in a QuickTime wave box
    is the 16.16 number at 24: GetSampleRateInt returns its integral part,
    GetSampleRate all of it. *)
Theorem C46_sample_rate : forall t data size ctx pos d x n pos',
  In t audio_types -> IsQuickTimeCompatible ctx && UnderWave ctx = false ->
  pos <= lenN data -> lenN data < 2 ^ 62 ->
  unmarshal_any std_registry data (bt t) size ctx pos = (Ok (d, x, n), pos') ->
  let p := takeN n (skipN pos data) in
  audio_GetSampleRateInt x = number_at p 24 2 /\
  is_quotient (audio_GetSampleRate x) (Z.of_N (number_at p 24 4)) 16.
Proof.
  intros t data size ctx pos d x n pos' I Q Hp Hd H p.
  pose proof (unmarshal_any_def _ _ _ _ _ _ _ _ _ H) as G.
  pose proof (always_ok _ _ _ _ (rate_places t I) G) as C. cbv beta in C.
  apply andb_prop in C. destruct C as [PB C].
  destruct (decoded_bits _ _ _ _ _ _ _ _ _ Hp Hd PB H) as [L _]. fold p in L. clear G H.
  unfold rate_place in C. destruct (locate_open _ _ _) as [[[[o s] f] ty]|] eqn:E; [|discriminate].
  destruct ty; try discriminate. apply andb_prop in C. destruct C as [C C3]. apply andb_prop in C. destruct C as [C1 C2].
  apply N.eqb_eq in C1. apply N.eqb_eq in C2. apply negb_true_iff in C3. subst.
  rewrite layout_top in L.
  destruct (locate_open_ok _ _ _ Q _ _ _ _ _ _ _ _ E L) as (b1 & bk & b2 & v & len & EB & L1 & LV & LB).
  destruct (uint_val _ _ _ _ _ _ _ _ _ C3 LB) as (U1 & U2 & U3).
  pose proof (mid_bits _ _ _ _ _ _ EB L1 U2) as M.
  assert (LN : lenN (takeN 4 (skipN 24 p)) = 4) by (apply (f_equal lenN) in M; rewrite lenN_bits_of_bytes in M; lia).
  assert (NM : number_at p 24 4 = as_uint (lookup "SampleRate" x)) by (rewrite (number_bits _ _ _ _ M), LV; exact U1).
  rewrite <- LV in U3. split.
  - unfold audio_GetSampleRateInt, uint_of. rewrite (upper_half _ _ LN), NM, N.shiftr_div_pow2. change (2 ^ 16) with 65536.
    change (2 ^ (8 * 4)) with 4294967296 in U3. apply N.mod_small, N.div_lt_upper_bound; lia.
  - unfold audio_GetSampleRate, uint_of. rewrite NM. apply quotient64, fits_u32, U3.
Qed.
Print Assumptions C46_sample_rate.

(** 44100.5 Hz *)
Example C46_case_sample_rate :
  match decoded "mp4a" (hex "00000000000000010000000000000000000200100000" ++ hex "0000ac448000") audio_GetSampleRate with
  | Some x => is_quotient x 88201 1 | None => False end.
Proof. vm_compute. reflexivity. Qed.
