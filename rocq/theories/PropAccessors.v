(** C46: the accessors return the numbers that the payload holds for its version. *)
From Verif Require Import Base BaseProofs BitIO Schema Structs Methods Registry Marshal Unmarshal.
From Verif Require Import SpecCodec SpecLossless PropMarshal PropUnmarshal VersionFacts LocateFacts Accessors SpecAccessors
     AccessorProofs Vectors.
Local Open Scope string_scope.
Local Open Scope list_scope.
Local Open Scope N_scope.
Ltac Zify.zify_post_hook ::= Z.to_euclidean_division_equations.

(** the upper half of a four byte number *)
Lemma upper_half : forall p o, lenN (takeN 4 (skipN o p)) = 4 ->
  number_at p o 2 = number_at p o 4 / 65536.
Proof.
  intros p o H. unfold number_at. rewrite !takeN_firstn in *. change (N.to_nat 4) with 4%nat in *.
  change (N.to_nat 2) with 2%nat.
  destruct (skipN o p) as [|a [|b [|c [|d q]]]]; cbn in H; try discriminate.
  cbn [firstn].
  unfold be_to_N. cbn [be_to_N_acc]. pose proof (b2N_lt a). pose proof (b2N_lt b). pose proof (b2N_lt c). pose proof (b2N_lt d). lia.
Qed.
Lemma upper_signed : forall m z, m < 4294967296 -> toZ 32 m = z ->
  toZ 16 (ofZ 16 (Z.shiftr z 16)) = toZ 16 (m / 65536).
Proof.
  intros m z L <-. unfold toZ at 2, ofZ, toZ. rewrite Z.shiftr_div_pow2 by lia.
  change (2 ^ 32) with 4294967296. change (2 ^ (32 - 1)) with 2147483648. change (2 ^ 16) with 65536.
  change (2 ^ (16 - 1)) with 32768. change (Z.of_N 65536) with 65536%Z. change (2 ^ 16)%Z with 65536%Z.
  rewrite (N.mod_small m) by exact L.
  destruct (N.ltb_spec m 2147483648).
  - assert (E : (Z.of_N m / 65536 mod 65536 = Z.of_N (m / 65536))%Z).
    { rewrite Z.mod_small; [|split; [apply Z.div_pos; lia|apply Z.div_lt_upper_bound; lia]].
      rewrite N2Z.inj_div. reflexivity. }
    rewrite E, N2Z.id. reflexivity.
  - assert (E : ((Z.of_N m - Z.of_N 4294967296) / 65536 mod 65536 = Z.of_N (m / 65536))%Z).
    { rewrite N2Z.inj_div. change (Z.of_N 65536) with 65536%Z. change (Z.of_N 4294967296) with 4294967296%Z.
      replace (Z.of_N m - 4294967296)%Z with (Z.of_N m + (-65536) * 65536)%Z by lia.
      rewrite Z.div_add by lia. replace (Z.of_N m / 65536 + -65536)%Z with (Z.of_N m / 65536 + (-1) * 65536)%Z by lia.
      rewrite Z.mod_add by lia. apply Z.mod_small. split; [apply Z.div_pos; lia|apply Z.div_lt_upper_bound; lia]. }
    rewrite E, N2Z.id. reflexivity.
Qed.

(** ** Accessors without index *)
Definition uint_check (t a b : string) (p0 p1 : N * N) : Prop := forall has,
  always (bt t) (fun d => two_versions d && (at_place has 0 false a p0 d && at_place has 1 false b p1 d)) = true.
Definition int_check (t a b : string) (p0 p1 : N * N) : Prop := forall has,
  always (bt t) (fun d => two_versions d && (at_place has 0 true a p0 d && at_place has 1 true b p1 d)) = true.

(** [p]: the payload that was consumed.  Its first byte is the version. *)
Theorem C46_unsigned : forall t get a0 a1 data size ctx pos d x n pos',
  In (t, get, a0, a1) unsigned_accessors ->
  pos <= lenN data -> lenN data < 2 ^ 62 ->
  unmarshal_any std_registry data (bt t) size ctx pos = (Ok (d, x, n), pos') ->
  let p := takeN n (skipN pos data) in
  (number_at p 0 1 = 0 /\ get x = number_at p (fst a0) (snd a0)) \/
  (number_at p 0 1 = 1 /\ get x = number_at p (fst a1) (snd a1)).
Proof.
  intros t get a0 a1 data size ctx pos d x n pos' I Hp Hd H p.
  assert (K : forall a b p0 p1, uint_check t a b p0 p1 ->
    (number_at p 0 1 = 0 /\ get_version x = 0 /\ lenN (takeN (snd p0) (skipN (fst p0) p)) = snd p0 /\
     number_at p (fst p0) (snd p0) = as_uint (lookup a x) /\ as_uint (lookup a x) < 2 ^ (8 * snd p0)) \/
    (number_at p 0 1 = 1 /\ get_version x = 1 /\ lenN (takeN (snd p1) (skipN (fst p1) p)) = snd p1 /\
     number_at p (fst p1) (snd p1) = as_uint (lookup b x) /\ as_uint (lookup b x) < 2 ^ (8 * snd p1))).
  { intros a b [o0 w0] [o1 w1] C. cbn [fst snd].
    destruct (decoded_two _ _ _ _ _ _ _ _ _ _ Hp Hd H (C (flag_test x))) as (P & T & L & V & _).
    fold p in L. apply andb_prop in P. destruct P as [P0 P1].
    assert (F : full_box d = true).
    { unfold two_versions in T. apply andb_prop in T. destruct T as [T _]. apply andb_prop in T. destruct T as [T _].
      apply andb_prop in T. now destruct T. }
    destruct (head_ok d ctx x p F L) as [HV _].
    destruct V as [V|V]; [left|right]; (split; [congruence|]); (split; [exact V|]).
    - rewrite <- V in P0. destruct (at_place_ok ctx d x p false a o0 w0 L P0) as (X1 & X2 & X3). auto.
    - rewrite <- V in P1. destruct (at_place_ok ctx d x p false b o1 w1 L P1) as (X1 & X2 & X3). auto. }
  assert (D : forall a b, get = uint_either a b -> uint_check t a b a0 a1 ->
    (number_at p 0 1 = 0 /\ get x = number_at p (fst a0) (snd a0)) \/
    (number_at p 0 1 = 1 /\ get x = number_at p (fst a1) (snd a1))).
  { intros a b -> C. unfold uint_either, by_version, uint_of.
    destruct (K a b a0 a1 C) as [(V & V' & _ & E & _)|(V & V' & _ & E & _)]; [left|right]; (split; [exact V|]); rewrite V'; now rewrite E. }
  assert (W : forall a o0 o1, (forall y, get y = N.shiftr (uint_of a y) 16 mod 2 ^ 16) -> uint_check t a a (o0, 4) (o1, 4) ->
    a0 = (o0, 2) -> a1 = (o1, 2) ->
    (number_at p 0 1 = 0 /\ get x = number_at p (fst a0) (snd a0)) \/
    (number_at p 0 1 = 1 /\ get x = number_at p (fst a1) (snd a1))).
  { intros a o0 o1 -> C -> ->. cbn [fst snd]. unfold uint_of. rewrite N.shiftr_div_pow2. change (2 ^ 16) with 65536.
    destruct (K a a _ _ C) as [(V & V' & L & E & B)|(V & V' & L & E & B)]; cbn [fst snd] in *; [left|right];
      (split; [exact V|]); rewrite (upper_half _ _ L), E; change (2 ^ (8 * 4)) with 4294967296 in B;
      apply N.mod_small; apply N.div_lt_upper_bound; lia. }
  cbn [unsigned_accessors In] in I.
  repeat (destruct I as [I|I]; [injection I as <- <- <- <-|]); [..|destruct I].
  all: try (eapply D; [reflexivity|]; intros has; vm_compute; reflexivity).
  all: (eapply W; [intros; reflexivity| |reflexivity|reflexivity]; intros has; vm_compute; reflexivity).
Qed.
Print Assumptions C46_unsigned.

Theorem C46_signed : forall t get a0 a1 data size ctx pos d x n pos',
  In (t, get, a0, a1) signed_accessors ->
  pos <= lenN data -> lenN data < 2 ^ 62 ->
  unmarshal_any std_registry data (bt t) size ctx pos = (Ok (d, x, n), pos') ->
  let p := takeN n (skipN pos data) in
  (number_at p 0 1 = 0 /\ get x = signed_at p (fst a0) (snd a0)) \/
  (number_at p 0 1 = 1 /\ get x = signed_at p (fst a1) (snd a1)).
Proof.
  intros t get a0 a1 data size ctx pos d x n pos' I Hp Hd H p.
  assert (K : forall a b p0 p1, int_check t a b p0 p1 ->
    (number_at p 0 1 = 0 /\ get_version x = 0 /\ lenN (takeN (snd p0) (skipN (fst p0) p)) = snd p0 /\
     signed_at p (fst p0) (snd p0) = as_Z (lookup a x)) \/
    (number_at p 0 1 = 1 /\ get_version x = 1 /\ lenN (takeN (snd p1) (skipN (fst p1) p)) = snd p1 /\
     signed_at p (fst p1) (snd p1) = as_Z (lookup b x))).
  { intros a b [o0 w0] [o1 w1] C. cbn [fst snd].
    destruct (decoded_two _ _ _ _ _ _ _ _ _ _ Hp Hd H (C (flag_test x))) as (P & T & L & V & _).
    fold p in L. apply andb_prop in P. destruct P as [P0 P1].
    assert (F : full_box d = true).
    { unfold two_versions in T. apply andb_prop in T. destruct T as [T _]. apply andb_prop in T. destruct T as [T _].
      apply andb_prop in T. now destruct T. }
    destruct (head_ok d ctx x p F L) as [HV _].
    destruct V as [V|V]; [left|right]; (split; [congruence|]); (split; [exact V|]).
    - rewrite <- V in P0. destruct (at_place_ok ctx d x p true a o0 w0 L P0) as (X1 & X2 & X3). auto.
    - rewrite <- V in P1. destruct (at_place_ok ctx d x p true b o1 w1 L P1) as (X1 & X2 & X3). auto. }
  assert (D : forall a b, get = int_either a b -> int_check t a b a0 a1 ->
    (number_at p 0 1 = 0 /\ get x = signed_at p (fst a0) (snd a0)) \/
    (number_at p 0 1 = 1 /\ get x = signed_at p (fst a1) (snd a1))).
  { intros a b -> C. unfold int_either, by_version, int_of.
    destruct (K a b a0 a1 C) as [(V & V' & _ & E)|(V & V' & _ & E)]; [left|right]; (split; [exact V|]); rewrite V'; now rewrite E. }
  assert (W : forall a o0 o1, (forall y, get y = toZ 16 (ofZ 16 (Z.shiftr (int_of a y) 16))) -> int_check t a a (o0, 4) (o1, 4) ->
    a0 = (o0, 2) -> a1 = (o1, 2) ->
    (number_at p 0 1 = 0 /\ get x = signed_at p (fst a0) (snd a0)) \/
    (number_at p 0 1 = 1 /\ get x = signed_at p (fst a1) (snd a1))).
  { intros a o0 o1 -> C -> ->. cbn [fst snd]. unfold int_of.
    assert (Q : forall o, lenN (takeN 4 (skipN o p)) = 4 -> signed_at p o 4 = as_Z (lookup a x) ->
              toZ 16 (ofZ 16 (Z.shiftr (as_Z (lookup a x)) 16)) = signed_at p o 2).
    { intros o L E. unfold signed_at in E |- *. rewrite (upper_half _ _ L).
      change (8 * 2) with 16. change (8 * 4) with 32 in E.
      apply upper_signed; [|exact E]. unfold number_at. pose proof (be_to_N_lt (takeN 4 (skipN o p))) as B.
      rewrite L in B. exact B. }
    destruct (K a a _ _ C) as [(V & V' & L & E)|(V & V' & L & E)]; cbn [fst snd] in *; [left|right];
      (split; [exact V|]); now apply Q. }
  cbn [signed_accessors In] in I.
  repeat (destruct I as [I|I]; [injection I as <- <- <- <-|]); [..|destruct I].
  all: try (eapply D; [reflexivity|]; intros has; vm_compute; reflexivity).
  all: (eapply W; [intros; reflexivity| |reflexivity|reflexivity]; intros has; vm_compute; reflexivity).
Qed.
Print Assumptions C46_signed.

(** A movie header of version 1 with times beyond 2^32 and a negative rate. *)
Example C46_case_mvhd :
  let p := hex "01000000000000010000000200000003000000040000000a0000000500000006fffe8000010000000000000000000000000100000000000000000000000000000001000000000000000000000000000000400000000000000000000000000000000000000000000000000000000000000000000002" in
  match unmarshal_any std_registry p (bt "mvhd") (lenN p) ctx0 0 with
  | (Ok (d, x, n), _) => (n, mvhd_GetCreationTime x, mvhd_GetModificationTime x, mvhd_GetDuration x, mvhd_GetRateInt x)
  | _ => (0, 0, 0, 0, 0%Z)
  end = (112, 2 ^ 32 + 2, 3 * 2 ^ 32 + 4, 5 * 2 ^ 32 + 6, (-2)%Z).
Proof. vm_compute. reflexivity. Qed.

(** smhd has one version; the balance is an 8.8 number, its integer part the byte at 4 *)
Lemma upper_signed8 : forall m z, m < 65536 -> toZ 16 m = z ->
  toZ 8 (ofZ 8 (Z.shiftr z 8)) = toZ 8 (m / 256).
Proof.
  intros m z L <-. unfold toZ at 2, ofZ, toZ. rewrite Z.shiftr_div_pow2 by lia.
  change (2 ^ 16) with 65536. change (2 ^ (16 - 1)) with 32768. change (2 ^ 8) with 256.
  change (2 ^ (8 - 1)) with 128. change (Z.of_N 256) with 256%Z. change (2 ^ 8)%Z with 256%Z.
  rewrite (N.mod_small m) by exact L.
  destruct (N.ltb_spec m 32768).
  - assert (E : (Z.of_N m / 256 mod 256 = Z.of_N (m / 256))%Z).
    { rewrite Z.mod_small; [|split; [apply Z.div_pos; lia|apply Z.div_lt_upper_bound; lia]].
      rewrite N2Z.inj_div. reflexivity. }
    rewrite E, N2Z.id. reflexivity.
  - assert (E : ((Z.of_N m - Z.of_N 65536) / 256 mod 256 = Z.of_N (m / 256))%Z).
    { rewrite N2Z.inj_div. change (Z.of_N 256) with 256%Z. change (Z.of_N 65536) with 65536%Z.
      replace (Z.of_N m - 65536)%Z with (Z.of_N m + (-256) * 256)%Z by lia.
      rewrite Z.div_add by lia. replace (Z.of_N m / 256 + -256)%Z with (Z.of_N m / 256 + (-1) * 256)%Z by lia.
      rewrite Z.mod_add by lia. apply Z.mod_small. split; [apply Z.div_pos; lia|apply Z.div_lt_upper_bound; lia]. }
    rewrite E, N2Z.id. reflexivity.
Qed.
Theorem C46_balance : forall data size ctx pos d x n pos',
  pos <= lenN data -> lenN data < 2 ^ 62 ->
  unmarshal_any std_registry data (bt "smhd") size ctx pos = (Ok (d, x, n), pos') ->
  smhd_GetBalanceInt x = signed_at (takeN n (skipN pos data)) 4 1.
Proof.
  intros data size ctx pos d x n pos' Hp Hd H.
  pose proof (unmarshal_any_def _ _ _ _ _ _ _ _ _ H) as G.
  assert (A : forall has, always (bt "smhd") (fun d => plain_box d && full_box d && negb (String.eqb (bd_name d) "Meta") &&
     match bd_versions d with [a] => a =? 0 | _ => false end && at_place has 0 true "Balance" (4, 2) d) = true)
    by (intros has; vm_compute; reflexivity).
  pose proof (always_ok _ _ _ _ (A (flag_test x)) G) as C. cbv beta in C. clear A.
  apply andb_prop in C. destruct C as [C P]. apply andb_prop in C. destruct C as [C V].
  apply andb_prop in C. destruct C as [C M]. apply andb_prop in C. destruct C as [PB F].
  destruct (decoded_bits _ _ _ _ _ _ _ _ _ Hp Hd PB H) as [L _].
  destruct (C11_never_succeeds_unsupported _ _ _ _ _ _ _ _ _ Hp Hd H F) as [W _].
  { intros E. rewrite E in M. discriminate. }
  assert (GV : get_version x = 0).
  { clear - V W. destruct (bd_versions d) as [|a [|? ?]]; try discriminate V. apply N.eqb_eq in V. subst.
    destruct W as [W|[W|[]]]; [discriminate|auto]. }
  rewrite <- GV in P.
  destruct (at_place_ok ctx d x _ true "Balance" 4 2 L P) as (X1 & X2 & _).
  unfold smhd_GetBalanceInt, int_of. set (p := takeN n (skipN pos data)) in *.
  unfold signed_at in X2 |- *. change (8 * 2) with 16 in X2. change (8 * 1) with 8.
  assert (Q : number_at p 4 1 = number_at p 4 2 / 256 /\ number_at p 4 2 < 65536).
  { unfold number_at. rewrite !takeN_firstn in *. change (N.to_nat 2) with 2%nat in *. change (N.to_nat 1) with 1%nat.
    clear - X1. destruct (skipN 4 p) as [|a [|b q]]; cbn in X1; try discriminate X1. cbn [firstn]. unfold be_to_N. cbn [be_to_N_acc].
    pose proof (b2N_lt a). pose proof (b2N_lt b). lia. }
  destruct Q as [Q1 Q2]. rewrite Q1. now apply upper_signed8.
Qed.
Print Assumptions C46_balance.

(** ** Accessors with index *)
Lemma entry_at : forall x i e, nthN i (items "Entries" x) = Some (VStruct e) -> entry x (Z.of_N i) = Ok e.
Proof.
  intros x i e H. unfold entry, index. destruct (Z.leb_spec 0 (Z.of_N i)); [|lia]. now rewrite N2Z.id, H.
Qed.
(** the only definition, decoded *)
Lemma decoded_the : forall data t size ctx pos d x n pos',
  pos <= lenN data -> lenN data < 2 ^ 62 ->
  unmarshal_any std_registry data t size ctx pos = (Ok (d, x, n), pos') ->
  unique t && two_versions (the_def t) = true ->
  d = the_def t /\ (get_version x = 0 \/ get_version x = 1) /\
  layout (bd_name (the_def t)) (bd_flds (the_def t)) ctx x = Some (bits_of_bytes (takeN n (skipN pos data))) /\
  number_at (takeN n (skipN pos data)) 0 1 = get_version x /\ number_at (takeN n (skipN pos data)) 1 3 = get_flags x.
Proof.
  intros data t size ctx pos d x n pos' Hp Hd H U. apply andb_prop in U. destruct U as [U T].
  pose proof (unmarshal_any_def _ _ _ _ _ _ _ _ _ H) as G.
  pose proof (the_def_ok _ _ _ U G) as E. subst d. split; [reflexivity|].
  unfold two_versions in T. apply andb_prop in T. destruct T as [T V]. apply andb_prop in T. destruct T as [T M].
  apply andb_prop in T. destruct T as [PB F].
  destruct (decoded_bits _ _ _ _ _ _ _ _ _ Hp Hd PB H) as [L _].
  destruct (head_ok _ _ _ _ F L) as [HV HF].
  destruct (C11_never_succeeds_unsupported _ _ _ _ _ _ _ _ _ Hp Hd H F) as [W _].
  { intros E. rewrite E in M. discriminate. }
  split; [|repeat split; auto].
  clear - V W. destruct (bd_versions (the_def t)) as [|a [|b [|? ?]]]; try discriminate V.
  apply andb_prop in V. destruct V as [V1 V2]. apply N.eqb_eq in V1. apply N.eqb_eq in V2. subst.
  destruct W as [W|[W|[W|[]]]]; [discriminate|left|right]; auto.
Qed.
Lemma count_at : forall ctx t x p o cname,
  layout (bd_name (the_def t)) (bd_flds (the_def t)) ctx x = Some (bits_of_bytes p) ->
  at_place (flag_test x) (get_version x) false cname (o, 4) (the_def t) = true ->
  number_at p o 4 = as_uint (lookup cname x).
Proof. intros ctx t x p o cname L C. now destruct (at_place_ok ctx _ x p false cname o 4 L C) as (_ & X & _). Qed.

(** elst, 8.6.6: entries of 12 bytes in version 0 and of 20 in version 1 *)
Theorem C46_elst : forall data size ctx pos d x n pos' i,
  pos <= lenN data -> lenN data < 2 ^ 62 ->
  unmarshal_any std_registry data (bt "elst") size ctx pos = (Ok (d, x, n), pos') ->
  let p := takeN n (skipN pos data) in
  i < number_at p 4 4 -> number_at p 4 4 <> 0xffffffff ->
  (number_at p 0 1 = 0 /\
   elst_GetSegmentDuration x (Z.of_N i) = Ok (number_at p (8 + i * 12) 4) /\
   elst_GetMediaTime x (Z.of_N i) = Ok (signed_at p (8 + i * 12 + 4) 4)) \/
  (number_at p 0 1 = 1 /\
   elst_GetSegmentDuration x (Z.of_N i) = Ok (number_at p (8 + i * 20) 8) /\
   elst_GetMediaTime x (Z.of_N i) = Ok (signed_at p (8 + i * 20 + 8) 8)).
Proof.
  intros data size ctx pos d x n pos' i Hp Hd H p Hi Hn.
  destruct (decoded_the _ _ _ _ _ _ _ _ _ Hp Hd H) as (-> & V & L & HV & _); [vm_compute; reflexivity|]. fold p in L, HV.
  rewrite HV.
  assert (CN : number_at p 4 4 = as_uint (lookup "EntryCount" x)).
  { apply (count_at ctx (bt "elst") x p 4 "EntryCount" L). generalize (flag_test x). intros has.
    destruct V as [-> | ->]; vm_compute; reflexivity. }
  rewrite CN in Hi, Hn.
  assert (DN : bd_name (the_def (bt "elst")) = "Elst") by (vm_compute; reflexivity).
  set (dyn := fun s => if String.eqb s "Entries" then Some (if get_version x =? 0 then 96 else 160) else None).
  assert (HD : forall f s, f_sizeDyn f = true -> dyn (f_name f) = Some s ->
    resolve_size (bd_name (the_def (bt "elst"))) (spec_env x ctx x) f = Some s).
  { intros f s D E. unfold dyn in E. destruct (String.eqb_spec (f_name f) "Entries") as [N|]; [|discriminate].
    unfold resolve_size. rewrite D, N. rewrite DN.
    change (m_size "Elst" "Entries") with (MIf (CVersion 0) (MConst 96) (MIf (CVersion 1) (MConst 160) MPanic)).
    cbn [meval ceval spec_env e_ver]. unfold spec_env. cbn [e_ver]. destruct V as [V|V]; rewrite V in *; exact E. }
  assert (ML : m_len (bd_name (the_def (bt "elst"))) "Entries" = MField "EntryCount") by (vm_compute; reflexivity).
  unfold elst_GetSegmentDuration, elst_GetMediaTime, by_version.
  destruct V as [V|V]; [left|right]; (split; [exact V|]); rewrite V; cbn [N.eqb Pos.eqb].
  - destruct (entry_ok ctx (the_def (bt "elst")) x p dyn "Entries" "SegmentDurationV0" 8 12 0 4 false "EntryCount" i L HD)
      as (e & N1 & E1); auto.
    { rewrite V. unfold dyn. rewrite V. generalize (flag_test x). intros has. vm_compute. reflexivity. }
    destruct (entry_ok ctx (the_def (bt "elst")) x p dyn "Entries" "MediaTimeV0" 8 12 4 4 true "EntryCount" i L HD)
      as (e' & N2 & E2); auto.
    { rewrite V. unfold dyn. rewrite V. generalize (flag_test x). intros has. vm_compute. reflexivity. }
    rewrite N1 in N2. injection N2 as <-. rewrite (entry_at _ _ _ N1). cbn [rmap]. unfold uint_of, int_of.
    rewrite <- E1, <- E2, N.add_0_r. split; reflexivity.
  - destruct (entry_ok ctx (the_def (bt "elst")) x p dyn "Entries" "SegmentDurationV1" 8 20 0 8 false "EntryCount" i L HD)
      as (e & N1 & E1); auto.
    { rewrite V. unfold dyn. rewrite V. generalize (flag_test x). intros has. vm_compute. reflexivity. }
    destruct (entry_ok ctx (the_def (bt "elst")) x p dyn "Entries" "MediaTimeV1" 8 20 8 8 true "EntryCount" i L HD)
      as (e' & N2 & E2); auto.
    { rewrite V. unfold dyn. rewrite V. generalize (flag_test x). intros has. vm_compute. reflexivity. }
    rewrite N1 in N2. injection N2 as <-. rewrite (entry_at _ _ _ N1). cbn [rmap]. unfold uint_of, int_of.
    rewrite <- E1, <- E2, N.add_0_r. split; reflexivity.
Qed.
Print Assumptions C46_elst.

(** ctts, 8.6.1.3: the second number of each pair, signed in version 1 *)
Theorem C46_ctts : forall data size ctx pos d x n pos' i,
  pos <= lenN data -> lenN data < 2 ^ 62 ->
  unmarshal_any std_registry data (bt "ctts") size ctx pos = (Ok (d, x, n), pos') ->
  let p := takeN n (skipN pos data) in
  i < number_at p 4 4 -> number_at p 4 4 <> 0xffffffff ->
  (number_at p 0 1 = 0 /\
   ctts_GetSampleOffset x (Z.of_N i) = Ok (Z.of_N (number_at p (8 + i * 8 + 4) 4))) \/
  (number_at p 0 1 = 1 /\ ctts_GetSampleOffset x (Z.of_N i) = Ok (signed_at p (8 + i * 8 + 4) 4)).
Proof.
  intros data size ctx pos d x n pos' i Hp Hd H p Hi Hn.
  destruct (decoded_the _ _ _ _ _ _ _ _ _ Hp Hd H) as (-> & V & L & HV & _); [vm_compute; reflexivity|]. fold p in L, HV.
  rewrite HV.
  assert (CN : number_at p 4 4 = as_uint (lookup "EntryCount" x)).
  { apply (count_at ctx (bt "ctts") x p 4 "EntryCount" L). generalize (flag_test x). intros has.
    destruct V as [-> | ->]; vm_compute; reflexivity. }
  rewrite CN in Hi, Hn.
  assert (HD : forall f s, f_sizeDyn f = true -> (fun _ => None) (f_name f) = Some s ->
    resolve_size (bd_name (the_def (bt "ctts"))) (spec_env x ctx x) f = Some s) by (intros f s _ E; discriminate E).
  assert (ML : m_len (bd_name (the_def (bt "ctts"))) "Entries" = MField "EntryCount") by (vm_compute; reflexivity).
  unfold ctts_GetSampleOffset, by_version.
  destruct V as [V|V]; [left|right]; (split; [exact V|]); rewrite V; cbn [N.eqb Pos.eqb].
  - destruct (entry_ok ctx (the_def (bt "ctts")) x p _ "Entries" "SampleOffsetV0" 8 8 4 4 false "EntryCount" i L HD)
      as (e & N1 & E1); auto.
    { rewrite V. generalize (flag_test x). intros has. vm_compute. reflexivity. }
    rewrite (entry_at _ _ _ N1). cbn [rmap]. unfold uint_of. now rewrite E1.
  - destruct (entry_ok ctx (the_def (bt "ctts")) x p _ "Entries" "SampleOffsetV1" 8 8 4 4 true "EntryCount" i L HD)
      as (e & N1 & E1); auto.
    { rewrite V. generalize (flag_test x). intros has. vm_compute. reflexivity. }
    rewrite (entry_at _ _ _ N1). cbn [rmap]. unfold int_of. now rewrite E1.
Qed.
Print Assumptions C46_ctts.

(** trun: when the flag 0x800 says that the entries have composition offsets.  The
    flags are the bytes 1 to 3. *)
Theorem C46_trun : forall data size ctx pos d x n pos' i,
  pos <= lenN data -> lenN data < 2 ^ 62 ->
  unmarshal_any std_registry data (bt "trun") size ctx pos = (Ok (d, x, n), pos') ->
  let p := takeN n (skipN pos data) in
  let flags := number_at p 1 3 in
  let off := trun_base flags + i * trun_entry flags + trun_before_cto flags in
  i < number_at p 4 4 -> number_at p 4 4 <> 0xffffffff -> N.land flags 0x800 <> 0 ->
  (number_at p 0 1 = 0 /\
   trun_GetSampleCompositionTimeOffset x (Z.of_N i) = Ok (Z.of_N (number_at p off 4))) \/
  (number_at p 0 1 = 1 /\
   trun_GetSampleCompositionTimeOffset x (Z.of_N i) = Ok (signed_at p off 4)).
Proof.
  intros data size ctx pos d x n pos' i Hp Hd H p flags off Hi Hn H8.
  destruct (decoded_the _ _ _ _ _ _ _ _ _ Hp Hd H) as (-> & V & L & HV & HF); [vm_compute; reflexivity|]. fold p in L, HV, HF.
  rewrite HV. fold flags in HF.
  assert (CN : number_at p 4 4 = as_uint (lookup "SampleCount" x)).
  { apply (count_at ctx (bt "trun") x p 4 "SampleCount" L). generalize (flag_test x). intros has.
    destruct V as [-> | ->]; vm_compute; reflexivity. }
  rewrite CN in Hi, Hn.
  assert (DN : bd_name (the_def (bt "trun")) = "Trun") by (vm_compute; reflexivity).
  destruct (meval (spec_env x ctx x) (m_size "Trun" "Entries")) as [esz|] eqn:ES.
  2:{ exfalso. change (m_size "Trun" "Entries") with
        (MAdd (MAdd (MAdd (MIf (CFlag 256) (MConst 32) (MConst 0))
                       (MIf (CFlag 512) (MConst 32) (MConst 0)))
                 (MIf (CFlag 1024) (MConst 32) (MConst 0)))
           (MIf (CFlag 2048) (MConst 32) (MConst 0))) in ES.
      cbn [meval] in ES. destruct (ceval _ (CFlag 256)), (ceval _ (CFlag 512)), (ceval _ (CFlag 1024)), (ceval _ (CFlag 2048));
        discriminate ES. }
  set (dyn := fun s => if String.eqb s "Entries" then Some esz else None).
  assert (HD : forall f s, f_sizeDyn f = true -> dyn (f_name f) = Some s ->
    resolve_size (bd_name (the_def (bt "trun"))) (spec_env x ctx x) f = Some s).
  { intros f s D E. unfold dyn in E. destruct (String.eqb_spec (f_name f) "Entries") as [N|]; [|discriminate E].
    unfold resolve_size. rewrite D, N, DN, ES. exact E. }
  assert (ML : m_len (bd_name (the_def (bt "trun"))) "Entries" = MField "SampleCount") by (vm_compute; reflexivity).
  assert (FT : forall m k, bytes_if m flags k = if flag_test x m then k else 0).
  { intros m k. unfold bytes_if, flag_test. rewrite HF. now destruct (_ =? 0). }
  assert (T8 : flag_test x 0x800 = true).
  { unfold flag_test. rewrite <- HF. destruct (N.eqb_spec (N.land flags 0x800) 0); [contradiction|reflexivity]. }
  assert (PL : forall (v : N) (nm : string) (sgn : bool), (v, nm, sgn) = (0, "SampleCompositionTimeOffsetV0", false) \/
      (v, nm, sgn) = (1, "SampleCompositionTimeOffsetV1", true) ->
    entry_place (bd_name (the_def (bt "trun"))) v (flag_test x) dyn "Entries" nm (bd_flds (the_def (bt "trun"))) =
    Some (8 * trun_base flags, 8 * trun_entry flags, 8 * trun_before_cto flags, 8 * 4, sgn)).
  { intros v nm sgn Q. unfold trun_base, trun_entry, trun_before_cto. rewrite !FT.
    unfold dyn. revert T8. generalize (flag_test x). clear - Q. intros has T8.
    transitivity (Some (8 * (8 + (if has 1 then 4 else 0) + (if has 4 then 4 else 0)),
      8 * ((if has 256 then 4 else 0) + (if has 512 then 4 else 0) + (if has 1024 then 4 else 0) + 4),
      8 * ((if has 256 then 4 else 0) + (if has 512 then 4 else 0) + (if has 1024 then 4 else 0)), 8 * 4, sgn)); [|now rewrite T8].
    rewrite (entry_place_ext _ _ has (fun m => if m =? 1 then has 1 else if m =? 4 then has 4 else if m =? 256 then has 256
      else if m =? 512 then has 512 else if m =? 1024 then has 1024 else if m =? 2048 then has 2048 else has m)).
    2:{ intros m. repeat (match goal with |- context[m =? ?k] => destruct (N.eqb_spec m k) as [->|_]; [reflexivity|] end). reflexivity. }
    rewrite T8. clear T8.
    destruct Q as [Q|Q]; injection Q as -> -> ->;
      destruct (has 1), (has 4), (has 256), (has 512), (has 1024); vm_compute; reflexivity. }
  unfold trun_GetSampleCompositionTimeOffset, by_version.
  destruct V as [V|V]; [left|right]; (split; [exact V|]); rewrite V; cbn [N.eqb Pos.eqb].
  - destruct (entry_ok ctx (the_def (bt "trun")) x p dyn "Entries" "SampleCompositionTimeOffsetV0" (trun_base flags) (trun_entry flags)
                (trun_before_cto flags) 4 false "SampleCount" i L HD) as (e & N1 & E1); auto.
    { rewrite V. apply PL. now left. }
    rewrite (entry_at _ _ _ N1). cbn [rmap]. unfold uint_of. now rewrite <- E1.
  - destruct (entry_ok ctx (the_def (bt "trun")) x p dyn "Entries" "SampleCompositionTimeOffsetV1" (trun_base flags) (trun_entry flags)
                (trun_before_cto flags) 4 true "SampleCount" i L HD) as (e & N1 & E1); auto.
    { rewrite V. apply PL. now right. }
    rewrite (entry_at _ _ _ N1). cbn [rmap]. unfold int_of. now rewrite <- E1.
Qed.
Print Assumptions C46_trun.

(** saio: a list of offsets of 4 or 8 bytes *)
Theorem C46_saio : forall data size ctx pos d x n pos' i,
  pos <= lenN data -> lenN data < 2 ^ 62 ->
  unmarshal_any std_registry data (bt "saio") size ctx pos = (Ok (d, x, n), pos') ->
  let p := takeN n (skipN pos data) in
  let base := saio_base (number_at p 1 3) in
  i < number_at p base 4 -> number_at p base 4 <> 0xffffffff ->
  (number_at p 0 1 = 0 /\ saio_GetOffset x (Z.of_N i) = Ok (number_at p (base + 4 + i * 4) 4)) \/
  (number_at p 0 1 = 1 /\ saio_GetOffset x (Z.of_N i) = Ok (number_at p (base + 4 + i * 8) 8)).
Proof.
  intros data size ctx pos d x n pos' i Hp Hd H p base Hi Hn.
  destruct (decoded_the _ _ _ _ _ _ _ _ _ Hp Hd H) as (-> & V & L & HV & HF); [vm_compute; reflexivity|]. fold p in L, HV, HF.
  rewrite HV.
  assert (FB : base = 4 + if flag_test x 1 then 8 else 0).
  { unfold base, saio_base, bytes_if, flag_test. rewrite HF. now destruct (_ =? 0). }
  assert (CN : number_at p base 4 = as_uint (lookup "EntryCount" x)).
  { apply (count_at ctx (bt "saio") x p base "EntryCount" L). rewrite FB. generalize (flag_test x). intros has.
    destruct V as [-> | ->]; vm_compute; destruct (has 1); reflexivity. }
  rewrite CN in Hi, Hn.
  assert (ML : forall nm, nm = "OffsetV0" \/ nm = "OffsetV1" -> m_len (bd_name (the_def (bt "saio"))) nm = MField "EntryCount")
    by (intros nm [-> | ->]; vm_compute; reflexivity).
  assert (IX : forall nm v, nthN i (items nm x) = Some v -> index (items nm x) (Z.of_N i) = Ok v).
  { intros nm v E. unfold index. destruct (Z.leb_spec 0 (Z.of_N i)); [|lia]. now rewrite N2Z.id, E. }
  unfold saio_GetOffset, by_version.
  destruct V as [V|V]; [left|right]; (split; [exact V|]); rewrite V; cbn [N.eqb Pos.eqb].
  - destruct (ints_ok ctx (the_def (bt "saio")) x p "OffsetV0" (base + 4) 4 "EntryCount" i L) as (v & N1 & E1); auto.
    { rewrite V, FB. generalize (flag_test x). intros has. vm_compute. destruct (has 1); reflexivity. }
    rewrite (IX _ _ N1). cbn [rmap]. now rewrite E1.
  - destruct (ints_ok ctx (the_def (bt "saio")) x p "OffsetV1" (base + 4) 8 "EntryCount" i L) as (v & N1 & E1); auto.
    { rewrite V, FB. generalize (flag_test x). intros has. vm_compute. destruct (has 1); reflexivity. }
    rewrite (IX _ _ N1). cbn [rmap]. now rewrite E1.
Qed.
Print Assumptions C46_saio.

Lemma lt4 : forall y, y < 4 -> y = 0 \/ y = 1 \/ y = 2 \/ y = 3.
Proof. lia. Qed.
Lemma mod4_lt : forall y, y mod 4 < 4.
Proof. intros. now apply N.mod_lt. Qed.
Lemma tfra_number_size : forall env fname lname y,
  (fname, lname) = ("TrafNumber", "LengthSizeOfTrafNum") \/ (fname, lname) = ("TrunNumber", "LengthSizeOfTrunNum") \/
  (fname, lname) = ("SampleNumber", "LengthSizeOfSampleNum") ->
  as_uint (lookup lname (e_self env)) = y -> y < 4 -> meval env (m_size "Tfra" fname) = Some ((y + 1) * 8).
Proof.
  intros env fname lname y Q E R.
  assert (M : m_size "Tfra" fname = MMul (MAdd (MField lname) (MConst 1)) (MConst 8))
    by (destruct Q as [Q|[Q|Q]]; injection Q as -> ->; reflexivity).
  rewrite M. cbn [meval obind]. rewrite E. destruct (lt4 _ R) as [->|[->|[->| ->]]]; reflexivity.
Qed.
Lemma tfra_entry_size : forall env a b c, e_ver env = 0 \/ e_ver env = 1 ->
  as_uint (lookup "LengthSizeOfTrafNum" (e_self env)) = a -> as_uint (lookup "LengthSizeOfTrunNum" (e_self env)) = b ->
  as_uint (lookup "LengthSizeOfSampleNum" (e_self env)) = c -> a < 4 -> b < 4 -> c < 4 ->
  meval env (m_size "Tfra" "Entries") = Some ((if e_ver env =? 0 then 64 else 128) + (a + 1) * 8 + (b + 1) * 8 + (c + 1) * 8).
Proof.
  intros env a b c V A B C Ra Rb Rc.
  change (m_size "Tfra" "Entries") with
        (let traf := MMul (MAdd (MField "LengthSizeOfTrafNum") (MConst 1)) (MConst 8) in
         let trun := MMul (MAdd (MField "LengthSizeOfTrunNum") (MConst 1)) (MConst 8) in
         let smpl := MMul (MAdd (MField "LengthSizeOfSampleNum") (MConst 1)) (MConst 8) in
         MIf (CVersion 0) (MAdd (MAdd (MAdd (MConst 64) traf) trun) smpl)
          (MIf (CVersion 1) (MAdd (MAdd (MAdd (MConst 128) traf) trun) smpl) MPanic)). cbv zeta.
  cbn [meval ceval obind]. rewrite A, B, C. destruct V as [-> | ->]; cbn [N.eqb Pos.eqb];
  destruct (lt4 _ Ra) as [->|[->|[->| ->]]]; destruct (lt4 _ Rb) as [->|[->|[->| ->]]];
  destruct (lt4 _ Rc) as [->|[->|[->| ->]]]; reflexivity.
Qed.
(** tfra, 8.8.10: the time and the offset, 4 or 8 bytes each, before three numbers
    whose lengths are in the box *)
Theorem C46_tfra : forall data size ctx pos d x n pos' i,
  pos <= lenN data -> lenN data < 2 ^ 62 ->
  unmarshal_any std_registry data (bt "tfra") size ctx pos = (Ok (d, x, n), pos') ->
  let p := takeN n (skipN pos data) in
  i < number_at p 12 4 -> number_at p 12 4 <> 0xffffffff ->
  (number_at p 0 1 = 0 /\
   tfra_GetTime x (Z.of_N i) = Ok (number_at p (16 + i * (8 + tfra_last p)) 4) /\
   tfra_GetMoofOffset x (Z.of_N i) = Ok (number_at p (16 + i * (8 + tfra_last p) + 4) 4)) \/
  (number_at p 0 1 = 1 /\
   tfra_GetTime x (Z.of_N i) = Ok (number_at p (16 + i * (16 + tfra_last p)) 8) /\
   tfra_GetMoofOffset x (Z.of_N i) = Ok (number_at p (16 + i * (16 + tfra_last p) + 8) 8)).
Proof.
  intros data size ctx pos d x n pos' i Hp Hd H p Hi Hn.
  destruct (decoded_the _ _ _ _ _ _ _ _ _ Hp Hd H) as (-> & V & L & HV & _); [vm_compute; reflexivity|]. fold p in L, HV.
  rewrite HV.
  assert (CN : number_at p 12 4 = as_uint (lookup "NumberOfEntry" x) /\ 16 <= lenN p).
  { destruct (at_place_ok ctx (the_def (bt "tfra")) x p false "NumberOfEntry" 12 4 L) as (LP & X & _).
    - generalize (flag_test x). intros has. destruct V as [-> | ->]; vm_compute; reflexivity.
    - split; [exact X|]. rewrite lenN_takeN, lenN_skipN in LP. lia. }
  destruct CN as [CN LP]. rewrite CN in Hi, Hn.
  assert (BP : forall name j, (name, j) = ("LengthSizeOfTrafNum", 26) \/ (name, j) = ("LengthSizeOfTrunNum", 28) \/
                 (name, j) = ("LengthSizeOfSampleNum", 30) ->
    bits_place (bd_name (the_def (bt "tfra"))) (flag_test x) (get_version x) name (bd_flds (the_def (bt "tfra"))) = Some (64 + j, 2)).
  { intros name j Q. generalize (flag_test x). intros has.
    destruct Q as [Q|[Q|Q]]; injection Q as -> ->; destruct V as [-> | ->]; vm_compute; reflexivity. }
  pose proof (bits_place_ok ctx (the_def (bt "tfra")) x p _ 8 26 2 L (BP _ _ (or_introl eq_refl)) ltac:(lia) ltac:(lia)) as FA.
  pose proof (bits_place_ok ctx (the_def (bt "tfra")) x p _ 8 28 2 L (BP _ _ (or_intror (or_introl eq_refl))) ltac:(lia) ltac:(lia)) as FB.
  pose proof (bits_place_ok ctx (the_def (bt "tfra")) x p _ 8 30 2 L (BP _ _ (or_intror (or_intror eq_refl))) ltac:(lia) ltac:(lia)) as FC.
  clear BP.
  set (a := as_uint (lookup "LengthSizeOfTrafNum" x)) in *.
  set (b := as_uint (lookup "LengthSizeOfTrunNum" x)) in *.
  set (c := as_uint (lookup "LengthSizeOfSampleNum" x)) in *.
  change (32 - 26 - 2) with 4 in FA. change (32 - 28 - 2) with 2 in FB. change (32 - 30 - 2) with 0 in FC.
  change (2 ^ 4) with 16 in FA. change (2 ^ 2) with 4 in FA, FB, FC. change (2 ^ 0) with 1 in FC. rewrite N.div_1_r in FC.
  assert (TL : tfra_last p = a + b + c + 3) by (unfold tfra_last; rewrite FA, FB, FC; reflexivity).
  assert (Ra : a < 4) by (rewrite FA; apply mod4_lt).
  assert (Rb : b < 4) by (rewrite FB; apply mod4_lt).
  assert (Rc : c < 4) by (rewrite FC; apply mod4_lt).
  assert (DN : bd_name (the_def (bt "tfra")) = "Tfra") by (vm_compute; reflexivity).
  set (dyn := fun s => if String.eqb s "Entries" then
      Some ((if get_version x =? 0 then 64 else 128) + (a + 1) * 8 + (b + 1) * 8 + (c + 1) * 8)
    else if String.eqb s "TrafNumber" then Some ((a + 1) * 8)
    else if String.eqb s "TrunNumber" then Some ((b + 1) * 8)
    else if String.eqb s "SampleNumber" then Some ((c + 1) * 8) else None).
  assert (HD : forall f s, f_sizeDyn f = true -> dyn (f_name f) = Some s ->
    resolve_size (bd_name (the_def (bt "tfra"))) (spec_env x ctx x) f = Some s).
  { intros f s D E. unfold dyn in E. unfold resolve_size. rewrite D, DN.
    destruct (String.eqb_spec (f_name f) "Entries") as [N|].
    { rewrite N, (tfra_entry_size (spec_env x ctx x) a b c V eq_refl eq_refl eq_refl Ra Rb Rc). exact E. }
    destruct (String.eqb_spec (f_name f) "TrafNumber") as [N|].
    { rewrite N, (tfra_number_size (spec_env x ctx x) _ _ a (or_introl eq_refl) eq_refl Ra). exact E. }
    destruct (String.eqb_spec (f_name f) "TrunNumber") as [N|].
    { rewrite N, (tfra_number_size (spec_env x ctx x) _ _ b (or_intror (or_introl eq_refl)) eq_refl Rb). exact E. }
    destruct (String.eqb_spec (f_name f) "SampleNumber") as [N|]; [|discriminate E].
    rewrite N, (tfra_number_size (spec_env x ctx x) _ _ c (or_intror (or_intror eq_refl)) eq_refl Rc). exact E. }
  assert (ML : m_len (bd_name (the_def (bt "tfra"))) "Entries" = MField "NumberOfEntry") by (vm_compute; reflexivity).
  assert (PL : forall v nm o w, (v, nm, o, w) = (0, "TimeV0", 0, 4) \/ (v, nm, o, w) = (0, "MoofOffsetV0", 4, 4) \/
      (v, nm, o, w) = (1, "TimeV1", 0, 8) \/ (v, nm, o, w) = (1, "MoofOffsetV1", 8, 8) -> get_version x = v ->
    entry_place (bd_name (the_def (bt "tfra"))) v (flag_test x) dyn "Entries" nm (bd_flds (the_def (bt "tfra"))) =
    Some (8 * 16, 8 * ((v + 1) * 8 + tfra_last p), 8 * o, 8 * w, false)).
  { intros v nm o w Q W. rewrite TL, DN. unfold dyn. rewrite W.
    generalize (flag_test x). clear - Q Ra Rb Rc. intros has.
    let fs := eval vm_compute in (bd_flds (the_def (bt "tfra"))) in
      replace (bd_flds (the_def (bt "tfra"))) with fs by (vm_compute; reflexivity).
    revert Ra Rb Rc. generalize a b c. clear - Q. intros a b c Ra Rb Rc.
    clear - Q. destruct Q as [Q|[Q|[Q|Q]]]; injection Q as -> -> -> ->; cbv -[N.add N.mul];
      (apply f_equal; apply f_equal2; [apply f_equal2; [apply f_equal2; [apply f_equal2|]|]|]; [lia..|reflexivity]). }
  unfold tfra_GetTime, tfra_GetMoofOffset, by_version.
  destruct V as [V|V]; [left|right]; (split; [exact V|]); rewrite V; cbn [N.eqb Pos.eqb].
  - destruct (entry_ok ctx (the_def (bt "tfra")) x p dyn "Entries" "TimeV0" 16 (8 + tfra_last p) 0 4 false "NumberOfEntry" i L HD)
      as (e & N1 & E1); auto.
    { rewrite V. apply (PL 0 "TimeV0" 0 4); auto. }
    destruct (entry_ok ctx (the_def (bt "tfra")) x p dyn "Entries" "MoofOffsetV0" 16 (8 + tfra_last p) 4 4 false "NumberOfEntry" i L HD)
      as (e' & N2 & E2); auto.
    { rewrite V. apply (PL 0 "MoofOffsetV0" 4 4); auto. }
    rewrite N1 in N2. injection N2 as <-. rewrite (entry_at _ _ _ N1). cbn [rmap]. unfold uint_of.
    rewrite <- E1, <- E2, N.add_0_r. split; reflexivity.
  - destruct (entry_ok ctx (the_def (bt "tfra")) x p dyn "Entries" "TimeV1" 16 (16 + tfra_last p) 0 8 false "NumberOfEntry" i L HD)
      as (e & N1 & E1); auto.
    { rewrite V. apply (PL 1 "TimeV1" 0 8); auto. }
    destruct (entry_ok ctx (the_def (bt "tfra")) x p dyn "Entries" "MoofOffsetV1" 16 (16 + tfra_last p) 8 8 false "NumberOfEntry" i L HD)
      as (e' & N2 & E2); auto.
    { rewrite V. apply (PL 1 "MoofOffsetV1" 8 8); auto 10. }
    rewrite N1 in N2. injection N2 as <-. rewrite (entry_at _ _ _ N1). cbn [rmap]. unfold uint_of.
    rewrite <- E1, <- E2, N.add_0_r. split; reflexivity.
Qed.
Print Assumptions C46_tfra.

(** Boxes that were not decoded may have any version: for all but 0 and 1 the
    accessors give 0, and those with an index do not look at it. *)
Theorem C46_other_versions : forall x i, get_version x <> 0 -> get_version x <> 1 ->
  Forall (fun g => g x = 0)
    [mvhd_GetCreationTime; mvhd_GetModificationTime; mvhd_GetDuration;
     mdhd_GetCreationTime; mdhd_GetModificationTime; mdhd_GetDuration;
     tkhd_GetCreationTime; tkhd_GetModificationTime; tkhd_GetDuration;
     mehd_GetFragmentDuration; tfdt_GetBaseMediaDecodeTime;
     sidx_GetEarliestPresentationTime; sidx_GetFirstOffset] /\
  Forall (fun g => g x = 0%Z)
    [cslg_GetCompositionToDTSShift; cslg_GetLeastDecodeToDisplayDelta; cslg_GetGreatestDecodeToDisplayDelta;
     cslg_GetCompositionStartTime; cslg_GetCompositionEndTime] /\
  Forall (fun g => g x i = Ok 0) [elst_GetSegmentDuration; saio_GetOffset; tfra_GetTime; tfra_GetMoofOffset] /\
  Forall (fun g => g x i = Ok 0%Z) [elst_GetMediaTime; ctts_GetSampleOffset; trun_GetSampleCompositionTimeOffset].
Proof.
  intros x i H0 H1. apply N.eqb_neq in H0, H1.
  assert (E : forall A (a b c : A), by_version x a b c = c) by (intros; unfold by_version; rewrite H0, H1; reflexivity).
  split; [|split; [|split]]; repeat constructor; apply E.
Qed.
Print Assumptions C46_other_versions.
Example C46_case_other_versions :
  let x := [("FullBox", VStruct [("Version", VUint 2); ("Flags", VList [VUint 0; VUint 0; VUint 0])]);
            ("DurationV0", VUint 5); ("DurationV1", VUint 6); ("Entries", VList [])] in
  get_version x = 2 /\ mvhd_GetDuration x = 0 /\ tfra_GetMoofOffset x (-1) = Ok 0.
Proof. vm_compute. auto. Qed.

(** Payloads that meet the hypotheses: two entries each, the second one asked for. *)
Definition decoded {A} (t : string) (p : list byte) (f : fields -> A) : option A :=
  match unmarshal_any std_registry p (bt t) (lenN p) ctx0 0 with (Ok (_, x, _), _) => Some (f x) | _ => None end.
Example C46_case_ctts :
  decoded "ctts" (hex "0100000000000002000000010000000700000001fffffffe") (fun x => ctts_GetSampleOffset x 1) = Some (Ok (-2)%Z) /\
  decoded "ctts" (hex "0000000000000002000000010000000700000001fffffffe") (fun x => ctts_GetSampleOffset x 1) = Some (Ok 4294967294%Z).
Proof. vm_compute. split; reflexivity. Qed.
Example C46_case_elst :
  decoded "elst" (hex "01000000000000020000000000000001000000000000000200010000000000010000000000000000fffffffe00010000")
    (fun x => (elst_GetSegmentDuration x 1, elst_GetMediaTime x 1)) = Some (Ok (2 ^ 32), Ok 4294967294%Z).
Proof. vm_compute. reflexivity. Qed.
Example C46_case_trun :
  decoded "trun" (hex "01000b0100000002000000ff00000001000000020000000300000001000000ccfffffffe")
    (fun x => trun_GetSampleCompositionTimeOffset x 1) = Some (Ok (-2)%Z).
Proof. vm_compute. reflexivity. Qed.
Example C46_case_saio :
  decoded "saio" (hex "010000016162636400000001000000020000000000000001000000010000000f")
    (fun x => saio_GetOffset x 1) = Some (Ok (2 ^ 32 + 15)).
Proof. vm_compute. reflexivity. Qed.
Example C46_case_tfra :
  decoded "tfra" (hex "00000000000000010000000400000002000000010000000203020509000000030000000401000201")
    (fun x => (tfra_GetTime x 1, tfra_GetMoofOffset x 1)) = Some (Ok 3, Ok 4).
Proof. vm_compute. reflexivity. Qed.
