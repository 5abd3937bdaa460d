(** C42: detectAACProfile. *)
From Verif Require Import Base BaseProofs BitIO BitIOProofs Schema Structs Accessors Probe SpecProbe.
Local Open Scope string_scope.
Local Open Scope list_scope.
Local Open Scope N_scope.

Section Aac.
  Variable data : list byte.
  (** the bits not read yet *)
  Definition left (s : rst) (l : list bool) : Prop := exists bp, rd data s bp /\ skipN bp (bits_of_bytes data) = l.
  (** reading a number fails or gives it in as few bytes as needed *)
  Lemma read_number : forall n s l, left s l ->
    match number n l with
    | Some (x, r) => exists s', read_bits data (N.of_nat n) s = (Ok (N_to_be ((n + 7) / 8) x), s') /\ left s' r /\
                       lenN l = lenN r + N.of_nat n /\ x < 2 ^ N.of_nat n
    | None => exists s', read_bits data (N.of_nat n) s = (Err EEOF, s')
    end.
  Proof.
    intros n s l (bp & R & E). unfold number. destruct (Nat.ltb_spec (List.length l) n) as [L|L].
    - destruct (read_bits_eof data (N.of_nat n) s bp R) as (s' & Q & _); [rewrite E; unfold lenN; lia|]. eauto.
    - destruct (read_bits_ok data (N.of_nat n) s bp R) as (s' & Q & R'); [rewrite E; unfold lenN; lia|].
      exists s'. rewrite Q, E, takeN_firstn, Nat2N.id, pack_pad_spec.
      assert (F : List.length (firstn n l) = n) by (rewrite firstn_length; lia).
      rewrite F. split; [reflexivity|]. split; [|split].
      + exists (bp + N.of_nat n). split; [exact R'|]. rewrite <- skipN_skipN, E, skipN_skipn, Nat2N.id. reflexivity.
      + unfold lenN. rewrite skipn_length. lia.
      + pose proof (bits_to_N_lt (firstn n l)) as Z. unfold lenN in Z. rewrite F in Z. exact Z.
  Qed.

  Lemma bind_ok : forall S A B (m : M S A) (k : A -> M S B) s a s', m s = (Ok a, s') -> bind m k s = k a s'.
  Proof. intros S A B m k s a s' E. unfold bind. rewrite E. reflexivity. Qed.
  Lemma bind_err : forall S A B (m : M S A) (k : A -> M S B) s e s', m s = (Err e, s') -> bind m k s = (Err e, s').
  Proof. intros S A B m k s e s' E. unfold bind. rewrite E. reflexivity. Qed.
  Lemma byte_one : forall S x (s : S), x < 256 -> byte_at (N_to_be 1 x) 0 s = (Ok x, s).
  Proof.
    intros S x s X. cbn [N_to_be app]. unfold byte_at. cbn [nthN]. rewrite N.eqb_refl. cbn [option_map or_panic].
    rewrite b2N_N2b, N.mod_small by exact X. reflexivity.
  Qed.
  Lemma byte_two : forall S x (s : S), x < 2048 ->
    byte_at (N_to_be 2 x) 0 s = (Ok (x / 256), s) /\ byte_at (N_to_be 2 x) 1 s = (Ok (x mod 256), s).
  Proof.
    intros S x s X. cbn [N_to_be app]. unfold byte_at. cbn [nthN]. change (1 =? 0) with false. change (N.pred 1) with 0.
    rewrite N.eqb_refl. cbn iota. cbn [option_map or_panic]. rewrite !b2N_N2b. rewrite (N.mod_small (x / 256)).
    - split; reflexivity.
    - apply N.div_lt_upper_bound; lia.
  Qed.
  Lemma sync_eq : forall hi lo x, lo < 256 -> hi <> 0 ->
    ((x / 256 =? hi) && ((if x / 256 =? hi then x mod 256 else 0) =? lo))%bool = (x =? 256 * hi + lo).
  Proof.
    intros hi lo x L H. pose proof (N.div_mod x 256 ltac:(discriminate)) as D. pose proof (N.mod_lt x 256 ltac:(discriminate)) as M.
    destruct (N.eqb_spec (x / 256) hi) as [E|E]; cbn [andb].
    - rewrite E in D. destruct (N.eqb_spec (x mod 256) lo), (N.eqb_spec x (256 * hi + lo)); try reflexivity; lia.
    - symmetry. apply N.eqb_neq. intros ->. apply E. symmetry. apply (N.div_unique _ _ _ lo); lia.
  Qed.

  (** reading a number of at most 8 bits *)
  Lemma read_small : forall n s l, left s l -> (1 <= n)%nat -> (n <= 8)%nat ->
    match number n l with
    | Some (x, r) => exists b s', read_bits data (N.of_nat n) s = (Ok b, s') /\ (forall S (t : S), byte_at b 0 t = (Ok x, t)) /\
                       left s' r /\ lenN l = lenN r + N.of_nat n /\ x < 2 ^ N.of_nat n
    | None => exists s', read_bits data (N.of_nat n) s = (Err EEOF, s')
    end.
  Proof.
    intros n s l L A B. pose proof (read_number n s l L) as R. destruct (number n l) as [[x r]|]; [|exact R].
    destruct R as (s' & Q & L' & Z & X). exists (N_to_be ((n + 7) / 8) x), s'. repeat split; try assumption.
    intros S t. assert (E : ((n + 7) / 8 = 1)%nat).
    { symmetry. apply (Nat.div_unique (n + 7) 8 1 (n - 1)); lia. }
    rewrite E. apply byte_one. apply (N.lt_le_trans _ _ _ X). change 256 with (2 ^ 8). apply N.pow_le_mono_r; lia.
  Qed.
  (** the sync word *)
  Lemma read_sync : forall s l, left s l ->
    match number 11 l with
    | Some (x, r) => exists b s', read_bits data 11 s = (Ok b, s') /\
                       (forall S (t : S), byte_at b 0 t = (Ok (x / 256), t) /\ byte_at b 1 t = (Ok (x mod 256), t)) /\
                       left s' r /\ lenN l = lenN r + 11
    | None => exists s', read_bits data 11 s = (Err EEOF, s')
    end.
  Proof.
    intros s l L. pose proof (read_number 11 s l L) as R. destruct (number 11 l) as [[x r]|]; [|exact R].
    destruct R as (s' & Q & L' & Z & X). exists (N_to_be 2 x), s'. repeat split; try assumption.
    - apply byte_two. exact X.
    - apply byte_two. exact X.
  Qed.
  Lemma read_type : forall s l, left s l ->
    match object_type l with
    | Some (t, r) => exists n s', get_audio_object_type data s = (Ok (t, n), s') /\ left s' r /\
                       Z.of_N (lenN l) = (Z.of_N (lenN r) + n)%Z /\ (n = 5%Z \/ (n = 11%Z /\ 32 <= t))
    | None => exists s', get_audio_object_type data s = (Err EEOF, s')
    end.
  Proof.
    intros s l L. unfold object_type, get_audio_object_type.
    pose proof (read_small 5 s l L ltac:(lia) ltac:(lia)) as R. change (N.of_nat 5) with 5 in R.
    destruct (number 5 l) as [[x r]|].
    2: { destruct R as (s' & Q). exists s'. apply bind_err. exact Q. }
    destruct R as (b & s' & Q & B & L' & Z & X). rewrite (bind_ok _ _ _ _ _ _ _ _ Q), (bind_ok _ _ _ _ _ _ _ _ (B _ s')).
    change 0x1f with 31. destruct (N.eqb_spec x 31) as [E|E]; cbn [negb].
    2: { exists 5%Z, s'. split; [reflexivity|]. split; [exact L'|]. split; [lia|left; reflexivity]. }
    pose proof (read_small 6 s' r L' ltac:(lia) ltac:(lia)) as R. change (N.of_nat 6) with 6 in R.
    destruct (number 6 r) as [[x' r']|].
    2: { destruct R as (s2 & Q2). exists s2. apply bind_err. exact Q2. }
    destruct R as (b2 & s2 & Q2 & B2 & L2 & Z2 & X2). rewrite (bind_ok _ _ _ _ _ _ _ _ Q2), (bind_ok _ _ _ _ _ _ _ _ (B2 _ s2)).
    exists 11%Z, s2. change (2 ^ 6) with 64 in X2. unfold w8. rewrite N.mod_small by (change W8 with 256; lia). rewrite (N.add_comm x' 32).
    split; [reflexivity|]. split; [exact L2|]. split; [lia|right; split; [reflexivity|lia]].
  Qed.
  (** reading the frequency, as part of a longer computation *)
  Lemma read_frequency : forall A (k : Z -> M rst A) rem s l, left s l ->
    match frequency l with
    | Some r => exists s' n, bind (read_bits data 4) (fun sfi => bind (byte_at sfi 0) (fun f =>
                       bind (if f =? 0x0f then bind (read_bits data 24) (fun _ => ret (rem - 4 - 24)%Z) else ret (rem - 4)%Z) k)) s
                     = k (rem - n)%Z s' /\ left s' r /\
                       Z.of_N (lenN l) = (Z.of_N (lenN r) + n)%Z /\ (n = 4 \/ n = 28)%Z
    | None => exists s', bind (read_bits data 4) (fun sfi => bind (byte_at sfi 0) (fun f =>
                       bind (if f =? 0x0f then bind (read_bits data 24) (fun _ => ret (rem - 4 - 24)%Z) else ret (rem - 4)%Z) k)) s
                     = (Err EEOF, s')
    end.
  Proof.
    intros A k rem s l L. unfold frequency.
    pose proof (read_small 4 s l L ltac:(lia) ltac:(lia)) as R. change (N.of_nat 4) with 4 in R.
    destruct (number 4 l) as [[x r]|].
    2: { destruct R as (s' & Q). exists s'. apply bind_err. exact Q. }
    destruct R as (b & s' & Q & B & L' & Z & X). rewrite (bind_ok _ _ _ _ _ _ _ _ Q), (bind_ok _ _ _ _ _ _ _ _ (B _ s')).
    change 0x0f with 15. destruct (N.eqb_spec x 15) as [E|E].
    2: { exists s', 4%Z. split; [reflexivity|]. split; [exact L'|]. split; [lia|left; reflexivity]. }
    pose proof (read_number 24 s' r L') as R. change (N.of_nat 24) with 24 in R.
    destruct (number 24 r) as [[x' r']|].
    2: { destruct R as (s2 & Q2). exists s2. apply bind_err. apply bind_err. exact Q2. }
    destruct R as (s2 & Q2 & L2 & Z2 & X2). exists s2, 28%Z.
    split; [|split; [exact L2|split; [lia|right; reflexivity]]].
    erewrite bind_ok; [|rewrite (bind_ok _ _ _ _ _ _ _ _ Q2); reflexivity].
    replace (rem - 4 - 24)%Z with (rem - 28)%Z by lia. reflexivity.
  Qed.
End Aac.

(** the result of a parse *)
Definition answer (o : option N) : res (N * N) := match o with Some t => Ok (0x40, t) | None => Err EEOF end.

Lemma aac_short : forall data, fst (aac_profile data (new_reader 0)) = answer (short_profile (bits_of_bytes data)).
Proof.
  intros data.
  assert (L0 : left data (new_reader 0) (bits_of_bytes data)).
  { exists 0. split; [|apply skipN_0]. apply (rd_at data 0). }
  assert (Z0 : (Z.of_N (lenN data) * 8 = Z.of_N (lenN (bits_of_bytes data)))%Z).
  { unfold lenN. rewrite bits_of_bytes_length. lia. }
  unfold aac_profile, short_profile. cbv zeta.
  pose proof (read_type data _ _ L0) as R.
  destruct (object_type (bits_of_bytes data)) as [[aot l]|].
  2: { destruct R as (s' & Q). erewrite bind_err by exact Q. reflexivity. }
  destruct R as (n1 & s1 & Q1 & L1 & Z1 & N1). erewrite bind_ok by exact Q1. cbn [fst snd].
  clear Q1 L0.
  match goal with |- fst (bind _ (fun sfi => bind _ (fun f => bind _ ?k)) _) = _ =>
    pose proof (read_frequency data _ k (Z.of_N (lenN data) * 8 - n1)%Z s1 l L1) as R end.
  destruct (frequency l) as [l2|].
  2: { destruct R as (s' & Q). rewrite Q. reflexivity. }
  destruct R as (s2 & n2 & Q2 & L2 & Z2 & N2). etransitivity; [exact (f_equal fst Q2)|]. clear Q2. cbv beta.
  replace (20 <=? Z.of_N (lenN data) * 8 - n1 - n2)%Z with (20 <=? lenN l2).
  2: { destruct (N.leb_spec 20 (lenN l2)), (Z.leb_spec 20 (Z.of_N (lenN data) * 8 - n1 - n2)); try reflexivity; lia. }
  destruct ((aot =? 2) && (20 <=? lenN l2))%bool eqn:C; [|reflexivity].
  apply andb_true_iff in C. destruct C as [C _]. apply N.eqb_eq in C. subst aot.
  destruct N1 as [->|[_ N1]]; [|lia].
  pose proof (read_small data 4 s2 l2 L2 ltac:(lia) ltac:(lia)) as R. change (N.of_nat 4) with 4 in R.
  destruct (number 4 l2) as [[ch l3]|].
  2: { destruct R as (s' & Q). erewrite bind_err by exact Q. reflexivity. }
  destruct R as (b3 & s3 & Q3 & _ & L3 & Z3 & _). erewrite bind_ok by exact Q3. clear Q3.
  unfold extension.
  pose proof (read_sync data s3 l3 L3) as R.
  destruct (number 11 l3) as [[sy l4]|].
  2: { destruct R as (s' & Q). erewrite bind_err by exact Q. reflexivity. }
  destruct R as (b4 & s4 & Q4 & B4 & L4 & Z4). erewrite bind_ok by exact Q4. clear Q4.
  erewrite bind_ok by exact (proj1 (B4 _ s4)).
  erewrite (bind_ok _ _ _ (if sy / 256 =? 2 then _ else _) _ s4 (if sy / 256 =? 2 then sy mod 256 else 0) s4).
  2: { destruct (sy / 256 =? 2); [exact (proj2 (B4 _ s4))|reflexivity]. }
  rewrite (sync_eq 2 0xb7 sy) by (vm_compute; congruence). change (256 * 2 + 0xb7) with 0x2b7.
  destruct (sy =? 0x2b7); [|reflexivity].
  pose proof (read_type data s4 l4 L4) as R.
  destruct (object_type l4) as [[ext l5]|].
  2: { destruct R as (s' & Q). erewrite bind_err by exact Q. reflexivity. }
  destruct R as (n5 & s5 & Q5 & L5 & Z5 & N5). erewrite bind_ok by exact Q5. cbn [fst snd]. clear Q5.
  destruct ((ext =? 5) || (ext =? 22))%bool eqn:C; [|reflexivity].
  pose proof (read_small data 1 s5 l5 L5 ltac:(lia) ltac:(lia)) as R. change (N.of_nat 1) with 1 in R.
  destruct (number 1 l5) as [[sbr l6]|].
  2: { destruct R as (s' & Q). erewrite bind_err by exact Q. reflexivity. }
  destruct R as (b6 & s6 & Q6 & B6 & L6 & Z6 & _). erewrite bind_ok by exact Q6. erewrite bind_ok by exact (B6 _ s6). clear Q6.
  destruct (sbr =? 0); cbn [negb]; [reflexivity|].
  destruct (N.eqb_spec ext 5) as [E|E]; [|reflexivity].
  destruct N5 as [->|[_ N5]]; [|lia].
  match goal with |- fst (bind _ (fun sfi => bind _ (fun f => bind (if _ then bind _ (fun _ => ret (?r - 4 - 24)%Z) else _) ?k)) _) = _ =>
    pose proof (read_frequency data _ k r s6 l6 L6) as R end.
  destruct (frequency l6) as [l7|].
  2: { destruct R as (s' & Q). etransitivity; [exact (f_equal fst Q)|]. reflexivity. }
  destruct R as (s7 & n7 & Q7 & L7 & Z7 & N7). etransitivity; [exact (f_equal fst Q7)|]. clear Q7. cbv beta.
  unfold parametric_stereo.
  match goal with |- fst ((if ?c then _ else _) _) = _ => replace c with (12 <=? lenN l7) end.
  2: { destruct (N.leb_spec 12 (lenN l7)) as [G|G];
       match goal with |- _ = ?c => destruct c eqn:G' end; try reflexivity;
       [apply Z.leb_gt in G'|apply Z.leb_le in G']; lia. }
  destruct (12 <=? lenN l7); [|reflexivity].
  pose proof (read_sync data s7 l7 L7) as R.
  destruct (number 11 l7) as [[sy2 l8]|].
  2: { destruct R as (s' & Q). erewrite bind_err by exact Q. reflexivity. }
  destruct R as (b8 & s8 & Q8 & B8 & L8 & Z8). erewrite bind_ok by exact Q8. clear Q8.
  erewrite bind_ok by exact (proj1 (B8 _ s8)).
  erewrite (bind_ok _ _ _ (if sy2 / 256 =? 5 then _ else _) _ s8 (if sy2 / 256 =? 5 then sy2 mod 256 else 0) s8).
  2: { destruct (sy2 / 256 =? 5); [exact (proj2 (B8 _ s8))|reflexivity]. }
  rewrite (sync_eq 5 0x48 sy2) by (vm_compute; congruence). change (256 * 5 + 0x48) with 0x548.
  destruct (sy2 =? 0x548); [|reflexivity].
  pose proof (read_small data 1 s8 l8 L8 ltac:(lia) ltac:(lia)) as R. change (N.of_nat 1) with 1 in R.
  destruct (number 1 l8) as [[ps l9]|].
  2: { destruct R as (s' & Q). erewrite bind_err by exact Q. reflexivity. }
  destruct R as (b9 & s9 & Q9 & B9 & _ & _ & _). erewrite bind_ok by exact Q9. erewrite bind_ok by exact (B9 _ s9).
  destruct (ps =? 0); reflexivity.
Qed.

(** The first descriptor with a tag. *)
Definition first_tagged (tag : Z) (ds : list fields) (d : fields) : Prop :=
  exists before after, ds = before ++ d :: after /\ int_of "Tag" d = tag /\ Forall (fun x => int_of "Tag" x <> tag) before.
Lemma first_tagged_find : forall tag ds d, first_tagged tag ds d -> find_descriptor ds tag = Some d.
Proof.
  intros tag ds d (be & af & -> & T & F). unfold find_descriptor. induction F as [|x be X F IH]; cbn [app find].
  - rewrite T, Z.eqb_refl. reflexivity.
  - destruct (Z.eqb_spec (int_of "Tag" x) tag) as [E|_]; [contradiction|exact IH].
Qed.

(** C42.  For every decoder configuration with object type indication 0x40 and
    every content of the decoder specific info, the profile that the signalling
    syntax gives, or an error when the content ends before the syntax does.

    Partial: in the syntax of the standard GASpecificConfig comes between the
    channel configuration and the extension; in [short_profile] it does not. *)
Theorem C42_profile_partial : forall esds d c s,
  first_tagged 4 (structs "Descriptors" esds) d ->
  lookup "DecoderConfigDescriptor" d = Some (VPtr (Some (VStruct c))) -> uint_of "ObjectTypeIndication" c = 0x40 ->
  first_tagged 5 (structs "Descriptors" esds) s ->
  detect_aac_profile esds =
    match short_profile (bits_of_bytes (as_bytes (lookup "Data" s))) with
    | Some t => Ok (0x40, t)
    | None => Err EEOF
    end.
Proof.
  intros esds d c s D L O S. unfold detect_aac_profile.
  rewrite (first_tagged_find DecoderConfigDescrTag _ _ D), L, O, (first_tagged_find DecSpecificInfoTag _ _ S).
  change (negb (64 =? 64)) with false. cbv iota. apply aac_short.
Qed.
Print Assumptions C42_profile_partial.

(** Total on every esds: a result or an error. *)
Theorem C42_total : forall esds,
  (exists r, detect_aac_profile esds = Ok r) \/ (exists e, detect_aac_profile esds = Err e).
Proof.
  intros esds. unfold detect_aac_profile.
  destruct (find_descriptor _ DecoderConfigDescrTag) as [d|]; [|left; eauto].
  destruct (lookup _ d) as [[| | | | | [[]|] | ]|]; try (left; eauto; fail).
  destruct (negb _); [left; eauto|].
  destruct (find_descriptor _ DecSpecificInfoTag); [|right; eauto].
  rewrite aac_short. destruct (short_profile _); [left|right]; cbn [answer]; eauto.
Qed.
Print Assumptions C42_total.

(** Other object types are reported as they are. *)
Theorem C42_other : forall esds d c,
  first_tagged 4 (structs "Descriptors" esds) d ->
  lookup "DecoderConfigDescriptor" d = Some (VPtr (Some (VStruct c))) -> uint_of "ObjectTypeIndication" c <> 0x40 ->
  detect_aac_profile esds = Ok (uint_of "ObjectTypeIndication" c, 0).
Proof.
  intros esds d c D L O. unfold detect_aac_profile. rewrite (first_tagged_find DecoderConfigDescrTag _ _ D), L.
  apply N.eqb_neq in O. rewrite O. reflexivity.
Qed.
Print Assumptions C42_other.

(** An esds as it is decoded, with a given decoder specific info. *)
Definition esds_with (config : list byte) : fields :=
  [("Descriptors", VList
     [VStruct [("Tag", VInt 3); ("DecoderConfigDescriptor", VPtr None); ("Data", VList [])];
      VStruct [("Tag", VInt 4); ("DecoderConfigDescriptor", VPtr (Some (VStruct [("ObjectTypeIndication", VUint 0x40)]))); ("Data", VList [])];
      VStruct [("Tag", VInt 5); ("DecoderConfigDescriptor", VPtr None); ("Data", VList (map (fun b => VUint (b2N b)) config))]])].
Example C42_case :
  map (fun c => detect_aac_profile (esds_with (hex c)))
    ["1210"; "1392b72d2a44"; "1392b72d00"; "1780000012b7b4"; "1392b7280000"; "f946"; "1780"; ""]
  = [Ok (0x40, 2); Ok (0x40, 29); Ok (0x40, 5); Ok (0x40, 5); Ok (0x40, 2); Ok (0x40, 42); Err EEOF; Err EEOF] /\
  first_tagged 4 (structs "Descriptors" (esds_with [])) [("Tag", VInt 4); ("DecoderConfigDescriptor", VPtr (Some (VStruct [("ObjectTypeIndication", VUint 0x40)]))); ("Data", VList [])].
Proof.
  split; [vm_compute; reflexivity|].
  eexists [_], _. split; [reflexivity|]. split; [reflexivity|]. constructor; [vm_compute; discriminate|constructor].
Qed.

(** C42 for the syntax of the standard does not hold: with GASpecificConfig in
    its place the extension is not found. *)
Theorem C42_refuted : exists config,
  iso_profile (bits_of_bytes config) = Some 29 /\ detect_aac_profile (esds_with config) = Ok (0x40, 2).
Proof. exists (hex "139056e5a54880"). split; vm_compute; reflexivity. Qed.
Print Assumptions C42_refuted.
