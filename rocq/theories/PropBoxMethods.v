(** C44, C45: compatible brands and full box flags. *)
From Verif Require Import Base BaseProofs Schema Structs Registry Marshal Unmarshal BoxInfo ReadTree BoxMethods.
Local Open Scope string_scope.
Local Open Scope list_scope.
Local Open Scope N_scope.

(** ** Flags *)
(** a box with version and flags: [FullBox] holds a version and three bytes *)
Definition full_box (root : fields) (ver a b c : N) : Prop :=
  lookup "FullBox" root = Some (VStruct [("Version", VUint ver); ("Flags", VList [VUint a; VUint b; VUint c])]) /\
  a < 256 /\ b < 256 /\ c < 256.

Lemma lookup_update : forall k x l k', lookup k' (update k x l) =
  if String.eqb k' k then (match lookup k l with Some _ => Some x | None => None end) else lookup k' l.
Proof.
  induction l as [|[j v] l IH]; intros k'; cbn [update lookup].
  - now destruct (String.eqb k' k).
  - destruct (String.eqb_spec k j) as [->|N]; cbn [lookup].
    + destruct (String.eqb_spec k' j); reflexivity.
    + rewrite IH. destruct (String.eqb_spec k' j) as [->|N2]; [|reflexivity].
      destruct (String.eqb_spec j k); [congruence|reflexivity].
Qed.
Lemma set_flags_full : forall f root ver a b c, full_box root ver a b c ->
  full_box (set_flags f root) ver (f / 65536 mod 256) (f / 256 mod 256) (f mod 256).
Proof.
  intros f root ver a b c (H & _). unfold set_flags, fullbox_of. rewrite H. split.
  - rewrite lookup_update. cbn [String.eqb Ascii.eqb Bool.eqb]. rewrite H. cbn [update String.eqb Ascii.eqb Bool.eqb].
    unfold byte_of. now rewrite !N.shiftr_div_pow2.
  - repeat split; apply N.mod_lt; lia.
Qed.
Lemma bits_above : forall a n i, a < 2 ^ n -> n <= i -> N.testbit a i = false.
Proof.
  intros a n i L H. destruct (N.eq_dec a 0) as [->|Z]; [apply N.bits_0|]. apply N.bits_above_log2.
  apply N.lt_le_trans with n; [|exact H]. apply N.log2_lt_pow2; lia.
Qed.
Lemma get_flags_bit : forall root ver a b c i, full_box root ver a b c ->
  N.testbit (get_flags root) i =
    if i <? 8 then N.testbit c i else if i <? 16 then N.testbit b (i - 8) else if i <? 24 then N.testbit a (i - 16) else false.
Proof.
  intros root ver a b c i (H & A & B & C). unfold get_flags, fullbox_of. rewrite H.
  cbn [lookup String.eqb Ascii.eqb Bool.eqb flags_of_bytes]. rewrite !N.lxor_spec.
  change 256 with (2 ^ 8) in *.
  destruct (N.ltb_spec i 8).
  { rewrite !N.shiftl_spec_low by lia. now destruct (N.testbit c i). }
  rewrite (bits_above c 8) by assumption. rewrite xorb_false_r.
  destruct (N.ltb_spec i 16).
  { rewrite (N.shiftl_spec_low a) by lia. rewrite N.shiftl_spec_high' by lia. now destruct (N.testbit b (i - 8)). }
  rewrite (N.shiftl_spec_high' b) by lia. rewrite (bits_above b 8) by lia. rewrite xorb_false_r, N.shiftl_spec_high' by lia.
  destruct (N.ltb_spec i 24); [reflexivity|]. apply (bits_above a 8); lia.
Qed.

(** C45.  The flags are a set of bits 0 to 23. *)
Theorem C45_flags : forall root ver a b c f, full_box root ver a b c ->
  get_flags root = a * 65536 + b * 256 + c /\
  get_flags (set_flags f root) = f mod 2 ^ 24 /\
  (forall i, N.testbit (get_flags (add_flag f root)) i = (i <? 24) && (N.testbit (get_flags root) i || N.testbit f i)) /\
  (f < 2 ^ 32 -> forall i, N.testbit (get_flags (remove_flag f root)) i = (i <? 24) && (N.testbit (get_flags root) i && negb (N.testbit f i))) /\
  (check_flag f root = true <-> exists i, N.testbit (get_flags root) i = true /\ N.testbit f i = true) /\
  (* nothing else changes *)
  (forall op, op = set_flags f \/ op = add_flag f \/ op = remove_flag f ->
     get_version (op root) = get_version root /\ forall k, k <> "FullBox" -> lookup k (op root) = lookup k root).
Proof.
  intros root ver a b c f H.
  assert (SF : forall g i, N.testbit (get_flags (set_flags g root)) i = (i <? 24) && N.testbit g i).
  { intros g i. rewrite (get_flags_bit _ _ _ _ _ i (set_flags_full g root ver a b c H)).
    change 256 with (2 ^ 8). change 65536 with (2 ^ 16).
    destruct (N.ltb_spec i 24) as [L|L].
    - cbn [andb]. destruct (N.ltb_spec i 8).
      { now rewrite N.mod_pow2_bits_low by lia. }
      destruct (N.ltb_spec i 16).
      { rewrite N.mod_pow2_bits_low, N.div_pow2_bits by lia. f_equal. lia. }
      rewrite N.mod_pow2_bits_low, N.div_pow2_bits by lia. f_equal. lia.
    - destruct (N.ltb_spec i 8), (N.ltb_spec i 16); try lia; reflexivity. }
  assert (GB : forall i, 24 <= i -> N.testbit (get_flags root) i = false).
  { intros i L. rewrite (get_flags_bit _ _ _ _ _ i H). destruct (N.ltb_spec i 8), (N.ltb_spec i 16), (N.ltb_spec i 24); try lia; reflexivity. }
  split.
  { apply N.bits_inj. intros i. rewrite (get_flags_bit _ _ _ _ _ i H). destruct H as (_ & A & B & C). change 256 with (2 ^ 8) in *. change 65536 with (2 ^ 16).
    assert (X : a * 2 ^ 16 + b * 2 ^ 8 + c = N.lor (N.lor (N.shiftl a 16) (N.shiftl b 8)) c).
    { rewrite <- !N.shiftl_mul_pow2.
      rewrite (N.add_nocarry_lxor (N.shiftl a 16)); [rewrite N.lxor_lor; [rewrite N.add_nocarry_lxor; [rewrite N.lxor_lor; [reflexivity|]|]|]|].
      all: apply N.bits_inj; intros j; rewrite ?N.land_spec, ?N.lor_spec, N.bits_0.
      1,2: destruct (N.ltb_spec j 8) as [J|J]; [rewrite !N.shiftl_spec_low by lia; reflexivity|rewrite (bits_above c 8) by lia; apply andb_false_r].
      all: destruct (N.ltb_spec j 16) as [J|J]; [rewrite (N.shiftl_spec_low a) by lia; reflexivity|];
           rewrite (N.shiftl_spec_high' b) by lia; rewrite (bits_above b 8) by lia; apply andb_false_r. }
    rewrite X, !N.lor_spec.
    destruct (N.ltb_spec i 8); [rewrite !N.shiftl_spec_low by lia; reflexivity|]. rewrite (bits_above c 8 i) by lia. rewrite orb_false_r.
    destruct (N.ltb_spec i 16); [rewrite (N.shiftl_spec_low a), N.shiftl_spec_high' by lia; reflexivity|].
    rewrite (N.shiftl_spec_high' b), (bits_above b 8), orb_false_r, N.shiftl_spec_high' by lia.
    destruct (N.ltb_spec i 24); [reflexivity|]. symmetry. apply (bits_above a 8); lia. }
  split.
  { apply N.bits_inj. intros i. rewrite SF. destruct (N.ltb_spec i 24); [now rewrite N.mod_pow2_bits_low by lia|now rewrite N.mod_pow2_bits_high by lia]. }
  split.
  { intros i. unfold add_flag. rewrite SF, N.lor_spec. reflexivity. }
  split.
  { intros L i. unfold remove_flag. rewrite SF, N.land_spec. destruct (N.ltb_spec i 24) as [I|I]; [|reflexivity]. cbn [andb]. f_equal.
    change 4294967295 with (N.ones 32). rewrite N.sub_nocarry_ldiff.
    - rewrite N.ldiff_spec, N.ones_spec_low by lia. reflexivity.
    - apply N.bits_inj. intros j. rewrite N.ldiff_spec, N.bits_0. destruct (N.ltb_spec j 32) as [J|J].
      + rewrite N.ones_spec_low by lia. apply andb_false_r.
      + now rewrite (bits_above f 32). }
  split.
  { unfold check_flag, fullbox_of. destruct H as (H & _). rewrite H. rewrite negb_true_iff, N.eqb_neq. split.
    - intros Z. exists (N.log2 (N.land (get_flags root) f)). apply N.bit_log2 in Z. rewrite N.land_spec in Z. now apply andb_true_iff in Z.
    - intros (i & H1 & H2) Z. apply (f_equal (fun x => N.testbit x i)) in Z. rewrite N.land_spec, H1, H2, N.bits_0 in Z. discriminate. }
  assert (OP : forall g, get_version (set_flags g root) = get_version root /\ forall k, k <> "FullBox" -> lookup k (set_flags g root) = lookup k root).
  { intros g. destruct (set_flags_full g root ver a b c H) as (E & _). destruct H as (H & _). split.
    - unfold get_version, fullbox_of. rewrite E, H. reflexivity.
    - intros k N. unfold set_flags, fullbox_of. rewrite H, lookup_update. destruct (String.eqb_spec k "FullBox"); [congruence|reflexivity]. }
  intros op [->|[->| ->]]; apply OP.
Qed.
Print Assumptions C45_flags.
Example C45_case :
  let root := [("FullBox", VStruct [("Version", VUint 1); ("Flags", VList [VUint 18; VUint 52; VUint 86])]); ("X", VUint 7)] in
  full_box root 1 18 52 86 /\
  (get_flags root, get_flags (set_flags 305419896 root), get_flags (add_flag 1 root), get_flags (remove_flag 1193046 root),
   check_flag 1 root, check_flag 2 root) = (1193046, 3430008, 1193047, 0, false, true).
Proof. split; [repeat split|vm_compute; reflexivity]. Qed.

(** ** Brands *)
Definition brand_bytes (b : list byte) : val := VStruct [("CompatibleBrand", VList (map (fun c => VUint (N_of_ascii c)) b))].
(** a file type box with the compatible brands [bs] *)
Definition ftyp_with (major : val) (minor : N) (bs : list (list byte)) : fields :=
  [("MajorBrand", major); ("MinorVersion", VUint minor); ("CompatibleBrands", VList (map brand_bytes bs))].

Lemma brand_elem_bytes : forall b, brand_of_elem (brand_bytes b) = b.
Proof.
  intros b. unfold brand_of_elem, brand_bytes. cbn [lookup String.eqb Ascii.eqb Bool.eqb as_bytes]. rewrite map_map.
  rewrite <- (map_id b) at 2. apply map_ext. intros c. cbn [as_uint]. unfold N2b. rewrite N.mod_small by apply N_ascii_bounded; apply ascii_N_embedding.
Qed.
Lemma brands_of_with : forall major minor bs, brands_of (ftyp_with major minor bs) = bs.
Proof.
  intros. unfold brands_of, ftyp_with. cbn [lookup String.eqb Ascii.eqb Bool.eqb]. rewrite map_map.
  rewrite <- (map_id bs) at 2. apply map_ext. exact brand_elem_bytes.
Qed.
Theorem C44_has : forall major minor bs b, has_compatible_brand (ftyp_with major minor bs) b = true <-> In b bs.
Proof.
  intros. unfold has_compatible_brand. rewrite brands_of_with, existsb_exists. split.
  - intros (x & I & E). apply bytes_eqb_eq in E. now subst.
  - intros I. exists b. split; [exact I|apply bytes_eqb_refl].
Qed.
Print Assumptions C44_has.
Theorem C44_add : forall major minor bs b,
  (In b bs -> add_compatible_brand (ftyp_with major minor bs) b = ftyp_with major minor bs) /\
  (~ In b bs -> add_compatible_brand (ftyp_with major minor bs) b = ftyp_with major minor (bs ++ [b])).
Proof.
  intros. pose proof (C44_has major minor bs b) as H. unfold add_compatible_brand.
  destruct (has_compatible_brand (ftyp_with major minor bs) b); split; intros I; try tauto.
  - destruct H as [_ H]. specialize (H I). discriminate.
  - unfold ftyp_with. cbn [update String.eqb Ascii.eqb Bool.eqb brand_list lookup]. now rewrite map_app.
Qed.
Print Assumptions C44_add.

Lemma remove_eq : forall k b i l, remove_loop (S k) b i l =
  if i <? lenN l then
    if negb (bytes_eqb (brand_of_elem (nth (N.to_nat i) l (VStruct []))) b) then remove_loop k b (i + 1) l
    else remove_loop k b i (takeN (lenN l - 1) (takeN i l ++ [nth (N.to_nat (lenN l - 1)) l (VStruct [])] ++ skipN (i + 1) l))
  else Some l.
Proof. reflexivity. Qed.
Lemma remove_step : forall k b done todo, (List.length todo <= k)%nat -> ~ In b done ->
  exists r, remove_loop (S k) b (lenN done) (map brand_bytes (done ++ todo)) = Some (map brand_bytes r) /\ ~ In b r /\
    forall x, x <> b -> count_occ (list_eq_dec ascii_dec) r x = count_occ (list_eq_dec ascii_dec) (done ++ todo) x.
Proof.
  induction k as [|k IH]; intros b done todo L N; rewrite remove_eq, lenN_map.
  - destruct todo; [|cbn in L; lia]. rewrite app_nil_r. destruct (N.ltb_spec (lenN done) (lenN done)); [lia|].
    exists done. auto.
  - destruct todo as [|x todo].
    { rewrite app_nil_r. destruct (N.ltb_spec (lenN done) (lenN done)); [lia|]. exists done. auto. }
    destruct (N.ltb_spec (lenN done) (lenN (done ++ x :: todo))) as [_|Q]; [|rewrite lenN_app, lenN_cons in Q; lia].
    replace (nth (N.to_nat (lenN done)) (map brand_bytes (done ++ x :: todo)) (VStruct [])) with (brand_bytes x).
    2: { symmetry. rewrite map_app. cbn [map]. unfold lenN. rewrite Nat2N.id.
         rewrite <- (map_length brand_bytes done) at 1. apply nth_middle. }
    rewrite brand_elem_bytes. destruct (bytes_eqb x b) eqn:E; cbn [negb].
    + apply bytes_eqb_eq in E. subst x.
      destruct (@exists_last _ (b :: todo)) as (front & z & F); [discriminate|].
      assert (LZ : nth (N.to_nat (lenN (done ++ b :: todo) - 1)) (map brand_bytes (done ++ b :: todo)) (VStruct []) = brand_bytes z).
      { rewrite F, app_assoc, map_app. cbn [map]. rewrite lenN_app. change (lenN [z]) with 1.
        replace (N.to_nat (lenN (done ++ front) + 1 - 1)) with (List.length (map brand_bytes (done ++ front))).
        - apply nth_middle.
        - rewrite map_length. unfold lenN. lia. }
      rewrite LZ.
      assert (CUT : takeN (lenN (done ++ b :: todo) - 1)
                     (takeN (lenN done) (map brand_bytes (done ++ b :: todo)) ++ [brand_bytes z] ++ skipN (lenN done + 1) (map brand_bytes (done ++ b :: todo)))
                   = map brand_bytes (done ++ match todo with [] => [] | _ => z :: removelast todo end)).
      { rewrite map_app. cbn [map]. rewrite (takeN_app_exact _ (map brand_bytes done) _ (lenN done)) by (now rewrite lenN_map).
        replace (skipN (lenN done + 1) (map brand_bytes done ++ brand_bytes b :: map brand_bytes todo)) with (map brand_bytes todo).
        2: { change (brand_bytes b :: map brand_bytes todo) with ([brand_bytes b] ++ map brand_bytes todo). rewrite app_assoc.
             rewrite skipN_app_exact; [reflexivity|]. rewrite lenN_app, lenN_map. reflexivity. }
        rewrite lenN_app, lenN_cons.
        replace (lenN done + (lenN todo + 1) - 1) with (lenN done + lenN todo) by lia.
        rewrite takeN_app_ge by (rewrite lenN_map; lia). rewrite lenN_map. replace (lenN done + lenN todo - lenN done) with (lenN todo) by lia.
        rewrite map_app. f_equal. destruct todo as [|y todo]; [reflexivity|].
        set (t := y :: todo) in *. assert (TN : t <> []) by discriminate. rewrite (app_removelast_last y TN) at 1 2.
        rewrite map_app, lenN_app. change (lenN [last t y]) with 1.
        change ([brand_bytes z] ++ map brand_bytes (removelast t) ++ map brand_bytes [last t y]) with ((brand_bytes z :: map brand_bytes (removelast t)) ++ map brand_bytes [last t y]).
        rewrite takeN_app_exact; [reflexivity|]. rewrite lenN_cons, lenN_map. reflexivity. }
      rewrite CUT. clear CUT LZ.
      destruct (IH b done (match todo with [] => [] | _ => z :: removelast todo end)) as (r & R1 & R2 & R3).
      { destruct todo as [|y todo]; [cbn; lia|]. cbn [List.length] in *.
        assert (TN : y :: todo <> []) by discriminate. pose proof (app_removelast_last y TN) as A. apply (f_equal (@List.length _)) in A.
        rewrite app_length in A. cbn [List.length] in A. lia. }
      { exact N. }
      exists r. split; [exact R1|]. split; [exact R2|]. intros q Nq. rewrite (R3 q Nq), !count_occ_app. f_equal.
      rewrite count_occ_cons_neq by congruence.
      destruct todo as [|y todo]; [reflexivity|].
      set (t := y :: todo) in *. assert (TN : t <> []) by discriminate.
      pose proof (app_removelast_last y TN) as A.
      assert (ZL : z = last t y).
      { rewrite A, app_comm_cons in F. apply app_inj_tail in F. now destruct F. }
      rewrite A at 2. rewrite count_occ_app, <- ZL. cbn [count_occ].
      destruct (list_eq_dec ascii_dec z q); lia.
    + assert (NE : x <> b) by (intros ->; rewrite bytes_eqb_refl in E; discriminate).
      destruct (IH b (done ++ [x]) todo) as (r & R1 & R2 & R3).
      { cbn in L. lia. }
      { intros I. apply in_app_or in I. destruct I as [I|[I|[]]]; [auto|congruence]. }
      exists r. rewrite <- app_assoc in R1, R3. rewrite lenN_app in R1. split; [exact R1|]. split; [exact R2|exact R3].
Qed.
Theorem C44_remove : forall major minor bs b, exists bs',
  remove_compatible_brand (ftyp_with major minor bs) b = Some (ftyp_with major minor bs') /\
  ~ In b bs' /\
  forall x, x <> b -> count_occ (list_eq_dec ascii_dec) bs' x = count_occ (list_eq_dec ascii_dec) bs x.
Proof.
  intros. unfold remove_compatible_brand, ftyp_with. cbn [brand_list lookup String.eqb Ascii.eqb Bool.eqb].
  destruct (remove_step (List.length bs) b [] bs) as (r & R1 & R2 & R3); [lia|intros []|]. cbn [app] in *.
  rewrite map_length. change (lenN []) with 0 in R1. rewrite R1. exists r. cbn [update String.eqb Ascii.eqb Bool.eqb]. auto.
Qed.
Print Assumptions C44_remove.
Example C44_case :
  let q s := bytes_of_string s in
  let f bs := ftyp_with (VList []) 0 (map q bs) in
  (add_compatible_brand (f ["isom"; "avc1"]) (q "avc1"), add_compatible_brand (f ["isom"; "avc1"]) (q "qt  "),
   remove_compatible_brand (f ["qt  "; "isom"; "qt  "; "avc1"; "qt  "]) (q "qt  "))
  = (f ["isom"; "avc1"], f ["isom"; "avc1"; "qt  "], Some (f ["avc1"; "isom"])).
Proof. vm_compute. reflexivity. Qed.
