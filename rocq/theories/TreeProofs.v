(** The traversal of a serialised tree is the traversal of the tree. *)
From Verif Require Import Base BaseProofs BitIO Schema Structs Methods Registry Unmarshal BoxInfo ReadTree SpecHeader HeaderProofs
     SpecTree PropUnmarshal.
Local Open Scope string_scope.
Local Open Scope list_scope.
Local Open Scope N_scope.
Local Open Scope monad_scope.

(** ** Induction on trees *)
Definition box_kids (b : box) : list box := match b with Box _ _ _ k _ => k end.
Lemma box_ind2 : forall Q : box -> Prop,
  (forall f t own kids slack, Forall Q kids -> Q (Box f t own kids slack)) -> forall b, Q b.
Proof.
  intros Q H. fix IH 1. intros [f t own kids slack]. apply H.
  induction kids as [|k r IHr]; constructor; [apply IH|exact IHr].
Qed.
Lemma box_wf_eq : forall last f t own kids slack,
  box_wf last (Box f t own kids slack) <->
  lenN t = 4 /\ lenN slack < 8 /\ (f = Small -> 8 + lenN (payload (Box f t own kids slack)) < 2 ^ 32) /\
  (f = ToEnd -> last = true) /\
  list_wf (last && match slack with [] => true | _ => false end) kids.
Proof.
  intros. cbn [box_wf].
  assert (E : forall lst l, (fix all (l : list box) : Prop :=
         match l with
         | [] => True
         | [k] => box_wf lst k
         | k :: r => box_wf false k /\ all r
         end) l <-> list_wf lst l).
  { intros lst. induction l as [|k [|k2 r] IH]; [reflexivity|reflexivity|].
    change (box_wf false k /\ (fix all (l : list box) : Prop :=
         match l with
         | [] => True
         | [k] => box_wf lst k
         | k :: r => box_wf false k /\ all r
         end) (k2 :: r) <-> box_wf false k /\ list_wf lst (k2 :: r)). now rewrite IH. }
  now rewrite E.
Qed.
Lemma list_wf_cons : forall last k r, list_wf last (k :: r) ->
  box_wf (last && match r with [] => true | _ => false end) k /\ list_wf last r.
Proof.
  intros last k [|k2 r] H.
  - cbn [list_wf] in *. rewrite andb_true_r. auto.
  - rewrite andb_false_r. exact H.
Qed.

(** ** Sizes *)
Lemma lenN_header : forall f t n, lenN t = 4 -> lenN (header f t n) = hsize f.
Proof.
  intros f t n H. destruct f; cbn [header hsize]; rewrite ?lenN_app, ?lenN_N_to_be, H; reflexivity.
Qed.
Lemma box_bytes_eq : forall b, box_bytes b = header (box_form b) (box_type b) (lenN (payload b)) ++ payload b.
Proof. intros [f t own kids slack]. reflexivity. Qed.
Lemma box_size_eq : forall b, lenN (box_type b) = 4 -> box_size b = hsize (box_form b) + lenN (payload b).
Proof. intros b H. unfold box_size. rewrite box_bytes_eq, lenN_app, lenN_header by auto. reflexivity. Qed.
Lemma wf_type : forall last b, box_wf last b -> lenN (box_type b) = 4.
Proof. intros last [f t own kids slack] H. apply box_wf_eq in H. apply H. Qed.
Lemma hsize_8 : forall f, 8 <= hsize f <= 16.
Proof. destruct f; cbn; lia. Qed.

Definition info (o : N) (b : box) (c : context) : boxinfo :=
  mkbi o (box_size b) (hsize (box_form b)) (box_type b) (match box_form b with ToEnd => true | _ => false end) c.

Lemma read_header : forall pre b post last,
  let data := pre ++ box_bytes b ++ post in
  lenN data < 2 ^ 62 -> box_wf last b -> (last = true -> post = []) ->
  read_box_info data (lenN pre) = (Ok (info (lenN pre) b ctx0), lenN pre + hsize (box_form b)).
Proof.
  intros pre b post last data Hd W L.
  pose proof (wf_type _ _ W) as Ht. pose proof (box_size_eq b Ht) as Sz.
  assert (Hp : lenN (payload b) < 2 ^ 62).
  { unfold data in Hd. rewrite !lenN_app in Hd. fold (box_size b) in Hd. lia. }
  change (2 ^ 62) with 4611686018427387904 in *.
  assert (H : iso_header (skipN (lenN pre) data)
                (Ok (box_size b, hsize (box_form b), box_type b, match box_form b with ToEnd => true | _ => false end))).
  { unfold data. rewrite skipN_app_exact by reflexivity. rewrite box_bytes_eq, Sz.
    destruct b as [f t own kids slack]. apply box_wf_eq in W. destruct W as (_ & _ & W3 & W4 & _).
    set (p := payload (Box f t own kids slack)) in *. cbn [box_form box_type] in *.
    destruct f; cbn [header hsize]; rewrite <- !app_assoc.
    - apply ih_small; auto. specialize (W3 eq_refl). change (2 ^ 32) with 4294967296 in *. lia.
    - apply ih_large; auto. change (2 ^ 64) with 18446744073709551616. lia.
    - rewrite (L (W4 eq_refl)), app_nil_r. now apply ih_to_eof. }
  assert (Hd2 : lenN data < 2 ^ 63) by (change (2 ^ 63) with 9223372036854775808; lia).
  destruct (read_box_info_spec data (lenN pre) _ Hd2 H) as (pos' & E & F).
  rewrite E. cbv iota. rewrite (F _ _ _ _ eq_refl). reflexivity.
Qed.

(** ** The context *)
Lemma bytes_eqb_sym : forall a b, bytes_eqb a b = bytes_eqb b a.
Proof.
  intros a b. destruct (bytes_eqb a b) eqn:E.
  - apply bytes_eqb_eq in E. subst. symmetry. apply bytes_eqb_refl.
  - destruct (bytes_eqb b a) eqn:F; [|reflexivity]. apply bytes_eqb_eq in F. subst. now rewrite bytes_eqb_refl in E.
Qed.
Lemma existsb_app_one : forall (g : btype -> bool) l x, existsb g (l ++ [x]) = existsb g l || g x.
Proof. intros. rewrite existsb_app. cbn. now rewrite orb_false_r. Qed.
Lemma ilst_item_snoc : forall anc u t, ilst_item u (anc ++ [t]) =
  match ilst_item u anc with
  | Some x => Some x
  | None => if (u || among "ilst" anc) && is_ilst_meta t then Some t else None
  end.
Proof.
  induction anc as [|a anc IH]; intros u t; cbn [app ilst_item].
  - change (among "ilst" []) with false. rewrite orb_false_r. reflexivity.
  - destruct (u && is_ilst_meta a); [reflexivity|]. rewrite IH.
    destruct (ilst_item (u || bt_eqb a (bt "ilst")) anc); [reflexivity|].
    assert (E : u || bt_eqb a (bt "ilst") || among "ilst" anc = u || among "ilst" (a :: anc)).
    { unfold among. cbn [existsb]. unfold bt_eqb. rewrite (bytes_eqb_sym a). now rewrite orb_assoc. }
    now rewrite E.
Qed.
Lemma ilst_not_meta : is_ilst_meta (bt "ilst") = false /\ is_ilst_meta (bt "wave") = false /\ is_ilst_meta (bt "udta") = false.
Proof. vm_compute. auto. Qed.

Lemma child_ctx_of : forall base qt keys anc t,
  child_ctx t (ctx_of base qt keys anc) = ctx_of base qt keys (anc ++ [t]).
Proof.
  intros base qt keys anc t. unfold child_ctx, ctx_of. cbn [UnderIlst UnderIlstMeta IsQuickTimeCompatible
    QuickTimeKeysMetaEntryCount UnderWave UnderIlstFreeMeta UnderUdta].
  unfold among. rewrite !existsb_app_one. rewrite ilst_item_snoc. fold (among "ilst" anc).
  unfold bt_eqb. rewrite (bytes_eqb_sym (bt "wave") t), (bytes_eqb_sym (bt "ilst") t), (bytes_eqb_sym (bt "udta") t).
  destruct ilst_not_meta as (N1 & N2 & N3).
  destruct (bytes_eqb t (bt "wave")) eqn:Ew.
  { apply bytes_eqb_eq in Ew. subst t. rewrite N2, andb_false_r.
    change (bytes_eqb (bt "wave") (bt "ilst")) with false. change (bytes_eqb (bt "wave") (bt "udta")) with false.
    rewrite !orb_true_r, !orb_false_r. f_equal; destruct (UnderIlstMeta base), (ilst_item (UnderIlst base) anc); reflexivity. }
  destruct (bytes_eqb t (bt "ilst")) eqn:Ei.
  { apply bytes_eqb_eq in Ei. subst t. rewrite N1, andb_false_r.
    change (bytes_eqb (bt "ilst") (bt "udta")) with false.
    rewrite !orb_true_r, !orb_false_r. f_equal; destruct (UnderIlstMeta base), (ilst_item (UnderIlst base) anc); reflexivity. }
  rewrite !orb_false_r.
  destruct ((UnderIlst base || among "ilst" anc) && negb (UnderIlstMeta base ||
     match (if UnderIlstMeta base then None else ilst_item (UnderIlst base) anc) with Some _ => true | None => false end)
     && is_ilst_meta t) eqn:Em.
  { apply andb_prop in Em. destruct Em as [Em E3]. apply andb_prop in Em. destruct Em as [E1 E2].
    apply negb_true_iff in E2. apply orb_false_iff in E2. destruct E2 as [E2 E4].
    rewrite E1, E2, E3 in *. destruct (ilst_item (UnderIlst base) anc); [discriminate|].
    cbn [andb orb]. rewrite orb_false_r.
    destruct (bytes_eqb t (bt "udta")) eqn:Eu; [apply bytes_eqb_eq in Eu; subst t; rewrite N3 in E3; discriminate|].
    rewrite orb_false_r. f_equal. destruct (bytes_eqb t (bt "----")), (UnderIlstFreeMeta base); reflexivity. }
  assert (IT : (if UnderIlstMeta base then None else
     match ilst_item (UnderIlst base) anc with Some x => Some x | None => if (UnderIlst base || among "ilst" anc) && is_ilst_meta t then Some t else None end)
     = (if UnderIlstMeta base then None else ilst_item (UnderIlst base) anc)).
  { destruct (UnderIlstMeta base); [reflexivity|]. destruct (ilst_item (UnderIlst base) anc); [reflexivity|].
    cbn [orb negb] in Em. rewrite andb_true_r in Em. now rewrite Em. }
  rewrite IT. destruct (bytes_eqb t (bt "udta")); rewrite ?orb_true_r, ?orb_false_r; reflexivity.
Qed.

(** ** Number of boxes *)
Fixpoint count (b : box) : nat :=
  match b with Box _ _ _ kids _ => S (fold_right (fun k n => (count k + n)%nat) 0%nat kids) end.
Definition count_list (l : list box) : nat := fold_right (fun k n => (count k + n)%nat) 0%nat l.
Lemma count_bytes : forall b, forall last, box_wf last b -> (8 * count b <= List.length (box_bytes b))%nat.
Proof.
  induction b as [f t own kids slack IH] using box_ind2. intros last W.
  pose proof (wf_type _ _ W) as Ht. apply box_wf_eq in W. destruct W as (_ & _ & _ & _ & W).
  rewrite box_bytes_eq, app_length.
  assert (H8 : (8 <= List.length (header f t (lenN (payload (Box f t own kids slack)))))%nat).
  { pose proof (lenN_header f t (lenN (payload (Box f t own kids slack))) Ht). pose proof (hsize_8 f).
    unfold lenN in *. lia. }
  cbn [box_form box_type payload] in *. rewrite !app_length.
  enough (G : (8 * count_list kids <= List.length (flat_map box_bytes kids))%nat).
  { cbn [count]. fold (count_list kids). lia. }
  clear -IH W. set (lst := last && _) in W. clearbody lst.
  induction kids as [|k r IHr]; [cbn; lia|]. apply list_wf_cons in W. destruct W as [W1 W2]. inversion IH; subst.
  cbn [count_list fold_right flat_map]. fold (count_list r). rewrite app_length.
  specialize (H1 _ W1). specialize (IHr H2 W2). lia.
Qed.
Lemma count_list_bytes : forall l last, list_wf last l -> (8 * count_list l <= List.length (flat_map box_bytes l))%nat.
Proof.
  induction l as [|k r IHr]; intros last W; [cbn; lia|]. apply list_wf_cons in W. destruct W as [W1 W2].
  cbn [count_list fold_right flat_map]. fold (count_list r). rewrite app_length.
  pose proof (count_bytes _ _ W1). specialize (IHr _ W2). lia.
Qed.

Lemma bind_ok : forall S A B (m : M S A) (k : A -> M S B) s a s1,
  m s = (Ok a, s1) -> bind m k s = k a s1.
Proof. intros S A B m k s a s1 H. unfold bind. now rewrite H. Qed.

Section Refine.
  Variable data : list byte.
  Variable base : context.
  Context {St V P : Type}.
  Variable handler : handler_t St V P.
  Hypothesis data_small : lenN data < 2 ^ 62.
  Local Notation R := std_registry.

  Definition plain {A} (r : res A) : Prop := match r with Ok _ | Err _ => True | _ => False end.

  Lemma run_plain : forall dec n bytes children (p : hprog St V P) r s',
    run dec n bytes children p = Some (r, s') -> plain r.
  Proof.
    intros dec n bytes children. induction p as [s v|s e|k IH|k IH|s q k IH|pos k IH]; intros r s' H; cbn [run] in H.
    - now injection H as <- <-.
    - now injection H as <- <-.
    - destruct dec; try discriminate; eauto.
    - eauto.
    - destruct dec as [[[d x] m]|e| |]; try discriminate; eauto.
      destruct (m =? n); [|discriminate]. destruct (children q s) as [[r1 s1]|]; [eauto|discriminate].
    - eauto.
  Qed.

  Lemma run_ok : forall bi dec own bytes children expand,
    bi_offset bi + bi_hsize bi + bi_size bi < 2 ^ 63 -> 8 <= bi_hsize bi -> own <= bi_size bi - bi_hsize bi ->
    bi_hsize bi <= bi_size bi ->
    (forall pos, exists p', read_payload R data bi pos = (dec, p') /\
       match dec with Ok (_, _, n) => n <= bi_size bi - bi_hsize bi /\ p' = bi_offset bi + bi_hsize bi + n | _ => True end) ->
    (forall pos, exists p', read_data data bi pos = (Ok (bytes, lenN bytes), p')) ->
    (forall q s r s', children q s = Some (r, s') -> plain r /\
       exists p', expand (bi_size bi - bi_hsize bi - own) q (bi_offset bi + bi_hsize bi + own, s) = (r, (p', s'))) ->
    forall (p : hprog St V P) co pos s r s',
    (co = 0 \/ exists d x n, dec = Ok (d, x, n) /\ co = bi_offset bi + bi_hsize bi + n) ->
    run dec own bytes children p = Some (r, s') ->
    exists p', run_handler R data bi expand co p (pos, s) = (r, (p', s')).
  Proof.
    intros bi dec own bytes children expand HS H8 HO HH HP HD HE. change (2 ^ 63) with 9223372036854775808 in HS.
    assert (W : forall n, n <= bi_size bi - bi_hsize bi ->
              w64 (bi_offset bi + bi_hsize bi + n) = bi_offset bi + bi_hsize bi + n).
    { intros n Hn. unfold w64, W64. apply N.mod_small. lia. }
    assert (S : sub64 (bi_offset bi + bi_size bi) (bi_offset bi + bi_hsize bi + own) = bi_size bi - bi_hsize bi - own).
    { unfold sub64, W64. rewrite (N.mod_small (bi_offset bi + bi_hsize bi + own)) by lia.
      replace (bi_offset bi + bi_size bi + 18446744073709551616 - (bi_offset bi + bi_hsize bi + own))
        with (bi_size bi - bi_hsize bi - own + 1 * 18446744073709551616) by lia.
      rewrite N.mod_add by lia. apply N.mod_small. lia. }
    induction p as [s0 v|s0 e|k IH|k IH|s0 q k IH|pos0 k IH]; intros co pos s r s' HC H; cbn [run run_handler] in *.
    - injection H as <- <-. now exists pos.
    - injection H as <- <-. now exists pos.
    - destruct (HP pos) as (p1 & E & HN).
      unfold bind at 1, attempt, lift_s. cbn [fst snd]. rewrite E.
      destruct dec as [[[d x] n]|e| |] eqn:ED; try discriminate.
      + destruct HN as [HN ->]. cbv iota. rewrite W by auto. eapply IH; [|exact H]. right. eauto.
      + eapply IH; [|exact H]. exact HC.
    - destruct (HD pos) as (p1 & E). unfold bind at 1, attempt, lift_s. cbn [fst snd]. rewrite E. eapply IH; eauto.
    - match goal with |- context [bind ?m ?k (pos, s)] =>
        rewrite (bind_ok _ _ _ m k (pos, s) tt (pos, s0) eq_refl) end.
      destruct dec as [[[d x] n]|e| |] eqn:ED; try discriminate.
      + destruct (N.eqb_spec n own) as [->|]; [|discriminate].
        destruct (children q s0) as [[r1 s1]|] eqn:EC; [|discriminate].
        destruct (HE _ _ _ _ EC) as (PR & p2 & EE).
        assert (A : exists p3 co', (co' = bi_offset bi + bi_hsize bi + own) /\
          attempt (if co =? 0 then
            x <- lift_s (read_payload R data bi) ;;
            let co' := w64 (bi_offset bi + bi_hsize bi + snd x) in
            vs <- attempt (expand (sub64 (bi_offset bi + bi_size bi) co') q) ;; ret (co', vs)
          else
            lift_s (s_seek co) ;;;
            vs <- attempt (expand (sub64 (bi_offset bi + bi_size bi) co) q) ;; ret (co, vs)) (pos, s0)
          = (Ok (Ok (co', r1)), (p3, s1))).
        { destruct (N.eqb_spec co 0) as [C0|C0].
          - destruct (HP pos) as (p1 & E & HN & ->). exists p2, (bi_offset bi + bi_hsize bi + own).
            split; [reflexivity|]. unfold attempt at 1. unfold bind at 1, lift_s. cbn [fst snd]. rewrite E. cbn [snd].
            cbv zeta. rewrite W by auto. rewrite S. unfold bind, attempt. rewrite EE. destruct r1; try contradiction; reflexivity.
          - destruct HC as [|(d1 & x1 & n1 & Q & ->)]; [contradiction|]. injection Q as <- <- <-.
            exists p2, (bi_offset bi + bi_hsize bi + own). split; [reflexivity|].
            unfold attempt at 1. unfold bind at 1, lift_s, s_seek. cbn [fst snd].
            destruct (N.ltb_spec (bi_offset bi + bi_hsize bi + own) 9223372036854775808); [|lia].
            rewrite S. unfold bind, attempt. rewrite EE. destruct r1; try contradiction; reflexivity. }
        destruct A as (p3 & co' & -> & A). rewrite (bind_ok _ _ _ _ _ _ _ _ A). unfold bind, get. cbn [snd].
        eapply IH; [|exact H]. right. eauto.
      + assert (C0 : co = 0) by (destruct HC as [|(d1 & x1 & n1 & Q & _)]; [auto|discriminate]). subst co.
        change (0 =? 0) with true. cbv iota.
        destruct (HP pos) as (p1 & E & _).
        match goal with |- context [bind ?m ?k (pos, s0)] =>
          rewrite (bind_ok _ _ _ m k (pos, s0) (Err e) (p1, s0)) end.
        2:{ unfold attempt at 1. unfold bind at 1, lift_s. cbn [fst snd]. now rewrite E. }
        unfold bind, get. cbn [snd]. eapply IH; [|exact H]. now left.
    - unfold bind at 1. cbn [snd]. eapply IH; eauto.
  Qed.

  (** the children of one box, as a function of its own *)
  Definition walk_kids (slack : list byte) (anc : list btype) (qt : bool) (q : P) :=
    fix go (keys : Z) (o : N) (l : list box) (s : St) {struct l} : option (res (list V) * St) :=
      match l with
      | [] => Some ((match slack with [] => Ok [] | _ => if qt then Ok [] else Err (EMsg "unexpected EOF") end), s)
      | k :: r =>
          match walk_box data base handler anc qt keys o k q s with
          | Some (Ok (v, (_, keys1)), s1) =>
              match go keys1 (o + box_size k) r s1 with
              | Some (Ok vs, s2) => Some (Ok (v :: vs), s2)
              | x => x
              end
          | Some (Err e, s1) => Some (Err e, s1)
          | _ => None
          end
      end.
  Lemma walk_box_eq : forall anc qt keys o f t own kids slack params s,
    walk_box data base handler anc qt keys o (Box f t own kids slack) params s =
    let b := Box f t own kids slack in
    match enter data base anc qt keys o b with
    | Err e => Some (Err e, s)
    | Panic | OutOfFuel => None
    | Ok (qt', keys') =>
        let c := ctx_of base qt' keys' anc in
        match run (decoded data c o b) (lenN own) (payload b)
                (fun q s => walk_kids slack (anc ++ [t]) qt' q keys' (o + hsize f + lenN own) kids s)
                (handler (info o b c) (anc ++ [t]) params s) with
        | Some (Ok v, s') => Some (Ok (v, (qt', keys')), s')
        | Some (Err e, s') => Some (Err e, s')
        | _ => None
        end
    end.
  Proof. reflexivity. Qed.

  Lemma set_ctx_info : forall o b c c', set_ctx (info o b c) c' = info o b c'.
  Proof. reflexivity. Qed.
  Lemma info_size : forall o b c, bi_size (info o b c) = box_size b. Proof. reflexivity. Qed.

  (** a box in the file *)
  Definition at_place (pre post : list byte) (last : bool) (b : box) : Prop :=
    data = pre ++ box_bytes b ++ post /\ box_wf last b /\ (last = true -> post = []).
  Lemma place_size : forall pre post last b, at_place pre post last b ->
    lenN pre + box_size b <= lenN data /\ hsize (box_form b) <= box_size b /\
    payload_size (info (lenN pre) b ctx0) = lenN (payload b) /\ box_size b = hsize (box_form b) + lenN (payload b).
  Proof.
    intros pre post last b (E & W & _). pose proof (wf_type _ _ W) as Ht. pose proof (box_size_eq b Ht) as S.
    assert (L : lenN data = lenN pre + (box_size b + lenN post)) by (rewrite E, !lenN_app; reflexivity).
    repeat split; try lia.
    unfold payload_size. cbn [bi_size bi_hsize info]. pose proof (hsize_8 (box_form b)).
    change (2 ^ 62) with 4611686018427387904 in *. unfold sub64, W64. rewrite (N.mod_small (hsize _)) by lia.
    replace (box_size b + 18446744073709551616 - hsize (box_form b))
      with (lenN (payload b) + 1 * 18446744073709551616) by lia.
    rewrite N.mod_add by lia. apply N.mod_small. lia.
  Qed.
  Lemma place_payload : forall pre post last b, at_place pre post last b ->
    takeN (lenN (payload b)) (skipN (lenN pre + hsize (box_form b)) data) = payload b.
  Proof.
    intros pre post last b (E & W & _). rewrite E, box_bytes_eq. pose proof (wf_type _ _ W) as Ht.
    rewrite <- app_assoc. rewrite app_assoc. rewrite skipN_app_exact.
    - apply takeN_app_exact. reflexivity.
    - rewrite lenN_app, lenN_header by auto. reflexivity.
  Qed.

  Lemma seek_payload : forall pre post last b c pos, at_place pre post last b ->
    seek_to_payload (info (lenN pre) b c) pos = (Ok tt, lenN pre + hsize (box_form b)).
  Proof.
    intros pre post last b c pos A. destruct (place_size _ _ _ _ A) as (L & H & _).
    change (2 ^ 62) with 4611686018427387904 in *.
    unfold seek_to_payload, s_seek. cbn [bi_offset bi_hsize info]. unfold w64, W64. rewrite N.mod_small by lia.
    destruct (N.ltb_spec (lenN pre + hsize (box_form b)) 9223372036854775808); [reflexivity|lia].
  Qed.
  Lemma seek_end : forall pre post last b c pos, at_place pre post last b ->
    seek_to_end (info (lenN pre) b c) pos = (Ok tt, lenN pre + box_size b).
  Proof.
    intros pre post last b c pos A. destruct (place_size _ _ _ _ A) as (L & H & _).
    change (2 ^ 62) with 4611686018427387904 in *.
    unfold seek_to_end, s_seek. cbn [bi_offset bi_size info]. unfold w64, W64. rewrite N.mod_small by lia.
    destruct (N.ltb_spec (lenN pre + box_size b) 9223372036854775808); [reflexivity|lia].
  Qed.
  Lemma place_decoded : forall pre post last b c, at_place pre post last b ->
    exists p', unmarshal_any R data (box_type b) (payload_size (info (lenN pre) b c)) c (lenN pre + hsize (box_form b)) =
      (decoded data c (lenN pre) b, p') /\
      match decoded data c (lenN pre) b with
      | Ok (_, _, n) => n <= lenN (payload b) /\ p' = lenN pre + hsize (box_form b) + n | _ => True end.
  Proof.
    intros pre post last b c A. destruct (place_size _ _ _ _ A) as (L & H & Pz & Sz).
    change (payload_size (info (lenN pre) b c)) with (payload_size (info (lenN pre) b ctx0)). rewrite Pz.
    unfold decoded.
    destruct (unmarshal_any R data (box_type b) (lenN (payload b)) c (lenN pre + hsize (box_form b)))
      as [[[[d x] n]| | |] p] eqn:E; cbn [fst]; eauto.
    exists p. split; [reflexivity|]. apply C09_unmarshal_count in E; [|lia|exact data_small]. intuition.
  Qed.
  Lemma place_read_payload : forall pre post last b c pos, at_place pre post last b ->
    exists p', read_payload R data (info (lenN pre) b c) pos = (decoded data c (lenN pre) b, p') /\
      match decoded data c (lenN pre) b with
      | Ok (_, _, n) => n <= lenN (payload b) /\ p' = lenN pre + hsize (box_form b) + n | _ => True end.
  Proof.
    intros pre post last b c pos A. unfold read_payload.
    rewrite (bind_ok _ _ _ _ _ _ _ _ (seek_payload _ _ _ _ c pos A)).
    cbn [bi_type bi_ctx info]. fold (info (lenN pre) b c). eapply place_decoded; eauto.
  Qed.
  Lemma place_read_data : forall pre post last b c pos, at_place pre post last b ->
    exists p', read_data data (info (lenN pre) b c) pos = (Ok (payload b, lenN (payload b)), p').
  Proof.
    intros pre post last b c pos A. destruct (place_size _ _ _ _ A) as (L & H & Pz & Sz). unfold read_data.
    rewrite (bind_ok _ _ _ _ _ _ _ _ (seek_payload _ _ _ _ c pos A)).
    change (payload_size (info (lenN pre) b c)) with (payload_size (info (lenN pre) b ctx0)). rewrite Pz.
    change (2 ^ 62) with 4611686018427387904 in *.
    unfold bind, s_copy. destruct (N.eqb_spec (lenN (payload b)) 0) as [Z|Z]; cbn [orb].
    - eexists. unfold ret. replace (payload b) with (@nil byte); [reflexivity|].
      destruct (payload b); [reflexivity|]. rewrite lenN_cons in Z. lia.
    - destruct (N.leb_spec 9223372036854775808 (lenN (payload b))); [lia|].
      rewrite (place_payload _ _ _ _ A). cbv zeta. rewrite N.eqb_refl. eexists. reflexivity.
  Qed.

  (** what happens before the handler is called *)
  Lemma place_prepare : forall pre post last b anc qt keys pos, at_place pre post last b ->
    exists p', prepare R data (info (lenN pre) b (ctx_of base qt keys anc)) anc pos =
      (match enter data base anc qt keys (lenN pre) b with
       | Ok (qt', keys') => Ok (info (lenN pre) b (ctx_of base qt' keys' anc))
       | Err e => Err e | Panic => Panic | OutOfFuel => OutOfFuel end, p').
  Proof.
    intros pre post last b anc qt keys pos A. unfold prepare, enter.
    rewrite (bind_ok _ _ _ _ _ _ _ _ (seek_payload _ _ _ _ _ pos A)).
    cbn [bi_type info]. rewrite (andb_comm (bt_eqb (box_type b) (bt "ftyp"))).
    set (first := _ && bt_eqb (box_type b) (bt "ftyp")).
    assert (K : forall qt, exists p',
      (if bt_eqb (box_type b) (bt "keys")
       then (x <- unmarshal_any R data (bt "keys") (payload_size (info (lenN pre) b (ctx_of base qt keys anc))) (ctx_of base qt keys anc) ;;
             (let bi' := set_ctx (info (lenN pre) b (ctx_of base qt keys anc))
                          (set_keys (as_Z (lookup "EntryCount" (snd (fst x)))) (ctx_of base qt keys anc)) in
              seek_to_payload bi' ;;; ret bi'))
       else ret (info (lenN pre) b (ctx_of base qt keys anc))) (lenN pre + hsize (box_form b)) =
      (match
        (if bt_eqb (box_type b) (bt "keys")
         then match decoded data (ctx_of base qt keys anc) (lenN pre) b with
              | Ok (_, x, _) => Ok (qt, as_Z (lookup "EntryCount" x))
              | Err e => Err e | Panic => Panic | OutOfFuel => OutOfFuel
              end
         else Ok (qt, keys)) with
       | Ok (qt', keys') => Ok (info (lenN pre) b (ctx_of base qt' keys' anc))
       | Err e => Err e | Panic => Panic | OutOfFuel => OutOfFuel end, p')).
    { intros qt0. destruct (bt_eqb (box_type b) (bt "keys")) eqn:EK; [|eexists; reflexivity].
      apply bytes_eqb_eq in EK. destruct (place_decoded _ _ _ _ (ctx_of base qt0 keys anc) A) as (p1 & E & _).
      rewrite <- EK. unfold bind at 1. rewrite E.
      destruct (decoded data (ctx_of base qt0 keys anc) (lenN pre) b) as [[[d x] n]|e| |]; try (eexists; reflexivity).
      cbn [fst snd]. rewrite set_ctx_info. cbv zeta.
      rewrite (bind_ok _ _ _ _ _ _ _ _ (seek_payload _ _ _ _ _ p1 A)). eexists. reflexivity. }
    destruct first eqn:EF.
    - unfold first in EF. apply andb_prop in EF. destruct EF as [_ EF]. apply bytes_eqb_eq in EF.
      destruct (place_decoded _ _ _ _ (ctx_of base qt keys anc) A) as (p1 & E & _).
      cbn [bi_ctx info]. fold (info (lenN pre) b (ctx_of base qt keys anc)). rewrite <- EF.
      unfold bind at 1. unfold bind at 1. rewrite E.
      destruct (decoded data (ctx_of base qt keys anc) (lenN pre) b) as [[[d x] n]|e| |]; try (eexists; reflexivity).
      cbn [fst snd]. cbv zeta.
      assert (Q : (if has_compatible_brand x brand_qt then
                     set_ctx (info (lenN pre) b (ctx_of base qt keys anc)) (set_qt (ctx_of base qt keys anc))
                   else info (lenN pre) b (ctx_of base qt keys anc)) =
                  info (lenN pre) b (ctx_of base (qt || has_compatible_brand x brand_qt) keys anc)).
      { destruct (has_compatible_brand x brand_qt); [rewrite orb_true_r|rewrite orb_false_r]; reflexivity. }
      rewrite Q. rewrite (bind_ok _ _ _ _ _ _ _ _ (seek_payload _ _ _ _ _ p1 A)). unfold ret at 1.
      destruct (K (qt || has_compatible_brand x brand_qt)) as (p' & K1). exists p'. exact K1.
    - unfold bind at 1, ret at 1. destruct (K qt) as (p' & K1). exists p'. exact K1.
  Qed.

  Definition box_ok (b : box) : Prop :=
    forall pre post last fuel anc qt keys params pos s r s',
      at_place pre post last b -> (count b <= fuel)%nat ->
      walk_box data base handler anc qt keys (lenN pre) b params s = Some (r, s') ->
      match r with
      | Ok (v, (qt', keys')) =>
          box_internal R data handler (fun t p c q => read_structure R data handler fuel false t p c q)
            (info (lenN pre) b (ctx_of base qt keys anc)) anc params (pos, s)
          = (Ok (v, info (lenN pre) b (ctx_of base qt' keys' anc)), (lenN pre + box_size b, s')) /\
          (anc <> [] -> qt' = qt) /\ (qt = true -> qt' = true) /\
          (bt_eqb (box_type b) (bt "keys") = false -> keys' = keys)
      | Err e => exists p',
          box_internal R data handler (fun t p c q => read_structure R data handler fuel false t p c q)
            (info (lenN pre) b (ctx_of base qt keys anc)) anc params (pos, s) = (Err e, (p', s'))
      | _ => False
      end.

  Lemma enter_facts : forall anc qt keys o b qt' keys', enter data base anc qt keys o b = Ok (qt', keys') ->
    (anc <> [] -> qt' = qt) /\ (qt = true -> qt' = true) /\
    (bt_eqb (box_type b) (bt "keys") = false -> keys' = keys).
  Proof.
    intros anc qt keys o b qt' keys' H. unfold enter in H.
    match type of H with (match ?m with _ => _ end) = _ => destruct m as [qt1|e| |] eqn:E; try discriminate end.
    assert (Q : qt' = qt1 /\ (bt_eqb (box_type b) (bt "keys") = false -> keys' = keys)).
    { destruct (bt_eqb (box_type b) (bt "keys")).
      - destruct (decoded data (ctx_of base qt1 keys anc) o b) as [[[d x] n]|e| |]; try discriminate.
        assert (Q : qt1 = qt') by (now injection H). split; [auto|discriminate].
      - assert (Q : qt1 = qt' /\ keys = keys') by (now injection H). destruct Q as [-> ->]. auto. }
    destruct Q as [-> Q]. split; [|split]; auto.
    - intros HA. destruct anc; [contradiction|]. rewrite andb_false_r in E. now injection E.
    - intros ->. destruct (bt_eqb (box_type b) (bt "ftyp") && _).
      + destruct (decoded data (ctx_of base true keys anc) o b) as [[[d x] n]|e| |]; try discriminate.
        injection E as <-. reflexivity.
      + now injection E.
  Qed.

  Lemma ctx_next : forall qt keys anc qt' keys' t, (qt = true -> qt' = true) ->
    (bt_eqb t (bt "keys") = false -> keys' = keys) ->
    (let ctx1 := if IsQuickTimeCompatible (ctx_of base qt' keys' anc) then set_qt (ctx_of base qt keys anc)
                 else ctx_of base qt keys anc in
     if bt_eqb t (bt "keys")
     then set_keys (QuickTimeKeysMetaEntryCount (ctx_of base qt' keys' anc)) ctx1 else ctx1)
    = ctx_of base qt' keys' anc.
  Proof.
    intros qt keys anc qt' keys' t H1 H2. cbv zeta. cbn [IsQuickTimeCompatible QuickTimeKeysMetaEntryCount ctx_of].
    destruct qt'.
    - destruct (bt_eqb t (bt "keys")); [reflexivity|]. now rewrite H2.
    - destruct qt; [discriminate (H1 eq_refl)|].
      destruct (bt_eqb t (bt "keys")); [reflexivity|]. now rewrite H2.
  Qed.

  Lemma place_header : forall pre post last b, at_place pre post last b ->
    read_box_info data (lenN pre) = (Ok (info (lenN pre) b ctx0), lenN pre + hsize (box_form b)).
  Proof.
    intros pre post last b (E & W & L). pose proof data_small as D. rewrite E in D |- *. eapply read_header; eauto.
  Qed.

  (** one turn of the loop in readBoxStructure *)
  Lemma turn : forall b pre post last fuel root total anc qt keys params s r s',
    box_ok b -> at_place pre post last b -> (count b <= fuel)%nat ->
    (root = false -> box_size b <= total) ->
    walk_box data base handler anc qt keys (lenN pre) b params s = Some (r, s') ->
    match r with
    | Ok (v, (qt', keys')) =>
        read_structure R data handler (S fuel) root total anc (ctx_of base qt keys anc) params (lenN pre, s) =
        bind (read_structure R data handler fuel root (sub64 total (box_size b)) anc (ctx_of base qt' keys' anc) params)
          (fun vs => ret (v :: vs)) (lenN pre + box_size b, s') /\ (anc <> [] -> qt' = qt)
    | Err e => exists p',
        read_structure R data handler (S fuel) root total anc (ctx_of base qt keys anc) params (lenN pre, s) = (Err e, (p', s'))
    | _ => False
    end.
  Proof.
    intros b pre post last fuel root total anc qt keys params s r s' HB A HC HT HW.
    specialize (HB _ _ _ _ _ _ _ _ (lenN pre + hsize (box_form b)) _ _ _ A HC HW).
    destruct (place_size _ _ _ _ A) as (L & H & Pz & Sz). pose proof (hsize_8 (box_form b)) as H8.
    cbn [read_structure].
    assert (C1 : root || (SmallHeaderSize <=? total) = true).
    { destruct root; [reflexivity|]. cbn [orb]. specialize (HT eq_refl). apply N.leb_le. unfold SmallHeaderSize. lia. }
    rewrite C1.
    assert (HD : attempt (lift_s (St := St) (read_box_info data)) (lenN pre, s) =
                 (Ok (Ok (info (lenN pre) b ctx0)), (lenN pre + hsize (box_form b), s))).
    { unfold attempt, lift_s. cbn [fst snd]. now rewrite (place_header _ _ _ _ A). }
    assert (C2 : negb root && (total <? bi_size (info (lenN pre) b ctx0)) = false).
    { destruct root; [reflexivity|]. cbn [negb andb]. specialize (HT eq_refl). apply N.ltb_ge. exact HT. }
    destruct r as [[v [qt' keys']]|e| |]; [| |contradiction..].
    - destruct HB as (HB & F1 & F2 & F3). split; [|exact F1].
      rewrite (bind_ok _ _ _ _ _ _ _ _ HD). cbv iota. rewrite C2. rewrite set_ctx_info.
      rewrite (bind_ok _ _ _ _ _ _ _ _ HB). cbn [bi_ctx bi_type bi_size info].
      cbv zeta. pose proof (ctx_next qt keys anc qt' keys' (box_type b) F2 F3) as CN. cbv zeta in CN. rewrite CN. reflexivity.
    - destruct HB as (p' & HB). exists p'.
      rewrite (bind_ok _ _ _ _ _ _ _ _ HD). cbv iota. rewrite C2. rewrite set_ctx_info.
      unfold bind at 1. rewrite HB. reflexivity.
  Qed.

  Lemma kids_ok : forall l pre post slack last fuel anc qt keys params s r s',
    Forall box_ok l -> anc <> [] ->
    data = pre ++ flat_map box_bytes l ++ slack ++ post -> list_wf last l -> (last = true -> slack ++ post = []) ->
    lenN slack < 8 -> (count_list l < fuel)%nat ->
    walk_kids slack anc qt params keys (lenN pre) l s = Some (r, s') ->
    plain r /\
    exists p', read_structure R data handler fuel false (lenN (flat_map box_bytes l) + lenN slack) anc
                 (ctx_of base qt keys anc) params (lenN pre, s) = (r, (p', s')).
  Proof.
    induction l as [|b l IH]; intros pre post slack last fuel anc qt keys params s r s' HF HA HD HW HL HS HC H.
    - cbn [walk_kids] in H. destruct fuel; [lia|]. cbn [flat_map read_structure orb].
      change (lenN (@nil byte)) with 0. rewrite N.add_0_l.
      destruct (N.leb_spec SmallHeaderSize (lenN slack)) as [?|_]; [unfold SmallHeaderSize in *; lia|].
      cbn [IsQuickTimeCompatible ctx_of].
      destruct slack as [|x sl].
      + injection H as <- <-. split; [exact I|]. eexists. reflexivity.
      + destruct (N.eqb_spec (lenN (x :: sl)) 0) as [Z|_]; [rewrite lenN_cons in Z; lia|]. cbn [negb andb].
        destruct qt; injection H as <- <-; (split; [exact I|]); eexists; reflexivity.
    - cbn [walk_kids] in H. apply list_wf_cons in HW. destruct HW as [W1 W2]. inversion HF as [|? ? F1 F2]; subst.
      cbn [count_list fold_right] in HC. fold (count_list l) in HC. cbn [flat_map] in HD |- *.
      assert (A : at_place pre (flat_map box_bytes l ++ slack ++ post) (last && match l with [] => true | _ => false end) b).
      { split; [|split].
        - rewrite HD, <- app_assoc. reflexivity.
        - exact W1.
        - intros Q. apply andb_prop in Q. destruct Q as [Q1 Q2]. destruct l; [|discriminate]. cbn. auto. }
      destruct fuel as [|fuel]; [lia|].
      destruct (walk_box data base handler anc qt keys (lenN pre) b params s) as [[rb sb]|] eqn:EB; [|discriminate].
      assert (CB : (count b <= fuel)%nat) by lia.
      rewrite lenN_app.
      assert (HT : false = false -> box_size b <= lenN (box_bytes b) + lenN (flat_map box_bytes l) + lenN slack)
        by (intros _; unfold box_size; lia).
      pose proof (turn b pre _ _ fuel false _ anc qt keys params s rb sb F1 A CB HT EB) as T.
      destruct rb as [[v [qt' keys']]|e| |]; [| |contradiction..].
      + destruct T as [T Q]. rewrite (Q HA) in T. clear Q.
        fold (walk_kids slack anc qt params) in H.
        assert (SZ : sub64 (lenN (box_bytes b) + lenN (flat_map box_bytes l) + lenN slack) (box_size b) =
                     lenN (flat_map box_bytes l) + lenN slack).
        { assert (LL : lenN data = lenN pre + (lenN (box_bytes b) + lenN (flat_map box_bytes l) + (lenN slack + lenN post)))
            by (rewrite HD, !lenN_app; reflexivity).
          change (2 ^ 62) with 4611686018427387904 in *. unfold sub64, W64, box_size.
          rewrite (N.mod_small (lenN (box_bytes b))) by lia.
          match goal with |- ?a mod _ = _ =>
            replace a with (lenN (flat_map box_bytes l) + lenN slack + 1 * 18446744073709551616) by lia end.
          rewrite N.mod_add by lia. apply N.mod_small. lia. }
        rewrite SZ in T.
        assert (OB : lenN pre + box_size b = lenN (pre ++ box_bytes b)) by (rewrite lenN_app; reflexivity).
        rewrite OB in T, H.
        assert (D2 : data = (pre ++ box_bytes b) ++ flat_map box_bytes l ++ slack ++ post).
        { rewrite HD, <- !app_assoc. reflexivity. }
        assert (CL : (count_list l < fuel)%nat) by (destruct b; cbn [count] in HC; lia).
        destruct (walk_kids slack anc qt params keys' (lenN (pre ++ box_bytes b)) l sb) as [[r2 s2]|] eqn:E2; [|discriminate].
        destruct (IH _ _ _ _ fuel _ _ _ _ _ _ _ F2 HA D2 W2 HL HS CL E2) as (PR & p2 & RR).
        destruct r2 as [vs|e| |]; [| |contradiction..]; injection H as <- <-.
        * split; [exact I|]. exists p2. rewrite T. unfold bind. rewrite RR. reflexivity.
        * split; [exact I|]. exists p2. rewrite T. unfold bind. rewrite RR. reflexivity.
      + injection H as <- <-. split; [exact I|]. exact T.
  Qed.

  Lemma all_box_ok : forall b, box_ok b.
  Proof.
    induction b as [f t own kids slack IH] using box_ind2.
    intros pre post last fuel anc qt keys params pos s r s' A HC HW.
    set (b := Box f t own kids slack) in *.
    pose proof (place_size _ _ _ _ A) as (L & H & Pz & Sz).
    destruct (place_prepare _ _ _ _ anc qt keys pos A) as (p1 & EP).
    unfold b in HW. rewrite walk_box_eq in HW. fold b in HW. cbv zeta in HW.
    destruct (enter data base anc qt keys (lenN pre) b) as [[qt' keys']|e| |] eqn:EE; try discriminate.
    2:{ injection HW as <- <-. exists p1. unfold box_internal. unfold bind at 1, lift_s at 1. cbn [fst snd].
        rewrite EP. reflexivity. }
    assert (LP : lift_s (St := St) (prepare R data (info (lenN pre) b (ctx_of base qt keys anc)) anc) (pos, s) =
                 (Ok (info (lenN pre) b (ctx_of base qt' keys' anc)), (p1, s))).
    { unfold lift_s. cbn [fst snd]. now rewrite EP. }
    set (c := ctx_of base qt' keys' anc) in *. set (bi := info (lenN pre) b c) in *.
    set (ch := fun q s => walk_kids slack (anc ++ [t]) qt' q keys' (lenN pre + hsize f + lenN own) kids s) in *.
    destruct (run (decoded data c (lenN pre) b) (lenN own) (payload b) ch (handler bi (anc ++ [t]) params s))
      as [[rv sv]|] eqn:ER; [|discriminate].
    assert (RH : exists p', run_handler R data bi
        (fun total p => read_structure R data handler fuel false total (anc ++ [t]) (child_ctx t c) p) 0
        (handler bi (anc ++ [t]) params s) (p1, s) = (rv, (p', sv))).
    { destruct A as (HD & W & HL). pose proof (wf_type _ _ W) as Ht. pose proof W as W0. apply box_wf_eq in W.
      destruct W as (_ & WS & _ & _ & WK).
      assert (SZ : box_size b = hsize f + lenN (payload b)) by (apply box_size_eq; exact Ht).
      assert (PL : lenN (payload b) = lenN own + (lenN (flat_map box_bytes kids) + lenN slack))
        by (unfold b; cbn [payload]; rewrite !lenN_app; reflexivity).
      change (2 ^ 62) with 4611686018427387904 in *. pose proof (hsize_8 f) as H8.
      eapply run_ok with (children := ch); [..|exact ER].
      - unfold bi. cbn [bi_offset bi_hsize bi_size info]. change (box_form b) with f.
        change (2 ^ 63) with 9223372036854775808. lia.
      - unfold bi. cbn [bi_hsize info]. change (box_form b) with f. lia.
      - unfold bi. cbn [bi_hsize bi_size info]. change (box_form b) with f. lia.
      - unfold bi. cbn [bi_hsize bi_size info]. change (box_form b) with f. lia.
      - intros q. unfold bi. cbn [bi_offset bi_hsize bi_size info].
        assert (A : at_place pre post last b) by (split; [exact HD|split; [exact W0|exact HL]]).
        destruct (place_read_payload _ _ _ _ c q A) as (p' & E1 & E2). exists p'.
        split; [exact E1|]. change (box_form b) with f in *.
        destruct (decoded data c (lenN pre) b) as [[[d x] n]|e| |]; auto. destruct E2 as [E2 ->]. split; [lia|reflexivity].
      - intros q. assert (A : at_place pre post last b) by (split; [exact HD|split; [exact W0|exact HL]]).
        exact (place_read_data _ _ _ _ c q A).
      - intros q s1 r1 s2 HK. unfold ch in HK. unfold bi. cbn [bi_offset bi_hsize bi_size info].
        change (box_form b) with f.
        assert (OF : lenN pre + hsize f + lenN own = lenN (pre ++ header f t (lenN (payload b)) ++ own)).
        { rewrite !lenN_app, lenN_header by exact Ht. lia. }
        rewrite OF in HK |- *.
        replace (box_size b - hsize f - lenN own) with (lenN (flat_map box_bytes kids) + lenN slack) by lia.
        unfold c. rewrite child_ctx_of.
        eapply kids_ok with (post := post); [exact IH| | |exact WK| |exact WS| |exact HK].
        + intros Q. destruct anc; discriminate.
        + rewrite HD. unfold b. rewrite box_bytes_eq. cbn [box_form box_type payload]. rewrite <- !app_assoc. reflexivity.
        + intros Q. apply andb_prop in Q. destruct Q as [Q1 Q2]. rewrite (HL Q1), app_nil_r. destruct slack; [reflexivity|discriminate].
        + unfold b in HC. cbn [count] in HC. fold (count_list kids) in HC. lia.
      - left. reflexivity. }
    destruct RH as (p2 & RH). pose proof (run_plain _ _ _ _ _ _ _ ER) as PR.
    assert (BI : box_internal R data handler (fun t p c q => read_structure R data handler fuel false t p c q)
            (info (lenN pre) b (ctx_of base qt keys anc)) anc params (pos, s) =
            (match rv with Ok v => Ok (v, bi) | Err e => Err e | Panic => Panic | OutOfFuel => OutOfFuel end,
             (match rv with Ok _ => lenN pre + box_size b | _ => p2 end, sv))).
    { unfold box_internal. rewrite (bind_ok _ _ _ _ _ _ _ _ LP). cbv zeta.
      change (bi_type bi) with t. change (bi_ctx bi) with c. unfold bind at 1. cbn [snd].
      rewrite RH. destruct rv as [v|e| |]; [|reflexivity|contradiction..].
      unfold bind at 1, lift_s. cbn [fst snd]. unfold bi. rewrite (seek_end _ _ _ _ _ _ A). reflexivity. }
    destruct rv as [v|e| |]; [| |contradiction..]; injection HW as <- <-.
    - split; [exact BI|]. eapply enter_facts. exact EE.
    - exists p2. exact BI.
  Qed.

  Lemma file_ok : forall l pre fuel qt keys params s r s',
    data = pre ++ flat_map box_bytes l -> list_wf true l -> (count_list l < fuel)%nat ->
    walk_file data base handler qt keys (lenN pre) l params s = Some (r, s') ->
    forall total, exists p', read_structure R data handler fuel true total [] (ctx_of base qt keys []) params (lenN pre, s) = (r, (p', s')).
  Proof.
    induction l as [|b l IH]; intros pre fuel qt keys params s r s' HD HW HC H total.
    - cbn [walk_file] in H. injection H as <- <-. destruct fuel; [lia|]. cbn [flat_map] in HD. rewrite app_nil_r in HD.
      cbn [read_structure orb].
      assert (Q : exists p, attempt (lift_s (St := St) (read_box_info data)) (lenN pre, s) = (Ok (Err EEOF), (p, s))).
      { assert (L : lenN data < 9223372036854775808) by (change (2 ^ 62) with 4611686018427387904 in *; lia).
        rewrite <- HD. unfold attempt, lift_s. cbn [fst snd]. unfold read_box_info.
        unfold bind at 1, get at 1. unfold bind at 1. unfold s_copy at 1, SmallHeaderSize at 1.
        rewrite skipN_all by lia. destruct ((8 =? 0) || (9223372036854775808 <=? 8)) eqn:E8; [discriminate|].
        replace (takeN SmallHeaderSize (@nil byte)) with (@nil byte) by reflexivity. cbv zeta.
        change (lenN (@nil byte)) with 0. eexists. reflexivity. }
      destruct Q as (p & Q). exists p. rewrite (bind_ok _ _ _ _ _ _ _ _ Q). reflexivity.
    - cbn [walk_file] in H. apply list_wf_cons in HW. destruct HW as [W1 W2].
      cbn [count_list fold_right] in HC. fold (count_list l) in HC. cbn [flat_map] in HD |- *.
      assert (A : at_place pre (flat_map box_bytes l) (true && match l with [] => true | _ => false end) b).
      { split; [|split].
        - exact HD.
        - exact W1.
        - intros Q. destruct l; [reflexivity|discriminate]. }
      destruct fuel as [|fuel]; [lia|].
      destruct (walk_box data base handler [] qt keys (lenN pre) b params s) as [[rb sb]|] eqn:EB; [|discriminate].
      assert (CB : (count b <= fuel)%nat) by lia.
      assert (HT : true = false -> box_size b <= total) by discriminate.
      pose proof (turn b pre _ _ fuel true total [] qt keys params s rb sb (all_box_ok b) A CB HT EB) as T.
      destruct rb as [[v [qt' keys']]|e| |]; [| |contradiction..].
      + destruct T as [T _].
        assert (OB : lenN pre + box_size b = lenN (pre ++ box_bytes b)) by (rewrite lenN_app; reflexivity).
        rewrite OB in T, H.
        assert (D2 : data = (pre ++ box_bytes b) ++ flat_map box_bytes l).
        { rewrite HD, <- !app_assoc. reflexivity. }
        assert (CL : (count_list l < fuel)%nat) by (destruct b; cbn [count] in HC; lia).
        destruct (walk_file data base handler qt' keys' (lenN (pre ++ box_bytes b)) l params sb) as [[r2 s2]|] eqn:E2; [|discriminate].
        destruct (IH _ fuel _ _ _ _ _ _ D2 W2 CL E2 (sub64 total (box_size b))) as (p2 & RR).
        destruct r2 as [vs|e| |].
        * injection H as <- <-. exists p2. rewrite T. unfold bind. rewrite RR. reflexivity.
        * injection H as <- <-. exists p2. rewrite T. unfold bind. rewrite RR. reflexivity.
        * injection H as <- <-. exists p2. rewrite T. unfold bind. rewrite RR. reflexivity.
        * injection H as <- <-. exists p2. rewrite T. unfold bind. rewrite RR. reflexivity.
      + injection H as <- <-. exact T.
  Qed.
End Refine.
