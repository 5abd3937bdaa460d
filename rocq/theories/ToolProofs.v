(** Commands that visit boxes, print something for each, and go into some of
    them. *)
From Verif Require Import Base BaseProofs Schema Structs Registry Unmarshal BoxInfo ReadTree.
From Verif Require Import SpecTree TreeProofs PropTree SpecExtract PropExtract SpecTool.
Local Open Scope string_scope.
Local Open Scope list_scope.
Local Open Scope N_scope.

Section Collect.
  Variable data : list byte.
  Hypothesis data_small : lenN data < 2 ^ 62.
  Context {St V P : Type}.
  Variable handler : handler_t St V P.
  Variable params : P.
  Variable go : entry -> bool.
  Variable step : entry -> St -> St.
  Variable fit : entry -> Prop.

  Fixpoint reach_kids (anc : list btype) (qt : bool) (keys : Z) (o : N) (l : list box) : list entry :=
    match l with
    | [] => []
    | k :: r =>
        reach_box data go anc qt keys o k ++
        reach_kids anc qt (match enter data ctx0 anc qt keys o k with Ok x => snd x | _ => keys end) (o + box_size k) r
    end.
  Definition entry_of (anc : list btype) (qt : bool) (keys : Z) (o : N) (b : box) : entry :=
    let told := enter data ctx0 anc qt keys o b in
    let x := match told with Ok x => x | _ => (qt, keys) end in
    {| e_path := anc ++ [box_type b]; e_info := info o b (ctx_of ctx0 (fst x) (snd x) anc); e_box := b; e_told := told |}.
  Lemma reach_box_eq : forall anc qt keys o f t own kids slack,
    let b := Box f t own kids slack in
    let x := match enter data ctx0 anc qt keys o b with Ok x => x | _ => (qt, keys) end in
    reach_box data go anc qt keys o b =
    entry_of anc qt keys o b ::
    if go (entry_of anc qt keys o b) then reach_kids (anc ++ [t]) (fst x) (snd x) (o + hsize f + lenN own) kids else [].
  Proof.
    intros anc qt keys o f t own kids slack. cbv zeta. unfold entry_of. cbn [reach_box]. cbv zeta.
    destruct (match enter data ctx0 anc qt keys o (Box f t own kids slack) with Ok x => x | _ => (qt, keys) end) as [qt' keys'].
    cbn [fst snd]. f_equal. unfold info. cbn [box_form box_type].
    match goal with |- (if ?a then _ else _) = _ => destruct a; [|reflexivity] end.
    generalize (o + hsize f + lenN own) as o1. generalize keys' as k1.
    induction kids as [|k r IH]; intros k1 o1; [reflexivity|].
    cbn [reach_kids]. f_equal. apply IH.
  Qed.

  (** what the handler does at a box: it stops there, or goes on with the boxes
      in it *)
  Hypothesis handles : forall anc qt keys pre post last f t own kids slack s children,
    let b := Box f t own kids slack in
    let e := entry_of anc qt keys (lenN pre) b in
    at_place data pre post last b -> passable data go e -> fit e ->
    (go e = true -> exists vs s', children params (step e s) = Some (Ok vs, s')) ->
    exists v, run (e_decoded data e) (lenN own) (payload b) children (handler (e_info e) (e_path e) params s) =
      if go e then match children params (step e s) with Some (_, s') => Some (Ok v, s') | None => None end
      else Some (Ok v, step e s).

  Definition collects (b : box) : Prop := forall anc qt keys pre post last s,
    at_place data pre post last b ->
    Forall (fun e => passable data go e /\ fit e) (reach_box data go anc qt keys (lenN pre) b) ->
    exists v qt' keys', enter data ctx0 anc qt keys (lenN pre) b = Ok (qt', keys') /\
      walk_box data ctx0 handler anc qt keys (lenN pre) b params s =
      Some (Ok (v, (qt', keys')), fold_left (fun s e => step e s) (reach_box data go anc qt keys (lenN pre) b) s).

  Lemma kids_collect : forall kids slack post anc qt last, Forall collects kids -> (slack = [] \/ qt = true) ->
    list_wf last kids -> (last = true -> slack ++ post = []) -> forall pre keys s,
    data = pre ++ flat_map box_bytes kids ++ slack ++ post ->
    Forall (fun e => passable data go e /\ fit e) (reach_kids anc qt keys (lenN pre) kids) ->
    exists vs, walk_kids data ctx0 handler slack anc qt params keys (lenN pre) kids s =
      Some (Ok vs, fold_left (fun s e => step e s) (reach_kids anc qt keys (lenN pre) kids) s).
  Proof.
    intros kids slack post anc qt last W SL. revert last.
    induction W as [|k r Wk Wr IH]; intros last HW HL pre keys s HD Q.
    - exists []. cbn [walk_kids reach_kids fold_left].
      destruct slack; [reflexivity|]. destruct SL as [SL|SL]; [discriminate|]. now rewrite SL.
    - cbn [reach_kids flat_map] in *. apply Forall_app in Q. destruct Q as [Q1 Q2].
      apply list_wf_cons in HW. destruct HW as [W1 W2].
      assert (A : at_place data pre (flat_map box_bytes r ++ slack ++ post) (last && match r with [] => true | _ => false end) k).
      { split; [|split].
        - rewrite HD, <- app_assoc. reflexivity.
        - exact W1.
        - intros Z. apply andb_prop in Z. destruct Z as [Z1 Z2]. destruct r; [|discriminate]. cbn. auto. }
      destruct (Wk anc qt keys pre _ _ s A Q1) as (v & qt2 & keys2 & E & R).
      cbn [walk_kids]. rewrite R. rewrite E in Q2 |- *. cbn [snd] in *.
      assert (OB : lenN pre + box_size k = lenN (pre ++ box_bytes k)) by (rewrite lenN_app; reflexivity).
      rewrite OB in Q2 |- *.
      destruct (IH last W2 HL (pre ++ box_bytes k) keys2
                  (fold_left (fun s e => step e s) (reach_box data go anc qt keys (lenN pre) k) s)) as (vs & VS); auto.
      { rewrite HD, <- !app_assoc. reflexivity. }
      exists (v :: vs).
      change ((fix go (keys : Z) (o : N) (l : list box) (s : St) {struct l} := _) keys2) with
        (walk_kids data ctx0 handler slack anc qt params keys2).
      rewrite VS, fold_left_app. reflexivity.
  Qed.

  Lemma all_collect : forall b, collects b.
  Proof.
    induction b as [f t own kids slack IH] using box_ind2.
    intros anc qt keys pre post last s A Q.
    rewrite walk_box_eq. cbv zeta. rewrite reach_box_eq in *. cbv zeta in *.
    set (b := Box f t own kids slack) in *.
    pose proof (Forall_inv Q) as [Q1 F1]. apply Forall_inv_tail in Q.
    assert (exists qt' keys', enter data ctx0 anc qt keys (lenN pre) b = Ok (qt', keys')) as (qt' & keys' & E).
    { destruct Q1 as [[[q2 k2] Q1] _]. cbn [e_told entry_of] in Q1. eauto. }
    set (e := entry_of anc qt keys (lenN pre) b) in *.
    assert (EI : e_info e = info (lenN pre) b (ctx_of ctx0 qt' keys' anc)).
    { unfold e, entry_of. cbv zeta. rewrite E. reflexivity. }
    rewrite E in *. cbn [fst snd] in *.
    set (children := fun (q : P) (s : St) =>
       walk_kids data ctx0 handler slack (anc ++ [t]) qt' q keys' (lenN pre + hsize f + lenN own) kids s).
    assert (KI : go e = true -> exists vs, children params (step e s) =
      Some (Ok vs, fold_left (fun s e => step e s) (reach_kids (anc ++ [t]) qt' keys' (lenN pre + hsize f + lenN own) kids) (step e s))).
    { intros G. rewrite G in Q. pose proof A as (HD & HW & HL). pose proof (wf_type _ _ HW) as Ht. change (box_type b) with t in Ht.
      destruct Q1 as [_ Q1]. specialize (Q1 G). unfold can_open in Q1.
      change (e_box e) with b in Q1. unfold b in Q1. destruct Q1 as [_ SL]. rewrite EI in SL. cbn [info bi_ctx ctx_of IsQuickTimeCompatible] in SL.
      apply box_wf_eq in HW. destruct HW as (_ & _ & _ & _ & WK).
      assert (PRE : lenN pre + hsize f + lenN own = lenN (pre ++ header f t (lenN (payload b)) ++ own)).
      { rewrite !lenN_app, lenN_header by exact Ht. lia. }
      unfold children. rewrite PRE in Q |- *.
      eapply kids_collect with (post := post) (last := last && match slack with [] => true | _ => false end).
      - exact IH.
      - exact SL.
      - exact WK.
      - intros Z. apply andb_prop in Z. destruct Z as [Z1 Z2]. rewrite (HL Z1), app_nil_r. destruct slack; [reflexivity|discriminate].
      - rewrite HD. unfold b. rewrite box_bytes_eq. cbn [box_form box_type payload]. rewrite <- !app_assoc. reflexivity.
      - exact Q. }
    destruct (handles anc qt keys pre post last f t own kids slack s children A Q1 F1) as (v & H).
    { intros G. destruct (KI G) as (vs & K). eauto. }
    fold b e in H. exists v, qt', keys'. split; [reflexivity|].
    assert (DE : e_decoded data e = decoded data (ctx_of ctx0 qt' keys' anc) (lenN pre) b).
    { unfold e_decoded. rewrite EI. reflexivity. }
    rewrite DE, EI in H. change (e_path e) with (anc ++ [t]) in H. rewrite H.
    cbn [fold_left]. destruct (go e); [|reflexivity].
    destruct (KI eq_refl) as (vs & K). rewrite K. reflexivity.
  Qed.

  Lemma file_collect : forall l pre qt keys s,
    data = pre ++ flat_map box_bytes l -> list_wf true l ->
    Forall (fun e => passable data go e /\ fit e) (reach_file data go qt keys (lenN pre) l) ->
    exists vs, walk_file data ctx0 handler qt keys (lenN pre) l params s =
      Some (Ok vs, fold_left (fun s e => step e s) (reach_file data go qt keys (lenN pre) l) s).
  Proof.
    induction l as [|b r IH]; intros pre qt keys s HD HW Q.
    - exists []. reflexivity.
    - cbn [reach_file walk_file flat_map] in *. apply list_wf_cons in HW. destruct HW as [W1 W2].
      destruct (match enter data ctx0 [] qt keys (lenN pre) b with Ok x => x | _ => (qt, keys) end) as [q1 k1] eqn:E1.
      apply Forall_app in Q. destruct Q as [Q1 Q2].
      assert (A : at_place data pre (flat_map box_bytes r) (true && match r with [] => true | _ => false end) b).
      { split; [exact HD|]. split; [exact W1|]. intros Z. destruct r; [reflexivity|discriminate]. }
      destruct (all_collect b [] qt keys pre _ _ s A Q1) as (v & qt' & keys' & E & W).
      rewrite W. rewrite E in E1. injection E1 as -> ->.
      assert (OB : lenN pre + box_size b = lenN (pre ++ box_bytes b)) by (rewrite lenN_app; reflexivity).
      rewrite OB in Q2 |- *.
      destruct (IH (pre ++ box_bytes b) q1 k1 (fold_left (fun s e => step e s) (reach_box data go [] qt keys (lenN pre) b) s)
                  ltac:(rewrite HD, <- app_assoc; reflexivity) W2 Q2) as (vs & VS).
      rewrite VS, fold_left_app. exists (v :: vs). reflexivity.
  Qed.
End Collect.

(** everything is reached when every box that has boxes in it is entered *)
Section All.
  Variable data : list byte.
  Variable go : entry -> bool.
  Definition through (e : entry) : Prop := go e = true \/ box_kids (e_box e) = [].
  Lemma reach_all_kids : forall kids, Forall (fun b => forall anc qt keys o,
      Forall through (list_box data ctx0 anc qt keys o b) ->
      reach_box data go anc qt keys o b = list_box data ctx0 anc qt keys o b) kids ->
    forall anc qt keys o, Forall through (list_kids data ctx0 anc qt keys o kids) ->
    reach_kids data go anc qt keys o kids = list_kids data ctx0 anc qt keys o kids.
  Proof.
    induction kids as [|k r IH]; intros F anc qt keys o Q; [reflexivity|].
    pose proof (Forall_inv F) as F1. apply Forall_inv_tail in F. cbn [list_kids reach_kids] in *.
    apply Forall_app in Q. destruct Q as [Q1 Q2]. rewrite (F1 _ _ _ _ Q1), (IH F _ _ _ _ Q2). reflexivity.
  Qed.
  Lemma reach_all_box : forall b anc qt keys o, Forall through (list_box data ctx0 anc qt keys o b) ->
    reach_box data go anc qt keys o b = list_box data ctx0 anc qt keys o b.
  Proof.
    induction b as [f t own kids slack IH] using box_ind2. intros anc qt keys o Q.
    rewrite reach_box_eq. cbv zeta. rewrite list_box_eq in *. cbv zeta in *. unfold entry_of. cbv zeta.
    destruct (match enter data ctx0 anc qt keys o (Box f t own kids slack) with Ok x => x | _ => (qt, keys) end) as [qt' keys'].
    cbn [fst snd box_type]. pose proof (Forall_inv Q) as Q1. apply Forall_inv_tail in Q. f_equal.
    destruct Q1 as [Q1|Q1].
    - rewrite Q1. now apply reach_all_kids.
    - cbn [e_box box_kids] in Q1. subst kids. cbn [list_kids reach_kids]. destruct (go _); reflexivity.
  Qed.
  Lemma reach_all : forall l qt keys o, Forall through (list_file data ctx0 qt keys o l) ->
    reach_file data go qt keys o l = list_file data ctx0 qt keys o l.
  Proof.
    induction l as [|b r IH]; intros qt keys o Q; [reflexivity|]. cbn [list_file reach_file] in *.
    destruct (match enter data ctx0 [] qt keys o b with Ok x => x | _ => (qt, keys) end) as [q1 k1].
    apply Forall_app in Q. destruct Q as [Q1 Q2]. rewrite (reach_all_box _ _ _ _ _ Q1), (IH _ _ _ Q2). reflexivity.
  Qed.
End All.

(** ** Where the boxes of a tree are *)
Section Placed.
  Variable data : list byte.
  Variable base : context.
  Definition placed (e : entry) : Prop := exists pre post last,
    TreeProofs.at_place data pre post last (e_box e) /\ e_info e = info (lenN pre) (e_box e) (bi_ctx (e_info e)).
  Lemma kids_placed : forall kids, Forall (fun b => forall anc qt keys pre post last,
      TreeProofs.at_place data pre post last b -> Forall placed (list_box data base anc qt keys (lenN pre) b)) kids ->
    forall anc qt keys pre post last, list_wf last kids -> (last = true -> post = []) ->
    data = pre ++ flat_map box_bytes kids ++ post ->
    Forall placed (list_kids data base anc qt keys (lenN pre) kids).
  Proof.
    induction kids as [|k r IHr]; intros F anc qt keys pre post last WK HL HD; [constructor|].
    cbn [list_kids flat_map] in *. apply list_wf_cons in WK. destruct WK as [W1 W2]. apply Forall_app. split.
    - apply (Forall_inv F) with (post := flat_map box_bytes r ++ post) (last := last && match r with [] => true | _ => false end).
      split; [|split].
      + rewrite HD, <- app_assoc. reflexivity.
      + exact W1.
      + intros Z. apply andb_prop in Z. destruct Z as [Z1 Z2]. destruct r; [|discriminate]. cbn. auto.
    - assert (OB : lenN pre + box_size k = lenN (pre ++ box_bytes k)) by (rewrite lenN_app; reflexivity).
      rewrite OB. apply (IHr (Forall_inv_tail F)) with (post := post) (last := last); auto.
      rewrite HD, <- !app_assoc. reflexivity.
  Qed.
  Lemma box_placed : forall b anc qt keys pre post last, TreeProofs.at_place data pre post last b ->
    Forall placed (list_box data base anc qt keys (lenN pre) b).
  Proof.
    induction b as [f t own kids slack IH] using box_ind2. intros anc qt keys pre post last A. rewrite list_box_eq. cbv zeta.
    destruct (match enter data base anc qt keys (lenN pre) (Box f t own kids slack) with Ok x => x | _ => (qt, keys) end) as [qt' keys'].
    constructor; [exists pre, post, last; now split|].
    destruct A as (HD & HW & HL). pose proof (wf_type _ _ HW) as Ht. cbn [box_type] in Ht.
    apply box_wf_eq in HW. destruct HW as (_ & _ & _ & _ & WK).
    assert (PRE : lenN pre + hsize f + lenN own = lenN (pre ++ header f t (lenN (payload (Box f t own kids slack))) ++ own)).
    { rewrite !lenN_app, lenN_header by exact Ht. lia. }
    rewrite PRE. apply kids_placed with (post := slack ++ post) (last := last && match slack with [] => true | _ => false end); auto.
    - intros Z. apply andb_prop in Z. destruct Z as [Z1 Z2]. rewrite (HL Z1), app_nil_r. destruct slack; [reflexivity|discriminate].
    - rewrite HD. rewrite box_bytes_eq. cbn [box_form box_type payload]. rewrite <- !app_assoc. reflexivity.
  Qed.
  Lemma file_placed : forall l qt keys pre, list_wf true l -> data = pre ++ flat_map box_bytes l ->
    Forall placed (list_file data base qt keys (lenN pre) l).
  Proof.
    induction l as [|b r IH]; intros qt keys pre HW HD; [constructor|].
    cbn [list_file flat_map] in *. apply list_wf_cons in HW. destruct HW as [W1 W2].
    destruct (match enter data base [] qt keys (lenN pre) b with Ok x => x | _ => (qt, keys) end) as [q1 k1].
    apply Forall_app. split.
    - apply box_placed with (post := flat_map box_bytes r) (last := true && match r with [] => true | _ => false end).
      split; [exact HD|]. split; [exact W1|]. intros Z. destruct r; [reflexivity|discriminate].
    - assert (OB : lenN pre + box_size b = lenN (pre ++ box_bytes b)) by (rewrite lenN_app; reflexivity).
      rewrite OB. apply IH; [exact W2|]. rewrite HD, <- app_assoc. reflexivity.
  Qed.
End Placed.

Lemma list_box_types : forall data base b anc qt keys o,
  Forall (fun e => exists q, e_path e = q ++ [e_type e]) (list_box data base anc qt keys o b).
Proof.
  intros data base. induction b as [f t own kids slack IH] using box_ind2. intros anc qt keys o. rewrite list_box_eq. cbv zeta.
  destruct (match enter data base anc qt keys o (Box f t own kids slack) with Ok x => x | _ => (qt, keys) end) as [qt' keys'].
  constructor; [exists anc; reflexivity|].
  generalize (o + hsize f + lenN own) as o1. generalize keys' as k1.
  induction IH as [|k r H1 _ IHr]; intros k1 o1; [constructor|].
  cbn [list_kids]. apply Forall_app. split; [apply H1|apply IHr].
Qed.
Lemma list_file_types : forall data base l qt keys o,
  Forall (fun e => exists q, e_path e = q ++ [e_type e]) (list_file data base qt keys o l).
Proof.
  intros data base. induction l as [|b r IH]; intros qt keys o; [constructor|]. cbn [list_file].
  destruct (match enter data base [] qt keys o b with Ok x => x | _ => (qt, keys) end) as [q1 k1].
  apply Forall_app. split; [apply list_box_types|apply IH].
Qed.
