(** C19: looking a box definition up. *)
From Verif Require Import Base BaseProofs Schema Structs Registry.
Local Open Scope string_scope.
Local Open Scope list_scope.
Local Open Scope N_scope.

(** when a registration is meant for a context *)
Definition meant_for (d : boxdef) (c : context) : Prop :=
  match bd_pred d with
  | PAlways => True
  | PUnderUdta => UnderUdta c = true
  | PIlstMetaContainer => UnderIlst c = true /\ UnderIlstMeta c = false
  | PUnderIlstMeta => UnderIlstMeta c = true
  | PUnderIlstFree => UnderIlstFreeMeta c = true
  end.
(** [d] is the last registration for [t] that is meant for [c] *)
Definition latest (R : registry) (t : btype) (c : context) (d : boxdef) : Prop :=
  exists a b, R = a ++ (t, d) :: b /\ meant_for d c /\ forall d', In (t, d') b -> ~ meant_for d' c.
Definition unknown (R : registry) (t : btype) (c : context) : Prop := forall d, In (t, d) R -> ~ meant_for d c.
(** items under ilst are numbered from 1 to the number of keys *)
Definition numbered (t : btype) (c : context) : Prop :=
  UnderIlst c = true /\ (1 <= Z.of_N (be_to_N t) <= QuickTimeKeysMetaEntryCount c)%Z.

Lemma pred_iff : forall d c, pred_holds (bd_pred d) c = true <-> meant_for d c.
Proof.
  intros d c. unfold meant_for. destruct (bd_pred d); cbn [pred_holds]; try tauto.
  rewrite andb_true_iff, negb_true_iff. tauto.
Qed.
Lemma bt_eqb_iff : forall a b, bt_eqb a b = true <-> a = b.
Proof. intros. unfold bt_eqb. apply bytes_eqb_eq. Qed.
Lemma destruct_last : forall A (l : list A), l = [] \/ exists l' x, l = l' ++ [x].
Proof. intros A l. destruct l as [|y l]; [now left|right]. destruct (@exists_last _ (y :: l)) as (l' & x & E); [discriminate|eauto]. Qed.
Lemma find_latest : forall t c R d, find_def t c (rev R) = Some d <-> latest R t c d.
Proof.
  intros t c R d. induction R as [|[t' d'] r IH] using rev_ind.
  - split; [discriminate|]. intros (a & b & E & _). now destruct a.
  - rewrite rev_app_distr. cbn [rev app find_def].
    destruct (bt_eqb t t' && pred_holds (bd_pred d') c) eqn:E.
    + apply andb_true_iff in E. destruct E as [E1 E2]. apply bt_eqb_iff in E1. subst t'. apply pred_iff in E2. split.
      * intros [= <-]. exists r, []. split; [reflexivity|]. split; [exact E2|]. intros d0 [].
      * intros (a & b & H & M & N). destruct (destruct_last _ b) as [->|(b' & x & ->)].
        { apply app_inj_tail in H. destruct H as [_ H]. congruence. }
        rewrite app_comm_cons, app_assoc in H. apply app_inj_tail in H. destruct H as [_ <-].
        exfalso. apply (N d'); [apply in_or_app; right; now left|exact E2].
    + assert (NM : t = t' -> ~ meant_for d' c).
      { intros -> M. apply pred_iff in M. rewrite M, andb_true_r in E. assert (bt_eqb t' t' = true) by now apply bt_eqb_iff. congruence. }
      rewrite IH. split; intros (a & b & H & M & N).
      * exists a, (b ++ [(t', d')]). rewrite H, <- app_assoc. split; [reflexivity|]. split; [exact M|].
        intros d0 I. apply in_app_or in I. destruct I as [I|[I|[]]]; [now apply N|]. injection I as -> ->. now apply NM.
      * destruct (destruct_last _ b) as [->|(b' & x & ->)].
        { apply app_inj_tail in H. destruct H as [_ [= -> ->]]. exfalso. now apply NM. }
        rewrite app_comm_cons, app_assoc in H. apply app_inj_tail in H. destruct H as [-> _].
        exists a, b'. split; [reflexivity|]. split; [exact M|]. intros d0 I. apply N. apply in_or_app. now left.
Qed.

Lemma find_unknown : forall t c R, find_def t c (rev R) = None <-> unknown R t c.
Proof.
  intros t c R. unfold unknown. induction R as [|[t' d'] r IH] using rev_ind; [split; [intros _ d []|reflexivity]|].
  rewrite rev_app_distr. cbn [rev app find_def].
  destruct (bt_eqb t t' && pred_holds (bd_pred d') c) eqn:E.
  - apply andb_true_iff in E. destruct E as [E1 E2]. apply bt_eqb_iff in E1. subst t'. apply pred_iff in E2.
    split; [discriminate|]. intros H. exfalso. apply (H d'); [apply in_or_app; right; now left|exact E2].
  - rewrite IH. split; intros H d I.
    + apply in_app_or in I. destruct I as [I|[I|[]]]; [now apply H|]. injection I as -> ->. intros M. apply pred_iff in M.
      rewrite M, andb_true_r in E. assert (bt_eqb t t = true) by now apply bt_eqb_iff. congruence.
    + apply H. apply in_or_app. now left.
Qed.

(** C19.  The definition found for a type in a context. *)
Theorem C19_lookup : forall R t c,
  (forall d, get_box_def R t c = Some d <->
     latest R t c d \/ (unknown R t c /\ numbered t c /\ d = item_def)) /\
  (get_box_def R t c = None <-> unknown R t c /\ ~ numbered t c).
Proof.
  intros R t c. pose proof (find_latest t c R) as FL. pose proof (find_unknown t c R) as FU. unfold get_box_def.
  assert (NU : (if UnderIlst c then if (1 <=? Z.of_N (be_to_N t))%Z && (Z.of_N (be_to_N t) <=? QuickTimeKeysMetaEntryCount c)%Z then Some item_def else None else None)
               = Some item_def /\ numbered t c \/
               (if UnderIlst c then if (1 <=? Z.of_N (be_to_N t))%Z && (Z.of_N (be_to_N t) <=? QuickTimeKeysMetaEntryCount c)%Z then Some item_def else None else None)
               = None /\ ~ numbered t c).
  { unfold numbered. destruct (UnderIlst c); [|right; split; [reflexivity|intros [X _]; discriminate X]].
    destruct (Z.leb_spec 1 (Z.of_N (be_to_N t))), (Z.leb_spec (Z.of_N (be_to_N t)) (QuickTimeKeysMetaEntryCount c)); cbn [andb];
    [left; split; [reflexivity|lia]|right; split; [reflexivity|lia]..]. }
  cbv zeta.
  destruct (find_def t c (rev R)) as [d0|].
  - split.
    + intros d. rewrite <- FL, <- FU. split; [now left|]. intros [H|[H _]]; [exact H|discriminate].
    + rewrite <- FU. split; [discriminate|intros [H _]; discriminate].
  - assert (U : unknown R t c) by now apply FU.
    destruct NU as [[-> N]|[-> N]]; (split; [intros d; rewrite <- FL; split|split]).
    + intros [= <-]. right. auto.
    + intros [H|(_ & _ & ->)]; [discriminate|reflexivity].
    + discriminate.
    + tauto.
    + discriminate.
    + intros [H|(_ & X & _)]; [discriminate|tauto].
    + auto.
    + reflexivity.
Qed.
Print Assumptions C19_lookup.

(** The definition used for numbered items. *)
Theorem C19_item : bd_name item_def = "Item" /\ bd_versions item_def = [] /\ compile t_Item = Some (SStruct "Item" true (bd_flds item_def)).
Proof. repeat split; vm_compute; reflexivity. Qed.
Print Assumptions C19_item.

(** Registering: a later definition for the same type takes precedence where it
    is meant for the context, and nothing else changes. *)
Theorem C19_add : forall R t d t' c,
  (t' = t -> meant_for d c -> get_box_def (add_box_def R t d) t' c = Some d) /\
  (t' <> t \/ ~ meant_for d c -> get_box_def (add_box_def R t d) t' c = get_box_def R t' c).
Proof.
  intros R t d t' c. unfold add_box_def, get_box_def. rewrite rev_app_distr. cbn [rev app find_def]. split.
  - intros -> M. apply pred_iff in M. assert (E : bt_eqb t t = true) by now apply bt_eqb_iff. now rewrite E, M.
  - intros H. destruct (bt_eqb t' t) eqn:E; [|reflexivity]. apply bt_eqb_iff in E. destruct H as [H|H]; [congruence|].
    destruct (pred_holds (bd_pred d) c) eqn:P; [apply pred_iff in P; tauto|reflexivity].
Qed.
Print Assumptions C19_add.

(** The queries agree with the definition found. *)
Theorem C19_queries : forall R t c,
  match get_box_def R t c with
  | Some d =>
      is_supported R t c = true /\
      new_box R t c = Ok (d, zero_flds (bd_flds d)) /\
      get_supported_versions R t c = Ok (bd_versions d) /\
      (forall v, is_supported_version R t v c = true <-> bd_versions d = [] \/ In v (bd_versions d))
  | None =>
      is_supported R t c = false /\ new_box R t c = Err ENotFound /\ get_supported_versions R t c = Err ENotFound /\
      (forall v, is_supported_version R t v c = false)
  end.
Proof.
  intros R t c. unfold is_supported, new_box, get_supported_versions, is_supported_version. destruct (get_box_def R t c) as [d|]; [|auto].
  repeat split; unfold version_in; destruct (bd_versions d) as [|x l]; auto.
  - intros H. right. apply existsb_exists in H. destruct H as (y & I & E). apply N.eqb_eq in E. now subst.
  - intros [H|H]; [discriminate|]. apply existsb_exists. exists v. split; [exact H|apply N.eqb_refl].
Qed.
Print Assumptions C19_queries.

(** In the package's own registry: [data] and [titl] have definitions only in
    their contexts; type 5 is an item exactly when there are 5 keys under ilst. *)
Example C19_case :
  let c1 := mkctx true 5 false true false false false in
  let name t c := match get_box_def std_registry t c with Some d => Some (bd_name d, bd_versions d) | None => None end in
  (name (bt "data") ctx0, name (bt "data") (mkctx false 0 false false true false false), name (bt "titl") ctx0,
   name (bt "titl") (mkctx false 0 false false false false true), name (hex "00000005") c1, name (hex "00000006") c1, name (hex "00000000") c1,
   name (bt "mvhd") ctx0)
  = (None, Some ("Data", []), None, Some ("Udta3GppString", [0]), Some ("Item", []), None, None, Some ("Mvhd", [0; 1])).
Proof. vm_compute. reflexivity. Qed.
