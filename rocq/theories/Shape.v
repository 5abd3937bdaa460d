(** Values of the shape of their type: arrays of the right length, structs with
    the right keys.  What a decoder is given as destination has this shape. *)
From Verif Require Import Base BitIO Schema Structs Methods Registry Marshal Unmarshal SpecCodec
     SpecRoundTrip Decode.
From Verif Require Import BaseProofs BitIOProofs BitIOFacts MarshalProofs MarshalCount UnmarshalProofs
     DecodeFacts VersionFacts Causal RoundTripBase RoundTripProofs.
Local Open Scope string_scope.
Local Open Scope list_scope.
Local Open Scope N_scope.
Local Open Scope dec_scope.
Ltac Zify.zify_post_hook ::= Z.to_euclidean_division_equations.

(** numbers are below these bounds *)
Definition field_bound (f : finfo) (t : sty) : option N :=
  match t with
  | SUint w => Some (if f_sizeDyn f || f_varint f then 2 ^ w else 2 ^ (N.min w (f_size f)))
  | _ => None
  end.
Fixpoint bound_of (fs : flds) (j : string) : option N :=
  match fs with
  | FNil => None
  | FCons f t r => if String.eqb j (f_name f) then field_bound f t else bound_of r j
  end.
(** signed fields of at most 32 bits, converted to 64 bits *)
Fixpoint sbound_of (fs : flds) (j : string) : bool :=
  match fs with
  | FNil => false
  | FCons f t r => if String.eqb j (f_name f) then match t with SInt w => (1 <=? w) && (w <=? 32) | _ => false end
                   else sbound_of r j
  end.
Definition small_or_neg (n : N) : Prop := n < 2 ^ 32 \/ 2 ^ 64 - 2 ^ 32 <= n < 2 ^ 64.
Definition bounded (fs : flds) (l : fields) : Prop :=
  (forall j n, bound_of fs j = Some n -> as_uint (lookup j l) < n) /\
  (forall j, sbound_of fs j = true -> small_or_neg (as_uint (lookup j l))).

Fixpoint shaped (t : sty) (v : val) : Prop :=
  match t with
  | SArr n u => exists l, v = VList l /\ lenN l = n /\ Forall (shaped u) l
  | SStruct _ _ fs => exists l, v = VStruct l /\ map fst l = names_of fs /\ shaped_in fs l /\ bounded fs l
  | _ => True
  end
(** every field of fs is in l, with its shape *)
with shaped_in (fs : flds) (l : fields) : Prop :=
  match fs with
  | FNil => True
  | FCons f t r =>
      (exists c, lookup (f_name f) l = Some c /\ shaped t c) /\ shaped_in r l
  end.

Fixpoint nodup_names (l : list string) : bool :=
  match l with [] => true | x :: r => negb (str_in x r) && nodup_names r end.
Fixpoint nodup_val (t : sty) : bool :=
  match t with
  | SArr _ u | SSlice u | SPtr u => nodup_val u
  | SStruct _ _ fs => nodup_names (names_of fs) && nodup_flds fs
  | _ => true
  end
with nodup_flds (fs : flds) : bool :=
  match fs with FNil => true | FCons _ t r => nodup_val t && nodup_flds r end.

Lemma shaped_in_ext : forall fs l m, shaped_in fs l ->
  (forall j, In j (names_of fs) -> lookup j m = lookup j l) -> shaped_in fs m.
Proof.
  induction fs as [|f t r IH]; intros l m H E; [exact I|].
  destruct H as [(c & L & H) Hr]. split.
  - exists c. rewrite E by (now left). auto.
  - apply (IH l); auto. intros j Hj. apply E. now right.
Qed.
Lemma names_zero : forall fs, map fst (zero_flds fs) = names_of fs.
Proof. induction fs as [|f t r IH]; [reflexivity|]. cbn. now rewrite IH. Qed.

Lemma bound_pos : forall fs j n, bound_of fs j = Some n -> 0 < n.
Proof.
  induction fs as [|f t r IH]; intros j n H; [discriminate|]. cbn in H.
  destruct (String.eqb j (f_name f)); [|eauto]. destruct t; try discriminate. cbn in H. injection H as <-.
  destruct (f_sizeDyn f || f_varint f); apply N.neq_0_lt_0, N.pow_nonzero; lia.
Qed.
Lemma zero_as_uint : forall t, as_uint (Some (zero t)) = 0.
Proof. destruct t; reflexivity. Qed.
Lemma zero_flds_uint : forall fs j, as_uint (lookup j (zero_flds fs)) = 0.
Proof.
  induction fs as [|f t r IH]; intros j; [reflexivity|].
  change (zero_flds (FCons f t r)) with ((f_name f, zero t) :: zero_flds r). cbn [lookup].
  destruct (String.eqb j (f_name f)); [apply zero_as_uint|apply IH].
Qed.
Lemma zero_bounded : forall fs, bounded fs (zero_flds fs).
Proof.
  intros fs. split.
  - intros j n H. rewrite zero_flds_uint. eapply bound_pos; eauto.
  - intros j H. rewrite zero_flds_uint. left. reflexivity.
Qed.
Lemma zero_shaped :
  (forall t, nodup_val t = true -> shaped t (zero t)) /\
  (forall fs, nodup_names (names_of fs) = true -> nodup_flds fs = true -> shaped_in fs (zero_flds fs)).
Proof.
  apply sty_flds_mutind; try (intros; exact I).
  - intros n u IH H. cbn [shaped zero]. eexists. split; [reflexivity|]. split.
    + rewrite lenN_repeat. lia.
    + apply Forall_forall. intros x Hx. apply repeat_spec in Hx. subst. auto.
  - intros name cfo fs IH H. change (nodup_names (names_of fs) && nodup_flds fs = true) in H.
    apply andb_prop in H. destruct H as [H1 H2].
    exists (zero_flds fs). split; [reflexivity|]. split; [apply names_zero|]. split; [auto|apply zero_bounded].
  - intros f t IHt r IHr H1 H2. cbn [names_of nodup_names] in H1.
    change (nodup_val t && nodup_flds r = true) in H2.
    apply andb_prop in H1. destruct H1 as [N1 N2]. apply andb_prop in H2. destruct H2 as [H2 H3].
    change (zero_flds (FCons f t r)) with ((f_name f, zero t) :: zero_flds r). split.
    + exists (zero t). cbn [lookup]. rewrite String.eqb_refl. auto.
    + apply (shaped_in_ext r (zero_flds r)); [auto|]. intros j Hj. cbn [lookup].
      destruct (String.eqb_spec j (f_name f)) as [->|]; [|reflexivity].
      apply str_in_In in Hj. apply negb_true_iff in N1. congruence.
Qed.

Lemma std_nodup : forallb (fun d => nodup_names (names_of (bd_flds d)) && nodup_flds (bd_flds d)) all_defs = true.
Proof. vm_compute. reflexivity. Qed.

(** the destination that Unmarshal starts from *)
Lemma start_shaped : forall d, nodup_names (names_of (bd_flds d)) && nodup_flds (bd_flds d) = true ->
  (full_box d = true \/ fullbox_of (zero_flds (bd_flds d)) = None) ->
  let z := set_version anyVersion (zero_flds (bd_flds d)) in
  map fst z = names_of (bd_flds d) /\ shaped_in (bd_flds d) z /\ bounded (bd_flds d) z.
Proof.
  intros d H FB. apply andb_prop in H. destruct H as [H1 H2].
  pose proof (proj2 zero_shaped (bd_flds d) H1 H2) as S. cbv zeta. destruct FB as [FB|FB].
  - destruct (full_box_inv d FB) as (r & E & _). pose proof (set_version_fb d r E) as Z. rewrite Z.
    rewrite E in *. cbn [map fst names_of f_name plain_info]. rewrite names_zero. split; [reflexivity|].
    destruct S as [_ S]. repeat split.
    + eexists. cbn [lookup f_name plain_info]. rewrite String.eqb_refl. split; [reflexivity|].
      eexists. split; [reflexivity|]. split; [reflexivity|]. repeat split.
      * eexists. split; [reflexivity|]. exact I.
      * eexists. split; [reflexivity|]. eexists. split; [reflexivity|].
        split; [reflexivity|]. repeat constructor.
      * intros j n Hb. cbn [bound_of f_name plain_info] in Hb. cbn [lookup].
        destruct (String.eqb j "Version"); [cbn in Hb; injection Hb as <-; reflexivity|].
        destruct (String.eqb j "Flags"); [discriminate|discriminate].
      * intros j Hb. cbn [sbound_of f_name plain_info] in Hb.
        destruct (String.eqb j "Version"); [discriminate|]. destruct (String.eqb j "Flags"); discriminate.
    + apply (shaped_in_ext r _ _ S). intros j Hj.
      change (zero_flds (FCons (plain_info "FullBox" 0 0 true) fb_ty r)) with
        (("FullBox", zero fb_ty) :: zero_flds r).
      cbn [lookup]. destruct (String.eqb_spec j "FullBox") as [->|]; [|reflexivity].
      cbn [names_of nodup_names f_name plain_info] in H1. apply andb_prop in H1. destruct H1 as [H1 _].
      apply str_in_In in Hj. apply negb_true_iff in H1. congruence.
    + intros j n Hb. cbn [bound_of f_name plain_info] in Hb. cbn [lookup].
      destruct (String.eqb j "FullBox"); [discriminate|]. rewrite zero_flds_uint. eapply bound_pos; eauto.
    + intros j Hb. cbn [lookup]. destruct (String.eqb j "FullBox"); [left; reflexivity|].
      rewrite zero_flds_uint. left. reflexivity.
  - unfold set_version. rewrite FB. split; [apply names_zero|]. split; [exact S|apply zero_bounded].
Qed.
Lemma std_start : forallb (fun d => full_box d ||
  match fullbox_of (zero_flds (bd_flds d)) with None => true | Some _ => false end) all_defs = true.
Proof. vm_compute. reflexivity. Qed.
