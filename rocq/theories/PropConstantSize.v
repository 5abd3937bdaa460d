(** C36: what Probe reports for tracks whose samples all have the same size. *)
From Verif Require Import Base BaseProofs BitIO Schema Structs Methods Registry Marshal Unmarshal UnmarshalProofs BoxInfo.
From Verif Require Import Extract Accessors Probe SpecProbe ProbeProofs ProbeFound PropProbe VersionFacts MarshalCount.
Local Open Scope string_scope.
Local Open Scope list_scope.
Local Open Scope N_scope.
Local Open Scope monad_scope.

Definition es : finfo :=
  mkfi "EntrySize" "" 3 0 0 32 LengthUnlimited anyVersion anyVersion false false false false false
       false false false false false true false false.
Definition stsz_flds : flds :=
  FCons (plain_info "FullBox" 0 0 true) fb_ty
  (FCons (plain_info "SampleSize" 1 32 false) (SUint 32)
  (FCons (plain_info "SampleCount" 2 32 false) (SUint 32)
  (FCons es (SSlice (SUint 32)) FNil))).
Lemma stsz_def : forall ctx, match get_box_def std_registry (bt "stsz") ctx with
  | Some d => String.eqb (bd_name d) "Stsz" && flds_eqb (bd_flds d) stsz_flds | None => false end = true.
Proof. intros ctx. vm_compute. reflexivity. Qed.
Lemma flds_step : forall data rn vs ctx usize sname self f t rest s x s',
  unmarshal_flds data rn vs ctx None usize sname true self (FCons f t rest) s = (Ok x, s') ->
  exists self1 s1, unmarshal_flds data rn vs ctx None usize sname true self1 rest s1 = (Ok x, s').
Proof.
  intros data rn vs ctx usize sname self f t rest s x s' H. rewrite unmarshal_flds_cons in H. cbv zeta in H.
  destruct (resolve_size _ _ _); [|discriminate]. destruct (resolve_len _ _ _); [|discriminate].
  match type of H with bind ?m0 _ s = _ => revert H; generalize m0 end. intros m H.
  unfold bind in H. destruct (m s) as [[self1| | |] s1]; try discriminate. eauto.
Qed.
Lemma last_field : forall data vs ctx usize self s x s',
  unmarshal_flds data "Stsz" vs ctx None usize "Stsz" true self (FCons es (SSlice (SUint 32)) FNil) s = (Ok x, s') ->
  uint_of "SampleSize" x <> 0 -> uints "EntrySize" x = [].
Proof.
  intros data vs ctx usize self s x s' H S. rewrite unmarshal_flds_cons in H. cbv zeta in H.
  set (env := mkenv self (get_version (box_of None self)) (get_flags (box_of None self)) ctx) in *.
  change (resolve_size "Stsz" env es) with (Some 32) in H.
  destruct (resolve_len "Stsz" env es) as [len|] eqn:RL; [|discriminate].
  assert (L : uint_of "SampleSize" self <> 0 -> len = 0).
  { intros Q. unfold resolve_len in RL. change (f_lenDyn es) with true in RL. cbv iota in RL.
    change (m_len "Stsz" (f_name es)) with (MIf (CFieldIs "SampleSize" 0) (MField "SampleCount") (MConst 0)) in RL.
    unfold uint_of in Q. cbn [meval ceval] in RL. subst env. cbn [e_self] in RL.
    destruct (N.eqb_spec (as_uint (lookup "SampleSize" self)) 0); [tauto|]. now injection RL. }
  assert (T : is_target (get_version (box_of None self)) (get_flags (box_of None self)) "Stsz" env es = true).
  { unfold is_target. change (f_version es =? anyVersion) with true. change (f_nVersion es =? anyVersion) with true.
    cbn [negb andb orb]. rewrite andb_false_r. reflexivity. }
  rewrite T in H. clear T. change (hook_of "Stsz" (f_name es)) with HNone in H. change (f_name es) with "EntrySize" in H.
  unfold bind, get_rbits in H. cbn [on_read] in H. unfold ret at 1 in H. unfold with_count, bind, add_rbits in H.
  destruct (lookup "EntrySize" self) as [cur|] eqn:Lk; [|discriminate].
  match type of H with context [unmarshal_val ?a ?b ?c ?e ?f ?g ?h ?i ?j ?k ?l ?s0] =>
    destruct (unmarshal_val a b c e f g h i j k l s0) as [[y| | |] s1] eqn:E end; try discriminate.
  cbn [is_fullbox andb] in H. unfold ret in H. cbn [unmarshal_flds] in H. unfold ret in H. injection H as <- <-.
  assert (S' : uint_of "SampleSize" self <> 0).
  { unfold uint_of in *. rewrite lookup_update_other in S by discriminate. exact S. }
  rewrite (L S') in E. unfold uints, items. rewrite lookup_update_same by (rewrite Lk; discriminate).
  cbn [unmarshal_val] in E. unfold bind, get_rbits in E. cbn [N.eqb] in E. change (0 =? LengthUnlimited) with false in E.
  cbn [andb is_u8] in E. rewrite andb_false_r in E. cbn [andb] in E. cbn [loopN] in E. unfold ret in E. injection E as <- _. reflexivity.
Qed.
Lemma stsz_decoded : forall data size ctx pos d x n pos',
  unmarshal_any std_registry data (bt "stsz") size ctx pos = (Ok (d, x, n), pos') ->
  uint_of "SampleSize" x <> 0 -> uints "EntrySize" x = [].
Proof.
  intros data size ctx pos d x n pos' H S. unfold unmarshal_any, new_box in H. pose proof (stsz_def ctx) as D.
  destruct (get_box_def std_registry (bt "stsz") ctx) as [d0|]; [|discriminate]. apply andb_prop in D. destruct D as [D1 D2].
  apply String.eqb_eq in D1. apply sty_eqb_eq in D2.
  unfold unmarshal_def in H. rewrite D1, D2 in H. unfold before_unmarshal in H. cbn [String.eqb Ascii.eqb Bool.eqb] in H.
  unfold ret at 1 in H.
  match type of H with context [unmarshal_flds ?a ?b ?c ?e ?f ?g ?h ?i ?j ?k ?l] =>
    destruct (unmarshal_flds a b c e f g h i j k l) as [[y|er| |] s] eqn:E end; try discriminate; [|destruct er; discriminate].
  destruct (negb _); [discriminate|]. destruct (_ <? _); [discriminate|]. injection H as _ -> _ _.
  unfold stsz_flds in E. do 3 (apply flds_step in E; destruct E as (? & ? & E)).
  exact (last_field _ _ _ _ _ _ _ _ E S).
Qed.
Lemma payloads_decoded : forall data ctx bis pos bips p, payloads std_registry data ctx bis pos = (Ok bips, p) ->
  Forall (fun b => exists size pos0 n pos1,
    unmarshal_any std_registry data (bi_type (fst b)) size ctx pos0 = (Ok (fst (snd b), snd (snd b), n), pos1)) bips.
Proof.
  intros data ctx bis. induction bis as [|bi bis IH]; intros pos bips p H; cbn [payloads] in H.
  - unfold ret in H. injection H as <- <-. constructor.
  - unfold bind in H. destruct (seek_to_payload bi pos) as [[y| | |] p1]; try discriminate.
    destruct (unmarshal_any _ _ _ _ _ _) as [[[[d x] n]| | |] p2] eqn:E; try discriminate.
    destruct (payloads _ _ _ _ _) as [[xs| | |] p3] eqn:E2; try discriminate.
    unfold ret in H. injection H as <- <-. constructor; [|eauto]. cbn [fst snd]. eauto 6.
Qed.
Lemma last_of_in : forall t l x, last_of t l = Some x -> exists b, In b l /\ bi_type (fst b) = bt t /\ snd (snd b) = x.
Proof.
  intros t l x. unfold last_of.
  assert (G : forall o, fold_left (fun o b => if bt_eqb (bi_type (fst b)) (bt t) then Some (snd (snd b)) else o) l o = Some x ->
     o = Some x \/ exists b : boxinfo * (boxdef * fields), In b l /\ bi_type (fst b) = bt t /\ snd (snd b) = x).
  { induction l as [|b l IH]; intros o H; [left; exact H|]. cbn [fold_left] in H. apply IH in H.
    destruct H as [H|(c & C1 & C2)]; [|right; exists c; split; [now right|exact C2]].
    destruct (bt_eqb (bi_type (fst b)) (bt t)) eqn:E; [|left; exact H].
    unfold bt_eqb in E. apply bytes_eqb_eq in E. injection H as <-. right. exists b. split; [now left|auto]. }
  intros H. apply G in H. destruct H as [H|H]; [discriminate|exact H].
Qed.

(** When stsz gives one size for all samples, Probe reports the size 0 for every
    sample, for every file. *)
Theorem C36_constant_size : forall data bi pos tr pos',
  probe_trak std_registry data bi pos = (Ok tr, pos') ->
  exists bips p, extract_boxes_with_payload std_registry data (Some bi) trak_paths pos = (Ok bips, p) /\
    forall stsz, last_of "stsz" bips = Some stsz -> uint_of "SampleSize" stsz <> 0 ->
      Forall (fun s => s_size s = 0) (t_samples tr).
Proof.
  intros data bi pos tr pos' H. apply probe_trak_ok in H. destruct H as (bips & p & E & T).
  exists bips, p. split; [exact E|]. intros stsz L S. pose proof (to_stsz _ _ T) as Z. rewrite L in Z.
  unfold extract_boxes_with_payload, bind in E. destruct (extract_boxes _ _ _ _ _) as [[bis| | |] p1]; try discriminate.
  apply payloads_decoded in E. apply last_of_in in L. destruct L as (b & I & Ty & X).
  rewrite Forall_forall in E. destruct (E b I) as (size & pos0 & n & pos1 & U). rewrite Ty, X in U.
  rewrite (stsz_decoded _ _ _ _ _ _ _ _ U S) in Z. unfold stretch in Z. cbn [app] in Z.
  rewrite firstn_all2 in Z by (rewrite repeat_length; lia).
  apply Forall_forall. intros s Q. apply (in_map s_size) in Q. rewrite Z in Q. now apply repeat_spec in Q.
Qed.
Print Assumptions C36_constant_size.

Example C36_constant_case :
  option_map t_samples (first_track constant_file) = Some [mksample 0 300 0; mksample 0 300 0].
Proof. vm_compute. reflexivity. Qed.
