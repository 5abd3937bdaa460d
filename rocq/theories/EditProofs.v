(** The edit command on the tree of a file. *)
From Verif Require Import Base BaseProofs Schema Structs Registry Marshal Unmarshal BoxInfo ReadTree Writer Text Accessors Edit.
From Verif Require Import SpecTree TreeProofs PropTree SpecExtract PropExtract SpecWriter WriterProofs PropWriter SpecLossless PropLossless SpecEdit.
Local Open Scope string_scope.
Local Open Scope list_scope.
Local Open Scope N_scope.
Local Open Scope monad_scope.

(** ** Calls of the Writer *)
Lemma start_call : forall bi w b0 fs, holds w (b0, fs) -> calm w -> lenN (bi_type bi) = 4 ->
  exists a w', start_box bi w = (Ok a, w') /\ holds w' (b0, opened_frame (lenN (render b0 fs)) bi :: fs) /\ calm w'.
Proof.
  intros bi w b0 fs H C T. destruct (outcome_calm _ _ _ _ _ _ (start_outcome bi w b0 fs H T) C I) as (x & w' & E & [-> P] & C').
  cbn [exec] in E. unfold bind in E. destruct (start_box bi w) as [[a|e| |] w1]; try discriminate E.
  injection E as _ <-. eauto.
Qed.
Lemma write_call : forall l w st, holds w st -> calm w -> exists w', w_write l w = (Ok tt, w') /\ holds w' (add l st) /\ calm w'.
Proof.
  intros l w st H C. destruct (outcome_calm _ _ _ _ _ _ (put_outcome l w st H) C I) as (x & w' & E & [-> P] & C').
  cbn [exec] in E. unfold bind in E. destruct (w_write l w) as [[[]|e| |] w1]; try discriminate E.
  injection E as <-. eauto.
Qed.
Lemma copy_call : forall src bi w st, holds w st -> calm w -> available src bi ->
  exists w', copy_box src bi w = (Ok tt, w') /\ holds w' (add (cut src bi) st) /\ calm w'.
Proof.
  intros src bi w st H C A. destruct (outcome_calm _ _ _ _ _ _ (copy_outcome src bi w st H) C A) as (x & w' & E & (-> & _ & P) & C').
  cbn [exec] in E. unfold bind in E. destruct (copy_box src bi w) as [[[]|e| |] w1]; try discriminate E.
  injection E as <-. eauto.
Qed.
Lemma end_call : forall w b0 f fs, holds w (b0, f :: fs) -> calm w ->
  (fr_form f = Small -> 8 + lenN (fr_body f) < 2 ^ 32) -> lenN (render b0 (f :: fs)) < 2 ^ 63 ->
  exists a w', end_box w = (Ok a, w') /\ holds w' (add (fr_close f) (b0, fs)) /\ calm w'.
Proof.
  intros w b0 f fs H C G B. destruct (outcome_calm _ _ _ _ _ _ (end_outcome w b0 f fs H G B) C I) as (x & w' & E & [-> P] & C').
  cbn [exec] in E. unfold bind in E. destruct (end_box w) as [[a|e| |] w1]; try discriminate E.
  injection E as _ <-. eauto.
Qed.

Lemma call_ok : forall A (m : M writer A) w p k a w', m w = (Ok a, w') -> call m (mkest w p) k = k a (mkest w' p).
Proof. intros A m w p k a w' E. unfold call. cbn [e_w]. rewrite E. reflexivity. Qed.

Section Edit.
  Variable data : list byte.
  Hypothesis data_small : lenN data < 2 ^ 62.
  Variable cfg : config.
  Variable dropped : btype -> bool.
  Hypothesis dropped_ok : forall t, lenN t = 4 -> boxes_exist (cf_drop cfg) (box_type_string t) = dropped t.
  Let time : option N := if cf_time cfg =? UNoValue then None else Some (cf_time cfg).
  Local Notation ebox := (edit_box data dropped time).
  Local Notation handler := (edit_handler cfg data).

  Fixpoint edit_kids (anc : list btype) (qt : bool) (keys : Z) (o : N) (l : list box) : list box :=
    match l with
    | [] => []
    | k :: r =>
        ebox anc qt keys o k ++
        edit_kids anc qt (match enter data ctx0 anc qt keys o k with Ok x => snd x | _ => keys end) (o + box_size k) r
    end.
  Lemma edit_box_eq : forall anc qt keys o f t own kids slack,
    ebox anc qt keys o (Box f t own kids slack) =
    let b := Box f t own kids slack in
    let (qt', keys') := match enter data ctx0 anc qt keys o b with Ok x => x | _ => (qt, keys) end in
    if dropped t then []
    else if whole t (ctx_of ctx0 qt' keys' anc) then [b]
    else [Box f t (new_time time t own) (edit_kids (anc ++ [t]) qt' keys' (o + hsize f + lenN own) kids) []].
  Proof.
    intros. cbn [edit_box]. cbv zeta.
    destruct (match enter data ctx0 anc qt keys o (Box f t own kids slack) with Ok x => x | _ => (qt, keys) end) as [qt' keys'].
    destruct (dropped t); [reflexivity|]. destruct (whole _ _); [reflexivity|]. do 2 f_equal.
    generalize (o + hsize f + lenN own) as o1. generalize keys' as k1.
    induction kids as [|k r IH]; intros k1 o1; [reflexivity|].
    cbn [edit_kids]. f_equal. apply IH.
  Qed.

  (** the payload that is written again *)
  Hypothesis rewritten : forall t ctx size pos d x n pos',
    pos <= lenN data -> plain_box d = true ->
    unmarshal_any std_registry data t size ctx pos = (Ok (d, x, n), pos') ->
    marshal std_registry t ctx (edit_fields cfg t x) [] = (Ok n, new_time time t (takeN n (skipN pos data))) /\
    lenN (new_time time t (takeN n (skipN pos data))) = lenN (takeN n (skipN pos data)).

  Definition edits (b : box) : Prop := forall anc qt keys pre post last w b0 fs,
    at_place data pre post last b -> holds w (b0, fs) -> calm w -> lenN (render b0 fs) <= lenN pre ->
    Forall (editable data dropped) (list_box data ctx0 anc qt keys (lenN pre) b) ->
    exists qt' keys' w', enter data ctx0 anc qt keys (lenN pre) b = Ok (qt', keys') /\
      walk_box data ctx0 handler anc qt keys (lenN pre) b tt (mkest w false) = Some (Ok (tt, (qt', keys')), mkest w' false) /\
      holds w' (add (file_bytes (ebox anc qt keys (lenN pre) b)) (b0, fs)) /\ calm w' /\
      lenN (file_bytes (ebox anc qt keys (lenN pre) b)) <= box_size b.

  Lemma file_bytes_app : forall a b, file_bytes (a ++ b) = file_bytes a ++ file_bytes b.
  Proof. intros. unfold file_bytes. apply flat_map_app. Qed.
  Lemma render_le : forall l b0 fs, lenN (render (fst (add l (b0, fs))) (snd (add l (b0, fs)))) = lenN (render b0 fs) + lenN l.
  Proof.
    intros l b0 fs. pose proof (render_add l b0 fs) as R. destruct (add l (b0, fs)) as [b f]. cbn [fst snd]. rewrite R, lenN_app. reflexivity.
  Qed.

  Lemma kids_edit : forall kids slack post anc qt last, Forall edits kids -> (slack = [] \/ qt = true) ->
    list_wf last kids -> (last = true -> slack ++ post = []) -> forall pre keys w b0 fs,
    data = pre ++ flat_map box_bytes kids ++ slack ++ post ->
    holds w (b0, fs) -> calm w -> lenN (render b0 fs) <= lenN pre ->
    Forall (editable data dropped) (list_kids data ctx0 anc qt keys (lenN pre) kids) ->
    exists vs w',
      walk_kids data ctx0 handler slack anc qt tt keys (lenN pre) kids (mkest w false) = Some (Ok vs, mkest w' false) /\
      holds w' (add (file_bytes (edit_kids anc qt keys (lenN pre) kids)) (b0, fs)) /\ calm w' /\
      lenN (file_bytes (edit_kids anc qt keys (lenN pre) kids)) <= lenN (flat_map box_bytes kids).
  Proof.
    intros kids slack post anc qt last W SL. revert last. induction W as [|k r Wk Wr IH]; intros last HW HL pre keys w b0 fs HD H C L Q.
    - exists [], w. cbn [walk_kids edit_kids file_bytes flat_map]. rewrite add_nil. split; [|split; [exact H|split; [exact C|lia]]].
      destruct slack; [reflexivity|]. destruct SL as [SL|SL]; [discriminate|]. now rewrite SL.
    - cbn [list_kids edit_kids flat_map] in *. apply Forall_app in Q. destruct Q as [Q1 Q2].
      apply list_wf_cons in HW. destruct HW as [W1 W2].
      assert (A : at_place data pre (flat_map box_bytes r ++ slack ++ post) (last && match r with [] => true | _ => false end) k).
      { split; [|split].
        - rewrite HD, <- app_assoc. reflexivity.
        - exact W1.
        - intros Z. apply andb_prop in Z. destruct Z as [Z1 Z2]. destruct r; [|discriminate]. cbn. auto. }
      destruct (Wk anc qt keys pre _ _ w b0 fs A H C L Q1) as (qt2 & keys2 & w1 & E & R & H1 & C1 & L1).
      cbn [walk_kids]. rewrite R. rewrite E in Q2 |- *. cbn [snd] in *.
      set (out1 := ebox anc qt keys (lenN pre) k) in *.
      pose proof (render_le (file_bytes out1) b0 fs) as RL.
      destruct (add (file_bytes out1) (b0, fs)) as [b1 f1] eqn:EA. cbn [fst snd] in RL.
      assert (OB : lenN pre + box_size k = lenN (pre ++ box_bytes k)) by (rewrite lenN_app; reflexivity).
      rewrite OB in Q2 |- *.
      destruct (IH last W2 HL (pre ++ box_bytes k) keys2 w1 b1 f1) as (vs & w2 & V & H2 & C2 & L2); auto.
      { rewrite HD, <- !app_assoc. reflexivity. }
      { lia. }
      exists (tt :: vs), w2.
      change ((fix go (keys : Z) (o : N) (l : list box) (s : est) {struct l} := _) keys2) with
        (walk_kids data ctx0 handler slack anc qt tt keys2).
      rewrite V. split; [reflexivity|]. rewrite <- EA, add_add, <- file_bytes_app in H2. split; [exact H2|]. split; [exact C2|].
      rewrite file_bytes_app. unfold box_size in L1. eapply N.le_trans; [apply N.eq_le_incl, lenN_app|].
      eapply N.le_trans; [|apply N.eq_le_incl; symmetry; apply lenN_app]. apply N.add_le_mono; assumption.
  Qed.

  Lemma form_info : forall last o b c, box_wf last b -> form_of (info o b c) = box_form b.
  Proof.
    intros last o [f t own kids slack] c W. pose proof (box_size_eq (Box f t own kids slack) (wf_type _ _ W)) as SZ.
    apply box_wf_eq in W. destruct W as (_ & _ & S & _). unfold form_of, info. cbn [bi_eof bi_size bi_hsize box_form] in *.
    destruct f; cbn [hsize] in *.
    - specialize (S eq_refl). rewrite SZ. change (8 =? 16) with false. cbn [negb]. rewrite andb_true_r.
      apply N.ltb_lt in S. rewrite S. reflexivity.
    - change (16 =? 16) with true. cbn [negb]. rewrite andb_false_r. reflexivity.
    - reflexivity.
  Qed.
  Lemma cut_box : forall pre post last b c, at_place data pre post last b ->
    available data (info (lenN pre) b c) /\ cut data (info (lenN pre) b c) = box_bytes b.
  Proof.
    intros pre post last b c A. destruct (place_size data data_small _ _ _ _ A) as (L & H & _).
    assert (E : cut data (info (lenN pre) b c) = box_bytes b).
    { unfold cut, info. cbn [bi_size bi_offset]. destruct A as (-> & _). rewrite skipN_app_exact by reflexivity.
      apply takeN_app_exact. reflexivity. }
    split; [|exact E]. unfold available. rewrite E. cbn [bi_offset bi_size info].
    change (2 ^ 62) with 4611686018427387904 in *. change (2 ^ 63) with 9223372036854775808. unfold box_size in *.
    split; [lia|]. split; [lia|reflexivity].
  Qed.

  Lemma all_edits : forall b, edits b.
  Proof.
    induction b as [f t own kids slack IH] using box_ind2.
    intros anc qt keys pre post last w b0 fs A H C L Q.
    rewrite walk_box_eq. cbv zeta. rewrite edit_box_eq, list_box_eq in *. cbv zeta in *.
    set (b := Box f t own kids slack) in *.
    assert (exists qt' keys', enter data ctx0 anc qt keys (lenN pre) b = Ok (qt', keys')) as (qt' & keys' & E).
    { destruct (match enter data ctx0 anc qt keys (lenN pre) b with Ok x => x | _ => (qt, keys) end) as [q1 k1].
      apply Forall_inv in Q. destruct Q as [[[q2 k2] Q] _]. eauto. }
    exists qt', keys'. rewrite E in *. cbv iota in *. pose proof (Forall_inv Q) as [_ Q1]. apply Forall_inv_tail in Q.
    unfold b in Q1. cbn [e_box e_info bi_ctx info bi_offset] in Q1. fold b in Q1.
    set (c := ctx_of ctx0 qt' keys' anc) in *.
    set (children := fun (q : unit) (s : est) => walk_kids data ctx0 handler slack (anc ++ [t]) qt' q keys' (lenN pre + hsize f + lenN own) kids s).
    unfold edit_handler. change (bi_type (info (lenN pre) b c)) with t. change (bi_ctx (info (lenN pre) b c)) with c.
    assert (T4 : lenN t = 4) by (destruct A as (_ & W & _); destruct W as [W _]; exact W).
    rewrite (dropped_ok t T4).
    destruct (dropped t) eqn:DT.
    { exists w. cbn [run]. cbn [file_bytes flat_map]. rewrite add_nil. split; [reflexivity|]. split; [reflexivity|]. split; [exact H|].
      split; [exact C|apply N.le_0_l]. }
    fold (whole t c). destruct (whole t c) eqn:WT.
    { destruct (cut_box pre post last b c A) as [AV CU].
      destruct (copy_call data (info (lenN pre) b c) w (b0, fs) H C AV) as (w1 & E1 & H1 & C1).
      exists w1. rewrite (call_ok _ _ _ _ _ _ _ E1). cbn [run]. split; [reflexivity|]. split; [reflexivity|].
      cbn [file_bytes flat_map]. rewrite app_nil_r, <- CU. split; [exact H1|]. split; [exact C1|].
      rewrite CU. apply N.le_refl. }
    destruct (Q1 eq_refl eq_refl) as [(d & x & D & PB) SL].
    pose proof A as (HD & HW & HL). pose proof (wf_type _ _ HW) as Ht. change (box_type b) with t in Ht.
    pose proof HW as HW0. apply box_wf_eq in HW0. destruct HW0 as (_ & _ & WS & _ & WK).
    destruct (place_size data data_small _ _ _ _ A) as (LD & LH & _ & LS). change (box_form b) with f in *.
    (* StartBox *)
    destruct (start_call (info (lenN pre) b c) w b0 fs H C Ht) as (a1 & w1 & E1 & H1 & C1).
    destruct (opened_ok (render b0 fs) (info (lenN pre) b c) Ht) as [FO FF].
    rewrite (form_info last (lenN pre) b c HW) in FF. change (box_form b) with f in FF.
    pose proof (header_form (info (lenN pre) b c) Ht) as HF. rewrite (form_info last (lenN pre) b c HW) in HF. change (box_form b) with f in HF.
    assert (TF : bi_type (fr_info (opened_frame (lenN (render b0 fs)) (info (lenN pre) b c))) = t) by reflexivity.
    assert (BF : fr_body (opened_frame (lenN (render b0 fs)) (info (lenN pre) b c)) = []) by reflexivity.
    assert (HH : lenN (fr_hdr (opened_frame (lenN (render b0 fs)) (info (lenN pre) b c))) = hsize f) by exact HF.
    set (f1 := opened_frame (lenN (render b0 fs)) (info (lenN pre) b c)) in *. clearbody f1.
    rewrite (call_ok _ _ _ _ _ _ _ E1). cbn [run]. rewrite D. cbn iota.
    (* Marshal *)
    assert (M : marshal std_registry t c (edit_fields cfg t x) [] = (Ok (lenN own), new_time time t own) /\
                lenN (new_time time t own) = lenN own).
    { unfold decoded in D.
      destruct (unmarshal_any std_registry data (box_type b) (lenN (payload b)) c (lenN pre + hsize (box_form b))) as [r p'] eqn:U.
      cbn [fst] in D. subst r. change (box_type b) with t in U. change (box_form b) with f in U.
      assert (P0 : lenN pre + hsize f <= lenN data) by lia.
      destruct (rewritten _ _ _ _ _ _ _ _ P0 PB U) as [M1 M2].
      assert (O : takeN (lenN own) (skipN (lenN pre + hsize f) data) = own).
      { rewrite HD. unfold b. rewrite box_bytes_eq. cbn [box_form box_type payload]. rewrite <- !app_assoc, app_assoc.
        rewrite skipN_app_exact by (rewrite lenN_app, lenN_header by exact Ht; reflexivity).
        rewrite takeN_app_exact; reflexivity. }
      rewrite O in M1, M2. split; assumption. }
    destruct M as [M ML]. rewrite M.
    set (own' := new_time time t own) in *. clearbody own'.
    destruct (write_call own' w1 _ H1 C1) as (w2 & E2 & H2 & C2).
    rewrite (call_ok _ _ _ _ _ _ _ E2).
    rewrite (call_ok _ _ w2 _ _ (lenN own) w2) by reflexivity. cbn [run]. rewrite N.eqb_refl.
    (* the boxes in it *)
    cbn [add] in H2. rewrite BF in H2. cbn [app] in H2.
    set (f2 := mkfr (fr_info f1) (fr_hdr f1) own') in *.
    assert (PRE : lenN pre + hsize f + lenN own = lenN (pre ++ header f t (lenN (payload b)) ++ own)).
    { rewrite !lenN_app, lenN_header by exact Ht. lia. }
    rewrite PRE in Q. unfold children. rewrite PRE.
    destruct (kids_edit kids slack post (anc ++ [t]) qt' (last && match slack with [] => true | _ => false end) IH SL WK)
      with (pre := pre ++ header f t (lenN (payload b)) ++ own) (keys := keys') (w := w2) (b0 := b0) (fs := f2 :: fs)
      as (vs & w3 & V & H3 & C3 & L3); auto.
    { intros Z. apply andb_prop in Z. destruct Z as [Z1 Z2]. rewrite (HL Z1), app_nil_r. destruct slack; [reflexivity|discriminate]. }
    { rewrite HD. unfold b. rewrite box_bytes_eq. cbn [box_form box_type payload]. rewrite <- !app_assoc. reflexivity. }
    { cbn [render]. unfold fr_bytes, f2. cbn [fr_hdr fr_body]. rewrite lenN_app, lenN_app, HH, ML, <- PRE. lia. }
    rewrite V. cbn [add fr_info fr_hdr fr_body f2] in H3.
    set (kids' := edit_kids (anc ++ [t]) qt' keys' (lenN (pre ++ header f t (lenN (payload b)) ++ own)) kids) in *. clearbody kids'.
    set (f3 := mkfr (fr_info f1) (fr_hdr f1) (own' ++ file_bytes kids')) in *.
    (* EndBox *)
    assert (PL : lenN (payload b) = lenN own + lenN (flat_map box_bytes kids) + lenN slack).
    { unfold b. cbn [payload]. rewrite !lenN_app. lia. }
    assert (LB : lenN (own' ++ file_bytes kids') <= lenN (payload b)) by (rewrite lenN_app; lia).
    assert (F3 : fr_form f3 = f) by exact FF.
    destruct (end_call w3 b0 f3 fs H3 C3) as (a4 & w4 & E4 & H4 & C4).
    { rewrite F3. intros Z. specialize (WS Z). cbn [fr_body f3]. unfold b in LB. lia. }
    { cbn [render]. unfold fr_bytes. cbn [f3 fr_hdr fr_body]. rewrite lenN_app, lenN_app, HH.
      change (2 ^ 62) with 4611686018427387904 in *. change (2 ^ 63) with 9223372036854775808. lia. }
    rewrite (call_ok _ _ _ _ _ _ _ E4). cbn [run]. exists w4.
    split; [reflexivity|]. split; [reflexivity|].
    assert (CL : fr_close f3 = file_bytes [Box f t own' kids' []]).
    { unfold fr_close. rewrite F3. change (bi_type (fr_info f3)) with (bi_type (fr_info f1)). rewrite TF. cbn [f3 fr_body].
      cbn [file_bytes flat_map]. rewrite app_nil_r, box_bytes_eq. cbn [box_form box_type payload]. rewrite app_nil_r. reflexivity. }
    rewrite <- CL. split; [exact H4|]. split; [exact C4|].
    unfold fr_close. rewrite F3. change (bi_type (fr_info f3)) with (bi_type (fr_info f1)). rewrite TF.
    rewrite lenN_app, lenN_header by exact Ht. cbn [f3 fr_body]. lia.
  Qed.

  Lemma file_edit : forall l pre qt keys w b0,
    data = pre ++ flat_map box_bytes l -> list_wf true l ->
    holds w (b0, []) -> calm w -> lenN b0 <= lenN pre ->
    Forall (editable data dropped) (list_file data ctx0 qt keys (lenN pre) l) ->
    exists vs w',
      walk_file data ctx0 handler qt keys (lenN pre) l tt (mkest w false) = Some (Ok vs, mkest w' false) /\
      holds w' (b0 ++ file_bytes (edit_boxes data dropped time qt keys (lenN pre) l), []) /\ calm w'.
  Proof.
    induction l as [|b r IH]; intros pre qt keys w b0 HD HW H C L Q.
    - exists [], w. cbn [walk_file edit_boxes file_bytes flat_map]. rewrite app_nil_r. auto.
    - cbn [list_file walk_file edit_boxes flat_map] in *. apply list_wf_cons in HW. destruct HW as [W1 W2].
      destruct (match enter data ctx0 [] qt keys (lenN pre) b with Ok x => x | _ => (qt, keys) end) as [q1 k1] eqn:E1.
      apply Forall_app in Q. destruct Q as [Q1 Q2].
      assert (A : at_place data pre (flat_map box_bytes r) (true && match r with [] => true | _ => false end) b).
      { split; [exact HD|]. split; [exact W1|]. intros Z. destruct r; [reflexivity|discriminate]. }
      destruct (all_edits b [] qt keys pre _ _ w b0 [] A H C L Q1) as (qt' & keys' & w1 & E & W & H1 & C1 & L1).
      rewrite W. rewrite E in E1. injection E1 as -> ->. cbn [add] in H1.
      assert (OB : lenN pre + box_size b = lenN (pre ++ box_bytes b)) by (rewrite lenN_app; reflexivity).
      rewrite OB in Q2 |- *.
      destruct (IH (pre ++ box_bytes b) q1 k1 w1 _ ltac:(rewrite HD, <- app_assoc; reflexivity) W2 H1 C1) as (vs & w2 & V & H2 & C2); auto.
      { rewrite !lenN_app. unfold box_size in L1. lia. }
      rewrite V. exists (tt :: vs), w2. split; [reflexivity|]. rewrite <- app_assoc, <- file_bytes_app in H2. auto.
  Qed.
End Edit.
