(** The handler of the divide command on the boxes of a file. *)
From Coq Require Import Permutation.
From Verif Require Import Base BaseProofs Schema Structs Registry Unmarshal BoxInfo ReadTree Extract Accessors Probe SpecProbe GoText Writer ProbeTool Divide.
From Verif Require Import HeaderProofs SpecTree TreeProofs PropTree SpecExtract PropExtract PropExtractPayload SpecWriter WriterProofs EditProofs
  SpecTool ToolProofs SpecReport PropReport SpecDivide DivideProofs.
Local Open Scope string_scope.
Local Open Scope list_scope.
Local Open Scope N_scope.
Local Open Scope monad_scope.

(** ** Headers *)
Lemma header_info : forall last o b c, box_wf last b -> header_bytes (info o b c) = header (box_form b) (box_type b) (lenN (payload b)).
Proof.
  intros last o [f t own kids slack] c W. pose proof (box_size_eq (Box f t own kids slack) (wf_type _ _ W)) as SZ.
  apply box_wf_eq in W. destruct W as (_ & _ & S & _). unfold header_bytes, info. cbn [bi_eof bi_size bi_hsize bi_type box_form box_type] in *.
  change LargeHeaderSize with 16. change W32 with (2 ^ 32). rewrite SZ. destruct f; cbn [hsize header] in *.
  - specialize (S eq_refl). change (8 =? 16) with false. cbn [negb]. rewrite andb_true_r.
    apply N.ltb_lt in S. rewrite S. reflexivity.
  - change (16 =? 16) with true. cbn [negb]. rewrite andb_false_r. reflexivity.
  - reflexivity.
Qed.
Lemma header_again : forall last o b c o' n, box_wf last b -> (box_form b = Small -> 8 + n < 2 ^ 32) ->
  header_bytes (set_size (written (info o b c) o') (hsize (box_form b) + n)) = header (box_form b) (box_type b) n.
Proof.
  intros last o b c o' n W S. pose proof (wf_type _ _ W) as Ht.
  destruct (opened_ok (repeat bzero (N.to_nat o')) (info o b c) Ht) as [_ FF].
  assert (L : lenN (repeat bzero (N.to_nat o')) = o') by (unfold lenN; rewrite repeat_length; apply Nnat.N2Nat.id).
  rewrite L in FF. rewrite (form_info last o b c W) in FF.
  pose proof (header_form (info o b c) Ht) as HF. rewrite (form_info last o b c W) in HF.
  pose proof (header_bytes_end (opened_frame o' (info o b c)) n) as E. rewrite FF in E.
  change (fr_info (opened_frame o' (info o b c))) with (written (info o b c) o') in E.
  rewrite E; [reflexivity| |exact S|exact HF]. destruct (box_form b); auto.
Qed.
Lemma written_size : forall bi o n, lenN (header_bytes (set_size bi (bi_hsize bi + n))) = bi_hsize bi -> bi_hsize bi + n < 2 ^ 62 ->
  bi_size (written (set_size bi (bi_hsize bi + n)) o) = bi_hsize bi + n.
Proof.
  intros bi o n L B. unfold written. cbn [bi_size]. rewrite L. cbn [set_size bi_size bi_hsize].
  change (2 ^ 62) with 4611686018427387904 in B. unfold w64, sub64, W64.
  rewrite (N.mod_small (bi_hsize bi)) by lia.
  replace (bi_hsize bi + n + 18446744073709551616 - bi_hsize bi) with (n + 1 * 18446744073709551616) by lia.
  rewrite N.mod_add by discriminate. rewrite (N.mod_small n) by lia. rewrite N.mod_small; lia.
Qed.

Section Handler.
  Variable T : list dtrack.
  Hypothesis ids_nodup : NoDup (map d_id T).
  Hypothesis types_nodup : NoDup (map d_type T).
  Variable order : N -> list N -> list N.
  Hypothesis order_ok : forall k l, Permutation (order k l) l.
  Variable bits_per_second : N -> seconds -> N.
  Variable data : list byte.
  Hypothesis data_small : lenN data < 2 ^ 62.
  Local Notation inv := (inv T).
  Local Notation ids := (ids T).

  (** *** Runs *)
  Section Runs.
    Variable dec : res (boxdef * fields * N).
    Variable own : N.
    Variable bytes : list byte.
    Variable ch : unit -> dst -> option (res (list (option sizes)) * dst).
    Local Notation run := (run dec own bytes ch).
    Lemma run_dcall : forall A (m : M dst A) s k v s', run (dcall m s k) = Some (Ok v, s') ->
      exists a s1, m s = (Ok a, s1) /\ run (k a s1) = Some (Ok v, s').
    Proof. intros A m s k v s' H. unfold dcall in H. destruct (m s) as [[a| | |] s1]; try discriminate H. eauto. Qed.

    Lemma copy_loop : forall (mine : N -> bool) l m s I P G B c v s', inv s I P G B c -> NoDup l -> (forall id, In id l -> In id ids) ->
      (forall id, In id l -> mine id = true -> P id = lenN (I id)) ->
      run (copy_payload order mine l m s) = Some (Ok v, s') ->
      exists m1 s1 P1, run (finish_init order mine m1 s1) = Some (Ok v, s') /\
        inv s1 (fun id => if sel mine l id then I id ++ bytes else I id) P1 G B c /\
        (forall id, get_bi id m1 = if sel mine l id then match get_bi id m with
                        | Some (o, b) => Some (o, set_size b (w64 (bi_size b + lenN bytes))) | None => None end else get_bi id m).
    Proof.
      intros mine. induction l as [|id r IH]; intros m s I P G B c v s' H ND IN X E.
      - exists m, s, P. split; [exact E|]. split; [exact H|reflexivity].
      - apply NoDup_cons_iff in ND. destruct ND as [NI ND]. cbn [copy_payload] in E.
        destruct (in_ids T id (IN id (or_introl eq_refl))) as (t & Ht & Et).
        destruct (mine id) eqn:MI.
        + cbn [SpecTree.run] in E. apply run_dcall in E. destruct E as (m2 & s2 & E & R). unfold bind at 1 in E.
          destruct (init_op_inv T ids_nodup types_nodup _ (o_write bytes) s I P G B c t (Ok tt)
                      (mkof (overwrite (I (d_id t)) (P (d_id t)) bytes) (P (d_id t) + lenN bytes) []) H Ht eq_refl) as (s3 & E3 & H3).
          rewrite Et in *. rewrite E3 in E. cbn [o_data o_pos] in H3. rewrite (X id (or_introl eq_refl) MI), overwrite_end in H3.
          unfold add_size in E. destruct (get_bi id m) as [[o b]|] eqn:GB; [|discriminate E]. injection E as <- <-.
          edestruct IH as (m1 & s1 & P1 & R1 & H1 & G1); [exact H3|exact ND|intros x Hx; exact (IN x (or_intror Hx))| |exact R|].
          { intros k Hk Mk. assert (NE : k <> id) by (intros ->; contradiction). rewrite !upd_other by exact NE. apply X; [now right|exact Mk]. }
          exists m1, s1, P1. split; [exact R1|]. split.
          * eapply inv_ext; [exact H1|]. intros u Hu. cbv beta. rewrite sel_cons.
            destruct (N.eqb_spec (d_id u) id) as [->|NE].
            -- rewrite MI, (sel_not mine r id NI). cbn [andb orb]. rewrite !upd_same. repeat split.
            -- cbn [andb orb]. rewrite !upd_other by exact NE. repeat split.
          * intros k. rewrite G1, sel_cons. rewrite get_put, (N.eqb_sym id k).
            destruct (N.eqb_spec k id) as [->|NE].
            -- rewrite MI, (sel_not mine r id NI), GB. cbn [andb orb]. reflexivity.
            -- cbn [andb orb]. reflexivity.
        + edestruct IH as (m1 & s1 & P1 & R1 & H1 & G1); [exact H|exact ND|intros x Hx; exact (IN x (or_intror Hx))| |exact E|].
          { intros k Hk Mk. apply X; [now right|exact Mk]. }
          assert (S : forall k, sel mine (id :: r) k = sel mine r k).
          { intros k. rewrite sel_cons. destruct (N.eqb_spec k id) as [->|]; [now rewrite MI|reflexivity]. }
          exists m1, s1, P1. split; [exact R1|].
          split; [eapply inv_ext; [exact H1|]; intros u Hu; cbv beta; rewrite S; repeat split|]. intros k. now rewrite S, G1.
    Qed.

    Lemma finish_inv : forall (mine : N -> bool) m s I P G B c v s' (pre body hdr : N -> list byte) (b : N -> boxinfo), inv s I P G B c ->
      (forall id, In id ids -> mine id = true -> I id = pre id ++ hdr id ++ body id /\ get_bi id m = Some (lenN (pre id), b id) /\
         lenN (hdr id) = lenN (header_bytes (b id))) ->
      (forall id, In id ids -> mine id = false -> get_bi id m = None) ->
      run (finish_init order mine m s) = Some (Ok v, s') ->
      exists P' ci, v = Some ci /\
        inv s' (fun id => if mine id then pre id ++ header_bytes (b id) ++ body id else I id) P' G B c /\
        (forall id, In id ids -> child_size id ci = if mine id then bi_size (written (b id) (lenN (pre id))) else 0).
    Proof.
      intros mine m s I P G B c v s' pre body hdr b H X Y E. unfold finish_init in E. apply run_dcall in E.
      destruct E as (m1 & s1 & E & R). unfold rewrite_headers in E.
      match type of E with range order ?f m s = _ =>
        destruct (range_inv T ids_nodup order order_ok _ f m s _ _ _ _ _ H) as (l & s2 & E1 & H1 & ND & IN) end.
      rewrite E1 in E. clear E1.
      edestruct (rewrite_loop T ids_nodup types_nodup order order_ok) with (pre := pre) (body := body) (hdr := hdr) (b := b) as (P' & H4 & G4);
        [exact H1|exact ND|intros id; apply IN| |exact E|].
      { intros id Hid. apply X. now apply IN. }
      cbn [SpecTree.run] in R. injection R as <- <-. exists P'. eexists. split; [reflexivity|].
      assert (S : forall id, In id ids -> sel mine l id = mine id) by (intros id Hid; apply sel_in; now apply IN).
      split.
      - eapply inv_ext; [exact H4|]. intros u Hu. cbv beta. rewrite (S _ (ids_in T u Hu)). repeat split.
      - intros id Hid. rewrite child_size_map, G4, (S _ Hid). destruct (mine id) eqn:M; [reflexivity|]. now rewrite (Y id Hid M).
    Qed.
  End Runs.

  (** *** Boxes of the initialization segment *)
  Definition is_moov (b : box) : bool := bt_eqb (box_type b) (bt "moov").
  Lemma headers_inv : forall bi mine s I P G B c m s', inv s I P G B c -> write_headers order bi mine s = (Ok m, s') ->
    inv s' (fun id => if mine id then I id ++ header_bytes bi else I id)
           (fun id => if mine id then lenN (I id) + lenN (header_bytes bi) else P id) G B c /\
    (forall id, In id ids -> get_bi id m = if mine id
        then Some (lenN (I id), set_size (written bi (lenN (I id))) (lenN (header_bytes bi))) else None).
  Proof.
    intros bi mine s I P G B c m s' H E. unfold write_headers in E.
    match type of E with range order ?f ?m s = _ =>
      destruct (range_inv T ids_nodup order order_ok _ f m s _ _ _ _ _ H) as (l & s2 & E1 & H1 & ND & IN) end.
    rewrite E1 in E. clear E1.
    destruct (headers_loop T ids_nodup types_nodup bi mine l 0 [] s2 I P G B c m s' H1 ND (fun id => proj1 (IN id)) E) as [H4 G4].
    assert (S : forall id, In id ids -> sel mine l id = mine id) by (intros id Hid; apply sel_in; now apply IN).
    split.
    - eapply inv_ext; [exact H4|]. intros u Hu. cbv beta. rewrite (S _ (ids_in T u Hu)). repeat split.
    - intros id Hid. rewrite G4, (S _ Hid). destruct (mine id); reflexivity.
  Qed.

  Lemma init_simple : forall dec own ch mine pre post last b c0 s I P G B c v s',
    TreeProofs.at_place data pre post last b -> is_moov b = false -> inv s I P G B c ->
    run dec own (payload b) ch (init_box order (info (lenN pre) b c0) mine s) = Some (Ok v, s') ->
    exists P' ci, v = Some ci /\ inv s' (fun id => I id ++ (if mine id then box_bytes b else [])) P' G B c /\
      (forall id, In id ids -> child_size id ci = lenN (if mine id then box_bytes b else [])).
  Proof.
    intros dec own ch mine pre post last b c0 s I P G B c v s' A NM H E.
    destruct (place_size data data_small _ _ _ _ A) as (LD & LH & _ & LS). pose proof A as (_ & W & _). pose proof (wf_type _ _ W) as Ht.
    unfold init_box in E. apply run_dcall in E. destruct E as (m & s1 & E & R).
    destruct (headers_inv _ _ _ _ _ _ _ _ _ _ H E) as [H1 G1].
    change (bt_eqb (bi_type (info (lenN pre) b c0)) (bt "moov")) with (is_moov b) in R. rewrite NM in R.
    destruct (visit_inv T ids_nodup order order_ok _ _ _ _ _ _ H1) as (l & s2 & EV & H2 & ND & IN). rewrite EV in R.
    assert (HL : lenN (header_bytes (info (lenN pre) b c0)) = hsize (box_form b)).
    { rewrite (header_info last _ _ _ W). now apply lenN_header. }
    assert (S : forall id, In id ids -> sel mine l id = mine id) by (intros id Hid; apply sel_in; now apply IN).
    edestruct copy_loop as (m3 & s3 & P3 & R3 & H3 & G3); [exact H2|exact ND|intros id; apply IN| |exact R|].
    { intros id Hid M. cbv beta. rewrite M, lenN_app. reflexivity. }
    set (hb := fun id => set_size (written (info (lenN pre) b c0) (lenN (I id))) (hsize (box_form b) + lenN (payload b))).
    assert (HB : forall id, header_bytes (hb id) = header_bytes (info (lenN pre) b c0)).
    { intros id. unfold hb. rewrite (header_again last) by (try exact W; destruct b; apply box_wf_eq in W; apply W).
      symmetry. now apply (header_info last). }
    edestruct finish_inv with (pre := I) (body := fun _ : N => payload b) (hdr := fun _ : N => header_bytes (info (lenN pre) b c0)) (b := hb)
      as (P' & ci & -> & H4 & C4); [exact H3| | |exact R3|].
    { intros id Hid M. cbv beta. rewrite (S id Hid), M, <- app_assoc. split; [reflexivity|]. split; [|now rewrite HB].
      rewrite G3, (S id Hid), (G1 id Hid), M. unfold hb, set_size at 1. cbn [bi_offset bi_size bi_hsize bi_type bi_eof bi_ctx].
      do 2 f_equal. unfold set_size. cbn [bi_offset bi_size bi_hsize bi_type bi_eof bi_ctx]. f_equal. rewrite HL.
      change (2 ^ 62) with 4611686018427387904 in data_small. unfold w64, W64. apply N.mod_small. lia. }
    { intros id Hid M. rewrite G3, (S id Hid), (G1 id Hid), M. reflexivity. }
    assert (BB : box_bytes b = header_bytes (info (lenN pre) b c0) ++ payload b).
    { rewrite box_bytes_eq. now rewrite (header_info last _ _ _ W). }
    exists P', ci. split; [reflexivity|]. split.
    - eapply inv_ext; [exact H4|]. intros u Hu. cbv beta. rewrite (S _ (ids_in T u Hu)), HB, <- BB.
      destruct (mine (d_id u)); [repeat split|]. rewrite app_nil_r. repeat split.
    - intros id Hid. rewrite (C4 id Hid). destruct (mine id) eqn:M; [|reflexivity]. unfold hb.
      rewrite <- HL at 1. change (lenN (header_bytes (info (lenN pre) b c0))) with (bi_hsize (written (info (lenN pre) b c0) (lenN (I id)))).
      rewrite written_size.
      + cbn [written bi_hsize]. rewrite BB, lenN_app. reflexivity.
      + change (bi_hsize (written (info (lenN pre) b c0) (lenN (I id)))) with (lenN (header_bytes (info (lenN pre) b c0))).
        rewrite HL. pose proof (HB id) as Q. unfold hb in Q. rewrite Q. exact HL.
      + cbn [written bi_hsize]. rewrite HL. lia.
  Qed.

  Lemma init_moov : forall d x own ch mine pre post last b c0 s I P G B c v s',
    TreeProofs.at_place data pre post last b -> is_moov b = true -> (forall id, mine id = true) -> inv s I P G B c ->
    run (Ok (d, x, own)) own (payload b) ch (init_box order (info (lenN pre) b c0) mine s) = Some (Ok v, s') ->
    exists P1 s1 vals s2,
      inv s1 (fun id => I id ++ header_bytes (info (lenN pre) b c0)) P1 G B c /\
      ch tt s1 = Some (Ok vals, s2) /\ Forall (fun v => v <> None) vals /\
      forall P2 (body : N -> list byte), inv s2 (fun id => I id ++ header_bytes (info (lenN pre) b c0) ++ body id) P2 G B c ->
        (forall id, In id ids -> sum_sizes id vals = lenN (body id) /\ lenN (body id) <= lenN (payload b)) ->
        exists P3, inv s' (fun id => I id ++ header (box_form b) (bt "moov") (lenN (body id)) ++ body id) P3 G B c.
  Proof.
    intros d x own ch mine pre post last b c0 s I P G B c v s' A NM ALL H E.
    destruct (place_size data data_small _ _ _ _ A) as (LD & LH & _ & LS). pose proof A as (_ & W & _). pose proof (wf_type _ _ W) as Ht.
    unfold init_box in E. apply run_dcall in E. destruct E as (m & s1 & E & R).
    destruct (headers_inv _ _ _ _ _ _ _ _ _ _ H E) as [H1 G1].
    change (bt_eqb (bi_type (info (lenN pre) b c0)) (bt "moov")) with (is_moov b) in R. rewrite NM in R.
    assert (HL : lenN (header_bytes (info (lenN pre) b c0)) = hsize (box_form b)).
    { rewrite (header_info last _ _ _ W). now apply lenN_header. }
    cbn [SpecTree.run] in R. rewrite N.eqb_refl in R.
    destruct (ch tt s1) as [[r s2]|] eqn:CH; [|discriminate R].
    destruct r as [vals| | |]; [|discriminate R..].
    apply run_dcall in R. destruct R as (m3 & s3 & E3 & R3). unfold add_children in E3.
    exists (fun id => lenN (I id) + lenN (header_bytes (info (lenN pre) b c0))), s1, vals, s2. split; [|split; [exact CH|]].
    { eapply inv_ext; [exact H1|]. intros u Hu. cbv beta. rewrite ALL. repeat split. }
    (* no nil *)
    assert (FV : Forall (fun v => v <> None) vals).
    { clear - E3. revert E3. generalize 0 as i. revert m s2. induction vals as [|v r IH]; intros m s2 i E3; [constructor|].
      cbn [for_each] in E3. unfold bind at 1 in E3. destruct v as [ci|]; [|discriminate E3]. constructor; [discriminate|].
      match type of E3 with (match ?y with _ => _ end) = _ => destruct y as [[m1| | |] s4]; try discriminate E3 end. eapply IH. exact E3. }
    split; [exact FV|]. intros P2 body H2 SZ.
    destruct (children_loop T ids_nodup order order_ok _ _ _ _ _ _ _ _ _ _ _ H2 E3) as (H4 & _ & G4).
    set (hb := fun id => set_size (written (info (lenN pre) b c0) (lenN (I id))) (hsize (box_form b) + lenN (body id))).
    assert (SM : forall id, In id ids -> box_form b = Small -> 8 + lenN (body id) < 2 ^ 32).
    { intros id Hid F. destruct (SZ id Hid) as [_ Z]. destruct b. apply box_wf_eq in W. destruct W as (_ & _ & WS & _). specialize (WS F). lia. }
    assert (HB : forall id, In id ids -> header_bytes (hb id) = header (box_form b) (box_type b) (lenN (body id))).
    { intros id Hid. unfold hb. apply (header_again last); [exact W|]. now apply SM. }
    edestruct finish_inv with (pre := I) (body := body) (hdr := fun _ : N => header_bytes (info (lenN pre) b c0)) (b := hb)
      as (P' & ci & _ & H5 & _); [exact H4| | |exact R3|].
    { intros id Hid M. cbv beta. split; [reflexivity|]. split; [|rewrite HB, HL by exact Hid; symmetry; now apply lenN_header].
      destruct (SZ id Hid) as [Z1 Z2]. pose proof (G1 id Hid) as Q. rewrite M in Q. rewrite (G4 id _ _ Hid Q).
      - unfold hb, set_size. cbn [bi_offset bi_size bi_hsize bi_type bi_eof bi_ctx]. now rewrite HL, Z1.
      - cbn [set_size bi_size]. rewrite HL, Z1. change (2 ^ 62) with 4611686018427387904 in data_small.
        change (2 ^ 64) with 18446744073709551616. lia. }
    { intros id Hid M. now rewrite ALL in M. }
    exists P'. eapply inv_ext; [exact H5|]. intros u Hu. cbv beta. rewrite ALL, (HB _ (ids_in T u Hu)).
    apply bytes_eqb_eq in NM. rewrite NM. repeat split.
  Qed.
End Handler.
