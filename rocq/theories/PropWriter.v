(** C31-C35: what a Writer writes. *)
From Verif Require Import Base BaseProofs Schema Structs Registry Unmarshal BoxInfo ReadTree Writer SpecHeader HeaderProofs SpecTree TreeProofs
     PropTree SpecExtract PropExtract Flow SpecWriter WriterProofs.
From Coq Require Import Permutation.
Local Open Scope string_scope.
Local Open Scope list_scope.
Local Open Scope N_scope.
Local Open Scope monad_scope.

Lemma exec_cons : forall o r w, exec_all (o :: r) w =
  match exec o w with
  | (Ok x, w1) => match exec_all r w1 with
                  | (Ok xs, w2) => (Ok (x :: xs), w2)
                  | (Err e, w2) => (Err e, w2) | (Panic, w2) => (Panic, w2) | (OutOfFuel, w2) => (OutOfFuel, w2)
                  end
  | (Err e, w1) => (Err e, w1) | (Panic, w1) => (Panic, w1) | (OutOfFuel, w1) => (OutOfFuel, w1)
  end.
Proof.
  intros. cbn [exec_all]. unfold bind. destruct (exec o w) as [[x|e| |] w1]; reflexivity.
Qed.
Lemma exec_app : forall a b w xs w1, exec_all a w = (Ok xs, w1) ->
  exec_all (a ++ b) w =
  match exec_all b w1 with
  | (Ok ys, w2) => (Ok (xs ++ ys), w2)
  | (Err e, w2) => (Err e, w2) | (Panic, w2) => (Panic, w2) | (OutOfFuel, w2) => (OutOfFuel, w2)
  end.
Proof.
  induction a as [|o a IH]; intros b w xs w1 H; cbn [app].
  - cbn in H. injection H as <- <-. destruct (exec_all b w) as [[]]; reflexivity.
  - rewrite exec_cons in *. destruct (exec o w) as [[x|e| |] w0]; try discriminate.
    destruct (exec_all a w0) as [[ys|e| |] w2] eqn:E; try discriminate. injection H as <- <-.
    rewrite (IH b _ _ _ E). destruct (exec_all b w2) as [[]]; reflexivity.
Qed.
Lemma ended_app : forall a b, ended (a ++ b) = ended a ++ ended b.
Proof. induction a as [|[] a IH]; intros b; cbn; rewrite ?IH; auto. Qed.

(** a calm call that succeeds *)
Lemma outcome_calm : forall A w st (P : A -> writer -> Prop) (sure : Prop) x, outcome w st sure P x -> calm w -> sure ->
  exists a w', x = (Ok a, w') /\ P a w' /\ calm w'.
Proof.
  intros A w st P sure [r w'] H C S. unfold outcome in H. cbn [fst snd] in H. destruct r as [a|e| |].
  - destruct H. eauto 6.
  - destruct H as [_ H]. exfalso. now apply H.
  - destruct H as [_ H]. exfalso. now apply H.
  - contradiction.
Qed.
Lemma started_app : forall a b, started (a ++ b) = started a ++ started b.
Proof. induction a as [|[] a IH]; intros b; cbn; rewrite ?IH; auto. Qed.
Lemma puts_run : forall ops bytes, puts ops bytes -> forall w st, holds w st -> calm w ->
  exists rs w', exec_all ops w = (Ok rs, w') /\ holds w' (add bytes st) /\ calm w' /\ ended rs = [] /\ started rs = [].
Proof.
  induction 1 as [|l r bytes H IH|src bi r bytes A H IH]; intros w st HH C.
  - exists [], w. rewrite add_nil. auto 7.
  - destruct (outcome_calm _ _ _ _ _ _ (put_outcome l w st HH) C I) as (o & w1 & E & [-> P] & C1).
    destruct (IH w1 _ P C1) as (rs & w2 & E2 & H2 & C2 & N & NS). exists (Wrote :: rs), w2.
    rewrite exec_cons, E, E2. rewrite add_add in H2. auto 7.
  - destruct (outcome_calm _ _ _ _ _ _ (copy_outcome src bi w st HH) C A) as (o & w1 & E & (-> & _ & P) & C1).
    destruct (IH w1 _ P C1) as (rs & w2 & E2 & H2 & C2 & N & NS). exists (Wrote :: rs), w2.
    rewrite exec_cons, E, E2. rewrite add_add in H2. auto 7.
Qed.

Lemma sized_eq : forall f t own kids slack, sized (Box f t own kids slack) <->
  lenN t = 4 /\ (f = Small -> box_size (Box f t own kids slack) < 2 ^ 32) /\ Forall sized kids.
Proof.
  intros. cbn [sized].
  assert (E : forall l, (fix all (l : list box) : Prop := match l with [] => True | k :: r => sized k /\ all r end) l <-> Forall sized l).
  { induction l as [|k r IH]; split; intros H; auto.
    - destruct H. constructor; auto. now apply IH.
    - inversion H; subst. split; auto. now apply IH. }
  now rewrite E.
Qed.

(** where the boxes are, in file order *)
Definition place (bi : boxinfo) : N * N * btype * bool := (bi_offset bi, bi_hsize bi, bi_type bi, bi_eof bi).
Definition eof_of (f : form) : bool := match f with ToEnd => true | _ => false end.
Fixpoint places (o : N) (b : box) : list (N * N * btype * bool) :=
  match b with
  | Box f t own kids slack =>
      (o, hsize f, t, eof_of f) ::
      (fix go (o : N) (l : list box) :=
         match l with [] => [] | k :: r => places o k ++ go (o + box_size k) r end) (o + hsize f + lenN own) kids
  end.
Fixpoint places_list (o : N) (l : list box) : list (N * N * btype * bool) :=
  match l with [] => [] | k :: r => places o k ++ places_list (o + box_size k) r end.
Lemma places_eq : forall o f t own kids slack, places o (Box f t own kids slack) =
  (o, hsize f, t, eof_of f) :: places_list (o + hsize f + lenN own) kids.
Proof. reflexivity. Qed.

Lemma writes_run : forall c o ops ts outs, writes c o ops ts outs -> forall w b0 fs,
  holds w (b0, fs) -> calm w -> lenN (render b0 fs) = o -> Forall sized ts ->
  o + lenN (file_bytes ts) < 2 ^ 63 ->
  exists rs w', exec_all ops w = (Ok rs, w') /\ holds w' (add (file_bytes ts) (b0, fs)) /\ calm w' /\ ended rs = outs /\
    (c = false -> map place (started rs) = places_list o ts).
Proof.
  intros c. induction 1 as [o|o bi own_ops own kids_ops kids kids_out slack_ops slack r ts outs b Po Wk IHk Ps Wr IHr
                 |o src bi b r ts outs CT A E Wr IHr]; intros w b0 fs HH C L F B.
  - exists [], w. rewrite add_nil. auto 7.
  - inversion F as [|? ? Fb Fr]; subst. subst b. apply sized_eq in Fb. destruct Fb as (Ht & Hs & Fk).
    set (b := Box (form_of bi) (bi_type bi) own kids slack) in *.
    cbn [file_bytes flat_map] in B. fold (file_bytes ts) in B. rewrite lenN_app in B. fold (box_size b) in B.
    assert (SB : box_size b = hsize (form_of bi) + lenN (payload b)) by (apply (box_size_eq b); exact Ht).
    assert (PB : lenN (payload b) = lenN own + lenN (file_bytes kids) + lenN slack).
    { cbn [payload b]. rewrite !lenN_app. unfold file_bytes. lia. }
    set (R0 := render b0 fs) in *.
    (* StartBox *)
    destruct (outcome_calm _ _ _ _ _ _ (start_outcome bi w b0 fs HH Ht) C I) as (x1 & w1 & E1 & P1 & C1).
    cbv zeta in P1. fold R0 in P1. destruct (opened_ok R0 bi Ht) as [FO FF].
    set (f := opened_frame (lenN R0) bi) in *. destruct P1 as [-> H1].
    (* its own fields *)
    destruct (puts_run _ _ Po w1 _ H1 C1) as (x2 & w2 & E2 & H2 & C2 & N2 & S2). cbn [add] in H2.
    set (f2 := mkfr (fr_info f) (fr_hdr f) (fr_body f ++ own)) in *.
    (* the boxes in it *)
    assert (L2 : lenN (render b0 (f2 :: fs)) = lenN R0 + hsize (form_of bi) + lenN own).
    { cbn [render]. fold R0. unfold fr_bytes, f2, f, opened_frame. cbn [fr_hdr fr_body app]. rewrite !lenN_app, header_form by exact Ht. lia. }
    destruct (IHk w2 b0 (f2 :: fs) H2 C2 L2 Fk ltac:(lia)) as (x3 & w3 & E3 & H3 & C3 & N3 & S3). cbn [add fr_info fr_hdr fr_body] in H3.
    (* the rest *)
    destruct (puts_run _ _ Ps w3 _ H3 C3) as (x4 & w4 & E4 & H4 & C4 & N4 & S4). cbn [add fr_info fr_hdr fr_body] in H4.
    set (f4 := mkfr _ _ _) in H4.
    assert (B4 : fr_body f4 = payload b).
    { cbn [f4 fr_body f2 f opened_frame payload b app]. unfold file_bytes. now rewrite <- !app_assoc. }
    assert (F4 : fr_form f4 = form_of bi) by exact FF.
    (* EndBox *)
    assert (G : fr_form f4 = Small -> 8 + lenN (fr_body f4) < 2 ^ 32).
    { intros S. rewrite B4. rewrite F4 in S. specialize (Hs S). rewrite SB, S in Hs. exact Hs. }
    assert (L4 : lenN (render b0 (f4 :: fs)) = lenN R0 + box_size b).
    { cbn [render]. fold R0. unfold fr_bytes. rewrite !lenN_app, B4, SB.
      cbn [f4 f2 f fr_hdr opened_frame]. rewrite header_form by exact Ht. reflexivity. }
    destruct (outcome_calm _ _ _ _ _ _ (end_outcome w4 b0 f4 fs H4 G ltac:(lia)) C4 I) as (x5 & w5 & E5 & [-> H5] & C5).
    assert (CB : fr_close f4 = box_bytes b).
    { unfold fr_close. rewrite B4, F4, box_bytes_eq. reflexivity. }
    rewrite CB in H5.
    (* and what follows *)
    pose proof (render_add (box_bytes b) b0 fs) as RA. fold R0 in RA.
    destruct (add (box_bytes b) (b0, fs)) as [b1 fs1] eqn:EA.
    assert (L5 : lenN (render b1 fs1) = lenN R0 + box_size b) by (rewrite RA, lenN_app; reflexivity).
    destruct (IHr w5 b1 fs1 H5 C5 L5 Fr ltac:(lia)) as (x6 & w6 & E6 & H6 & C6 & N6 & S6).
    exists (Started (fr_info f) :: x2 ++ x3 ++ x4 ++ Ended (fr_end f4) :: x6), w6.
    rewrite exec_cons, E1. rewrite (exec_app _ _ _ _ _ E2), (exec_app _ _ _ _ _ E3), (exec_app _ _ _ _ _ E4), exec_cons, E5, E6.
    split; [reflexivity|]. rewrite <- EA, add_add in H6. split; [exact H6|]. split; [exact C6|].
    cbn [ended]. rewrite !ended_app, N2, N3, N4. cbn [ended app]. rewrite N6. split; [f_equal; f_equal|].
    { unfold fr_end. rewrite B4, F4, SB. reflexivity. }
    intros CF. cbn [started places_list]. rewrite !started_app, S2, S4. cbn [started app].
    rewrite map_cons, map_app, (S3 CF), (S6 CF). unfold b. rewrite places_eq. fold b. cbn [app]. f_equal.
    unfold place. cbn [f fr_info opened_frame bi_offset bi_hsize bi_type bi_eof]. rewrite header_form by exact Ht.
    f_equal. unfold form_of. destruct (bi_eof bi); [reflexivity|]. destruct (_ && _); reflexivity.
  - inversion F as [|? ? Fb Fr]; subst. cbn [file_bytes flat_map] in B. fold (file_bytes ts) in B. rewrite lenN_app in B.
    fold (box_size b) in B.
    destruct (outcome_calm _ _ _ _ _ _ (copy_outcome src bi w (b0, fs) HH) C A) as (x & w1 & E1 & (-> & _ & P) & C1).
    rewrite E in P. pose proof (render_add (box_bytes b) b0 fs) as RA.
    destruct (add (box_bytes b) (b0, fs)) as [b1 fs1] eqn:EA.
    assert (L5 : lenN (render b1 fs1) = lenN (render b0 fs) + box_size b) by (rewrite RA, lenN_app; reflexivity).
    destruct (IHr w1 b1 fs1 P C1 L5 Fr ltac:(lia)) as (x6 & w6 & E6 & H6 & C6 & N6 & S6).
    exists (Wrote :: x6), w6. rewrite exec_cons, E1, E6. rewrite <- EA, add_add in H6.
    repeat (split; [assumption || reflexivity|]). congruence.
Qed.

(** C31.  [d]: what the file holds already; a fresh file is [d = []]. *)
Theorem C31_writer_tree : forall c d ops ts outs,
  writes c (lenN d) ops ts outs -> Forall sized ts -> lenN d + lenN (file_bytes ts) < 2 ^ 63 ->
  exists rs, exec_all ops (at_end d []) = (Ok rs, at_end (d ++ file_bytes ts) []) /\ ended rs = outs.
Proof.
  intros c d ops ts outs W F B.
  assert (H0 : holds (at_end d []) (d, [])) by (repeat split).
  destruct (writes_run _ _ _ _ _ W (at_end d []) d [] H0 eq_refl eq_refl F B) as (rs & [[d1 p1 fl] stk] & E & (H1 & H2 & H3 & _) & C & N & _).
  cbn [wr_file wr_stack o_data o_pos add render map] in *. unfold calm in C. cbn in C.
  exists rs. split; [|exact N]. rewrite E. unfold at_end. congruence.
Qed.
Print Assumptions C31_writer_tree.

(** ** A program: a movie box with a 64-bit header, containing a box written in
    two pieces, a box that extends to the end of the file (with the bytes of a
    source copied into it), and before it a whole box copied from another file. *)
Definition src_file : list byte := hex "00000000" ++ box_bytes (Box Small (bt "ftyp") (hex "69736f6d00000001") [] []) ++ hex "aabbcc".
Definition prog : list op :=
  [ OCopy src_file (mkbi 4 16 8 (bt "ftyp") false ctx0);
    OStart (mkbi 77 0 16 (bt "moov") false ctx0);
      OStart (mkbi 0 0 8 (bt "free") false ctx0); OPut (hex "0102"); OPut []; OPut (hex "03"); OEnd;
      OStart (mkbi 5 4294967296 8 (bt "skip") false ctx0); OEnd;
    OEnd;
    OStart (mkbi 0 0 0 (bt "mdat") true ctx0); OCopy src_file (mkbi 20 3 8 (bt "????") false ctx0); OEnd ].
Definition prog_tree : list box :=
  [ Box Small (bt "ftyp") (hex "69736f6d00000001") [] [];
    Box Large (bt "moov") [] [ Box Small (bt "free") (hex "010203") [] []; Box Large (bt "skip") [] [] [] ] [];
    Box ToEnd (bt "mdat") (hex "aabbcc") [] [] ].
Definition prog_out : list boxinfo :=
  [ mkbi 32 11 8 (bt "free") false ctx0; mkbi 43 16 16 (bt "skip") false ctx0;
    mkbi 16 43 16 (bt "moov") false ctx0; mkbi 59 11 8 (bt "mdat") true ctx0 ].
Example C31_case : writes true 0 prog prog_tree prog_out /\ Forall sized prog_tree /\ lenN (file_bytes prog_tree) = 70.
Proof.
  split; [|split; [|vm_compute; reflexivity]].
  2:{ repeat constructor; vm_compute; intros; try reflexivity; discriminate. }
  unfold prog. apply (writes_copy true 0 src_file _ (Box Small (bt "ftyp") (hex "69736f6d00000001") [] [])); [reflexivity| |reflexivity|].
  { repeat split; vm_compute; reflexivity. }
  apply (writes_box true _ (mkbi 77 0 16 (bt "moov") false ctx0) [] []
           [ OStart (mkbi 0 0 8 (bt "free") false ctx0); OPut (hex "0102"); OPut []; OPut (hex "03"); OEnd;
             OStart (mkbi 5 4294967296 8 (bt "skip") false ctx0); OEnd ]
           [ Box Small (bt "free") (hex "010203") [] []; Box Large (bt "skip") [] [] [] ]
           [ mkbi 32 11 8 (bt "free") false ctx0; mkbi 43 16 16 (bt "skip") false ctx0 ] [] []).
  - constructor.
  - apply (writes_box true _ (mkbi 0 0 8 (bt "free") false ctx0) [OPut (hex "0102"); OPut []; OPut (hex "03")] (hex "010203") [] [] [] [] []);
      [|constructor|constructor|].
    { apply (puts_put (hex "0102") _ (hex "03")). apply (puts_put [] _ (hex "03")). apply (puts_put (hex "03") [] []). constructor. }
    apply (writes_box true _ (mkbi 5 4294967296 8 (bt "skip") false ctx0) [] [] [] [] [] [] [] [] [] []); constructor.
  - constructor.
  - apply (writes_box true _ (mkbi 0 0 0 (bt "mdat") true ctx0) [OCopy src_file (mkbi 20 3 8 (bt "????") false ctx0)] (hex "aabbcc")
             [] [] [] [] [] [] [] []); try constructor.
    apply (puts_copy src_file (mkbi 20 3 8 (bt "????") false ctx0) [] []); [|constructor].
    repeat split; vm_compute; reflexivity.
Qed.

(** C32.  Reading the file back: the boxes there are those that were started, in
    the order of the StartBox calls, and a traversal is the traversal of the tree
    (with the payloads that were written: see [walk_file]). *)
Lemma list_places : forall data base b anc qt keys o,
  map (fun e => place (e_info e)) (list_box data base anc qt keys o b) = places o b.
Proof.
  intros data base. induction b as [f t own kids slack IH] using box_ind2. intros anc qt keys o.
  rewrite list_box_eq, places_eq. cbv zeta.
  destruct (match enter data base anc qt keys o (Box f t own kids slack) with Ok x => x | _ => (qt, keys) end) as [qt' keys'].
  cbn [map e_info]. f_equal. generalize (o + hsize f + lenN own) as q. generalize keys' as k1.
  induction IH as [|k r IHk IHr IH2]; intros k1 q; [reflexivity|].
  cbn [list_kids places_list]. rewrite map_app, IHk, IH2. reflexivity.
Qed.
Lemma file_places : forall data base ts qt keys o,
  map (fun e => place (e_info e)) (list_file data base qt keys o ts) = places_list o ts.
Proof.
  induction ts as [|b r IH]; intros qt keys o; [reflexivity|]. cbn [list_file places_list].
  destruct (match enter data base [] qt keys o b with Ok x => x | _ => (qt, keys) end) as [qt' keys'].
  rewrite map_app, list_places, IH. reflexivity.
Qed.
Lemma wf_sized : forall b last, box_wf last b -> sized b.
Proof.
  induction b as [f t own kids slack IH] using box_ind2. intros last H. pose proof (wf_type _ _ H) as Ht.
  apply box_wf_eq in H. destruct H as (H1 & H2 & H3 & H4 & H5). apply sized_eq. split; [exact H1|]. split.
  - intros ->. rewrite box_size_eq by exact Ht. apply H3. reflexivity.
  - clear - IH H5. generalize dependent (last && match slack with [] => true | _ => false end). intros l H5.
    induction IH as [|k r IHk IHr IH2]; constructor; apply list_wf_cons in H5; destruct H5 as [A B]; eauto.
Qed.
Lemma list_wf_sized : forall ts last, list_wf last ts -> Forall sized ts.
Proof.
  induction ts as [|k r IH]; intros last H; constructor; apply list_wf_cons in H; destruct H as [A B].
  - eapply wf_sized; eauto.
  - eauto.
Qed.
Theorem C32_read_back : forall c ops ts outs,
  writes c 0 ops ts outs -> list_wf true ts -> lenN (file_bytes ts) < 2 ^ 62 ->
  exists rs data,
    exec_all ops (at_end [] []) = (Ok rs, at_end data []) /\
    (c = false -> map place (started rs) = map (fun e => place (e_info e)) (list_file data ctx0 false 0 0 ts)) /\
    (forall St V P (handler : handler_t St V P) params pos s r s',
       walk_file data ctx0 handler false 0 0 ts params s = Some (r, s') ->
       exists pos', read_box_structure std_registry data handler params (pos, s) = (r, (pos', s'))).
Proof.
  intros c ops ts outs W F B.
  assert (B2 : 0 + lenN (file_bytes ts) < 2 ^ 63).
  { change (2 ^ 62) with 4611686018427387904 in B. change (2 ^ 63) with 9223372036854775808. lia. }
  assert (H0 : holds (at_end [] []) ([], [])) by (repeat split).
  destruct (writes_run _ _ _ _ _ W (at_end [] []) [] [] H0 eq_refl eq_refl (list_wf_sized _ _ F) B2)
    as (rs & [[d1 p1 fl] stk] & E & (H1 & H2 & H3 & _) & C & N & S).
  cbn [wr_file wr_stack o_data o_pos add render map app] in *. unfold calm in C. cbn in C.
  exists rs, (file_bytes ts). split; [rewrite E; unfold at_end; congruence|]. split.
  - intros CF. rewrite (S CF), file_places. reflexivity.
  - intros. eapply C21_walk; eauto.
Qed.
Print Assumptions C32_read_back.
