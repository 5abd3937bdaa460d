(** C29: ExtractBoxes returns the boxes whose path matches, each once, in file order. *)
From Verif Require Import Base BaseProofs Schema Structs Registry Unmarshal BoxInfo ReadTree SpecTree TreeProofs PropTree
     Extract SpecExtract.
Local Open Scope string_scope.
Local Open Scope list_scope.
Local Open Scope N_scope.

(** ** Equations *)
Section Eq.
  Variable data : list byte.
  Variable base : context.
  Fixpoint list_kids (anc : list btype) (qt : bool) (keys : Z) (o : N) (l : list box) : list entry :=
    match l with
    | [] => []
    | k :: r =>
        list_box data base anc qt keys o k ++
        list_kids anc qt (match enter data base anc qt keys o k with Ok x => snd x | _ => keys end)
                  (o + box_size k) r
    end.
  Lemma list_box_eq : forall anc qt keys o f t own kids slack,
    list_box data base anc qt keys o (Box f t own kids slack) =
    let b := Box f t own kids slack in
    let told := enter data base anc qt keys o b in
    let (qt', keys') := match told with Ok x => x | _ => (qt, keys) end in
    {| e_path := anc ++ [t]; e_info := info o b (ctx_of base qt' keys' anc); e_box := b; e_told := told |} ::
    list_kids (anc ++ [t]) qt' keys' (o + hsize f + lenN own) kids.
  Proof.
    intros. cbn [list_box]. cbv zeta.
    destruct (match enter data base anc qt keys o (Box f t own kids slack) with Ok x => x | _ => (qt, keys) end) as [qt' keys'].
    f_equal.
    generalize (o + hsize f + lenN own) as o1. generalize keys' as k1.
    induction kids as [|k r IH]; intros k1 o1; [reflexivity|].
    cbn [list_kids]. f_equal. apply IH.
  Qed.
  (** below a box, every path begins with the path of the box *)
  Definition under (p : path) (e : entry) : Prop := exists q, e_path e = p ++ q.
  Lemma list_box_under : forall b anc qt keys o, Forall (under (anc ++ [box_type b])) (list_box data base anc qt keys o b).
  Proof.
    induction b as [f t own kids slack IH] using box_ind2. intros. rewrite list_box_eq. cbv zeta.
    destruct (match enter data base anc qt keys o (Box f t own kids slack) with Ok x => x | _ => (qt, keys) end) as [qt' keys'].
    constructor; [exists []; now rewrite app_nil_r|].
    cbn [box_type]. generalize (o + hsize f + lenN own) as o1. generalize keys' as k1.
    induction kids as [|k r IHr]; intros k1 o1; [constructor|].
    inversion IH; subst. cbn [list_kids]. apply Forall_app. split; [|apply IHr; assumption].
    eapply Forall_impl; [|apply H1]. intros e [q Hq]. exists (box_type k :: q). rewrite Hq, <- app_assoc. reflexivity.
  Qed.
End Eq.

(** ** Paths *)
Lemma wildcard_any : wildcard = bt_any. Proof. reflexivity. Qed.
Lemma compare_leads : forall p q, named p = true -> compare_with p q = (leads q p, matches q p).
Proof.
  induction p as [|t p IH]; intros [|a q] H; try reflexivity.
  cbn [named forallb] in H. apply andb_prop in H. destruct H as [H1 H2].
  cbn [compare_with leads matches]. unfold match_with. rewrite <- wildcard_any.
  apply negb_true_iff in H1. rewrite H1. cbn [orb].
  replace (bt_eqb t a) with (bt_eqb a t) by apply bytes_eqb_sym.
  destruct (bt_eqb a wildcard || bt_eqb a t); [apply IH, H2|reflexivity].
Qed.
Lemma match_path_spec : forall paths p, named p = true ->
  match_path paths p = (existsb (fun q => leads q p) paths, existsb (fun q => matches q p) paths).
Proof.
  intros paths p H. unfold match_path.
  assert (G : forall l a b, fold_left (fun acc q => let (fm, m) := compare_with p q in (fst acc || fm, snd acc || m)) l (a, b) =
     (a || existsb (fun q => leads q p) l, b || existsb (fun q => matches q p) l)).
  { induction l as [|q l IH]; intros a b; cbn [fold_left existsb]; [now rewrite !orb_false_r|].
    rewrite compare_leads by exact H. cbn [fst snd]. rewrite IH, !orb_assoc. reflexivity. }
  rewrite G. reflexivity.
Qed.
Lemma matches_app : forall q p r, r <> [] -> matches q (p ++ r) = true -> leads q p = true.
Proof.
  induction q as [|a q IH]; intros p r R H.
  - destruct p; [destruct r; [contradiction|discriminate H]|discriminate H].
  - destruct p as [|t p]; [reflexivity|]. cbn [matches leads app] in *. apply andb_prop in H. destruct H as [H1 H2]. rewrite H1. cbn. eapply IH; eauto.
Qed.
Lemma named_app : forall p q, named (p ++ q) = named p && named q.
Proof. intros. apply forallb_app. Qed.
Lemma selected_opened : forall skip paths p r, (skip <= List.length p)%nat -> r <> [] ->
  selected skip paths (p ++ r) = true -> opened skip paths p = true.
Proof.
  unfold selected, opened. intros skip paths p r L R H. apply andb_prop in H. destruct H as [H1 H2].
  rewrite named_app in H1. apply andb_prop in H1. destruct H1 as [H1 _]. rewrite H1. cbn [andb].
  apply existsb_exists in H2. destruct H2 as (q & I & M). apply existsb_exists. exists q. split; [exact I|].
  rewrite skipn_app in M. replace (skip - List.length p)%nat with 0%nat in M by lia.
  eapply matches_app; eauto.
Qed.

(** ** The traversal *)
Section Walk.
  Variable data : list byte.
  Variable base : context.
  Variable hp : bool.
  Variable paths : list path.
  Let skip := if hp then 1%nat else 0%nat.
  Let wanted := filter (fun e => selected skip paths (e_path e)).
  Let found (l : list entry) := map e_info (wanted l).
  Lemma found_app : forall a b, found (a ++ b) = found a ++ found b.
  Proof. intros. unfold found, wanted. rewrite filter_app, map_app. reflexivity. Qed.

  Lemma rel_path : forall p : path, (if hp then tl p else p) = skipn skip p.
  Proof. intros. unfold skip. destruct hp; [destruct p; reflexivity|reflexivity]. Qed.

  Lemma skip_le : forall (p : path) t, (skip <= List.length (p ++ [t]))%nat.
  Proof. intros. rewrite app_length. cbn. unfold skip. destruct hp; lia. Qed.
  Lemma handler_eq : forall bi pth boxes, extract_handler hp paths bi pth tt boxes =
    if bt_eqb (bi_type bi) wildcard then HRet boxes tt
    else
      let (fm, m) := match_path paths (skipn skip pth) in
      let boxes1 := if m then boxes ++ [bi] else boxes in
      if fm then HExpand boxes1 tt (fun r s => match r with Err e => HFail s e | _ => HRet s tt end)
      else HRet boxes1 tt.
  Proof. intros. rewrite <- rel_path. reflexivity. Qed.

  Definition walks (b : box) : Prop := forall anc qt keys o s,
    (anc = [] \/ opened skip paths anc = true) -> named anc = true ->
    Forall (readable data skip paths) (list_box data base anc qt keys o b) ->
    exists qt' keys', enter data base anc qt keys o b = Ok (qt', keys') /\
      walk_box data base (extract_handler hp paths) anc qt keys o b tt s =
      Some (Ok (tt, (qt', keys')), s ++ found (list_box data base anc qt keys o b)).

  Lemma nothing_below : forall b anc qt keys o, opened skip paths (anc ++ [box_type b]) = false ->
    selected skip paths (anc ++ [box_type b]) = false -> found (list_box data base anc qt keys o b) = [].
  Proof.
    intros b anc qt keys o H1 H2. unfold found, wanted.
    assert (S : (skip <= List.length (anc ++ [box_type b]))%nat).
    { rewrite app_length. cbn. unfold skip. destruct hp; lia. }
    pose proof (list_box_under data base b anc qt keys o) as U.
    induction (list_box data base anc qt keys o b) as [|e l IH]; [reflexivity|].
    inversion U; subst. cbn [filter]. destruct H3 as [r Hr].
    destruct (selected skip paths (e_path e)) eqn:E; [|apply IH; assumption].
    exfalso. rewrite Hr in E. destruct r as [|x r].
    - rewrite app_nil_r in E. congruence.
    - apply selected_opened in E; [congruence|exact S|discriminate].
  Qed.

  Lemma nothing_in_kids : forall kids p qt keys o, (skip <= List.length p)%nat -> opened skip paths p = false ->
    found (list_kids data base p qt keys o kids) = [].
  Proof.
    intros kids p qt keys o S O. revert keys o. induction kids as [|k r IH]; intros keys o; [reflexivity|].
    cbn [list_kids]. rewrite found_app, IH, app_nil_r.
    pose proof (list_box_under data base k p qt keys o) as U. unfold found, wanted.
    induction (list_box data base p qt keys o k) as [|e l IHl]; [reflexivity|].
    inversion U; subst. cbn [filter]. destruct H1 as [q Hq].
    destruct (selected skip paths (e_path e)) eqn:E; [|apply IHl; assumption].
    exfalso. rewrite Hq, <- app_assoc in E. apply selected_opened in E; [congruence|exact S|discriminate].
  Qed.

  Lemma kids_walk : forall kids slack p qt' , Forall walks kids ->
    named p = true -> opened skip paths p = true -> (slack = [] \/ qt' = true) -> forall keys o s,
    Forall (readable data skip paths) (list_kids data base p qt' keys o kids) ->
    exists vs, walk_kids data base (extract_handler hp paths) slack p qt' tt keys o kids s =
      Some (Ok vs, s ++ found (list_kids data base p qt' keys o kids)).
  Proof.
    intros kids slack p qt' W NP OP SL. induction W as [|k r Wk Wr IH]; intros keys o s Q.
    - exists []. cbn [walk_kids list_kids]. unfold found, wanted. cbn. rewrite app_nil_r.
      destruct slack; [reflexivity|]. destruct SL as [SL|SL]; [discriminate|]. now rewrite SL.
    - cbn [list_kids] in *. apply Forall_app in Q. destruct Q as [Q1 Q2].
      destruct (Wk p qt' keys o s (or_intror OP) NP Q1) as (qt2 & keys2 & E & R).
      cbn [walk_kids]. rewrite R. rewrite E in Q2 |- *. cbn [snd] in *.
      destruct (IH keys2 (o + box_size k) (s ++ found (list_box data base p qt' keys o k)) Q2) as (vs & V).
      rewrite V. eexists. rewrite found_app, app_assoc. reflexivity.
  Qed.

  Lemma all_walks : forall b, walks b.
  Proof.
    induction b as [f t own kids slack IH] using box_ind2.
    intros anc qt keys o s A NA Q.
    rewrite walk_box_eq. cbv zeta.
    assert (NB := nothing_below (Box f t own kids slack) anc qt keys o). cbn [box_type] in NB.
    rewrite list_box_eq in Q, NB |- *. cbv zeta in Q, NB |- *.
    assert (exists qt' keys', enter data base anc qt keys o (Box f t own kids slack) = Ok (qt', keys')) as (qt' & keys' & E).
    { destruct (match enter data base anc qt keys o (Box f t own kids slack) with Ok x => x | _ => (qt, keys) end) as [q1 k1].
      inversion Q as [|? ? Q1 _]; subst. destruct Q1 as [_ Q1]. cbn [e_path e_told] in Q1.
      destruct Q1 as [[q2 k2] Q1]; [|eauto].
      destruct A as [A|A]; [subst anc; left; reflexivity|right]. rewrite removelast_last. exact A. }
    exists qt', keys'. split; [exact E|]. rewrite E in *.
    inversion Q as [|? ? Q1 Q2]; subst. destruct Q1 as [Q1 _]. cbn [e_path] in Q1.
    rewrite handler_eq. cbn [bi_type info box_type].
    destruct (bt_eqb t wildcard) eqn:TW.
    { cbn [run]. rewrite NB; [now rewrite app_nil_r| |];
      unfold opened, selected; rewrite named_app; unfold named; cbn [forallb]; rewrite TW, andb_false_r; reflexivity. }
    assert (NP : named (anc ++ [t]) = true) by (rewrite named_app, NA; unfold named; cbn [forallb]; now rewrite TW).
    assert (NS : named (skipn skip (anc ++ [t])) = true).
    { rewrite <- (firstn_skipn skip (anc ++ [t])), named_app in NP. apply andb_prop in NP. apply NP. }
    rewrite match_path_spec by exact NS.
    assert (OE : opened skip paths (anc ++ [t]) = existsb (fun q => leads q (skipn skip (anc ++ [t]))) paths)
      by (unfold opened; rewrite NP; reflexivity).
    assert (SE : selected skip paths (anc ++ [t]) = existsb (fun q => matches q (skipn skip (anc ++ [t]))) paths)
      by (unfold selected; rewrite NP; reflexivity).
    rewrite <- OE, <- SE.
    set (ent := {| e_path := anc ++ [t]; e_info := info o (Box f t own kids slack) (ctx_of base qt' keys' anc);
                   e_box := Box f t own kids slack; e_told := Ok (qt', keys') |}) in *.
    assert (FC : forall l, found (ent :: l) =
        (if selected skip paths (anc ++ [t]) then [info o (Box f t own kids slack) (ctx_of base qt' keys' anc)] else []) ++ found l).
    { intros l. unfold found, wanted. cbn [filter]. cbn [e_path ent].
      destruct (selected skip paths (anc ++ [t])); reflexivity. }
    destruct (opened skip paths (anc ++ [t])) eqn:O.
    - destruct (Q1 eq_refl) as [(d & x & D) SL]. cbn [run]. cbn [e_info e_box ent info bi_ctx bi_offset] in D. rewrite D.
      rewrite N.eqb_refl.
      destruct (kids_walk kids slack (anc ++ [t]) qt' IH NP O SL keys' (o + hsize f + lenN own)
                 (if selected skip paths (anc ++ [t]) then s ++ [info o (Box f t own kids slack) (ctx_of base qt' keys' anc)] else s) Q2)
        as (vs & V).
      rewrite V. cbn [run]. rewrite FC. destruct (selected skip paths (anc ++ [t])); rewrite ?app_assoc, ?app_nil_r; reflexivity.
    - cbn [run]. rewrite FC.
      assert (Z : found (list_kids data base (anc ++ [t]) qt' keys' (o + hsize f + lenN own) kids) = []).
      { apply nothing_in_kids; [|exact O]. apply skip_le. }
      rewrite Z, app_nil_r. destruct (selected skip paths (anc ++ [t])); [reflexivity|now rewrite app_nil_r].
  Qed.
End Walk.

Lemma paths_fin : forall paths : list path, paths <> [] -> Forall (fun q => q <> []) paths ->
  existsb (fun p : path => match p with [] => true | _ => false end) paths = false /\
  existsb (fun q => leads q []) paths = true.
Proof.
  intros paths H F. split.
  - clear H. induction F as [|q l Q F IH]; [reflexivity|]. cbn. rewrite IH. destruct q; [contradiction|reflexivity].
  - destruct F as [|q l Q F]; [contradiction|]. destruct q; [contradiction|]. reflexivity.
Qed.

Theorem C29_extract : forall ts paths pos,
  lenN (file_bytes ts) < 2 ^ 62 -> list_wf true ts ->
  paths <> [] -> Forall (fun q => q <> []) paths ->
  let all := list_file (file_bytes ts) ctx0 false 0 0 ts in
  Forall (readable (file_bytes ts) 0 paths) all ->
  exists pos', extract_boxes std_registry (file_bytes ts) None paths pos =
    (Ok (map e_info (filter (fun e => selected 0 paths (e_path e)) all)), pos').
Proof.
  intros ts paths pos HD HW HP HQ all HR.
  destruct (paths_fin paths HP HQ) as [F1 F2].
  assert (G : forall data l qt keys o s, Forall (readable data 0 paths) (list_file data ctx0 qt keys o l) ->
    exists vs, walk_file data ctx0 (extract_handler false paths) qt keys o l tt s =
      Some (Ok vs, s ++ map e_info (filter (fun e => selected 0 paths (e_path e)) (list_file data ctx0 qt keys o l)))).
  { intros data. induction l as [|b r IH]; intros qt keys o s Q.
    - exists []. cbn. now rewrite app_nil_r.
    - cbn [list_file walk_file] in *.
      destruct (match enter data ctx0 [] qt keys o b with Ok x => x | _ => (qt, keys) end) as [q1 k1] eqn:E1.
      apply Forall_app in Q. destruct Q as [Q1 Q2].
      destruct (all_walks data ctx0 false paths b [] qt keys o s (or_introl eq_refl) eq_refl Q1) as (qt' & keys' & E & W).
      rewrite W. rewrite E in E1. injection E1 as -> ->.
      edestruct IH as (vs & V); [exact Q2|]. rewrite V. eexists.
      rewrite filter_app, map_app, app_assoc. reflexivity. }
  destruct (G _ _ _ _ _ [] HR) as (vs & V).
  destruct (C21_walk _ _ _ _ _ _ pos _ _ _ HD HW V) as (pos' & E).
  exists pos'. unfold extract_boxes. destruct paths as [|q0 ps]; [contradiction|]. 
  match goal with |- context [existsb ?f ?l] => replace (existsb f l) with false by (symmetry; exact F1) end.
  rewrite E. reflexivity.
Qed.
Print Assumptions C29_extract.

(** … and below a parent box: the patterns are relative to it. *)
Theorem C29_extract_from : forall pre b post last qt keys base paths pos,
  let data := pre ++ box_bytes b ++ post in
  lenN data < 2 ^ 62 -> box_wf last b -> (last = true -> post = []) ->
  paths <> [] -> Forall (fun q => q <> []) paths ->
  let all := list_box data base [] qt keys (lenN pre) b in
  Forall (readable data 1 paths) all ->
  let parent := mkbi (lenN pre) (box_size b) (hsize (box_form b)) (box_type b)
                     (match box_form b with ToEnd => true | _ => false end) (ctx_of base qt keys []) in
  exists pos', extract_boxes std_registry data (Some parent) paths pos =
    (Ok (map e_info (filter (fun e => selected 1 paths (e_path e)) all)), pos').
Proof.
  intros pre b post last qt keys base paths pos data HD HW HL HP HQ all HR parent.
  destruct (paths_fin paths HP HQ) as [F1 F2].
  destruct (all_walks data base true paths b [] qt keys (lenN pre) [] (or_introl eq_refl) eq_refl HR) as (qt' & keys' & E & W).
  destruct (C21_walk_from _ _ _ _ _ _ _ _ _ _ _ _ pos _ _ _ HD HW HL W) as (pos' & X).
  exists pos'. unfold extract_boxes. destruct paths as [|q0 ps]; [contradiction|]. 
  match goal with |- context [existsb ?f ?l] => replace (existsb f l) with false by (symmetry; exact F1) end.
  unfold parent, data. rewrite X. reflexivity.
Qed.
Print Assumptions C29_extract_from.

(** what [selected] means *)
Lemma matches_spec : forall q p, matches q p = true <-> Forall2 (fun a t => a = wildcard \/ a = t) q p.
Proof.
  induction q as [|a q IH]; intros [|t p]; cbn [matches]; split; intros H; try discriminate; try (inversion H; fail); auto.
  - apply andb_prop in H. destruct H as [H1 H2]. constructor; [|now apply IH].
    apply orb_prop in H1. destruct H1 as [H1|H1]; apply bytes_eqb_eq in H1; auto.
  - inversion H; subst. rewrite (proj2 (IH p)) by assumption. rewrite andb_true_r. apply orb_true_iff.
    destruct H3 as [-> | ->]; [left|right]; apply bytes_eqb_eq; reflexivity.
Qed.
Theorem C29_selected : forall paths p, selected 0 paths p = true <->
  ~ In wildcard p /\ exists q, In q paths /\ Forall2 (fun a t => a = wildcard \/ a = t) q p.
Proof.
  intros paths p. unfold selected. cbn [skipn]. rewrite andb_true_iff, existsb_exists.
  split.
  - intros (N & q & I & M). split.
    + intros I2. unfold named in N. rewrite forallb_forall in N. apply N in I2.
      apply negb_true_iff in I2. assert (bt_eqb wildcard wildcard = true) by (apply bytes_eqb_eq; reflexivity). congruence.
    + exists q. rewrite <- matches_spec. auto.
  - intros (N & q & I & M). split; [|exists q; rewrite matches_spec; auto].
    unfold named. rewrite forallb_forall. intros t I2. apply negb_true_iff.
    destruct (bt_eqb t wildcard) eqn:E; [|reflexivity]. apply bytes_eqb_eq in E. subst. contradiction.
Qed.
Print Assumptions C29_selected.

(** ** A file, two patterns (one with a wildcard), a box of type 0 that is passed over *)
Definition ex_file : list box :=
  [ Box Small (bt "ftyp") (hex "69736f6d0000000069736f6d") [] [];
    Box Small (bt "moov") []
      [ Box Small (bt "trak") [] [ Box Small (bt "tkhd") (hex "0102") [] []; Box Small (bt "mdia") [] [] [] ] [];
        Box Small wildcard [] [ Box Small (bt "tkhd") [] [] [] ] [];
        Box Small (bt "udta") [] [ Box Small (bt "tkhd") [] [] [] ] [];
        Box Large (bt "trak") [] [ Box Small (bt "free") [] [] []; Box Small (bt "tkhd") [] [] [] ] [] ] [];
    Box Small (bt "mdat") (hex "ffee") [] [] ].
Definition ex_paths : list path := [ [bt "moov"; wildcard; bt "tkhd"]; [bt "moov"; bt "trak"]; [bt "mdat"] ].
(** a decision procedure for [readable], to check examples *)
Definition readable_b (data : list byte) (skip : nat) (paths : list path) (e : entry) : bool :=
  (negb (opened skip paths (e_path e)) ||
   match e_box e with
   | Box _ _ own _ slack =>
       match decoded data (bi_ctx (e_info e)) (bi_offset (e_info e)) (e_box e) with
       | Ok (_, _, n) => n =? lenN own | _ => false end &&
       match slack with [] => true | _ => IsQuickTimeCompatible (bi_ctx (e_info e)) end
   end) &&
  match e_told e with Ok _ => true | _ => false end.
Lemma readable_b_ok : forall data skip paths l, forallb (readable_b data skip paths) l = true ->
  Forall (readable data skip paths) l.
Proof.
  intros data skip paths l H. rewrite forallb_forall in H. rewrite Forall_forall. intros e I. apply H in I.
  unfold readable_b in I. apply andb_prop in I. destruct I as [I1 I2]. split.
  - intros O. rewrite O in I1. cbn [negb orb] in I1. unfold can_open. destruct (e_box e) as [f t own kids slack].
    apply andb_prop in I1. destruct I1 as [I1 I3]. split.
    + destruct (decoded data _ _ _) as [[[d x] n]| | |]; try discriminate. apply N.eqb_eq in I1. subst n. eauto.
    + destruct slack; auto.
  - intros _. destruct (e_told e); try discriminate. eauto.
Qed.
Lemma ex_readable : Forall (readable (file_bytes ex_file) 0 ex_paths) (list_file (file_bytes ex_file) ctx0 false 0 0 ex_file).
Proof. apply readable_b_ok. vm_compute. reflexivity. Qed.
Example C29_case :
  (list_wf true ex_file /\ lenN (file_bytes ex_file) < 2 ^ 62) /\
  map (fun e => (bi_offset (e_info e), e_path e))
      (filter (fun e => selected 0 ex_paths (e_path e)) (list_file (file_bytes ex_file) ctx0 false 0 0 ex_file)) =
  [ (28, [bt "moov"; bt "trak"]); (36, [bt "moov"; bt "trak"; bt "tkhd"]);
    (78, [bt "moov"; bt "udta"; bt "tkhd"]); (86, [bt "moov"; bt "trak"]); (110, [bt "moov"; bt "trak"; bt "tkhd"]); (118, [bt "mdat"]) ].
Proof. split; [vm_compute; repeat split; intros; try discriminate; reflexivity|vm_compute; reflexivity]. Qed.
