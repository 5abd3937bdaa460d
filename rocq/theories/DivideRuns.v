(** The divide command does not fail on a file that is complete. *)
From Coq Require Import Permutation.
From Verif Require Import Base BaseProofs Schema Structs Registry Unmarshal BoxInfo ReadTree Extract Accessors Probe SpecProbe GoText Writer ProbeTool Divide.
From Verif Require Import HeaderProofs SpecTree TreeProofs PropTree SpecExtract PropExtract PropExtractPayload SpecWriter WriterProofs EditProofs
  SpecTool ToolProofs SpecReport PropReport SpecDivide DivideProofs DivideWalk DivideTree.
Local Open Scope string_scope.
Local Open Scope list_scope.
Local Open Scope N_scope.
Local Open Scope monad_scope.

(** ** Boxes that are found can be decoded *)
Section Found.
  Variable data : list byte.
  Hypothesis data_small : lenN data < 2 ^ 62.
  Lemma all_of_decodes : forall l, Forall (placed data) l -> Forall (decodes data) l ->
    exists bs, all_of (map (with_payload data) (map e_info l)) = Ok bs.
  Proof.
    intros l P. induction P as [|x r (pre & post & last & A & EI) _ IH]; intros D; [exists []; reflexivity|].
    destruct (IH (Forall_inv_tail D)) as (bs & B). apply Forall_inv in D. destruct D as ([[d y] n] & D). cbn [map all_of]. rewrite B.
    destruct (place_read_payload data data_small pre post last (e_box x) (bi_ctx (e_info x)) 0 A) as (p' & R & _).
    rewrite <- EI in R. unfold with_payload at 1. rewrite R. cbn [fst].
    assert (E : e_decoded data x = decoded data (bi_ctx (e_info x)) (lenN pre) (e_box x)).
    { unfold e_decoded. rewrite EI at 2. reflexivity. }
    rewrite <- E, D. eexists. reflexivity.
  Qed.
  Lemma found_boxes : forall e ps pos, ps <> [] -> Forall (fun q => q <> []) ps -> placed data e -> plain e -> searchable data ps e ->
    exists p, extract_boxes std_registry data (Some (e_info e)) (map (map bt) ps) pos = (Ok (map e_info (at_paths data e ps)), p).
  Proof.
    intros e ps pos NE NQ (pre & post & last & A & EI) EC [SR _]. pose proof A as (HD & HW & HL).
    assert (NE2 : map (map bt) ps <> []) by (destruct ps; [contradiction|discriminate]).
    assert (NQ2 : Forall (fun q => q <> []) (map (map bt) ps)).
    { apply Forall_map. eapply Forall_impl; [|exact NQ]. intros [|a q] H; [contradiction|discriminate]. }
    unfold below in SR. assert (EO : bi_offset (e_info e) = lenN pre) by (rewrite EI; reflexivity). rewrite EO, HD in SR.
    pose proof data_small as D62. rewrite HD in D62.
    destruct (C29_extract_from pre (e_box e) post last _ _ ctx0 (map (map bt) ps) pos D62 HW HL NE2 NQ2 SR) as (p & X).
    unfold plain in EC. rewrite <- EC in X. exists p.
    assert (EI2 : mkbi (lenN pre) (box_size (e_box e)) (hsize (box_form (e_box e))) (box_type (e_box e))
       match box_form (e_box e) with ToEnd => true | _ => false end (bi_ctx (e_info e)) = e_info e) by (symmetry; exact EI).
    rewrite EI2, <- HD in X. unfold at_paths, below. rewrite EO. exact X.
  Qed.
  Lemma found_payloads : forall e p pos, p <> [] -> placed data e -> plain e -> searchable data [p] e -> Forall (decodes data) (at_paths data e [p]) ->
    exists bs pos', extract_boxes_with_payload std_registry data (Some (e_info e)) [map bt p] pos = (Ok bs, pos') /\
      map view bs = map (view_entry data) (at_paths data e [p]).
  Proof.
    intros e p pos NP P C SE D. change [map bt p] with (map (map bt) [p]).
    destruct (found_boxes e [p] pos) as (p' & X); [discriminate|constructor; [exact NP|constructor]|exact P|exact C|exact SE|].
    assert (ST : Forall (fun bi => steady (bi_type bi) \/ bi_ctx bi = bi_ctx (e_info e)) (map e_info (at_paths data e [p]))).
    { apply Forall_map. exact (proj2 SE). }
    pose proof (C30_payloads_partial data (Some (e_info e)) _ pos _ _ X ST) as W.
    destruct (all_of_decodes (at_paths data e [p])) as (bs & B); [|exact D|].
    { apply Forall_forall. intros x I. apply filter_In in I. destruct I as [I _]. destruct P as (pre & post & last & A & EI).
      assert (Q : Forall (placed data) (below data e)).
      { unfold below. assert (EO : bi_offset (e_info e) = lenN pre) by (rewrite EI; reflexivity). rewrite EO.
        eapply box_placed. exact A. }
      rewrite Forall_forall in Q. now apply Q. }
    rewrite B in W. destruct (extract_boxes_with_payload std_registry data (Some (e_info e)) (map (map bt) [p]) pos) as [r q] eqn:E.
    cbn [fst] in W. subst r. exists bs, q. split; [reflexivity|].
    refine (found_view data data_small e [p] pos bs q _ _ P C SE E); [discriminate|constructor; [exact NP|constructor]].
  Qed.
  Lemma dextract_ok : forall dec own bytes ch e p s k, placed data e -> plain e -> p <> [] -> searchable data [p] e -> Forall (decodes data) (at_paths data e [p]) ->
    exists bs, map view bs = map (view_entry data) (at_paths data e [p]) /\
      run dec own bytes ch (dextract data (e_info e) (map bt p) s k) = run dec own bytes ch (k bs).
  Proof.
    intros dec own bytes ch e p s k P C NP SE D. destruct (found_payloads e p 0 NP P C SE D) as (bs & pos & E & V).
    exists bs. split; [exact V|]. unfold dextract.
    match goal with |- context [let (_, _) := ?x in _] => change x with (extract_boxes_with_payload std_registry data (Some (e_info e)) [map bt p] 0) end.
    rewrite E. reflexivity.
  Qed.
  Lemma places_sub : forall e ps p, In p ps -> Forall (decodes data) (at_paths data e ps) -> Forall (decodes data) (at_paths data e [p]).
  Proof.
    intros e ps p I F. rewrite Forall_forall in *. intros x Hx. apply F. unfold at_paths in *. apply filter_In in Hx. destruct Hx as [X1 X2].
    apply filter_In. split; [exact X1|]. unfold selected in *. apply andb_prop in X2. destruct X2 as [X2 X3]. rewrite X2. cbn [andb].
    apply existsb_exists in X3. destruct X3 as (q & Q & M). apply existsb_exists. exists q. split; [|exact M].
    cbn [map] in Q. destruct Q as [<-|[]]. now apply in_map.
  Qed.
End Found.

(** ** Loops *)
(** what the operations on init.mp4 leave as it is *)
Definition core (s : dst) := (map (fun t => (d_id t, d_segments t)) (ds_tracks s), ds_curr s, ds_stop s).
Definition keys (s : dst) : list N := map d_id (ds_tracks s).
(** a bound on the size of the init.mp4 *)
Definition fits (B : N) (s : dst) : Prop := (forall k, lenN (content (Of k Init) s) <= B) /\ (forall t, In t (ds_tracks s) -> d_ipos t <= B).
Lemma fits_le : forall B C s, B <= C -> fits B s -> fits C s.
Proof. intros B C s L [F1 F2]. split; [intros k; specialize (F1 k); lia|intros t H; specialize (F2 t H); lia]. Qed.
Lemma core_keys : forall s s', core s' = core s -> keys s' = keys s.
Proof.
  intros s s' E. unfold core in E. injection E as E _ _. apply (f_equal (map fst)) in E. rewrite !map_map in E. exact E.
Qed.
Lemma find_in : forall s id, In id (keys s) -> exists t, find_track id s = Some t /\ In t (ds_tracks s) /\ d_id t = id.
Proof.
  intros s id H. unfold find_track. destruct (find (fun t => d_id t =? id) (ds_tracks s)) as [t|] eqn:F.
  - apply find_some in F. destruct F as [F1 F2]. apply N.eqb_eq in F2. eauto.
  - unfold keys in H. apply in_map_iff in H. destruct H as (t & E & I). apply (find_none _ _ F) in I. now rewrite E, N.eqb_refl in I.
Qed.
Lemma set_track_core : forall s t u, NoDup (keys s) -> In t (ds_tracks s) -> d_id u = d_id t -> d_segments u = d_segments t -> core (set_track u s) = core s.
Proof.
  intros s t u ND I E1 E2. unfold core. cbn [set_track ds_tracks ds_curr ds_stop]. rewrite map_map. do 2 f_equal. apply map_ext_in. intros x Hx.
  destruct (N.eqb_spec (d_id x) (d_id u)) as [Q|_]; [|reflexivity]. rewrite E1 in Q. rewrite (id_inj (ds_tracks s) ND x t Hx I Q). now rewrite E1, E2.
Qed.
Lemma content_set : forall p q c s, content q (set_file p c s) = if fpath_eqb p q then c else content q s.
Proof. intros. unfold content, set_file. cbn [ds_files]. now destruct (fpath_eqb p q). Qed.
(** an operation that does not fail, and makes the file grow by no more than [g] *)
Definition works {A} (g : N) (m : M ofile A) (P : N -> A -> Prop) : Prop :=
  forall d p B, lenN d <= B -> p <= B -> exists a d' p', m (mkof d p []) = (Ok a, mkof d' p' []) /\ lenN d' <= B + g /\ p' <= B + g /\ P B a.
Lemma init_ok : forall A g (m : M ofile A) P id s B, works g m P -> NoDup (keys s) -> In id (keys s) -> fits B s ->
  exists a s', init_op id m s = (Ok a, s') /\ core s' = core s /\ fits (B + g) s' /\ P B a.
Proof.
  intros A g m P id s B W ND H [F1 F2]. destruct (find_in s id H) as (t & F & I & E). unfold init_op. rewrite F.
  destruct (W (content (Of (d_type t) Init) s) (d_ipos t) B (F1 _) (F2 _ I)) as (a & d' & p' & X & L1 & L2 & PA). rewrite X.
  exists a. eexists. split; [reflexivity|]. cbn [o_pos o_data]. split; [|split; [split|exact PA]].
  - rewrite (set_track_core _ t); [reflexivity|exact ND|exact I|reflexivity|reflexivity].
  - intros k. change (content (Of k Init) (set_track (set_ipos p' t) (set_file (Of (d_type t) Init) d' s))) with (content (Of k Init) (set_file (Of (d_type t) Init) d' s)).
    rewrite content_set. destruct (fpath_eqb _ _); [exact L1|]. specialize (F1 k). lia.
  - intros u Hu. cbn [set_track ds_tracks set_file] in Hu. apply in_map_iff in Hu. destruct Hu as (v & <- & Hv). destruct (d_id v =? d_id (set_ipos p' t)); [exact L2|].
    specialize (F2 v Hv). lia.
Qed.
Lemma seg_ok : forall A g (m : M ofile A) P id s B, works g m P -> NoDup (keys s) -> In id (keys s) -> fits B s ->
  exists a s', seg_op id m s = (Ok a, s') /\ core s' = core s /\ fits B s'.
Proof.
  intros A g m P id s B W ND H [F1 F2]. destruct (find_in s id H) as (t & F & I & E). unfold seg_op. rewrite F.
  destruct (W (content (Of (d_type t) (Seg (d_sname t))) s) (d_spos t) (lenN (content (Of (d_type t) (Seg (d_sname t))) s) + d_spos t)) as (a & d' & p' & X & _); [lia|lia|]. rewrite X.
  exists a. eexists. split; [reflexivity|]. cbn [o_pos o_data]. split; [|split].
  - rewrite (set_track_core _ t); [reflexivity|exact ND|exact I|reflexivity|reflexivity].
  - intros k. change (content (Of k Init) (set_track (set_spos p' t) (set_file (Of (d_type t) (Seg (d_sname t))) d' s))) with (content (Of k Init) (set_file (Of (d_type t) (Seg (d_sname t))) d' s)).
    rewrite content_set. replace (fpath_eqb (Of (d_type t) (Seg (d_sname t))) (Of k Init)) with false; [exact (F1 k)|]. cbn. now destruct (d_type t), k.
  - intros u Hu. cbn [set_track ds_tracks set_file] in Hu. apply in_map_iff in Hu. destruct Hu as (v & <- & Hv). destruct (d_id v =? d_id (set_spos p' t)); [exact (F2 t I)|].
    exact (F2 v Hv).
Qed.
Lemma overwrite_le : forall d p l B, lenN d <= B -> p <= B -> lenN (overwrite d p l) <= B + lenN l.
Proof.
  intros d p l B H1 H2. unfold overwrite. destruct l as [|x r]; [rewrite N.add_comm; lia|]. remember (x :: r) as l. rewrite !lenN_app, lenN_repeat, lenN_takeN, lenN_skipN. lia.
Qed.
Lemma header_le : forall bi, lenN (bi_type bi) = 4 -> lenN (header_bytes bi) <= 16.
Proof. intros bi H. rewrite header_form by exact H. destruct (form_of bi); cbn; lia. Qed.
Lemma works_header : forall bi, lenN (bi_type bi) = 4 -> works 16 (write_box_info bi) (fun _ b => bi_type b = bi_type bi).
Proof.
  intros bi T d p B H1 H2. rewrite write_box_info_eq. pose proof (header_le bi T). pose proof (overwrite_le d p (header_bytes bi) B H1 H2).
  eexists _, _, _. split; [reflexivity|]. split; [lia|]. split; [lia|reflexivity].
Qed.
Lemma works_end : works 0 o_seek_end (fun B o => o <= B).
Proof. intros d p B H1 H2. eexists _, _, _. split; [reflexivity|]. cbn [o_data]. split; [lia|]. split; [lia|exact H1]. Qed.
Lemma works_write : forall l, works (lenN l) (o_write l) (fun _ _ => True).
Proof. intros l d p B H1 H2. eexists _, _, _. split; [reflexivity|]. split; [now apply overwrite_le|]. split; [cbn; lia|exact I]. Qed.

Section Loops.
  Variable order : N -> list N -> list N.
  Hypothesis order_ok : forall k l, Permutation (order k l) l.
  Lemma visit_core : forall s, exists l s', visit order s = (l, s') /\ core s' = core s /\ (forall B, fits B s -> fits B s') /\
    (forall id, In id l <-> In id (keys s)) /\ lenN l = lenN (keys s).
  Proof.
    intros s. unfold visit. eexists _, _. split; [reflexivity|]. split; [reflexivity|]. split; [intros B F; exact F|]. split.
    - intros id. split; apply Permutation_in; [|apply Permutation_sym]; apply order_ok.
    - unfold lenN. now rewrite (Permutation_length (order_ok (ds_loops s) (map d_id (ds_tracks s)))).
  Qed.
  (** a loop whose body makes the init.mp4 grow by no more than [g] *)
  Lemma loop_ok : forall L A g (K : A -> Prop) (Q : N -> A -> Prop) (body : N -> A -> M dst A) c0 B0 l i a s B, B0 <= B ->
    (forall id a s1 B, B0 <= B -> In id l -> core s1 = c0 -> K a -> fits B s1 -> B + g <= L ->
       exists a' s2, body id a s1 = (Ok a', s2) /\ core s2 = core s1 /\ fits (B + g) s2 /\ K a' /\ Q id a' /\ (forall j, Q j a -> Q j a')) ->
    core s = c0 -> K a -> fits B s -> B + lenN l * g <= L ->
    exists a' s', for_each (fun _ id a => body id a) i l a s = (Ok a', s') /\ core s' = c0 /\ fits (B + lenN l * g) s' /\
      K a' /\ (forall id, In id l -> Q id a') /\ (forall j, Q j a -> Q j a').
  Proof.
    intros L A g K Q body c0 B0. induction l as [|id r IH]; intros i a s B LB HB C KA F LE.
    - exists a, s. split; [reflexivity|]. split; [exact C|]. split; [eapply fits_le; [|exact F]; lia|]. split; [exact KA|]. split; [intros id []|auto].
    - rewrite lenN_cons in *. destruct (HB id a s B LB (or_introl eq_refl) C KA F) as (a1 & s1 & E & C1 & F1 & K1 & Q1 & M1); [lia|].
      destruct (IH (i + 1) a1 s1 (B + g)) as (a2 & s2 & E2 & C2 & F2 & K2 & Q2 & M2); [lia|intros j b s0 B1 LB1 Hj; apply HB; [exact LB1|now right]|now rewrite C1|exact K1|exact F1|lia|].
      exists a2, s2. cbn [for_each]. unfold bind at 1. rewrite E. split; [exact E2|]. split; [exact C2|]. split; [eapply fits_le; [|exact F2]; lia|]. split; [exact K2|]. split.
      + intros j [<-|Hj]; auto.
      + auto.
  Qed.
  Lemma range_ok : forall L A g (K : A -> Prop) (Q : N -> A -> Prop) (body : N -> A -> M dst A) a s B,
    (forall id a s1 B1, B <= B1 -> In id (keys s) -> core s1 = core s -> K a -> fits B1 s1 -> B1 + g <= L ->
       exists a' s2, body id a s1 = (Ok a', s2) /\ core s2 = core s1 /\ fits (B1 + g) s2 /\ K a' /\ Q id a' /\ (forall j, Q j a -> Q j a')) ->
    K a -> fits B s -> B + lenN (keys s) * g <= L ->
    exists a' s', range order body a s = (Ok a', s') /\ core s' = core s /\ fits (B + lenN (keys s) * g) s' /\ K a' /\ (forall id, In id (keys s) -> Q id a').
  Proof.
    intros L A g K Q body a s B HB KA F LE. unfold range. destruct (visit_core s) as (l & s1 & E & C & FV & IN & LN). rewrite E.
    destruct (loop_ok L A g K Q body (core s) B l 0 a s1 B) as (a' & s' & E2 & C2 & F2 & K2 & Q2 & _); [lia| |exact C|exact KA|auto|now rewrite LN|].
    - intros id b s2 B2 LB Hid. apply HB; [exact LB|now apply IN].
    - rewrite LN in F2. exists a', s'. split; [exact E2|]. split; [exact C2|]. split; [exact F2|]. split; [exact K2|]. intros id Hid. apply Q2. now apply IN.
  Qed.

  (** ** The initialization segment *)
  Definition there (T : N) (id : N) (m : bimap) : Prop := exists o b, get_bi id m = Some (o, b) /\ o <= T /\ lenN (bi_type b) = 4.
  Lemma there_put : forall T id j o b m, o <= T -> lenN (bi_type b) = 4 -> there T j m -> there T j (put_bi id (o, b) m).
  Proof. intros T id j o b m H1 H2 H. unfold there in *. rewrite get_put. destruct (id =? j); [eauto|exact H]. Qed.
  Lemma there_now : forall T id o b m, o <= T -> lenN (bi_type b) = 4 -> there T id (put_bi id (o, b) m).
  Proof. intros. unfold there. rewrite get_put, N.eqb_refl. eauto. Qed.
  Lemma headers_ok : forall bi (mine : N -> bool) s B, let T := B + lenN (keys s) * 16 in lenN (bi_type bi) = 4 -> NoDup (keys s) -> fits B s ->
    exists m s', write_headers order bi mine s = (Ok m, s') /\ core s' = core s /\ fits T s' /\
    forall id, In id (keys s) -> mine id = true -> there T id m.
  Proof.
    intros bi mine s B T TY ND F. unfold write_headers.
    match goal with |- context [range order ?f ?a s] =>
      destruct (range_ok T bimap 16 (fun _ => True) (fun id m => mine id = true -> there T id m) f a s B) as (m & s' & E & C & F' & _ & Q) end;
      [|exact I|exact F|apply N.le_refl|exists m, s'; auto].
    intros id a s1 B1 _ Hid C _ F1 LE1. destruct (mine id) eqn:MI.
    - assert (ND1 : NoDup (keys s1)) by (now rewrite (core_keys _ _ C)). assert (I1 : In id (keys s1)) by (now rewrite (core_keys _ _ C)).
      destruct (init_ok _ _ _ _ id s1 B1 works_end ND1 I1 F1) as (o & s2 & E2 & C2 & F2 & P2). rewrite N.add_0_r in F2.
      assert (ND2 : NoDup (keys s2)) by (now rewrite (core_keys _ _ C2)). assert (I2 : In id (keys s2)) by (now rewrite (core_keys _ _ C2)).
      destruct (init_ok _ _ _ _ id s2 B1 (works_header bi TY) ND2 I2 F2) as (b & s3 & E3 & C3 & F3 & P3).
      assert (LO : o <= T) by lia. assert (TB : lenN (bi_type (set_size b (bi_hsize b))) = 4) by (cbn; now rewrite P3).
      eexists _, _. unfold bind. rewrite E2, E3. split; [reflexivity|]. split; [now rewrite C3|]. split; [exact F3|]. split; [exact I|]. split.
      + intros _. now apply there_now.
      + intros j Hj M. apply there_put; auto.
    - exists a, s1. split; [reflexivity|]. split; [reflexivity|]. split; [eapply fits_le; [|exact F1]; lia|]. split; [exact I|]. split; [congruence|auto].
  Qed.
  Lemma add_ok : forall T id n m s, there T id m -> exists m', add_size id n m s = (Ok m', s) /\ forall j, there T j m -> there T j m'.
  Proof.
    intros T id n m s (o & b & G & H1 & H2). unfold add_size. rewrite G. eexists. split; [reflexivity|].
    intros j. now apply there_put.
  Qed.
  Variable L : N.                        (* the init.mp4 do not become longer *)
  Hypothesis L_small : L < 2 ^ 63.
  Lemma works_seek : forall n, n <= L -> forall d p B, lenN d <= B -> n <= B ->
    o_seek n (mkof d p []) = (Ok tt, mkof d n []).
  Proof.
    intros n H2 d p B _ _. unfold o_seek. destruct (N.ltb_spec n 9223372036854775808) as [_|X]; [reflexivity|change (2 ^ 63) with 9223372036854775808 in L_small; lia].
  Qed.
  Lemma seek_ok : forall n id s B, n <= L -> n <= B -> NoDup (keys s) -> In id (keys s) -> fits B s ->
    exists s', init_op id (o_seek n) s = (Ok tt, s') /\ core s' = core s /\ fits B s'.
  Proof.
    intros n id s B H1 H2 ND H [F1 F2]. destruct (find_in s id H) as (t & F & I & E). unfold init_op. rewrite F.
    rewrite (works_seek n H1 _ _ B (F1 _) H2). eexists. split; [reflexivity|]. cbn [o_pos o_data]. split; [|split].
    - rewrite (set_track_core _ t); [reflexivity|exact ND|exact I|reflexivity|reflexivity].
    - intros k. match goal with |- lenN (content _ (set_track _ ?x)) <= _ => change (lenN (content (Of k Init) x) <= B) end.
      rewrite content_set. destruct (fpath_eqb _ _); [apply F1|]. exact (F1 k).
    - intros u Hu. cbn [set_track ds_tracks set_file] in Hu. apply in_map_iff in Hu. destruct Hu as (v & <- & Hv). destruct (d_id v =? d_id (set_ipos n t)); [exact H2|].
      exact (F2 v Hv).
  Qed.
    Lemma children_ok : forall T vals i m s B, Forall (fun v => v <> None) vals -> fits B s -> B <= L -> (forall id, In id (keys s) -> there T id m) ->
      exists m' s', for_each (fun _ v m => match v with
        | Some ci => range order (fun id m => add_size id (child_size id ci) m) m | None => panic end) i vals m s = (Ok m', s') /\
        core s' = core s /\ fits B s' /\ (forall id, In id (keys s) -> there T id m').
    Proof.
      intros T. induction vals as [|v r IH]; intros i m s B FV F LE TH.
      - exists m, s. auto.
      - cbn [for_each]. unfold bind at 1. pose proof (Forall_inv FV) as NV. apply Forall_inv_tail in FV. destruct v as [ci|]; [|contradiction].
        match goal with |- context [range order ?f ?a s] =>
          destruct (range_ok L bimap 0 (fun m => forall id, In id (keys s) -> there T id m) (fun _ _ => True) f a s B) as (m1 & s1 & E & C & F1 & K & _) end;
          [|exact TH|exact F|lia|].
        + intros id a s2 B2 _ Hid C K F2 _. destruct (add_ok T id (child_size id ci) a s2 (K id Hid)) as (m' & E3 & M3). exists m', s2.
          split; [exact E3|]. split; [reflexivity|]. split; [now rewrite N.add_0_r|]. split; [|auto]. auto.
        + rewrite N.mul_0_r, N.add_0_r in F1. rewrite E. destruct (IH (i + 1) m1 s1 B FV F1 LE) as (m' & s' & E2 & C2 & F2 & K2).
          * rewrite (core_keys _ _ C). exact K.
          * exists m', s'. split; [exact E2|]. split; [now rewrite C2|]. split; [exact F2|]. rewrite <- (core_keys _ _ C). exact K2.
    Qed.
  Section Runs.
    Variable dec : res (boxdef * fields * N).
    Variable own : N.
    Variable bytes : list byte.
    Variable ch : unit -> dst -> option (res (list (option sizes)) * dst).
    Local Notation run := (run dec own bytes ch).
    Lemma finish_ok : forall (mine : N -> bool) m s T B, NoDup (keys s) -> fits B s -> T <= B -> B + lenN (keys s) * 16 <= L ->
      (forall id, In id (keys s) -> mine id = true -> there T id m) ->
      exists ci s', run (finish_init order mine m s) = Some (Ok (Some ci), s') /\ core s' = core s /\ fits (B + lenN (keys s) * 16) s'.
    Proof.
      intros mine m s T B ND F LT LE TH. unfold finish_init, dcall, rewrite_headers.
      match goal with |- context [range order ?f ?a s] =>
        destruct (range_ok L bimap 16 (fun m => forall id, In id (keys s) -> mine id = true -> there T id m) (fun _ _ => True) f a s B) as (m' & s' & E & C & F' & _ & _) end;
        [|exact TH|exact F|exact LE|rewrite E; cbn [SpecTree.run]; eexists _, _; split; [reflexivity|]; split; [exact C|exact F']].
      intros id a s1 B1 LB Hid C K F1 LE1. destruct (mine id) eqn:MI.
      - destruct (K id Hid MI) as (o & b & G & LO & TB). rewrite G.
        assert (ND1 : NoDup (keys s1)) by (now rewrite (core_keys _ _ C)). assert (I1 : In id (keys s1)) by (now rewrite (core_keys _ _ C)).
        destruct (seek_ok o id s1 B1) as (s2 & E2 & C2 & F2); [lia|lia|exact ND1|exact I1|exact F1|].
        assert (ND2 : NoDup (keys s2)) by (now rewrite (core_keys _ _ C2)). assert (I2 : In id (keys s2)) by (now rewrite (core_keys _ _ C2)).
        destruct (init_ok _ _ _ _ id s2 B1 (works_header b TB) ND2 I2 F2) as (b' & s3 & E3 & C3 & F3 & P3).
        unfold bind. rewrite E2, E3. eexists _, _. split; [reflexivity|]. split; [now rewrite C3|]. split; [exact F3|]. split; [|auto].
        intros j Hj M. apply there_put; [exact LO|now rewrite P3|auto].
      - exists a, s1. split; [reflexivity|]. split; [reflexivity|]. split; [eapply fits_le; [|exact F1]; lia|]. auto.
    Qed.
    Lemma copy_ok : forall (mine : N -> bool) T l m s B, NoDup (keys s) -> (forall id, In id l -> In id (keys s)) -> fits B s -> T <= B ->
      B + lenN l * lenN bytes + lenN (keys s) * 16 <= L -> (forall id, In id (keys s) -> mine id = true -> there T id m) ->
      exists ci s', run (copy_payload order mine l m s) = Some (Ok (Some ci), s') /\ core s' = core s /\ fits (B + lenN l * lenN bytes + lenN (keys s) * 16) s'.
    Proof.
      intros mine T. induction l as [|id r IH]; intros m s B ND IN F LT LE TH; cbn [copy_payload].
      - change (lenN (A:=N) []) with 0 in *. rewrite N.mul_0_l, N.add_0_r in *. now apply finish_ok with (T := T).
      - rewrite lenN_cons in *. destruct (mine id) eqn:MI.
        + cbn [SpecTree.run]. unfold dcall, bind.
          destruct (init_ok _ _ _ _ id s B (works_write bytes) ND (IN id (or_introl eq_refl)) F) as (u & s2 & E2 & C2 & F2 & _). rewrite E2.
          destruct (add_ok T id (lenN bytes) m s2 (TH id (IN id (or_introl eq_refl)) MI)) as (m' & E3 & M3). rewrite E3.
          destruct (IH m' s2 (B + lenN bytes)) as (ci & s' & R & C & F'); rewrite ?(core_keys _ _ C2); auto; try lia.
          * intros j Hj. apply IN. now right.
          * exists ci, s'. split; [exact R|]. split; [now rewrite C|]. rewrite (core_keys _ _ C2) in F'. eapply fits_le; [|exact F']. lia.
        + destruct (IH m s B) as (ci & s' & R & C & F'); auto; try lia.
          * intros; apply IN; now right.
          * exists ci, s'. split; [exact R|]. split; [exact C|]. eapply fits_le; [|exact F']. lia.
    Qed.
    Lemma init_box_ok : forall bi mine s B, lenN (bi_type bi) = 4 -> bt_eqb (bi_type bi) (bt "moov") = false -> NoDup (keys s) -> fits B s ->
      B + lenN (keys s) * (32 + lenN bytes) <= L ->
      exists ci s', run (init_box order bi mine s) = Some (Ok (Some ci), s') /\ core s' = core s /\ fits (B + lenN (keys s) * (32 + lenN bytes)) s'.
    Proof.
      intros bi mine s B TY NM ND F LE. unfold init_box, dcall at 1. destruct (headers_ok bi mine s B TY ND F) as (m & s1 & E & C & F1 & TH). rewrite E, NM.
      destruct (visit_core s1) as (l & s2 & E2 & C2 & FV & IN & LN). rewrite E2.
      assert (K2 : keys s2 = keys s) by (now rewrite (core_keys _ _ C2), (core_keys _ _ C)).
      destruct (copy_ok mine (B + lenN (keys s) * 16) l m s2 (B + lenN (keys s) * 16)) as (ci & s3 & R & C3 & F3); rewrite ?K2; auto; try lia.
      - intros id Hid. rewrite <- (core_keys _ _ C). now apply IN.
      - rewrite LN, (core_keys _ _ C). lia.
      - exists ci, s3. split; [exact R|]. split; [now rewrite C3, C2|]. rewrite LN, K2, (core_keys _ _ C) in F3. eapply fits_le; [|exact F3]. lia.
    Qed.
  End Runs.
  (** [g]: how much the boxes in it add *)
  Lemma moov_box_ok : forall d x own bytes ch bi mine s g B, lenN (bi_type bi) = 4 -> bt_eqb (bi_type bi) (bt "moov") = true -> (forall id, mine id = true) ->
    NoDup (keys s) -> fits B s -> B + lenN (keys s) * 32 + g <= L ->
    (forall s1, core s1 = core s -> fits (B + lenN (keys s) * 16) s1 -> exists vals s2, ch tt s1 = Some (Ok vals, s2) /\ core s2 = core s1 /\
       fits (B + lenN (keys s) * 16 + g) s2 /\ Forall (fun v => v <> None) vals) ->
    exists ci s', run (Ok (d, x, own)) own bytes ch (init_box order bi mine s) = Some (Ok (Some ci), s') /\ core s' = core s /\
      fits (B + lenN (keys s) * 32 + g) s'.
  Proof.
    intros d x own bytes ch bi mine s g B TY M ALL ND F LE CH. unfold init_box, dcall at 1.
    destruct (headers_ok bi mine s B TY ND F) as (m & s1 & E & C & F1 & TH). rewrite E, M.
    cbn [SpecTree.run]. rewrite N.eqb_refl. destruct (CH s1 C F1) as (vals & s2 & E2 & C2 & F2 & FV). rewrite E2.
    unfold dcall at 1, add_children. destruct (children_ok (B + lenN (keys s) * 16) vals 0 m s2 _ FV F2) as (m3 & s3 & E3 & C3 & F3 & TH3); [lia| |].
    - intros id. rewrite (core_keys _ _ C2), (core_keys _ _ C). auto.
    - rewrite E3. assert (K3 : keys s3 = keys s) by (now rewrite (core_keys _ _ C3), (core_keys _ _ C2), (core_keys _ _ C)).
      destruct (finish_ok (Ok (d, x, own)) own bytes ch mine m3 s3 (B + lenN (keys s) * 16) (B + lenN (keys s) * 16 + g)) as (ci & s4 & R & C4 & F4); rewrite ?K3; auto; try lia.
      + intros id Hid _. apply TH3. now rewrite (core_keys _ _ C2), (core_keys _ _ C).
      + exists ci, s4. split; [exact R|]. split; [now rewrite C4, C3, C2|]. rewrite K3 in F4. eapply fits_le; [|exact F4]. lia.
  Qed.
  Lemma segment_ok : forall dec own bytes ch bi s B, lenN (bi_type bi) = 4 -> NoDup (keys s) -> In (ds_curr s) (keys s) -> fits B s ->
    exists s', run dec own bytes ch (copy_segment bi s) = Some (Ok None, s') /\ core s' = core s /\ fits B s'.
  Proof.
    intros dec own bytes ch bi s B TY ND I F. unfold copy_segment, dcall at 1. destruct (seg_ok _ _ _ _ _ s B (works_header bi TY) ND I F) as (b & s1 & E & C & F1). rewrite E.
    cbn [SpecTree.run]. unfold dcall. assert (CU : ds_curr s1 = ds_curr s) by (unfold core in C; congruence).
    destruct (seg_ok _ _ _ _ (ds_curr s1) s1 B (works_write bytes)) as (u & s2 & E2 & C2 & F2).
    - now rewrite (core_keys _ _ C).
    - now rewrite CU, (core_keys _ _ C).
    - exact F1.
    - rewrite E2. cbn [SpecTree.run]. exists s2. split; [reflexivity|]. split; [now rewrite C2|exact F2].
  Qed.
End Loops.

(** ** The boxes *)
Section Boxes.
  Variable order : N -> list N -> list N.
  Hypothesis order_ok : forall k l, Permutation (order k l) l.
  Variable bits_per_second : N -> seconds -> N.
  Variable data : list byte.
  Hypothesis data_small : lenN data < 2 ^ 62.
  Variable L : N.
  Hypothesis L_small : L < 2 ^ 63.
  Variable K : list N.
  Hypothesis K_nodup : NoDup K.
  Local Notation handler := (divide_handler order bits_per_second data).
  Local Notation in_moov := [bt "moov"].

  (** the track of the last moof box has a segment *)
  Record ready (s : dst) : Prop := mkready
    { r_keys : keys s = K; r_stop : ds_stop s = Ok tt;
      r_curr : Forall (fun x => fst x = ds_curr s -> snd x <> []) (map (fun t => (d_id t, d_segments t)) (ds_tracks s)) }.
  Lemma ready_core : forall s s', core s' = core s -> ready s -> ready s'.
  Proof.
    intros s s' E [R1 R2 R3]. pose proof (core_keys _ _ E) as E0. unfold core in E. injection E as E1 E2 E3. constructor.
    - now rewrite E0.
    - now rewrite E3.
    - now rewrite E1, E2.
  Qed.
  Lemma ready_nodup : forall s, ready s -> NoDup (keys s).
  Proof. intros s R. now rewrite (r_keys _ R). Qed.
  Lemma found_in : forall id s t, find_track id s = Some t -> In t (ds_tracks s) /\ d_id t = id.
  Proof. intros id s t F. apply find_some in F. destruct F as [F1 F2]. apply N.eqb_eq in F2. auto. Qed.

  Definition cost (b : box) : N := lenN K * (5 * box_size b).
  Lemma cost_payload : forall b, lenN (box_type b) = 4 -> lenN K * (32 + lenN (payload b)) <= cost b.
  Proof. intros b H. unfold cost. apply N.mul_le_mono_l. rewrite box_size_eq by exact H. pose proof (hsize_8 (box_form b)). lia. Qed.

  Definition one_tkhd (e : entry) : Prop := one_at data e ["tkhd"] /\ Forall (decodes data) (at_paths data e [["tkhd"]]).
  Definition whole_moof (e : entry) : Prop :=
    searchable data fragment_places e /\
    one_at data e ["traf"; "tfhd"] /\ has data e ["traf"; "trun"] = true /\ Forall (decodes data) (at_paths data e fragment_places).
  Lemma type_4 : forall e, stands data e -> lenN (bi_type (e_info e)) = 4 /\ lenN (box_type (e_box e)) = 4.
  Proof.
    intros e ST. destruct (st_placed _ _ ST) as (pre & post & last & (_ & W & _) & EI). rewrite EI. apply wf_type in W. split; exact W.
  Qed.
  Lemma view_one : forall e p bs, map view bs = map (view_entry data) (at_paths data e [p]) -> one_at data e p -> exists x y z, bs = [(x, (y, z))].
  Proof.
    intros e p bs V (x & E). rewrite E in V. destruct bs as [|[a [b c]] [|q r]]; try discriminate V. eauto.
  Qed.

  Lemma init_step_ok : forall dec own ch e path s B, stands data e -> is_one_of init_types e = true -> is_type "moov" e = false ->
    (is_type "trak" e = true -> one_tkhd e) -> ready s -> fits B s -> B + cost (e_box e) <= L ->
    exists ci s', run dec own (payload (e_box e)) ch (handler (e_info e) path tt s) = Some (Ok (Some ci), s') /\ core s' = core s /\ fits (B + cost (e_box e)) s'.
  Proof.
    intros dec own ch e path s B ST IT NM TK R F LE. destruct (type_4 e ST) as [T1 T2]. pose proof (cost_payload _ T2) as CP.
    assert (FIN : forall mine, exists ci s', run dec own (payload (e_box e)) ch (init_box order (e_info e) mine s) = Some (Ok (Some ci), s') /\ core s' = core s /\ fits (B + cost (e_box e)) s').
    { intros mine. destruct (init_box_ok order order_ok L L_small dec own (payload (e_box e)) ch (e_info e) mine s B T1 NM (ready_nodup _ R) F) as (ci & s' & X & C & F').
      - rewrite (r_keys _ R). lia.
      - exists ci, s'. split; [exact X|]. split; [exact C|]. rewrite (r_keys _ R) in F'. eapply fits_le; [|exact F']. lia. }
    unfold divide_handler. change (is (e_info e) _) with (is_one_of init_types e) at 1. rewrite IT.
    change (is (e_info e) ["trak"]) with (is_type "trak" e || false)%bool. rewrite orb_false_r.
    destruct (is_type "trak" e) eqn:TR; [|apply FIN]. destruct (TK eq_refl) as [O D].
    change [bt "tkhd"] with (map bt ["tkhd"]).
    edestruct (dextract_ok data data_small dec own (payload (e_box e)) ch e ["tkhd"] s) as (bs & V & X);
      [exact (st_placed _ _ ST)|exact (st_plain _ _ ST)|discriminate|exact (st_trak _ _ ST TR)|exact D|]. rewrite X.
    destruct (view_one _ _ _ V O) as (x & y & z & ->). apply FIN.
  Qed.
  Lemma init_not : forall e t, is_one_of init_types e = false -> In t init_types -> is_type t e = false.
  Proof.
    intros e t IT I. destruct (is_type t e) eqn:E; [|reflexivity]. assert (X : is_one_of init_types e = true); [|congruence].
    apply existsb_exists. eauto.
  Qed.
  Lemma seg_box_ok : forall dec own ch e s B, stands data e -> ready s -> In (ds_curr s) K -> fits B s ->
    exists s', run dec own (payload (e_box e)) ch (copy_segment (e_info e) s) = Some (Ok None, s') /\ ready s' /\ fits B s'.
  Proof.
    intros dec own ch e s B ST R I F. destruct (type_4 e ST) as [T1 _].
    destruct (segment_ok dec own (payload (e_box e)) ch (e_info e) s B T1 (ready_nodup _ R)) as (s' & X & C & F'); [now rewrite (r_keys _ R)|exact F|].
    exists s'. split; [exact X|]. split; [exact (ready_core _ _ C R)|exact F'].
  Qed.
  Lemma other_step_ok : forall dec own ch e path s B, stands data e -> is_one_of init_types e = false -> is_one_of ["moof"; "mdat"; "mfra"] e = true ->
    (is_type "moof" e = true -> whole_moof e) -> ready s -> fits B s ->
    exists s', run dec own (payload (e_box e)) ch (handler (e_info e) path tt s) = Some (Ok None, s') /\ ready s' /\ fits B s'.
  Proof.
    intros dec own ch e path s B ST IT OT MF R F.
    unfold divide_handler. change (is (e_info e) _) with (is_one_of init_types e) at 1. rewrite IT.
    change (is (e_info e) ["moof"]) with (is_type "moof" e || false)%bool. change (is (e_info e) ["mdat"]) with (is_type "mdat" e || false)%bool.
    change (is (e_info e) ["mfra"]) with (is_type "mfra" e || false)%bool. unfold is_one_of in OT. cbn [existsb] in OT. rewrite !orb_false_r in *.
    destruct (is_type "moof" e).
    - destruct (MF eq_refl) as (SE & O & HT & D). change [bt "traf"; bt "tfhd"] with (map bt ["traf"; "tfhd"]).
      edestruct (dextract_ok data data_small dec own (payload (e_box e)) ch e ["traf"; "tfhd"] s) as (bs & V & X);
        [exact (st_placed _ _ ST)|exact (st_plain _ _ ST)|discriminate| | |].
      { refine (searchable_incl _ _ _ _ _ SE). intros x [<-|[]]. now left. }
      { refine (places_sub data e fragment_places _ _ D). now left. }
      rewrite X. clear X. destruct (view_one _ _ _ V O) as (x & y & z & ->). cbv zeta.
      set (s1 := set_curr (uint_of "TrackID" z) s).
      destruct (find_track (ds_curr s1) s1) as [t|] eqn:FT.
      2: { exists s1. split; [reflexivity|]. split; [|exact F]. destruct R as [R1 R2 R3]. constructor; [exact R1|exact R2|].
           apply Forall_forall. intros p Hp Ep. exfalso. apply in_map_iff in Hp. destruct Hp as (u & <- & Hu). cbn [fst] in Ep.
           unfold find_track in FT. apply (find_none _ _ FT) in Hu. now rewrite Ep, N.eqb_refl in Hu. }
      apply found_in in FT. destruct FT as [I1 I2].
      change [bt "traf"; bt "trun"] with (map bt ["traf"; "trun"]).
      edestruct (dextract_ok data data_small dec own (payload (e_box e)) ch e ["traf"; "trun"] s1) as (bs & V2 & X);
        [exact (st_placed _ _ ST)|exact (st_plain _ _ ST)|discriminate| | |].
      { refine (searchable_incl _ _ _ _ _ SE). intros w [<-|[]]. now (right; left). }
      { refine (places_sub data e fragment_places _ _ D). now (right; left). }
      rewrite X. clear X. unfold has in HT.
      destruct (at_paths data e [["traf"; "trun"]]) as [|tr trs]; [discriminate HT|]. destruct bs as [|[b1 [b2 b3]] bs]; [discriminate V2|].
      set (dur := trun_duration _ b3). assert (R' : ready (next_segment t dur s1)).
      { destruct R as [R1 R2 R3]. unfold next_segment. constructor.
        - unfold keys. cbn [set_track ds_tracks set_file d_id]. rewrite map_map. rewrite <- R1. unfold keys. apply map_ext_in. intros u _.
          destruct (N.eqb_spec (d_id u) (d_id t)) as [->|_]; reflexivity.
        - exact R2.
        - apply Forall_forall. intros p Hp Ep. apply in_map_iff in Hp. destruct Hp as (u & <- & Hu). cbn [fst snd] in *.
          cbn [set_track ds_tracks set_file d_id ds_curr] in Hu, Ep. apply in_map_iff in Hu. destruct Hu as (w & <- & Hw).
          destruct (N.eqb_spec (d_id w) (d_id t)) as [_|NE].
          + cbn [d_segments]. destruct (d_segments t); discriminate.
          + exfalso. apply NE. rewrite I2. exact Ep. }
      apply seg_box_ok; [exact ST|exact R'| |].
      + change (ds_curr (next_segment t dur s1)) with (ds_curr s1). rewrite <- I2, <- (r_keys _ R). apply in_map. exact I1.
      + destruct F as [F1 F2]. split.
        * intros k. match goal with |- lenN (content _ (next_segment t dur s1)) <= _ =>
            change (lenN (content (Of k Init) (set_file (Of (d_type t) (Seg (lenN (d_segments t)))) [] s1)) <= B) end.
          rewrite content_set. replace (fpath_eqb (Of (d_type t) (Seg (lenN (d_segments t)))) (Of k Init)) with false; [exact (F1 k)|].
          cbn. now destruct (d_type t), k.
        * intros u Hu. unfold next_segment in Hu. cbn [set_track ds_tracks set_file d_id] in Hu. apply in_map_iff in Hu. destruct Hu as (w & <- & Hw).
          destruct (d_id w =? d_id t); [|exact (F2 w Hw)]. cbn [d_ipos]. exact (F2 t I1).
    - destruct (is_type "mdat" e).
      + destruct (find_track (ds_curr s) s) as [t|] eqn:FT; [|exists s; auto]. apply found_in in FT. destruct FT as [I1 I2].
        assert (SG : d_segments t <> []).
        { pose proof (r_curr _ R) as Q. rewrite Forall_forall in Q. apply (Q (d_id t, d_segments t)); [|exact I2].
          exact (in_map (fun t => (d_id t, d_segments t)) _ _ I1). }
        destruct (rev (d_segments t)) as [|d ds] eqn:RV.
        { exfalso. apply SG. rewrite <- (rev_involutive (d_segments t)), RV. reflexivity. }
        cbv zeta. set (bw := bits_per_second _ d). destruct (d_bandwidth t <? bw).
        * assert (C : core (set_track (set_bandwidth bw t) s) = core s) by (apply (set_track_core s t); [now apply ready_nodup|exact I1|reflexivity|reflexivity]).
          apply seg_box_ok; [exact ST|exact (ready_core _ _ C R)| |].
          -- change (ds_curr (set_track (set_bandwidth bw t) s)) with (ds_curr s). rewrite <- I2, <- (r_keys _ R). now apply in_map.
          -- destruct F as [F1 F2]. split; [exact F1|]. intros u Hu. cbn [set_track ds_tracks] in Hu. apply in_map_iff in Hu. destruct Hu as (w & <- & Hw).
             destruct (d_id w =? d_id (set_bandwidth bw t)); [exact (F2 t I1)|exact (F2 w Hw)].
        * apply seg_box_ok; [exact ST|exact R| |exact F]. rewrite <- I2, <- (r_keys _ R). now apply in_map.
      + cbn [orb] in OT. rewrite OT. exists s. auto.
  Qed.

  (** *** All of them *)
  Record able (e : entry) : Prop := mkable
    { ab_good : good data e;
      ab_top : List.length (e_path e) = 1%nat -> is_one_of (init_types ++ ["moof"; "mdat"; "mfra"]) e = true;
      ab_kid : removelast (e_path e) = in_moov -> is_one_of init_types e = true;
      ab_slack : is_type "moov" e = true -> List.length (e_path e) = 1%nat -> box_slack (e_box e) = [];
      ab_trak : is_type "trak" e = true -> List.length (e_path e) = 1%nat \/ e_path e = [bt "moov"; bt "trak"] -> one_tkhd e;
      ab_moof : is_type "moof" e = true -> List.length (e_path e) = 1%nat -> whole_moof e }.
  Definition costs (l : list box) : N := lenN K * (5 * lenN (flat_map box_bytes l)).
  Lemma costs_cons : forall b l, costs (b :: l) = cost b + costs l.
  Proof. intros. unfold costs, cost, box_size. cbn [flat_map]. rewrite lenN_app. ring. Qed.
  Lemma kids_ok : forall kids post qt last, list_wf last kids -> (last = true -> post = []) ->
    forall pre ks s B, data = pre ++ flat_map box_bytes kids ++ post ->
    Forall able (list_kids data ctx0 in_moov qt ks (lenN pre) kids) -> ready s -> fits B s -> B + costs kids <= L ->
    exists vals s', walk_kids data ctx0 handler [] in_moov qt tt ks (lenN pre) kids s = Some (Ok vals, s') /\ Forall (fun v => v <> None) vals /\
      core s' = core s /\ fits (B + costs kids) s'.
  Proof.
    intros kids post qt. induction kids as [|[f t own kk sl] r IH]; intros last HW HL pre ks s B HD A R F LE.
    - exists [], s. split; [reflexivity|]. split; [constructor|]. split; [reflexivity|]. eapply fits_le; [|exact F]. lia.
    - cbn [list_kids flat_map] in *. rewrite costs_cons in *. apply Forall_app in A. destruct A as [A1 A2]. apply (head_good order order_ok bits_per_second data data_small) in A1.
      pose proof (ab_good _ A1) as GD. destruct (kid_told _ _ _ _ _ GD) as ([qt' ks'] & TL).
      set (b := Box f t own kk sl) in *.
      change (walk_kids data ctx0 handler [] in_moov qt tt ks (lenN pre) (b :: r) s) with
        (match walk_box data ctx0 handler in_moov qt ks (lenN pre) b tt s with
         | Some (Ok (v, (_, keys1)), s1) =>
             match walk_kids data ctx0 handler [] in_moov qt tt keys1 (lenN pre + box_size b) r s1 with
             | Some (Ok vs, s2) => Some (Ok (v :: vs), s2)
             | x => x
             end
         | Some (Err e, s1) => Some (Err e, s1)
         | _ => None
         end).
      pose proof (walk_head order bits_per_second data in_moov qt ks (lenN pre) f t own kk sl s) as WH. cbv zeta in WH. fold b in WH. rewrite TL in WH.
      destruct (head_box data in_moov qt ks (lenN pre) b) as (HB & HP & HT). rewrite <- HT, TL in A2. cbn [snd] in A2.
      set (e := head data in_moov qt ks (lenN pre) b) in *. rewrite WH. clear WH.
      apply list_wf_cons in HW. destruct HW as [W1 W3].
      assert (A : TreeProofs.at_place data pre (flat_map box_bytes r ++ post) (last && match r with [] => true | _ => false end) b).
      { split; [|split].
        - rewrite HD, <- app_assoc. reflexivity.
        - exact W1.
        - intros Z. apply andb_prop in Z. destruct Z as [Z1 Z2]. destruct r; [|discriminate]. cbn. auto. }
      assert (ST : stands data e) by (apply (head_stands data in_moov qt ks pre _ _ b (or_intror eq_refl) A GD)).
      assert (NM : is_type "moov" e = false) by (unfold e; rewrite head_type; exact (kid_not_moov _ _ _ _ _ GD)).
      assert (IT : is_one_of init_types e = true) by (apply (ab_kid _ A1); rewrite HP; apply removelast_last).
      edestruct (init_step_ok (decoded data (bi_ctx (e_info e)) (lenN pre) b) (lenN own)
        (fun q s => walk_kids data ctx0 handler sl (in_moov ++ [t]) qt' q ks' (lenN pre + hsize f + lenN own) kk s)
        e (in_moov ++ [t]) s B ST IT NM) as (ci & s1 & X & C1 & F1); [|exact R|exact F|rewrite HB; lia|].
      { intros TR. apply (ab_trak _ A1 TR). right. rewrite HP. unfold e in TR. rewrite head_type in TR. apply bytes_eqb_eq in TR. cbn [app]. now rewrite TR. }
      rewrite HB in X, F1. rewrite X. clear X.
      assert (OB : lenN pre + box_size b = lenN (pre ++ box_bytes b)) by (rewrite lenN_app; reflexivity).
      rewrite OB in A2 |- *.
      destruct (IH last W3 HL (pre ++ box_bytes b) ks' s1 (B + cost b) ltac:(rewrite HD, <- !app_assoc; reflexivity) A2 (ready_core _ _ C1 R) F1) as (vals & s2 & X & FV & C2 & F2); [lia|].
      rewrite X. exists (Some ci :: vals), s2. split; [reflexivity|]. split; [constructor; [discriminate|exact FV]|]. split; [now rewrite C2|].
      eapply fits_le; [|exact F2]. lia.
  Qed.
  Lemma top_ok : forall qt ks pre post last f t own kids slack s qt' ks' B, let b := Box f t own kids slack in let e := head data [] qt ks (lenN pre) b in
    TreeProofs.at_place data pre post last b -> Forall able (list_box data ctx0 [] qt ks (lenN pre) b) -> e_told e = Ok (qt', ks') ->
    ready s -> fits B s -> B + cost b <= L ->
    exists v s', run (decoded data (bi_ctx (e_info e)) (lenN pre) b) (lenN own) (payload b)
      (fun q s => walk_kids data ctx0 handler slack ([] ++ [t]) qt' q ks' (lenN pre + hsize f + lenN own) kids s)
      (handler (e_info e) ([] ++ [t]) tt s) = Some (Ok v, s') /\ ready s' /\ fits (B + cost b) s'.
  Proof.
    intros qt ks pre post last f t own kids slack s qt' ks' B b e A AB TL R F LE.
    pose proof (head_good order order_ok bits_per_second data data_small _ _ _ _ _ _ AB) as A1. fold e in A1. pose proof (ab_good _ A1) as GD.
    assert (ST : stands data e) by exact (head_stands data [] qt ks pre post last b (or_introl eq_refl) A GD).
    destruct (head_box data [] qt ks (lenN pre) b) as (HB & HP & HT). fold e in HB, HP, HT.
    assert (LP : List.length (e_path e) = 1%nat) by (rewrite HP; reflexivity).
    destruct (is_type "moov" e) eqn:M.
    - pose proof M as M2. unfold e in M2. rewrite head_type in M2. cbn [box_type b] in M2. apply bytes_eqb_eq in M2.
      destruct (type_4 e ST) as [T1 T2].
      unfold divide_handler. change (is (e_info e) _) with (is_one_of init_types e) at 1.
      assert (IT : is_one_of init_types e = true) by (unfold is_one_of, init_types; cbn [existsb]; now rewrite M). rewrite IT.
      assert (NT : is_type "trak" e = false).
      { unfold is_type in M |- *. apply bytes_eqb_eq in M. rewrite M. reflexivity. }
      change (is (e_info e) ["trak"]) with (is_type "trak" e || false)%bool. rewrite NT. cbn [orb].
      unfold b in M2, TL. subst t. unfold b in GD. destruct (moov_open _ _ _ _ _ _ _ _ GD) as (d & x & D). fold b in D. fold e in D. rewrite D.
      rewrite HT in TL. unfold b in TL. rewrite moov_enter in TL. injection TL as <- <-.
      destruct (moov_list data qt ks (lenN pre) f own kids slack) as [LL IS]. fold b in LL, IS. rewrite LL in AB. apply Forall_inv_tail in AB.
      assert (SL : slack = []). { pose proof (ab_slack _ A1 M LP) as Q. rewrite HB in Q. exact Q. }
      destruct A as (HD & HW & HL).
      assert (PRE : lenN pre + hsize f + lenN own = lenN (pre ++ header f (bt "moov") (lenN (payload b)) ++ own)).
      { rewrite !lenN_app, lenN_header by reflexivity. lia. }
      rewrite PRE in AB |- *. unfold b in HW. apply box_wf_eq in HW. destruct HW as (_ & _ & _ & _ & WK).
      assert (CO : lenN K * 32 + costs kids <= cost b).
      { unfold costs, cost. rewrite <- N.mul_add_distr_l. apply N.mul_le_mono_l. rewrite box_size_eq by reflexivity. unfold b. cbn [box_form payload]. rewrite !lenN_app.
        pose proof (hsize_8 f). lia. }
      destruct (moov_box_ok order order_ok L L_small d x (lenN own) (payload b)
        (fun q s => walk_kids data ctx0 handler slack ([] ++ [bt "moov"]) qt q ks (lenN (pre ++ header f (bt "moov") (lenN (payload b)) ++ own)) kids s)
        (e_info e) (fun _ => true) s (costs kids) B T1 M (fun _ => eq_refl) (ready_nodup _ R) F) as (ci & s' & X & C & F').
      + rewrite (r_keys _ R). lia.
      + rewrite (r_keys _ R). intros s1 C1 F1. subst slack.
        edestruct (kids_ok kids post qt _ WK) with (s := s1) as (vals & s2 & X & FV & C2 & F2); [| |exact AB|exact (ready_core _ _ C1 R)|exact F1|lia|].
        { intros Z. apply andb_prop in Z. exact (HL (proj1 Z)). }
        { rewrite HD. unfold b. rewrite box_bytes_eq. cbn [box_form box_type payload]. rewrite <- !app_assoc. reflexivity. }
        exists vals, s2. split; [exact X|]. split; [exact C2|]. split; [exact F2|exact FV].
      + exists (Some ci), s'. split; [exact X|]. split; [exact (ready_core _ _ C R)|]. rewrite (r_keys _ R) in F'. eapply fits_le; [|exact F']. lia.
    - destruct (is_one_of init_types e) eqn:IT.
      + edestruct (init_step_ok (decoded data (bi_ctx (e_info e)) (lenN pre) b) (lenN own)
          (fun q s => walk_kids data ctx0 handler slack ([] ++ [t]) qt' q ks' (lenN pre + hsize f + lenN own) kids s)
          e ([] ++ [t]) s B ST IT M) as (ci & s1 & X & C1 & F1); [|exact R|exact F|rewrite HB; exact LE|].
        { intros TR. apply (ab_trak _ A1 TR). left. exact LP. }
        rewrite HB in X, F1. exists (Some ci), s1. split; [exact X|]. split; [exact (ready_core _ _ C1 R)|exact F1].
      + edestruct (other_step_ok (decoded data (bi_ctx (e_info e)) (lenN pre) b) (lenN own)
          (fun q s => walk_kids data ctx0 handler slack ([] ++ [t]) qt' q ks' (lenN pre + hsize f + lenN own) kids s)
          e ([] ++ [t]) s B ST IT) as (s1 & X & R1 & F1); [| |exact R|exact F|].
        { pose proof (ab_top _ A1 LP) as Q. unfold is_one_of in Q. rewrite existsb_app in Q. unfold is_one_of in IT. rewrite IT in Q. exact Q. }
        { intros MF. apply (ab_moof _ A1 MF LP). }
        rewrite HB in X. exists None, s1. split; [exact X|]. split; [exact R1|]. eapply fits_le; [|exact F1]. lia.
  Qed.
  Lemma file_ok : forall l qt ks pre s B, data = pre ++ flat_map box_bytes l -> list_wf true l ->
    Forall able (list_file data ctx0 qt ks (lenN pre) l) -> ready s -> fits B s -> B + costs l <= L ->
    exists vs s', walk_file data ctx0 handler qt ks (lenN pre) l tt s = Some (Ok vs, s') /\ ready s' /\ fits (B + costs l) s'.
  Proof.
    induction l as [|b r IH]; intros qt ks pre s B HD HW AB R F LE.
    - exists [], s. split; [reflexivity|]. split; [exact R|]. eapply fits_le; [|exact F]. lia.
    - rewrite costs_cons in *. cbn [list_file walk_file flat_map] in *. apply list_wf_cons in HW. destruct HW as [W1 W2].
      destruct (match enter data ctx0 [] qt ks (lenN pre) b with Ok x => x | _ => (qt, ks) end) as [qt2 keys2] eqn:EN.
      apply Forall_app in AB. destruct AB as [F1 F2]. pose proof (ab_good _ (head_good order order_ok bits_per_second data data_small _ _ _ _ _ _ F1)) as GD.
      destruct (top_told _ _ _ _ _ GD) as ([qt' ks'] & TL). destruct (head_box data [] qt ks (lenN pre) b) as (_ & _ & HT).
      pose proof TL as TL2. rewrite HT in TL2. rewrite TL2 in EN. injection EN as <- <-.
      assert (A : TreeProofs.at_place data pre (flat_map box_bytes r) (true && match r with [] => true | _ => false end) b).
      { split; [exact HD|]. split; [exact W1|]. intros Z. destruct r; [reflexivity|discriminate]. }
      destruct b as [f t own kids slack].
      pose proof (walk_head order bits_per_second data [] qt ks (lenN pre) f t own kids slack s) as WH. cbv zeta in WH. rewrite TL in WH. rewrite WH. clear WH.
      destruct (top_ok qt ks pre _ _ f t own kids slack s qt' ks' B A F1 TL R F) as (v & s1 & X & R1 & G1); [lia|]. rewrite X. clear X.
      set (b := Box f t own kids slack) in *.
      assert (OB : lenN pre + box_size b = lenN (pre ++ box_bytes b)) by (rewrite lenN_app; reflexivity).
      rewrite OB in F2 |- *.
      destruct (IH qt' ks' (pre ++ box_bytes b) s1 (B + cost b) ltac:(rewrite HD, <- app_assoc; reflexivity) W2 F2 R1 G1) as (vs & s2 & X & R2 & G2); [lia|].
      rewrite X. exists (v :: vs), s2. split; [reflexivity|]. split; [exact R2|]. eapply fits_le; [|exact G2]. lia.
  Qed.
End Boxes.
