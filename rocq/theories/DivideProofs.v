(** The state of the divide command, and what its loops do to it. *)
From Coq Require Import Permutation.
From Verif Require Import Base BaseProofs Schema Structs Registry Unmarshal BoxInfo ReadTree Extract Accessors Probe GoText Writer ProbeTool Divide.
From Verif Require Import HeaderProofs SpecTree TreeProofs SpecWriter WriterProofs EditProofs.
Local Open Scope string_scope.
Local Open Scope list_scope.
Local Open Scope N_scope.
Local Open Scope monad_scope.

Lemma ttype_eqb_eq : forall a b, ttype_eqb a b = true <-> a = b.
Proof. intros [] []; cbn; split; (reflexivity || discriminate). Qed.
Lemma ttype_eqb_refl : forall a, ttype_eqb a a = true.
Proof. now intros []. Qed.
Lemma fname_eqb_eq : forall a b, fname_eqb a b = true <-> a = b.
Proof.
  intros [|i|] [|j|]; cbn [fname_eqb]; split; intros H; try discriminate; try reflexivity.
  - now apply N.eqb_eq in H; subst.
  - injection H as ->. apply N.eqb_refl.
Qed.
Lemma fpath_eqb_eq : forall a b, fpath_eqb a b = true <-> a = b.
Proof.
  intros [|t m] [|u n]; cbn [fpath_eqb]; split; intros H; try discriminate; try reflexivity.
  - apply andb_prop in H. destruct H as [H1 H2]. apply ttype_eqb_eq in H1. apply fname_eqb_eq in H2. now subst.
  - injection H as -> ->. rewrite ttype_eqb_refl. now apply fname_eqb_eq.
Qed.

Definition upd {A} (f : N -> A) (id : N) (v : A) : N -> A := fun x => if x =? id then v else f x.
Lemma upd_same : forall A (f : N -> A) id v, upd f id v id = v.
Proof. intros. unfold upd. now rewrite N.eqb_refl. Qed.
Lemma upd_other : forall A (f : N -> A) id v x, x <> id -> upd f id v x = f x.
Proof. intros A f id v x H. unfold upd. now apply N.eqb_neq in H; rewrite H. Qed.

Section State.
  Variable T : list dtrack.
  Hypothesis ids_nodup : NoDup (map d_id T).
  Hypothesis types_nodup : NoDup (map d_type T).
  Definition ids := map d_id T.

  (** the contents of the files of a track: its init file and its segments *)
  Definition segs := list (list byte * seconds).
  Definition file_of (i : list byte) (g : segs) (n : fname) : option (list byte) :=
    match n with
    | Init => Some i
    | Seg k => match nthN k (map fst g) with Some c => Some c | None => if k =? 0 then Some [] else None end
    | Playlist => None
    end.
  Definition row (P : N -> N) (G : N -> segs) (B : N -> N) (t : dtrack) : dtrack :=
    let id := d_id t in
    mkdt id (d_type t) (d_timescale t) (B id) (d_height t) (d_width t) (map snd (G id)) (P id)
         (lenN (G id) - 1) (lenN (last (map fst (G id)) [])).
  Record inv (s : dst) (I : N -> list byte) (P : N -> N) (G : N -> segs) (B : N -> N) (c : N) : Prop := mkinv
    { inv_stop : ds_stop s = Ok tt;
      inv_curr : ds_curr s = c;
      inv_tracks : ds_tracks s = map (row P G B) T;
      inv_files : forall p, ds_files s p =
        match p with
        | Master => None
        | Of k n => match find (fun t => ttype_eqb (d_type t) k) T with
                    | Some t => file_of (I (d_id t)) (G (d_id t)) n
                    | None => None
                    end
        end }.

  Lemma inv_ext : forall s I P G B c I' P' G' B', inv s I P G B c ->
    (forall t, In t T -> I' (d_id t) = I (d_id t) /\ P' (d_id t) = P (d_id t) /\ G' (d_id t) = G (d_id t) /\ B' (d_id t) = B (d_id t)) ->
    inv s I' P' G' B' c.
  Proof.
    intros s I P G B c I' P' G' B' [H1 H2 H3 H4] E. constructor; auto.
    - rewrite H3. apply map_ext_in. intros t Ht. destruct (E t Ht) as (_ & E2 & E3 & E4). unfold row. now rewrite E2, E3, E4.
    - intros p. rewrite H4. destruct p as [|k n]; [reflexivity|].
      destruct (find (fun t => ttype_eqb (d_type t) k) T) as [t|] eqn:F; [|reflexivity].
      apply find_some in F. destruct F as [F _]. destruct (E t F) as (E1 & _ & E3 & _). now rewrite E1, E3.
  Qed.
  Lemma inv_loops : forall s I P G B c n, inv s I P G B c ->
    inv (mkds (ds_tracks s) (ds_files s) (ds_curr s) n (ds_stop s)) I P G B c.
  Proof. intros s I P G B c n [H1 H2 H3 H4]. constructor; auto. Qed.
  Lemma inv_set_curr : forall s I P G B c id, inv s I P G B c -> inv (set_curr id s) I P G B id.
  Proof. intros s I P G B c n [H1 H2 H3 H4]. constructor; auto. Qed.

  Lemma id_inj : forall t u, In t T -> In u T -> d_id t = d_id u -> t = u.
  Proof.
    intros t u. revert ids_nodup. clear types_nodup. induction T as [|x r IH]; intros ND Ht Hu E; [destruct Ht|].
    cbn [map] in ND. apply NoDup_cons_iff in ND. destruct ND as [N1 N2]. destruct Ht as [->|Ht], Hu as [->|Hu]; auto.
    - destruct N1. rewrite E. now apply in_map.
    - destruct N1. rewrite <- E. now apply in_map.
  Qed.
  Lemma type_inj : forall t u, In t T -> In u T -> d_type t = d_type u -> t = u.
  Proof.
    intros t u. revert types_nodup. clear ids_nodup. induction T as [|x r IH]; intros ND Ht Hu E; [destruct Ht|].
    cbn [map] in ND. apply NoDup_cons_iff in ND. destruct ND as [N1 N2]. destruct Ht as [->|Ht], Hu as [->|Hu]; auto.
    - destruct N1. rewrite E. now apply in_map.
    - destruct N1. rewrite <- E. now apply in_map.
  Qed.
  Lemma find_type : forall t, In t T -> find (fun u => ttype_eqb (d_type u) (d_type t)) T = Some t.
  Proof.
    intros t Ht. destruct (find (fun u => ttype_eqb (d_type u) (d_type t)) T) as [u|] eqn:F.
    - apply find_some in F. destruct F as [F1 F2]. apply ttype_eqb_eq in F2. f_equal. now apply type_inj.
    - apply (find_none _ _ F) in Ht. now rewrite ttype_eqb_refl in Ht.
  Qed.
  Lemma inv_find : forall s I P G B c id, inv s I P G B c ->
    find_track id s = option_map (row P G B) (find (fun t => d_id t =? id) T).
  Proof.
    intros s I P G B c id [_ _ H _]. unfold find_track. rewrite H. clear. induction T as [|t r IH]; [reflexivity|].
    cbn [map find]. change (d_id (row P G B t)) with (d_id t). destruct (d_id t =? id); [reflexivity|exact IH].
  Qed.
  Lemma find_id : forall t, In t T -> find (fun u => d_id u =? d_id t) T = Some t.
  Proof.
    intros t Ht. destruct (find (fun u => d_id u =? d_id t) T) as [u|] eqn:F.
    - apply find_some in F. destruct F as [F1 F2]. apply N.eqb_eq in F2. f_equal. now apply id_inj.
    - apply (find_none _ _ F) in Ht. now rewrite N.eqb_refl in Ht.
  Qed.
  Lemma inv_content : forall s I P G B c t n, inv s I P G B c -> In t T ->
    content (Of (d_type t) n) s = match file_of (I (d_id t)) (G (d_id t)) n with Some x => x | None => [] end.
  Proof. intros s I P G B c t n H Ht. unfold content. rewrite (inv_files _ _ _ _ _ _ H), find_type by exact Ht. reflexivity. Qed.

  (** a track changes, and one of its files *)
  Lemma inv_set : forall s I P G B c t x n i g p b, inv s I P G B c -> In t T ->
    (forall m, file_of i g m = if fname_eqb n m then Some x else file_of (I (d_id t)) (G (d_id t)) m) ->
    inv (set_track (row (upd P (d_id t) p) (upd G (d_id t) g) (upd B (d_id t) b) t) (set_file (Of (d_type t) n) x s))
        (upd I (d_id t) i) (upd P (d_id t) p) (upd G (d_id t) g) (upd B (d_id t) b) c.
  Proof.
    intros s I P G B c t x n i g p b [H1 H2 H3 H4] Ht F. constructor; auto.
    - cbn [set_track set_file ds_tracks]. rewrite H3, map_map. apply map_ext_in. intros u Hu.
      change (d_id (row P G B u)) with (d_id u).
      change (d_id (row (upd P (d_id t) p) (upd G (d_id t) g) (upd B (d_id t) b) t)) with (d_id t).
      destruct (N.eqb_spec (d_id u) (d_id t)) as [E|E].
      + now rewrite (id_inj u t Hu Ht E).
      + unfold row. now rewrite !upd_other by exact E.
    - intros q. cbn [set_track set_file ds_files]. rewrite H4. destruct q as [|k m]; [reflexivity|]. cbn [fpath_eqb].
      destruct (ttype_eqb (d_type t) k) eqn:E.
      + apply ttype_eqb_eq in E. subst k. rewrite find_type by exact Ht. cbn [andb]. rewrite !upd_same, F. reflexivity.
      + cbn [andb]. destruct (find (fun t => ttype_eqb (d_type t) k) T) as [u|] eqn:Q; [|reflexivity].
        apply find_some in Q. destruct Q as [Q1 Q2]. apply ttype_eqb_eq in Q2. subst k.
        assert (D : d_id u <> d_id t).
        { intros Z. apply (id_inj u t Q1 Ht) in Z. subst u. now rewrite ttype_eqb_refl in E. }
        now rewrite !upd_other by exact D.
  Qed.
  Lemma upd_id : forall A (f : N -> A) id x, upd f id (f id) x = f x.
  Proof. intros. unfold upd. destruct (N.eqb_spec x id); [now subst|reflexivity]. Qed.

  Lemma init_op_inv : forall A (m : M ofile A) s I P G B c t r f, inv s I P G B c -> In t T ->
    m (mkof (I (d_id t)) (P (d_id t)) []) = (r, f) ->
    exists s', init_op (d_id t) m s = (r, s') /\ inv s' (upd I (d_id t) (o_data f)) (upd P (d_id t) (o_pos f)) G B c.
  Proof.
    intros A m s I P G B c t r f H Ht E. unfold init_op. rewrite (inv_find _ _ _ _ _ _ _ H), find_id by exact Ht. cbn [option_map].
    change (d_type (row P G B t)) with (d_type t). rewrite (inv_content _ _ _ _ _ _ t Init H Ht). cbn [file_of].
    change (d_ipos (row P G B t)) with (P (d_id t)). rewrite E. eexists. split; [reflexivity|].
    pose proof (inv_set s I P G B c t (o_data f) Init (o_data f) (G (d_id t)) (o_pos f) (B (d_id t)) H Ht) as Q.
    assert (X : set_ipos (o_pos f) (row P G B t) =
                row (upd P (d_id t) (o_pos f)) (upd G (d_id t) (G (d_id t))) (upd B (d_id t) (B (d_id t))) t).
    { unfold row, set_ipos. cbn [d_id d_type d_timescale d_bandwidth d_height d_width d_segments d_sname d_spos].
      rewrite !upd_same. reflexivity. }
    rewrite X. eapply inv_ext; [apply Q|].
    - intros [|k|]; reflexivity.
    - intros u Hu. now rewrite !upd_id.
  Qed.
  Lemma seg_op_inv : forall A (m : M ofile A) s I P G B c t g x d r f, inv s I P G B c -> In t T ->
    G (d_id t) = g ++ [(x, d)] -> m (mkof x (lenN x) []) = (r, f) -> o_pos f = lenN (o_data f) ->
    exists s', seg_op (d_id t) m s = (r, s') /\ inv s' I P (upd G (d_id t) (g ++ [(o_data f, d)])) B c.
  Proof.
    intros A m s I P G B c t g x d r f H Ht EG E EP. unfold seg_op. rewrite (inv_find _ _ _ _ _ _ _ H), find_id by exact Ht. cbn [option_map].
    change (d_type (row P G B t)) with (d_type t). change (d_sname (row P G B t)) with (lenN (G (d_id t)) - 1).
    change (d_spos (row P G B t)) with (lenN (last (map fst (G (d_id t))) [])).
    assert (LN : lenN (g ++ [(x, d)]) - 1 = lenN g).
    { unfold lenN. rewrite app_length. cbn [List.length]. lia. }
    assert (NTH : forall y, nthN (lenN g) (map fst (g ++ [(y, d)])) = Some y).
    { intros y. rewrite map_app, nthN_nth_error. unfold lenN. rewrite Nnat.Nat2N.id, nth_error_app2 by (rewrite map_length; lia).
      now rewrite map_length, Nat.sub_diag. }
    rewrite EG, LN, map_app. cbn [map fst]. rewrite last_last. rewrite (inv_content _ _ _ _ _ _ t (Seg (lenN g)) H Ht). cbn [file_of]. rewrite EG, NTH.
    rewrite E. eexists. split; [reflexivity|].
    pose proof (inv_set s I P G B c t (o_data f) (Seg (lenN g)) (I (d_id t)) (g ++ [(o_data f, d)]) (P (d_id t)) (B (d_id t)) H Ht) as Q.
    assert (X : set_spos (o_pos f) (row P G B t) =
                row (upd P (d_id t) (P (d_id t))) (upd G (d_id t) (g ++ [(o_data f, d)])) (upd B (d_id t) (B (d_id t))) t).
    { unfold row, set_spos. cbn [d_id d_type d_timescale d_bandwidth d_height d_width d_segments d_sname d_ipos].
      rewrite !upd_same, EG, !map_app. cbn [map fst snd]. rewrite last_last, EP. f_equal. unfold lenN. rewrite !app_length. reflexivity. }
    rewrite X. eapply inv_ext; [apply Q|].
    - intros [|k|]; cbn [file_of fname_eqb]; try reflexivity. rewrite EG. destruct (N.eqb_spec (lenN g) k) as [<-|NE]; [now rewrite NTH|].
      rewrite !nthN_nth_error, !map_app. cbn [map fst].
      destruct (Nat.lt_ge_cases (N.to_nat k) (List.length (map fst g))) as [L|L].
      + now rewrite !nth_error_app1 by exact L.
      + assert (L2 : (N.to_nat k - List.length (map fst g) <> 0)%nat) by (rewrite map_length in *; unfold lenN in NE; lia).
        rewrite !nth_error_app2 by exact L. destruct (N.to_nat k - List.length (map fst g))%nat as [|j]; [contradiction|].
        cbn [nth_error]. now destruct j.
    - intros u Hu. now rewrite !upd_id.
  Qed.
  Lemma next_segment_inv : forall s I P G B c t d, inv s I P G B c -> In t T ->
    inv (next_segment (row P G B t) d s) I P (upd G (d_id t) (G (d_id t) ++ [([], mkseconds d (d_timescale t))])) B c.
  Proof.
    intros s I P G B c t d H Ht. unfold next_segment. cbv zeta.
    change (d_segments (row P G B t)) with (map snd (G (d_id t))). change (d_timescale (row P G B t)) with (d_timescale t).
    change (d_type (row P G B t)) with (d_type t).
    set (g := G (d_id t)) in *. set (z := mkseconds d (d_timescale t)).
    assert (L : lenN (map snd g) = lenN g) by (unfold lenN; now rewrite map_length). rewrite L.
    pose proof (inv_set s I P G B c t [] (Seg (lenN g)) (I (d_id t)) (g ++ [([], z)]) (P (d_id t)) (B (d_id t)) H Ht) as Q.
    assert (X : mkdt (d_id (row P G B t)) (d_type t) (d_timescale t) (d_bandwidth (row P G B t)) (d_height (row P G B t)) (d_width (row P G B t))
                     (map snd g ++ [z]) (d_ipos (row P G B t)) (lenN g) 0 =
                row (upd P (d_id t) (P (d_id t))) (upd G (d_id t) (g ++ [([], z)])) (upd B (d_id t) (B (d_id t))) t).
    { unfold row. cbn [d_id d_type d_timescale d_bandwidth d_height d_width d_segments d_sname d_ipos].
      rewrite !upd_same, !map_app. cbn [map fst snd]. rewrite last_last. f_equal. unfold lenN. rewrite app_length. cbn [List.length]. lia. }
    rewrite X. eapply inv_ext; [apply Q|].
    - intros [|k|]; cbn [file_of fname_eqb]; try reflexivity. fold g.
      rewrite !nthN_nth_error, map_app. cbn [map fst]. destruct (N.eqb_spec (lenN g) k) as [<-|NE].
      + unfold lenN. rewrite Nnat.Nat2N.id, nth_error_app2 by (rewrite map_length; lia). now rewrite map_length, Nat.sub_diag.
      + destruct (Nat.lt_ge_cases (N.to_nat k) (List.length (map fst g))) as [L2|L2].
        * now rewrite nth_error_app1 by exact L2.
        * assert (L3 : (N.to_nat k - List.length (map fst g) <> 0)%nat) by (rewrite map_length in *; unfold lenN in NE; lia).
          rewrite nth_error_app2 by exact L2. rewrite (proj2 (nth_error_None _ _) L2).
          destruct (N.to_nat k - List.length (map fst g))%nat as [|j]; [contradiction|]. cbn [nth_error]. now destruct j.
    - intros u Hu. now rewrite !upd_id.
  Qed.
  Lemma bandwidth_inv : forall s I P G B c t b, inv s I P G B c -> In t T ->
    inv (set_track (set_bandwidth b (row P G B t)) s) I P G (upd B (d_id t) b) c.
  Proof.
    intros s I P G B c t b [H1 H2 H3 H4] Ht. constructor; auto.
    cbn [set_track ds_tracks]. rewrite H3, map_map. apply map_ext_in. intros u Hu.
    change (d_id (set_bandwidth b (row P G B t))) with (d_id t). change (d_id (row P G B u)) with (d_id u).
    destruct (N.eqb_spec (d_id u) (d_id t)) as [E|E].
    - rewrite (id_inj u t Hu Ht E). unfold row, set_bandwidth. cbn. now rewrite upd_same.
    - unfold row. now rewrite upd_other by exact E.
  Qed.

  (** ** The loops *)
  Variable order : N -> list N -> list N.
  Hypothesis order_ok : forall k l, Permutation (order k l) l.

  Lemma visit_inv : forall s I P G B c, inv s I P G B c -> exists l s', visit order s = (l, s') /\
    inv s' I P G B c /\ NoDup l /\ (forall id, In id l <-> In id ids).
  Proof.
    intros s I P G B c H. unfold visit. eexists _, _. split; [reflexivity|].
    assert (E : map d_id (ds_tracks s) = ids).
    { rewrite (inv_tracks _ _ _ _ _ _ H), map_map. reflexivity. }
    rewrite E. split; [now apply inv_loops|]. split.
    - eapply Permutation_NoDup; [apply Permutation_sym, order_ok|exact ids_nodup].
    - intros id. split; apply Permutation_in; [|apply Permutation_sym]; apply order_ok.
  Qed.
  Lemma in_ids : forall id, In id ids -> exists t, In t T /\ d_id t = id.
  Proof. intros id H. apply in_map_iff in H. destruct H as (t & E & H). eauto. Qed.
  Lemma ids_in : forall t, In t T -> In (d_id t) ids.
  Proof. intros. now apply in_map. Qed.

  Lemma get_put : forall k id x m, get_bi k (put_bi id x m) = if id =? k then Some x else get_bi k m.
  Proof.
    induction m as [|[j y] r IH]; cbn [put_bi get_bi].
    - reflexivity.
    - destruct (N.eqb_spec j id) as [->|NE]; cbn [get_bi].
      + now destruct (id =? k).
      + rewrite IH. destruct (N.eqb_spec j k) as [->|]; [|reflexivity].
        destruct (N.eqb_spec id k) as [->|]; [contradiction|reflexivity].
  Qed.
  Definition sel (mine : N -> bool) (l : list N) (id : N) : bool := existsb (N.eqb id) l && mine id.
  Lemma sel_cons : forall mine id r k, sel mine (id :: r) k = ((k =? id) && mine k) || sel mine r k.
  Proof. intros. unfold sel. cbn [existsb]. now destruct (k =? id), (mine k), (existsb _ r). Qed.
  Lemma sel_not : forall mine r id, ~ In id r -> sel mine r id = false.
  Proof.
    intros mine r id H. unfold sel. destruct (existsb (N.eqb id) r) eqn:E; [|reflexivity].
    apply existsb_exists in E. destruct E as (x & Hx & E). apply N.eqb_eq in E. now subst.
  Qed.
  Lemma sel_in : forall mine l id, In id l -> sel mine l id = mine id.
  Proof.
    intros mine l id H. unfold sel. replace (existsb (N.eqb id) l) with true; [reflexivity|]. symmetry. apply existsb_exists.
    exists id. split; [exact H|apply N.eqb_refl].
  Qed.

  (** the information WriteBoxInfo returns *)
  Definition written (bi : boxinfo) (o : N) : boxinfo :=
    mkbi o (w64 (sub64 (bi_size bi) (bi_hsize bi) + lenN (header_bytes bi))) (lenN (header_bytes bi)) (bi_type bi) (bi_eof bi) ctx0.
  Lemma write_box_info_eq : forall bi d p, write_box_info bi (mkof d p []) =
    (Ok (written bi p), mkof (overwrite d p (header_bytes bi)) (p + lenN (header_bytes bi)) []).
  Proof. reflexivity. Qed.

  Lemma headers_loop : forall bi (mine : N -> bool) l i m s I P G B c m' s', inv s I P G B c -> NoDup l -> (forall id, In id l -> In id ids) ->
    for_each (fun _ id m => (if mine id then
        o <- init_op id o_seek_end ;;
        b <- init_op id (write_box_info bi) ;;
        ret (put_bi id (o, set_size b (bi_hsize b)) m)
      else ret m)) i l m s = (Ok m', s') ->
    inv s' (fun id => if sel mine l id then I id ++ header_bytes bi else I id)
           (fun id => if sel mine l id then lenN (I id) + lenN (header_bytes bi) else P id) G B c /\
    (forall id, get_bi id m' = if sel mine l id
                               then Some (lenN (I id), set_size (written bi (lenN (I id))) (lenN (header_bytes bi))) else get_bi id m).
  Proof.
    intros bi mine. induction l as [|id r IH]; intros i m s I P G B c m' s' H ND IN E.
    - injection E as <- <-. split; [exact H|reflexivity].
    - apply NoDup_cons_iff in ND. destruct ND as [NI ND]. cbn [for_each] in E. unfold bind at 1 in E.
      destruct (in_ids id (IN id (or_introl eq_refl))) as (t & Ht & Et).
      destruct (mine id) eqn:MI.
      + unfold bind at 1 in E. rewrite <- Et in E.
        destruct (init_op_inv _ o_seek_end s I P G B c t (Ok (lenN (I (d_id t)))) (mkof (I (d_id t)) (lenN (I (d_id t))) []) H Ht eq_refl) as (s1 & E1 & H1).
        rewrite E1 in E. cbn [o_data o_pos] in H1. unfold bind at 1 in E.
        destruct (init_op_inv _ (write_box_info bi) s1 _ _ G B c t _ _ H1 Ht (write_box_info_eq bi _ _)) as (s2 & E2 & H2).
        rewrite !upd_same in E2. rewrite E2 in E. cbn [ret] in E. rewrite !upd_same in H2. cbn [o_data o_pos] in H2. rewrite overwrite_end in H2.
        destruct (IH _ _ _ _ _ _ _ _ _ _ H2 ND (fun x Hx => IN x (or_intror Hx)) E) as [H3 G3].
        rewrite Et in *. split.
        * eapply inv_ext; [exact H3|]. intros u Hu. cbv beta. rewrite sel_cons.
          destruct (N.eqb_spec (d_id u) id) as [->|NE].
          -- rewrite MI, (sel_not mine r id NI). cbn [andb orb]. rewrite !upd_same. repeat split.
          -- cbn [andb orb]. rewrite !upd_other by exact NE. repeat split.
        * intros k. rewrite G3, sel_cons. rewrite get_put, (N.eqb_sym id k).
          destruct (N.eqb_spec k id) as [->|NE].
          -- rewrite MI, (sel_not mine r id NI). cbn [andb orb]. reflexivity.
          -- cbn [andb orb]. now rewrite !upd_other by exact NE.
      + cbn [ret] in E. destruct (IH _ _ _ _ _ _ _ _ _ _ H ND (fun x Hx => IN x (or_intror Hx)) E) as [H3 G3].
        assert (S : forall k, sel mine (id :: r) k = sel mine r k).
        { intros k. rewrite sel_cons. destruct (N.eqb_spec k id) as [->|]; [now rewrite MI|reflexivity]. }
        split; [eapply inv_ext; [exact H3|]; intros u Hu; cbv beta; rewrite S; repeat split|]. intros k. now rewrite S, G3.
  Qed.

  (** rewriting: the header is written over the one that is there *)
  Lemma rewrite_loop : forall (mine : N -> bool) l i m s I P G B c m' s' (pre body : N -> list byte) (hdr : N -> list byte) (b : N -> boxinfo),
    inv s I P G B c -> NoDup l -> (forall id, In id l -> In id ids) ->
    (forall id, In id l -> mine id = true -> I id = pre id ++ hdr id ++ body id /\ get_bi id m = Some (lenN (pre id), b id) /\
       lenN (hdr id) = lenN (header_bytes (b id))) ->
    for_each (fun _ id m => (if mine id then
        match get_bi id m with
        | Some (o, b) =>
            init_op id (o_seek o) ;;;
            b' <- init_op id (write_box_info b) ;;
            ret (put_bi id (o, b') m)
        | None => panic
        end
      else ret m)) i l m s = (Ok m', s') ->
    exists P', inv s' (fun id => if sel mine l id then pre id ++ header_bytes (b id) ++ body id else I id) P' G B c /\
    (forall id, get_bi id m' = if sel mine l id then Some (lenN (pre id), written (b id) (lenN (pre id))) else get_bi id m).
  Proof.
    intros mine. induction l as [|id r IH]; intros i m s I P G B c m' s' pre body hdr b H ND IN X E.
    - injection E as <- <-. exists P. split; [exact H|reflexivity].
    - apply NoDup_cons_iff in ND. destruct ND as [NI ND]. cbn [for_each] in E. unfold bind at 1 in E.
      destruct (in_ids id (IN id (or_introl eq_refl))) as (t & Ht & Et).
      destruct (mine id) eqn:MI.
      + destruct (X id (or_introl eq_refl) MI) as (X1 & X2 & X3). rewrite X2 in E. unfold bind at 1 in E.
        destruct (init_op id (o_seek (lenN (pre id))) s) as [rr s1] eqn:E1.
        pose proof (init_op_inv _ (o_seek (lenN (pre id))) s I P G B c t) as Q.
        unfold o_seek in E1, Q. cbn [o_data o_faults] in Q.
        destruct (lenN (pre id) <? 9223372036854775808) eqn:LT.
        2: { destruct (Q _ _ H Ht eq_refl) as (s2 & E2 & _). rewrite Et in E2. rewrite E1 in E2. injection E2 as -> _. discriminate E. }
        destruct (Q _ _ H Ht eq_refl) as (s2 & E2 & H1). rewrite Et in *. rewrite E1 in E2. injection E2 as -> ->. clear Q E1.
        cbn [o_data o_pos] in H1. unfold bind at 1 in E.
        pose proof (init_op_inv _ (write_box_info (b id)) s2 _ _ G B c t _ _ H1 Ht (write_box_info_eq (b id) _ _)) as (s3 & E3 & H3).
        rewrite Et, !upd_same in E3, H3. rewrite E3 in E. cbn [ret] in E. cbn [o_data o_pos] in H3.
        assert (OV : overwrite (I id) (lenN (pre id)) (header_bytes (b id)) = pre id ++ header_bytes (b id) ++ body id).
        { rewrite X1. rewrite overwrite_in by (rewrite !lenN_app; lia). rewrite takeN_app_exact by reflexivity. f_equal. f_equal.
          rewrite app_assoc. apply skipN_app_exact. rewrite lenN_app, X3. reflexivity. }
        rewrite !upd_same, OV in H3.
        edestruct IH with (pre := pre) (body := body) (hdr := hdr) (b := b) as (P' & H4 & G4);
          [exact H3|exact ND|intros x Hx; exact (IN x (or_intror Hx))| |exact E|].
        { intros k Hk Mk. assert (NE : k <> id) by (intros ->; contradiction).
          rewrite get_put, !upd_other by exact NE. destruct (N.eqb_spec id k) as [Z|_]; [now symmetry in Z|].
          apply X; [now right|exact Mk]. }
        exists P'. split.
        * eapply inv_ext; [exact H4|]. intros u Hu. cbv beta. rewrite sel_cons.
          destruct (N.eqb_spec (d_id u) id) as [->|NE].
          -- rewrite MI, (sel_not mine r id NI). cbn [andb orb]. rewrite !upd_same. repeat split.
          -- cbn [andb orb]. rewrite !upd_other by exact NE. repeat split.
        * intros k. rewrite G4, sel_cons. rewrite get_put, (N.eqb_sym id k).
          destruct (N.eqb_spec k id) as [->|NE].
          -- rewrite MI, (sel_not mine r id NI). cbn [andb orb]. reflexivity.
          -- cbn [andb orb]. reflexivity.
      + cbn [ret] in E.
        edestruct IH with (pre := pre) (body := body) (hdr := hdr) (b := b) as (P' & H4 & G4);
          [exact H|exact ND|intros x Hx; exact (IN x (or_intror Hx))| |exact E|].
        { intros k Hk Mk. apply X; [now right|exact Mk]. }
        assert (S : forall k, sel mine (id :: r) k = sel mine r k).
        { intros k. rewrite sel_cons. destruct (N.eqb_spec k id) as [->|]; [now rewrite MI|reflexivity]. }
        exists P'. split; [eapply inv_ext; [exact H4|]; intros u Hu; cbv beta; rewrite S; repeat split|]. intros k. now rewrite S, G4.
  Qed.

  (** the sizes of what was in a box *)
  Lemma sizes_loop : forall ci l i m s m' s', NoDup l ->
    for_each (fun _ id m => add_size id (child_size id ci) m) i l m s = (Ok m', s') ->
    s' = s /\ forall id, get_bi id m' = if existsb (N.eqb id) l
        then match get_bi id m with Some (o, b) => Some (o, set_size b (w64 (bi_size b + child_size id ci))) | None => None end
        else get_bi id m.
  Proof.
    intros ci. induction l as [|id r IH]; intros i m s m' s' ND E.
    - injection E as <- <-. split; reflexivity.
    - apply NoDup_cons_iff in ND. destruct ND as [NI ND]. cbn [for_each] in E. unfold bind at 1, add_size at 1 in E.
      destruct (get_bi id m) as [[o b]|] eqn:GB; [|discriminate E]. cbn [ret] in E.
      destruct (IH _ _ _ _ _ ND E) as [-> G4]. split; [reflexivity|]. intros k. rewrite G4, get_put. cbn [existsb].
      destruct (N.eqb_spec id k) as [->|NE].
      + rewrite N.eqb_refl. cbn [orb]. rewrite GB.
        destruct (existsb (N.eqb k) r) eqn:Z; [|reflexivity].
        apply existsb_exists in Z. destruct Z as (y & Y & Z). apply N.eqb_eq in Z. subst y. contradiction.
      + destruct (N.eqb_spec k id) as [Z|_]; [now symmetry in Z|]. reflexivity.
  Qed.
  Lemma range_inv : forall A (body : N -> A -> M dst A) a s I P G B c, inv s I P G B c ->
    exists l s', range order body a s = for_each (fun _ id a => body id a) 0 l a s' /\
      inv s' I P G B c /\ NoDup l /\ (forall id, In id l <-> In id ids).
  Proof.
    intros A body a s I P G B c H. destruct (visit_inv _ _ _ _ _ _ H) as (l & s' & E & H' & ND & IN).
    exists l, s'. unfold range. rewrite E. auto.
  Qed.
  Lemma existsb_in : forall l id, In id l -> existsb (N.eqb id) l = true.
  Proof. intros l id H. apply existsb_exists. exists id. split; [exact H|apply N.eqb_refl]. Qed.
  Fixpoint sum_sizes (id : N) (vals : list (option sizes)) : N :=
    match vals with
    | Some ci :: r => child_size id ci + sum_sizes id r
    | _ => 0
    end.
  (** [vals]: no nil among them; no overflow *)
  Lemma children_loop : forall vals i m s I P G B c m' s', inv s I P G B c ->
    for_each (fun _ v m => match v with
      | Some ci => range order (fun id m => add_size id (child_size id ci) m) m
      | None => panic end) i vals m s = (Ok m', s') ->
    inv s' I P G B c /\ Forall (fun v => v <> None) vals /\
    (forall id o b, In id ids -> get_bi id m = Some (o, b) -> bi_size b + sum_sizes id vals < 2 ^ 64 ->
       get_bi id m' = Some (o, set_size b (bi_size b + sum_sizes id vals))).
  Proof.
    induction vals as [|v r IH]; intros i m s I P G B c m' s' H E.
    - injection E as <- <-. split; [exact H|]. split; [constructor|]. intros id o b _ Q _. cbn [sum_sizes]. rewrite N.add_0_r, Q.
      destruct b; reflexivity.
    - cbn [for_each] in E. unfold bind at 1 in E. destruct v as [ci|]; [|discriminate E].
      match type of E with (match range order ?f m s with _ => _ end) = _ =>
        destruct (range_inv _ f m s _ _ _ _ _ H) as (l & s1 & E1 & H1 & ND & IN) end.
      rewrite E1 in E. clear E1.
      match type of E with (match ?x with _ => _ end) = _ => destruct x as [[m1| | |] s2] eqn:L; try discriminate E end.
      destruct (sizes_loop _ _ _ _ _ _ _ ND L) as [-> G1].
      destruct (IH _ _ _ _ _ _ _ _ _ _ H1 E) as (H3 & F3 & G3). split; [exact H3|]. split; [constructor; [discriminate|exact F3]|].
      intros id o b Hid Q LT. cbn [sum_sizes] in *. rewrite (G3 id o (set_size b (bi_size b + child_size id ci)) Hid).
      + unfold set_size. cbn [bi_offset bi_size bi_hsize bi_type bi_eof bi_ctx]. now rewrite N.add_assoc.
      + rewrite G1, existsb_in, Q by (now apply IN). unfold w64, W64. rewrite N.mod_small; [reflexivity|].
        change (2 ^ 64) with 18446744073709551616 in LT. lia.
      + cbn [set_size bi_size]. lia.
  Qed.
  Lemma child_size_map : forall id (m : bimap), child_size id (map (fun x => (fst x, bi_size (snd (snd x)))) m) =
    match get_bi id m with Some (_, b) => bi_size b | None => 0 end.
  Proof.
    induction m as [|[k [o b]] r IH]; [reflexivity|]. cbn [map child_size get_bi fst snd]. destruct (k =? id); [reflexivity|exact IH].
  Qed.
End State.
