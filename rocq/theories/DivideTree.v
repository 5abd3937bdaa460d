(** The divide command on the tree of a file: the state after each box at the top
    level. *)
From Coq Require Import Permutation.
From Verif Require Import Base BaseProofs Schema Structs Registry Unmarshal BoxInfo ReadTree Extract Accessors Probe SpecProbe GoText Writer ProbeTool Divide.
From Verif Require Import HeaderProofs SpecTree TreeProofs PropTree SpecExtract PropExtract PropExtractPayload SpecWriter WriterProofs EditProofs
  SpecTool ToolProofs SpecReport PropReport SpecDivide DivideProofs DivideWalk.
Local Open Scope string_scope.
Local Open Scope list_scope.
Local Open Scope N_scope.
Local Open Scope monad_scope.

(** ** Runs that come to an end *)
Definition fine {A} (x : option (res A * dst)) : Prop :=
  match x with Some (Ok _, _) | Some (Err _, _) => True | _ => False end.
Fixpoint quiet (p : dprog) : Prop :=
  match p with
  | HRet _ _ | HFail _ _ => True
  | HReadData k => forall x, quiet (k x)
  | HMove _ k => quiet k
  | HReadPayload _ => False
  | HExpand _ _ _ => False
  end.
Lemma quiet_fine : forall dec own bytes ch p, quiet p -> fine (run dec own bytes ch p).
Proof.
  intros dec own bytes ch. fix IH 1. intros [s v|s e|k|k|s q k|pos k] Q; cbn [run quiet] in *; try exact I; try contradiction.
  - apply IH, Q.
  - apply IH, Q.
Qed.
Lemma quiet_dcall : forall A (m : M dst A) s k, (forall a s, quiet (k a s)) -> quiet (dcall m s k).
Proof. intros A m s k Q. unfold dcall. destruct (m s) as [[a| | |] s']; cbn [quiet]; auto. Qed.
Lemma quiet_finish : forall order mine m s, quiet (finish_init order mine m s).
Proof. intros. apply quiet_dcall. intros. exact I. Qed.
Lemma quiet_copy : forall order mine l m s, quiet (copy_payload order mine l m s).
Proof.
  induction l as [|id r IH]; intros m s; cbn [copy_payload]; [apply quiet_finish|]. destruct (mine id); [|apply IH].
  cbn [quiet]. intros [[d n]| | |]; cbn [quiet]; auto. apply quiet_dcall. intros. apply IH.
Qed.
Lemma quiet_init : forall order bi mine s, bt_eqb (bi_type bi) (bt "moov") = false -> quiet (init_box order bi mine s).
Proof.
  intros order bi mine s NM. apply quiet_dcall. intros m s1. rewrite NM. destruct (visit order s1) as [ids s2]. apply quiet_copy.
Qed.
Lemma quiet_segment : forall bi s, quiet (copy_segment bi s).
Proof.
  intros. apply quiet_dcall. intros _ s1. cbn [quiet]. intros [[d n]| | |]; cbn [quiet]; auto. apply quiet_dcall. intros. exact I.
Qed.
Lemma quiet_dextract : forall data bi p s k, (forall bs, quiet (k bs)) -> quiet (dextract data bi p s k).
Proof. intros. unfold dextract. destruct (extract_boxes_with_payload _ _ _ _ _) as [[bs| | |] pos]; cbn [quiet]; auto. Qed.
Lemma quiet_handler : forall order bits data bi path q s, bt_eqb (bi_type bi) (bt "moov") = false -> quiet (divide_handler order bits data bi path q s).
Proof.
  intros order bits data bi path q s NM. unfold divide_handler.
  destruct (is bi _); [|destruct (is bi ["moof"]); [|destruct (is bi ["mdat"]); [|destruct (is bi ["mfra"]); exact I]]].
  - destruct (is bi ["trak"]); [|now apply quiet_init].
    apply quiet_dextract. intros [|[x [y z]] [|w r]]; try exact I. now apply quiet_init.
  - apply quiet_dextract. intros [|[x [y z]] [|w r]]; try exact I. cbv zeta.
    destruct (find_track _ _); [|exact I]. apply quiet_dextract. intros [|[x1 [y1 z1]] r]; [exact I|]. apply quiet_segment.
  - destruct (find_track _ _); [|exact I]. destruct (rev _); [exact I|]. cbv zeta. apply quiet_segment.
Qed.
Lemma moov_fine : forall order bits data d x own bytes ch bi path q s, bt_eqb (bi_type bi) (bt "moov") = true ->
  (forall s, fine (ch tt s)) -> fine (run (Ok (d, x, own)) own bytes ch (divide_handler order bits data bi path q s)).
Proof.
  intros order bits data d x own bytes ch bi path q s M F. unfold divide_handler, is. cbn [existsb]. rewrite M. cbn [orb].
  apply bytes_eqb_eq in M. rewrite M. change (bt_eqb (bt "moov") (bt "trak")) with false. cbn [orb].
  unfold init_box, dcall at 1. destruct (write_headers order bi (fun _ => true) s) as [[m| | |] s1]; try exact I.
  rewrite M. change (bt_eqb (bt "moov") (bt "moov")) with true. cbn [run]. rewrite N.eqb_refl. specialize (F s1).
  destruct (ch tt s1) as [[[vals| | |] s2]|]; try contradiction; [|exact I].
  apply quiet_fine. apply quiet_dcall. intros. apply quiet_finish.
Qed.

(** ** Looking for boxes *)
Definition plain (e : entry) : Prop :=
  bi_ctx (e_info e) = ctx_of ctx0 (IsQuickTimeCompatible (bi_ctx (e_info e))) (QuickTimeKeysMetaEntryCount (bi_ctx (e_info e))) [].
Lemma opened_incl : forall skip (ps qs : list path) p, incl qs ps -> opened skip qs p = true -> opened skip ps p = true.
Proof.
  intros skip ps qs p I H. unfold opened in *. apply andb_prop in H. destruct H as [H1 H2]. rewrite H1. cbn [andb].
  apply existsb_exists in H2. destruct H2 as (q & Q & M). apply existsb_exists. exists q. auto.
Qed.
Lemma searchable_incl : forall data ps qs e, incl qs ps -> searchable data ps e -> searchable data qs e.
Proof.
  intros data ps qs e I [S1 S2]. assert (I2 : incl (map (map bt) qs) (map (map bt) ps)).
  { intros x Hx. apply in_map_iff in Hx. destruct Hx as (q & <- & Q). now apply in_map, I. }
  split.
  - eapply Forall_impl; [|exact S1]. intros x [R1 R2]. split.
    + intros O. apply R1. eapply opened_incl; eauto.
    + intros [L|O]; apply R2; [now left|right; eapply opened_incl; eauto].
  - apply Forall_forall. intros x Hx. rewrite Forall_forall in S2. apply S2. unfold at_paths in *. apply filter_In in Hx. destruct Hx as [X1 X2].
    apply filter_In. split; [exact X1|]. unfold selected in *. apply andb_prop in X2. destruct X2 as [X2 X3]. rewrite X2. cbn [andb].
    apply existsb_exists in X3. destruct X3 as (q & Q & M). apply existsb_exists. exists q. auto.
Qed.
Lemma dextract_run : forall data dec own bytes ch e p s k v s', lenN data < 2 ^ 62 -> placed data e -> plain e -> p <> [] -> searchable data [p] e ->
  run dec own bytes ch (dextract data (e_info e) (map bt p) s k) = Some (Ok v, s') ->
  exists bs, map view bs = map (view_entry data) (at_paths data e [p]) /\ run dec own bytes ch (k bs) = Some (Ok v, s').
Proof.
  intros data dec own bytes ch e p s k v s' D62 P C NP SE H. unfold dextract in H.
  match type of H with context [let (_, _) := ?x in _] => destruct x as [r pos] eqn:E end.
  cbn [run] in H. destruct r as [bs| | |]; try discriminate H. exists bs. split; [|exact H].
  change [map bt p] with (map (map bt) [p]) in E. refine (found_view data D62 e [p] 0 bs pos _ _ P C SE E).
  - discriminate.
  - constructor; [exact NP|constructor].
Qed.
Lemma one_view : forall data e p b, map view [b] = map (view_entry data) (at_paths data e [p]) ->
  exists x, at_paths data e [p] = [x] /\ snd (snd b) = fields_of data x.
Proof.
  intros data e p b H. destruct (at_paths data e [p]) as [|x [|y r]]; try discriminate H. exists x. split; [reflexivity|].
  cbn [map] in H. apply (f_equal (hd_error (A := _))) in H. cbn [hd_error] in H. injection H as _ H. exact H.
Qed.

(** ** Fragments *)
Lemma mdats_app : forall l e, mdats (l ++ [e]) = if existsb (is_type "moof") l then mdats l else mdats l ++ mdats [e].
Proof.
  induction l as [|x r IH]; intros e; [reflexivity|]. cbn [app mdats existsb].
  destruct (is_type "moof" x); [reflexivity|]. cbn [orb]. rewrite IH.
  destruct (is_type "mdat" x), (existsb (is_type "moof") r); reflexivity.
Qed.
Lemma fragments_moof : forall l e, is_type "moof" e = true -> fragments (l ++ [e]) = fragments l ++ [(e, [])].
Proof.
  intros l e M. induction l as [|x r IH]; cbn [app fragments mdats].
  - rewrite M. reflexivity.
  - rewrite IH. destruct (is_type "moof" x); [|reflexivity]. cbn [app]. do 2 f_equal. rewrite mdats_app. cbn [mdats]. rewrite M.
    destruct (existsb (is_type "moof") r); [reflexivity|apply app_nil_r].
Qed.
Lemma fragments_other : forall l e, is_type "moof" e = false -> is_type "mdat" e = false -> fragments (l ++ [e]) = fragments l.
Proof.
  intros l e M D. induction l as [|x r IH]; cbn [app fragments mdats].
  - rewrite M. reflexivity.
  - rewrite IH. destruct (is_type "moof" x); [|reflexivity]. do 2 f_equal. rewrite mdats_app. cbn [mdats]. rewrite M, D.
    destruct (existsb (is_type "moof") r); [reflexivity|apply app_nil_r].
Qed.
Lemma no_moof : forall l, existsb (is_type "moof") l = false -> fragments l = [].
Proof.
  induction l as [|x r IH]; intros H; [reflexivity|]. cbn [existsb fragments] in *. apply orb_false_iff in H. destruct H as [-> H]. auto.
Qed.
Lemma some_moof : forall l, existsb (is_type "moof") l = true -> fragments l <> [].
Proof.
  induction l as [|x r IH]; intros H; [discriminate H|]. cbn [existsb fragments] in *. destruct (is_type "moof" x); [discriminate|]. auto.
Qed.
Lemma fragments_mdat : forall l e, is_type "moof" e = false -> is_type "mdat" e = true ->
  (fragments l = [] /\ fragments (l ++ [e]) = []) \/
  exists fs m ms, fragments l = fs ++ [(m, ms)] /\ fragments (l ++ [e]) = fs ++ [(m, ms ++ [e])].
Proof.
  intros l e M D. induction l as [|x r IH]; cbn [app fragments mdats].
  - rewrite M. left. split; reflexivity.
  - destruct (is_type "moof" x) eqn:X; [|exact IH]. right. rewrite mdats_app. cbn [mdats]. rewrite M, D.
    destruct (existsb (is_type "moof") r) eqn:EX.
    + destruct IH as [[IH _]|(fs & m & ms & E1 & E2)]; [now apply some_moof in EX|].
      exists ((x, mdats r) :: fs), m, ms. rewrite E1, E2. split; reflexivity.
    + pose proof (no_moof _ EX) as Z. destruct IH as [[_ IH]|(fs & m & ms & E1 & _)].
      * exists [], x, (mdats r). rewrite Z, IH. split; reflexivity.
      * rewrite Z in E1. now destruct fs.
Qed.

Section Boxes.
  Variable T : list dtrack.
  Hypothesis ids_nodup : NoDup (map d_id T).
  Hypothesis types_nodup : NoDup (map d_type T).
  Variable order : N -> list N -> list N.
  Hypothesis order_ok : forall k l, Permutation (order k l) l.
  Variable bits_per_second : N -> seconds -> N.
  Variable data : list byte.
  Hypothesis data_small : lenN data < 2 ^ 62.
  Local Notation inv := (inv T).
  Local Notation ids := (ids T).
  Local Notation handler := (divide_handler order bits_per_second data).

  Definition init_types := ["moov"; "ftyp"; "pssh"; "mvhd"; "trak"; "mvex"; "udta"; "sidx"].
  Record stands (e : entry) : Prop := mkstands
    { st_placed : placed data e; st_plain : plain e; st_trak : is_type "trak" e = true -> searchable data [["tkhd"]] e }.

  (** *** A box of the initialization segment *)
  Lemma init_step : forall dec own ch e path s I P G B c v s', stands e -> is_one_of init_types e = true -> is_type "moov" e = false ->
    inv s I P G B c ->
    run dec own (payload (e_box e)) ch (handler (e_info e) path tt s) = Some (Ok v, s') ->
    exists P' ci, v = Some ci /\ inv s' (fun id => I id ++ (if kept data id e then box_bytes (e_box e) else [])) P' G B c /\
      (forall id, In id ids -> child_size id ci = lenN (if kept data id e then box_bytes (e_box e) else [])).
  Proof.
    intros dec own ch e path s I P G B c v s' ST IT NM H R.
    destruct (st_placed _ ST) as (pre & post & last & A & EI).
    assert (NM2 : is_moov (e_box e) = false).
    { unfold is_type, e_type in NM. rewrite EI in NM. exact NM. }
    unfold divide_handler in R. change (is (e_info e) _) with (is_one_of init_types e) in R at 1. rewrite IT in R.
    change (is (e_info e) ["trak"]) with (is_type "trak" e || false)%bool in R. rewrite orb_false_r in R.
    destruct (is_type "trak" e) eqn:TR.
    - change [bt "tkhd"] with (map bt ["tkhd"]) in R.
      destruct (dextract_run data _ _ _ _ e ["tkhd"] _ _ _ _ data_small (st_placed _ ST) (st_plain _ ST) ltac:(discriminate) (st_trak _ ST TR) R) as (bs & V & R1).
      destruct bs as [|[x [y tkhd]] [|w r]]; try discriminate R1.
      apply one_view in V. destruct V as (z & V1 & V2). cbn [snd] in V2.
      rewrite EI in R1.
      destruct (init_simple T ids_nodup types_nodup order order_ok bits_per_second data data_small _ _ _ _ _ _ _ _ _ _ _ _ _ _ _ _ _ A NM2 H R1) as (P' & ci & -> & H1 & C1).
      assert (K : forall id, kept data id e = (id =? uint_of "TrackID" tkhd)).
      { intros id. unfold kept, is_one_of. unfold is_type in TR. apply bytes_eqb_eq in TR. unfold is_type. rewrite TR.
        assert (EID : trak_id data e = uint_of "TrackID" tkhd) by (unfold trak_id, number_in; rewrite V1, V2; reflexivity).
        rewrite EID, N.eqb_sym. reflexivity. }
      exists P', ci. split; [reflexivity|]. split.
      + eapply inv_ext; [exact H1|]. intros u Hu. cbv beta. rewrite K. repeat split.
      + intros id Hid. rewrite K. now apply C1.
    - rewrite EI in R.
      destruct (init_simple T ids_nodup types_nodup order order_ok bits_per_second data data_small _ _ _ _ _ _ _ _ _ _ _ _ _ _ _ _ _ A NM2 H R) as (P' & ci & -> & H1 & C1).
      assert (K : forall id, kept data id e = true).
      { intros id. unfold kept. unfold is_one_of, init_types in IT. cbn [existsb] in IT. rewrite NM, TR in IT. cbn [orb] in IT.
        unfold is_one_of. cbn [existsb]. rewrite IT. reflexivity. }
      exists P', ci. split; [reflexivity|]. split.
      + eapply inv_ext; [exact H1|]. intros u Hu. cbv beta. rewrite K. repeat split.
      + intros id Hid. rewrite K. now apply C1.
  Qed.

  (** *** Another box, if there is no error, yields nil *)
  Lemma run_copy_none : forall dec own bytes ch bi s v s', run dec own bytes ch (copy_segment bi s) = Some (Ok v, s') -> v = None.
  Proof.
    intros dec own bytes ch bi s v s' R. unfold copy_segment in R. apply run_dcall in R. destruct R as (a & s1 & _ & R). cbn [run] in R.
    apply run_dcall in R. destruct R as (a2 & s2 & _ & R). cbn [run] in R. congruence.
  Qed.
  Lemma other_none : forall dec own bytes ch e path s v s', is_one_of init_types e = false ->
    run dec own bytes ch (handler (e_info e) path tt s) = Some (Ok v, s') -> v = None.
  Proof.
    intros dec own bytes ch e path s v s' IT R. unfold divide_handler in R.
    change (is (e_info e) _) with (is_one_of init_types e) in R at 1. rewrite IT in R.
    destruct (is (e_info e) ["moof"]); [|destruct (is (e_info e) ["mdat"]); [|destruct (is (e_info e) ["mfra"])]].
    - unfold dextract in R. match type of R with context [let (_, _) := ?x in _] => destruct x as [r pos] end.
      cbn [run] in R. destruct r as [bs| | |]; try discriminate R.
      destruct bs as [|[x [y tfhd]] [|w r]]; try discriminate R. cbv zeta in R.
      destruct (find_track _ _) as [t|]; [|cbn [run] in R; congruence].
      match type of R with context [let (_, _) := ?x in _] => destruct x as [r pos2] end.
      cbn [run] in R. destruct r as [bs| | |]; try discriminate R.
      destruct bs as [|[x2 [y2 z2]] r2]; try discriminate R. eapply run_copy_none. exact R.
    - destruct (find_track _ _) as [t|]; [|cbn [run] in R; congruence].
      destruct (rev (d_segments t)); [discriminate R|]. cbv zeta in R. eapply run_copy_none. exact R.
    - cbn [run] in R. congruence.
    - discriminate R.
  Qed.

  (** *** A box of a segment *)
  Lemma segment_inv : forall dec own ch pre post last b c0 t s I P G B g x d v s', TreeProofs.at_place data pre post last b ->
    In t T -> inv s I P G B (d_id t) -> G (d_id t) = g ++ [(x, d)] ->
    run dec own (payload b) ch (copy_segment (info (lenN pre) b c0) s) = Some (Ok v, s') ->
    inv s' I P (upd G (d_id t) (g ++ [(x ++ box_bytes b, d)])) B (d_id t).
  Proof.
    intros dec own ch pre post last b c0 t s I P G B g x d v s' A Ht H EG R. pose proof A as (_ & W & _).
    unfold copy_segment in R. apply run_dcall in R. destruct R as (a & s1 & E & R). rewrite (inv_curr _ _ _ _ _ _ _ H) in E.
    edestruct (seg_op_inv T ids_nodup types_nodup _ (write_box_info (info (lenN pre) b c0)) s I P G B (d_id t) t g x d) as (s2 & E2 & H2);
      [exact H|exact Ht|exact EG|apply write_box_info_eq|cbn [o_pos o_data]; now rewrite overwrite_end, lenN_app|].
    rewrite E2 in E. injection E as _ <-. cbn [o_data] in H2. rewrite overwrite_end in H2.
    cbn [run] in R. apply run_dcall in R. destruct R as (a2 & s3 & E & R). rewrite (inv_curr _ _ _ _ _ _ _ H2) in E.
    edestruct (seg_op_inv T ids_nodup types_nodup _ (o_write (payload b)) s2 I P
      (upd G (d_id t) (g ++ [(x ++ header_bytes (info (lenN pre) b c0), d)])) B (d_id t) t g (x ++ header_bytes (info (lenN pre) b c0)) d (Ok tt)
      (mkof (overwrite (x ++ header_bytes (info (lenN pre) b c0)) (lenN (x ++ header_bytes (info (lenN pre) b c0))) (payload b))
            (lenN (x ++ header_bytes (info (lenN pre) b c0)) + lenN (payload b)) []))
      as (s4 & E4 & H4); [exact H2|exact Ht|apply upd_same|reflexivity|cbn [o_pos o_data]; rewrite overwrite_end; symmetry; apply lenN_app|].
    rewrite E4 in E. injection E as _ <-. cbn [run] in R. injection R as _ <-. cbn [o_data] in H4. rewrite overwrite_end in H4.
    eapply inv_ext; [exact H4|]. intros u Hu.
    assert (BB : (x ++ header_bytes (info (lenN pre) b c0)) ++ payload b = x ++ box_bytes b).
    { rewrite <- app_assoc, box_bytes_eq, (header_info last _ _ _ W). reflexivity. }
    rewrite BB. unfold upd. destruct (d_id u =? d_id t); repeat split.
  Qed.

  (** *** The state after the boxes [l] *)
  Definition tsc (id : N) : N := match find (fun t => d_id t =? id) T with Some t => d_timescale t | None => 0 end.
  Definition I_of (l : list entry) (id : N) : list byte := file_bytes (init_boxes data id l).
  Definition G_of (l : list entry) (id : N) : segs := map (fun f => (fragment_bytes f, fragment_seconds data (tsc id) f)) (fragments_of data id l).
  Definition B_of (l : list entry) (id : N) : N := bandwidth bits_per_second data (tsc id) (fragments_of data id l).
  Definition cur (l : list entry) : N := match rev (fragments l) with (m, _) :: _ => moof_id data m | [] => 0xFFFFFFFF end.
  Definition state (l : list entry) (s : dst) : Prop := exists P, inv s (I_of l) P (G_of l) (B_of l) (cur l).

  Lemma I_snoc : forall l e id, I_of (l ++ [e]) id = I_of l id ++ I_of [e] id.
  Proof. intros. unfold I_of, file_bytes, init_boxes. rewrite !flat_map_app. reflexivity. Qed.
  Lemma I_simple : forall e id, is_type "moov" e = false -> I_of [e] id = if kept data id e then box_bytes (e_box e) else [].
  Proof.
    intros e id M. unfold I_of, init_boxes. cbn [flat_map]. rewrite M, app_nil_r. destruct (kept data id e); [|reflexivity].
    unfold file_bytes. cbn [flat_map]. apply app_nil_r.
  Qed.
  Lemma I_other : forall e id, is_one_of init_types e = false -> I_of [e] id = [].
  Proof.
    intros e id H. unfold is_one_of, init_types in H. cbn [existsb] in H.
    repeat match type of H with (_ || _)%bool = false => apply orb_false_iff in H; destruct H as [? H] end.
    rewrite I_simple by assumption. unfold kept, is_one_of. cbn [existsb].
    repeat match goal with X : is_type _ e = false |- _ => rewrite X; clear X end. reflexivity.
  Qed.
  Lemma tsc_in : forall t, In t T -> tsc (d_id t) = d_timescale t.
  Proof. intros t Ht. unfold tsc. now rewrite find_id. Qed.
  Lemma bandwidth_app : forall ts fs gs, bandwidth bits_per_second data ts (fs ++ gs) =
    N.max (bandwidth bits_per_second data ts fs) (bandwidth bits_per_second data ts gs).
  Proof.
    intros ts fs gs. unfold bandwidth. rewrite flat_map_app.
    generalize (flat_map (fun f : entry * list entry => map (fun m => bits_per_second (box_size (e_box m)) (fragment_seconds data ts f)) (snd f)) fs) as a.
    generalize (flat_map (fun f : entry * list entry => map (fun m => bits_per_second (box_size (e_box m)) (fragment_seconds data ts f)) (snd f)) gs) as b.
    intros b a. induction a as [|x r IH]; cbn [app fold_right]; [lia|]. rewrite IH. lia.
  Qed.
  Lemma bandwidth_last : forall ts m ms e, bandwidth bits_per_second data ts [(m, ms ++ [e])] =
    N.max (bandwidth bits_per_second data ts [(m, ms)]) (bits_per_second (box_size (e_box e)) (fragment_seconds data ts (m, ms))).
  Proof.
    intros. unfold bandwidth. cbn [flat_map snd]. rewrite !app_nil_r, map_app. cbn [map].
    change (fragment_seconds data ts (m, ms ++ [e])) with (fragment_seconds data ts (m, ms)).
    generalize (map (fun m0 => bits_per_second (box_size (e_box m0)) (fragment_seconds data ts (m, ms))) ms) as a.
    intros a. induction a as [|x r IH]; cbn [app fold_right]; [lia|]. rewrite IH. lia.
  Qed.
  Lemma duration_sum : forall A (g : A -> N) l, fold_left (fun d e => w32 (d + g e)) l 0 = sum (map g l) mod 2 ^ 32.
  Proof.
    intros A g l. assert (X : forall d, fold_left (fun d e => w32 (d + g e)) l (w32 d) = (d + sum (map g l)) mod 2 ^ 32).
    { induction l as [|x r IH]; intros d; cbn [fold_left map sum fold_right].
      - rewrite N.add_0_r. reflexivity.
      - replace (w32 (w32 d + g x)) with (w32 (d + g x)).
        + rewrite IH. unfold sum. f_equal. lia.
        + unfold w32. now rewrite N.add_mod_idemp_l by discriminate. }
    exact (X 0).
  Qed.

  (** *** A box at the top level that is not of the initialization segment *)
  Lemma other_step : forall dec own ch l e path s v s', stands e -> is_one_of init_types e = false ->
    (is_type "moof" e = true -> searchable data fragment_places e) -> state l s ->
    run dec own (payload (e_box e)) ch (handler (e_info e) path tt s) = Some (Ok v, s') -> state (l ++ [e]) s'.
  Proof.
    intros dec own ch l e path s v s' ST IT SE [P H] R.
    destruct (st_placed _ ST) as (pre & post & last & A & EI).
    assert (EI0 : forall id, I_of (l ++ [e]) id = I_of l id) by (intros id; rewrite I_snoc, I_other, app_nil_r by exact IT; reflexivity).
    unfold divide_handler in R. change (is (e_info e) _) with (is_one_of init_types e) in R at 1. rewrite IT in R.
    change (is (e_info e) ["moof"]) with (is_type "moof" e || false)%bool in R.
    change (is (e_info e) ["mdat"]) with (is_type "mdat" e || false)%bool in R.
    rewrite !orb_false_r in R.
    destruct (is_type "moof" e) eqn:MF; [|destruct (is_type "mdat" e) eqn:MD; [|destruct (is (e_info e) ["mfra"]) eqn:MR; [|discriminate R]]].
    - (* moof *)
      specialize (SE eq_refl).
      assert (S1 : searchable data [["traf"; "tfhd"]] e) by (refine (searchable_incl _ _ _ _ _ SE); intros x Hx; cbn in *; tauto).
      assert (S2 : searchable data [["traf"; "trun"]] e) by (refine (searchable_incl _ _ _ _ _ SE); intros x Hx; cbn in *; tauto).
      change [bt "traf"; bt "tfhd"] with (map bt ["traf"; "tfhd"]) in R. change [bt "traf"; bt "trun"] with (map bt ["traf"; "trun"]) in R.
      destruct (dextract_run data _ _ _ _ e ["traf"; "tfhd"] _ _ _ _ data_small (st_placed _ ST) (st_plain _ ST) ltac:(discriminate) S1 R) as (bs & V & R1).
      clear R. destruct bs as [|[x [y tfhd]] [|w r]]; try discriminate R1. cbv zeta in R1.
      apply one_view in V. destruct V as (z & V1 & V2). cbn [snd] in V2.
      assert (MID : moof_id data e = uint_of "TrackID" tfhd) by (unfold moof_id, number_in; rewrite V1, V2; reflexivity).
      assert (CU : cur (l ++ [e]) = moof_id data e) by (unfold cur; rewrite fragments_moof, rev_app_distr by exact MF; reflexivity).
      apply inv_set_curr with (id := uint_of "TrackID" tfhd) in H.
      set (s1 := set_curr (uint_of "TrackID" tfhd) s) in *.
      rewrite (inv_curr _ _ _ _ _ _ _ H), (inv_find _ _ _ _ _ _ _ _ H) in R1.
      assert (FR : forall id, fragments_of data id (l ++ [e]) = fragments_of data id l ++ (if moof_id data e =? id then [(e, [])] else [])).
      { intros id. unfold fragments_of. rewrite fragments_moof, filter_app by exact MF. cbn [filter fst]. reflexivity. }
      destruct (find (fun t => d_id t =? uint_of "TrackID" tfhd) T) as [t|] eqn:FT; cbn [option_map] in R1.
      + (* a track *)
        apply find_some in FT. destruct FT as [Ht Et]. apply N.eqb_eq in Et.
        destruct (dextract_run data _ _ _ _ e ["traf"; "trun"] _ _ _ _ data_small (st_placed _ ST) (st_plain _ ST) ltac:(discriminate) S2 R1) as (bs & W & R2).
        clear R1. destruct bs as [|[x2 [y2 trun]] r2]; [discriminate R2|].
        assert (TR : exists u us, at_paths data e [["traf"; "trun"]] = u :: us /\ trun = fields_of data u).
        { destruct (at_paths data e [["traf"; "trun"]]) as [|u us]; [discriminate W|]. exists u, us. split; [reflexivity|].
          cbn [map] in W. apply (f_equal (@hd_error _)) in W. cbn [hd_error] in W. injection W as _ W. exact W. }
        destruct TR as (u & us & W1 & W2).
        assert (DU : Divide.trun_duration (if check_flag tfhd 8 then uint_of "DefaultSampleDuration" tfhd else 0) trun = moof_duration data e).
        { unfold Divide.trun_duration, moof_duration, first_at. rewrite V1, W1, <- V2, <- W2. apply duration_sum. }
        rewrite DU in R2. clear DU.
        rewrite <- Et in H.
        pose proof (next_segment_inv T ids_nodup types_nodup s1 _ _ _ _ _ t (moof_duration data e) H Ht) as H1.
        rewrite EI in R2.
        pose proof (segment_inv dec own ch pre post last (e_box e) _ t _ _ _ _ _ _ _ _ v s' A Ht H1 (upd_same _ _ _ _) R2) as H2.
        exists P. rewrite CU, MID, <- Et. eapply inv_ext; [exact H2|]. intros q Hq. cbv beta. rewrite EI0.
        unfold G_of, B_of. rewrite FR, MID, <- Et. split; [reflexivity|]. split; [reflexivity|].
        destruct (N.eqb_spec (d_id t) (d_id q)) as [EQ|NE].
        * rewrite <- EQ. rewrite !upd_same. split.
          -- rewrite map_app. cbn [map]. do 2 f_equal. f_equal; [unfold fragment_bytes, file_bytes; cbn; apply app_nil_r|].
             unfold fragment_seconds. now rewrite tsc_in by exact Ht.
          -- rewrite bandwidth_app. unfold bandwidth at 2. cbn. lia.
        * rewrite !upd_other by (intros Z; now symmetry in Z). rewrite app_nil_r. split; reflexivity.
      + (* no track *)
        cbn [run] in R1. injection R1 as _ <-. exists P. rewrite CU, MID. eapply inv_ext; [exact H|]. intros q Hq. cbv beta. rewrite EI0.
        unfold G_of, B_of. rewrite FR. replace (moof_id data e =? d_id q) with false; [rewrite app_nil_r; repeat split|].
        symmetry. apply N.eqb_neq. intros Z. apply (find_none _ _ FT) in Hq. rewrite MID in Z. rewrite Z, N.eqb_refl in Hq. discriminate.
    - (* mdat *)
      rewrite (inv_curr _ _ _ _ _ _ _ H), (inv_find _ _ _ _ _ _ _ _ H) in R.
      destruct (fragments_mdat l e MF MD) as [[F1 F2]|(fs & m & ms & F1 & F2)].
      + (* no fragment yet *)
        assert (CU : cur (l ++ [e]) = cur l) by (unfold cur; now rewrite F1, F2).
        assert (FR : forall id, fragments_of data id (l ++ [e]) = fragments_of data id l) by (intros; unfold fragments_of; now rewrite F1, F2).
        destruct (find (fun t => d_id t =? cur l) T) as [t|] eqn:FT; cbn [option_map] in R.
        * assert (Z : d_segments (row P (G_of l) (B_of l) t) = []) by (unfold row, G_of, fragments_of; cbn [d_segments]; now rewrite F1).
          rewrite Z in R. discriminate R.
        * cbn [run] in R. injection R as _ <-. exists P. rewrite CU. eapply inv_ext; [exact H|]. intros q Hq. cbv beta. rewrite EI0.
          unfold G_of, B_of. rewrite FR. repeat split.
      + assert (CL : cur l = moof_id data m) by (unfold cur; rewrite F1, rev_app_distr; reflexivity).
        assert (CU : cur (l ++ [e]) = moof_id data m) by (unfold cur; rewrite F2, rev_app_distr; reflexivity).
        rewrite CL in R, H.
        set (mine := fun id => filter (fun f : entry * list entry => moof_id data (fst f) =? id) fs).
        assert (FL : forall id, fragments_of data id l = mine id ++ (if moof_id data m =? id then [(m, ms)] else [])).
        { intros id. unfold fragments_of. rewrite F1, filter_app. cbn [filter fst]. reflexivity. }
        assert (FR : forall id, fragments_of data id (l ++ [e]) = mine id ++ (if moof_id data m =? id then [(m, ms ++ [e])] else [])).
        { intros id. unfold fragments_of. rewrite F2, filter_app. cbn [filter fst]. reflexivity. }
        destruct (find (fun t => d_id t =? moof_id data m) T) as [t|] eqn:FT; cbn [option_map] in R.
        * apply find_some in FT. destruct FT as [Ht Et]. apply N.eqb_eq in Et.
          assert (EG : G_of l (d_id t) = map (fun f => (fragment_bytes f, fragment_seconds data (tsc (d_id t)) f)) (mine (d_id t)) ++
                         [(fragment_bytes (m, ms), fragment_seconds data (tsc (d_id t)) (m, ms))]).
          { unfold G_of. rewrite FL, <- Et, N.eqb_refl, map_app. reflexivity. }
          assert (SG : rev (d_segments (row P (G_of l) (B_of l) t)) = fragment_seconds data (tsc (d_id t)) (m, ms) ::
                         rev (map snd (map (fun f => (fragment_bytes f, fragment_seconds data (tsc (d_id t)) f)) (mine (d_id t))))).
          { unfold row. cbn [d_segments]. rewrite EG, map_app, rev_app_distr. reflexivity. }
          rewrite SG in R. cbv zeta in R. clear SG.
          set (bps := bits_per_second (bi_size (e_info e)) (fragment_seconds data (tsc (d_id t)) (m, ms))) in *.
          change (d_bandwidth (row P (G_of l) (B_of l) t)) with (B_of l (d_id t)) in R. rewrite <- Et in H.
          assert (H1 : inv (if B_of l (d_id t) <? bps then set_track (set_bandwidth bps (row P (G_of l) (B_of l) t)) s else s)
                           (I_of l) P (G_of l) (upd (B_of l) (d_id t) (N.max (B_of l (d_id t)) bps)) (d_id t)).
          { destruct (N.ltb_spec (B_of l (d_id t)) bps) as [LT|GE].
            - rewrite N.max_r by lia. now apply bandwidth_inv.
            - rewrite N.max_l by lia. eapply inv_ext; [exact H|]. intros q Hq. rewrite upd_id. repeat split. }
          rewrite EI in R at 1.
          pose proof (segment_inv dec own ch pre post last (e_box e) _ t _ _ _ _ _ _ _ _ v s' A Ht H1 EG R) as H2.
          exists P. rewrite CU, <- Et. eapply inv_ext; [exact H2|]. intros q Hq. cbv beta. rewrite EI0. split; [reflexivity|]. split; [reflexivity|].
          destruct (N.eqb_spec (d_id t) (d_id q)) as [EQ|NE].
          -- rewrite <- EQ, !upd_same. unfold G_of, B_of. rewrite FR, FL, <- Et, N.eqb_refl. split.
             ++ rewrite map_app. cbn [map]. do 2 f_equal. f_equal. unfold fragment_bytes, file_bytes. cbn [fst snd].
                rewrite !map_cons, map_app. cbn [flat_map map]. rewrite flat_map_app. cbn [flat_map]. rewrite app_nil_r, <- app_assoc. reflexivity.
             ++ rewrite !bandwidth_app, bandwidth_last. unfold bps. replace (bi_size (e_info e)) with (box_size (e_box e)) by (rewrite EI; reflexivity). lia.
          -- rewrite !upd_other by (intros Z; now symmetry in Z). unfold G_of, B_of. rewrite FR, FL, <- Et.
             replace (d_id t =? d_id q) with false by (symmetry; now apply N.eqb_neq). split; reflexivity.
        * cbn [run] in R. injection R as _ <-. exists P. rewrite CU. eapply inv_ext; [exact H|]. intros q Hq. cbv beta. rewrite EI0.
          unfold G_of, B_of. rewrite FR, FL. replace (moof_id data m =? d_id q) with false; [repeat split|].
          symmetry. apply N.eqb_neq. intros Z. apply (find_none _ _ FT) in Hq. rewrite Z, N.eqb_refl in Hq. discriminate.
    - (* mfra *)
      cbn [run] in R. injection R as _ <-. exists P.
      assert (CU : cur (l ++ [e]) = cur l) by (unfold cur; now rewrite fragments_other).
      rewrite CU. eapply inv_ext; [exact H|]. intros q Hq. cbv beta. rewrite EI0. unfold G_of, B_of, fragments_of. rewrite fragments_other by assumption.
      repeat split.
  Qed.

  (** *** Listings *)
  Definition head (anc : list btype) (qt : bool) (keys : Z) (o : N) (b : box) : entry :=
    let told := enter data ctx0 anc qt keys o b in
    let (qt', keys') := match told with Ok x => x | _ => (qt, keys) end in
    {| e_path := anc ++ [box_type b]; e_info := info o b (ctx_of ctx0 qt' keys' anc); e_box := b; e_told := told |}.
  Lemma head_box : forall anc qt keys o b, e_box (head anc qt keys o b) = b /\ e_path (head anc qt keys o b) = anc ++ [box_type b] /\
    e_told (head anc qt keys o b) = enter data ctx0 anc qt keys o b.
  Proof.
    intros. unfold head. destruct (match enter data ctx0 anc qt keys o b with Ok x => x | _ => (qt, keys) end). repeat split.
  Qed.
  Definition deep (n : nat) (e : entry) : bool := (List.length (e_path e) =? n)%nat.
  Lemma kids_deeper : forall kids anc qt keys o, Forall (fun x => (S (List.length anc) <= List.length (e_path x))%nat) (list_kids data ctx0 anc qt keys o kids).
  Proof.
    induction kids as [|k r IH]; intros anc qt keys o; [constructor|]. cbn [list_kids]. apply Forall_app. split; [|apply IH].
    eapply Forall_impl; [|apply list_box_under]. intros x (q & Q). rewrite Q, !app_length. cbn [List.length]. lia.
  Qed.
  Lemma none_deep : forall n l, Forall (fun x => (S n <= List.length (e_path x))%nat) l -> filter (deep n) l = [].
  Proof.
    intros n l F. induction F as [|x r H _ IH]; [reflexivity|]. cbn [filter]. unfold deep at 1.
    destruct (Nat.eqb_spec (List.length (e_path x)) n); [lia|exact IH].
  Qed.
  Lemma list_box_head : forall anc qt keys o b,
    hd_error (list_box data ctx0 anc qt keys o b) = Some (head anc qt keys o b) /\
    filter (deep (S (List.length anc))) (list_box data ctx0 anc qt keys o b) = [head anc qt keys o b].
  Proof.
    intros anc qt keys o [f t own kids slack]. rewrite list_box_eq. cbv zeta. unfold head. cbn [box_type].
    destruct (match enter data ctx0 anc qt keys o (Box f t own kids slack) with Ok x => x | _ => (qt, keys) end) as [qt' keys'].
    split; [reflexivity|]. cbn [filter]. unfold deep at 1. cbn [e_path]. rewrite app_length. cbn [List.length].
    destruct (Nat.eqb_spec (List.length anc + 1) (S (List.length anc))); [|lia]. f_equal.
    apply none_deep. eapply Forall_impl; [|apply kids_deeper]. intros x L. rewrite app_length in L. cbn [List.length] in L. lia.
  Qed.
  Lemma head_good : forall (Q : entry -> Prop) anc qt keys o b, Forall Q (list_box data ctx0 anc qt keys o b) -> Q (head anc qt keys o b).
  Proof.
    intros Q anc qt keys o b F. destruct (list_box_head anc qt keys o b) as [H _]. destruct (list_box data ctx0 anc qt keys o b); [discriminate H|].
    injection H as ->. exact (Forall_inv F).
  Qed.

  Definition moov_trak : list path := [[bt "moov"; bt "trak"]].
  Record good (e : entry) : Prop := mkgood
    { g_read : readable data 0 moov_trak e;
      g_trak : is_type "trak" e = true -> List.length (e_path e) = 1%nat \/ e_path e = [bt "moov"; bt "trak"] -> searchable data [["tkhd"]] e;
      g_moof : is_type "moof" e = true -> List.length (e_path e) = 1%nat -> searchable data fragment_places e;
      g_moov : e_path e <> [bt "moov"; bt "moov"] }.

  Lemma head_stands : forall anc qt keys pre post last b, anc = [] \/ anc = [bt "moov"] -> TreeProofs.at_place data pre post last b ->
    good (head anc qt keys (lenN pre) b) -> stands (head anc qt keys (lenN pre) b).
  Proof.
    intros anc qt keys pre post last b AN A GD. destruct (head_box anc qt keys (lenN pre) b) as (HB & HP & _).
    assert (C : exists qt' keys', e_info (head anc qt keys (lenN pre) b) = info (lenN pre) b (ctx_of ctx0 qt' keys' anc)).
    { unfold head. destruct (match enter data ctx0 anc qt keys (lenN pre) b with Ok x => x | _ => (qt, keys) end) as [qt' keys']. exists qt', keys'. reflexivity. }
    destruct C as (qt' & keys' & C). constructor.
    - exists pre, post, last. rewrite HB. split; [exact A|]. rewrite C. reflexivity.
    - unfold plain. rewrite C. cbn [info bi_ctx]. destruct AN as [->| ->]; reflexivity.
    - intros TR. apply (g_trak _ GD TR). rewrite HP. unfold is_type, e_type in TR. rewrite C in TR. apply bytes_eqb_eq in TR.
      change (bi_type (info (lenN pre) b (ctx_of ctx0 qt' keys' anc))) with (box_type b) in TR. rewrite TR.
      destruct AN as [->| ->]; [now left|now right].
  Qed.

  (** the run of the handler on a box *)
  Lemma walk_head : forall anc qt keys o f t own kids slack s, let b := Box f t own kids slack in let e := head anc qt keys o b in
    walk_box data ctx0 handler anc qt keys o b tt s =
    match e_told e with
    | Err x => Some (Err x, s)
    | Panic | OutOfFuel => None
    | Ok (qt', keys') =>
        match run (decoded data (bi_ctx (e_info e)) o b) (lenN own) (payload b)
                (fun q s => walk_kids data ctx0 handler slack (anc ++ [t]) qt' q keys' (o + hsize f + lenN own) kids s)
                (handler (e_info e) (anc ++ [t]) tt s) with
        | Some (Ok v, s') => Some (Ok (v, (qt', keys')), s')
        | Some (Err e, s') => Some (Err e, s')
        | _ => None
        end
    end.
  Proof.
    intros. subst e b. rewrite walk_box_eq. cbv zeta. unfold head.
    destruct (enter data ctx0 anc qt keys o (Box f t own kids slack)) as [[qt' keys']| | |]; reflexivity.
  Qed.
  Lemma head_type : forall t anc qt keys o b, is_type t (head anc qt keys o b) = bt_eqb (box_type b) (bt t).
  Proof.
    intros. unfold head, is_type, e_type. destruct (match enter data ctx0 anc qt keys o b with Ok x => x | _ => (qt, keys) end). reflexivity.
  Qed.
  Lemma head_info_type : forall anc qt keys o b, bi_type (e_info (head anc qt keys o b)) = box_type b.
  Proof.
    intros. unfold head. destruct (match enter data ctx0 anc qt keys o b with Ok x => x | _ => (qt, keys) end). reflexivity.
  Qed.

  (** *** The boxes in a moov box *)
  Local Notation in_moov := [bt "moov"].
  Lemma kid_told : forall qt keys o b, good (head in_moov qt keys o b) -> exists x, e_told (head in_moov qt keys o b) = Ok x.
  Proof.
    intros qt keys o b GD. destruct (g_read _ GD) as [_ R]. apply R. right.
    destruct (head_box in_moov qt keys o b) as (_ & HP & _). rewrite HP, removelast_last. reflexivity.
  Qed.
  Lemma kid_not_moov : forall qt keys o b, good (head in_moov qt keys o b) -> bt_eqb (box_type b) (bt "moov") = false.
  Proof.
    intros qt keys o b GD. destruct (bt_eqb (box_type b) (bt "moov")) eqn:E; [|reflexivity]. apply bytes_eqb_eq in E.
    destruct (g_moov _ GD). destruct (head_box in_moov qt keys o b) as (_ & HP & _). rewrite HP, E. reflexivity.
  Qed.
  Lemma kids_fine : forall kids slack qt keys o s, Forall good (list_kids data ctx0 in_moov qt keys o kids) ->
    fine (walk_kids data ctx0 handler slack in_moov qt tt keys o kids s).
  Proof.
    induction kids as [|[f t own ks sl] r IH]; intros slack qt keys o s F.
    - cbn [walk_kids]. destruct slack; [exact I|]. destruct qt; exact I.
    - cbn [list_kids] in F. apply Forall_app in F. destruct F as [F1 F2]. apply head_good in F1.
      destruct (kid_told _ _ _ _ F1) as ([qt' keys'] & TL).
      pose proof (walk_head in_moov qt keys o f t own ks sl s) as W. cbv zeta in W. rewrite TL in W.
      destruct (head_box in_moov qt keys o (Box f t own ks sl)) as (_ & _ & HT). rewrite HT in TL. rewrite TL in F2. cbn [snd] in F2.
      set (b := Box f t own ks sl) in *. set (e := head in_moov qt keys o b) in *.
      pose proof (quiet_fine (decoded data (bi_ctx (e_info e)) o b) (lenN own) (payload b)
        (fun q s => walk_kids data ctx0 handler sl (in_moov ++ [t]) qt' q keys' (o + hsize f + lenN own) ks s)
        (handler (e_info e) (in_moov ++ [t]) tt s)) as Q.
      assert (NM : bt_eqb (bi_type (e_info e)) (bt "moov") = false) by (unfold e; rewrite head_info_type; exact (kid_not_moov _ _ _ _ F1)).
      specialize (Q (quiet_handler _ _ _ _ _ _ _ NM)).
      change (walk_kids data ctx0 handler slack in_moov qt tt keys o (b :: r) s) with
        (match walk_box data ctx0 handler in_moov qt keys o b tt s with
         | Some (Ok (v, (_, keys1)), s1) =>
             match walk_kids data ctx0 handler slack in_moov qt tt keys1 (o + box_size b) r s1 with
             | Some (Ok vs, s2) => Some (Ok (v :: vs), s2)
             | x => x
             end
         | Some (Err e, s1) => Some (Err e, s1)
         | _ => None
         end).
      rewrite W. clear W.
      match goal with |- context [run ?a ?b ?c ?d ?e] => destruct (run a b c d e) as [[[v| | |] s1]|]; try contradiction; [|exact I] end.
      specialize (IH slack qt keys' (o + box_size b) s1 F2).
      destruct (walk_kids data ctx0 handler slack in_moov qt tt keys' (o + box_size b) r s1) as [[[vs| | |] s2]|]; try contradiction; exact I.
  Qed.
  Lemma kids_step : forall kids slack post qt last, list_wf last kids -> (last = true -> slack ++ post = []) ->
    forall pre keys s I P G B c vals s', data = pre ++ flat_map box_bytes kids ++ slack ++ post ->
    Forall good (list_kids data ctx0 in_moov qt keys (lenN pre) kids) -> inv s I P G B c ->
    walk_kids data ctx0 handler slack in_moov qt tt keys (lenN pre) kids s = Some (Ok vals, s') -> Forall (fun v => v <> None) vals ->
    let body id := file_bytes (map e_box (filter (kept data id) (filter (deep 2) (list_kids data ctx0 in_moov qt keys (lenN pre) kids)))) in
    exists P', inv s' (fun id => I id ++ body id) P' G B c /\
      (forall id, In id ids -> sum_sizes id vals = lenN (body id) /\ lenN (body id) <= lenN (flat_map box_bytes kids)).
  Proof.
    intros kids slack post qt. induction kids as [|[f t own ks sl] r IH]; intros last HW HL pre keys s I P G B c vals s' HD F H W FV; cbv zeta.
    - cbn [walk_kids] in W. assert (Z : vals = [] /\ s' = s).
      { destruct slack; [injection W as <- <-; auto|]. destruct qt; [injection W as <- <-; auto|discriminate W]. }
      destruct Z as [-> ->]. exists P. cbn [list_kids filter map file_bytes flat_map sum_sizes]. split.
      + eapply inv_ext; [exact H|]. intros u Hu. cbv beta. rewrite app_nil_r. repeat split.
      + intros id Hid. split; [reflexivity|]. lia.
    - cbn [list_kids flat_map] in *. apply Forall_app in F. destruct F as [F1 F2]. apply head_good in F1.
      destruct (kid_told _ _ _ _ F1) as ([qt' keys'] & TL).
      set (b := Box f t own ks sl) in *.
      change (walk_kids data ctx0 handler slack in_moov qt tt keys (lenN pre) (b :: r) s) with
        (match walk_box data ctx0 handler in_moov qt keys (lenN pre) b tt s with
         | Some (Ok (v, (_, keys1)), s1) =>
             match walk_kids data ctx0 handler slack in_moov qt tt keys1 (lenN pre + box_size b) r s1 with
             | Some (Ok vs, s2) => Some (Ok (v :: vs), s2)
             | x => x
             end
         | Some (Err e, s1) => Some (Err e, s1)
         | _ => None
         end) in W.
      pose proof (walk_head in_moov qt keys (lenN pre) f t own ks sl s) as WH. cbv zeta in WH. fold b in WH. rewrite TL in WH.
      destruct (head_box in_moov qt keys (lenN pre) b) as (HB & _ & HT). rewrite <- HT, TL in F2. cbn [snd] in F2.
      rewrite <- HT, TL. cbn [snd].
      set (e := head in_moov qt keys (lenN pre) b) in *. rewrite WH in W. clear WH.
      match type of W with context [run ?a ?b ?c ?d ?e] => destruct (run a b c d e) as [[[v| | |] s1]|] eqn:R; try discriminate W end.
      destruct (walk_kids data ctx0 handler slack in_moov qt tt keys' (lenN pre + box_size b) r s1) as [[[vs| | |] s2]|] eqn:W2; try discriminate W.
      injection W as <- <-. pose proof (Forall_inv FV) as NV. apply Forall_inv_tail in FV.
      apply list_wf_cons in HW. destruct HW as [W1 W3].
      assert (A : TreeProofs.at_place data pre (flat_map box_bytes r ++ slack ++ post) (last && match r with [] => true | _ => false end) b).
      { split; [|split].
        - rewrite HD, <- app_assoc. reflexivity.
        - exact W1.
        - intros Z. apply andb_prop in Z. destruct Z as [Z1 Z2]. destruct r; [|discriminate]. cbn. auto. }
      assert (ST : stands e) by (apply (head_stands in_moov qt keys pre _ _ b (or_intror eq_refl) A F1)).
      assert (NM : is_type "moov" e = false) by (unfold e; rewrite head_type; exact (kid_not_moov _ _ _ _ F1)).
      destruct (is_one_of init_types e) eqn:IT; [|apply (other_none _ _ _ _ _ _ _ _ _ IT) in R; contradiction].
      rewrite <- HB in R at 2.
      destruct (init_step _ _ _ _ _ _ _ _ _ _ _ _ _ ST IT NM H R) as (P1 & ci & -> & H1 & C1).
      assert (OB : lenN pre + box_size b = lenN (pre ++ box_bytes b)) by (rewrite lenN_app; reflexivity).
      rewrite OB in F2, W2 |- *.
      destruct (IH last W3 HL (pre ++ box_bytes b) keys' s1 _ _ _ _ _ vs s2 ltac:(rewrite HD, <- !app_assoc; reflexivity) F2 H1 W2 FV) as (P2 & H2 & C2).
      set (rest := list_kids data ctx0 in_moov qt keys' (lenN (pre ++ box_bytes b)) r) in *.
      assert (BD : forall id, file_bytes (map e_box (filter (kept data id) (filter (deep 2) (list_box data ctx0 in_moov qt keys (lenN pre) b ++ rest)))) =
                   (if kept data id e then box_bytes (e_box e) else []) ++ file_bytes (map e_box (filter (kept data id) (filter (deep 2) rest)))).
      { intros id. rewrite filter_app. destruct (list_box_head in_moov qt keys (lenN pre) b) as [_ Q]. cbn [List.length] in Q. rewrite Q. fold e.
        cbn [app filter]. destruct (kept data id e); reflexivity. }
      exists P2. split.
      + eapply inv_ext; [exact H2|]. intros u Hu. cbv beta. rewrite BD, app_assoc. repeat split.
      + intros id Hid. rewrite BD. cbn [sum_sizes]. destruct (C2 id Hid) as [D1 D2]. rewrite (C1 id Hid), D1, !lenN_app. split; [reflexivity|].
        rewrite HB. destruct (kept data id e); [lia|]. change (lenN (@nil byte)) with 0. lia.
  Qed.

  (** *** The boxes at the top level *)
  Lemma top_told : forall qt keys o b, good (head [] qt keys o b) -> exists x, e_told (head [] qt keys o b) = Ok x.
  Proof.
    intros qt keys o b GD. destruct (g_read _ GD) as [_ R]. apply R. left. destruct (head_box [] qt keys o b) as (_ & -> & _). reflexivity.
  Qed.
  Lemma moov_enter : forall qt keys o f own kids slack, enter data ctx0 [] qt keys o (Box f (bt "moov") own kids slack) = Ok (qt, keys).
  Proof. reflexivity. Qed.
  Lemma moov_open : forall qt keys o f own kids slack, let b := Box f (bt "moov") own kids slack in good (head [] qt keys o b) ->
    exists d x, decoded data (bi_ctx (e_info (head [] qt keys o b))) o b = Ok (d, x, lenN own).
  Proof.
    intros qt keys o f own kids slack b GD. destruct (g_read _ GD) as [R _]. destruct (R eq_refl) as [X _]. exact X.
  Qed.
  Lemma moov_list : forall qt keys o f own kids slack, let b := Box f (bt "moov") own kids slack in
    list_box data ctx0 [] qt keys o b = head [] qt keys o b :: list_kids data ctx0 in_moov qt keys (o + hsize f + lenN own) kids /\
    inside data (head [] qt keys o b) = filter (deep 2) (list_kids data ctx0 in_moov qt keys (o + hsize f + lenN own) kids).
  Proof.
    intros qt keys o f own kids slack b.
    assert (E : list_box data ctx0 [] qt keys o b = head [] qt keys o b :: list_kids data ctx0 in_moov qt keys (o + hsize f + lenN own) kids).
    { unfold b. rewrite list_box_eq. reflexivity. }
    split; [exact E|]. unfold inside, below.
    change (list_box data ctx0 [] (IsQuickTimeCompatible (bi_ctx (e_info (head [] qt keys o b))))
      (QuickTimeKeysMetaEntryCount (bi_ctx (e_info (head [] qt keys o b)))) (bi_offset (e_info (head [] qt keys o b))) (e_box (head [] qt keys o b)))
      with (list_box data ctx0 [] qt keys o b). rewrite E. reflexivity.
  Qed.
  Lemma file_fine : forall l qt keys o s, Forall good (list_file data ctx0 qt keys o l) -> fine (walk_file data ctx0 handler qt keys o l tt s).
  Proof.
    induction l as [|b r IH]; intros qt keys o s F; [exact I|]. cbn [list_file walk_file] in *.
    destruct (match enter data ctx0 [] qt keys o b with Ok x => x | _ => (qt, keys) end) as [qt2 keys2] eqn:EN.
    apply Forall_app in F. destruct F as [F1 F2]. pose proof (head_good _ _ _ _ _ _ F1) as GD.
    destruct (top_told _ _ _ _ GD) as ([qt' keys'] & TL). destruct (head_box [] qt keys o b) as (_ & _ & HT).
    pose proof TL as TL2. rewrite HT in TL2. rewrite TL2 in EN. injection EN as <- <-.
    destruct b as [f t own kids slack].
    pose proof (walk_head [] qt keys o f t own kids slack s) as W. cbv zeta in W. rewrite TL in W. rewrite W. clear W.
    match goal with |- context [run ?a ?b ?c ?d ?e] => assert (Q : fine (run a b c d e)) end.
    { destruct (bt_eqb t (bt "moov")) eqn:M.
      - pose proof M as M2. apply bytes_eqb_eq in M2. subst t. destruct (moov_open _ _ _ _ _ _ _ GD) as (d & x & D). rewrite D.
        apply moov_fine; [rewrite head_info_type; exact M|]. intros s1.
        destruct (moov_list qt keys o f own kids slack) as [L _]. rewrite L in F1.
        rewrite moov_enter in TL2. injection TL2 as <- <-. apply kids_fine. exact (Forall_inv_tail F1).
      - apply quiet_fine, quiet_handler. rewrite head_info_type. exact M. }
    match goal with |- context [run ?a ?b ?c ?d ?e] => destruct (run a b c d e) as [[[v| | |] s1]|]; try contradiction; [|exact I] end.
    specialize (IH qt' keys' (o + box_size (Box f t own kids slack)) s1 F2).
    destruct (walk_file data ctx0 handler qt' keys' (o + box_size (Box f t own kids slack)) r tt s1) as [[[vs| | |] s2]|]; try contradiction; exact I.
  Qed.

  Lemma cur_init : forall l e, is_one_of init_types e = true -> fragments (l ++ [e]) = fragments l.
  Proof.
    intros l e IT. apply fragments_other.
    - unfold is_type. destruct (bt_eqb (e_type e) (bt "moof")) eqn:M; [|reflexivity]. apply bytes_eqb_eq in M.
      unfold is_one_of, is_type, init_types in IT. rewrite M in IT. discriminate IT.
    - unfold is_type. destruct (bt_eqb (e_type e) (bt "mdat")) eqn:M; [|reflexivity]. apply bytes_eqb_eq in M.
      unfold is_one_of, is_type, init_types in IT. rewrite M in IT. discriminate IT.
  Qed.
  Lemma top_step : forall l qt keys pre post last f t own kids slack v s s' qt' keys', let b := Box f t own kids slack in let e := head [] qt keys (lenN pre) b in
    TreeProofs.at_place data pre post last b -> Forall good (list_box data ctx0 [] qt keys (lenN pre) b) -> state l s -> e_told e = Ok (qt', keys') ->
    run (decoded data (bi_ctx (e_info e)) (lenN pre) b) (lenN own) (payload b)
      (fun q s => walk_kids data ctx0 handler slack ([] ++ [t]) qt' q keys' (lenN pre + hsize f + lenN own) kids s)
      (handler (e_info e) ([] ++ [t]) tt s) = Some (Ok v, s') ->
    state (l ++ [e]) s'.
  Proof.
    intros l qt keys pre post last f t own kids slack v s s' qt' keys' b e A F H TL R.
    pose proof (head_good _ _ _ _ _ _ F) as GD. fold e in GD.
    assert (ST : stands e) by exact (head_stands [] qt keys pre post last b (or_introl eq_refl) A GD).
    destruct (head_box [] qt keys (lenN pre) b) as (HB & HP & HT). fold e in HB, HP, HT.
    destruct (is_one_of init_types e) eqn:IT.
    2: { rewrite <- HB in R at 2. refine (other_step _ _ _ _ _ _ _ _ _ ST IT _ H R).
         intros M. apply (g_moof _ GD M). rewrite HP. reflexivity. }
    destruct H as [P H].
    assert (KEEP : forall s P I, inv s I P (G_of l) (B_of l) (cur l) -> (forall id, In id ids -> I id = I_of (l ++ [e]) id) -> state (l ++ [e]) s).
    { intros s0 P0 I0 H0 E0. exists P0. assert (CU : cur (l ++ [e]) = cur l) by (unfold cur; now rewrite cur_init). rewrite CU.
      eapply inv_ext; [exact H0|]. intros u Hu. rewrite (E0 _ (ids_in T u Hu)). unfold G_of, B_of, fragments_of. rewrite cur_init by exact IT. repeat split. }
    destruct (is_type "moov" e) eqn:M.
    - (* moov *)
      pose proof M as M2. unfold e in M2. rewrite head_type in M2. cbn [box_type b] in M2. apply bytes_eqb_eq in M2.
      assert (EI : e_info e = info (lenN pre) b (bi_ctx (e_info e))).
      { unfold e, head. destruct (match enter data ctx0 [] qt keys (lenN pre) b with Ok x => x | _ => (qt, keys) end). reflexivity. }
      assert (NT : is_type "trak" e = false).
      { unfold is_type in M |- *. apply bytes_eqb_eq in M. rewrite M. reflexivity. }
      unfold divide_handler in R. change (is (e_info e) _) with (is_one_of init_types e) in R at 1. rewrite IT in R.
      change (is (e_info e) ["trak"]) with (is_type "trak" e || false)%bool in R. rewrite NT in R. cbn [orb] in R.
      unfold b in M2, TL. subst t. unfold b in GD. destruct (moov_open _ _ _ _ _ _ _ GD) as (d & x & D). fold b in D. fold e in D. rewrite D in R.
      rewrite HT in TL. unfold b in TL. rewrite moov_enter in TL. injection TL as <- <-.
      rewrite EI in R at 1.
      assert (IM : is_moov b = true) by reflexivity.
      destruct (init_moov T ids_nodup types_nodup order order_ok bits_per_second data data_small _ _ _ _ _ _ _ _ _ _ _ _ _ _ _ _ _ _ A IM
                  (fun _ => eq_refl) H R) as (P1 & s1 & vals & s2 & H1 & CH & FV & K).
      destruct (moov_list qt keys (lenN pre) f own kids slack) as [L IS]. fold b in L, IS. fold e in IS. rewrite L in F. apply Forall_inv_tail in F.
      destruct A as (HD & HW & HL).
      assert (PRE : lenN pre + hsize f + lenN own = lenN (pre ++ header f (bt "moov") (lenN (payload b)) ++ own)).
      { rewrite !lenN_app, lenN_header by reflexivity. lia. }
      rewrite PRE in F, CH, IS.
      unfold b in HW. apply box_wf_eq in HW. destruct HW as (_ & _ & _ & _ & WK).
      edestruct (kids_step kids slack post qt _ WK) with (vals := vals) (s' := s2) as (P2 & H2 & C2); [| |exact F|exact H1|exact CH|exact FV|].
      { intros Z. apply andb_prop in Z. destruct Z as [Z1 Z2]. destruct slack; [|discriminate]. exact (HL Z1). }
      { rewrite HD. unfold b. rewrite box_bytes_eq. cbn [box_form box_type payload]. rewrite <- !app_assoc. reflexivity. }
      rewrite <- IS in H2, C2.
      set (body := fun id => file_bytes (map e_box (filter (kept data id) (inside data e)))) in *.
      destruct (K P2 body) as (P3 & H3).
      + eapply inv_ext; [exact H2|]. intros u Hu. cbv beta. rewrite app_assoc. repeat split.
      + intros id Hid. destruct (C2 id Hid) as [C3 C4]. split; [exact C3|]. eapply N.le_trans; [exact C4|]. unfold b. cbn [payload]. rewrite !lenN_app. lia.
      + apply (KEEP _ _ _ H3). intros id Hid. rewrite I_snoc. f_equal. unfold I_of, init_boxes. cbn [flat_map]. rewrite M.
        unfold file_bytes at 1. cbn [app flat_map box_bytes]. rewrite !app_nil_r, HB. reflexivity.
    - rewrite <- HB in R at 2.
      destruct (init_step _ _ _ _ _ _ _ _ _ _ _ _ _ ST IT M H R) as (P1 & ci & -> & H1 & _).
      apply (KEEP _ _ _ H1). intros id Hid. rewrite I_snoc, I_simple by exact M. reflexivity.
  Qed.
  Lemma file_step : forall l done qt keys pre s vs s', data = pre ++ flat_map box_bytes l -> list_wf true l ->
    Forall good (list_file data ctx0 qt keys (lenN pre) l) -> state done s ->
    walk_file data ctx0 handler qt keys (lenN pre) l tt s = Some (Ok vs, s') ->
    state (done ++ filter (deep 1) (list_file data ctx0 qt keys (lenN pre) l)) s'.
  Proof.
    induction l as [|b r IH]; intros done qt keys pre s vs s' HD HW F H W.
    - injection W as _ <-. cbn [list_file filter]. rewrite app_nil_r. exact H.
    - cbn [list_file walk_file flat_map] in *. apply list_wf_cons in HW. destruct HW as [W1 W2].
      destruct (match enter data ctx0 [] qt keys (lenN pre) b with Ok x => x | _ => (qt, keys) end) as [qt2 keys2] eqn:EN.
      apply Forall_app in F. destruct F as [F1 F2]. pose proof (head_good _ _ _ _ _ _ F1) as GD.
      destruct (top_told _ _ _ _ GD) as ([qt' keys'] & TL). destruct (head_box [] qt keys (lenN pre) b) as (_ & _ & HT).
      pose proof TL as TL2. rewrite HT in TL2. rewrite TL2 in EN. injection EN as <- <-.
      assert (A : TreeProofs.at_place data pre (flat_map box_bytes r) (true && match r with [] => true | _ => false end) b).
      { split; [exact HD|]. split; [exact W1|]. intros Z. destruct r; [reflexivity|discriminate]. }
      destruct b as [f t own kids slack].
      pose proof (walk_head [] qt keys (lenN pre) f t own kids slack s) as WH. cbv zeta in WH. rewrite TL in WH. rewrite WH in W. clear WH.
      match type of W with context [run ?a ?b ?c ?d ?e] => destruct (run a b c d e) as [[[v| | |] s1]|] eqn:R; try discriminate W end.
      pose proof (top_step done qt keys pre _ _ f t own kids slack v s s1 qt' keys' A F1 H TL R) as H1. cbv zeta in H1.
      set (b := Box f t own kids slack) in *.
      destruct (walk_file data ctx0 handler qt' keys' (lenN pre + box_size b) r tt s1) as [[[vs2| | |] s2]|] eqn:WF; try discriminate W.
      injection W as _ <-.
      assert (OB : lenN pre + box_size b = lenN (pre ++ box_bytes b)) by (rewrite lenN_app; reflexivity).
      rewrite OB in F2, WF |- *.
      specialize (IH _ _ _ _ _ _ _ ltac:(rewrite HD, <- app_assoc; reflexivity) W2 F2 H1 WF).
      rewrite filter_app. destruct (list_box_head [] qt keys (lenN pre) b) as [_ Q]. cbn [List.length] in Q. rewrite Q.
      rewrite <- app_assoc in IH. exact IH.
  Qed.
End Boxes.
