(** C58: the divide command does not fail on a file that has what it looks for. *)
From Coq Require Import Permutation.
From Verif Require Import Base BaseProofs Schema Structs Registry Unmarshal BoxInfo ReadTree Extract Accessors Probe SpecProbe GoText Writer ProbeTool Divide.
From Verif Require Import HeaderProofs SpecTree TreeProofs PropTree SpecExtract PropExtract PropExtractPayload SpecWriter WriterProofs EditProofs
  SpecTool ToolProofs SpecReport PropProbe PropReport SpecDivide DivideProofs DivideWalk DivideTree DivideRuns PropDivide.
Local Open Scope string_scope.
Local Open Scope list_scope.
Local Open Scope N_scope.
Local Open Scope monad_scope.

Ltac use X := match goal with |- exists o q', (match ?y with _ => _ end) = _ => match type of X with _ = ?r => replace y with r by (symmetry; exact X) end end.

Section Tracks.
  Variable data : list byte.
  Hypothesis data_small : lenN data < 2 ^ 62.
  Section Trak.
    Variable e : entry.
    Hypothesis P : placed data e.
    Hypothesis C : plain e.
    Hypothesis SE : searchable data divide_places e.
    Hypothesis D : Forall (decodes data) (at_paths data e divide_places).
    Lemma payload_ok : forall p q, In p divide_places ->
      exists bs q', extract_boxes_with_payload std_registry data (Some (e_info e)) [map bt p] q = (Ok bs, q') /\ map view bs = map (view_entry data) (at_paths data e [p]).
    Proof.
      intros p q I. apply found_payloads; [exact data_small|now apply places_some|exact P|exact C|now apply place_search|].
      exact (places_sub data e divide_places p I D).
    Qed.
    Lemma boxes_ok : forall p q, In p divide_places -> exists bs q', extract_boxes std_registry data (Some (e_info e)) [map bt p] q = (Ok bs, q').
    Proof.
      intros p q I. destruct (found_boxes data data_small e [p] q) as (q' & X);
        [discriminate|constructor; [now apply places_some|constructor]|exact P|exact C|now apply place_search|]. eexists _, q'. exact X.
    Qed.
    Lemma only_ok : forall p q, In p divide_places -> one_at data e p -> exists x q', only_box data (e_info e) (map bt p) q = (Ok x, q').
    Proof.
      intros p q I O. destruct (payload_ok p q I) as (bs & q' & X & V). unfold only_box, bind.
      destruct (view_one data e p bs V O) as (x & y & z & ->). exists z, q'.
      match goal with |- (let (_, _) := ?w in _) = _ => replace w with (Ok (A:=list (boxinfo * (boxdef * fields))) [(x, (y, z))], q') by (symmetry; exact X) end. reflexivity.
    Qed.
    Lemma new_track_ok : forall q, one_at data e ["tkhd"] -> one_at data e ["mdia"; "mdhd"] -> exists q', new_track data (e_info e) q = (Ok (track_of data e), q').
    Proof.
      intros q O1 O2. assert (X : exists o q', new_track data (e_info e) q = (Ok o, q')).
      { unfold new_track. unfold bind at 1. change [bt "tkhd"] with (map bt ["tkhd"]).
        destruct (only_ok ["tkhd"] q) as (x1 & q1 & ->); [cbn; tauto|exact O1|]. unfold bind at 1. change [bt "mdia"; bt "mdhd"] with (map bt ["mdia"; "mdhd"]).
        destruct (only_ok ["mdia"; "mdhd"] q1) as (x2 & q2 & ->); [cbn; tauto|exact O2|]. cbv zeta. unfold bind at 1.
        change (stsd_path "avc1") with [map bt (stsd ["avc1"])]. change (stsd_path "mp4a") with [map bt (stsd ["mp4a"])].
        change (stsd_path "encv") with [map bt (stsd ["encv"])]. change (stsd_path "enca") with [map bt (stsd ["enca"])].
        destruct (payload_ok (stsd ["avc1"]) q2) as (bs & q3 & X & _); [cbn; tauto|]. use X. destruct bs as [|[a [b c]] bs]; [|eexists _, _; reflexivity].
        unfold bind at 1. destruct (boxes_ok (stsd ["mp4a"]) q3) as (bs & q4 & Y); [cbn; tauto|]. use Y. destruct bs; [|eexists _, _; reflexivity].
        unfold bind at 1. destruct (payload_ok (stsd ["encv"]) q4) as (bs & q5 & Z & _); [cbn; tauto|]. use Z. destruct bs as [|[a [b c]] bs]; [|eexists _, _; reflexivity].
        unfold bind at 1. destruct (boxes_ok (stsd ["enca"]) q5) as (bs & q6 & W); [cbn; tauto|]. use W. destruct bs; eexists _, _; reflexivity. }
      destruct X as (o & q' & X). exists q'. rewrite X. rewrite (new_track_found data data_small e P C SE q o q' X). reflexivity.
    Qed.
  End Trak.
  Lemma put_ids : forall t l x, In x (map d_id (put_track t l)) -> x = d_id t \/ In x (map d_id l).
  Proof.
    intros t. induction l as [|u r IH]; intros x H; cbn [put_track map] in *.
    - destruct H as [<-|[]]. now left.
    - destruct (N.eqb_spec (d_id u) (d_id t)) as [E|NE]; cbn [map] in H; destruct H as [<-|H].
      + now left.
      + right. now right.
      + right. now left.
      + apply IH in H. destruct H as [H|H]; [now left|right; now right].
  Qed.
  Lemma put_nodup : forall t l, NoDup (map d_id l) -> NoDup (map d_id (put_track t l)).
  Proof.
    intros t. induction l as [|u r IH]; intros H; cbn [put_track map] in *; [constructor; [intros []|constructor]|].
    apply NoDup_cons_iff in H. destruct H as [H1 H2].
    destruct (N.eqb_spec (d_id u) (d_id t)) as [E|NE]; cbn [map].
    - constructor; [now rewrite <- E|exact H2].
    - constructor; [|now apply IH]. intros X. apply put_ids in X. destruct X; contradiction.
  Qed.
  Lemma put_all : forall (Q : dtrack -> Prop) t l, Q t -> Forall Q l -> Forall Q (put_track t l) /\ lenN (put_track t l) <= lenN l + 1.
  Proof.
    intros Q t l H F. induction F as [|u r Hu Hr [IH1 IH2]]; cbn [put_track].
    - split; [repeat constructor; exact H|cbn; lia].
    - destruct (d_id u =? d_id t); rewrite !lenN_cons; [split; [now constructor|lia]|split; [now constructor|lia]].
  Qed.
  Definition fresh (t : dtrack) : Prop := d_ipos t = 0 /\ d_segments t = [] /\ d_id t <> 4294967295.
  Lemma tracks_ok : forall l i acc q, Forall (fun e => placed data e /\ plain e /\ searchable data divide_places e /\
      one_at data e ["tkhd"] /\ one_at data e ["mdia"; "mdhd"] /\ Forall (decodes data) (at_paths data e divide_places) /\ trak_id data e <> 4294967295) l ->
    NoDup (map d_id acc) -> Forall fresh acc ->
    exists T q', for_each (fun _ bi l => o <- new_track data bi ;; ret (match o with Some t => put_track t l | None => l end)) i (map e_info l) acc q = (Ok T, q') /\
      NoDup (map d_id T) /\ Forall fresh T /\ lenN T <= lenN acc + lenN l.
  Proof.
    induction l as [|e r IH]; intros i acc q F ND FR.
    - exists acc, q. split; [reflexivity|]. split; [exact ND|]. split; [exact FR|cbn; lia].
    - cbn [map for_each]. unfold bind at 1. unfold bind at 1. pose proof (Forall_inv F) as (F1 & F2 & F3 & F4 & F5 & F6 & F7). apply Forall_inv_tail in F.
      destruct (new_track_ok e F1 F2 F3 F6 q F4 F5) as (q1 & X). rewrite X. cbn [ret]. rewrite lenN_cons.
      unfold track_of. destruct (trak_kind data e) as [k|].
      + set (t := mkdt _ _ _ _ _ _ _ _ _ _). assert (T : fresh t) by (split; [reflexivity|]; split; [reflexivity|exact F7]).
        destruct (put_all fresh t acc T FR) as [G1 G2]. destruct (IH (i + 1) (put_track t acc) q1 F (put_nodup t acc ND) G1) as (T' & q' & Y & H1 & H2 & H3).
        exists T', q'. split; [exact Y|]. split; [exact H1|]. split; [exact H2|lia].
      + destruct (IH (i + 1) acc q1 F ND FR) as (T' & q' & Y & H1 & H2 & H3). exists T', q'. split; [exact Y|]. split; [exact H1|]. split; [exact H2|lia].
  Qed.
End Tracks.

(** C58.  Divide succeeds on a file in which all boxes are where it expects them and
    can be decoded. *)
Theorem C58_succeeds : forall order bits_per_second seconds_text target_text ts, let data := file_bytes ts in
  (forall k l, Permutation (order k l) l) ->
  lenN data < 2 ^ 62 -> list_wf true ts ->
  let all := list_file data ctx0 false 0 0 ts in
  Forall (readable data 0 [[bt "moov"; bt "trak"]]) all ->
  Forall (fun e => e_path e <> [bt "moov"; bt "moov"]) all ->
  let traks := filter (fun e => selected 0 [[bt "moov"; bt "trak"]] (e_path e)) all in
  let tops := filter (fun e => (List.length (e_path e) =? 1)%nat) all in
  Forall (searchable data divide_places) traks ->
  Forall (fun e => is_type "trak" e = true -> searchable data [["tkhd"]] e) tops ->
  Forall (fun e => is_type "moof" e = true -> searchable data fragment_places e) tops ->
  lenN traks * lenN data < 2 ^ 60 -> complete data all traks tops ->
  exists files, divide order bits_per_second seconds_text target_text data = (Ok tt, files).
Proof.
  intros order bits sec target ts data OK D62 HW all HR HM traks tops SE ST SF D60 CM.
  destruct (C29_extract ts [[bt "moov"; bt "trak"]] 0 D62 HW) as (p0 & X); [discriminate|constructor; [discriminate|constructor]|exact HR|].
  fold data all traks in X.
  assert (PL : Forall (placed data) all) by (apply (file_placed data ctx0) with (pre := []); [exact HW|reflexivity]).
  assert (PT : forall e, In e traks -> e_path e = [bt "moov"; bt "trak"] /\ placed data e /\ plain e).
  { intros e I. apply filter_In in I. destruct I as [I S]. apply selected_in in S; [|repeat constructor]. destruct S as [S|[]].
    split; [now symmetry|]. split; [rewrite Forall_forall in PL; now apply PL|].
    pose proof (list_file_ctx data ctx0 ts false 0 0) as Q. rewrite Forall_forall in Q. destruct (Q e I) as (qt & ks & C).
    rewrite <- S in C. apply (ctx_plain e _ _ _ C). reflexivity. }
  unfold divide, track_map, bind at 1. rewrite X.
  destruct (tracks_ok data D62 traks 0 [] p0) as (T & q0 & Y & ND & FR & LN); [|constructor|constructor|].
  { apply Forall_forall. intros e I. destruct (PT e I) as (_ & P1 & P2). destruct (cm_traks _ _ _ _ CM e I) as (C1 & C2 & C3 & C4).
    rewrite Forall_forall in SE. repeat (split; auto). }
  rewrite Y. change (lenN (A:=dtrack) []) with 0 in LN. clear X Y.
  set (K := map d_id T) in *.
  assert (LK : lenN K = lenN T) by (unfold K, lenN; now rewrite map_length).
  set (L := costs K ts).
  assert (LS : L < 2 ^ 63).
  { unfold L, costs. rewrite LK. change (flat_map box_bytes ts) with data. change (2 ^ 63) with 9223372036854775808. change (2 ^ 60) with 1152921504606846976 in D60.
    assert (lenN T * lenN data <= lenN traks * lenN data) by (apply N.mul_le_mono_r; lia). lia. }
  set (s0 := mkds T no_files 4294967295 0 (Ok tt)).
  assert (R0 : ready K s0).
  { constructor; [reflexivity|reflexivity|]. apply Forall_map. eapply Forall_impl; [|exact FR]. intros t (_ & _ & N) E. now destruct N. }
  assert (F0 : fits 0 s0).
  { split; [intros k; cbn; lia|]. intros t It. rewrite Forall_forall in FR. destruct (FR t It) as (Z & _). rewrite Z. lia. }
  (* the files *)
  unfold create_files.
  match goal with |- context [range order ?f ?a s0] =>
    destruct (range_ok order OK L unit 0 (fun _ => True) (fun _ _ => True) f a s0 0) as ([] & s1 & E1 & C1 & F1 & _) end; [|exact I|exact F0|lia|].
  { intros id [] s B _ Hid C _ F _. rewrite <- (core_keys _ _ C) in Hid. destruct (find_in s id Hid) as (t & FT & It & _). rewrite FT. eexists tt, _. split; [reflexivity|].
    split; [reflexivity|]. split; [|auto]. rewrite N.add_0_r. destruct F as [G1 G2]. split; [|exact G2]. intros k. rewrite !content_set.
    destruct (fpath_eqb _ _); [cbn; lia|]. destruct (fpath_eqb _ _); [cbn; lia|apply G1]. }
  rewrite N.mul_0_r, N.add_0_r in F1. rewrite E1. clear E1. apply (ready_core K s0 s1 C1) in R0. clear C1.
  (* the boxes *)
  assert (AB : Forall (able data) all).
  { apply Forall_forall. intros e I. rewrite Forall_forall in HR, HM, SE, ST, SF.
    assert (TOP : List.length (e_path e) = 1%nat -> In e tops) by (intros LP; apply filter_In; split; [exact I|now rewrite LP]).
    assert (TRK : e_path e = [bt "moov"; bt "trak"] -> In e traks) by (intros LP; apply filter_In; split; [exact I|now rewrite LP]).
    constructor; [constructor| | | | |].
    - exact (HR e I).
    - intros TR [LP|LP]; [exact (ST e (TOP LP) TR)|]. refine (searchable_incl _ _ _ _ _ (SE e (TRK LP))). intros x [<-|[]]. left. reflexivity.
    - intros M LP. exact (SF e (TOP LP) M).
    - exact (HM e I).
    - intros LP. exact (cm_top _ _ _ _ CM e (TOP LP)).
    - intros LP. pose proof (cm_moov _ _ _ _ CM e I LP) as Q. unfold is_one_of, init_types in *. cbn [existsb] in *. now rewrite Q, orb_true_r.
    - intros M LP. exact (cm_slack _ _ _ _ CM e (TOP LP) M).
    - intros TR [LP|LP].
      + exact (cm_top_traks _ _ _ _ CM e (TOP LP) TR).
      + destruct (cm_traks _ _ _ _ CM e (TRK LP)) as (Q1 & _ & Q2 & _). split; [exact Q1|]. refine (places_sub data e divide_places _ _ Q2). now left.
    - intros M LP. destruct (cm_moofs _ _ _ _ CM e (TOP LP) M) as (Q1 & Q2 & Q3). split; [exact (SF e (TOP LP) M)|]. auto. }
  destruct (file_ok order OK bits data D62 L LS K ND ts false 0%Z [] s1 0 eq_refl HW AB R0 F1) as (vs & s2 & W & R2 & F2); [cbn; lia|].
  change (lenN (A:=byte) []) with 0 in W.
  destruct (C21_walk _ _ _ (divide_handler order bits data) ts tt q0 s1 _ s2 D62 HW W) as (q1 & RS). fold data in RS. rewrite RS. cbn [snd].
  rewrite (r_stop _ _ R2).
  (* the playlists *)
  unfold playlists, bind.
  match goal with |- context [range order ?f ?a s2] =>
    destruct (range_ok order OK L (ttype -> option dtrack) 0 (fun _ => True) (fun _ _ => True) f a s2 (0 + costs K ts)) as (m & s3 & E3 & C3 & F3 & _) end; [|exact I|exact F2|lia|].
  { intros id m s B _ Hid C _ F _. rewrite <- (core_keys _ _ C) in Hid. destruct (find_in s id Hid) as (t & FT & It & _). rewrite FT. eexists _, _. split; [reflexivity|].
    split; [reflexivity|]. rewrite N.add_0_r. auto. }
  rewrite E3. rewrite N.mul_0_r, N.add_0_r in F3. set (s4 := set_file Master (master_playlist m) s3).
  assert (F4 : fits (0 + costs K ts) s4) by (destruct F3 as [G1 G2]; split; [intros k; unfold s4; rewrite content_set; exact (G1 k)|exact G2]).
  match goal with |- context [range order ?f ?a s4] =>
    destruct (range_ok order OK L unit 0 (fun _ => True) (fun _ _ => True) f a s4 (0 + costs K ts)) as ([] & s5 & E5 & C5 & F5 & _) end; [|exact I|exact F4|lia|].
  { intros id [] s B _ Hid C _ F _. rewrite <- (core_keys _ _ C) in Hid. destruct (find_in s id Hid) as (t & FT & It & _). rewrite FT. eexists tt, _. split; [reflexivity|].
    split; [reflexivity|]. split; [|auto]. rewrite N.add_0_r. destruct F as [G1 G2]. split; [|exact G2]. intros k. rewrite content_set.
    replace (fpath_eqb (Of (d_type t) Playlist) (Of k Init)) with false; [apply G1|]. cbn. now destruct (d_type t), k. }
  rewrite E5. eexists. reflexivity.
Qed.
Print Assumptions C58_succeeds.

(** ** A file *)
Section Check.
  Variable data : list byte.
  Definition decodes_b (x : entry) : bool := match e_decoded data x with Ok _ => true | _ => false end.
  Definition one_at_b (e : entry) (p : list string) : bool := match at_paths data e [p] with [_] => true | _ => false end.
  Definition under_moov_b (e : entry) : bool := match removelast (e_path e) with [a] => bt_eqb a (bt "moov") | _ => false end.
  Definition complete_b (all traks tops : list entry) : bool :=
    forallb (is_one_of ["moov"; "ftyp"; "pssh"; "mvhd"; "trak"; "mvex"; "udta"; "sidx"; "moof"; "mdat"; "mfra"]) tops &&
    forallb (fun e => negb (under_moov_b e) || is_one_of ["ftyp"; "pssh"; "mvhd"; "trak"; "mvex"; "udta"; "sidx"] e) all &&
    forallb (fun e => negb (is_type "moov" e) || match box_slack (e_box e) with [] => true | _ => false end) tops &&
    forallb (fun e => one_at_b e ["tkhd"] && one_at_b e ["mdia"; "mdhd"] && forallb decodes_b (at_paths data e divide_places) && negb (trak_id data e =? 0xFFFFFFFF)) traks &&
    forallb (fun e => negb (is_type "trak" e) || one_at_b e ["tkhd"] && forallb decodes_b (at_paths data e [["tkhd"]])) tops &&
    forallb (fun e => negb (is_type "moof" e) || one_at_b e ["traf"; "tfhd"] && has data e ["traf"; "trun"] && forallb decodes_b (at_paths data e fragment_places)) tops.
  Lemma decodes_b_ok : forall l, forallb decodes_b l = true -> Forall (decodes data) l.
  Proof.
    intros l H. rewrite forallb_forall in H. apply Forall_forall. intros x I. apply H in I. unfold decodes_b in I. unfold decodes.
    destruct (e_decoded data x); [eauto|discriminate I|discriminate I|discriminate I].
  Qed.
  Lemma one_at_b_ok : forall e p, one_at_b e p = true -> one_at data e p.
  Proof. intros e p H. unfold one_at_b in H. unfold one_at. destruct (at_paths data e [p]) as [|x [|y r]]; [discriminate H|eauto|discriminate H]. Qed.
  Lemma only_if : forall (f : entry -> bool) g l e, forallb (fun e => negb (f e) || g e) l = true -> In e l -> f e = true -> g e = true.
  Proof. intros f g l e H I F. rewrite forallb_forall in H. apply H in I. rewrite F in I. exact I. Qed.
  Lemma complete_b_ok : forall all traks tops, complete_b all traks tops = true -> complete data all traks tops.
  Proof.
    intros all traks tops H. unfold complete_b in H.
    apply andb_prop in H. destruct H as [H H6]. apply andb_prop in H. destruct H as [H H5]. apply andb_prop in H. destruct H as [H H4].
    apply andb_prop in H. destruct H as [H H3]. apply andb_prop in H. destruct H as [H1 H2]. constructor.
    - intros e I. rewrite forallb_forall in H1. now apply H1.
    - intros e I E. apply (only_if _ _ _ e H2 I). unfold under_moov_b. rewrite E. vm_compute. reflexivity.
    - intros e I E. pose proof (only_if _ _ _ e H3 I E) as Q. cbv beta in Q. destruct (box_slack (e_box e)); [reflexivity|discriminate Q].
    - intros e I. rewrite forallb_forall in H4. apply H4 in I. apply andb_prop in I. destruct I as [I I4]. apply andb_prop in I. destruct I as [I I3].
      apply andb_prop in I. destruct I as [I1 I2]. split; [now apply one_at_b_ok|]. split; [now apply one_at_b_ok|]. split; [now apply decodes_b_ok|].
      intros Q. rewrite Q in I4. discriminate I4.
    - intros e I E. pose proof (only_if _ _ _ e H5 I E) as Q. cbv beta in Q. apply andb_prop in Q. destruct Q as [Q1 Q2].
      split; [now apply one_at_b_ok|now apply decodes_b_ok].
    - intros e I E. pose proof (only_if _ _ _ e H6 I E) as Q. cbv beta in Q. apply andb_prop in Q. destruct Q as [Q Q3]. apply andb_prop in Q. destruct Q as [Q1 Q2].
      split; [now apply one_at_b_ok|]. split; [exact Q2|now apply decodes_b_ok].
  Qed.
End Check.
Example C58_succeeds_case :
  divisible divide_tree /\
  let data := file_bytes divide_tree in
  let all := list_file data ctx0 false 0 0 divide_tree in
  let traks := filter (fun e => selected 0 [[bt "moov"; bt "trak"]] (e_path e)) all in
  let tops := filter (fun e => (List.length (e_path e) =? 1)%nat) all in
  lenN traks * lenN data < 2 ^ 60 /\ complete data all traks tops.
Proof.
  split; [divisible|]. split; [vm_compute; reflexivity|]. apply complete_b_ok. vm_compute. reflexivity.
Qed.
