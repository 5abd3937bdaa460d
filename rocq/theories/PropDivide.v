(** C58: what the divide command writes, from the boxes of the file. *)
From Coq Require Import Permutation.
From Verif Require Import Base BaseProofs Schema Structs Registry Unmarshal BoxInfo ReadTree Extract Accessors Probe SpecProbe GoText Writer ProbeTool Divide.
From Verif Require Import HeaderProofs SpecTree TreeProofs PropTree SpecExtract PropExtract PropExtractPayload SpecWriter WriterProofs EditProofs
  SpecTool ToolProofs SpecReport PropProbe PropReport SpecDivide DivideProofs DivideWalk DivideTree DivideRuns.
Local Open Scope string_scope.
Local Open Scope list_scope.
Local Open Scope N_scope.
Local Open Scope monad_scope.

Ltac step H x q E :=
  match type of H with (match ?y with _ => _ end) = _ => destruct y as [[x| | |] q] eqn:E; try discriminate H end.

(** ** The tracks *)
Section Traks.
  Variable data : list byte.
  Hypothesis data_small : lenN data < 2 ^ 62.
  Section Trak.
    Variable e : entry.
    Hypothesis P : placed data e.
    Hypothesis C : plain e.
    Hypothesis SE : searchable data divide_places e.
    Lemma place_search : forall p, In p divide_places -> searchable data [p] e.
    Proof. intros p I. refine (searchable_incl _ _ _ _ _ SE). intros x [<-|[]]. exact I. Qed.
    Lemma places_some : forall p, In p divide_places -> p <> [].
    Proof. intros p I. cbn in I. repeat destruct I as [<-|I]; try discriminate. destruct I. Qed.
    Lemma found_payload : forall p q bs q', In p divide_places ->
      extract_boxes_with_payload std_registry data (Some (e_info e)) [map bt p] q = (Ok bs, q') ->
      map view bs = map (view_entry data) (at_paths data e [p]).
    Proof.
      intros p q bs q' I X. change [map bt p] with (map (map bt) [p]) in X.
      refine (found_view data data_small e [p] q bs q' _ _ P C (place_search p I) X); [discriminate|].
      constructor; [now apply places_some|constructor].
    Qed.
    Lemma only_found : forall p q x q', In p divide_places -> only_box data (e_info e) (map bt p) q = (Ok x, q') ->
      exists z, at_paths data e [p] = [z] /\ x = fields_of data z.
    Proof.
      intros p q x q' I H. unfold only_box, bind in H.
      step H bs q1 X.
      apply found_payload in X; [|exact I]. destruct bs as [|[a [b y]] [|c r]]; try discriminate H. injection H as <- _.
      apply one_view in X. destruct X as (z & X1 & X2). exists z. auto.
    Qed.
    Lemma has_payload : forall p q bs q', In p divide_places ->
      extract_boxes_with_payload std_registry data (Some (e_info e)) [map bt p] q = (Ok bs, q') ->
      match bs with
      | (_, (_, x)) :: _ => has data e p = true /\ x = first_at data e p
      | [] => has data e p = false
      end.
    Proof.
      intros p q bs q' I X. apply found_payload in X; [|exact I]. unfold has, first_at.
      destruct bs as [|[a [b y]] r], (at_paths data e [p]) as [|z zs]; try discriminate X; [reflexivity|]. split; [reflexivity|].
      cbn [map] in X. apply (f_equal (@hd_error _)) in X. cbn [hd_error] in X. injection X as _ X. exact X.
    Qed.
    Lemma has_box : forall p q bs q', In p divide_places ->
      extract_boxes std_registry data (Some (e_info e)) [map bt p] q = (Ok bs, q') ->
      match bs with _ :: _ => has data e p = true | [] => has data e p = false end.
    Proof.
      intros p q bs q' I X. change [map bt p] with (map (map bt) [p]) in X.
      destruct (found_boxes data data_small e [p] q) as (p' & Y); [discriminate|constructor; [now apply places_some|constructor]|exact P|exact C|now apply place_search|].
      rewrite Y in X. injection X as <- _. unfold has. destruct (at_paths data e [p]); reflexivity.
    Qed.
    Definition track_of : option dtrack :=
      match trak_kind data e with
      | Some k =>
          let n name := match k with TVideo | TEncVideo => uint_of name (trak_picture data e) | _ => 0 end in
          Some (mkdt (trak_id data e) k (trak_timescale data e) 0 (n "Height") (n "Width") [] 0 0 0)
      | None => None
      end.
    Lemma new_track_found : forall q o q', new_track data (e_info e) q = (Ok o, q') -> o = track_of.
    Proof.
      intros q o q' H. unfold new_track in H. unfold bind at 1 in H.
      change [bt "tkhd"] with (map bt ["tkhd"]) in H.
      step H tkhd q1 X1.
      apply only_found in X1; [|cbn; tauto]. destruct X1 as (z1 & Z1 & ->). unfold bind at 1 in H.
      change [bt "mdia"; bt "mdhd"] with (map bt ["mdia"; "mdhd"]) in H.
      step H mdhd q2 X2.
      apply only_found in X2; [|cbn; tauto]. destruct X2 as (z2 & Z2 & ->). cbv zeta in H.
      assert (E1 : uint_of "TrackID" (fields_of data z1) = trak_id data e) by (unfold trak_id, number_in; now rewrite Z1).
      assert (E2 : uint_of "Timescale" (fields_of data z2) = trak_timescale data e) by (unfold trak_timescale, number_in; now rewrite Z2).
      rewrite E1, E2 in H. clear Z1 Z2 E1 E2.
      change (stsd_path "avc1") with [map bt (stsd ["avc1"])] in H. change (stsd_path "mp4a") with [map bt (stsd ["mp4a"])] in H.
      change (stsd_path "encv") with [map bt (stsd ["encv"])] in H. change (stsd_path "enca") with [map bt (stsd ["enca"])] in H.
      unfold track_of, trak_picture, trak_kind. unfold bind at 1 in H.
      step H bs q3 X.
      apply has_payload in X; [|cbn; tauto]. destruct bs as [|[a1 [b1 x1]] r].
      2: { destruct X as [X ->]. rewrite X. injection H as <- _. reflexivity. }
      rewrite X. clear X. unfold bind at 1 in H.
      step H bs q4 X.
      apply has_box in X; [|cbn; tauto]. destruct bs as [|a2 r].
      2: { rewrite X. injection H as <- _. reflexivity. }
      rewrite X. clear X. unfold bind at 1 in H.
      step H bs q5 X.
      apply has_payload in X; [|cbn; tauto]. destruct bs as [|[a3 [b3 x3]] r].
      2: { destruct X as [X ->]. rewrite X. injection H as <- _. reflexivity. }
      rewrite X. clear X. unfold bind at 1 in H.
      step H bs q6 X.
      apply has_box in X; [|cbn; tauto]. destruct bs as [|a4 r]; rewrite X; injection H as <- _; reflexivity.
    Qed.
  End Trak.

  Definition supported (e : entry) : bool := match trak_kind data e with Some _ => true | None => false end.
  Definition tracks_of (l : list entry) : list dtrack := flat_map (fun e => match track_of e with Some t => [t] | None => [] end) l.
  Lemma tracks_ids : forall l, map d_id (tracks_of l) = map (trak_id data) (filter supported l).
  Proof.
    induction l as [|e r IH]; [reflexivity|]. unfold tracks_of in *. cbn [flat_map filter]. unfold track_of at 1, supported at 1.
    destruct (trak_kind data e); cbn [app map]; [now rewrite IH|exact IH].
  Qed.
  Lemma tracks_kinds : forall l, map (fun t => Some (d_type t)) (tracks_of l) = map (trak_kind data) (filter supported l).
  Proof.
    induction l as [|e r IH]; [reflexivity|]. unfold tracks_of in *. cbn [flat_map filter]. unfold track_of at 1, supported at 1.
    destruct (trak_kind data e) eqn:K; cbn [app map]; [now rewrite IH, K|exact IH].
  Qed.
  Lemma put_new : forall t l, ~ In (d_id t) (map d_id l) -> put_track t l = l ++ [t].
  Proof.
    induction l as [|u r IH]; intros N; [reflexivity|]. cbn [put_track map] in *.
    destruct (N.eqb_spec (d_id u) (d_id t)) as [E|_]; [destruct N; now left|]. cbn [app]. f_equal. apply IH. intros I. apply N. now right.
  Qed.
  Lemma track_loop : forall l i acc q o q', Forall (fun e => placed data e /\ plain e /\ searchable data divide_places e) l ->
    NoDup (map d_id (acc ++ tracks_of l)) ->
    for_each (fun _ bi l => o <- new_track data bi ;; ret (match o with Some t => put_track t l | None => l end)) i (map e_info l) acc q = (Ok o, q') ->
    o = acc ++ tracks_of l.
  Proof.
    induction l as [|e r IH]; intros i acc q o q' F ND H.
    - injection H as <- _. unfold tracks_of. cbn [flat_map]. now rewrite app_nil_r.
    - cbn [map for_each] in H. unfold bind at 1 in H. unfold bind at 1 in H.
      step H acc1 q1 Y. step Y x q2 X. injection Y as <- <-.
      pose proof (Forall_inv F) as (F1 & F2 & F3). apply Forall_inv_tail in F.
      apply new_track_found in X; try assumption. subst x.
      unfold tracks_of in *. cbn [flat_map] in *. destruct (track_of e) as [t|].
      + cbn [app] in ND. assert (NI : ~ In (d_id t) (map d_id acc)).
        { rewrite map_app in ND. cbn [map] in ND. apply NoDup_remove_2 in ND. intros I. apply ND. apply in_or_app. now left. }
        rewrite (put_new t acc NI) in H. apply IH in H; [|exact F|].
        * rewrite H, <- app_assoc. reflexivity.
        * rewrite <- app_assoc. exact ND.
      + apply IH in H; [|exact F|exact ND]. exact H.
  Qed.
  Lemma find_kind : forall k l, find (fun t => ttype_eqb (d_type t) k) (tracks_of l) =
    match find (of_kind data k) l with Some e => track_of e | None => None end.
  Proof.
    intros k. induction l as [|e r IH]; [reflexivity|]. unfold tracks_of in *. cbn [flat_map find]. unfold of_kind at 1.
    unfold track_of at 1. destruct (trak_kind data e) as [x|] eqn:K; [|exact IH]. cbn [app find d_type].
    destruct (ttype_eqb x k); [|exact IH]. unfold track_of. now rewrite K.
  Qed.
End Traks.

(** ** Files that are written in a loop *)
Section Loops.
  Variable order : N -> list N -> list N.
  Hypothesis order_ok : forall k l, Permutation (order k l) l.
  Definition writes (w : dtrack -> fname -> option (list byte)) (body : N -> unit -> M dst unit) : Prop :=
    forall id s, match find_track id s with
      | Some t => exists s1, body id tt s = (Ok tt, s1) /\ ds_tracks s1 = ds_tracks s /\ ds_curr s1 = ds_curr s /\ ds_stop s1 = ds_stop s /\
          forall p, ds_files s1 p = match p with
                                    | Of k n => if ttype_eqb k (d_type t) then match w t n with Some c => Some c | None => ds_files s p end else ds_files s p
                                    | Master => ds_files s p end
      | None => True
      end.
  Lemma track_find : forall s t, NoDup (map d_id (ds_tracks s)) -> In t (ds_tracks s) -> find_track (d_id t) s = Some t.
  Proof. intros s t ND I. unfold find_track. exact (find_id (ds_tracks s) ND t I). Qed.
  Lemma write_loop : forall w body, writes w body -> forall l i s, NoDup (map d_id (ds_tracks s)) -> NoDup (map d_type (ds_tracks s)) -> NoDup l ->
    (forall id, In id l -> In id (map d_id (ds_tracks s))) ->
    exists s', for_each (fun _ id a => body id a) i l tt s = (Ok tt, s') /\ ds_tracks s' = ds_tracks s /\ ds_curr s' = ds_curr s /\ ds_stop s' = ds_stop s /\
      (forall t n, In t (ds_tracks s) -> In (d_id t) l ->
         ds_files s' (Of (d_type t) n) = match w t n with Some c => Some c | None => ds_files s (Of (d_type t) n) end) /\
      (forall p, (forall t n, p = Of (d_type t) n -> In t (ds_tracks s) -> In (d_id t) l -> False) -> ds_files s' p = ds_files s p).
  Proof.
    intros w body WR. induction l as [|id r IH]; intros i s N1 N2 ND IN.
    - exists s. cbn [for_each ret]. split; [reflexivity|]. do 3 (split; [reflexivity|]). split; [intros t n _ []|reflexivity].
    - apply NoDup_cons_iff in ND. destruct ND as [NI ND].
      destruct (proj1 (in_map_iff _ _ _) (IN id (or_introl eq_refl))) as (t0 & E0 & I0).
      pose proof (WR id s) as W. rewrite <- E0, (track_find s t0 N1 I0), E0 in W. destruct W as (s1 & B & T1 & C1 & S1 & F1).
      destruct (IH (i + 1) s1) as (s' & L & T2 & C2 & S2 & F2 & G2); rewrite ?T1; auto.
      { intros k Hk. apply IN. now right. }
      exists s'. cbn [for_each]. unfold bind at 1. rewrite B. split; [exact L|]. rewrite T2, C2, S2.
      split; [exact T1|]. split; [exact C1|]. split; [exact S1|]. rewrite T1 in F2, G2. split.
      + intros t n It Il. destruct (N.eqb_spec (d_id t) id) as [Z|Z].
        * assert (t = t0) by (apply (id_inj (ds_tracks s) N1); [exact It|exact I0|now rewrite E0]). subst t0.
          rewrite G2.
          -- rewrite F1, ttype_eqb_refl. reflexivity.
          -- intros u m Q Iu Ir. injection Q as Q _. apply (type_inj (ds_tracks s) N2 t u It Iu) in Q. subst u. rewrite Z in Ir. contradiction.
        * destruct Il as [Il|Il]; [now symmetry in Il|]. rewrite (F2 t n It Il), F1.
          replace (ttype_eqb (d_type t) (d_type t0)) with false; [reflexivity|]. symmetry. destruct (ttype_eqb (d_type t) (d_type t0)) eqn:Q; [|reflexivity].
          apply ttype_eqb_eq in Q. apply (type_inj (ds_tracks s) N2 t t0 It I0) in Q. subst t0. contradiction.
      + intros p X. rewrite G2.
        * rewrite F1. destruct p as [|k n]; [reflexivity|]. destruct (ttype_eqb k (d_type t0)) eqn:Q; [|reflexivity].
          apply ttype_eqb_eq in Q. exfalso. apply (X t0 n); [now rewrite Q|exact I0|left; now symmetry].
        * intros t n Q It Ir. apply (X t n Q It). now right.
  Qed.
  Lemma write_range : forall w body, writes w body -> forall s, NoDup (map d_id (ds_tracks s)) -> NoDup (map d_type (ds_tracks s)) ->
    exists s', range order body tt s = (Ok tt, s') /\ ds_tracks s' = ds_tracks s /\ ds_curr s' = ds_curr s /\ ds_stop s' = ds_stop s /\
      (forall t n, In t (ds_tracks s) -> ds_files s' (Of (d_type t) n) = match w t n with Some c => Some c | None => ds_files s (Of (d_type t) n) end) /\
      (forall p, (forall t n, p = Of (d_type t) n -> In t (ds_tracks s) -> False) -> ds_files s' p = ds_files s p).
  Proof.
    intros w body WR s N1 N2. unfold range, visit.
    set (s0 := mkds (ds_tracks s) (ds_files s) (ds_curr s) (ds_loops s + 1) (ds_stop s)).
    set (l := order (ds_loops s) (map d_id (ds_tracks s))).
    assert (PL : Permutation l (map d_id (ds_tracks s))) by apply order_ok.
    destruct (write_loop w body WR l 0 s0 N1 N2) as (s' & L & T2 & C2 & S2 & F2 & G2).
    - eapply Permutation_NoDup; [apply Permutation_sym; exact PL|exact N1].
    - intros id. apply Permutation_in. exact PL.
    - exists s'. split; [exact L|]. split; [exact T2|]. split; [exact C2|]. split; [exact S2|]. split.
      + intros t n It. apply (F2 t n It). eapply Permutation_in; [apply Permutation_sym; exact PL|]. now apply in_map.
      + intros p X. apply G2. intros t n Q It _. exact (X t n Q It).
  Qed.
End Loops.

(** ** Playlists *)
Section Texts.
  Variable bits_per_second : N -> seconds -> N.
  Variable seconds_text : seconds -> text.
  Variable target_text : list seconds -> text.
  Lemma lines_cons : forall a l, lines (a :: l) = a ++ nl ++ lines l.
  Proof. intros. unfold lines. cbn [flat_map]. rewrite <- app_assoc. reflexivity. Qed.
  Lemma lines_app : forall a b, lines (a ++ b) = lines a ++ lines b.
  Proof. intros. apply flat_map_app. Qed.
  Lemma media_text : forall l i, media_lines seconds_text i l =
    lines (flat_map (fun x => [ lit "#EXTINF:" ++ seconds_text (snd x) ++ lit ","; dec_text (fst x) ++ lit ".mp4" ]) (numbered i l)).
  Proof.
    induction l as [|d r IH]; intros i; [reflexivity|]. cbn [media_lines numbered flat_map fst snd app]. rewrite !lines_cons, IH.
    unfold segment_name. rewrite <- !app_assoc. reflexivity.
  Qed.
  Lemma media_playlist_text : forall l, media_playlist seconds_text target_text l = track_list seconds_text target_text l.
  Proof.
    intros l. unfold media_playlist, track_list. cbn [app]. rewrite !lines_cons, lines_app, <- media_text, lines_cons.
    rewrite <- !app_assoc. reflexivity.
  Qed.
  Lemma master_text : forall data traks tops (m : ttype -> option dtrack),
    (forall k, match find (of_kind data k) traks with
               | Some e => exists t, m k = Some t /\ d_bandwidth t = bandwidth bits_per_second data (trak_timescale data e) (fragments_of data (trak_id data e) tops) /\
                   (k = TVideo \/ k = TEncVideo -> d_width t = uint_of "Width" (trak_picture data e) /\ d_height t = uint_of "Height" (trak_picture data e))
               | None => m k = None
               end) ->
    master_playlist m = movie_list bits_per_second data traks tops.
  Proof.
    intros data traks tops m H. unfold master_playlist, movie_list.
    assert (A : match m TAudio, m TEncAudio with Some _, _ => Some TAudio | None, Some _ => Some TEncAudio | None, None => None end =
                option_map fst (either data TAudio TEncAudio traks)).
    { unfold either. pose proof (H TAudio) as H1. pose proof (H TEncAudio) as H2.
      destruct (find (of_kind data TAudio) traks) as [e1|]; [destruct H1 as (t1 & -> & _); reflexivity|]. rewrite H1.
      destruct (find (of_kind data TEncAudio) traks) as [e2|]; [destruct H2 as (t2 & -> & _); reflexivity|]. now rewrite H2. }
    assert (V : match either data TVideo TEncVideo traks with
                | Some (k, e) => exists t, match m TVideo, m TEncVideo with
                    | Some t, _ => Some (TVideo, t) | None, Some t => Some (TEncVideo, t) | None, None => None end = Some (k, t) /\
                    d_bandwidth t = bandwidth bits_per_second data (trak_timescale data e) (fragments_of data (trak_id data e) tops) /\
                    d_width t = uint_of "Width" (trak_picture data e) /\ d_height t = uint_of "Height" (trak_picture data e)
                | None => match m TVideo, m TEncVideo with
                    | Some t, _ => Some (TVideo, t) | None, Some t => Some (TEncVideo, t) | None, None => None end = None
                end).
    { unfold either. pose proof (H TVideo) as H1. pose proof (H TEncVideo) as H2.
      destruct (find (of_kind data TVideo) traks) as [e1|]; [destruct H1 as (t1 & -> & B & W); exists t1; split; [reflexivity|]; auto|]. rewrite H1.
      destruct (find (of_kind data TEncVideo) traks) as [e2|]; [destruct H2 as (t2 & -> & B & W); exists t2; split; [reflexivity|]; auto|]. now rewrite H2. }
    rewrite A. cbv zeta. destruct (either data TAudio TEncAudio traks) as [[ka ea]|]; cbn [option_map fst];
      destruct (either data TVideo TEncVideo traks) as [[kv ev]|]; [destruct V as (t & -> & -> & -> & ->)|rewrite V| destruct V as (t & -> & -> & -> & ->)|rewrite V];
      cbn [app]; rewrite ?lines_cons; unfold quoted, lines; cbn [flat_map]; rewrite <- ?app_assoc; reflexivity.
  Qed.
End Texts.
Section KindMap.
  Variable order : N -> list N -> list N.
  Hypothesis order_ok : forall k l, Permutation (order k l) l.
  Definition note_kind (id : N) (m : ttype -> option dtrack) : M dst (ttype -> option dtrack) := fun s =>
    match find_track id s with
    | Some t => (Ok (fun ty => if ttype_eqb ty (d_type t) then Some t else m ty), s)
    | None => (Panic, s)
    end.
  Lemma kinds_loop : forall l i m s, NoDup (map d_id (ds_tracks s)) -> NoDup (map d_type (ds_tracks s)) -> NoDup l ->
    (forall id, In id l -> In id (map d_id (ds_tracks s))) ->
    exists m', for_each (fun _ id m => note_kind id m) i l m s = (Ok m', s) /\
      (forall t, In t (ds_tracks s) -> In (d_id t) l -> m' (d_type t) = Some t) /\
      (forall k, (forall t, In t (ds_tracks s) -> In (d_id t) l -> d_type t <> k) -> m' k = m k).
  Proof.
    induction l as [|id r IH]; intros i m s N1 N2 ND IN.
    - exists m. split; [reflexivity|]. split; [intros t _ []|reflexivity].
    - apply NoDup_cons_iff in ND. destruct ND as [NI ND].
      destruct (proj1 (in_map_iff _ _ _) (IN id (or_introl eq_refl))) as (t0 & E0 & I0).
      assert (NK : note_kind id m s = (Ok (fun ty => if ttype_eqb ty (d_type t0) then Some t0 else m ty), s)).
      { unfold note_kind. rewrite <- E0, (track_find s t0 N1 I0). reflexivity. }
      cbn [for_each]. unfold bind at 1. rewrite NK.
      destruct (IH (i + 1) (fun ty => if ttype_eqb ty (d_type t0) then Some t0 else m ty) s N1 N2 ND (fun x Hx => IN x (or_intror Hx))) as (m' & L & F2 & G2).
      exists m'. split; [exact L|]. split.
      + intros t It Il. destruct (N.eqb_spec (d_id t) id) as [Z|Z].
        * assert (t = t0) by (apply (id_inj (ds_tracks s) N1); [exact It|exact I0|now rewrite E0]). subst t0.
          rewrite G2; [now rewrite ttype_eqb_refl|]. intros u Iu Ir Q. apply (type_inj (ds_tracks s) N2 u t Iu It) in Q. subst u.
          rewrite Z in Ir. contradiction.
        * destruct Il as [Il|Il]; [now symmetry in Il|]. now apply F2.
      + intros k X. rewrite G2.
        * destruct (ttype_eqb k (d_type t0)) eqn:Q; [|reflexivity]. apply ttype_eqb_eq in Q. destruct (X t0 I0); [left; now symmetry|now symmetry].
        * intros t It Ir. apply (X t It). now right.
  Qed.
  Lemma kinds_range : forall s, NoDup (map d_id (ds_tracks s)) -> NoDup (map d_type (ds_tracks s)) ->
    exists m s', range order note_kind (fun _ => None) s = (Ok m, s') /\ ds_tracks s' = ds_tracks s /\ ds_files s' = ds_files s /\
      forall k, m k = find (fun t => ttype_eqb (d_type t) k) (ds_tracks s).
  Proof.
    intros s N1 N2. unfold range, visit.
    set (s0 := mkds (ds_tracks s) (ds_files s) (ds_curr s) (ds_loops s + 1) (ds_stop s)).
    set (l := order (ds_loops s) (map d_id (ds_tracks s))).
    assert (PL : Permutation l (map d_id (ds_tracks s))) by apply order_ok.
    destruct (kinds_loop l 0 (fun _ => None) s0 N1 N2) as (m' & L & F2 & G2).
    - eapply Permutation_NoDup; [apply Permutation_sym; exact PL|exact N1].
    - intros id. apply Permutation_in. exact PL.
    - exists m', s0. split; [exact L|]. split; [reflexivity|]. split; [reflexivity|]. intros k.
      destruct (find (fun t => ttype_eqb (d_type t) k) (ds_tracks s)) as [t|] eqn:F.
      + apply find_some in F. destruct F as [F1 F3]. apply ttype_eqb_eq in F3. subst k. apply F2; [exact F1|].
        eapply Permutation_in; [apply Permutation_sym; exact PL|]. now apply in_map.
      + rewrite G2; [reflexivity|]. intros t It _ Q. apply (find_none _ _ F) in It. rewrite Q, ttype_eqb_refl in It. discriminate.
  Qed.
End KindMap.

Lemma nthN_map : forall A B (f : A -> B) l i, nthN i (map f l) = option_map f (nthN i l).
Proof. intros. rewrite !nthN_nth_error. apply nth_error_map. Qed.

(** C58.  Divide writes, for each track of a known kind, the initialization segment
    and the fragments of the track; and the playlists. *)
Theorem C58_divide : forall order bits_per_second seconds_text target_text ts files, let data := file_bytes ts in
  (forall k l, Permutation (order k l) l) ->
  lenN data < 2 ^ 62 -> list_wf true ts ->
  let all := list_file data ctx0 false 0 0 ts in
  Forall (readable data 0 [[bt "moov"; bt "trak"]]) all ->
  Forall (fun e => e_path e <> [bt "moov"; bt "moov"]) all ->
  let traks := filter (fun e => selected 0 [[bt "moov"; bt "trak"]] (e_path e)) all in
  let tops := filter (fun e => (List.length (e_path e) =? 1)%nat) all in
  Forall (searchable data divide_places) traks ->
  Forall (fun e => is_type "trak" e = true -> searchable data [["tkhd"]] e) tops ->
  Forall (fun e => is_type "moof" e = true -> searchable data fragment_places e) tops ->
  let known := filter (fun e => match trak_kind data e with Some _ => true | None => false end) traks in
  NoDup (map (trak_id data) known) -> NoDup (map (trak_kind data) known) ->
  divide order bits_per_second seconds_text target_text data = (Ok tt, files) ->
  divided bits_per_second seconds_text target_text data traks tops files.
Proof.
  intros order bits sec target ts files data OK D62 HW all HR HM traks tops SE ST SF known NI NK H.
  unfold divide in H.
  (* the tracks *)
  destruct (C29_extract ts [[bt "moov"; bt "trak"]] 0 D62 HW) as (p0 & X); [discriminate|constructor; [discriminate|constructor]|exact HR|].
  fold data all traks in X.
  assert (PL : Forall (placed data) all) by (apply (file_placed data ctx0) with (pre := []); [exact HW|reflexivity]).
  assert (PT : forall e, In e traks -> e_path e = [bt "moov"; bt "trak"] /\ placed data e /\ plain e).
  { intros e I. apply filter_In in I. destruct I as [I S]. apply selected_in in S; [|repeat constructor]. destruct S as [S|[]].
    split; [now symmetry|]. split; [rewrite Forall_forall in PL; now apply PL|].
    pose proof (list_file_ctx data ctx0 ts false 0 0) as Q. rewrite Forall_forall in Q. destruct (Q e I) as (qt & keys & C).
    rewrite <- S in C. apply (ctx_plain e _ _ _ C). reflexivity. }
  set (T := tracks_of data traks).
  assert (IDS : NoDup (map d_id T)) by (unfold T; rewrite tracks_ids; exact NI).
  assert (TYPES : NoDup (map d_type T)).
  { apply NoDup_map_inv with (f := Some). rewrite map_map. unfold T. rewrite tracks_kinds. exact NK. }
  assert (TM : match track_map data 0 with (Ok t, _) => t = T | _ => True end).
  { unfold track_map, bind at 1. rewrite X.
    match goal with |- match ?y with _ => _ end => destruct y as [[t| | |] q] eqn:L; try exact I end.
    apply track_loop in L; [exact L|exact D62| |exact IDS]. apply Forall_forall. intros e I. destruct (PT e I) as (_ & P1 & P2).
    rewrite Forall_forall in SE. auto. }
  destruct (track_map data 0) as [[t0| | |] q0]; try discriminate H. subst t0.
  (* the files are created *)
  assert (WC : writes (fun _ n => match n with Init => Some [] | Seg i => if i =? 0 then Some [] else None | Playlist => None end)
    (fun id (_ : unit) s => match find_track id s with
      | Some t => (Ok tt, set_file (Of (d_type t) (Seg 0)) [] (set_file (Of (d_type t) Init) [] s))
      | None => (Panic, s) end)).
  { intros id s. destruct (find_track id s) as [t|]; [|exact I]. eexists. split; [reflexivity|]. do 3 (split; [reflexivity|]).
    intros [|k n]; [reflexivity|]. cbn [set_file ds_files fpath_eqb].
    replace (ttype_eqb (d_type t) k) with (ttype_eqb k (d_type t)) by (destruct k, (d_type t); reflexivity).
    destruct (ttype_eqb k (d_type t)); [|reflexivity]. cbn [andb]. destruct n as [|i|]; [reflexivity| |reflexivity]. cbn [fname_eqb].
    rewrite N.eqb_sym. destruct (i =? 0); reflexivity. }
  set (s0 := mkds T no_files 4294967295 0 (Ok tt)) in *.
  destruct (write_range order OK _ _ WC s0 IDS TYPES) as (s1 & CR & T1 & C1 & S1 & F1 & G1).
  change (create_files order s0 = (Ok tt, s1)) in CR. rewrite CR in H.
  assert (ST0 : state T bits data [] s1).
  { exists (fun _ => 0). constructor.
    - exact S1.
    - exact C1.
    - rewrite T1. cbn [s0 ds_tracks]. rewrite <- (map_id T) at 1. apply map_ext_in. intros t It. unfold T, tracks_of in It.
      apply in_flat_map in It. destruct It as (e & _ & It). unfold track_of in It. destruct (trak_kind data e); [|destruct It].
      destruct It as [<-|[]]. reflexivity.
    - intros [|k n].
      + apply G1. intros t n Q _. discriminate Q.
      + destruct (find (fun t => ttype_eqb (d_type t) k) T) as [t|] eqn:F.
        * apply find_some in F. destruct F as [F2 F3]. apply ttype_eqb_eq in F3. subst k. rewrite (F1 t n F2).
          destruct n as [|i|]; try reflexivity. cbn [file_of G_of fragments_of fragments filter map nthN]. destruct (i =? 0); [reflexivity|]. reflexivity.
        * apply G1. intros t m Q It. injection Q as -> _. apply (find_none _ _ F) in It. now rewrite ttype_eqb_refl in It. }
  (* the boxes *)
  assert (GD : Forall (good data) all).
  { apply Forall_forall. intros e I. rewrite Forall_forall in HR, HM, SE, ST, SF. constructor.
    - exact (HR e I).
    - intros TR [L|L].
      + apply ST; [|exact TR]. apply filter_In. split; [exact I|]. now rewrite L.
      + refine (searchable_incl _ _ _ _ _ (SE e _)).
        * intros x [<-|[]]. left. reflexivity.
        * apply filter_In. split; [exact I|]. rewrite L. reflexivity.
    - intros M L. apply SF; [|exact M]. apply filter_In. split; [exact I|]. now rewrite L.
    - exact (HM e I). }
  pose proof (file_fine order OK bits data D62 ts false 0%Z 0 s1 GD) as FI.
  destruct (walk_file data ctx0 (divide_handler order bits data) false 0 0 ts tt s1) as [[r s2]|] eqn:W; [|contradiction].
  destruct (C21_walk _ _ _ (divide_handler order bits data) ts tt q0 s1 r s2 D62 HW W) as (q1 & RS). fold data in RS. rewrite RS in H. cbn [snd] in H.
  destruct r as [vs| | |]; try contradiction.
  2: { destruct (ds_stop s2); discriminate H. }
  pose proof (file_step T IDS TYPES order OK bits data D62 ts [] false 0%Z [] s1 vs s2 eq_refl HW GD ST0 W) as [P IV].
  cbn [app] in IV. change (filter (deep 1) (list_file data ctx0 false 0 (lenN []) ts)) with tops in IV.
  rewrite (inv_stop _ _ _ _ _ _ _ IV) in H. clear W RS FI ST0 CR F1 G1 S1 C1 T1 s1.
  (* the playlists *)
  set (ROW := row P (G_of T data tops) (B_of T bits data tops)) in *.
  assert (TR : ds_tracks s2 = map ROW T) by exact (inv_tracks _ _ _ _ _ _ _ IV).
  assert (N1 : NoDup (map d_id (ds_tracks s2))) by (rewrite TR, map_map; exact IDS).
  assert (N2 : NoDup (map d_type (ds_tracks s2))) by (rewrite TR, map_map; exact TYPES).
  unfold playlists in H. unfold bind at 1 in H.
  destruct (kinds_range order OK s2 N1 N2) as (m & s3 & KM & T3 & F3 & M3).
  change (range order (fun id m s => match find_track id s with
            | Some t => (Ok (fun ty => if ttype_eqb ty (d_type t) then Some t else m ty), s)
            | None => (Panic, s) end) (fun _ : ttype => None) s2) with (range order note_kind (fun _ => None) s2) in H.
  rewrite KM in H. unfold bind at 1 in H.
  assert (WP : writes (fun t n => match n with Playlist => Some (media_playlist sec target (d_segments t)) | _ => None end)
    (fun id (_ : unit) s => match find_track id s with
      | Some t => (Ok tt, set_file (Of (d_type t) Playlist) (media_playlist sec target (d_segments t)) s)
      | None => (Panic, s) end)).
  { intros id s. destruct (find_track id s) as [t|]; [|exact I]. eexists. split; [reflexivity|]. do 3 (split; [reflexivity|]).
    intros [|k n]; [reflexivity|]. cbn [set_file ds_files fpath_eqb].
    replace (ttype_eqb (d_type t) k) with (ttype_eqb k (d_type t)) by (destruct k, (d_type t); reflexivity).
    destruct (ttype_eqb k (d_type t)); [|reflexivity]. destruct n; reflexivity. }
  set (s4 := set_file Master (master_playlist m) s3) in *.
  assert (T4 : ds_tracks s4 = map ROW T) by (cbn [s4 set_file ds_tracks]; rewrite T3; exact TR).
  destruct (write_range order OK _ _ WP s4) as (s5 & CR & T5 & _ & _ & F5 & G5).
  { rewrite T4, map_map. exact IDS. }
  { rewrite T4, map_map. exact TYPES. }
  rewrite CR in H. injection H as <-. rewrite T4 in F5, G5.
  assert (FS4 : forall k n, ds_files s4 (Of k n) = ds_files s2 (Of k n)) by (intros; cbn [s4 set_file ds_files fpath_eqb]; now rewrite F3).
  constructor.
  - intros e k I K. cbv zeta.
    assert (exists t, In t T /\ track_of data e = Some t) as (t & It & Et).
    { unfold track_of. rewrite K. eexists. split; [|reflexivity]. unfold T, tracks_of. apply in_flat_map. exists e. split; [exact I|].
      unfold track_of. rewrite K. left. reflexivity. }
    assert (E1 : d_id t = trak_id data e /\ d_type t = k /\ d_timescale t = trak_timescale data e).
    { unfold track_of in Et. rewrite K in Et. injection Et as <-. repeat split. }
    destruct E1 as (E1 & E2 & E3).
    pose proof (tsc_in T IDS t It) as ET.
    assert (IR : In (ROW t) (map ROW T)) by now apply in_map.
    assert (FL : forall n, ds_files s2 (Of k n) = file_of (I_of data tops (d_id t)) (G_of T data tops (d_id t)) n).
    { intros n. rewrite (inv_files _ _ _ _ _ _ _ IV). rewrite <- E2, (find_type T TYPES t It). reflexivity. }
    pose proof (fun n => F5 (ROW t) n IR) as F6. change (d_type (ROW t)) with (d_type t) in F6. rewrite E2 in F6.
    split; [|split].
    + rewrite F6, FS4, FL. cbn [file_of]. unfold I_of. now rewrite E1.
    + rewrite F6. rewrite media_playlist_text. do 2 f_equal. unfold ROW, row, G_of. cbn [d_segments]. rewrite map_map. cbn [snd].
      rewrite ET, E1, E3. reflexivity.
    + intros i. rewrite F6, FS4, FL. cbn [file_of]. unfold G_of. rewrite map_map. cbn [fst]. rewrite nthN_map, E1.
      destruct (nthN i (fragments_of data (trak_id data e) tops)); reflexivity.
  - rewrite G5 by (intros t n Q _; discriminate Q). cbn [s4 set_file ds_files fpath_eqb]. f_equal. apply master_text.
    intros k. rewrite M3, TR.
    assert (FM : find (fun t => ttype_eqb (d_type t) k) (map ROW T) = option_map ROW (find (fun t => ttype_eqb (d_type t) k) T)).
    { assert (TY : forall t, d_type (ROW t) = d_type t) by reflexivity. clearbody ROW. clear - TY.
      induction T as [|t r IH]; [reflexivity|]. cbn [map find]. rewrite TY. destruct (ttype_eqb (d_type t) k); [reflexivity|exact IH]. }
    rewrite FM. pose proof (find_kind data k traks) as FK. fold T in FK. rewrite FK.
    destruct (find (of_kind data k) traks) as [e|] eqn:F; [|reflexivity].
    apply find_some in F. destruct F as [I F]. unfold of_kind in F. destruct (trak_kind data e) as [k'|] eqn:K; [|discriminate F].
    apply ttype_eqb_eq in F. subst k'.
    assert (exists t, In t T /\ track_of data e = Some t) as (t & It & Et).
    { unfold track_of. rewrite K. eexists. split; [|reflexivity]. unfold T, tracks_of. apply in_flat_map. exists e. split; [exact I|].
      unfold track_of. rewrite K. left. reflexivity. }
    pose proof (tsc_in T IDS t It) as ET. rewrite Et. cbn [option_map]. exists (ROW t). split; [reflexivity|].
    unfold track_of in Et. rewrite K in Et. injection Et as <-. cbn [d_id d_timescale] in ET. unfold ROW, row. cbn [d_id d_timescale d_bandwidth d_width d_height]. split.
    + unfold B_of. now rewrite ET.
    + intros [->| ->]; split; reflexivity.
  - intros k n NO.
    assert (FN : find (fun t => ttype_eqb (d_type t) k) T = None).
    { pose proof (find_kind data k traks) as FK. fold T in FK. rewrite FK. destruct (find (of_kind data k) traks) as [e|] eqn:F; [|reflexivity].
      apply find_some in F. destruct F as [I F]. unfold of_kind in F. specialize (NO e I). destruct (trak_kind data e) as [k'|]; [|discriminate F].
      apply ttype_eqb_eq in F. now subst. }
    rewrite G5.
    + rewrite FS4, (inv_files _ _ _ _ _ _ _ IV), FN. reflexivity.
    + intros t m' Q It. injection Q as -> _. apply in_map_iff in It. destruct It as (u & <- & Iu). apply (find_none _ _ FN) in Iu.
      change (d_type (ROW u)) with (d_type u) in Iu. now rewrite ttype_eqb_refl in Iu.
Qed.
Print Assumptions C58_divide.

(** ** A file *)
Definition ex_entry (t payload : string) : box := Box Small (bt t) (hex payload) [] [].
Definition ex_avc1 : box := ex_entry "avc1" "00000000000000010000000000000000000000000000000002800168004800000048000000000000000100000000000000000000000000000000000000000000000000000000000000000018ffff".
Definition ex_mp4a : box := ex_entry "mp4a" "000000000000000100000000000000000002001000000000ac440000".
(** [id] and [timescale] in hexadecimal *)
Definition ex_trak (id timescale : string) (entries : list box) : box :=
  Box Small (bt "trak") [] [
    Box Small (bt "tkhd") (hex "000000030000000100000002" ++ hex id ++ hex "0000000000000384000000000000000000000000000000000001000000000000000000000000000000010000000000000000000000000000400000000000000000000000") [] [];
    Box Small (bt "mdia") [] [
      Box Small (bt "mdhd") (hex "000000000000000100000002" ++ hex timescale ++ hex "0000000055c40000") [] [];
      Box Small (bt "minf") [] [ Box Small (bt "stbl") [] [ Box Small (bt "stsd") (hex "0000000000000001") entries [] ] [] ] [] ] [] ] [].
Definition ex_moof (tfhd trun : string) : box :=
  Box Small (bt "moof") [] [ Box Small (bt "traf") [] [ ex_entry "tfhd" tfhd; ex_entry "trun" trun ] [] ] [].
Definition ex_mvhd : box := ex_entry "mvhd" "00000000000000010000000200000258000004b00001000001000000000000000000000000010000000000000000000000000000000100000000000000000000000000004000000000000000000000000000000000000000000000000000000000000003".
(** a video track 1, an audio track 2 and a track 3 of another kind; fragments of the
    tracks 1, 2, 7 and 1, the last with two mdat boxes *)
Definition divide_tree : list box :=
  [ ex_entry "ftyp" "69736f6d0000020069736f6d";
    Box Small (bt "moov") [] [ ex_mvhd;
      ex_trak "00000001" "0000000a" [ex_avc1]; ex_trak "00000002" "00000064" [ex_mp4a]; ex_trak "00000003" "00000064" [];
      ex_entry "mvex" "" ] [];
    ex_moof "0000000000000001" "0000010000000002000000050000000f"; ex_entry "mdat" "6162";
    ex_moof "000000080000000200000032" "00000200000000020000000900000009"; ex_entry "mdat" "636465";
    ex_moof "0000000000000007" "000001000000000100000001"; ex_entry "mdat" "78";
    ex_moof "0000000000000001" "00000100000000010000001e"; ex_entry "mdat" "66"; ex_entry "mdat" "6768";
    ex_entry "mfra" "" ].
(** the results of floating point, for the examples: a rate in whole bits per second,
    a duration as a fraction, the number of the segments *)
Definition ex_bits (size : N) (s : seconds) : N := size * 8 * sec_timescale s / sec_duration s.
Definition ex_seconds (s : seconds) : text := dec_text (sec_duration s) ++ lit "/" ++ dec_text (sec_timescale s).
Definition ex_target (l : list seconds) : text := dec_text (lenN l).
Definition ex_divide (order : N -> list N -> list N) (ts : list box) : res unit * (fpath -> option (list byte)) :=
  divide order ex_bits ex_seconds ex_target (file_bytes ts).
Definition in_order : N -> list N -> list N := fun _ l => l.
Definition reversed : N -> list N -> list N := fun _ l => rev l.

Lemma only_for_ok : forall data t ps l, forallb (fun e => negb (is_type t e) || searchable_b data ps e) l = true ->
  Forall (fun e => is_type t e = true -> searchable data ps e) l.
Proof.
  intros data t ps l H. rewrite forallb_forall in H. rewrite Forall_forall. intros e I T. apply H in I. rewrite T in I. cbn [negb orb] in I.
  assert (F : Forall (searchable data ps) [e]) by (apply searchable_b_ok; cbn [forallb]; now rewrite I). exact (Forall_inv F).
Qed.
Definition at_moov_moov (e : entry) : bool := match e_path e with [a; b] => bt_eqb a (bt "moov") && bt_eqb b (bt "moov") | _ => false end.
Lemma no_moov_moov_ok : forall l, forallb (fun e => negb (at_moov_moov e)) l = true -> Forall (fun e => e_path e <> [bt "moov"; bt "moov"]) l.
Proof.
  intros l H. rewrite forallb_forall in H. rewrite Forall_forall. intros e I E. apply H in I. unfold at_moov_moov in I. rewrite E in I.
  vm_compute in I. discriminate I.
Qed.

(** the hypotheses on the file *)
Definition divisible (ts : list box) : Prop :=
  let data := file_bytes ts in
  lenN data < 2 ^ 62 /\ list_wf true ts /\
  let all := list_file data ctx0 false 0 0 ts in
  Forall (readable data 0 [[bt "moov"; bt "trak"]]) all /\
  Forall (fun e => e_path e <> [bt "moov"; bt "moov"]) all /\
  let traks := filter (fun e => selected 0 [[bt "moov"; bt "trak"]] (e_path e)) all in
  let tops := filter (fun e => (List.length (e_path e) =? 1)%nat) all in
  Forall (searchable data divide_places) traks /\
  Forall (fun e => is_type "trak" e = true -> searchable data [["tkhd"]] e) tops /\
  Forall (fun e => is_type "moof" e = true -> searchable data fragment_places e) tops.
Ltac divisible :=
  split; [vm_compute; reflexivity|]; split; [vm_compute; repeat split; intros; try discriminate; reflexivity|];
  split; [apply readable_b_ok; vm_compute; reflexivity|]; split; [apply no_moov_moov_ok; vm_compute; reflexivity|];
  split; [apply searchable_b_ok; vm_compute; reflexivity|]; split; [apply only_for_ok; vm_compute; reflexivity|];
  apply only_for_ok; vm_compute; reflexivity.

Example C58_case :
  divisible divide_tree /\
  (let data := file_bytes divide_tree in
   let traks := filter (fun e => selected 0 [[bt "moov"; bt "trak"]] (e_path e)) (list_file data ctx0 false 0 0 divide_tree) in
   map (trak_id data) traks = [1; 2; 3] /\ map (trak_kind data) traks = [Some TVideo; Some TAudio; None]) /\
  let r := ex_divide in_order divide_tree in
  let kinds := [TVideo; TAudio; TEncVideo; TEncAudio] in
  fst r = Ok tt /\
  snd r Master = Some (lines [ lit "#EXTM3U";
    lit "#EXT-X-MEDIA:TYPE=AUDIO,URI=""audio/playlist.m3u8"",GROUP-ID=""audio"",NAME=""audio"",AUTOSELECT=YES,CHANNELS=""2""";
    lit "#EXT-X-STREAM-INF:BANDWIDTH=40,CODECS=""avc1.64001f,mp4a.40.2"",RESOLUTION=640x360,AUDIO=""audio""";
    lit "video/playlist.m3u8" ]) /\
  snd r (Of TVideo Playlist) = Some (lines [ lit "#EXTM3U"; lit "#EXT-X-VERSION:7"; lit "#EXT-X-TARGETDURATION:2"; lit "#EXT-X-PLAYLIST-TYPE:VOD";
    lit "#EXT-X-MAP:URI=""init.mp4"""; lit "#EXTINF:20/10,"; lit "0.mp4"; lit "#EXTINF:30/10,"; lit "1.mp4"; lit "#EXT-X-ENDLIST" ]) /\
  snd r (Of TAudio Playlist) = Some (lines [ lit "#EXTM3U"; lit "#EXT-X-VERSION:7"; lit "#EXT-X-TARGETDURATION:1"; lit "#EXT-X-PLAYLIST-TYPE:VOD";
    lit "#EXT-X-MAP:URI=""init.mp4"""; lit "#EXTINF:100/100,"; lit "0.mp4"; lit "#EXT-X-ENDLIST" ]) /\
  snd r (Of TVideo Init) = Some (file_bytes [ ex_entry "ftyp" "69736f6d0000020069736f6d";
    Box Small (bt "moov") [] [ ex_mvhd; ex_trak "00000001" "0000000a" [ex_avc1]; ex_entry "mvex" "" ] [] ]) /\
  snd r (Of TVideo (Seg 1)) = Some (file_bytes [ ex_moof "0000000000000001" "00000100000000010000001e"; ex_entry "mdat" "66"; ex_entry "mdat" "6768" ]) /\
  map (fun k => snd r (Of k (Seg 2))) kinds = [None; None; None; None] /\ snd r (Of TEncVideo Init) = None.
Proof.
  split; [divisible|]. split; [split; vm_compute; reflexivity|].
  cbv zeta. repeat (split; [vm_compute; reflexivity|]). vm_compute; reflexivity.
Qed.

(** ** Without the hypotheses *)
(** A fragment of a known track without a trun box: the first of no boxes is taken. *)
Theorem C58_no_trun_refuted : exists ts, divisible ts /\ fst (ex_divide in_order ts) = Panic.
Proof.
  exists [ Box Small (bt "moov") [] [ ex_trak "00000001" "0000000a" [ex_avc1] ] [];
           Box Small (bt "moof") [] [ Box Small (bt "traf") [] [ ex_entry "tfhd" "0000000000000001" ] [] ] [] ].
  split; [divisible|]. vm_compute. reflexivity.
Qed.
(** In a moov box, a box of a type that is allowed outside one only: the value the
    handler returns for it is not the map that is expected of a child. *)
Theorem C58_moof_in_moov_refuted : exists ts, divisible ts /\ fst (ex_divide in_order ts) = Panic.
Proof.
  exists [ Box Small (bt "moov") [] [ ex_trak "00000001" "0000000a" [ex_avc1]; ex_entry "mfra" "" ] [] ].
  split; [divisible|]. vm_compute. reflexivity.
Qed.
(** An mdat box before the first moof box belongs to no track; but the number that
    stands for no track is the number of this one. *)
Theorem C58_no_track_refuted : exists ts, divisible ts /\ fst (ex_divide in_order ts) = Panic.
Proof.
  exists [ Box Small (bt "moov") [] [ ex_trak "ffffffff" "0000000a" [ex_avc1] ] []; ex_entry "mdat" "6162" ].
  split; [divisible|]. vm_compute. reflexivity.
Qed.
(** Two tracks of the same kind write to the same files, and what is in them in the
    end depends on the order in which Go goes through a map. *)
Theorem C58_same_kind_refuted : exists ts, divisible ts /\
  fst (ex_divide in_order ts) = Ok tt /\ fst (ex_divide reversed ts) = Ok tt /\
  snd (ex_divide in_order ts) (Of TVideo Init) <> snd (ex_divide reversed ts) (Of TVideo Init).
Proof.
  exists [ Box Small (bt "moov") [] [ ex_trak "00000001" "0000000a" [ex_avc1]; ex_trak "00000002" "0000000a" [ex_avc1; ex_avc1] ] [] ].
  split; [divisible|]. split; [vm_compute; reflexivity|]. split; [vm_compute; reflexivity|].
  vm_compute. discriminate.
Qed.
