(** C52, C53: the commands extract and dump. *)
From Verif Require Import Base BaseProofs BitIO Schema Structs Methods Registry Unmarshal Causal SpecTotal PropTotal PropUnmarshal PropLookup BoxInfo ReadTree
     Extract Text GoText Stringify Edit RepoVectors Flow TraceProofs SpecTree TreeProofs PropTree SpecExtract PropExtract PropEdit PropStringify
     SpecTrace PropTrace PropFlow PropSafe Tool SpecTool ToolProofs.
Local Open Scope string_scope.
Local Open Scope list_scope.
Local Open Scope N_scope.

(** ** The two lists of types *)
Lemma existsb_same : forall (l1 l2 : list string) t,
  forallb (fun s => str_in s l2) l1 = true -> forallb (fun s => str_in s l1) l2 = true ->
  existsb (fun s => bt_eqb t (bt s)) l1 = existsb (fun s => bt_eqb (bt s) t) l2.
Proof.
  intros l1 l2 t H1 H2. rewrite forallb_forall in H1, H2. apply eq_iff_eq_true. rewrite !existsb_exists. split.
  - intros (x & I & E). exists x. split; [apply str_in_In; auto|]. apply bt_eqb_iff in E. apply bt_eqb_iff. now symmetry.
  - intros (x & I & E). exists x. split; [apply str_in_In; auto|]. apply bt_eqb_iff in E. apply bt_eqb_iff. now symmetry.
Qed.
Lemma leaf_ok : forall e, should_has_no_children (bi_type (e_info e)) = leaf e.
Proof. intros e. apply existsb_same; reflexivity. Qed.

Lemma entry_info : forall data anc qt keys o b,
  exists c, e_info (entry_of data anc qt keys o b) = info o b c.
Proof. intros. unfold entry_of. cbv zeta. cbn [e_info]. eauto. Qed.

Lemma finish_ok : forall A (vs : A) p out, finish (Ok vs, (p, mktst out false)) = (Ok tt, out).
Proof. reflexivity. Qed.
Lemma collect_out : forall (f : entry -> list byte) l out,
  fold_left (fun s e => print (f e) s) l (mktst out false) = mktst (out ++ flat_map f l) false.
Proof.
  intros f. induction l as [|e l IH]; intros out; cbn [fold_left flat_map]; [now rewrite app_nil_r|].
  unfold print at 2. cbn [t_out t_panic]. now rewrite IH, <- app_assoc.
Qed.

(** ** extract *)
Section Extract.
  Variable data : list byte.
  Hypothesis data_small : lenN data < 2 ^ 62.
  Variable T : btype.
  Definition chosen (e : entry) : list byte := if bt_eqb (e_type e) T then box_bytes (e_box e) else [].

  Lemma copy_whole : forall pre post last b c, at_place data pre post last b ->
    copy_out data (info (lenN pre) b c) = (box_bytes b, true).
  Proof.
    intros pre post last b c A. destruct (place_size data data_small _ _ _ _ A) as (L & H & _ & S).
    assert (E : takeN (bi_size (info (lenN pre) b c)) (skipN (bi_offset (info (lenN pre) b c)) data) = box_bytes b).
    { cbn [bi_size bi_offset info]. destruct A as (-> & _). rewrite skipN_app_exact by reflexivity.
      apply takeN_app_exact. reflexivity. }
    unfold copy_out. cbv zeta. rewrite E. cbn [bi_size info].
    assert (S8 : 8 <= hsize (box_form b)) by (destruct (box_form b); cbn; lia).
    change (2 ^ 62) with 4611686018427387904 in *.
    destruct (N.eqb_spec (box_size b) 0); [lia|]. destruct (N.leb_spec 9223372036854775808 (box_size b)); [lia|].
    cbn [orb]. unfold box_size. now rewrite N.eqb_refl.
  Qed.
  Lemma extract_handles : forall anc qt keys pre post last f t own kids slack s children,
    let b := Box f t own kids slack in
    let e := entry_of data anc qt keys (lenN pre) b in
    at_place data pre post last b -> passable data (looks_into data) e -> True ->
    (looks_into data e = true -> exists vs s', children tt (print (chosen e) s) = Some (Ok vs, s')) ->
    exists v, run (e_decoded data e) (lenN own) (payload b) children
                (extract_tool_handler data T (e_info e) (e_path e) tt s) =
      if looks_into data e then match children tt (print (chosen e) s) with Some (_, s') => Some (Ok v, s') | None => None end
      else Some (Ok v, print (chosen e) s).
  Proof.
    intros anc qt keys pre post last f t own kids slack s children. cbv zeta.
    set (b := Box f t own kids slack). set (e := entry_of data anc qt keys (lenN pre) b).
    intros A [_ Pg] _ KI. exists tt.
    assert (EI : exists c, e_info e = info (lenN pre) b c) by apply entry_info. destruct EI as (c & EI).
    assert (R : run (e_decoded data e) (lenN own) (payload b) children (extract_rest (e_info e) (print (chosen e) s)) =
      if looks_into data e then match children tt (print (chosen e) s) with Some (_, s') => Some (Ok tt, s') | None => None end
      else Some (Ok tt, print (chosen e) s)).
    { unfold extract_rest. rewrite leaf_ok. change (is_supported std_registry (bi_type (e_info e)) (bi_ctx (e_info e))) with (known e).
      assert (SZ : bi_size (e_info e) = box_size (e_box e)) by (rewrite EI; reflexivity). rewrite SZ.
      unfold looks_into in *. destruct (known e); [|reflexivity]. cbn [negb andb] in *.
      rewrite andb_comm. destruct (leaf e && (256 <=? box_size (e_box e))); [reflexivity|]. cbn [negb andb] in *.
      unfold other_version in *. cbn [run].
      destruct (e_decoded data e) as [[[d x] n]|er| |] eqn:D.
      - cbn [negb] in *. specialize (Pg eq_refl). unfold can_open in Pg. change (e_box e) with b in Pg. unfold b in Pg.
        destruct Pg as [(d' & x' & D') _]. fold b in D'. unfold e_decoded in D. change (e_box e) with b in D.
        rewrite D in D'. injection D' as _ _ ->. rewrite N.eqb_refl.
        destruct (KI eq_refl) as (vs & s' & ->). reflexivity.
      - assert (N1 : er = EUnsupportedVersion).
        { destruct er; try reflexivity; exfalso; cbn [negb] in Pg; specialize (Pg eq_refl); unfold can_open in Pg;
            change (e_box e) with b in Pg; unfold b in Pg; destruct Pg as [(d' & x' & D') _]; fold b in D';
            unfold e_decoded in D; change (e_box e) with b in D; rewrite D in D'; discriminate D'. }
        subst er. reflexivity.
      - exfalso. cbn [negb] in Pg. specialize (Pg eq_refl). unfold can_open in Pg.
        change (e_box e) with b in Pg; unfold b in Pg; destruct Pg as [(d' & x' & D') _]; fold b in D';
            unfold e_decoded in D; change (e_box e) with b in D; rewrite D in D'; discriminate D'.
      - exfalso. cbn [negb] in Pg. specialize (Pg eq_refl). unfold can_open in Pg.
        change (e_box e) with b in Pg; unfold b in Pg; destruct Pg as [(d' & x' & D') _]; fold b in D';
            unfold e_decoded in D; change (e_box e) with b in D; rewrite D in D'; discriminate D'. }
    unfold extract_tool_handler. destruct (bt_eqb (bi_type (e_info e)) T) eqn:ET.
    - rewrite EI at 1. rewrite (copy_whole _ _ _ _ c A). cbv iota beta.
      cbn [run]. unfold chosen in R. change (e_type e) with (bi_type (e_info e)) in R. rewrite ET in R. 
      unfold chosen. change (e_type e) with (bi_type (e_info e)). rewrite ET. exact R.
    - replace s with (print (chosen e) s) at 1; [exact R|].
      unfold print, chosen. change (e_type e) with (bi_type (e_info e)). rewrite ET, app_nil_r. now destruct s.
  Qed.
End Extract.

(** The boxes of the type, whole, one after another, in file order, out of those
    that extract looks at (SpecTool.v). *)
Theorem C52_extract : forall T ts, let data := file_bytes ts in
  lenN data < 2 ^ 62 -> list_wf true ts ->
  Forall (passable data (looks_into data)) (reach_file data (looks_into data) false 0 0 ts) ->
  extract_tool data T =
  (Ok tt, flat_map (fun e => if bt_eqb (e_type e) T then box_bytes (e_box e) else [])
            (reach_file data (looks_into data) false 0 0 ts)).
Proof.
  intros T ts data L W F.
  destruct (file_collect data L (extract_tool_handler data T) tt (looks_into data) (fun e => print (chosen T e)) (fun _ => True)
              (extract_handles data L T) ts [] false 0%Z (mktst [] false) eq_refl W) as (vs & E).
  { eapply Forall_impl; [|exact F]. intros e H. split; [exact H|exact I]. }
  rewrite collect_out in E. cbn [app] in E.
  destruct (C21_walk _ _ _ _ ts tt 0 _ _ _ L W E) as (p & R).
  unfold extract_tool. fold data in R. rewrite R. apply finish_ok.
Qed.
Print Assumptions C52_extract.

(** Where no box that holds others is passed over, these are all boxes of the
    type in the file. *)
Theorem C52_all : forall T ts, let data := file_bytes ts in
  lenN data < 2 ^ 62 -> list_wf true ts ->
  Forall (fun e => passable data (looks_into data) e /\ (looks_into data e = true \/ box_kids (e_box e) = []))
         (list_file data ctx0 false 0 0 ts) ->
  extract_tool data T =
  (Ok tt, flat_map (fun e => if bt_eqb (e_type e) T then box_bytes (e_box e) else []) (list_file data ctx0 false 0 0 ts)).
Proof.
  intros T ts data L W F.
  assert (E : reach_file data (looks_into data) false 0 0 ts = list_file data ctx0 false 0 0 ts).
  { apply reach_all. eapply Forall_impl; [|exact F]. intros e [_ H]. exact H. }
  rewrite <- E. refine (C52_extract T ts L W _). fold data. rewrite E. eapply Forall_impl; [|exact F]. intros e [H _]. exact H.
Qed.
Print Assumptions C52_all.

(** Neither panics nor runs on, whatever the input. *)
Lemma finish_np : forall A (x : res A * (N * tst)), np (fst x) -> t_panic (snd (snd x)) = false -> np (fst (finish x)).
Proof. intros A [[a|e| |] [p s]] H1 H2; unfold finish; cbn [fst snd] in *; rewrite H2; exact H1. Qed.
Theorem C52_no_panic : forall data T, lenN data < 2 ^ 48 -> fst (extract_tool data T) <> Panic.
Proof.
  intros data T L.
  assert (HK : forall bi pth q s, inside data bi -> t_panic s = false ->
    keeps (dec data bi) (fun s => t_panic s = false) (extract_tool_handler data T bi pth q s)).
  { intros bi pth q s _ Hs.
    assert (K : forall s, t_panic s = false -> keeps (dec data bi) (fun s => t_panic s = false) (extract_rest bi s)).
    { clear s Hs. intros s Hs. unfold extract_rest. destruct (negb _); [exact Hs|]. destruct (_ && _); [exact Hs|].
      cbn [keeps]. split; [exact Hs|]. intros r s1 H1. destruct r as [x|e| |]; try exact H1. destruct e; exact H1. }
    unfold extract_tool_handler. destruct (bt_eqb _ _); [|now apply K].
    destruct (copy_out data bi) as [g [|]]; cbn [keeps]; [apply K|]; exact Hs. }
  destruct (root_np data L (extract_tool_handler data T) (fun s => t_panic s = false) any (fun _ _ _ => I) (fun _ _ _ => I)
              (fun bi pth q s I1 _ => HK bi pth q s I1) tt 0 (mktst [] false) eq_refl) as [A B].
  unfold extract_tool. pose proof (finish_np _ _ A B) as Q. destruct (fst (finish _)); cbn in Q; try discriminate; contradiction.
Qed.
Print Assumptions C52_no_panic.

(** ** dump *)
(** the options as the user gives them: the names after -full, -a, -mdat, -free,
    -offset, -hex; the width of the terminal *)
Definition dump_with (names : list (list byte)) (all mdat free offset hex : bool) (width : N) : dump_cfg :=
  dump_options (joined names) all mdat free offset hex width.
Definition style_of (names : list (list byte)) (all mdat free offset hex : bool) (width : N) : dump_style :=
  mkstyle (names ++ (if mdat then [lit "mdat"] else []) ++ (if free then [lit "free"; lit "skip"] else [])) all offset hex width.

Lemma spaced_ok : forall l, dump_bytes true l = spaced (map (fun c => lit "0x" ++ hex2 (b2N c)) l).
Proof.
  assert (H : forall l, dump_bytes false l = match l with [] => [] | _ => lit " " ++ spaced (map (fun c => lit "0x" ++ hex2 (b2N c)) l) end).
  { induction l as [|c l IH]; [reflexivity|]. cbn [dump_bytes]. rewrite IH. destruct l as [|c' l]; [now rewrite app_nil_r|].
    cbn [map spaced]. rewrite <- !app_assoc. reflexivity. }
  intros [|c l]; [reflexivity|]. cbn [dump_bytes]. rewrite H. destruct l as [|c' l]; [now rewrite app_nil_r|].
  cbn [map spaced]. rewrite <- !app_assoc. reflexivity.
Qed.
Lemma indent_ok : forall n, repeat (N2b 32) (2 * n) = List.concat (repeat (lit "  ") n).
Proof.
  induction n as [|n IH]; [reflexivity|]. replace (2 * S n)%nat with (S (S (2 * n))) by lia.
  cbn [repeat List.concat]. rewrite IH. reflexivity.
Qed.

Section Dump.
  Variable graphic : N -> bool.
  Variable data : list byte.
  Hypothesis data_small : lenN data < 2 ^ 48.
  Variable cfg : dump_cfg.
  Variable style : dump_style.
  Hypothesis same_full : forall t, lenN t = 4 ->
    boxes_exist (dc_full cfg) (box_type_string t) = existsb (fun n => bytes_eqb n (box_type_string t)) (full_names style).
  Hypothesis same_all : dc_all cfg = full_all style.
  Hypothesis same_offset : dc_offset cfg = show_offset style.
  Hypothesis same_hex : dc_hex cfg = in_hex style.
  Hypothesis same_width : dc_width cfg = width style.

  Let dump_small : lenN data < 2 ^ 62 := data62 data data_small.
  Lemma head_same : forall e, bi_size (e_info e) = box_size (e_box e) ->
    dump_head cfg (e_info e) (e_path e) = head_of style e.
  Proof.
    intros e SZ. unfold dump_head, head_of, dump_num, number. rewrite indent_ok, same_offset, same_hex, SZ. reflexivity.
  Qed.
  Lemma raw_run : forall D own children e f line s,
    payload_size (e_info e) = lenN (payload (e_box e)) -> lenN (payload (e_box e)) < 2 ^ 48 -> f = full style e ->
    run D own (payload (e_box e)) children (dump_raw (e_info e) f line s) =
    Some (Ok tt, println (line ++ raw_of style e) s).
  Proof.
    intros D own children e f line s PS L ->. unfold dump_raw, raw_of. rewrite PS.
    destruct (full style e); [|reflexivity].
    change maxAlloc with (2 ^ 48). destruct (N.leb_spec (2 ^ 48) (lenN (payload (e_box e)))); [lia|].
    cbn [run]. rewrite spaced_ok. reflexivity.
  Qed.
  Lemma line_print : forall e r s, rest_of graphic data style e = r ->
    println (head_of style e ++ r) s = print (line_of graphic data style e) s.
  Proof. intros e r s <-. unfold println, line_of. now rewrite <- app_assoc. Qed.

  Lemma dump_handles : forall anc qt keys pre post last f t own kids slack s children,
    let b := Box f t own kids slack in
    let e := entry_of data anc qt keys (lenN pre) b in
    at_place data pre post last b -> passable data (enters data style) e -> True ->
    (enters data style e = true -> exists vs s', children tt (print (line_of graphic data style e) s) = Some (Ok vs, s')) ->
    exists v, run (e_decoded data e) (lenN own) (payload b) children
                (dump_handler graphic cfg (e_info e) (e_path e) tt s) =
      if enters data style e then match children tt (print (line_of graphic data style e) s) with Some (_, s') => Some (Ok v, s') | None => None end
      else Some (Ok v, print (line_of graphic data style e) s).
  Proof.
    intros anc qt keys pre post last f t own kids slack s children. cbv zeta.
    set (b := Box f t own kids slack). set (e := entry_of data anc qt keys (lenN pre) b).
    intros A [_ Pg] _ KI. exists tt.
    destruct (place_size data dump_small _ _ _ _ A) as (PL & PH & PP & PB).
    assert (EI : exists c, e_info e = info (lenN pre) b c) by apply entry_info. destruct EI as (c & EI).
    assert (SZ : bi_size (e_info e) = box_size (e_box e)) by (rewrite EI; reflexivity).
    assert (PS : payload_size (e_info e) = lenN (payload (e_box e))) by (rewrite EI; exact PP).
    assert (PS48 : lenN (payload (e_box e)) < 2 ^ 48).
    { change (e_box e) with b. lia. }
    assert (T4 : lenN (bi_type (e_info e)) = 4).
    { rewrite EI. destruct A as (_ & W & _). apply (wf_type _ _ W). }
    unfold dump_handler. cbv zeta. rewrite (head_same e SZ), (same_full _ T4).
    change (existsb (fun n => bytes_eqb n (box_type_string (bi_type (e_info e)))) (full_names style)) with (asked style e).
    assert (BU : (bt_eqb (bi_type (e_info e)) (bt "mdat") || bt_eqb (bi_type (e_info e)) (bt "free") ||
                  bt_eqb (bi_type (e_info e)) (bt "skip")) = bulky e).
    { rewrite <- orb_assoc. rewrite <- (orb_false_r (bt_eqb _ (bt "skip"))).
      apply (existsb_same ["mdat"; "free"; "skip"] ["free"; "mdat"; "skip"]); reflexivity. }
    rewrite BU, same_all, same_width, PS, leaf_ok.
    change (is_supported std_registry (bi_type (e_info e)) (bi_ctx (e_info e))) with (known e).
    change (use_full (e_info e)) with (hint e).
    change (asked style e || full_all style) with (full style e).
    change (lenN (payload (e_box e))) with (e_payload e) in *.
    assert (HID : negb (asked style e) && bulky e = hidden style e) by (unfold hidden; apply andb_comm).
    rewrite HID.
    destruct (hidden style e) eqn:HI.
    { assert (NE : enters data style e = false) by (unfold enters; now rewrite HI, andb_false_r). rewrite NE.
      cbn [run]. rewrite (line_print e); [reflexivity|]. unfold rest_of. now rewrite HI. }
    destruct (known e) eqn:KN.
    2:{ assert (NE : enters data style e = false) by (unfold enters; now rewrite KN). rewrite NE.
        change (payload b) with (payload (e_box e)). rewrite raw_run by auto.
        rewrite (line_print e); [reflexivity|]. unfold rest_of. now rewrite HI, KN. }
    assert (CS : negb (full style e) && (64 <=? e_payload e) && leaf e = cut_short style e).
    { unfold cut_short. destruct (negb (full style e)), (64 <=? e_payload e), (leaf e); reflexivity. }
    rewrite CS. destruct (cut_short style e) eqn:CU.
    { assert (NE : enters data style e = false) by (unfold enters; now rewrite CU, andb_false_r). rewrite NE.
      cbn [run]. rewrite (line_print e); [reflexivity|]. unfold rest_of. now rewrite HI, KN, CU. }
    assert (ENT : enters data style e = negb (other_version data e)) by (unfold enters; now rewrite KN, HI, CU).
    rewrite ENT in *. cbn [run]. unfold other_version in *.
    assert (OPEN : negb match e_decoded data e with Err EUnsupportedVersion => true | _ => false end = true ->
                   exists d x, e_decoded data e = Ok (d, x, lenN own)).
    { intros Z. specialize (Pg Z). unfold can_open in Pg. change (e_box e) with b in Pg. unfold b in Pg.
      destruct Pg as [G _]. exact G. }
    destruct (e_decoded data e) as [[[d x] n]|er| |] eqn:D.
    - destruct (OPEN eq_refl) as (d' & x' & E'). injection E' as <- <- ->.
      assert (ST : exists str, stringify graphic std_registry (bi_type (e_info e)) x (bi_ctx (e_info e)) = Ok str).
      { unfold e_decoded, decoded in D. change (e_box e) with b in D.
        destruct (unmarshal_any std_registry data (box_type b) (lenN (payload b)) (bi_ctx (e_info e))
                    (bi_offset (e_info e) + hsize (box_form b))) as [r p'] eqn:U. cbn [fst] in D. subst r.
        assert (BT : bi_type (e_info e) = box_type b) by (rewrite EI; reflexivity). rewrite BT.
        assert (BO : bi_offset (e_info e) = lenN pre) by (rewrite EI; reflexivity).
        eapply C48_no_panic; [|exact dump_small|exact U]. rewrite BO. lia. }
      destruct ST as (str & ST). rewrite ST. cbn [run]. rewrite N.eqb_refl.
      assert (FO : fields_of graphic data e = str).
      { unfold fields_of. rewrite D. unfold e_type. now rewrite ST. }
      rewrite (line_print e).
      + destruct (KI eq_refl) as (vs & s' & ->). reflexivity.
      + unfold rest_of, other_version. rewrite HI, KN, CU, D, FO. cbn [negb]. now destruct str.
    - assert (er = EUnsupportedVersion) as ->.
      { destruct er; try reflexivity; destruct (OPEN eq_refl) as (d' & x' & E'); discriminate E'. }
      cbn [negb]. change (payload b) with (payload (e_box e)). rewrite raw_run by auto.
      rewrite <- app_assoc. rewrite (line_print e); [reflexivity|].
      unfold rest_of, other_version. rewrite HI, KN, CU, D. reflexivity.
    - destruct (OPEN eq_refl) as (d' & x' & E'). discriminate E'.
    - destruct (OPEN eq_refl) as (d' & x' & E'). discriminate E'.
  Qed.
End Dump.

Lemma named_full : forall names all mdat free offset hex width t, Forall (fun s => ~ In comma s) names -> lenN t = 4 ->
  boxes_exist (dc_full (dump_with names all mdat free offset hex width)) (box_type_string t) =
  existsb (fun n => bytes_eqb n (box_type_string t)) (full_names (style_of names all mdat free offset hex width)).
Proof.
  intros names all mdat free offset hex width t F L. unfold dump_with, dump_options, style_of, boxes_exist.
  cbn [dc_full full_names]. rewrite !existsb_app. f_equal.
  destruct names as [|x r].
  - cbn [joined split_comma existsb]. pose proof (name_not_empty t L). destruct (box_type_string t); [congruence|reflexivity].
  - rewrite split_joined; [reflexivity|discriminate|exact F].
Qed.

(** One line for every box that dump looks at, in file order (SpecTool.v). *)
Theorem C53_dump : forall graphic names all mdat free offset hex width ts, let data := file_bytes ts in
  let style := style_of names all mdat free offset hex width in
  Forall (fun s => ~ In comma s) names ->
  lenN data < 2 ^ 48 -> list_wf true ts ->
  Forall (passable data (enters data style)) (reach_file data (enters data style) false 0 0 ts) ->
  dump_tool graphic (dump_with names all mdat free offset hex width) data =
  (Ok tt, flat_map (line_of graphic data style) (reach_file data (enters data style) false 0 0 ts)).
Proof.
  intros graphic names all mdat free offset hex width ts data style FN L W F.
  pose proof (data62 data L) as L2.
  set (cfg := dump_with names all mdat free offset hex width).
  destruct (file_collect data L2 (dump_handler graphic cfg) tt (enters data style) (fun e => print (line_of graphic data style e)) (fun _ => True)
              (dump_handles graphic data L cfg style (fun t H => named_full names all mdat free offset hex width t FN H)
                 eq_refl eq_refl eq_refl eq_refl) ts [] false 0%Z (mktst [] false) eq_refl W) as (vs & E).
  { eapply Forall_impl; [|exact F]. intros e H. split; [exact H|exact I]. }
  rewrite collect_out in E. cbn [app] in E.
  destruct (C21_walk _ _ _ _ ts tt 0 _ _ _ L2 W E) as (p & R).
  unfold dump_tool. fold data in R. rewrite R. apply finish_ok.
Qed.
Print Assumptions C53_dump.

Lemma box_at_type : forall data lo bi, box_at data lo = Ok bi -> lenN (bi_type bi) = 4.
Proof.
  intros data lo bi H. unfold box_at, read_box_info in H. unfold bind at 1, get in H. unfold bind at 1 in H.
  destruct (s_copy data SmallHeaderSize lo) as [[h|e| |] p] eqn:E; try discriminate.
  assert (LH : lenN h = 8).
  { unfold s_copy, SmallHeaderSize in E. change ((8 =? 0) || (9223372036854775808 <=? 8)) with false in E. cbv iota zeta in E.
    destruct (N.eqb_spec (lenN (takeN 8 (skipN lo data))) 8) as [Q|Q]; [|discriminate]. injection E as <- _. exact Q. }
  assert (LT : lenN (skipN 4 h) = 4) by (rewrite lenN_skipN; lia).
  cbv zeta in H. destruct (_ =? 0) in H.
  - unfold bind at 1, put in H. unfold bind at 1 in H.
    destruct (seek_to_payload _ _) as [[u|e| |] p2]; try discriminate.
    destruct (_ =? 0); [discriminate|]. injection H as <-. exact LT.
  - destruct (_ =? 1).
    + unfold bind in H. destruct (s_copy data _ p) as [[l|e| |] p2]; try discriminate.
      destruct (_ =? 0); [discriminate|]. injection H as <-. exact LT.
    + injection H as <-. exact LT.
Qed.

(** Without -full, -a, -mdat and -free it does not panic, whatever the input. *)
Theorem C55_dump_partial : forall graphic offset hex width data, lenN data < 2 ^ 48 ->
  fst (dump_tool graphic (dump_with [] false false false offset hex width) data) <> Panic.
Proof.
  intros graphic offset hex width data L. set (cfg := dump_with _ _ _ _ _ _ _).
  assert (HK : forall bi pth q s, inside data bi -> lenN (bi_type bi) = 4 -> t_panic s = false ->
    keeps (dec data bi) (fun s => t_panic s = false) (dump_handler graphic cfg bi pth q s)).
  { intros bi pth q s II T4 Hs. unfold dump_handler. cbv zeta.
    assert (FF : boxes_exist (dc_full cfg) (box_type_string (bi_type bi)) = false).
    { pose proof (name_not_empty _ T4). destruct (box_type_string (bi_type bi)); [congruence|reflexivity]. }
    rewrite FF. cbn [negb orb andb]. change (dc_all cfg) with false.
    destruct (_ || _); [exact Hs|]. destruct (is_supported _ _ _); [|exact Hs]. cbn [negb andb].
    destruct (_ && _); [exact Hs|]. cbn [keeps].
    destruct (dec data bi) as [[[d x] n]|er| |] eqn:D; try exact Hs.
    2:{ destruct er; exact Hs. }
    assert (ST : exists str, stringify graphic std_registry (bi_type bi) x (bi_ctx bi) = Ok str).
    { pose proof (data62 data L) as L2. rewrite (dec_payload data L2 bi II) in D. unfold payload_at in D.
      match type of D with fst ?u = _ => destruct u as [r p'] eqn:U end. cbn [fst] in D. subst r.
      eapply C48_no_panic; [|exact L2|exact U]. apply II. }
    destruct ST as (str & ->). cbn [keeps]. split; [exact Hs|]. intros r s1 H1. destruct r; exact H1. }
  destruct (root_np data L (dump_handler graphic cfg) (fun s => t_panic s = false) (fun bi => lenN (bi_type bi) = 4)
              (fun lo bi H => box_at_type data lo bi H) (fun bi c H => H) HK tt 0 (mktst [] false) eq_refl) as [A B].
  unfold dump_tool. pose proof (finish_np _ _ A B) as Q. destruct (fst (finish _)); cbn in Q; try discriminate; contradiction.
Qed.
Print Assumptions C55_dump_partial.

(** ** Concrete cases *)
Definition passable_b (data : list byte) (go : entry -> bool) (e : entry) : bool :=
  match e_told e with Ok _ => true | _ => false end &&
  implb (go e) (match e_box e with
                | Box _ _ own _ slack =>
                    match e_decoded data e with Ok (_, _, n) => n =? lenN own | _ => false end &&
                    (match slack with [] => true | _ => false end || IsQuickTimeCompatible (bi_ctx (e_info e)))
                end).
Lemma passable_b_ok : forall data go l, forallb (passable_b data go) l = true -> Forall (passable data go) l.
Proof.
  intros data go l H. rewrite forallb_forall in H. apply Forall_forall. intros e I. specialize (H e I).
  unfold passable_b in H. apply andb_prop in H. destruct H as [H1 H2]. split.
  - destruct (e_told e); try discriminate. eauto.
  - intros G. rewrite G in H2. cbn [implb] in H2. unfold can_open, e_decoded in *. destruct (e_box e) as [f t own kids slack].
    apply andb_prop in H2. destruct H2 as [H2 H3]. split.
    + match goal with |- exists d x, ?D = _ => destruct D as [[[d x] n]| | |]; try discriminate end.
      apply N.eqb_eq in H2. subst n. eauto.
    + destruct slack; [now left|]. now right.
Qed.

(** a file with a box of an unregistered type, a box of an unregistered version,
    and free boxes at three places, one of them in the unregistered box *)
Definition tool_example : list box :=
  [ Box Small (bt "ftyp") (hex "69736f6d0000020069736f6d") [] [];
    Box Large (bt "moov") []
      [ Box Small (bt "free") (hex "0102") [] [];
        Box Small (bt "mfhd") (hex "05000000") [] [];
        Box Small (bt "abcd") (hex "ff") [ Box Small (bt "free") [] [] [] ] [];
        Box Small (bt "trak") []
          [ Box Small (bt "stss") (hex "00000000000000010000000a") [] [] ] [] ] [];
    Box ToEnd (bt "free") (hex "03") [] [] ].
Example C52_case :
  let data := file_bytes tool_example in
  list_wf true tool_example /\ lenN data = 112 /\
  Forall (passable data (looks_into data)) (reach_file data (looks_into data) false 0 0 tool_example) /\
  map e_path (reach_file data (looks_into data) false 0 0 tool_example) =
    [ [bt "ftyp"]; [bt "moov"]; [bt "moov"; bt "free"]; [bt "moov"; bt "mfhd"]; [bt "moov"; bt "abcd"];
      [bt "moov"; bt "trak"]; [bt "moov"; bt "trak"; bt "stss"]; [bt "free"] ] /\
  extract_tool data (bt "free") = (Ok tt, hex "0000000a6672656501020000000066726565" ++ hex "03") /\
  extract_tool data (bt "stss") = (Ok tt, hex "000000147374737300000000000000010000000a").
Proof.
  cbv zeta.
  split; [vm_compute; repeat split; intros; try discriminate; reflexivity|].
  split; [vm_compute; reflexivity|].
  split; [apply passable_b_ok; vm_compute; reflexivity|].
  split; [vm_compute; reflexivity|]. split; vm_compute; reflexivity.
Qed.
(** C52_all: the same file without the box in the unregistered box *)
Definition tool_example2 : list box :=
  [ Box Small (bt "ftyp") (hex "69736f6d0000020069736f6d") [] [];
    Box Large (bt "moov") []
      [ Box Small (bt "free") (hex "0102") [] [];
        Box Small (bt "abcd") (hex "ff") [] [];
        Box Small (bt "trak") []
          [ Box Small (bt "free") [] [] [] ] [] ] [] ].
Lemma all_b_ok : forall data go l, forallb (passable_b data go) l = true ->
  forallb (fun e => go e || match box_kids (e_box e) with [] => true | _ => false end) l = true ->
  Forall (fun e => passable data go e /\ (go e = true \/ box_kids (e_box e) = [])) l.
Proof.
  intros data go l P Q. apply passable_b_ok in P. rewrite Forall_forall in *. rewrite forallb_forall in Q.
  intros e I. split; [exact (P e I)|]. specialize (Q e I).
  apply orb_prop in Q. destruct Q as [Q|Q]; [now left|right]. now destruct (box_kids (e_box e)).
Qed.
Example C52_all_case :
  let data := file_bytes tool_example2 in
  list_wf true tool_example2 /\ lenN data = 71 /\
  Forall (fun e => passable data (looks_into data) e /\ (looks_into data e = true \/ box_kids (e_box e) = []))
    (list_file data ctx0 false 0 0 tool_example2) /\
  extract_tool data (bt "free") = (Ok tt, hex "0000000a6672656501020000000866726565").
Proof.
  cbv zeta.
  split; [vm_compute; repeat split; intros; try discriminate; reflexivity|].
  split; [vm_compute; reflexivity|].
  split; [|vm_compute; reflexivity].
  apply all_b_ok; vm_compute; reflexivity.
Qed.

Definition text_of (x : res unit * list byte) : option string :=
  match x with (Ok _, l) => Some (string_of_list_ascii l) | _ => None end.
Example C53_case :
  let data := file_bytes tool_example in
  let style := style_of [lit "abcd"] false false false true true 60 in
  Forall (fun s => ~ In comma s) [lit "abcd"] /\
  list_wf true tool_example /\ lenN data = 112 /\
  Forall (passable data (enters data style)) (reach_file data (enters data style) false 0 0 tool_example) /\
  text_of (dump_tool ascii_graphic (dump_with [lit "abcd"] false false false true true 60) data) = Some
"[ftyp] Offset=0x0 Size=0x14 ... (use ""-full ftyp"" to show all)
[moov] Offset=0x14 Size=0x53
  [free] Offset=0x24 Size=0xa Data=[...] (use ""-full free"" to show all)
  [mfhd] Offset=0x2e Size=0xc (unsupported box version) Data=[...] (use ""-full mfhd"" to show all)
  [abcd] (unsupported box type) Offset=0x3a Size=0x11 Data=[0xff 0x00 0x00 0x00 0x08 0x66 0x72 0x65 0x65]
  [trak] Offset=0x4b Size=0x1c
    [stss] Offset=0x53 Size=0x14 ... (use ""-full stss"" to show all)
[free] Offset=0x67 Size=0x9 Data=[...] (use ""-full free"" to show all)
".
Proof.
  cbv zeta.
  split; [repeat constructor; vm_compute; intros H; repeat destruct H as [H|H]; try discriminate; contradiction|].
  split; [vm_compute; repeat split; intros; try discriminate; reflexivity|].
  split; [vm_compute; reflexivity|].
  split; [apply passable_b_ok; vm_compute; reflexivity|].
  vm_compute. reflexivity.
Qed.

(** With -a, 16 bytes are enough for a panic: a 64-bit header that gives the size
    8 makes the size of the payload 2^64 - 8, and a buffer of that size is asked
    for. *)
Theorem C55_dump_refuted : exists data, lenN data = 16 /\
  fst (dump_tool ascii_graphic (dump_with [] true false false false false 180) data) = Panic.
Proof. exists (hex "00000001616263640000000000000008"). split; vm_compute; reflexivity. Qed.
Print Assumptions C55_dump_refuted.
