(** C66: the command line of mp4tool (Cli.v, SpecCli.v). *)
From Coq Require Import NArith ZArith Lia.
From Verif Require Import Base GoText BaseProofs Tool Edit ProbeTool Divide DivideFloats Cli SpecCli CliProofs.
Local Open Scope string_scope.
Local Open Scope list_scope.
Local Open Scope N_scope.

(** ** Numbers *)
Theorem C66_number : forall s n, parse_uint s = Some n <-> number s n /\ n < 2 ^ 64.
Proof.
  intros s n. split; [apply parse_uint_number|]. intros [H L]. now apply number_parse_uint.
Qed.
Print Assumptions C66_number.

(** ** Options *)
Definition dump_defs := [("full", KString); ("a", KBool); ("mdat", KBool); ("free", KBool); ("offset", KBool); ("hex", KBool)].
Definition probe_defs := [("format", KString)].
Definition edit_defs := [("base_media_decode_time", KUint); ("drop", KString)].
Lemma dump_good : good_defs dump_defs.
Proof.
  split; [|split; reflexivity]. intros n k H. cbn [dump_defs In] in H.
  destruct H as [H|[H|[H|[H|[H|[H|[]]]]]]]; injection H as <- <-;
    (split; [split; [split; discriminate|repeat constructor; discriminate]|reflexivity]).
Qed.
Lemma probe_good : good_defs probe_defs.
Proof.
  split; [|split; reflexivity]. intros n k H. destruct H as [H|[]]; injection H as <- <-;
    (split; [split; [split; discriminate|repeat constructor; discriminate]|reflexivity]).
Qed.
Lemma extract_good : good_defs [].
Proof. split; [|split; reflexivity]. intros n k []. Qed.
Lemma edit_good : good_defs edit_defs.
Proof.
  split; [|split; reflexivity]. intros n k H. destruct H as [H|[H|[]]]; injection H as <- <-;
    (split; [split; [split; discriminate|repeat constructor; discriminate]|reflexivity]).
Qed.
Lemma dump_ok : forall o, dump_option o <-> option_ok dump_defs o.
Proof.
  intros [n b|n v]; cbn.
  - split; intros H; repeat (destruct H as [H|H]); subst; try contradiction; try (injection H as <-); try discriminate; tauto.
  - split; [intros ->; tauto|]. intros [H|[H _]]; repeat (destruct H as [H|H]); try contradiction; try discriminate; congruence.
Qed.
Lemma probe_ok : forall o, probe_option o <-> option_ok probe_defs o.
Proof.
  intros [n b|n v]; cbn.
  - split; [intros []|intros [H|[]]; discriminate].
  - split; [intros ->; tauto|]. intros [[H|[]]|[[H|[]] _]]; congruence.
Qed.
Lemma edit_ok : forall o, edit_option o <-> option_ok edit_defs o.
Proof.
  intros [n b|n v]; cbn [option_ok edit_option edit_defs In].
  - split; [intros []|intros [H|[H|[]]]; discriminate].
  - split.
    + intros [->|[-> H]]; [left; right; left; reflexivity|]. right. split; [left; reflexivity|exact H].
    + intros [[H|[H|[]]]|[[H|[H|[]]] E]]; try discriminate; injection H as <-; auto.
Qed.
Lemma forall_iff : forall (P Q : option_given -> Prop) os, (forall o, P o <-> Q o) -> (Forall P os <-> Forall Q os).
Proof. intros P Q os H. split; intros F; eapply Forall_impl; try exact F; intros o; apply H. Qed.

Lemma flags_done : forall defs line vals given k, good_defs defs -> forall os, Forall (option_ok defs) os ->
  consists_of os given line -> vals = rev (map (stored defs) os) ++ [] -> with_flags defs line k = k vals given.
Proof.
  intros defs line vals given k G os F (a & b & -> & A & B) ->. unfold with_flags. fold (ldefs defs).
  now rewrite (parse_all_written defs G os a A F), (parse_operands defs given b _ B).
Qed.
Lemma flags_help : forall defs line k os, good_defs defs -> Forall (option_ok defs) os -> asks_for_help os line ->
  with_flags defs line k = FlagHelp.
Proof.
  intros defs line k os G F (a & d & h & v & b & -> & A & D & H & V). unfold with_flags. fold (ldefs defs).
  now rewrite (parse_all_written defs G os a A F), (parse_help defs G d h v b _ D H V).
Qed.
Lemma flags_inv : forall defs line k a, good_defs defs -> with_flags defs line k = a ->
  (exists os given, Forall (option_ok defs) os /\ consists_of os given line /\ k (rev (map (stored defs) os) ++ []) given = a) \/
  (exists os, Forall (option_ok defs) os /\ asks_for_help os line /\ a = FlagHelp) \/ a = FlagError.
Proof.
  intros defs line k a G E. unfold with_flags in E. fold (ldefs defs) in E.
  pose proof (parse_reads defs G (List.length line) line (le_n _) []) as R.
  destruct (parse_flags (ldefs defs) line []) as [vals rest| |].
  - left. destruct R as (os & F & C & ->). eauto 10.
  - right; left. destruct R as (os & F & C). eauto.
  - right; right. auto.
Qed.

Lemma edit_time : forall os time, Forall edit_option os ->
  match last_setting "base_media_decode_time" os Some None with
  | Some v => number v time /\ time < 2 ^ 64
  | None => time = 2 ^ 64 - 1
  end <-> get_uint "base_media_decode_time" UNoValue (rev (map (stored edit_defs) os) ++ []) = time.
Proof.
  intros os time F. rewrite (get_uint_last edit_defs _ _ edit_good ltac:(cbn; auto) os [] (proj1 (forall_iff _ _ os edit_ok) F)).
  change (get_uint "base_media_decode_time" UNoValue []) with UNoValue.
  pose proof (last_setting_some N "base_media_decode_time" (fun v => match parse_uint v with Some t => t | None => 0 end) os None UNoValue) as S.
  cbv iota in S. rewrite S. destruct (last_setting "base_media_decode_time" os Some None) as [v|] eqn:L.
  - destruct (last_setting_in _ _ _ _ L) as [Q|Q]; [discriminate|]. rewrite Forall_forall in F. specialize (F _ Q).
    destruct F as [F|[_ (t & T & LT)]]; [discriminate|]. rewrite (number_parse_uint v t T LT). split.
    + intros [T2 L2]. pose proof (number_parse_uint v t T LT). pose proof (number_parse_uint v time T2 L2). congruence.
    + intros <-. auto.
  - change UNoValue with (2 ^ 64 - 1). split; auto.
Qed.

(** ** Every line asks for one thing, and that is what is done; a line that asks
    for nothing has an error in its options *)
Theorem C66_asks : forall args a, a <> FlagError -> (main_action args = a <-> asks args a).
Proof.
  intros args a NE. split.
  - destruct args as [|c r]; [intros <-; constructor|]. cbn [main_action].
    destruct (bytes_eqb c (lit "help")) eqn:E1; [apply bytes_eqb_eq in E1; subst c; intros <-; constructor|].
    destruct (bytes_eqb c (lit "dump")) eqn:E2.
    { apply bytes_eqb_eq in E2. subst c. intros E.
      destruct (flags_inv dump_defs r _ a dump_good E) as [(os & given & F & C & <-)|[(os & F & C & ->)|Q]]; [| |contradiction].
      - apply (forall_iff _ _ os dump_ok) in F. destruct given as [|f given]; [exact (ask_dump_usage r os F C)|].
        pose proof (ask_dump r os f given F C) as A. apply (forall_iff _ _ os dump_ok) in F.
        rewrite !(get_bool_last dump_defs _ dump_good) by (cbn; auto 10).
        rewrite (get_string_last dump_defs _ _ dump_good) by (cbn; auto 10). exact A.
      - apply (forall_iff _ _ os dump_ok) in F. exact (ask_dump_help r os F C). }
    destruct (bytes_eqb c (lit "psshdump")) eqn:E3.
    { apply bytes_eqb_eq in E3. subst c. destruct r; intros <-; [exact ask_psshdump_usage|exact (ask_psshdump _ _)]. }
    destruct (bytes_eqb c (lit "probe")) eqn:E4.
    { apply bytes_eqb_eq in E4. subst c. intros E.
      destruct (flags_inv probe_defs r _ a probe_good E) as [(os & given & F & C & <-)|[(os & F & C & ->)|Q]]; [| |contradiction].
      - apply (forall_iff _ _ os probe_ok) in F. destruct given as [|f given]; [exact (ask_probe_usage r os F C)|].
        pose proof (ask_probe r os f given F C) as A. apply (forall_iff _ _ os probe_ok) in F.
        rewrite (get_string_last probe_defs _ _ probe_good) by (cbn; auto 10). exact A.
      - apply (forall_iff _ _ os probe_ok) in F. exact (ask_probe_help r os F C). }
    destruct (bytes_eqb c (lit "extract")) eqn:E5.
    { apply bytes_eqb_eq in E5. subst c. intros E.
      assert (NO : forall os, Forall (option_ok []) os -> os = []).
      { intros [|o os] F; [reflexivity|]. inversion F as [|? ? F1 _]; subst. destruct o; cbn in F1; tauto. }
      destruct (flags_inv [] r _ a extract_good E) as [(os & given & F & C & <-)|[(os & F & C & ->)|Q]]; [| |contradiction].
      - rewrite (NO os F) in C. destruct given as [|t [|f given]]; try exact (ask_extract_usage r _ C I).
        destruct (N.eqb_spec (lenN t) 4) as [L|L]; unfold lenN in L.
        + refine (ask_extract r t f given C _). lia.
        + refine (ask_extract_usage r _ C _). lia.
      - rewrite (NO os F) in C. exact (ask_extract_help r C). }
    destruct (bytes_eqb c (lit "alpha")) eqn:E6.
    { apply bytes_eqb_eq in E6. subst c. destruct r as [|c r]; [intros <-; exact ask_alpha_nothing|]. cbn [alpha_main].
      destruct (bytes_eqb c (lit "edit")) eqn:E7.
      { apply bytes_eqb_eq in E7. subst c. intros E.
        destruct (flags_inv edit_defs r _ a edit_good E) as [(os & given & F & C & <-)|[(os & F & C & ->)|Q]]; [| |contradiction].
        - apply (forall_iff _ _ os edit_ok) in F.
          destruct given as [|i [|o given]]; try (refine (ask_edit_usage r os _ F C _); cbn; lia).
          pose proof (ask_edit r os _ i o given F C (proj2 (edit_time os _ F) eq_refl)) as A. apply (forall_iff _ _ os edit_ok) in F.
          rewrite (get_string_last edit_defs _ _ edit_good) by (cbn; auto 10). exact A.
        - apply (forall_iff _ _ os edit_ok) in F. exact (ask_edit_help r os F C). }
      destruct (bytes_eqb c (lit "divide")) eqn:E8.
      { apply bytes_eqb_eq in E8. subst c. destruct r as [|f [|d r]]; intros <-.
        - apply ask_divide_usage. cbn. lia.
        - apply ask_divide_usage. cbn. lia.
        - exact (ask_divide f d r). }
      intros <-. apply ask_alpha_unknown. intros [H|[H|[]]]; subst c; rewrite bytes_eqb_refl in *; discriminate. }
    intros <-. apply ask_unknown. intros H. cbn [map In] in H.
    destruct H as [H|[H|[H|[H|[H|[H|[]]]]]]]; subst c; rewrite bytes_eqb_refl in *; discriminate.
  - intros H. destruct H as [|r|c r H| |c r H|f r| |f d r|r H|line os f r F C|line os F C|line os F C|line os f r F C|line os F C|line os F C
                            |line t f r C L|line given C L|line C|line os time i o r F C T|line os given F C L|line os F C]; try reflexivity.
    + cbn [map In] in H. cbn [main_action].
      assert (N : forall s, In s ["help"; "dump"; "psshdump"; "probe"; "extract"; "alpha"] -> bytes_eqb c (lit s) = false).
      { intros s I. destruct (bytes_eqb c (lit s)) eqn:E; [|reflexivity]. apply bytes_eqb_eq in E. exfalso. apply H.
        apply (in_map lit) in I. rewrite <- E in I. exact I. }
      rewrite !N by (cbn; auto 10). reflexivity.
    + change (main_action (lit "alpha" :: c :: r)) with (alpha_main (c :: r)). cbn [alpha_main].
      assert (N : forall s, In s ["edit"; "divide"] -> bytes_eqb c (lit s) = false).
      { intros s I. destruct (bytes_eqb c (lit s)) eqn:E; [|reflexivity]. apply bytes_eqb_eq in E. exfalso. apply H.
        apply (in_map lit) in I. rewrite <- E in I. exact I. }
      rewrite !N by (cbn; auto 10). reflexivity.
    + change (main_action (lit "alpha" :: lit "divide" :: r)) with (divide_main r). destruct r as [|x [|y r]]; try reflexivity. cbn in H. lia.
    + apply (forall_iff _ _ os dump_ok) in F. change (main_action (lit "dump" :: line)) with (dump_main line). unfold dump_main.
      rewrite (flags_done dump_defs line _ (f :: r) _ dump_good os F C eq_refl).
      rewrite !(get_bool_last dump_defs _ dump_good) by (cbn; auto 10).
      now rewrite (get_string_last dump_defs _ _ dump_good) by (cbn; auto 10).
    + apply (forall_iff _ _ os dump_ok) in F. exact (flags_done dump_defs line _ [] _ dump_good os F C eq_refl).
    + apply (forall_iff _ _ os dump_ok) in F. exact (flags_help dump_defs line _ os dump_good F C).
    + apply (forall_iff _ _ os probe_ok) in F. change (main_action (lit "probe" :: line)) with (probe_main line). unfold probe_main.
      rewrite (flags_done probe_defs line _ (f :: r) _ probe_good os F C eq_refl).
      now rewrite (get_string_last probe_defs _ _ probe_good) by (cbn; auto 10).
    + apply (forall_iff _ _ os probe_ok) in F. exact (flags_done probe_defs line _ [] _ probe_good os F C eq_refl).
    + apply (forall_iff _ _ os probe_ok) in F. exact (flags_help probe_defs line _ os probe_good F C).
    + change (main_action (lit "extract" :: line)) with (extract_main line). unfold extract_main.
      rewrite (flags_done [] line _ (t :: f :: r) _ extract_good [] (Forall_nil _) C eq_refl).
      unfold lenN. rewrite L. reflexivity.
    + change (main_action (lit "extract" :: line)) with (extract_main line). unfold extract_main.
      rewrite (flags_done [] line _ given _ extract_good [] (Forall_nil _) C eq_refl).
      destruct given as [|t [|f given]]; try reflexivity. destruct (N.eqb_spec (lenN t) 4) as [Q|Q]; [|reflexivity].
      unfold lenN in Q. lia.
    + exact (flags_help [] line _ [] extract_good (Forall_nil _) C).
    + apply (edit_time os time F) in T. apply (forall_iff _ _ os edit_ok) in F.
      change (main_action (lit "alpha" :: lit "edit" :: line)) with (edit_main line). unfold edit_main.
      rewrite (flags_done edit_defs line _ (i :: o :: r) _ edit_good os F C eq_refl). rewrite T.
      now rewrite (get_string_last edit_defs _ _ edit_good) by (cbn; auto 10).
    + apply (forall_iff _ _ os edit_ok) in F.
      change (main_action (lit "alpha" :: lit "edit" :: line)) with (edit_main line). unfold edit_main.
      rewrite (flags_done edit_defs line _ given _ edit_good os F C eq_refl).
      destruct given as [|x [|y given]]; try reflexivity. cbn in L. lia.
    + apply (forall_iff _ _ os edit_ok) in F. exact (flags_help edit_defs line _ os edit_good F C).
Qed.
Print Assumptions C66_asks.

Lemma asks_no_error : forall args a, asks args a -> a <> FlagError.
Proof. intros args a H. destruct H; discriminate. Qed.
Theorem C66_one : forall args a b, asks args a -> asks args b -> a = b.
Proof.
  intros args a b A B. pose proof (asks_no_error _ _ A) as NA. pose proof (asks_no_error _ _ B) as NB.
  apply (C66_asks args a NA) in A. apply (C66_asks args b NB) in B. congruence.
Qed.
Print Assumptions C66_one.

(** ** Exit codes and effects *)
(** nothing printed to standard output, no file created *)
Definition only_ends (p : process) (code : N) : Prop :=
  pr_exit p = Some code /\ pr_stdout p = [] /\ pr_report p = None /\ pr_created p = None /\ pr_divided p = None.
Theorem C66_bad_options : forall w args, (forall a, ~ asks args a) -> only_ends (mp4tool w args) 2.
Proof.
  intros w args H. assert (E : main_action args = FlagError).
  { destruct (main_action args) eqn:E; try reflexivity; exfalso;
      match type of E with _ = ?a => refine (H a (proj1 (C66_asks args a _) E)); discriminate end. }
  unfold mp4tool. rewrite E. repeat split.
Qed.
Print Assumptions C66_bad_options.
Theorem C66_no_request : forall w args a, asks args a ->
  match a with
  | Usage => only_ends (mp4tool w args) 1
  | Help => only_ends (mp4tool w args) 0
  | FlagHelp => only_ends (mp4tool w args) (w_help_code w)
  | _ => True
  end.
Proof.
  intros w args a H. pose proof (proj2 (C66_asks args a (asks_no_error _ _ H)) H) as E. unfold mp4tool. rewrite E.
  destruct a; try exact I; repeat split.
Qed.
Print Assumptions C66_no_request.
(** the file that a request reads *)
Definition input_of (a : action) : option arg :=
  match a with
  | Dump _ _ _ _ _ _ f | PsshDump f | ProbeFile _ f | ExtractBox _ f | EditFile _ _ f _ | DivideFile f _ => Some f
  | _ => None
  end.
Theorem C66_no_input : forall w args a f, asks args a -> input_of a = Some f -> w_file w f = None -> only_ends (mp4tool w args) 1.
Proof.
  intros w args a f H I W. pose proof (proj2 (C66_asks args a (asks_no_error _ _ H)) H) as E. unfold mp4tool. rewrite E.
  destruct a; cbn in I; try discriminate; injection I as ->; cbn [perform]; unfold with_input; rewrite W; repeat split.
Qed.
Print Assumptions C66_no_input.
(** nil or an error from the work that a request names *)
Definition outcome (w : world) (a : action) (data : list byte) : res unit :=
  let unit_of {A} (r : res A) := match r with Ok _ => Ok tt | Err e => Err e | Panic => Panic | OutOfFuel => OutOfFuel end in
  match a with
  | Dump full all mdat free offset hex _ => fst (dump_tool (w_graphic w) (dump_options full all mdat free offset hex (w_width w)) data)
  | PsshDump _ => fst (psshdump_tool data)
  | ProbeFile format _ => if bytes_eqb format (lit "json") then unit_of (probe_tool data) else unit_of (fst (build_report data 0))
  | ExtractBox t _ => fst (extract_tool data t)
  | EditFile time drop i o =>
      if w_create w o then fst (edit_file (mkcfg time (split_comma drop)) (if w_same w i o then [] else data))
      else Err (EMsg "cannot create the output")
  | DivideFile _ _ => fst (go_divide (w_uint64 w) (w_int w) (w_order w) data)
  | _ => Ok tt
  end.
Theorem C66_exit : forall w args a f data, asks args a -> input_of a = Some f -> w_file w f = Some data ->
  (pr_exit (mp4tool w args) = Some 0 <-> outcome w a data = Ok tt) /\
  (pr_exit (mp4tool w args) = Some 1 <-> exists e, outcome w a data = Err e) /\
  (pr_exit (mp4tool w args) = Some 2 <-> outcome w a data = Panic).
Proof.
  intros w args a f data H I W. pose proof (proj2 (C66_asks args a (asks_no_error _ _ H)) H) as E. unfold mp4tool. rewrite E.
  assert (K : forall r : res unit, (exit_code r = Some 0 <-> r = Ok tt) /\ (exit_code r = Some 1 <-> exists e, r = Err e) /\ (exit_code r = Some 2 <-> r = Panic)).
  { clear. intros [[]|e| |]; cbn; (split; [|split]); split; intros Q; try discriminate; try reflexivity; eauto; destruct Q; discriminate. }
  assert (KR : forall r : res report, let u := match r with Ok _ => Ok tt | Err e => Err e | Panic => Panic | OutOfFuel => OutOfFuel end in
            exit_code r = exit_code u).
  { clear. intros [x|e| |]; reflexivity. }
  destruct a; cbn in I; try discriminate; injection I as ->; cbn [perform]; unfold with_input; rewrite W; cbn [prints pr_exit outcome]; try apply K.
  - unfold probe_process. destruct (bytes_eqb format (lit "json")); cbn [pr_exit]; rewrite KR; apply K.
  - unfold edit_process. destruct (w_create w output); cbn [pr_exit]; [apply K|].
    cbn. split; [split; discriminate|]. split; [split; eauto|split; discriminate].
Qed.
Print Assumptions C66_exit.

(** ** Cases *)
(** Options in several spellings, one of them twice; the option after the file
    name is not an option any more. *)
Example C66_case :
  asks (map lit ["dump"; "-a"; "--full=free"; "-offset=1"; "-full"; "mdat,free"; "--a=false"; "x.mp4"; "-hex"])
    (Dump (lit "mdat,free") false false false true false (lit "x.mp4")) /\
  (* a switch does not take the next argument *)
  asks (map lit ["dump"; "-a"; "false"; "x.mp4"]) (Dump [] true false false false false (lit "false")) /\
  asks (map lit ["alpha"; "edit"; "-base_media_decode_time=0x1_0"; "--drop"; "--"; "--"; "-i"; "-o"])
    (EditFile 16 (lit "--") (lit "-i") (lit "-o")) /\
  asks (map lit ["extract"; "moov"; "-"]) (ExtractBox (lit "moov") (lit "-")) /\
  asks (map lit ["extract"; "url"; "x.mp4"]) Usage /\
  asks (map lit ["probe"; "-format"; "yaml"; "-help"]) FlagHelp /\
  (forall a, ~ asks (map lit ["alpha"; "edit"; "-base_media_decode_time"; "18446744073709551616"; "i"; "o"]) a) /\
  (forall a, ~ asks (map lit ["alpha"; "edit"; "-base_media_decode_time"; "-1"; "i"; "o"]) a) /\
  (forall a, ~ asks (map lit ["dump"; "-all"; "x.mp4"]) a).
Proof.
  assert (NO : forall l, main_action l = FlagError -> forall a, ~ asks l a).
  { intros l E a A. pose proof (asks_no_error _ _ A) as N. apply (C66_asks l a N) in A. congruence. }
  split; [apply C66_asks; [discriminate|vm_compute; reflexivity]|].
  split; [apply C66_asks; [discriminate|vm_compute; reflexivity]|].
  split; [apply C66_asks; [discriminate|vm_compute; reflexivity]|].
  split; [apply C66_asks; [discriminate|vm_compute; reflexivity]|].
  split; [apply C66_asks; [discriminate|vm_compute; reflexivity]|].
  split; [apply C66_asks; [discriminate|vm_compute; reflexivity]|].
  split; [apply NO; vm_compute; reflexivity|].
  split; apply NO; vm_compute; reflexivity.
Qed.
