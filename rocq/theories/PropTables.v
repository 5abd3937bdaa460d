(** C50: boxes are laid out as the specifications prescribe. *)
From Verif Require Import Base BaseProofs BitIO Schema Structs Methods Registry Marshal Unmarshal Decode.
From Verif Require Import SpecCodec SpecLossless PropMarshal BitIOProofs UnmarshalProofs VersionFacts Causal
     MarshalProofs MarshalCount Shape Lossless PropUnmarshal Vectors SpecIso SpecTables IsoProofs PropLookup.
Local Open Scope string_scope.
Local Open Scope list_scope.
Local Open Scope N_scope.
Ltac Zify.zify_post_hook ::= Z.to_euclidean_division_equations.

(** ** The tables are those of the registered structs *)
Definition find_row (t : btype) (name : string) : option table :=
  option_map snd (find (fun r : row => existsb (bt_eqb t) (fst (fst r)) && String.eqb name (snd (fst r)))
                       standard_tables).
Definition covered (x : btype * boxdef) : bool := negb (str_in (bd_name (snd x)) ["HvcC"; "Sgpd"]).
Lemma rows_match :
  map (fun x => find_row (fst x) (bd_name (snd x))) (filter covered std_registry) =
  map (fun x => Some (table_of (snd x))) (filter covered std_registry).
Proof. vm_compute. reflexivity. Qed.
Lemma rows_found :
  flat_map (fun r : row => map (fun t => find_row t (snd (fst r))) (fst (fst r))) standard_tables =
  flat_map (fun r : row => map (fun _ => Some (snd r)) (fst (fst r))) standard_tables.
Proof. vm_compute. reflexivity. Qed.
Lemma rows_covered : forallb (fun r : row => negb (str_in (snd (fst r)) ["HvcC"; "Item"])) standard_tables = true.
Proof. vm_compute. reflexivity. Qed.

(** The package takes the roll distances of sgpd up to the end of the box, not as
    many as announced. *)
Definition counted (v : list (string * val)) : Prop :=
  let env := mkenv v (get_version v) (get_flags v) ctx0 in
  ceval env roll_groups = true ->
  lenN (elements (member (if ceval env lengths_given then "RollDistancesL" else "RollDistances") (VStruct v))) =
  as_uint (lookup "EntryCount" v).
Definition sgpd_as_coded : table :=
  firstn 5 sgpd ++
  [ when (CAnd roll_groups (CNot lengths_given)) "RollDistances" (ToTheEnd (SpecIso.i 16));
    when (CAnd roll_groups lengths_given) "RollDistancesL"
      (ToTheEnd (Group false [ is "DescriptionLength" (SpecIso.u 32); is "RollDistance" (SpecIso.i 16) ])) ] ++
  skipn 7 sgpd.
Lemma sgpd_coded : map (fun x => table_of (snd x)) (filter (fun x => String.eqb (bd_name (snd x)) "Sgpd") std_registry) =
  map (fun x => sgpd_as_coded) (filter (fun x => String.eqb (bd_name (snd x)) "Sgpd") std_registry).
Proof. vm_compute. reflexivity. Qed.
Lemma sgpd_rows : map (fun r : row => snd r) (filter (fun r => String.eqb (snd (fst r)) "Sgpd") standard_tables) =
  map (fun _ => sgpd) (filter (fun r => String.eqb (snd (fst r)) "Sgpd") standard_tables).
Proof. reflexivity. Qed.
Lemma several_all : forall root ctx env e s v, number env e = lenN (elements v) ->
  bits_of root ctx env (Several e s) v = bits_of root ctx env (ToTheEnd s) v.
Proof.
  intros root ctx env e s v E. cbn [bits_of]. rewrite E, takeN_all by lia. now destruct (_ =? _).
Qed.
Lemma sgpd_counted : forall ctx v, counted v -> table_bits sgpd ctx v = table_bits sgpd_as_coded ctx v.
Proof.
  intros ctx v C. rewrite <- (firstn_skipn 5 sgpd) at 1. rewrite <- (firstn_skipn 2 (skipn 5 sgpd)) at 1.
  unfold table_bits, sgpd_as_coded. cbn [bits_of]. rewrite !flat_map_app. f_equal. f_equal.
  unfold counted in C. cbv zeta in C.
  set (env := seen_from v ctx v).
  assert (R : ceval env roll_groups = ceval (mkenv v (get_version v) (get_flags v) ctx0) roll_groups) by reflexivity.
  assert (L : ceval env lengths_given = ceval (mkenv v (get_version v) (get_flags v) ctx0) lengths_given) by reflexivity.
  rewrite <- R, <- L in C.
  cbn [firstn skipn sgpd flat_map]. cbv zeta. unfold when. cbn [ceval].
  change (seen_from v ctx (members (VStruct v))) with env.
  assert (NU : number env (MField "EntryCount") = as_uint (lookup "EntryCount" v)) by reflexivity.
  destruct (ceval env roll_groups) eqn:ER; cbn [andb]; [|reflexivity].
  specialize (C eq_refl). destruct (ceval env lengths_given) eqn:EL; cbn [negb].
  - rewrite (several_all v ctx env (MField "EntryCount")); [reflexivity|]. rewrite NU, C. reflexivity.
  - rewrite (several_all v ctx env (MField "EntryCount")); [reflexivity|]. rewrite NU, C. reflexivity.
Qed.

Lemma map_eq_In : forall A B (f g : A -> B) l, map f l = map g l -> forall x, In x l -> f x = g x.
Proof.
  intros A B f g l. induction l as [|a l IH]; intros E x I; [destruct I|]. cbn in E. injection E as E1 E2.
  destruct I as [<-|I]; auto.
Qed.
Lemma app_same_length : forall A (a b c d : list A), List.length a = List.length c -> (a ++ b = c ++ d)%list -> a = c /\ b = d.
Proof.
  intros A a. induction a as [|x a IH]; intros b [|y c] d L E; try discriminate L; [auto|].
  cbn in E. injection E as -> E. injection L as L. destruct (IH _ _ _ L E) as [-> ->]. auto.
Qed.
Lemma rows_split : forall (F : row -> btype -> option table) l,
  flat_map (fun r : row => map (F r) (fst (fst r))) l =
  flat_map (fun r : row => map (fun _ => Some (snd r)) (fst (fst r))) l ->
  forall r t, In r l -> In t (fst (fst r)) -> F r t = Some (snd r).
Proof.
  intros F l. induction l as [|a l IH]; intros E r t I It; [destruct I|]. cbn [flat_map] in E.
  apply app_same_length in E; [|now rewrite !map_length]. destruct E as [E1 E2]. destruct I as [<-|I]; [|eauto].
  exact (map_eq_In _ _ _ _ _ E1 t It).
Qed.
Lemma row_of : forall types name T t, In (types, name, T) standard_tables -> In t types ->
  find_row t name = Some T.
Proof. intros types name T t I It. exact (rows_split (fun r t => find_row t (snd (fst r))) _ rows_found _ t I It). Qed.


(** what get_box_def finds is registered, unless it is the definition for numbered metadata items *)
Lemma def_registered : forall t c d, get_box_def std_registry t c = Some d ->
  In (t, d) std_registry \/ d = item_def.
Proof.
  intros t c d H. unfold get_box_def in H.
  destruct (find_def t c (rev std_registry)) as [d'|] eqn:F.
  - injection H as ->. left. apply in_rev. induction (rev std_registry) as [|[t' e] l IH]; [discriminate|].
    cbn [find_def] in F. destruct (bt_eqb t t' && _) eqn:E; [|right; auto].
    injection F as ->. apply andb_prop in E. destruct E as [E _]. apply bt_eqb_iff in E. subst. now left.
  - right. destruct (UnderIlst c); [|discriminate]. destruct (_ && _); [congruence|discriminate].
Qed.

Lemma row_table : forall types T t c d,
  In (types, bd_name d, T) standard_tables -> In t types -> get_box_def std_registry t c = Some d ->
  table_of d = T \/ (bd_name d = "Sgpd" /\ T = sgpd /\ table_of d = sgpd_as_coded).
Proof.
  intros types T t c d I It G. pose proof rows_covered as C. rewrite forallb_forall in C.
  specialize (C _ I). cbn [fst snd] in C.
  assert (N : forall s, str_in s ["HvcC"; "Item"] = true -> bd_name d <> s).
  { intros s Hs E. rewrite E, Hs in C. discriminate. }
  destruct (def_registered _ _ _ G) as [R| ->]; [|exfalso; now apply (N "Item")].
  destruct (String.eqb_spec (bd_name d) "Sgpd") as [ES|NS].
  - right. split; [exact ES|]. split.
    + exact (map_eq_In _ _ _ _ _ sgpd_rows _ (proj2 (filter_In _ _ _) (conj I (proj2 (String.eqb_eq _ _) ES)))).
    + exact (map_eq_In _ _ _ _ _ sgpd_coded (t, d) (proj2 (filter_In _ _ _) (conj R (proj2 (String.eqb_eq _ _) ES)))).
  - left. assert (Cv : In (t, d) (filter covered std_registry)).
    { apply filter_In. split; [exact R|]. unfold covered. cbn [snd]. apply negb_true_iff.
      destruct (str_in (bd_name d) ["HvcC"; "Sgpd"]) eqn:E; [exfalso|reflexivity].
      apply str_in_In in E. destruct E as [E|[E|[]]]; [apply (N "HvcC")|]; auto. }
    pose proof (map_eq_In _ _ _ _ _ rows_match (t, d) Cv) as E. cbn [fst snd] in E.
    rewrite (row_of _ _ _ _ I It) in E. now injection E as ->.
Qed.

Lemma row_bits : forall types T t c d v bits,
  In (types, bd_name d, T) standard_tables -> In t types -> get_box_def std_registry t c = Some d ->
  get_version v <> 255 -> (bd_name d = "Sgpd" -> counted v) ->
  layout (bd_name d) (bd_flds d) c v = Some bits -> table_bits T c v = bits.
Proof.
  intros types T t c d v bits I It G V S L. pose proof (table_ok d c v bits V L) as E.
  destruct (row_table _ _ _ _ _ I It G) as [<-|(E1 & -> & E2)]; [exact E|].
  rewrite (sgpd_counted c v (S E1)), <- E2. exact E.
Qed.

(** ** Writing *)
(** [layout ... = Some bits]: the value is well-formed (SpecCodec.v).
    Missing: hvcC, for which the claim is false, and sgpd with another number of
    roll distances than announced, for which it is false as well (both below). *)
Theorem C50_written_partial : forall types T t ctx d v bits,
  In (types, bd_name d, T) standard_tables -> In t types ->
  get_box_def std_registry t ctx = Some d -> get_version v <> 255 -> (bd_name d = "Sgpd" -> counted v) ->
  layout (bd_name d) (bd_flds d) ctx v = Some bits -> lenN bits mod 8 = 0 ->
  exists out, marshal std_registry t ctx v [] = (Ok (lenN out), out) /\
              bits_of_bytes out = table_bits T ctx v.
Proof.
  intros types T t ctx d v bits I It G V S L A.
  destruct (C06_marshal_layout std_registry t ctx d v bits G L A) as (out & EO & M).
  exists out. split; [exact M|]. rewrite EO. symmetry. eapply row_bits; eauto.
Qed.
Print Assumptions C50_written_partial.

(** ** Reading *)
Theorem C50_read_partial : forall types T data t size ctx pos d x n pos',
  In (types, bd_name d, T) standard_tables -> In t types -> plain_box d = true ->
  pos <= lenN data -> lenN data < 2 ^ 62 ->
  unmarshal_any std_registry data t size ctx pos = (Ok (d, x, n), pos') -> get_version x <> 255 ->
  (bd_name d = "Sgpd" -> counted x) ->
  bits_of_bytes (takeN n (skipN pos data)) = table_bits T ctx x.
Proof.
  intros types T data t size ctx pos d x n pos' I It PB Hp Hd H V S.
  pose proof (unmarshal_any_def _ _ _ _ _ _ _ _ _ H) as G.
  pose proof (unmarshal_any_decode t ctx d data size pos G Hp Hd) as U. cbv zeta in U.
  rewrite H in U. destruct U as (_ & U & _ & L).
  pose proof (all_defs_check _ _ _ _ _ eq_refl std_causal G) as HC. cbv beta in HC.
  pose proof (all_defs_check _ _ _ _ _ eq_refl std_nodup G) as HN. cbv beta in HN.
  pose proof (all_defs_check _ _ _ _ _ eq_refl std_plain G) as HP. cbv beta in HP.
  pose proof (all_defs_check _ _ _ _ _ eq_refl std_start G) as HS. cbv beta in HS.
  destruct (start_shaped d HN) as (S1 & S2 & S3).
  { apply orb_prop in HS. destruct HS as [HS|HS]; [now left|right].
    destruct (fullbox_of _); [discriminate|reflexivity]. }
  destruct (decode_lossless _ _ _ _ _ _ _ HC HN HP S1 S2 S3 PB U) as (b & r & E1 & E2 & E3).
  rewrite (row_bits _ _ _ _ _ _ _ I It G V S E3).
  rewrite <- takeN_bits_of_bytes, E1, <- E2. now rewrite takeN_app_exact.
Qed.
Print Assumptions C50_read_partial.

(** Every row is about registered definitions, so that the theorems apply to it. *)
Example C50_rows_registered :
  forallb (fun r : row => forallb (fun t => existsb (fun x => bt_eqb t (fst x) && String.eqb (snd (fst r)) (bd_name (snd x)))
                                              std_registry) (fst (fst r))) standard_tables = true /\
  (* and all registrations but this one have a row *)
  map (fun x => bd_name (snd x)) (filter (fun x => match find_row (fst x) (bd_name (snd x)) with None => true | _ => false end)
     std_registry) = ["HvcC"].
Proof. split; vm_compute; reflexivity. Qed.

(** A fragment random access box of version 1 with numbers of 1, 2 and 3 bytes,
    read at position 2 of a stream: the table gives the bits back, and they are
    computed here from the table. *)
Definition tables_agree (t : btype) (T : table) (pos : N) (data : list byte) : option (bool * N * list bool) :=
  match unmarshal_any std_registry data t (lenN data - pos) ctx0 pos with
  | (Ok (d, x, n), _) => Some (plain_box d, n, table_bits T ctx0 x)
  | _ => None
  end.
Example C50_case_tfra :
  tables_agree (bt "tfra") tfra 2 (hex "ffff01000000000000070000000600000001000000020000000300000004000000050a0b0c0d0e0f") =
  Some (true, 38, bits_of_bytes (hex "01000000000000070000000600000001000000020000000300000004000000050a0b0c0d0e0f")).
Proof. vm_compute. reflexivity. Qed.

(** A version 1 event message, and the same fields in version 0: the strings move. *)
Definition emsg_v (ver : N) : list (string * val) :=
  [("FullBox", VStruct [("Version", VUint ver); ("Flags", VList [VUint 0; VUint 0; VUint 0])]);
   ("SchemeIdUri", VStr (bytes_of_string "ab")); ("Value", VStr (bytes_of_string "c"));
   ("Timescale", VUint 1000); ("PresentationTimeDelta", VUint 5); ("PresentationTime", VUint 6);
   ("EventDuration", VUint 7); ("Id", VUint 8); ("MessageData", VList [VUint 170; VUint 187])].
Example C50_case_emsg :
  marshal std_registry (bt "emsg") ctx0 (emsg_v 1) [] =
    (Ok 31, hex "01000000000003e8000000000000000600000007000000086162006300aabb") /\
  table_bits emsg ctx0 (emsg_v 1) = bits_of_bytes (hex "01000000000003e8000000000000000600000007000000086162006300aabb") /\
  marshal std_registry (bt "emsg") ctx0 (emsg_v 0) [] =
    (Ok 27, hex "000000006162006300000003e8000000050000000700000008aabb") /\
  table_bits emsg ctx0 (emsg_v 0) = bits_of_bytes (hex "000000006162006300000003e8000000050000000700000008aabb").
Proof. repeat split; vm_compute; reflexivity. Qed.
(** Two roll distances, two announced. *)
Example C50_case_sgpd :
  tables_agree (bt "sgpd") sgpd 0 (hex "01000000726f6c6c0000000200000002ffff0003") =
  Some (true, 20, bits_of_bytes (hex "01000000726f6c6c0000000200000002ffff0003")).
Proof. vm_compute. reflexivity. Qed.

(** ** The first deviation: sgpd *)
(** One roll distance is announced; the package reads two, and takes the bytes that
    follow the entry for another one. *)
Theorem C50_sgpd_refuted : exists data d x,
  unmarshal_any std_registry data (bt "sgpd") 20 ctx0 0 = (Ok (d, x, 20), 20) /\
  as_uint (lookup "EntryCount" x) = 1 /\
  lookup "RollDistances" x = Some (VList [VInt (-1); VInt 3]) /\
  table_bits sgpd ctx0 x = bits_of_bytes (takeN 18 data).
Proof.
  exists (hex "01000000726f6c6c0000000200000001ffff0003").
  do 2 eexists. split; [vm_compute; reflexivity|]. split; [reflexivity|]. split; [reflexivity|].
  vm_compute. reflexivity.
Qed.
Print Assumptions C50_sgpd_refuted.

(** ** The second deviation: hvcC *)
Fixpoint list_eqb (a b : list bool) : bool :=
  match a, b with [], [] => true | x :: a, y :: b => Bool.eqb x y && list_eqb a b | _, _ => false end.
(** 14496-15 gives numTemporalLayers three bits and temporalIdNested one; the
    package takes two for each.  The byte 0x0f (one temporal layer, nested) comes
    out as no temporal layer and temporalIdNested = 3. *)
Definition hvcC_payload : list byte :=
  hex "0101600000009000000000005df000fcfdf8f800000f00".
Theorem C50_hvcC_refuted : exists data d x,
  unmarshal_any std_registry data (bt "hvcC") 23 ctx0 0 = (Ok (d, x, 23), 23) /\
  plain_box d = true /\ table_bits hvcC ctx0 x <> bits_of_bytes data /\
  as_uint (lookup "NumTemporalLayers" x) = 0 /\ as_uint (lookup "TemporalIdNested" x) = 3.
Proof.
  exists hvcC_payload.
  destruct (unmarshal_any std_registry hvcC_payload (bt "hvcC") 23 ctx0 0) as [[[[d x] n]| | |] p] eqn:E;
    [|vm_compute in E; discriminate E..].
  exists d, x.
  assert (Q : (n =? 23) && (p =? 23) && plain_box d &&
              negb (list_eqb (table_bits hvcC ctx0 x) (bits_of_bytes hvcC_payload)) &&
              (as_uint (lookup "NumTemporalLayers" x) =? 0) &&
              (as_uint (lookup "TemporalIdNested" x) =? 3) = true).
  { transitivity (match unmarshal_any std_registry hvcC_payload (bt "hvcC") 23 ctx0 0 with
      | (Ok (d, x, n), p) => (n =? 23) && (p =? 23) && plain_box d &&
              negb (list_eqb (table_bits hvcC ctx0 x) (bits_of_bytes hvcC_payload)) &&
              (as_uint (lookup "NumTemporalLayers" x) =? 0) &&
              (as_uint (lookup "TemporalIdNested" x) =? 3)
      | _ => false end); [now rewrite E|vm_compute; reflexivity]. }
  repeat (apply andb_prop in Q; destruct Q as [Q ?]).
  repeat match goal with H : (_ =? _) = true |- _ => apply N.eqb_eq in H end. subst.
  repeat split; auto.
  intros X. match goal with H : negb _ = true |- _ => rewrite X in H end.
  match goal with H : negb _ = true |- _ => vm_compute in H; discriminate H end.
Qed.
Print Assumptions C50_hvcC_refuted.
