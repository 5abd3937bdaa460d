(** C48 for the two structs with a Version field of their own, DOps and Item: what
    Stringify prints of them. *)
From Verif Require Import Base BitIO Schema Structs Methods Registry Marshal Unmarshal SpecCodec GoText Decode Stringify SpecStringify.
From Verif Require Import BaseProofs MarshalProofs MarshalProofs MarshalCount UnmarshalProofs DecodeFacts VersionFacts StringifyProofs StringifyText Typed RepoVectors PropStringify.
Local Open Scope string_scope.
Local Open Scope list_scope.
Local Open Scope N_scope.

Definition vfield : finfo := plain_info "Version" 0 8 false.
Definition ffield : finfo := plain_info "Flags" 1 8 false.
Lemma std_clash : forallb (fun d => negb (clashing d) ||
  (negb (String.eqb (bd_name d) "FullBox") &&
   match bd_flds d with
   | FCons f t r => finfo_eqb f vfield && sty_eqb t (SUint 8) &&
       (if String.eqb (bd_name d) "Item"
        then match r with FCons g u r' => finfo_eqb g ffield && sty_eqb u (SArr 3 (SUint 8)) && pr_flds (bd_name d) true (bd_name d) true r' | FNil => false end
        else pr_flds (bd_name d) true (bd_name d) true r)
   | FNil => false
   end)) all_defs = true.
Proof. vm_compute. reflexivity. Qed.

Section Step.
  Variables (graphic : N -> bool) (indent : text) (rname : string) (root : list (string * val)) (ctx : context).
  Lemma clash_step : forall f t rest depth buf, f = vfield \/ f = ffield ->
    stringify_field graphic rname (f_name f) root = None ->
    str_flds graphic indent rname root ctx depth rname true root (FCons f t rest) buf =
    str_flds graphic indent rname root ctx depth rname true root rest
      (put1 indent depth buf (item indent depth (f_name f,
        Text (if String.eqb (f_name f) "Version" then dec_text (get_version root) else lit "0x" ++ pad_left 6 (hex_text (get_flags root)))))).
  Proof.
    intros f t rest depth buf H NO. cbn [str_flds].
    assert (SZ : forall cn env, resolve_size cn env f = Some 8 /\ resolve_len cn env f = Some LengthUnlimited /\
      is_target (get_version root) (get_flags root) cn env f = true) by (intros; unfold vfield, ffield in H; destruct H as [-> | ->]; now rewrite plain_size, plain_len, plain_target).
    destruct (SZ (cfo_name rname true rname) (cfo_env root ctx true root)) as (-> & -> & ->). cbn [negb].
    assert (X : negb (String.eqb (f_cnst f) "") || f_hidden f = false /\ f_extend f = false) by (destruct H as [-> | ->]; split; reflexivity).
    destruct X as [-> ->]. cbn [negb andb]. cbv zeta. change (cfo_name rname true rname) with rname. rewrite NO.
    assert (Q : forall w, (if no_indent indent then buf ++ (if needs_space buf then lit " " else [])
           else write_indent indent (S depth) buf) ++ lit (f_name f) ++ lit "=" ++ w ++ (if negb (no_indent indent) then [N2b 10] else []) =
        put1 indent depth buf (item indent depth (f_name f, Text w))).
    { intros w. unfold put1, item. cbn [fst snd SpecStringify.write].
      destruct (no_indent indent); cbn [negb]; rewrite <- ?app_assoc, ?app_nil_r; reflexivity. }
    destruct H as [-> | ->].
    - change (String.eqb (f_name vfield) "Version") with true. cbv iota. rewrite <- Q, <- !app_assoc. reflexivity.
    - change (String.eqb (f_name ffield) "Version") with false. change (String.eqb (f_name ffield) "Flags") with true. cbv iota.
      rewrite <- Q, <- !app_assoc. reflexivity.
  Qed.
  Lemma clash_show : forall f t rest, f = vfield \/ f = ffield ->
    exists w, show_flds graphic rname root ctx rname true root (FCons f t rest) = (f_name f, w) :: show_flds graphic rname root ctx rname true root rest.
  Proof.
    intros f t rest H. cbn [show_flds]. unfold owner. rewrite <- is_target_enabled.
    assert (X : forall cn env, is_target (get_version root) (get_flags root) cn env f = true /\ visible f = true /\ f_extend f = false)
      by (intros; unfold vfield, ffield in H; destruct H as [-> | ->]; rewrite plain_target; repeat split; reflexivity).
    match goal with |- context [is_target _ _ ?a ?b f] => destruct (X a b) as (-> & -> & ->) end. cbn [andb app]. eexists. reflexivity.
  Qed.
End Step.
Lemma own_version : forall data t size ctx pos d x n pos',
  pos <= lenN data -> lenN data < 2 ^ 62 ->
  unmarshal_any std_registry data t size ctx pos = (Ok (d, x, n), pos') -> clashing d = true ->
  get_version x = 0 /\ get_flags x = 0.
Proof.
  intros data t size ctx pos d x n p Hp Hd H C.
  pose proof (unmarshal_any_def _ _ _ _ _ _ _ _ _ H) as G.
  pose proof (unmarshal_any_decode t ctx d data size pos G ltac:(lia) Hd) as U. cbv zeta in U.
  rewrite H in U. destruct U as (_ & U & _).
  assert (K : forallb (fun d => negb (clashing d) || (negb (String.eqb (bd_name d) "Meta") &&
    negb (existsb (String.eqb "FullBox") (field_names (bd_flds d))) &&
    match lookup "FullBox" (set_version anyVersion (zero_flds (bd_flds d))) with None => true | Some _ => false end)) all_defs = true) by (vm_compute; reflexivity).
  pose proof (all_defs_check _ _ _ _ _ eq_refl K G) as P. cbv beta in P. rewrite C in P. cbn [negb orb] in P.
  apply andb_prop in P. destruct P as [P P3]. apply andb_prop in P. destruct P as [P1 P2].
  apply negb_true_iff in P1, P2. unfold decode, d_before in U. rewrite P1 in U.
  destruct (dec_flds _ _ _ _ _ _ _ _ _ _ _) as [[z [p2 b2]]| | |] eqn:D; try discriminate.
  assert (Z : z = x).
  { destruct (negb _); [discriminate|]. destruct (_ <? _); [discriminate|]. now injection U as ->. }
  subst z.
  destruct (dec_flds_frame _ _ _ _ _ _ _ _ _ "FullBox" _ _ _ _ _ D) as [L _].
  { cbn. intros [X|[X|[X|[X|[]]]]]; discriminate. }
  { intros I. assert (X : existsb (String.eqb "FullBox") (field_names (bd_flds d)) = true).
    { apply existsb_exists. exists "FullBox". split; [exact I|apply String.eqb_refl]. }
    rewrite X in P2. discriminate P2. }
  destruct (lookup "FullBox" (set_version _ _)); [discriminate|].
  unfold get_version, get_flags, fullbox_of. rewrite L. split; reflexivity.
Qed.

(** A decoded DOps prints with 0 for its Version, and all other fields as they should
    be; an Item with 0 for its Version and 0x000000 for its Flags. *)
Theorem C48_own_version : forall graphic indent data t size ctx pos d x n pos',
  pos <= lenN data -> lenN data < 2 ^ 62 ->
  unmarshal_any std_registry data t size ctx pos = (Ok (d, x, n), pos') ->
  (bd_name d = "DOps" -> exists v l,
     show_flds graphic (bd_name d) x ctx (bd_name d) true x (bd_flds d) = ("Version", v) :: l /\
     stringify_with_indent graphic std_registry t x indent ctx = Ok (write_fields indent 0 (("Version", Text (lit "0")) :: l))) /\
  (bd_name d = "Item" -> exists v f l,
     show_flds graphic (bd_name d) x ctx (bd_name d) true x (bd_flds d) = ("Version", v) :: ("Flags", f) :: l /\
     stringify_with_indent graphic std_registry t x indent ctx =
       Ok (write_fields indent 0 (("Version", Text (lit "0")) :: ("Flags", Text (lit "0x000000")) :: l))).
Proof.
  intros graphic indent data t size ctx pos d x n pos' P L H.
  pose proof (unmarshal_any_def _ _ _ _ _ _ _ _ _ H) as G.
  pose proof (all_defs_check _ _ _ _ _ eq_refl std_clash G) as C. cbv beta in C.
  pose proof (own_version _ _ _ _ _ _ _ _ _ P L H) as V.
  pose proof (decoded_complete _ _ _ _ _ _ _ _ _ P L H) as T. unfold complete_box in T.
  unfold stringify_with_indent. rewrite G. clear G H.
  destruct (clashing d) eqn:CL; cbn [negb orb] in C.
  2:{ unfold clashing in CL. apply orb_false_elim in CL. destruct CL as [C1 C2]. apply String.eqb_neq in C1, C2. split; intros; contradiction. }
  destruct (V eq_refl) as [V1 V2]. clear V.
  apply andb_prop in C. destruct C as [NF C]. apply negb_true_iff, String.eqb_neq in NF.
  destruct (bd_flds d) as [|f t1 r]; [discriminate|]. apply andb_prop in C. destruct C as [C C3].
  apply andb_prop in C. destruct C as [C1 C2]. apply finfo_eqb_eq in C1. subst f.
  assert (TAIL : forall r, has_fields (bd_name d) x ctx (bd_name d) true x r = true -> pr_flds (bd_name d) true (bd_name d) true r = true -> forall buf,
    str_flds graphic indent (bd_name d) x ctx 0 (bd_name d) true x r buf =
    Ok (put indent 0 buf (show_flds graphic (bd_name d) x ctx (bd_name d) true x r))).
  { intros r0 HT PR buf. apply (proj2 (print_all graphic indent (bd_name d) x ctx) r0 true); auto. }
  assert (REST : forall f t r, f = vfield \/ f = ffield -> has_fields (bd_name d) x ctx (bd_name d) true x (FCons f t r) = true ->
     has_fields (bd_name d) x ctx (bd_name d) true x r = true).
  { intros f t0 r0 _ HT. cbn [has_fields] in HT. destruct (owner _ _ _ _ _ _) as [cn env].
    destruct (resolve_size cn env f); [|discriminate]. destruct (resolve_len cn env f); [|discriminate]. now apply andb_prop in HT. }
  pose proof (REST _ _ _ (or_introl eq_refl) T) as T2.
  pose proof (proj2 (show_good graphic (bd_name d) x ctx)) as GD.
  split; intros E.
  - rewrite E in C3. change (String.eqb "DOps" "Item") with false in C3. cbv iota in C3.
    destruct (clash_show graphic (bd_name d) x ctx vfield t1 r (or_introl eq_refl)) as [v SV]. rewrite SV.
    exists v. eexists. split; [reflexivity|]. rewrite clash_step; [|now left|rewrite E; reflexivity].
    rewrite V1. rewrite E in *. rewrite TAIL by assumption.
    match goal with |- Ok (put _ _ (put1 _ _ _ (item _ _ ?p)) ?l) = _ => change (put indent 0 (put1 indent 0 [] (item indent 0 p)) l) with (put indent 0 [] (p :: l)) end.
    rewrite put_lines; [reflexivity| |reflexivity]. constructor; [reflexivity|apply GD].
  - rewrite E in C3. change (String.eqb "Item" "Item") with true in C3. cbv iota in C3.
    destruct r as [|g u r]; [discriminate|]. apply andb_prop in C3. destruct C3 as [C3 C4].
    apply andb_prop in C3. destruct C3 as [C3 _]. apply finfo_eqb_eq in C3. subst g.
    pose proof (REST _ _ _ (or_intror eq_refl) T2) as T3.
    destruct (clash_show graphic (bd_name d) x ctx vfield t1 (FCons ffield u r) (or_introl eq_refl)) as [v SV]. rewrite SV.
    destruct (clash_show graphic (bd_name d) x ctx ffield u r (or_intror eq_refl)) as [w SW]. rewrite SW.
    exists v, w. eexists. split; [reflexivity|].
    rewrite clash_step; [|now left|rewrite E; reflexivity]. rewrite clash_step; [|now right|rewrite E; reflexivity].
    rewrite V1, V2. rewrite E in *. rewrite TAIL by assumption.
    match goal with |- Ok (put _ _ (put1 _ _ (put1 _ _ _ (item _ _ ?p)) (item _ _ ?q)) ?l) = _ =>
      change (put indent 0 (put1 indent 0 (put1 indent 0 [] (item indent 0 p)) (item indent 0 q)) l) with (put indent 0 [] (p :: q :: l)) end.
    rewrite put_lines; [reflexivity| |reflexivity]. constructor; [reflexivity|]. constructor; [reflexivity|apply GD].
Qed.
Print Assumptions C48_own_version.

(** Hence, as for the other boxes (C48_no_controls_partial), no byte below 32 is
    printed but line ends and the indentation: for every decoded box. *)
Theorem C48_no_bytes_below_32 : forall graphic indent data t size ctx pos d x n pos' s,
  (forall r, r < 32 -> graphic r = false) ->
  pos <= lenN data -> lenN data < 2 ^ 62 ->
  unmarshal_any std_registry data t size ctx pos = (Ok (d, x, n), pos') ->
  stringify_with_indent graphic std_registry t x indent ctx = Ok s ->
  forall b, In b s -> 32 <= b2N b \/ (indent <> [] /\ b2N b = 10) \/ In b indent.
Proof.
  intros graphic indent data t size ctx pos d x n pos' s G P L H S.
  pose proof (unmarshal_any_def _ _ _ _ _ _ _ _ _ H) as D.
  pose proof (all_defs_check _ _ _ _ _ eq_refl std_cl D) as C. cbv beta in C.
  pose proof (decoded_complete _ _ _ _ _ _ _ _ _ P L H) as T.
  pose proof (proj2 (show_clean graphic G (bd_name d) x ctx) (bd_flds d) (bd_name d) true x C T) as K.
  destruct (C48_own_version graphic indent _ _ _ _ _ _ _ _ _ P L H) as [K1 K2].
  destruct (string_dec (bd_name d) "DOps") as [E1|E1]; [|destruct (string_dec (bd_name d) "Item") as [E2|E2]].
  - destruct (K1 E1) as (v & l & W & Q). rewrite W in K. rewrite S in Q. injection Q as ->.
    inversion K as [|? ? KA KB]. subst. apply Forall_forall, fields_laid. constructor; [|exact KB].
    split; [apply KA|cbn; lits].
  - destruct (K2 E2) as (v & f & l & W & Q). rewrite W in K. rewrite S in Q. injection Q as ->.
    inversion K as [|? ? KA KB]. inversion KB as [|? ? KC KD]. subst. apply Forall_forall, fields_laid.
    constructor; [split; [apply KA|cbn; lits]|]. constructor; [split; [apply KC|cbn; lits]|exact KD].
  - exact (C48_no_controls_partial graphic indent _ _ _ _ _ _ _ _ _ _ G P L H E2 E1 S).
Qed.
Print Assumptions C48_no_bytes_below_32.

(** a numbered item of version 1 with flags 0x020304, and the dOps box of version 1 of [C48_refuted] *)
Definition item_bytes : list byte := hex "0102030464617461" ++ hex "0000000112345678" ++ hex "666f6f".
Definition item_ctx : context := mkctx true 1 false true false false false.
Example C48_own_case :
  (match unmarshal_any std_registry item_bytes (N_to_be 4 1) (lenN item_bytes) item_ctx 0 with
   | (Ok (d, x, _), _) => Some (bd_name d, get_version x, as_uint (lookup "Version" x),
       stringify ascii_graphic std_registry (N_to_be 4 1) x item_ctx)
   | _ => None
   end = Some ("Item", 0, 1, Ok (lit "Version=0 Flags=0x000000 ItemName=""data"" Data={DataType=UTF8 DataLang=305419896 Data=""foo""}"))) /\
  (match unmarshal_any std_registry dops_bytes (bt "dOps") (lenN dops_bytes) ctx0 0 with
   | (Ok (d, x, _), _) => Some (bd_name d, as_uint (lookup "Version" x), stringify ascii_graphic std_registry (bt "dOps") x ctx0)
   | _ => None
   end = Some ("DOps", 1,
     Ok (lit "Version=0 OutputChannelCount=0x2 PreSkip=312 InputSampleRate=768000 OutputGain=0 ChannelMappingFamily=0x0"))).
Proof. vm_compute. split; reflexivity. Qed.
