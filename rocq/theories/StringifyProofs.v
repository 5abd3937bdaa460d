(** Stringify prints what SpecStringify says, for every complete box. *)
From Coq Require Import DecimalString HexadecimalString.
From Verif Require Import Base Schema Structs Methods Registry Marshal Unmarshal SpecCodec GoText Stringify
     SpecStringify.
From Verif Require Import BaseProofs MarshalProofs MarshalCount VersionFacts SpecRoundTrip Causal Total.
Local Open Scope string_scope.
Local Open Scope list_scope.
Local Open Scope N_scope.

(** ** Fields with a form of their own *)
Definition own_fields : list (string * string) :=
  [("Mvhd", "Rate"); ("VisualSampleEntry", "Compressorname"); ("AudioSampleEntry", "SampleRate");
   ("Smhd", "Balance"); ("Tkhd", "Width"); ("Tkhd", "Height"); ("Descriptor", "Tag"); ("Pssh", "KIDs");
   ("Data", "DataType"); ("Data", "Data"); ("StringData", "Data"); ("Item", "ItemName");
   ("Key", "KeyNamespace"); ("Key", "KeyValue")].
Definition has_own (s f : string) : bool :=
  existsb (fun p => String.eqb s (fst p) && String.eqb f (snd p)) own_fields.

Lemma join_all : forall (kid : val -> text) l,
  (fix all (first : bool) (l : list val) : text :=
     match l with
     | [] => []
     | v :: r => (if first then [] else lit ", ") ++ kid v ++ all false r
     end) true l = join (lit ", ") (map kid l).
Proof.
  intros kid l. destruct l as [|v r]; [reflexivity|]. cbn [join map]. rewrite app_nil_l. f_equal.
  revert v. induction r as [|w r IH]; intros v; [reflexivity|].
  cbn [map List.concat]. rewrite <- app_assoc. f_equal. f_equal. apply (IH w).
Qed.

Lemma own_same : forall graphic s f self, s <> "FullBox" ->
  stringify_field graphic s f self = own_form graphic s f self.
Proof.
  intros graphic s f self H. unfold own_form, stringify_field.
  assert (E : String.eqb s "FullBox" = false) by (now apply String.eqb_neq). rewrite E. cbn [andb]. clear E H.
  repeat match goal with
  | |- context [String.eqb s ?n] =>
      destruct (String.eqb_spec s n) as [->|?];
      [repeat match goal with
       | |- context [String.eqb ?a ?b] =>
           first [ is_var a; fail 1
                 | let e := eval compute in (String.eqb a b) in change (String.eqb a b) with e ]
       end; cbn [andb orb]|cbn [andb orb]]
  end; try reflexivity.
  - destruct (String.eqb_spec f "Rate") as [->|]; reflexivity.
  - destruct (String.eqb_spec f "Compressorname") as [->|]; [|reflexivity].
    destruct (as_bytes _) as [|c r]; [reflexivity|].
    destruct (N.leb_spec (b2N c) 31), (N.ltb_spec (b2N c) 32); try reflexivity; lia.
  - destruct (String.eqb_spec f "SampleRate") as [->|]; reflexivity.
  - destruct (String.eqb_spec f "Balance") as [->|]; reflexivity.
  - destruct (String.eqb_spec f "Width") as [->|]; [reflexivity|].
    destruct (String.eqb_spec f "Height") as [->|]; reflexivity.
  - destruct (String.eqb_spec f "Tag") as [->|]; [|reflexivity].
    set (z := as_Z _). clearbody z.
    destruct (Z.eqb_spec z 3) as [->|]; [reflexivity|]. destruct (Z.eqb_spec z 4) as [->|]; [reflexivity|].
    destruct (Z.eqb_spec z 5) as [->|]; [reflexivity|]. destruct (Z.eqb_spec z 6) as [->|]; [reflexivity|].
    destruct (Z.ltb_spec z 0); [reflexivity|]. unfold one_of. cbn [find fst].
    destruct (N.eqb_spec 3 (Z.to_N z)); [lia|]. destruct (N.eqb_spec 4 (Z.to_N z)); [lia|].
    destruct (N.eqb_spec 5 (Z.to_N z)); [lia|]. destruct (N.eqb_spec 6 (Z.to_N z)); [lia|]. reflexivity.
  - destruct (String.eqb_spec f "KIDs") as [->|]; [|reflexivity].
    destruct (lookup "KIDs" self) as [[]|]; try reflexivity. now rewrite join_all.
  - destruct (String.eqb_spec f "DataType") as [->|].
    + set (ty := as_uint _). clearbody ty. unfold one_of. cbn [find fst].
      rewrite !(N.eqb_sym _ ty).
      destruct (ty =? 0); [reflexivity|]. destruct (ty =? 1); [reflexivity|]. destruct (ty =? 2); [reflexivity|].
      destruct (ty =? 3); [reflexivity|]. destruct (ty =? 14); [reflexivity|]. destruct (ty =? 21); [reflexivity|].
      destruct (ty =? 22); [reflexivity|]. destruct (ty =? 23); reflexivity.
    + destruct (String.eqb_spec f "Data") as [->|]; reflexivity.
  - destruct (String.eqb_spec f "Data") as [->|]; reflexivity.
  - destruct (String.eqb_spec f "ItemName") as [->|]; reflexivity.
  - destruct (String.eqb_spec f "KeyNamespace") as [->|]; [reflexivity|].
    destruct (String.eqb_spec f "KeyValue") as [->|]; reflexivity.
Qed.
Lemma not_own : forall graphic s f self, has_own s f = false -> stringify_field graphic s f self = None.
Proof.
  intros graphic s f self H. unfold has_own, own_fields in H. cbn [existsb fst snd] in H.
  unfold stringify_field.
  repeat match goal with
  | |- context [String.eqb s ?n] => destruct (String.eqb s n)
  end; cbn [andb orb] in H; try reflexivity;
  repeat match goal with
  | |- context [String.eqb f ?n] => destruct (String.eqb f n)
  end; cbn [andb orb] in H; try reflexivity; try discriminate;
  rewrite ?orb_true_r in H; try discriminate H.
Qed.

(** ** The last byte of what is printed for a field is not an opening brace *)
Definition ends (s : text) : bool := match rev s with [] => false | b :: _ => b2N b =? 123 end.
Lemma ends_app : forall a b, b <> [] -> ends (a ++ b) = ends b.
Proof.
  intros a b H. unfold ends. rewrite rev_app_distr. destruct (rev b) as [|x r] eqn:E; [|reflexivity].
  exfalso. apply H. rewrite <- (rev_involutive b), E. reflexivity.
Qed.
Lemma ends_app_ok : forall a b, ends a = false -> ends b = false -> ends (a ++ b) = false.
Proof.
  intros a b Ha Hb. destruct b as [|x b]; [now rewrite app_nil_r|]. rewrite ends_app by discriminate. exact Hb.
Qed.
Lemma ends_forall : forall s, Forall (fun b => b2N b <> 123) s -> ends s = false.
Proof.
  intros s H. unfold ends. destruct (rev s) as [|b r] eqn:E; [reflexivity|].
  apply N.eqb_neq. rewrite Forall_forall in H. apply H. apply in_rev. rewrite E. now left.
Qed.
Definition no_brace (s : text) : Prop := Forall (fun b => b2N b <> 123) s.
Lemma no_brace_app : forall a b, no_brace a -> no_brace b -> no_brace (a ++ b).
Proof. intros. apply Forall_app. auto. Qed.
Lemma lit_cons : forall c s, lit (String c s) = c :: lit s.
Proof. reflexivity. Qed.
Lemma dec_uint_brace : forall u, no_brace (lit (DecimalString.NilEmpty.string_of_uint u)).
Proof.
  induction u; cbn [DecimalString.NilEmpty.string_of_uint]; rewrite ?lit_cons;
    try (constructor; [vm_compute; discriminate|exact IHu]). constructor.
Qed.
Lemma dec_brace : forall n, no_brace (dec_text n).
Proof.
  intros n. unfold dec_text, DecimalString.NilZero.string_of_uint.
  destruct (N.to_uint n) as [|u|u|u|u|u|u|u|u|u|u]; [constructor; [vm_compute; discriminate|constructor]|..];
    match goal with |- context [DecimalString.NilEmpty.string_of_uint ?u] => apply (dec_uint_brace u) end.
Qed.
Lemma hex_uint_brace : forall u, no_brace (lit (HexadecimalString.NilEmpty.string_of_uint u)).
Proof.
  induction u; cbn [HexadecimalString.NilEmpty.string_of_uint]; rewrite ?lit_cons;
    try (constructor; [vm_compute; discriminate|exact IHu]). constructor.
Qed.
Lemma hex_brace : forall n, no_brace (hex_text n).
Proof.
  intros n. unfold hex_text, HexadecimalString.NilZero.string_of_uint.
  destruct (N.to_hex_uint n); [constructor; [vm_compute; discriminate|constructor]|..];
    match goal with |- context [HexadecimalString.NilEmpty.string_of_uint ?u] => apply (hex_uint_brace u) end.
Qed.
Lemma pad_brace : forall k s, no_brace s -> no_brace (pad_left k s).
Proof.
  intros k s H. unfold pad_left. apply no_brace_app; [|exact H]. apply Forall_forall. intros x Hx.
  apply repeat_spec in Hx. subst. vm_compute. discriminate.
Qed.
Lemma int_brace : forall z, no_brace (int_text z).
Proof.
  intros z. unfold int_text. destruct (z <? 0)%Z; [|apply dec_brace].
  apply no_brace_app; [constructor; [vm_compute; discriminate|constructor]|apply dec_brace].
Qed.
Lemma float_brace : forall k p z, no_brace (float_text k p z).
Proof.
  intros k p z. unfold float_text. cbv zeta.
  apply no_brace_app; [|apply no_brace_app; [apply dec_brace|apply no_brace_app; [|apply pad_brace, dec_brace]]].
  - destruct (z <? 0)%Z; [constructor; [vm_compute; discriminate|constructor]|constructor].
  - constructor; [vm_compute; discriminate|constructor].
Qed.
Lemma fixed_brace : forall k p z, no_brace (fixed_point k p z).
Proof. intros. unfold fixed_point. destruct (_ =? _)%Z; [apply int_brace|apply float_brace]. Qed.
Lemma uuid_brace : forall l, no_brace (uuid_text l).
Proof.
  intros l. unfold uuid_text. cbv zeta.
  assert (H : forall l, no_brace (List.concat (map (fun b => hex2 (b2N b)) l))).
  { clear. induction l as [|b l IH]; [constructor|]. cbn [map List.concat]. apply no_brace_app; [|exact IH].
    apply pad_brace, hex_brace. }
  assert (D : no_brace (lit "-")) by (constructor; [vm_compute; discriminate|constructor]).
  repeat apply no_brace_app; auto.
Qed.
Lemma quoted_ends : forall graphic s, ends (quoted graphic s) = false.
Proof.
  intros. unfold quoted. rewrite app_assoc, ends_app by (vm_compute; discriminate). reflexivity.
Qed.
Lemma one_of_ends : forall names n s, forallb (fun p => negb (ends (lit (snd p)))) names = true ->
  one_of names n = Some s -> ends s = false.
Proof.
  intros names n s H E. unfold one_of in E. destruct (find _ names) as [p|] eqn:F; [|discriminate].
  injection E as <-. apply find_some in F. rewrite forallb_forall in H.
  apply negb_true_iff. apply H. apply F.
Qed.
Lemma own_ends : forall graphic s f self x, own_form graphic s f self = Some x -> ends x = false.
Proof.
  intros graphic s f self x H. unfold own_form in H. cbv zeta in H.
  destruct (_ && _) in H.
  { assert (X : dec_text (as_uint (lookup f self)) = x) by congruence. subst x. apply ends_forall, dec_brace. }
  destruct (_ && _) in H.
  { destruct (lookup f self) as [[]|]; try discriminate. destruct l as [|a [|b [|c [|]]]]; try discriminate.
    apply (f_equal (fun o => match o with Some y => y | None => [] end)) in H. subst x.
    apply ends_app_ok; [reflexivity|]. apply ends_forall, pad_brace, hex_brace. }
  destruct (_ || _) in H.
  { assert (X : fixed_point 16 5 (as_Z (lookup f self)) = x) by congruence. subst x.
    apply ends_forall, fixed_brace. }
  destruct (_ && _) in H.
  { assert (X : fixed_point 8 3 (as_Z (lookup f self)) = x) by congruence. subst x.
    apply ends_forall, fixed_brace. }
  destruct (_ && _) in H.
  { destruct (as_bytes _) as [|n l]; [discriminate|]. destruct (_ <? 32); [|discriminate].
    assert (X : quoted graphic (takeN (b2N n) l) = x) by congruence. subst x. apply quoted_ends. }
  destruct (_ && _) in H.
  { destruct (_ <? 0)%Z; [discriminate|]. eapply one_of_ends; [|exact H]. reflexivity. }
  destruct (_ && _) in H.
  { eapply one_of_ends; [|exact H]. reflexivity. }
  destruct (_ && _) in H.
  { destruct (_ =? 1); [|discriminate].
    assert (X : quoted graphic (as_bytes (lookup f self)) = x) by congruence. subst x. apply quoted_ends. }
  destruct (_ || _) in H.
  { assert (X : quoted graphic (as_bytes (lookup f self)) = x) by congruence. subst x. apply quoted_ends. }
  destruct (_ && _) in H; [|discriminate].
  destruct (lookup f self) as [[]|]; try discriminate.
  apply (f_equal (fun o => match o with Some y => y | None => [] end)) in H. subst x.
  rewrite app_assoc, ends_app by (vm_compute; discriminate). reflexivity.
Qed.

(** texts that end well; records and lists do by their brackets *)
Definition good (v : shown) : Prop := match v with Text s => ends s = false | _ => True end.
Definition good_fields (l : list (string * shown)) : Prop := Forall (fun p => good (snd p)) l.
Definition good_all (v : shown) : Prop := good v /\ match v with Record l => good_fields l | _ => True end.

Section Good.
  Variables (graphic : N -> bool) (rname : string) (root : list (string * val)) (ctx : context).
  Lemma show_good :
    (forall t f v, good_all (show_val graphic rname root ctx f t v)) /\
    (forall fs sname cfo self, good_fields (show_flds graphic rname root ctx sname cfo self fs)).
  Proof.
    assert (Q : forall f l u, good_all
        (if f_string f then Text (quoted graphic (bytes_in l))
         else if f_iso639 f then Text (lit """" ++ map (fun v => N2b (96 + as_uint (Some v))) l ++ lit """")
         else if f_uuid f then Text (uuid_text (bytes_in l)) else Items (map (show_val graphic rname root ctx f u) l))).
    { intros f l u. destruct (f_string f); [split; [apply quoted_ends|exact I]|].
      destruct (f_iso639 f).
      { split; [|exact I]. cbn [good]. rewrite app_assoc, ends_app by (vm_compute; discriminate). reflexivity. }
      destruct (f_uuid f); [split; [apply ends_forall, uuid_brace|exact I]|]. split; exact I. }
    assert (E : good_all (Text [])) by (split; [reflexivity|exact I]).
    apply sty_flds_mutind.
    - intros w f v. destruct v; try exact E. split; [|exact I]. apply ends_forall. unfold show_uint.
      destruct (_ || _); [|apply dec_brace]. apply no_brace_app; [|apply hex_brace].
      repeat (constructor; [vm_compute; discriminate|]). constructor.
    - intros w f v. destruct v; try exact E. split; [|exact I]. apply ends_forall. unfold show_int.
      destruct (f_hex f); [|apply int_brace]. apply no_brace_app; [|apply hex_brace].
      destruct (_ <? _)%Z; repeat (constructor; [vm_compute; discriminate|]); constructor.
    - intros f v. destruct v; try exact E. split; [|exact I]. destruct b; reflexivity.
    - intros f v. destruct v; try exact E. split; [apply quoted_ends|exact I].
    - intros n u IH f v. destruct v; try exact E. apply Q.
    - intros u IH f v. destruct v; try exact E. apply Q.
    - intros u IH f v. destruct v as [| | | | |[x|]|]; try exact E. apply IH.
    - intros name cfo fs IH f v. destruct v; try exact E. split; [exact I|]. apply IH.
    - intros. constructor.
    - intros f t IHt r IHr sname cfo self. cbn [show_flds].
      destruct (owner rname root ctx cfo sname self) as [cn env].
      apply Forall_app. split; [|apply IHr].
      destruct (_ && _); [|constructor].
      set (v := match own_form graphic sname (f_name f) self with Some s => Text s | None => _ end).
      assert (G : good_all v).
      { unfold v. destruct (own_form graphic sname (f_name f) self) as [s|] eqn:O.
        - split; [eapply own_ends; eauto|exact I].
        - destruct (lookup (f_name f) self) as [y|]; [apply IHt|exact E]. }
      clearbody v. destruct (f_extend f).
      + destruct v; try constructor. apply G.
      + constructor; [apply G|constructor].
  Qed.
End Good.

(** ** What the schemas of the boxes must satisfy *)
Section Check.
  Variable rname : string.
  Definition tagged (f : finfo) : bool := f_string f || f_iso639 f || f_uuid f.
  Fixpoint pr_val (f : finfo) (t : sty) : bool :=
    match t with
    | SUint _ => negb (tagged f)
    | SInt _ | SBool | SStr => negb (f_extend f)
    | SPtr u => pr_val f u
    | SArr n u =>
        negb (f_extend f) &&
        if tagged f then
          is_u8 u && negb (f_string f && (f_iso639 f || f_uuid f)) && negb (f_iso639 f && f_uuid f)
          && implb (f_uuid f) (n =? 16)
        else pr_val f u
    | SSlice u =>
        negb (f_extend f) &&
        if tagged f then is_u8 u && negb (f_string f && f_iso639 f) && negb (f_uuid f) else pr_val f u
    | SStruct name cfo fs => negb (String.eqb name "FullBox") && pr_flds false name cfo fs
    end
  with pr_flds (top : bool) (sname : string) (cfo : bool) (fs : flds) : bool :=
    match fs with
    | FNil => true
    | FCons f t r =>
        (negb (visible f) ||
         (if is_fullbox t then
            top && cfo && finfo_eqb f (plain_info "FullBox" 0 0 true) && sty_eqb t fb_ty
          else pr_val f t) &&
         implb (f_extend f) (match t with SStruct _ _ _ | SPtr (SStruct _ _ _) => true | _ => false end
                             && negb (has_own sname (f_name f))) &&
         (cfo || negb (has_own sname (f_name f)) && negb (has_own rname (f_name f))) &&
         negb (String.eqb (f_name f) "Version") && negb (String.eqb (f_name f) "Flags"))
        && pr_flds top sname cfo r
    end.
End Check.
(** fields named Version or Flags, other than those of FullBox *)
Definition clashing (d : boxdef) : bool :=
  String.eqb (bd_name d) "Item" || String.eqb (bd_name d) "DOps".
Lemma std_pr : forallb (fun d => clashing d ||
  (negb (String.eqb (bd_name d) "FullBox") && pr_flds (bd_name d) true (bd_name d) true (bd_flds d))) all_defs = true.
Proof. vm_compute. reflexivity. Qed.

(** ** Printing *)
Section Print.
  Variables (graphic : N -> bool) (indent : text) (rname : string) (root : list (string * val)) (ctx : context).
  Notation str_val := (str_val graphic indent rname root ctx).
  Notation str_flds := (str_flds graphic indent rname root ctx).
  Notation show_val := (show_val graphic rname root ctx).
  Notation show_flds := (show_flds graphic rname root ctx).
  Notation write := (write indent).

  Definition item (depth : nat) (p : string * shown) : text := lit (fst p) ++ lit "=" ++ write depth (snd p).
  Definition put1 (depth : nat) (buf i : text) : text :=
    if no_indent indent then buf ++ (if needs_space buf then lit " " else []) ++ i
    else write_indent indent (S depth) buf ++ i ++ [N2b 10].
  Fixpoint put (depth : nat) (buf : text) (l : list (string * shown)) : text :=
    match l with [] => buf | p :: r => put depth (put1 depth buf (item depth p)) r end.
  Lemma put_app : forall depth a b buf, put depth buf (a ++ b) = put depth (put depth buf a) b.
  Proof. induction a as [|p a IH]; intros b buf; [reflexivity|]. apply IH. Qed.
  Definition emit (f : finfo) (depth : nat) (v : shown) (buf : text) : text :=
    match v with
    | Record l => if f_extend f then put depth buf l else buf ++ write depth v
    | _ => buf ++ write depth v
    end.

  Lemma needs_space_ends : forall buf, needs_space buf = match buf with [] => false | _ => negb (ends buf) end.
  Proof.
    intros buf. unfold needs_space, ends. destruct (rev buf) as [|b r] eqn:E.
    - assert (X : buf = []) by (rewrite <- (rev_involutive buf), E; reflexivity). now subst.
    - destruct buf; [discriminate|]. reflexivity.
  Qed.
  Lemma needs_space_app : forall buf i, i <> [] -> ends i = false -> needs_space (buf ++ i) = true.
  Proof.
    intros buf i H E. rewrite needs_space_ends, ends_app, E by exact H.
    destruct buf; [destruct i; [congruence|reflexivity]|reflexivity].
  Qed.
  Lemma item_nonempty : forall depth p, item depth p <> [].
  Proof. intros depth [n v] E. unfold item in E. cbn [fst snd] in E. destruct (lit n); discriminate. Qed.
  Lemma item_ends : forall depth p, good (snd p) -> ends (item depth p) = false.
  Proof.
    intros depth [n v] G. unfold item. cbn [fst snd] in *.
    assert (W : ends (write depth v) = false).
    { destruct v; cbn [SpecStringify.write]; [exact G| |].
      - rewrite !app_assoc. rewrite ends_app by (vm_compute; discriminate). reflexivity.
      - rewrite !app_assoc. rewrite ends_app by (vm_compute; discriminate). reflexivity. }
    destruct (write depth v) as [|b w].
    - rewrite app_nil_r, ends_app by (vm_compute; discriminate). reflexivity.
    - rewrite app_assoc, ends_app by discriminate. exact W.
  Qed.

  Lemma put_more : forall depth l buf, no_indent indent = true -> good_fields l -> needs_space buf = true ->
    put depth buf l = buf ++ List.concat (map (fun y => lit " " ++ y) (map (item depth) l)).
  Proof.
    induction l as [|p l IH]; intros buf NI G NS; [now rewrite app_nil_r|]. cbn [put map List.concat].
    unfold put1 at 1. rewrite NI, NS. inversion G as [|? ? G1 G2]. subst.
    rewrite IH; auto.
    - rewrite <- !app_assoc. reflexivity.
    - rewrite app_assoc. apply needs_space_app; [apply item_nonempty|now apply item_ends].
  Qed.
  Lemma put_lines : forall depth l buf, good_fields l -> needs_space buf = false ->
    put depth buf l = buf ++ lines indent depth (map (item depth) l).
  Proof.
    intros depth l buf G NS. unfold lines. change (oneline indent) with (no_indent indent).
    destruct (no_indent indent) eqn:NI.
    - destruct l as [|p l]; [now rewrite app_nil_r|]. cbn [put map join].
      unfold put1 at 1. rewrite NI, NS. inversion G as [|? ? G1 G2]. subst.
      rewrite put_more; auto.
      + rewrite app_nil_l, <- app_assoc. reflexivity.
      + rewrite app_nil_l. apply needs_space_app; [apply item_nonempty|now apply item_ends].
    - clear G NS. revert buf. induction l as [|p l IH]; intros buf; [now rewrite app_nil_r|].
      cbn [put map List.concat]. rewrite IH. unfold put1. rewrite NI. unfold write_indent, margin.
      rewrite <- !app_assoc. reflexivity.
  Qed.
  (** with indentation the buffer does not matter *)
  Lemma put_lines_indent : forall depth l buf, no_indent indent = false ->
    put depth buf l = buf ++ lines indent depth (map (item depth) l).
  Proof.
    intros depth l buf NI. unfold lines. change (oneline indent) with (no_indent indent). rewrite NI.
    revert buf. induction l as [|p l IH]; intros buf; [now rewrite app_nil_r|].
    cbn [put map List.concat]. rewrite IH. unfold put1. rewrite NI. unfold write_indent, margin.
    rewrite <- !app_assoc. reflexivity.
  Qed.

  (** ** Lists *)
  Lemma elems_plain : forall elem (w : val -> text) l i buf,
    (forall v, In v l -> forall b, elem v b = Ok (b ++ w v)) ->
    str_elems elem (lit ", ") (fun _ => []) i l buf =
    Ok (buf ++ match i with O => join (lit ", ") (map w l)
                          | _ => List.concat (map (fun y => lit ", " ++ y) (map w l)) end).
  Proof.
    intros elem w. induction l as [|v l IH]; intros i buf H.
    - destruct i; cbn [str_elems map join List.concat]; now rewrite app_nil_r.
    - cbn [str_elems]. rewrite H by (now left). rewrite app_nil_r.
      rewrite IH by (intros; apply H; now right).
      destruct i; cbn [join map List.concat]; rewrite ?app_nil_r, <- ?app_assoc; reflexivity.
  Qed.
  Lemma elems_cat : forall elem (w : val -> text) l i buf,
    (forall v, In v l -> forall b, elem v b = Ok (b ++ w v)) ->
    str_elems elem [] (fun _ => []) i l buf = Ok (buf ++ List.concat (map w l)).
  Proof.
    intros elem w. induction l as [|v l IH]; intros i buf H.
    - cbn. now rewrite app_nil_r.
    - cbn [str_elems].
      replace (match i with O => [] | S _ => [] end) with (@nil byte) by (destruct i; reflexivity).
      rewrite app_nil_r, H by (now left). rewrite app_nil_r.
      rewrite IH by (intros; apply H; now right). cbn [map List.concat]. now rewrite <- app_assoc.
  Qed.
  Lemma concat_single : forall (g : val -> byte) l, List.concat (map (fun v => [g v]) l) = map g l.
  Proof. induction l as [|v l IH]; [reflexivity|]. cbn. now rewrite IH. Qed.

  (** elements of a byte list *)
  Lemma u8_elem : forall f size len depth v b, has_type rname root ctx f size len (SUint 8) v = true ->
    str_val f len depth (SUint 8) v b = Ok (str_uint f 8 (as_uint (Some v)) b) /\ as_uint (Some v) < 256.
  Proof.
    intros f size len depth v b H. destruct v; try discriminate. split; [reflexivity|].
    cbn [has_type] in H. apply andb_prop in H. destruct H as [H _]. apply N.ltb_lt in H. exact H.
  Qed.
  Lemma str_bytes : forall f size len depth l b, f_string f = true -> f_iso639 f = false -> f_uuid f = false ->
    forallb (has_type rname root ctx f size len (SUint 8)) l = true ->
    str_elems (str_val f len depth (SUint 8)) [] (fun _ => []) 0 l b = Ok (b ++ bytes_in l).
  Proof.
    intros f size len depth l b F1 F2 F3 H. rewrite forallb_forall in H.
    rewrite (elems_cat _ (fun v => [N2b (as_uint (Some v))])).
    - now rewrite concat_single.
    - intros v Hv c. destruct (u8_elem f size len depth v c (H v Hv)) as [-> _]. unfold str_uint. now rewrite F1, F2, F3.
  Qed.
  Lemma str_letters : forall f size len depth l b, f_iso639 f = true ->
    forallb (has_type rname root ctx f size len (SUint 8)) l = true ->
    str_elems (str_val f len depth (SUint 8)) [] (fun _ => []) 0 l b =
    Ok (b ++ map (fun v => N2b (96 + as_uint (Some v))) l).
  Proof.
    intros f size len depth l b F1 H. rewrite forallb_forall in H.
    rewrite (elems_cat _ (fun v => [N2b (96 + as_uint (Some v))])).
    - now rewrite concat_single.
    - intros v Hv c. destruct (u8_elem f size len depth v c (H v Hv)) as [-> _]. unfold str_uint. rewrite F1.
      now rewrite N.add_comm.
  Qed.
  Lemma str_uuid : forall f size len depth l b, f_uuid f = true -> f_iso639 f = false ->
    lenN l = 16 -> forallb (has_type rname root ctx f size len (SUint 8)) l = true ->
    str_elems (str_val f len depth (SUint 8)) [] uuid_dash 0 l b = Ok (b ++ uuid_text (bytes_in l)).
  Proof.
    intros f size len depth l b F1 F2 L H.
    assert (K : forall v c, In v l -> str_val f len depth (SUint 8) v c =
                  Ok (c ++ hex2 (b2N (N2b (as_uint (Some v)))))).
    { intros v c Hv. rewrite forallb_forall in H. destruct (u8_elem f size len depth v c (H v Hv)) as [-> B].
      unfold str_uint. rewrite F1, F2. rewrite b2N_N2b, N.mod_small by exact B. reflexivity. }
    clear H. set (sv := str_val f len depth (SUint 8)) in *. clearbody sv.
    do 16 (destruct l as [|? l]; [cbn in L; lia|]). destruct l as [|? l]; [|cbn in L; lia]. clear L.
    cbn [str_elems]. rewrite !app_nil_r.
    repeat (rewrite K by (cbn [In]; tauto); cbn [str_elems uuid_dash]; rewrite ?app_nil_r).
    unfold uuid_text, bytes_in. cbv zeta. rewrite !takeN_firstn, !skipN_skipn. cbn [map].
    change (N.to_nat 4) with 4%nat. change (N.to_nat 2) with 2%nat. change (N.to_nat 6) with 6%nat.
    change (N.to_nat 8) with 8%nat. change (N.to_nat 10) with 10%nat.
    cbn [firstn skipn map List.concat]. rewrite <- !app_assoc, ?app_nil_r. reflexivity.
  Qed.

  (** ** FullBox *)
  Lemma fullbox_printed : forall f size len depth l buf,
    lookup "FullBox" root = Some (VStruct l) -> has_type rname root ctx f size len fb_ty (VStruct l) = true ->
    str_val (plain_info "FullBox" 0 0 true) len depth fb_ty (VStruct l) buf =
    Ok (put depth buf (show_flds "FullBox" true l
          (FCons (plain_info "Version" 0 8 false) (SUint 8)
          (FCons (plain_info "Flags" 1 8 false) (SArr 3 (SUint 8)) FNil)))).
  Proof.
    intros f size len depth l buf HL HT.
    unfold fb_ty in *. cbn [has_type has_fields owner] in HT. rewrite !plain_size, !plain_len in HT.
    rewrite <- !is_target_enabled, !plain_target in HT. cbn [f_name plain_info] in HT.
    cbn [Stringify.str_val f_extend plain_info Stringify.str_flds SpecStringify.show_flds owner].
    rewrite !plain_size, !plain_len, <- !is_target_enabled, !plain_target.
    cbn [f_name f_cnst f_hidden f_extend plain_info visible String.eqb Ascii.eqb Bool.eqb negb andb orb].
    destruct (lookup "Version" l) as [v|] eqn:LV; [|discriminate]. destruct v as [n| | | | | |]; try discriminate.
    apply andb_prop in HT. destruct HT as [H1 HT]. apply andb_prop in H1. destruct H1 as [H1 _]. apply N.ltb_lt in H1.
    destruct (lookup "Flags" l) as [v|] eqn:LF; [|discriminate]. destruct v as [| | | |fl| |]; try discriminate.
    apply andb_prop in HT. destruct HT as [HT _]. apply andb_prop in HT. destruct HT as [H2 H3].
    apply N.eqb_eq in H2. destruct fl as [|a [|b [|c [|]]]]; try (cbn in H2; lia). clear H2.
    cbn [forallb] in H3. rewrite andb_true_r in H3. apply andb_prop in H3. destruct H3 as [A B].
    apply andb_prop in B. destruct B as [B C].
    destruct a as [a| | | | | |]; try discriminate. destruct b as [b| | | | | |]; try discriminate.
    destruct c as [c| | | | | |]; try discriminate.
    cbn [has_type] in A, B, C. apply andb_prop in A, B, C. destruct A as [A _], B as [B _], C as [C _].
    apply N.ltb_lt in A, B, C. change (2 ^ 8) with 256 in *.
    assert (GV : get_version root = n) by (unfold get_version, fullbox_of; rewrite HL, LV; reflexivity).
    assert (GF : get_flags root = 65536 * a + 256 * b + c).
    { unfold get_flags, fullbox_of. rewrite HL, LF.
      pose proof (flags_add (N2b a) (N2b b) (N2b c)) as F. rewrite !b2N_N2b, !N.mod_small in F by assumption.
      exact F. }
    unfold own_form. cbn [String.eqb Ascii.eqb Bool.eqb andb orb]. rewrite LV, LF. cbn [as_uint].
    rewrite GV, GF. cbn [app put]. f_equal.
    unfold put1, item. cbn [fst snd SpecStringify.write]. change (negb false) with true. cbn [andb].
    destruct (no_indent indent); cbn [negb]; rewrite <- ?app_assoc, ?app_nil_r; reflexivity.
  Qed.

  (** ** All values *)
  Definition PV (t : sty) : Prop := forall f size len depth v buf,
    pr_val rname f t = true -> has_type rname root ctx f size len t v = true ->
    str_val f len depth t v buf = Ok (emit f depth (show_val f t v) buf).
  Definition PF (fs : flds) : Prop := forall top sname cfo self depth buf,
    pr_flds rname top sname cfo fs = true -> sname <> "FullBox" -> (top = true -> self = root) ->
    has_fields rname root ctx sname cfo self fs = true ->
    str_flds depth sname cfo self fs buf = Ok (put depth buf (show_flds sname cfo self fs)).

  Lemma is_u8_eq : forall u, is_u8 u = true -> u = SUint 8.
  Proof.
    intros u H. destruct u; try discriminate. cbn in H.
    destruct w as [|[|[|[|[]|]|]|]]; try discriminate; try reflexivity;
    repeat match type of H with match ?p with _ => _ end = _ => destruct p; try discriminate end; reflexivity.
  Qed.
  Lemma emit_text : forall f depth v buf, f_extend f = false -> emit f depth v buf = buf ++ write depth v.
  Proof. intros f depth v buf E. destruct v; cbn [emit]; rewrite ?E; reflexivity. Qed.

  Lemma list_printed : forall u, PV u -> forall f size len depth l buf, f_extend f = false -> tagged f = false ->
    pr_val rname f u = true -> forallb (has_type rname root ctx f size len u) l = true ->
    str_elems (str_val f len (S depth) u) (lit ", ") (fun _ => []) 0 l (buf ++ lit "[") =
    Ok (buf ++ lit "[" ++ join (lit ", ") (map (write (S depth)) (map (show_val f u) l))).
  Proof.
    intros u H f size len depth l buf E T P HT. rewrite forallb_forall in HT.
    rewrite (elems_plain _ (fun v => write (S depth) (show_val f u v))).
    - rewrite map_map, <- app_assoc. reflexivity.
    - intros v Hv b. rewrite (H f size) by auto. now rewrite emit_text.
  Qed.

  Lemma str_flds_cons : forall depth sname (cfo : bool) self f t rest buf,
    str_flds depth sname cfo self (FCons f t rest) buf =
    let env := cfo_env root ctx cfo self in
    let cn := cfo_name rname cfo sname in
    match resolve_size cn env f, resolve_len cn env f with
    | Some _, Some len =>
        if negb (is_target (get_version root) (get_flags root) cn env f)
        then str_flds depth sname cfo self rest buf
        else if negb (String.eqb (f_cnst f) "") || f_hidden f
        then str_flds depth sname cfo self rest buf
        else
          let b1 :=
            if f_extend f then buf
            else (if no_indent indent then buf ++ (if needs_space buf then lit " " else [])
                  else write_indent indent (S depth) buf) ++ lit (f_name f) ++ lit "=" in
          let nl := if negb (f_extend f) && negb (no_indent indent) then [N2b 10] else [] in
          let receiver := if cfo then self else root in
          match stringify_field graphic cn (f_name f) receiver with
          | Some s => str_flds depth sname cfo self rest (b1 ++ s ++ nl)
          | None =>
              match (if String.eqb (f_name f) "Version" then Ok (b1 ++ dec_text (get_version root))
                     else if String.eqb (f_name f) "Flags" then
                       Ok (b1 ++ lit "0x" ++ pad_left 6 (hex_text (get_flags root)))
                     else match lookup (f_name f) self with
                          | Some v => str_val f len depth t v b1
                          | None => Panic
                          end) with
              | Ok b2 => str_flds depth sname cfo self rest (b2 ++ nl)
              | e => e
              end
          end
    | _, _ => Panic
    end.
  Proof. reflexivity. Qed.
  Lemma show_flds_cons : forall sname (cfo : bool) self f t rest,
    show_flds sname cfo self (FCons f t rest) =
    let (cn, env) := owner rname root ctx cfo sname self in
    (if enabled (get_version root) (get_flags root) cn env f && visible f then
       let v :=
         match own_form graphic sname (f_name f) self with
         | Some s => Text s
         | None => match lookup (f_name f) self with Some v => show_val f t v | None => Text [] end
         end in
       if f_extend f then match v with Record l => l | _ => [] end
       else [(f_name f, v)]
     else []) ++ show_flds sname cfo self rest.
  Proof. reflexivity. Qed.

  Lemma print_all : (forall t, PV t) /\ (forall fs, PF fs).
  Proof.
    apply sty_flds_mutind.
    - (* uint *)
      intros w f size len depth v buf P HT. destruct v; try discriminate. cbn [Stringify.str_val SpecStringify.show_val emit].
      cbn [pr_val] in P. unfold tagged in P. apply negb_true_iff in P. apply orb_false_elim in P.
      destruct P as [P P3]. apply orb_false_elim in P. destruct P as [P1 P2].
      unfold str_uint, show_uint. rewrite P1, P2, P3, (andb_comm _ (w =? 8)).
      cbn [SpecStringify.write]. destruct (_ || _); rewrite <- ?app_assoc; reflexivity.
    - intros w f size len depth v buf P HT. destruct v; try discriminate. cbn [Stringify.str_val SpecStringify.show_val emit].
      unfold str_int, show_int. cbn [SpecStringify.write]. destruct (f_hex f); [|reflexivity].
      destruct (Z.leb_spec 0 z), (Z.ltb_spec z 0); try lia; reflexivity.
    - intros f size len depth v buf P HT. destruct v; try discriminate. reflexivity.
    - intros f size len depth v buf P HT. destruct v; try discriminate. reflexivity.
    - (* array *)
      intros n u IH f size len depth v buf P HT. destruct v as [| | | |l| |]; try discriminate.
      cbn [pr_val] in P. apply andb_prop in P. destruct P as [PE P]. apply negb_true_iff in PE.
      cbn [has_type] in HT. apply andb_prop in HT. destruct HT as [HL HT]. apply N.eqb_eq in HL.
      rewrite emit_text by exact PE. cbn [Stringify.str_val SpecStringify.show_val].
      destruct (tagged f) eqn:TG.
      + apply andb_prop in P. destruct P as [P P4]. apply andb_prop in P. destruct P as [P P3].
        apply andb_prop in P. destruct P as [P1 P2]. apply is_u8_eq in P1. subst u.
        unfold tagged in TG. destruct (f_string f) eqn:F1.
        { cbn [andb] in P2. apply negb_true_iff, orb_false_elim in P2. destruct P2 as [F2 F3].
          rewrite (str_bytes f size) by assumption. reflexivity. }
        destruct (f_iso639 f) eqn:F2.
        { destruct (f_uuid f) eqn:F3; [discriminate|].
          rewrite (str_letters f size) by assumption. rewrite <- !app_assoc. reflexivity. }
        destruct (f_uuid f) eqn:F3; [|discriminate]. cbn [implb] in P4. apply N.eqb_eq in P4.
        rewrite app_nil_r. rewrite (str_uuid f size); auto; [|congruence]. rewrite app_nil_r. reflexivity.
      + pose proof TG as TG0. unfold tagged in TG. apply orb_false_elim in TG. destruct TG as [TG F3].
        apply orb_false_elim in TG. destruct TG as [F1 F2]. rewrite F1, F2, F3.
        rewrite (list_printed u IH f size) by assumption. cbn [SpecStringify.write]. rewrite <- !app_assoc. reflexivity.
    - (* slice *)
      intros u IH f size len depth v buf P HT. destruct v as [| | | |l| |]; try discriminate.
      cbn [pr_val] in P. apply andb_prop in P. destruct P as [PE P]. apply negb_true_iff in PE.
      cbn [has_type] in HT. apply andb_prop in HT. destruct HT as [HL HT].
      rewrite emit_text by exact PE. cbn [Stringify.str_val SpecStringify.show_val]. cbv zeta.
      replace (if len =? LengthUnlimited then l else takeN len l) with l.
      2:{ destruct (len =? LengthUnlimited); [reflexivity|]. cbn [orb] in HL. apply N.leb_le in HL.
          now rewrite takeN_all. }
      destruct (tagged f) eqn:TG.
      + apply andb_prop in P. destruct P as [P P3]. apply negb_true_iff in P3.
        apply andb_prop in P. destruct P as [P1 P2]. apply is_u8_eq in P1. subst u.
        unfold tagged in TG. rewrite P3. destruct (f_string f) eqn:F1.
        { cbn [andb] in P2. apply negb_true_iff in P2. rewrite (str_bytes f size) by assumption. reflexivity. }
        destruct (f_iso639 f) eqn:F2; [|rewrite P3 in TG; discriminate].
        rewrite (str_letters f size) by assumption. rewrite <- !app_assoc. reflexivity.
      + pose proof TG as TG0. unfold tagged in TG. apply orb_false_elim in TG. destruct TG as [TG F3].
        apply orb_false_elim in TG. destruct TG as [F1 F2]. rewrite F1, F2, F3.
        rewrite (list_printed u IH f size) by assumption. cbn [SpecStringify.write]. rewrite <- !app_assoc. reflexivity.
    - (* pointer *)
      intros u IH f size len depth v buf P HT. destruct v as [| | | | |[x|]|]; try discriminate.
      cbn [Stringify.str_val SpecStringify.show_val]. apply (IH f size); auto.
    - (* struct *)
      intros name cfo fs IH f size len depth v buf P HT. destruct v as [| | | | | |l]; try discriminate.
      cbn [pr_val] in P. apply andb_prop in P. destruct P as [P1 P2]. apply negb_true_iff, String.eqb_neq in P1.
      cbn [has_type] in HT. cbn [Stringify.str_val SpecStringify.show_val emit].
      destruct (f_extend f).
      { apply (IH false); auto. discriminate. }
      rewrite (IH false) by (auto; discriminate).
      pose proof (proj2 (show_good graphic rname root ctx) fs name cfo l) as G.
      cbn [SpecStringify.write]. change (oneline indent) with (no_indent indent).
      fold (item (S depth)).
      destruct (no_indent indent) eqn:NI.
      + rewrite put_lines; [|exact G|].
        * rewrite <- ?app_assoc, ?app_nil_r. reflexivity.
        * rewrite ?app_nil_r, needs_space_ends, ends_app by discriminate.
          destruct (buf ++ lit "{"); reflexivity.
      + rewrite put_lines_indent by exact NI. unfold write_indent, margin. rewrite <- !app_assoc. reflexivity.
    - intros top sname cfo self depth buf _ _ _ _. reflexivity.
    - (* a field *)
      intros f t IHt rest IHr top sname cfo self depth buf P NF TR HT.
      cbn [pr_flds] in P. apply andb_prop in P. destruct P as [P PR].
      cbn [has_fields] in HT. rewrite str_flds_cons, show_flds_cons. cbv zeta.
      destruct (owner rname root ctx cfo sname self) as [cn env] eqn:OW.
      assert (Ecn : cfo_name rname cfo sname = cn /\ cfo_env root ctx cfo self = env).
      { unfold owner in OW. unfold cfo_name, cfo_env, root_env. destruct cfo; injection OW as <- <-; auto. }
      destruct Ecn as [-> ->].
      destruct (resolve_size cn env f) as [size|]; [|discriminate].
      destruct (resolve_len cn env f) as [len|]; [|discriminate].
      apply andb_prop in HT. destruct HT as [HT HR].
      rewrite is_target_enabled.
      assert (CONT : forall b, str_flds depth sname cfo self rest b =
                       Ok (put depth b (show_flds sname cfo self rest))).
      { intros b. apply (IHr top); auto. }
      destruct (enabled (get_version root) (get_flags root) cn env f); cbn [negb andb];
        [|rewrite CONT; reflexivity].
      unfold visible in *. rewrite <- (negb_involutive (String.eqb (f_cnst f) "" && negb (f_hidden f))).
      rewrite negb_andb, negb_involutive. destruct (negb (String.eqb (f_cnst f) "") || f_hidden f) eqn:VI; cbn [negb];
        [rewrite CONT; reflexivity|].
      assert (VV : String.eqb (f_cnst f) "" && negb (f_hidden f) = true).
      { apply orb_false_elim in VI. destruct VI as [V1 V2]. apply negb_false_iff in V1. now rewrite V1, V2. }
      rewrite VV in P. cbn [negb orb] in P.
      apply andb_prop in P. destruct P as [P P5]. apply andb_prop in P. destruct P as [P P4].
      apply andb_prop in P. destruct P as [P P3]. apply andb_prop in P. destruct P as [P1 P2].
      apply negb_true_iff in P4, P5. rewrite P4, P5.
      destruct (lookup (f_name f) self) as [v|] eqn:LK; [|discriminate].
      assert (OWN : stringify_field graphic cn (f_name f) (if cfo then self else root) =
                    own_form graphic sname (f_name f) self).
      { assert (X : cn = if cfo then sname else rname) by (unfold owner in OW; destruct cfo; congruence).
        destruct cfo; subst cn; [now apply own_same|]. cbn [orb] in P3. apply andb_prop in P3. destruct P3 as [P3 P6].
        apply negb_true_iff in P3, P6. rewrite <- own_same by exact NF. now rewrite !not_own. }
      rewrite OWN. clear OWN. rewrite put_app.
      destruct (f_extend f) eqn:EX.
      + (* embedded *)
        cbn [implb] in P2. apply andb_prop in P2. destruct P2 as [P2 P6]. apply negb_true_iff in P6.
        rewrite <- own_same by exact NF. rewrite not_own by exact P6.
        cbn [negb andb].
        assert (Q : str_val f len depth t v buf =
                    Ok (put depth buf (match show_val f t v with Record l => l | _ => [] end))).
        { destruct (is_fullbox t) eqn:FB.
          - apply andb_prop in P1. destruct P1 as [P1 P7]. apply sty_eqb_eq in P7.
            apply andb_prop in P1. destruct P1 as [P1 P8]. apply finfo_eqb_eq in P8.
            apply andb_prop in P1. destruct P1 as [P1 _]. specialize (TR P1). subst f t self.
            cbn [f_name plain_info] in LK.
            destruct v as [| | | | | |l]; try discriminate. rewrite (fullbox_printed (plain_info "FullBox" 0 0 true) size) by assumption. reflexivity.
          - rewrite (IHt f size) by assumption. unfold emit. rewrite EX.
            destruct (show_val f t v) eqn:SV; try reflexivity; exfalso.
            + destruct t as [| | | | | |[]|]; try discriminate; destruct v as [| | | | |[[]|]|]; try discriminate.
            + destruct t as [| | | | | |[]|]; try discriminate; destruct v as [| | | | |[[]|]|]; try discriminate. }
        cbv iota. rewrite Q. rewrite app_nil_r. apply CONT.
      + cbn [negb andb]. cbn [put]. cbv iota.
        assert (Q : forall w, put1 depth buf (item depth (f_name f, w)) =
          (if no_indent indent then buf ++ (if needs_space buf then lit " " else [])
           else write_indent indent (S depth) buf) ++ lit (f_name f) ++ lit "=" ++ write depth w ++
          (if negb (no_indent indent) then [N2b 10] else [])).
        { intros w. unfold put1, item. cbn [fst snd].
          destruct (no_indent indent); cbn [negb]; rewrite <- ?app_assoc, ?app_nil_r; reflexivity. }
        destruct (own_form graphic sname (f_name f) self) as [s|].
        * rewrite CONT, Q. cbn [SpecStringify.write]. rewrite <- !app_assoc. reflexivity.
        * destruct (is_fullbox t) eqn:FB.
          { exfalso. apply andb_prop in P1. destruct P1 as [P1 _].
            apply andb_prop in P1. destruct P1 as [_ P8]. apply finfo_eqb_eq in P8. subst f. discriminate. }
          rewrite (IHt f size) by assumption. rewrite emit_text by exact EX. rewrite CONT, Q.
          rewrite <- !app_assoc. reflexivity.
  Qed.
End Print.

Lemma stringify_complete : forall graphic indent ctx t d x,
  clashing d = false -> get_box_def std_registry t ctx = Some d -> complete_box ctx d x = true ->
  stringify_with_indent graphic std_registry t x indent ctx = Ok (box_text graphic indent ctx d x).
Proof.
  intros graphic indent ctx t d x C G H. unfold stringify_with_indent. rewrite G.
  pose proof (all_defs_check _ _ _ _ _ eq_refl std_pr G) as P. cbv beta in P. rewrite C in P. cbn [orb] in P.
  apply andb_prop in P. destruct P as [P1 P2]. apply negb_true_iff, String.eqb_neq in P1. clear G.
  rewrite (proj2 (print_all graphic indent (bd_name d) x ctx) (bd_flds d) true); auto.
  rewrite put_lines; [reflexivity| |reflexivity].
  apply (proj2 (show_good graphic (bd_name d) x ctx)).
Qed.

(** ** No panic, whatever the names of the fields *)
Section NoPanic.
  Variables (graphic : N -> bool) (indent : text) (rname : string) (root : list (string * val)) (ctx : context).
  Notation str_val := (str_val graphic indent rname root ctx).
  Notation str_flds := (str_flds graphic indent rname root ctx).
  Lemma elems_ok : forall elem sep after l i buf,
    (forall v, In v l -> forall b, exists s, elem v b = Ok s) ->
    exists s, str_elems elem sep after i l buf = Ok s.
  Proof.
    intros elem sep after. induction l as [|v l IH]; intros i buf H; [eexists; reflexivity|]. cbn [str_elems].
    destruct (H v (or_introl eq_refl) (buf ++ match i with O => [] | S _ => sep end)) as [s ->].
    apply IH. intros; apply H; now right.
  Qed.
  Lemma In_takeN : forall (l : list val) n v, In v (takeN n l) -> In v l.
  Proof. intros l n v H. rewrite <- (takeN_skipN _ l n). apply in_or_app. now left. Qed.
  Lemma ok_all :
    (forall t f size len depth v buf, has_type rname root ctx f size len t v = true ->
       exists s, str_val f len depth t v buf = Ok s) /\
    (forall fs depth sname cfo self buf, has_fields rname root ctx sname cfo self fs = true ->
       exists s, str_flds depth sname cfo self fs buf = Ok s).
  Proof.
    apply sty_flds_mutind.
    - intros w f size len depth v buf HT. destruct v; try discriminate. eexists; reflexivity.
    - intros w f size len depth v buf HT. destruct v; try discriminate. eexists; reflexivity.
    - intros f size len depth v buf HT. destruct v; try discriminate. eexists; reflexivity.
    - intros f size len depth v buf HT. destruct v; try discriminate. eexists; reflexivity.
    - intros n u IH f size len depth v buf HT. destruct v as [| | | |l| |]; try discriminate.
      cbn [has_type] in HT. apply andb_prop in HT. destruct HT as [_ HT]. rewrite forallb_forall in HT.
      assert (K : forall sep after b, exists s, str_elems (str_val f len (S depth) u) sep after 0 l b = Ok s).
      { intros sep after b. apply elems_ok. intros v Hv c. apply (IH f size). auto. }
      cbn [Stringify.str_val]. destruct (f_string f).
      { destruct (K [] (fun _ => []) []) as [s ->]. eexists; reflexivity. }
      match goal with |- context [let '(x, y) := ?p in _] => destruct p as [[b sep] e] end.
      destruct (K sep (if f_uuid f then uuid_dash else fun _ => []) (buf ++ b)) as [s ->]. eexists; reflexivity.
    - intros u IH f size len depth v buf HT. destruct v as [| | | |l0| |]; try discriminate.
      cbn [has_type] in HT. apply andb_prop in HT. destruct HT as [_ HT]. rewrite forallb_forall in HT.
      cbn [Stringify.str_val]. cbv zeta. set (l := if len =? LengthUnlimited then l0 else takeN len l0).
      assert (HL : forall v, In v l -> In v l0).
      { intros v. unfold l. destruct (_ =? _); [auto|apply In_takeN]. }
      assert (K : forall sep after b, exists s, str_elems (str_val f len (S depth) u) sep after 0 l b = Ok s).
      { intros sep after b. apply elems_ok. intros v Hv c. apply (IH f size). auto. }
      destruct (f_string f).
      { destruct (K [] (fun _ => []) []) as [s ->]. eexists; reflexivity. }
      match goal with |- context [let '(x, y) := ?p in _] => destruct p as [[b sep] e] end.
      destruct (K sep (fun _ => []) (buf ++ b)) as [s ->]. eexists; reflexivity.
    - intros u IH f size len depth v buf HT. destruct v as [| | | | |[x|]|]; try discriminate.
      apply (IH f size len depth x buf HT).
    - intros name cfo fs IH f size len depth v buf HT. destruct v as [| | | | | |l]; try discriminate.
      cbn [has_type] in HT. change (has_fields rname root ctx name cfo l fs = true) in HT.
      change (str_val f len depth (SStruct name cfo fs) (VStruct l) buf) with
        (if f_extend f then str_flds depth name cfo l fs buf
         else match str_flds (S depth) name cfo l fs (buf ++ lit "{" ++ (if no_indent indent then [] else [N2b 10])) with
              | Ok b => Ok ((if no_indent indent then b else write_indent indent (S depth) b) ++ lit "}")
              | e => e
              end).
      destruct (f_extend f); [apply IH, HT|].
      destruct (IH (S depth) name cfo l (buf ++ lit "{" ++ (if no_indent indent then [] else [N2b 10])) HT) as [s ->].
      eexists; reflexivity.
    - intros. eexists; reflexivity.
    - intros f t IHt rest IHr depth sname cfo self buf HT. cbn [has_fields] in HT. rewrite str_flds_cons. cbv zeta.
      destruct (owner rname root ctx cfo sname self) as [cn env] eqn:OW.
      assert (Ecn : cfo_name rname cfo sname = cn /\ cfo_env root ctx cfo self = env).
      { unfold owner in OW. unfold cfo_name, cfo_env, root_env. destruct cfo; injection OW as <- <-; auto. }
      destruct Ecn as [-> ->].
      destruct (resolve_size cn env f) as [size|]; [|discriminate].
      destruct (resolve_len cn env f) as [len|]; [|discriminate].
      apply andb_prop in HT. destruct HT as [HT HR]. rewrite is_target_enabled.
      destruct (enabled _ _ _ _ _); cbn [negb]; [|apply IHr, HR].
      destruct (_ || _); [apply IHr, HR|].
      destruct (stringify_field _ _ _ _); [apply IHr, HR|].
      destruct (String.eqb _ _); [apply IHr, HR|]. destruct (String.eqb _ _); [apply IHr, HR|].
      destruct (lookup (f_name f) self) as [v|]; [|discriminate].
      match goal with |- context [str_val f len depth t v ?b] => destruct (IHt f size len depth v b HT) as [s ->] end.
      apply IHr, HR.
  Qed.
End NoPanic.
Lemma stringify_ok : forall graphic indent ctx t d x,
  get_box_def std_registry t ctx = Some d -> complete_box ctx d x = true ->
  exists s, stringify_with_indent graphic std_registry t x indent ctx = Ok s.
Proof.
  intros graphic indent ctx t d x G H. unfold stringify_with_indent. rewrite G.
  apply (proj2 (ok_all graphic indent (bd_name d) x ctx)). exact H.
Qed.
