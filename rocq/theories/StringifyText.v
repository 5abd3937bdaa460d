(** The characters of printed strings. *)
From Coq Require Import DecimalString HexadecimalString.
From Verif Require Import Base Schema Structs Methods Registry Marshal Unmarshal SpecCodec GoText Stringify
     SpecStringify.
From Verif Require Import BaseProofs MarshalProofs MarshalCount VersionFacts SpecRoundTrip Causal StringifyProofs.
Local Open Scope string_scope.
Local Open Scope list_scope.
Local Open Scope N_scope.
Ltac Zify.zify_post_hook ::= Z.to_euclidean_division_equations.

(** ** UTF-8 *)
Definition fix_rune (c : N) : N := if scalar c then c else rune_error.
Lemma in_range_spec : forall lo hi n, in_range lo hi n = true <-> lo <= n <= hi.
Proof. intros. unfold in_range. rewrite andb_true_iff, !N.leb_le. tauto. Qed.
Lemma in_range_false : forall lo hi n, in_range lo hi n = false <-> n < lo \/ hi < n.
Proof.
  intros. unfold in_range. rewrite andb_false_iff, !N.leb_gt. tauto.
Qed.
Lemma scalar_spec : forall c, scalar c = true <-> c < 55296 \/ 57344 <= c <= 1114111.
Proof. intros. unfold scalar. rewrite orb_true_iff, N.ltb_lt, in_range_spec. tauto. Qed.
Lemma fix_scalar : forall c, scalar (fix_rune c) = true.
Proof. intros c. unfold fix_rune. destruct (scalar c) eqn:E; [exact E|reflexivity]. Qed.

Ltac ranges :=
  repeat match goal with
  | |- context [?a =? ?b] => destruct (N.eqb_spec a b); try lia
  | |- context [?a <? ?b] => destruct (N.ltb_spec a b); try lia
  | |- context [in_range ?a ?b ?c] =>
      let E := fresh in destruct (in_range a b c) eqn:E;
      [apply in_range_spec in E|apply in_range_false in E]; try lia; cbn [andb]
  end.
Lemma decode_encode : forall c0 r,
  decode_rune (encode_rune c0 ++ r) = (fix_rune c0, List.length (encode_rune c0)).
Proof.
  intros c0 r. pose proof (fix_scalar c0) as S. unfold encode_rune. fold (fix_rune c0). set (c := fix_rune c0) in *. clearbody c.
  cbv zeta. apply scalar_spec in S. unfold decode_rune. cbv zeta. rewrite map_app, map_map.
  destruct (N.ltb_spec c 128) as [H1|H1]; [|destruct (N.ltb_spec c 2048) as [H2|H2];
    [|destruct (N.ltb_spec c 65536) as [H3|H3]]]; cbn [map app List.length]; rewrite !b2N_N2b.
  - rewrite N.mod_small by lia. ranges. reflexivity.
  - rewrite (N.mod_small (192 + c / 64)), (N.mod_small (128 + c mod 64)) by lia.
    ranges. f_equal. lia.
  - rewrite (N.mod_small (224 + c / 4096)), (N.mod_small (128 + (c / 64) mod 64)), (N.mod_small (128 + c mod 64)) by lia.
    ranges; f_equal; lia.
  - rewrite (N.mod_small (240 + c / 262144)), (N.mod_small (128 + (c / 4096) mod 64)),
      (N.mod_small (128 + (c / 64) mod 64)), (N.mod_small (128 + c mod 64)) by lia.
    ranges; f_equal; lia.
Qed.

Lemma encode_nonempty : forall c, exists b r, encode_rune c = b :: r.
Proof.
  intros c. unfold encode_rune. cbv zeta. fold (fix_rune c).
  destruct (fix_rune c <? 128); [|destruct (fix_rune c <? 2048); [|destruct (fix_rune c <? 65536)]];
    cbn [map]; eauto.
Qed.
Lemma runes_skip : forall a r, runes (List.length a) (a ++ r) = runes 0 r.
Proof. induction a as [|x a IH]; intros r; [reflexivity|]. cbn [List.length app runes]. apply IH. Qed.
Lemma runes_encode : forall c r, runes 0 (encode_rune c ++ r) = fix_rune c :: runes 0 r.
Proof.
  intros c r. pose proof (decode_encode c r) as D. destruct (encode_nonempty c) as (b & q & E).
  rewrite E in *. cbn [app] in *. cbn [runes]. rewrite D. cbn [List.length]. f_equal.
  replace (S (List.length q) - 1)%nat with (List.length q) by lia. apply runes_skip.
Qed.
Lemma runes_map : forall f s, runes 0 (map_runes f s) = map (fun c => fix_rune (f c)) (runes 0 s).
Proof.
  intros f s. unfold map_runes. induction (runes 0 s) as [|c l IH]; [reflexivity|].
  cbn [map List.concat]. rewrite runes_encode, IH. reflexivity.
Qed.
Lemma decode_scalar : forall l, scalar (fst (decode_rune l)) = true.
Proof.
  intros l. unfold decode_rune. cbv zeta.
  assert (B : Forall (fun n => n < 256) (map b2N l)).
  { apply Forall_forall. intros n I. apply in_map_iff in I. destruct I as (b & <- & _). apply b2N_lt. }
  destruct (map b2N l) as [|a r]; [reflexivity|]. pose proof (Forall_inv B) as Ba. apply Forall_inv_tail in B.
  cbv beta in Ba.
  destruct (N.ltb_spec a 128). { apply scalar_spec. cbn [fst]. lia. }
  destruct (in_range 194 223 a) eqn:E1.
  { apply in_range_spec in E1. destruct r as [|b r]; [reflexivity|].
    destruct (in_range 128 191 b); [|reflexivity]. apply scalar_spec. cbn [fst]. lia. }
  destruct (in_range 224 239 a) eqn:E2.
  { apply in_range_spec in E2. destruct r as [|b [|c r]]; try reflexivity.
    destruct (N.eqb_spec a 224); destruct (N.eqb_spec a 237);
    match goal with |- context [in_range ?x ?y b && _] => destruct (in_range x y b) eqn:E3; cbn [andb]; [|reflexivity] end;
    (destruct (in_range 128 191 c) eqn:E4; [|reflexivity]);
    apply in_range_spec in E3; apply in_range_spec in E4; apply scalar_spec; cbn [fst]; try lia. }
  destruct (in_range 240 244 a) eqn:E5; [|reflexivity].
  apply in_range_spec in E5. destruct r as [|b [|c [|d r]]]; try reflexivity.
  destruct (N.eqb_spec a 240); destruct (N.eqb_spec a 244);
    match goal with |- context [in_range ?x ?y b && _] => destruct (in_range x y b) eqn:E3; cbn [andb]; [|reflexivity] end;
    (destruct (in_range 128 191 c) eqn:E4; cbn [andb]; [|reflexivity]);
    (destruct (in_range 128 191 d) eqn:E6; [|reflexivity]);
    apply in_range_spec in E3; apply in_range_spec in E4; apply in_range_spec in E6;
    apply scalar_spec; cbn [fst]; try lia.
Qed.
Lemma runes_scalar : forall l k, Forall (fun c => scalar c = true) (runes k l).
Proof.
  induction l as [|b l IH]; intros k; [constructor|]. cbn [runes]. destruct k; [|apply IH].
  pose proof (decode_scalar (b :: l)) as D. destruct (decode_rune (b :: l)) as (c, w). constructor; [exact D|apply IH].
Qed.

(** The characters of a printed string. *)
Lemma printable_runes : forall graphic s,
  runes 0 (printable graphic s) = map (fun r => if graphic r then r else 46) (runes 0 s).
Proof.
  intros graphic s. unfold printable. rewrite runes_map. apply map_ext_in. intros c I.
  pose proof (runes_scalar s 0) as F. rewrite Forall_forall in F. apply F in I. unfold fix_rune.
  destruct (graphic c); [rewrite I|]; reflexivity.
Qed.

(** ** Bytes that are not control characters *)
Definition clean (s : text) : Prop := Forall (fun b => 32 <= b2N b) s.
Lemma encode_clean : forall c, 32 <= c -> clean (encode_rune c).
Proof.
  intros c0 L. assert (L' : 32 <= fix_rune c0). { unfold fix_rune. destruct (scalar c0); [exact L|vm_compute; congruence]. }
  pose proof (fix_scalar c0) as S. apply scalar_spec in S.
  unfold encode_rune. fold (fix_rune c0). cbv zeta. set (c := fix_rune c0) in *. clearbody c.
  unfold clean.
  destruct (N.ltb_spec c 128) as [H1|H1]; [|destruct (N.ltb_spec c 2048) as [H2|H2];
    [|destruct (N.ltb_spec c 65536) as [H3|H3]]]; cbn [map];
    repeat constructor; rewrite b2N_N2b; rewrite N.mod_small; lia.
Qed.
Lemma clean_app : forall a b, clean a -> clean b -> clean (a ++ b).
Proof. intros a b A B. apply Forall_app. auto. Qed.
Lemma clean_concat : forall l, Forall clean l -> clean (List.concat l).
Proof. induction 1; [constructor|]. cbn [List.concat]. apply clean_app; assumption. Qed.
Lemma printable_clean : forall graphic s, (forall r, r < 32 -> graphic r = false) -> clean (printable graphic s).
Proof.
  intros graphic s G. unfold printable, map_runes. apply clean_concat. apply Forall_forall. intros t I.
  apply in_map_iff in I. destruct I as (c & <- & _). apply encode_clean.
  destruct (graphic c) eqn:E; [|lia]. destruct (N.lt_ge_cases c 32) as [L|L]; [|exact L].
  rewrite (G c L) in E. discriminate E.
Qed.

(** Numbers, names and identifiers *)
Ltac lits := repeat (constructor; [vm_compute; discriminate|]); constructor.
Lemma dec_uint_clean : forall u, clean (lit (DecimalString.NilEmpty.string_of_uint u)).
Proof.
  induction u; cbn [DecimalString.NilEmpty.string_of_uint]; rewrite ?lit_cons;
    try (constructor; [vm_compute; discriminate|exact IHu]). constructor.
Qed.
Lemma dec_clean : forall n, clean (dec_text n).
Proof.
  intros n. unfold dec_text, DecimalString.NilZero.string_of_uint.
  destruct (N.to_uint n) as [|u|u|u|u|u|u|u|u|u|u]; [lits|..];
    match goal with |- context [DecimalString.NilEmpty.string_of_uint ?u] => apply (dec_uint_clean u) end.
Qed.
Lemma hex_uint_clean : forall u, clean (lit (HexadecimalString.NilEmpty.string_of_uint u)).
Proof.
  induction u; cbn [HexadecimalString.NilEmpty.string_of_uint]; rewrite ?lit_cons;
    try (constructor; [vm_compute; discriminate|exact IHu]). constructor.
Qed.
Lemma hex_clean : forall n, clean (hex_text n).
Proof.
  intros n. unfold hex_text, HexadecimalString.NilZero.string_of_uint.
  destruct (N.to_hex_uint n); [lits|..];
    match goal with |- context [HexadecimalString.NilEmpty.string_of_uint ?u] => apply (hex_uint_clean u) end.
Qed.
Lemma pad_clean : forall k s, clean s -> clean (pad_left k s).
Proof.
  intros k s H. unfold pad_left. apply clean_app; [|exact H]. apply Forall_forall. intros x Hx.
  apply repeat_spec in Hx. subst. vm_compute. discriminate.
Qed.
Lemma int_clean : forall z, clean (int_text z).
Proof.
  intros z. unfold int_text. destruct (z <? 0)%Z; [|apply dec_clean]. apply clean_app; [lits|apply dec_clean].
Qed.
Lemma float_clean : forall k p z, clean (float_text k p z).
Proof.
  intros k p z. unfold float_text. cbv zeta.
  apply clean_app; [|apply clean_app; [apply dec_clean|apply clean_app; [lits|apply pad_clean, dec_clean]]].
  destruct (z <? 0)%Z; lits.
Qed.
Lemma fixed_clean : forall k p z, clean (fixed_point k p z).
Proof. intros. unfold fixed_point. destruct (_ =? _)%Z; [apply int_clean|apply float_clean]. Qed.
Lemma uuid_clean : forall l, clean (uuid_text l).
Proof.
  intros l. unfold uuid_text. cbv zeta.
  assert (H : forall l, clean (List.concat (map (fun b => hex2 (b2N b)) l))).
  { clear. intros l. apply clean_concat. apply Forall_forall. intros t I. apply in_map_iff in I.
    destruct I as (b & <- & _). apply pad_clean, hex_clean. }
  assert (D : clean (lit "-")) by lits.
  repeat apply clean_app; auto.
Qed.
Lemma join_clean : forall sep l, clean sep -> Forall clean l -> clean (join sep l).
Proof.
  intros sep l S F. destruct F as [|x l X F]; [constructor|]. cbn [join]. apply clean_app; [exact X|].
  apply clean_concat. apply Forall_forall. intros t I. apply in_map_iff in I. destruct I as (y & <- & I).
  apply clean_app; [exact S|]. rewrite Forall_forall in F. auto.
Qed.

Section Clean.
  Variable graphic : N -> bool.
  Hypothesis G : forall r, r < 32 -> graphic r = false.
  Lemma quoted_clean : forall s, clean (quoted graphic s).
  Proof. intros s. unfold quoted. apply clean_app; [lits|apply clean_app; [apply printable_clean, G|lits]]. Qed.
  Lemma one_of_clean : forall names n s, Forall (fun p => clean (lit (snd p))) names ->
    one_of names n = Some s -> clean s.
  Proof.
    intros names n s H E. unfold one_of in E. destruct (find _ names) as [p|] eqn:F; [|discriminate].
    injection E as <-. apply find_some in F. rewrite Forall_forall in H. apply H, F.
  Qed.
  Lemma own_clean : forall s f self x, own_form graphic s f self = Some x -> clean x.
  Proof.
    intros s f self x H. unfold own_form in H. cbv zeta in H.
    destruct (_ && _) in H.
    { assert (X : dec_text (as_uint (lookup f self)) = x) by congruence. subst x. apply dec_clean. }
    destruct (_ && _) in H.
    { destruct (lookup f self) as [[]|]; try discriminate. destruct l as [|a [|b [|c [|]]]]; try discriminate.
      apply (f_equal (fun o => match o with Some y => y | None => [] end)) in H. subst x.
      apply clean_app; [lits|]. apply pad_clean, hex_clean. }
    destruct (_ || _) in H.
    { assert (X : fixed_point 16 5 (as_Z (lookup f self)) = x) by congruence. subst x. apply fixed_clean. }
    destruct (_ && _) in H.
    { assert (X : fixed_point 8 3 (as_Z (lookup f self)) = x) by congruence. subst x. apply fixed_clean. }
    destruct (_ && _) in H.
    { destruct (as_bytes _) as [|n l]; [discriminate|]. destruct (_ <? 32); [|discriminate].
      assert (X : quoted graphic (takeN (b2N n) l) = x) by congruence. subst x. apply quoted_clean. }
    destruct (_ && _) in H.
    { destruct (_ <? 0)%Z; [discriminate|]. eapply one_of_clean; [|exact H]. repeat (constructor; [lits|]); constructor. }
    destruct (_ && _) in H.
    { eapply one_of_clean; [|exact H]. repeat (constructor; [lits|]); constructor. }
    destruct (_ && _) in H.
    { destruct (_ =? 1); [|discriminate].
      assert (X : quoted graphic (as_bytes (lookup f self)) = x) by congruence. subst x. apply quoted_clean. }
    destruct (_ || _) in H.
    { assert (X : quoted graphic (as_bytes (lookup f self)) = x) by congruence. subst x. apply quoted_clean. }
    destruct (_ && _) in H; [|discriminate].
    destruct (lookup f self) as [[]|]; try discriminate.
    apply (f_equal (fun o => match o with Some y => y | None => [] end)) in H. subst x.
    apply clean_app; [lits|apply clean_app; [|lits]]. apply join_clean; [lits|].
    apply Forall_forall. intros t I. apply in_map_iff in I. destruct I as (v & <- & _).
    destruct v; try constructor. apply uuid_clean.
  Qed.

  (** everything shown is clean *)
  Fixpoint cleanv (v : shown) : Prop :=
    match v with
    | Text s => clean s
    | Record l => fold_right (fun p a => (clean (lit (fst p)) /\ cleanv (snd p)) /\ a) True l
    | Items l => fold_right (fun x a => cleanv x /\ a) True l
    end.
  Definition clean_fields (l : list (string * shown)) : Prop :=
    Forall (fun p => clean (lit (fst p)) /\ cleanv (snd p)) l.
  Lemma clean_record : forall l, cleanv (Record l) <-> clean_fields l.
  Proof.
    intros l. cbn [cleanv]. unfold clean_fields. induction l as [|p l IH]; cbn [fold_right].
    - split; constructor.
    - rewrite IH. split; [intros [A B]; constructor; assumption|intros F; split; [apply (Forall_inv F)|apply (Forall_inv_tail F)]].
  Qed.
  Lemma clean_items : forall l, cleanv (Items l) <-> Forall cleanv l.
  Proof.
    intros l. cbn [cleanv]. induction l as [|p l IH]; cbn [fold_right].
    - split; constructor.
    - rewrite IH. split; [intros [A B]; constructor; assumption|intros F; split; [apply (Forall_inv F)|apply (Forall_inv_tail F)]].
  Qed.

  (** field names, and languages of at most 7 bits to a letter *)
  Definition cleanb (s : text) : bool := forallb (fun b => 32 <=? b2N b) s.
  Lemma cleanb_ok : forall s, cleanb s = true -> clean s.
  Proof.
    intros s H. apply Forall_forall. intros b I. unfold cleanb in H. rewrite forallb_forall in H.
    apply N.leb_le, H, I.
  Qed.
  Fixpoint cl_val (f : finfo) (t : sty) : bool :=
    match t with
    | SUint _ | SInt _ | SBool | SStr => true
    | SArr _ u | SSlice u =>
        (negb (f_iso639 f) || (match u with SUint _ => true | _ => false end && negb (f_sizeDyn f) && (f_size f <=? 7) && negb (f_varint f)))
        && cl_val f u
    | SPtr u => cl_val f u
    | SStruct _ _ fs => cl_flds fs
    end
  with cl_flds (fs : flds) : bool :=
    match fs with
    | FNil => true
    | FCons f t r => cleanb (lit (f_name f)) && cl_val f t && cl_flds r
    end.

  Section Show.
    Variables (rname : string) (root : list (string * val)) (ctx : context).
    Lemma letters_clean : forall f size len u l, f_iso639 f = true ->
      match u with SUint _ => true | _ => false end && (size <=? 7) && negb (f_varint f) = true ->
      forallb (has_type rname root ctx f size len u) l = true ->
      clean (lit """" ++ map (fun v => N2b (96 + as_uint (Some v))) l ++ lit """").
    Proof.
      intros f size len u l F C H. apply andb_prop in C. destruct C as [C V]. apply andb_prop in C. destruct C as [U C].
      apply N.leb_le in C. apply negb_true_iff in V. destruct u; try discriminate U.
      apply clean_app; [lits|apply clean_app; [|lits]]. apply Forall_forall. intros b I.
      apply in_map_iff in I. destruct I as (v & <- & I). rewrite forallb_forall in H. apply H in I.
      destruct v; try discriminate I. cbn [has_type] in I. rewrite V in I. cbn [orb] in I.
      apply andb_prop in I. destruct I as [_ I]. apply N.ltb_lt in I. cbn [as_uint].
      assert (2 ^ size <= 2 ^ 7) by (apply N.pow_le_mono_r; lia). change (2 ^ 7) with 128 in *.
      rewrite b2N_N2b, N.mod_small; lia.
    Qed.
    Lemma show_clean :
      (forall t f size len v, cl_val f t = true -> (f_sizeDyn f = false -> size = f_size f) ->
         has_type rname root ctx f size len t v = true -> cleanv (show_val graphic rname root ctx f t v)) /\
      (forall fs sname cfo self, cl_flds fs = true -> has_fields rname root ctx sname cfo self fs = true ->
         clean_fields (show_flds graphic rname root ctx sname cfo self fs)).
    Proof.
      assert (Q : forall f size len u l,
         (forall v, In v l -> cleanv (show_val graphic rname root ctx f u v)) ->
         (f_sizeDyn f = false -> size = f_size f) ->
         (negb (f_iso639 f) || (match u with SUint _ => true | _ => false end && negb (f_sizeDyn f) && (f_size f <=? 7) && negb (f_varint f))) = true ->
         forallb (has_type rname root ctx f size len u) l = true ->
         cleanv
          (if f_string f then Text (quoted graphic (bytes_in l))
           else if f_iso639 f then Text (lit """" ++ map (fun v => N2b (96 + as_uint (Some v))) l ++ lit """")
           else if f_uuid f then Text (uuid_text (bytes_in l)) else Items (map (show_val graphic rname root ctx f u) l))).
      { intros f size len u l E S C H. destruct (f_string f); [apply quoted_clean|].
        destruct (f_iso639 f) eqn:F.
        { cbn [negb orb] in C. apply andb_prop in C. destruct C as [C V]. apply andb_prop in C. destruct C as [C L].
          apply andb_prop in C. destruct C as [U D]. apply negb_true_iff in D. apply S in D. subst size.
          apply (letters_clean f (f_size f) len u); auto. rewrite U, L, V. reflexivity. }
        destruct (f_uuid f); [apply uuid_clean|]. apply clean_items. apply Forall_forall. intros s I.
        apply in_map_iff in I. destruct I as (v & <- & I). auto. }
      apply sty_flds_mutind.
      - intros w f size len v C S H. destruct v; try discriminate H. cbn [show_val cleanv]. unfold show_uint.
        destruct (_ || _); [|apply dec_clean]. apply clean_app; [lits|apply hex_clean].
      - intros w f size len v C S H. destruct v; try discriminate H. cbn [show_val cleanv]. unfold show_int.
        destruct (f_hex f); [|apply int_clean]. apply clean_app; [destruct (_ <? _)%Z; lits|apply hex_clean].
      - intros f size len v C S H. destruct v; try discriminate H. destruct b; cbn [show_val cleanv]; lits.
      - intros f size len v C S H. destruct v; try discriminate H. apply quoted_clean.
      - intros n u IH f size len v C S H. destruct v as [| | | |l| |]; try discriminate H.
        cbn [has_type] in H. apply andb_prop in H. destruct H as [_ H].
        cbn [cl_val] in C. apply andb_prop in C. destruct C as [C1 C2].
        cbn [show_val]. apply (Q f size len u l); auto. intros v I. rewrite forallb_forall in H. apply (IH f size len); auto.
      - intros u IH f size len v C S H. destruct v as [| | | |l| |]; try discriminate H.
        cbn [has_type] in H. apply andb_prop in H. destruct H as [_ H].
        cbn [cl_val] in C. apply andb_prop in C. destruct C as [C1 C2].
        cbn [show_val]. apply (Q f size len u l); auto. intros v I. rewrite forallb_forall in H. apply (IH f size len); auto.
      - intros u IH f size len v C S H. destruct v as [| | | | |[x|]|]; try discriminate H.
        apply (IH f size len x); assumption.
      - intros name cfo fs IH f size len v C S H. destruct v as [| | | | | |l]; try discriminate H.
        apply (proj2 (clean_record (show_flds graphic rname root ctx name cfo l fs))). apply IH; assumption.
      - intros. constructor.
      - intros f t IHt r IHr sname cfo self C H. cbn [cl_flds] in C. apply andb_prop in C. destruct C as [C C3].
        apply andb_prop in C. destruct C as [C1 C2].
        rewrite show_flds_cons. cbn [has_fields] in H. cbv zeta in *.
        destruct (owner rname root ctx cfo sname self) as [cn env] eqn:OW.
        destruct (resolve_size cn env f) as [size|] eqn:RS; [|discriminate H].
        destruct (resolve_len cn env f) as [len|]; [|discriminate H].
        apply andb_prop in H. destruct H as [H HR].
        apply Forall_app. split; [|apply IHr; assumption].
        destruct (enabled _ _ _ _ _); [|constructor]. destruct (visible f); [|constructor]. cbn [andb].
        destruct (lookup (f_name f) self) as [y|]; [|discriminate H].
        assert (V : cleanv (match own_form graphic sname (f_name f) self with
                            | Some s => Text s | None => show_val graphic rname root ctx f t y end)).
        { destruct (own_form graphic sname (f_name f) self) as [s|] eqn:O.
          - exact (own_clean _ _ _ _ O).
          - apply (IHt f size len); auto. intros D. unfold resolve_size in RS. rewrite D in RS. congruence. }
        destruct (f_extend f).
        + destruct (match own_form _ _ _ _ with Some s => _ | None => _ end) as [s|l|l]; try constructor.
          apply clean_record. exact V.
        + constructor; [|constructor]. cbn [fst snd]. split; [apply cleanb_ok, C1|exact V].
    Qed.
  End Show.
End Clean.

Lemma std_cl : forallb (fun d => cl_flds (bd_flds d)) all_defs = true.
Proof. vm_compute. reflexivity. Qed.

(** ** What is written: clean bytes, and the bytes of the indentation *)
Section Written.
  Variable indent : text.
  Definition laid_out (b : byte) : Prop := 32 <= b2N b \/ (indent <> [] /\ b2N b = 10) \/ In b indent.
  Lemma laid_clean : forall s, clean s -> Forall laid_out s.
  Proof. intros s H. eapply Forall_impl; [|exact H]. intros b L. left. exact L. Qed.
  Lemma margin_laid : forall n, Forall laid_out (margin indent n).
  Proof.
    intros n. apply Forall_forall. intros b I. unfold margin in I. apply in_concat in I. destruct I as (l & I & J).
    apply repeat_spec in I. subst l. right. right. exact J.
  Qed.
  Lemma concat_laid : forall l, Forall (Forall laid_out) l -> Forall laid_out (List.concat l).
  Proof. induction 1; [constructor|]. cbn [List.concat]. apply Forall_app. auto. Qed.
  Lemma join_laid : forall sep l, Forall laid_out sep -> Forall (Forall laid_out) l -> Forall laid_out (join sep l).
  Proof.
    intros sep l S F. destruct F as [|x l X F]; [constructor|]. cbn [join]. apply Forall_app. split; [exact X|].
    apply concat_laid. apply Forall_forall. intros t I. apply in_map_iff in I. destruct I as (y & <- & I).
    apply Forall_app. split; [exact S|]. rewrite Forall_forall in F. auto.
  Qed.
  Lemma newline_laid : Forall laid_out (if oneline indent then [] else [N2b 10]).
  Proof.
    unfold oneline. destruct indent eqn:E; [constructor|]. constructor; [|constructor].
    right. left. split; [rewrite E; discriminate|reflexivity].
  Qed.
  Lemma lines_laid : forall depth items, Forall (Forall laid_out) items -> Forall laid_out (lines indent depth items).
  Proof.
    intros depth items F. unfold lines. pose proof newline_laid as NL. destruct (oneline indent).
    - apply join_laid; [apply laid_clean; lits|exact F].
    - apply concat_laid. apply Forall_forall. intros t I. apply in_map_iff in I. destruct I as (y & <- & I).
      apply Forall_app. split; [apply margin_laid|]. apply Forall_app. split; [|exact NL].
      rewrite Forall_forall in F. auto.
  Qed.
  Fixpoint write_laid (v : shown) : forall depth, cleanv v -> Forall laid_out (write indent depth v).
  Proof.
    destruct v as [s|l|l]; intros depth H.
    - apply laid_clean, H.
    - cbn [write]. apply Forall_app. split; [apply laid_clean; lits|]. apply Forall_app. split; [apply newline_laid|].
      apply Forall_app. split.
      + apply lines_laid. cbn [cleanv] in H. revert H. induction l as [|[n v] l IH]; intros H; [constructor|].
        cbn [fold_right map fst snd] in *. destruct H as [[H1 H2] H3]. constructor; [|apply IH, H3].
        apply Forall_app. split; [apply laid_clean, H1|]. apply Forall_app. split; [apply laid_clean; lits|].
        apply write_laid, H2.
      + apply Forall_app. split; [destruct (oneline indent); [constructor|apply margin_laid]|apply laid_clean; lits].
    - cbn [write]. apply Forall_app. split; [apply laid_clean; lits|]. apply Forall_app. split; [|apply laid_clean; lits].
      apply join_laid; [apply laid_clean; lits|]. cbn [cleanv] in H. revert H. induction l as [|v l IH]; intros H; [constructor|].
      cbn [fold_right map] in *. destruct H as [H1 H2]. constructor; [apply write_laid, H1|apply IH, H2].
  Qed.
  Lemma fields_laid : forall depth l, clean_fields l -> Forall laid_out (write_fields indent depth l).
  Proof.
    intros depth l F. unfold write_fields. apply lines_laid. apply Forall_forall. intros t I.
    apply in_map_iff in I. destruct I as ([n v] & <- & I). unfold clean_fields in F. rewrite Forall_forall in F.
    destruct (F _ I) as [H1 H2]. cbn [fst snd] in *.
    apply Forall_app. split; [apply laid_clean, H1|]. apply Forall_app. split; [apply laid_clean; lits|].
    apply write_laid, H2.
  Qed.
End Written.

Lemma box_text_laid : forall graphic indent ctx t d x, (forall r, r < 32 -> graphic r = false) ->
  get_box_def std_registry t ctx = Some d -> complete_box ctx d x = true ->
  Forall (laid_out indent) (box_text graphic indent ctx d x).
Proof.
  intros graphic indent ctx t d x G D H. pose proof (all_defs_check _ _ _ _ _ eq_refl std_cl D) as C. cbv beta in C.
  clear D. unfold box_text. apply fields_laid. apply (proj2 (show_clean graphic G (bd_name d) x ctx)); assumption.
Qed.
