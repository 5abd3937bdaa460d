(** C18: struct tags and the order of the fields. *)
From Coq Require Import Sorted Permutation.
From Verif Require Import Base BaseProofs Schema Structs SpecFields.
Local Open Scope string_scope.
Local Open Scope list_scope.
Local Open Scope N_scope.

(** ** sorting *)
Definition by_order (x y : finfo * sty) : Prop := (f_order (fst x) <= f_order (fst y))%Z.
Definition of_order (z : Z) (x : finfo * sty) : bool := (f_order (fst x) =? z)%Z.
Lemma fins_perm : forall f t l, Permutation ((f, t) :: listed l) (listed (fins f t l)).
Proof.
  induction l as [|f' t' r IH]; [reflexivity|]. cbn [fins listed]. destruct (_ <=? _)%Z; cbn [listed]; [reflexivity|].
  rewrite perm_swap. now constructor.
Qed.
Lemma fins_sorted : forall f t l, StronglySorted by_order (listed l) -> StronglySorted by_order (listed (fins f t l)).
Proof.
  induction l as [|f' t' r IH]; intros H; [repeat constructor|]. cbn [fins]. cbn [listed] in H. inversion H as [|? ? H1 H2]; subst.
  destruct (Z.leb_spec (f_order f) (f_order f')) as [L|L].
  - cbn [listed]. constructor; [exact H|]. constructor; [exact L|]. eapply Forall_impl; [|exact H2]. unfold by_order. cbn. lia.
  - cbn [listed]. constructor; [apply IH, H1|]. eapply Permutation_Forall; [apply fins_perm|]. constructor; [unfold by_order; cbn; lia|exact H2].
Qed.
Lemma fins_stable : forall z f t l, StronglySorted by_order (listed l) ->
  filter (of_order z) (listed (fins f t l)) = filter (of_order z) ((f, t) :: listed l).
Proof.
  induction l as [|f' t' r IH]; intros H; [reflexivity|]. cbn [fins]. cbn [listed] in H. inversion H as [|? ? H1 H2]; subst.
  destruct (Z.leb_spec (f_order f) (f_order f')) as [L|L]; [reflexivity|].
  cbn [listed filter]. rewrite IH by exact H1. cbn [filter]. unfold of_order. cbn [fst].
  destruct (Z.eqb_spec (f_order f') z), (Z.eqb_spec (f_order f) z); try reflexivity. lia.
Qed.

(** C18, order.  The fields of a compiled struct are the tagged fields, each
    compiled from its own tag and type, in increasing order; those of equal
    order stay in declaration order. *)
Theorem C18_field_order : forall fs l, compile_flds fs = Some l ->
  exists built,
    Forall2 (fun src f => build_field (fst (fst src)) (snd (fst src)) = Some (fst f) /\ compile (snd src) = Some (snd f))
            (tagged fs) built /\
    Permutation built (listed l) /\
    StronglySorted by_order (listed l) /\
    forall z, filter (of_order z) (listed l) = filter (of_order z) built.
Proof.
  induction fs as [|e n t tag r IH]; intros l H; cbn [compile_flds] in H.
  - injection H as <-. exists []. repeat split; constructor.
  - destruct (compile_flds r) as [l0|]; [|discriminate]. destruct (IH l0 eq_refl) as (built & A & B & C & D).
    destruct tag as [tg|]; [|injection H as <-; exists built; auto].
    destruct (build_field n tg) as [f|] eqn:E1; [|discriminate]. destruct (compile t) as [s|] eqn:E2; [|discriminate].
    injection H as <-. exists ((f, s) :: built). cbn [tagged]. split; [constructor; auto|]. split.
    { rewrite <- fins_perm. now constructor. }
    split; [apply fins_sorted, C|]. intros z. rewrite fins_stable by exact C. cbn [filter]. rewrite D. reflexivity.
Qed.
Print Assumptions C18_field_order.

(** ** tags *)
Local Notation chars := list_ascii_of_string.
Lemma chars_app : forall a b, chars (a ++ b)%string = chars a ++ chars b.
Proof. induction a as [|x a IH]; intros b; [reflexivity|]. cbn. now rewrite IH. Qed.
Lemma chars_inj : forall a b, chars a = chars b -> a = b.
Proof. intros a b H. rewrite <- (string_of_list_ascii_of_string a), H. apply string_of_list_ascii_of_string. Qed.
Lemma app_s_nil : forall a, (a ++ "")%string = a.
Proof. induction a as [|x a IH]; [reflexivity|]. cbn. now rewrite IH. Qed.
Lemma app_s_assoc : forall a b c, ((a ++ b) ++ c)%string = (a ++ b ++ c)%string.
Proof. induction a as [|x a IH]; intros; [reflexivity|]. cbn. now rewrite IH. Qed.

Lemma split_free : forall c s, free_of c s -> str_split c s = [s].
Proof.
  induction s as [|x s IH]; intros H; [reflexivity|]. cbn. unfold free_of in *. cbn in H.
  destruct (Ascii.eqb_spec x c) as [E|E]; [tauto|]. rewrite IH by tauto. reflexivity.
Qed.
Lemma split_cons : forall c s r, free_of c s -> str_split c (s ++ String c r)%string = s :: str_split c r.
Proof.
  induction s as [|x s IH]; intros r H; cbn.
  - now rewrite Ascii.eqb_refl.
  - unfold free_of in *. cbn in H. destruct (Ascii.eqb_spec x c) as [E|E]; [tauto|]. rewrite IH by tauto. reflexivity.
Qed.
Lemma split_items : forall tag items, items_of tag items -> str_split "," tag = items.
Proof.
  intros tag items (N & F & ->). induction items as [|e r IH]; [congruence|]. inversion F as [|? ? F1 F2]; subst.
  destruct r as [|e2 r]; [now apply split_free|].
  change (String.concat "," (e :: e2 :: r)) with (e ++ String "," (String.concat "," (e2 :: r)))%string.
  rewrite split_cons by exact F1. f_equal. apply IH; [discriminate|exact F2].
Qed.
Lemma cut_free : forall c s, free_of c s -> str_cut c s = (s, None).
Proof.
  induction s as [|x s IH]; intros H; [reflexivity|]. cbn. unfold free_of in *. cbn in H.
  destruct (Ascii.eqb_spec x c) as [E|E]; [tauto|]. rewrite IH by tauto. reflexivity.
Qed.
Lemma cut_at : forall c s r, free_of c s -> str_cut c (s ++ String c r)%string = (s, Some r).
Proof.
  induction s as [|x s IH]; intros r H; cbn.
  - now rewrite Ascii.eqb_refl.
  - unfold free_of in *. cbn in H. destruct (Ascii.eqb_spec x c) as [E|E]; [tauto|]. rewrite IH by tauto. reflexivity.
Qed.

Lemma rev_acc_chars : forall s acc, chars (str_rev_acc s acc) = rev (chars s) ++ chars acc.
Proof. induction s as [|x s IH]; intros acc; [reflexivity|]. cbn. rewrite IH. cbn. now rewrite <- app_assoc. Qed.
Lemma rev_chars : forall s, chars (str_rev s) = rev (chars s).
Proof. intros. unfold str_rev. rewrite rev_acc_chars. apply app_nil_r. Qed.
Lemma rev_app_s : forall a b, str_rev (a ++ b) = (str_rev b ++ str_rev a)%string.
Proof. intros. apply chars_inj. rewrite rev_chars, !chars_app, !rev_chars. apply rev_app_distr. Qed.
Lemma rev_rev_s : forall a, str_rev (str_rev a) = a.
Proof. intros. apply chars_inj. rewrite !rev_chars. apply rev_involutive. Qed.
Lemma blanks_rev : forall b, blanks b -> blanks (str_rev b).
Proof. intros b H. unfold blanks. rewrite rev_chars. now apply Forall_rev. Qed.
Lemma ltrim_blanks : forall b s, blanks b -> str_ltrim (b ++ s) = str_ltrim s.
Proof.
  induction b as [|x b IH]; intros s H; [reflexivity|]. inversion H; subst. cbn. now apply IH.
Qed.
Lemma ltrim_id : forall s, (forall x, s <> " " ++ x)%string -> str_ltrim s = s.
Proof.
  intros [|c s] H; [reflexivity|]. destruct (ascii_dec c " ") as [->|E]; [exfalso; now apply (H s)|].
  cbn. destruct c as [[] [] [] [] [] [] [] []]; try reflexivity. congruence.
Qed.
Lemma trim_item : forall b1 k b2, blanks b1 -> blanks b2 -> trimmed k -> str_trim (b1 ++ k ++ b2) = k.
Proof.
  intros b1 k b2 H1 H2 T. unfold str_trim. rewrite ltrim_blanks by exact H1.
  destruct k as [|c k].
  { cbn [append]. rewrite <- (app_s_nil b2), ltrim_blanks by exact H2. reflexivity. }
  set (q := String c k) in *.
  rewrite (ltrim_id (q ++ b2)).
  - rewrite rev_app_s, ltrim_blanks by (apply blanks_rev, H2). rewrite ltrim_id; [apply rev_rev_s|].
    intros x E. apply (f_equal str_rev) in E. rewrite rev_rev_s, rev_app_s in E. exact (proj2 (T (str_rev x)) E).
  - intros x E. unfold q in E. injection E as -> E. exact (proj1 (T k) eq_refl).
Qed.

Definition kv (e : string) : string * string :=
  match str_cut "=" e with
  | (k, Some v) => (str_trim k, str_trim v)
  | (k, None) => (str_trim k, EmptyString)
  end.
Lemma blanks_free : forall b, blanks b -> free_of "=" b.
Proof. intros b H I. unfold blanks in H. rewrite Forall_forall in H. now apply H in I. Qed.
Lemma free_app : forall c a b, free_of c a -> free_of c b -> free_of c (a ++ b).
Proof. intros c a b H1 H2 I. rewrite chars_app in I. apply in_app_or in I. now destruct I. Qed.
Lemma kv_item : forall e k v, item e k v -> kv e = (k, v).
Proof.
  intros e k v (Tk & Tv & b1 & b2 & B1 & B2 & F & [[-> ->]|(b3 & b4 & B3 & B4 & ->)]); unfold kv.
  - rewrite cut_free, trim_item; auto using blanks_free, free_app.
  - replace (b1 ++ k ++ b2 ++ "=" ++ b3 ++ v ++ b4)%string with ((b1 ++ k ++ b2) ++ String "=" (b3 ++ v ++ b4))%string
      by now rewrite !app_s_assoc.
    rewrite cut_at by auto using blanks_free, free_app.
    rewrite !trim_item; auto.
Qed.
(** every item has a reading *)
Lemma ltrim_split : forall s, exists b, blanks b /\ s = (b ++ str_ltrim s)%string /\ forall x, (str_ltrim s <> " " ++ x)%string.
Proof.
  induction s as [|c s IH].
  - exists "". repeat split; [constructor|discriminate].
  - destruct (ascii_dec c " ") as [->|E].
    + destruct IH as (b & B & E1 & E2). exists (String " " b). split; [constructor; auto|]. cbn [str_ltrim append]. split; [now f_equal|exact E2].
    + exists "". assert (X : str_ltrim (String c s) = String c s).
      { apply ltrim_id. intros x E2. injection E2 as -> _. auto. }
      rewrite X. repeat split; [constructor|]. intros x E2. injection E2 as -> _. auto.
Qed.
Lemma trim_split : forall s, exists b1 b2, blanks b1 /\ blanks b2 /\ s = (b1 ++ str_trim s ++ b2)%string /\ trimmed (str_trim s).
Proof.
  intros s. unfold str_trim. destruct (ltrim_split s) as (b1 & B1 & E1 & N1).
  destruct (ltrim_split (str_rev (str_ltrim s))) as (b2 & B2 & E2 & N2).
  set (m := str_ltrim (str_rev (str_ltrim s))) in *. exists b1, (str_rev b2).
  assert (E3 : str_ltrim s = (str_rev m ++ str_rev b2)%string).
  { apply (f_equal str_rev) in E2. rewrite rev_rev_s, rev_app_s in E2. exact E2. }
  split; [exact B1|]. split; [apply blanks_rev, B2|]. split; [now rewrite <- E3|].
  intros x. split; intros E.
  - apply (N1 (x ++ str_rev b2)%string). rewrite E3, E. reflexivity.
  - apply (N2 (str_rev x)). apply (f_equal str_rev) in E. rewrite rev_rev_s, rev_app_s in E. exact E.
Qed.
Lemma cut_cases : forall c s, match str_cut c s with
  | (k, Some v) => free_of c k /\ s = (k ++ String c v)%string
  | (k, None) => free_of c s /\ k = s end.
Proof.
  induction s as [|x s IH]; cbn; [split; [intros []|reflexivity]|].
  destruct (Ascii.eqb_spec x c) as [->|E]; [split; [intros []|reflexivity]|].
  destruct (str_cut c s) as [k [v|]]; destruct IH as [A B].
  - split; [|now rewrite B]. intros [I|I]; [congruence|auto].
  - split; [|now rewrite B]. intros [I|I]; [congruence|auto].
Qed.
Lemma free_sub : forall c a b, free_of c (a ++ b) -> free_of c a /\ free_of c b.
Proof. intros c a b H. split; intros I; apply H; rewrite chars_app; apply in_or_app; auto. Qed.
Lemma item_kv : forall e, item e (fst (kv e)) (snd (kv e)).
Proof.
  intros e. unfold kv. pose proof (cut_cases "=" e) as C. destruct (str_cut "=" e) as [k [v|]]; destruct C as [A B]; cbn [fst snd].
  - destruct (trim_split k) as (b1 & b2 & B1 & B2 & E & T). destruct (trim_split v) as (b3 & b4 & B3 & B4 & E' & T').
    split; [exact T|]. split; [exact T'|]. exists b1, b2. repeat split; auto.
    + rewrite E in A. apply free_sub in A. destruct A as [_ A]. apply free_sub in A. tauto.
    + right. exists b3, b4. repeat split; auto. rewrite B, E at 1. rewrite E' at 1. cbn [append]. now rewrite !app_s_assoc.
  - subst k. destruct (trim_split e) as (b1 & b2 & B1 & B2 & E & T).
    split; [exact T|]. split; [intros x; split; [discriminate|destruct x; discriminate]|]. exists b1, b2. repeat split; auto.
    rewrite E in A. apply free_sub in A. destruct A as [_ A]. apply free_sub in A. tauto.
Qed.

Lemma parse_items : forall tag items, items_of tag items -> parse_field_tag tag = rev (map kv items).
Proof. intros tag items H. unfold parse_field_tag. rewrite (split_items _ _ H). reflexivity. Qed.
Lemma tag_get_app : forall k a b, tag_get k (a ++ b) = match tag_get k a with Some v => Some v | None => tag_get k b end.
Proof. induction a as [|[k' v] a IH]; intros b; [reflexivity|]. cbn. destruct (String.eqb k k'); auto. Qed.
Lemma tag_get_none : forall k m, (forall v, ~ In (k, v) m) -> tag_get k m = None.
Proof.
  induction m as [|[k' v] m IH]; intros H; [reflexivity|]. cbn. destruct (String.eqb_spec k k') as [->|E].
  - exfalso. apply (H v). now left.
  - apply IH. intros v' I. apply (H v'). now right.
Qed.
Lemma tag_says : forall tag items k v, items_of tag items -> (says items k v <-> tag_get k (parse_field_tag tag) = Some v).
Proof.
  intros tag items k v H. rewrite (parse_items _ _ H). clear H. split.
  - intros (a & e & b & -> & I & L). rewrite map_app, rev_app_distr. cbn [map rev]. rewrite tag_get_app, tag_get_app.
    rewrite tag_get_none.
    + cbn. rewrite (kv_item _ _ _ I). now rewrite String.eqb_refl.
    + intros v' In1. rewrite <- in_rev in In1. apply in_map_iff in In1. destruct In1 as (e' & E & In2).
      apply (L e' v' In2). pose proof (item_kv e') as I'. rewrite E in I'. exact I'.
  - induction items as [|e r IH] using rev_ind; [discriminate|]. rewrite map_app, rev_app_distr. cbn [map rev app tag_get].
    destruct (kv e) as [k' v'] eqn:E. pose proof (item_kv e) as I. rewrite E in I. cbn [fst snd] in I.
    destruct (String.eqb_spec k k') as [->|N].
    + intros [= <-]. exists r, e, []. split; [reflexivity|]. split; [exact I|]. intros e' v2 [].
    + intros G. destruct (IH G) as (a & e0 & b & -> & I0 & L). exists a, e0, (b ++ [e]). rewrite <- app_assoc. split; [reflexivity|].
      split; [exact I0|]. intros e' v2 In1. apply in_app_or in In1. destruct In1 as [In1|[<-|[]]]; [eauto|].
      intros I2. apply kv_item in I2. congruence.
Qed.

(** numerals *)
Lemma digit_fits : forall d base, d < base -> base <= 16 -> exists c, digit d = String c "" /\ digit_val base c = Some d.
Proof.
  intros d base H B. assert (d < 16) by lia.
  assert (X : exists c, digit d = String c "" /\ digit_val 16 c = Some d).
  { assert (Y : d = 0 \/ d = 1 \/ d = 2 \/ d = 3 \/ d = 4 \/ d = 5 \/ d = 6 \/ d = 7 \/ d = 8 \/ d = 9 \/ d = 10 \/ d = 11 \/ d = 12 \/ d = 13 \/ d = 14 \/ d = 15) by lia.
    decompose [or] Y; subst; eexists; split; reflexivity. }
  destruct X as (c & E & V). exists c. split; [exact E|]. unfold digit_val in *.
  destruct (if (48 <=? N_of_ascii c) && _ then _ else _) as [m|]; [|discriminate].
  destruct (m <? 16); [|discriminate]. injection V as ->. now destruct (N.ltb_spec d base); [|lia].
Qed.
Lemma digits_spell : forall base ds acc, base <= 16 -> Forall (fun d => d < base) ds ->
  digits_val base acc (spell ds) = Some (fold_left (fun a d => base * a + d) ds acc).
Proof.
  induction ds as [|d r IH]; intros acc B F; [reflexivity|]. inversion F; subst.
  destruct (digit_fits d base ltac:(assumption) B) as (c & E & V). cbn [spell]. rewrite E. cbn [append digits_val]. rewrite V.
  now apply IH.
Qed.
Lemma spell_cons : forall ds, ds <> [] -> Forall (fun d => d < 16) ds -> exists c r, spell ds = String c r /\ digit_val 16 c <> None.
Proof.
  intros [|d ds] N F; [congruence|]. inversion F; subst. destruct (digit_fits d 16 ltac:(assumption) ltac:(lia)) as (c & E & V).
  exists c, (spell ds). cbn [spell]. rewrite E. split; [reflexivity|congruence].
Qed.
Lemma numeral_val : forall base s n, base <= 16 -> numeral base s n ->
  digits_val base 0 s = Some n /\ exists c r, s = String c r /\ digit_val 16 c <> None.
Proof.
  intros base s n B (ds & N & F & -> & ->). split; [now apply digits_spell|]. apply spell_cons; [exact N|].
  eapply Forall_impl; [|exact F]. cbn. lia.
Qed.
Lemma digit10 : forall c d, digit_val 10 c = Some d -> d < 10 /\ digit d = String c "".
Proof.
  intros c d. destruct c as [[] [] [] [] [] [] [] []]; intros H; vm_compute in H; try discriminate; injection H as <-; split; reflexivity.
Qed.
Lemma digits_numeral : forall s acc n, digits_val 10 acc s = Some n ->
  exists ds, Forall (fun d => d < 10) ds /\ s = spell ds /\ n = fold_left (fun a d => 10 * a + d) ds acc.
Proof.
  induction s as [|c s IH]; intros acc n H.
  - injection H as <-. exists []. repeat split; constructor.
  - cbn [digits_val] in H. destruct (digit_val 10 c) as [d|] eqn:E; [|discriminate]. apply digit10 in E. destruct E as [L E].
    destruct (IH _ _ H) as (ds & F & -> & ->). exists (d :: ds). split; [constructor; auto|]. cbn [spell fold_left]. rewrite E. split; reflexivity.
Qed.
Lemma parse_numeral : forall base s n, base <= 16 -> numeral base s n -> n < 2 ^ 32 -> parse_uint32 base s = Some n.
Proof.
  intros base s n B H L. destruct (numeral_val _ _ _ B H) as (V & c & r & -> & _). unfold parse_uint32. rewrite V.
  change (2 ^ 32) with W32 in L. apply N.ltb_lt in L. now rewrite L.
Qed.
Lemma atoi_numeral : forall s n, numeral 10 s n -> n < 2 ^ 63 -> atoi s = Some (Z.of_N n).
Proof.
  intros s n H L. destruct (numeral_val 10 s n ltac:(lia) H) as (V & c & r & -> & D). unfold atoi.
  change (2 ^ 63) with 9223372036854775808 in L. apply N.ltb_lt in L.
  destruct c as [[] [] [] [] [] [] [] []]; try (rewrite V, L; reflexivity); exfalso; apply D; reflexivity.
Qed.
Lemma atoi_number : forall s z, number s z -> (- 2 ^ 63 <= z < 2 ^ 63)%Z -> atoi s = Some z.
Proof.
  intros s z (n & [[H ->]|(t & H & [[-> ->]|[-> ->]])]) B.
  - apply atoi_numeral; [exact H|]. change (2 ^ 63) with 9223372036854775808. lia.
  - destruct (numeral_val 10 t n ltac:(lia) H) as (V & c & r & -> & _). unfold atoi. rewrite V.
    destruct (N.ltb_spec n 9223372036854775808) as [L|L]; [reflexivity|lia].
  - destruct (numeral_val 10 t n ltac:(lia) H) as (V & c & r & -> & _). unfold atoi. rewrite V.
    destruct (N.leb_spec n 9223372036854775808) as [L|L]; [reflexivity|lia].
Qed.
Lemma number_atoi : forall s z, atoi s = Some z -> number s z.
Proof.
  assert (P : forall t n, match t with "" => None | _ => digits_val 10 0 t end = Some n -> numeral 10 t n).
  { intros t n H. destruct t as [|c t]; [discriminate|]. destruct (digits_numeral _ _ _ H) as (ds & F & E & V).
    exists ds. repeat split; auto. intros ->. discriminate. }
  intros s z H. unfold atoi in H.
  destruct s as [|c s]; [discriminate|].
  destruct (ascii_dec c "+") as [->|NP]; [|destruct (ascii_dec c "-") as [->|NM]].
  - destruct (match s with "" => None | _ => digits_val 10 0 s end) as [n|] eqn:E; [|discriminate].
    destruct (n <? _); [|discriminate]. injection H as <-. exists n. right. exists s. split; [now apply P|now left].
  - destruct (match s with "" => None | _ => digits_val 10 0 s end) as [n|] eqn:E; [|discriminate].
    destruct (n <=? _); [|discriminate]. injection H as <-. exists n. right. exists s. split; [now apply P|now right].
  - assert (H2 : match digits_val 10 0 (String c s) with Some n => if n <? 9223372036854775808 then Some (Z.of_N n) else None | None => None end = Some z).
    { destruct c as [[] [] [] [] [] [] [] []]; try exact H; congruence. }
    destruct (digits_val 10 0 (String c s)) as [n|] eqn:E; [|discriminate]. destruct (n <? _); [|discriminate]. injection H2 as <-.
    exists n. left. split; [|reflexivity]. apply P. exact E.
Qed.

Lemma order_skip : forall l m, (forall e z, In e l -> atoi (fst (kv e)) <> Some z) -> tag_order (map kv l ++ m) = tag_order m.
Proof.
  induction l as [|e l IH]; intros m H; [reflexivity|]. cbn [map app tag_order].
  pose proof (H e) as He. destruct (kv e) as [k v]. cbn [fst] in He.
  assert (R : tag_order (map kv l ++ m) = tag_order m) by (apply IH; intros; apply H; now right).
  destruct v; [|exact R]. destruct (atoi k) as [z|]; [exfalso; apply (He z); auto; now left|exact R].
Qed.
Lemma ranked_order : forall tag items z, items_of tag items -> ranked items z -> (- 2 ^ 63 <= z < 2 ^ 63)%Z ->
  tag_order (rev (parse_field_tag tag)) = z.
Proof.
  intros tag items z H (a & e & b & k & E & I & N & U) B. rewrite (parse_items _ _ H), rev_involutive, E, map_app.
  rewrite order_skip.
  - cbn [map tag_order]. rewrite (kv_item _ _ _ I), (atoi_number _ _ N B). reflexivity.
  - intros e' z' In1 A. apply number_atoi in A. apply (U e' (fst (kv e')) (snd (kv e')) z'); auto using item_kv. apply in_or_app. now left.
Qed.

(** C18, tags.  What the descriptor of a field holds is what its tag says. *)
Theorem C18_tags : forall name tag items f, items_of tag items -> build_field name tag = Some f ->
  f_name f = name /\
  (forall z, ranked items z -> (- 2 ^ 63 <= z < 2 ^ 63)%Z -> f_order f = z) /\
  (* size and length: a decimal number, or the word dynamic; without a length, no limit *)
  (forall s n, says items "size" s -> numeral 10 s n -> n < 2 ^ 32 -> f_size f = n /\ f_sizeDyn f = false) /\
  (says items "size" "dynamic" -> f_sizeDyn f = true) /\
  (forall s n, says items "len" s -> numeral 10 s n -> n < 2 ^ 32 -> f_length f = n /\ f_lenDyn f = false) /\
  (says items "len" "dynamic" -> f_lenDyn f = true) /\
  ((forall s, ~ says items "len" s) -> f_length f = 2 ^ 32 - 1 /\ f_lenDyn f = false) /\
  (* versions *)
  (forall s n, says items "ver" s -> numeral 10 s n -> n <= 255 -> f_version f = n) /\
  ((forall s, ~ says items "ver" s) -> f_version f = 255) /\
  (forall s n, says items "nver" s -> numeral 10 s n -> n <= 255 -> f_nVersion f = n) /\
  ((forall s, ~ says items "nver" s) -> f_nVersion f = 255) /\
  (* flags: a decimal number, 0x and a hexadecimal number, or (opt only) the word dynamic *)
  (forall s n, says items "opt" ("0x" ++ s)%string -> numeral 16 s n -> n < 2 ^ 32 -> f_optFlag f = n /\ f_optDyn f = false) /\
  (says items "opt" "dynamic" -> f_optFlag f = 0 /\ f_optDyn f = true) /\
  ((forall s, ~ says items "opt" s) -> f_optFlag f = 0 /\ f_optDyn f = false) /\
  (forall s n, says items "nopt" ("0x" ++ s)%string -> numeral 16 s n -> n < 2 ^ 32 -> f_nOptFlag f = n) /\
  ((forall s, ~ says items "nopt" s) -> f_nOptFlag f = 0) /\
  (* constant *)
  (forall s, says items "const" s -> f_cnst f = s) /\
  ((forall s, ~ says items "const" s) -> f_cnst f = "") /\
  (* words *)
  (f_string f = true <-> exists s, says items "string" s) /\
  (f_cp f = true <-> says items "string" "c_p") /\
  (f_boxString f = true <-> exists s, says items "boxstring" s) /\
  (f_varint f = true <-> exists s, says items "varint" s) /\
  (f_extend f = true <-> exists s, says items "extend" s) /\
  (f_dec f = true <-> exists s, says items "dec" s) /\
  (f_hex f = true <-> exists s, says items "hex" s) /\
  (f_iso639 f = true <-> exists s, says items "iso639-2" s) /\
  (f_uuid f = true <-> exists s, says items "uuid" s) /\
  (f_hidden f = true <-> exists s, says items "hidden" s).
Proof.
  intros name tag items f H B.
  assert (S : forall k v, says items k v -> tag_get k (parse_field_tag tag) = Some v) by (intros; now apply (tag_says tag items)).
  assert (NS : forall k, (forall v, ~ says items k v) -> tag_get k (parse_field_tag tag) = None).
  { intros k N. destruct (tag_get k (parse_field_tag tag)) as [v|] eqn:E; [|reflexivity]. exfalso. apply (N v). now apply (tag_says tag items). }
  assert (W : forall k, tag_has k (parse_field_tag tag) = true <-> exists s, says items k s).
  { intros k. unfold tag_has. split.
    - destruct (tag_get k (parse_field_tag tag)) as [v|] eqn:E; [|discriminate]. intros _. exists v. now apply (tag_says tag items).
    - intros [s X]. now rewrite (S _ _ X). }
  assert (DD : forall s n, numeral 10 s n -> String.eqb s "dynamic" = false).
  { intros s n X. destruct (String.eqb_spec s "dynamic") as [->|]; [|reflexivity].
    destruct (numeral_val 10 _ _ ltac:(lia) X) as [V _]. discriminate V. }
  assert (VV : forall k s n w, tag_ver_value (tag_get k (parse_field_tag tag)) = Some w -> says items k s -> numeral 10 s n -> n <= 255 -> w = n).
  { intros k s n w E X Y L. rewrite (S _ _ X) in E. cbn [tag_ver_value] in E. rewrite (atoi_numeral _ _ Y) in E.
    - destruct (Z.leb_spec (Z.of_N n) 255) as [_|Q]; [|lia]. injection E as <-. unfold ofZ. change (Z.of_N (2 ^ 8)) with 256%Z. rewrite Z.mod_small by lia. lia.
    - change (2 ^ 63) with 9223372036854775808. lia. }
  assert (OO : forall s n, numeral 16 s n -> n < 2 ^ 32 -> tag_opt_value (Some ("0x" ++ s)%string) = Some n).
  { intros s n Y L. cbn [append tag_opt_value]. apply parse_numeral; [lia|exact Y|exact L]. }
  unfold build_field in B. set (m := parse_field_tag tag) in *.
  destruct (if is_dyn (tag_get "opt" m) then Some 0 else tag_opt_value (tag_get "opt" m)) as [optv|] eqn:E1; cbn [obind] in B; [|discriminate].
  destruct (tag_opt_value (tag_get "nopt" m)) as [noptv|] eqn:E2; cbn [obind] in B; [|discriminate].
  destruct (tag_ver_value (tag_get "ver" m)) as [ver|] eqn:E3; cbn [obind] in B; [|discriminate].
  destruct (tag_ver_value (tag_get "nver" m)) as [nver|] eqn:E4; cbn [obind] in B; [|discriminate].
  destruct (match tag_get "size" m with None => Some 0 | Some v => if is_dyn (tag_get "size" m) then Some 0 else parse_uint32 10 v end) as [sizev|] eqn:E5; cbn [obind] in B; [|discriminate].
  destruct (match tag_get "len" m with None => Some LengthUnlimited | Some v => if is_dyn (tag_get "len" m) then Some LengthUnlimited else parse_uint32 10 v end) as [lenv|] eqn:E6; cbn [obind] in B; [|discriminate].
  injection B as <-.
  cbn [f_name f_cnst f_order f_optFlag f_nOptFlag f_size f_length f_version f_nVersion f_string f_extend f_dec f_hex f_iso639 f_uuid f_hidden f_optDyn f_varint f_sizeDyn f_lenDyn f_boxString f_cp].
  split; [reflexivity|].
  split. { intros z. now apply ranked_order. }
  split. { intros s n X Y L. rewrite (S _ _ X) in *. cbn [is_dyn] in *. rewrite (DD _ _ Y) in *.
    rewrite (parse_numeral 10 s n ltac:(lia) Y L) in E5. split; congruence. }
  split. { intros X. now rewrite (S _ _ X). }
  split. { intros s n X Y L. rewrite (S _ _ X) in *. cbn [is_dyn] in *. rewrite (DD _ _ Y) in *.
    rewrite (parse_numeral 10 s n ltac:(lia) Y L) in E6. split; congruence. }
  split. { intros X. now rewrite (S _ _ X). }
  split. { intros X. rewrite (NS _ X) in *. split; [injection E6 as <-|]; reflexivity. }
  split. { intros s n. apply VV. exact E3. }
  split. { intros X. rewrite (NS _ X) in *. injection E3 as <-. reflexivity. }
  split. { intros s n. apply VV. exact E4. }
  split. { intros X. rewrite (NS _ X) in *. injection E4 as <-. reflexivity. }
  split. { intros s n X Y L. rewrite (S _ _ X) in *. assert (Q : Some optv = Some n) by exact (eq_trans (eq_sym E1) (OO _ _ Y L)).
    split; [congruence|reflexivity]. }
  split. { intros X. rewrite (S _ _ X) in *. cbn in E1. split; [congruence|reflexivity]. }
  split. { intros X. rewrite (NS _ X) in *. cbn in E1. split; [congruence|reflexivity]. }
  split. { intros s n X Y L. rewrite (S _ _ X) in *. assert (Q : Some noptv = Some n) by exact (eq_trans (eq_sym E2) (OO _ _ Y L)). congruence. }
  split. { intros X. rewrite (NS _ X) in *. cbn in E2. congruence. }
  split. { intros s X. now rewrite (S _ _ X). }
  split. { intros X. now rewrite (NS _ X). }
  split. { apply W. }
  split. { split.
    - destruct (tag_get "string" m) as [v|] eqn:E; [|discriminate]. intros Q. apply String.eqb_eq in Q. subst v. now apply (tag_says tag items).
    - intros X. now rewrite (S _ _ X). }
  repeat split; try apply W.
Qed.
Print Assumptions C18_tags.

Example C18_case :
  items_of "3,size=8, ver=1,opt=0x00c0 ,hidden" ["3"; "size=8"; " ver=1"; "opt=0x00c0 "; "hidden"] /\
  ranked ["3"; "size=8"; " ver=1"; "opt=0x00c0 "; "hidden"] 3 /\
  says ["3"; "size=8"; " ver=1"; "opt=0x00c0 "; "hidden"] "opt" "0x00c0" /\
  numeral 16 "00c0" 192 /\
  match build_field "Foo" "3,size=8, ver=1,opt=0x00c0 ,hidden" with
  | Some f => (f_order f, f_size f, f_version f, f_optFlag f, f_hidden f, f_hex f) = (3%Z, 8, 1, 192, true, false)
  | None => False
  end.
Proof.
  assert (IO : items_of "3,size=8, ver=1,opt=0x00c0 ,hidden" ["3"; "size=8"; " ver=1"; "opt=0x00c0 "; "hidden"]).
  { split; [discriminate|]. split; [|reflexivity]. repeat constructor; intros I; vm_compute in I; intuition discriminate. }
  split; [exact IO|]. split.
  { exists [], "3", ["size=8"; " ver=1"; "opt=0x00c0 "; "hidden"], "3". split; [reflexivity|]. split.
    - exact (item_kv "3").
    - split; [exists 3; left; split; [exists [3]; repeat split; [discriminate|repeat constructor]|reflexivity]|].
      intros e' k' v' z' I1 I2 N.
      assert (AN : atoi k' = None).
      { apply kv_item in I2. cbn [app In] in I1. destruct I1 as [<-|[<-|[<-|[<-|[]]]]]; vm_compute in I2; injection I2 as <- <-; reflexivity. }
      destruct (Z_lt_le_dec z' (2 ^ 63)) as [A|A]; [destruct (Z_lt_le_dec z' (- 2 ^ 63)) as [B|B]|].
      + destruct N as (n & N). clear A B.
        apply kv_item in I2. cbn [app In] in I1. destruct I1 as [<-|[<-|[<-|[<-|[]]]]]; vm_compute in I2; injection I2 as <- <-;
        destruct N as [[X _]|(t & X & [[Y _]|[Y _]])]; try discriminate Y; destruct (numeral_val 10 _ _ ltac:(lia) X) as [V _]; discriminate V.
      + rewrite (atoi_number _ _ N) in AN; [discriminate|split; assumption].
      + destruct N as (n & N). clear A.
        apply kv_item in I2. cbn [app In] in I1. destruct I1 as [<-|[<-|[<-|[<-|[]]]]]; vm_compute in I2; injection I2 as <- <-;
        destruct N as [[X _]|(t & X & [[Y _]|[Y _]])]; try discriminate Y; destruct (numeral_val 10 _ _ ltac:(lia) X) as [V _]; discriminate V. }
  split; [apply (tag_says _ _ _ _ IO); reflexivity|].
  split; [exists [0; 0; 12; 0]; repeat split; [discriminate|repeat constructor]|].
  vm_compute. reflexivity.
Qed.
(** three fields with numbers 2, 1, 2 and one without a tag *)
Example C18_case_order :
  match compile_flds (GCons false "A" (GUint 8) (Some "2,size=8") (GCons false "B" (GUint 8) (Some "1,size=8")
          (GCons false "N" GString None (GCons false "C" (GUint 8) (Some "2,size=8") GNil)))) with
  | Some l => map (fun x => f_name (fst x)) (listed l) = ["B"; "A"; "C"]
  | None => False
  end.
Proof. vm_compute. reflexivity. Qed.

(** Every tag in the package carries exactly one number, so that C18 determines
    the order of every registered box.  In one of them (pcmC) two fields carry the
    same number: their order is that of the declaration. *)
Definition numbers (tag : string) : list Z :=
  flat_map (fun e => match snd (kv e), atoi (fst (kv e)) with "", Some z => [z] | _, _ => [] end) (str_split "," tag).
Fixpoint distinct (l : list Z) : bool :=
  match l with [] => true | z :: r => negb (existsb (Z.eqb z) r) && distinct r end.
Fixpoint structs (t : gty) : list gflds :=
  match t with
  | GArray _ u | GSlice u | GPtr u => structs u
  | GStruct _ fs => fs :: structs_in fs
  | _ => []
  end
with structs_in (fs : gflds) : list gflds :=
  match fs with GNil => [] | GCons _ _ t _ r => structs t ++ structs_in r end.
Definition one_each (fs : gflds) : bool := forallb (fun x => match numbers (snd (fst x)) with [_] => true | _ => false end) (tagged fs).
Definition no_repeat (fs : gflds) : bool := distinct (flat_map (fun x => numbers (snd (fst x))) (tagged fs)).
Example C18_package_tags :
  forallb (fun r => forallb one_each (structs (rg_ty r))) registrations = true /\
  map rg_type (filter (fun r => negb (forallb no_repeat (structs (rg_ty r)))) registrations) = [bytes_of_string "pcmC"].
Proof. split; vm_compute; reflexivity. Qed.
