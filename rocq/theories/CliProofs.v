(** Lemmas about the command line. *)
From Coq Require Import NArith ZArith Lia.
From Verif Require Import Base GoText BaseProofs Cli SpecCli.
Local Open Scope string_scope.
Local Open Scope list_scope.
Local Open Scope N_scope.

(** ** Digits *)
Definition value_of_char (c : byte) : option N :=
  if is_digit c then Some (b2N c - 48) else if is_letter 122 c then Some (lower c - 97 + 10) else None.
Lemma letter_cases : forall c, is_letter 122 c = true ->
  (65 <= b2N c <= 90 /\ lower c = b2N c + 32) \/ (97 <= b2N c <= 122 /\ lower c = b2N c).
Proof.
  assert (H : forall c, (if is_letter 122 c then ((65 <=? b2N c) && (b2N c <=? 90) && (lower c =? b2N c + 32)) ||
                                                  ((97 <=? b2N c) && (b2N c <=? 122) && (lower c =? b2N c)) else true) = true).
  { intros [[] [] [] [] [] [] [] []]; vm_compute; reflexivity. }
  intros c E. specialize (H c). rewrite E in H. cbv iota in H.
  apply orb_true_iff in H. destruct H as [H|H]; rewrite !andb_true_iff, !N.leb_le, N.eqb_eq in H; [left|right]; tauto.
Qed.
Lemma digit_of : forall c d, digit c d <-> is_underscore c = false /\ value_of_char c = Some d /\ d < 16.
Proof.
  intros c d. split.
  - intros H. inversion H as [k L|k L|k L]; subst.
    + assert (E : d = 0 \/ d = 1 \/ d = 2 \/ d = 3 \/ d = 4 \/ d = 5 \/ d = 6 \/ d = 7 \/ d = 8 \/ d = 9) by lia.
      decompose [or] E; subst; vm_compute; repeat split; reflexivity.
    + assert (E : d = 10 \/ d = 11 \/ d = 12 \/ d = 13 \/ d = 14 \/ d = 15) by lia.
      decompose [or] E; subst; vm_compute; repeat split; reflexivity.
    + assert (E : d = 10 \/ d = 11 \/ d = 12 \/ d = 13 \/ d = 14 \/ d = 15) by lia.
      decompose [or] E; subst; vm_compute; repeat split; reflexivity.
  - intros (_ & E & L). unfold value_of_char in E. pose proof (N2b_b2N c) as R.
    destruct (is_digit c) eqn:D.
    + injection E as <-. unfold is_digit in D. rewrite andb_true_iff, !N.leb_le in D. assert (B : b2N c = 48 + (b2N c - 48)) by lia.
      rewrite <- R at 1. rewrite B at 1. apply decimal_digit. lia.
    + destruct (is_letter 122 c) eqn:D2; [|discriminate]. injection E as <-.
      destruct (letter_cases c D2) as [[A B]|[A B]]; rewrite B in *.
      * rewrite <- R at 1. replace (b2N c) with (65 + ((b2N c + 32 - 97 + 10) - 10)) at 1 by lia. apply upper_digit. lia.
      * rewrite <- R at 1. replace (b2N c) with (97 + ((b2N c - 97 + 10) - 10)) at 1 by lia. apply lower_digit. lia.
Qed.
(** the test of underscoreOK *)
Definition bases : list N := [2; 8; 10; 16].
Lemma digit_seen : forall base c d, In base bases -> digit c d -> d < base -> is_digit c || ((base =? 16) && is_letter 102 c) = true.
Proof.
  intros base c d B H L. apply digit_of in H. destruct H as (_ & E & _). unfold value_of_char in E.
  destruct (is_digit c) eqn:D; [reflexivity|]. destruct (is_letter 122 c) eqn:D2; [|discriminate].
  assert (V : 10 <= lower c - 97 + 10 /\ lower c - 97 + 10 < base) by (injection E as <-; lia).
  assert (Bh : base = 16) by (repeat destruct B as [B|B]; subst; try lia; contradiction).
  subst. cbn [N.eqb Pos.eqb andb orb]. unfold is_letter in *. rewrite andb_true_iff, !N.leb_le in *. lia.
Qed.

Lemma parse_one : forall base c d s n, digit c d ->
  parse_digits base (c :: s) n =
  if base <=? d then None
  else if (2 ^ 64 - 1) / base + 1 <=? n then None
  else let n0 := (n * base) mod 2 ^ 64 in
       let n1 := (n0 + d) mod 2 ^ 64 in
       if n1 <? n0 then None else parse_digits base s n1.
Proof.
  intros base c d s n H. apply digit_of in H. destruct H as (U & E & _). cbn [parse_digits]. rewrite U.
  unfold value_of_char in E. rewrite E. reflexivity.
Qed.
Lemma parse_step : forall base c d s n, In base bases -> digit c d -> d < base -> n < 2 ^ 64 ->
  parse_digits base (c :: s) n = if n * base + d <? 2 ^ 64 then parse_digits base s (n * base + d) else None.
Proof.
  intros base c d s n B H L Ln. rewrite (parse_one base c d s n H). change (2 ^ 64) with 18446744073709551616 in *.
  cbv zeta. destruct (N.leb_spec base d) as [E1|E1]; [lia|].
  assert (D : base * ((18446744073709551616 - 1) / base) <= 18446744073709551615 < base * ((18446744073709551616 - 1) / base + 1)).
  { repeat destruct B as [B|B]; subst; try contradiction; vm_compute; split; discriminate || reflexivity. }
  destruct (N.leb_spec ((18446744073709551616 - 1) / base + 1) n).
  - replace (n * base + d <? 18446744073709551616) with false; [reflexivity|]. symmetry. apply N.ltb_ge. nia.
  - assert (M : n * base < 18446744073709551616) by nia. rewrite (N.mod_small _ _ M).
    destruct (N.ltb_spec (n * base + d) 18446744073709551616) as [Q|Q].
    + rewrite (N.mod_small _ _ Q). replace (n * base + d <? n * base) with false; [reflexivity|]. symmetry. apply N.ltb_ge. lia.
    + replace ((n * base + d) mod 18446744073709551616) with (n * base + d - 18446744073709551616).
      2:{ assert (W : d < 18446744073709551616) by (repeat destruct B as [B|B]; subst; lia || contradiction).
          replace (n * base + d) with ((n * base + d - 18446744073709551616) + 1 * 18446744073709551616) at 2 by lia.
          rewrite N.mod_add by discriminate. symmetry. apply N.mod_small. lia. }
      replace (_ <? n * base) with true; [reflexivity|]. symmetry. apply N.ltb_lt.
      assert (W : d < 18446744073709551616) by (repeat destruct B as [B|B]; subst; lia || contradiction). lia.
Qed.
Definition number_from (base n : N) (l : list N) : N := fold_left (fun n d => n * base + d) l n.
Lemma number_from_ge : forall base l n, 0 < base -> n <= number_from base n l.
Proof.
  intros base l. induction l as [|d l IH]; intros n B; cbn [number_from fold_left]; [lia|].
  specialize (IH (n * base + d) B). unfold number_from in IH. nia.
Qed.
Lemma base_pos : forall base, In base bases -> 0 < base.
Proof. intros base B. repeat destruct B as [B|B]; subst; lia || contradiction. Qed.

(** what is written following the notation is read *)
Lemma digits_parse : forall base s l, In base bases -> digits base s l -> forall n, n < 2 ^ 64 ->
  parse_digits base s n = if number_from base n l <? 2 ^ 64 then Some (number_from base n l) else None.
Proof.
  intros base s l B H. induction H as [c d D L|c d s l D L H IH|c d s l D L H IH]; intros n Ln.
  - rewrite (parse_step base c d [] n B D L Ln). reflexivity.
  - cbn [app]. rewrite (parse_step base c d s n B D L Ln). cbn [number_from fold_left].
    destruct (N.ltb_spec (n * base + d) (2 ^ 64)) as [Q|Q]; [exact (IH _ Q)|].
    pose proof (number_from_ge base l (n * base + d) (base_pos base B)) as G. unfold number_from in G.
    destruct (N.ltb_spec (fold_left (fun n d => n * base + d) l (n * base + d)) (2 ^ 64)); [lia|reflexivity].
  - change ([c] ++ lit "_" ++ s) with (c :: N2b 95 :: s). rewrite (parse_step base c d _ n B D L Ln). cbn [number_from fold_left].
    destruct (N.ltb_spec (n * base + d) (2 ^ 64)) as [Q|Q]; [exact (IH _ Q)|].
    pose proof (number_from_ge base l (n * base + d) (base_pos base B)) as G. unfold number_from in G.
    destruct (N.ltb_spec (fold_left (fun n d => n * base + d) l (n * base + d)) (2 ^ 64)); [lia|reflexivity].
Qed.
Lemma digits_underscores : forall base s l, In base bases -> digits base s l -> forall i, underscore_loop (base =? 16) s i = true.
Proof.
  intros base s l B H. induction H as [c d D L|c d s l D L H IH|c d s l D L H IH]; intros i.
  - cbn [underscore_loop]. rewrite (digit_seen base c d B D L). reflexivity.
  - cbn [app underscore_loop]. rewrite (digit_seen base c d B D L). apply IH.
  - change ([c] ++ lit "_" ++ s) with (c :: N2b 95 :: s). cbn [underscore_loop]. rewrite (digit_seen base c d B D L).
    change (is_digit (N2b 95)) with false. change (is_letter 102 (N2b 95)) with false. rewrite andb_false_r. cbn [orb].
    change (is_underscore (N2b 95)) with true. cbv iota. apply IH.
Qed.

(** and what is read follows the notation *)
Definition follows (base : N) (s : arg) (i : saw) (n m : N) : Prop :=
  match i with
  | SDigit => (s = [] /\ m = n) \/ (exists sep r l, s = sep ++ r /\ In sep [[]; lit "_"] /\ digits base r l /\ m = number_from base n l)
  | _ => (s = [] /\ m = n /\ i = SBegin) \/ exists l, digits base s l /\ m = number_from base n l
  end.
Lemma parse_some : forall base c s n m, In base bases -> n < 2 ^ 64 -> parse_digits base (c :: s) n = Some m ->
  (is_underscore c = true /\ parse_digits base s n = Some m) \/
  exists d, digit c d /\ d < base /\ n * base + d < 2 ^ 64 /\ parse_digits base s (n * base + d) = Some m.
Proof.
  intros base c s n m B Ln E. pose proof E as E0. cbn [parse_digits] in E. destruct (is_underscore c) eqn:U; [now left|right].
  fold (value_of_char c) in E. destruct (value_of_char c) as [d|] eqn:V; [|discriminate].
  destruct (base <=? d) eqn:L; [discriminate|]. apply N.leb_gt in L. clear E.
  assert (W : d < 16) by (clear - B L; repeat destruct B as [B|B]; subst; lia || contradiction).
  assert (D : digit c d) by (apply digit_of; auto).
  rewrite (parse_step base c d s n B D L Ln) in E0.
  destruct (N.ltb_spec (n * base + d) (2 ^ 64)) as [Q|Q]; [|discriminate].
  exists d. auto.
Qed.
Lemma underscore_is : forall c, is_underscore c = true -> c = N2b 95.
Proof. intros c H. unfold is_underscore in H. apply N.eqb_eq in H. rewrite <- (N2b_b2N c), H. reflexivity. Qed.
Lemma follows_step : forall base c d s n m, digit c d -> d < base -> follows base s SDigit (n * base + d) m ->
  exists l, digits base (c :: s) (d :: l) /\ m = number_from base n (d :: l).
Proof.
  intros base c d s n m D L [[-> ->]|(sep & r & l & -> & S & H & ->)].
  - exists []. split; [now constructor|reflexivity].
  - exists l. split; [|reflexivity]. destruct S as [<-|[<-|[]]].
    + exact (next_digit base c d r l D L H).
    + exact (next_digit_apart base c d r l D L H).
Qed.
Lemma parse_follows : forall base s, In base bases -> forall i n m, n < 2 ^ 64 -> i <> SOther ->
  parse_digits base s n = Some m -> underscore_loop (base =? 16) s i = true -> follows base s i n m.
Proof.
  intros base s B. induction s as [|c s IH]; intros i n m Ln NO E U.
  - cbn in E. injection E as <-. destruct i; cbn in *; try discriminate; auto; contradiction.
  - destruct (parse_some base c s n m B Ln E) as [[X E2]|(d & D & L & Q & E2)].
    + pose proof (underscore_is c X) as ->. cbn [underscore_loop] in U.
      change (is_digit (N2b 95)) with false in U. change (is_letter 102 (N2b 95)) with false in U. rewrite andb_false_r in U. cbn [orb] in U.
      change (is_underscore (N2b 95)) with true in U. cbv iota in U. destruct i; try discriminate.
      destruct (IH SUnderscore n m Ln ltac:(discriminate) E2 U) as [(_ & _ & C)|(l & H & ->)]; [discriminate|].
      right. exists (lit "_"), s, l. split; [reflexivity|]. split; [right; left; reflexivity|]. auto.
    + cbn [underscore_loop] in U. rewrite (digit_seen base c d B D L) in U.
      destruct (follows_step base c d s n m D L (IH SDigit _ m Q ltac:(discriminate) E2 U)) as (l & H & R).
      destruct i; cbn [follows].
      * right. eauto.
      * right. exists [], (c :: s), (d :: l). split; [reflexivity|]. split; [now left|]. auto.
      * right. eauto.
      * contradiction.
Qed.
Lemma none_underscored : forall base s, In base bases -> forall i n m, n < 2 ^ 64 -> i <> SUnderscore ->
  existsb is_underscore s = false -> parse_digits base s n = Some m -> underscore_loop (base =? 16) s i = true.
Proof.
  intros base s B. induction s as [|c s IH]; intros i n m Ln NU X E.
  - destruct i; cbn; auto; contradiction.
  - cbn [existsb] in X. apply orb_false_iff in X. destruct X as [X1 X2].
    destruct (parse_some base c s n m B Ln E) as [[X E2]|(d & D & L & Q & E2)]; [congruence|].
    cbn [underscore_loop]. rewrite (digit_seen base c d B D L). eapply IH; eauto. discriminate.
Qed.
Lemma parse_range : forall base s, In base bases -> forall n m, n < 2 ^ 64 -> parse_digits base s n = Some m -> m < 2 ^ 64.
Proof.
  intros base s B. induction s as [|c s IH]; intros n m Ln E; [cbn in E; injection E as <-; exact Ln|].
  destruct (parse_some base c s n m B Ln E) as [[X E2]|(d & D & L & Q & E2)]; eauto.
Qed.

Lemma sep_parse : forall base sep s n, In sep [[]; lit "_"] -> parse_digits base (sep ++ s) n = parse_digits base s n.
Proof. intros base sep s n [<-|[<-|[]]]; reflexivity. Qed.
Lemma sep_underscores : forall base sep s l, In base bases -> In sep [[]; lit "_"] -> digits base s l ->
  underscore_loop (base =? 16) (sep ++ s) SDigit = true.
Proof.
  intros base sep s l B [<-|[<-|[]]] H.
  - exact (digits_underscores base s l B H SDigit).
  - change (lit "_" ++ s) with (N2b 95 :: s). cbn [underscore_loop].
    change (is_digit (N2b 95)) with false. change (is_letter 102 (N2b 95)) with false. rewrite andb_false_r. cbn [orb].
    change (is_underscore (N2b 95)) with true. cbv iota. exact (digits_underscores base s l B H SUnderscore).
Qed.
Lemma digits_first : forall base s l, digits base s l -> exists c s' d l', s = c :: s' /\ l = d :: l' /\ digit c d /\ d < base.
Proof. intros base s l H. destruct H as [c d D L|c d s l D L H|c d s l D L H]; cbn [app]; eauto 10. Qed.
Lemma digit_zero : forall c d, digit c d -> (b2N c = 48 <-> d = 0).
Proof.
  intros c d H. apply digit_of in H. destruct H as (_ & E & L). unfold value_of_char in E. destruct (is_digit c) eqn:D.
  - unfold is_digit in D. rewrite andb_true_iff, !N.leb_le in D. injection E as <-. lia.
  - destruct (is_letter 122 c) eqn:D2; [|discriminate]. destruct (letter_cases c D2) as [[A B]|[A B]]; injection E as <-; lia.
Qed.

(** the three forms *)
Lemma lower_prefix : forall c k, In (c, k) [(98, 2); (111, 8); (120, 16)] -> forall b, lower b = c -> In ([N2b 48; b], k) prefixes.
Proof.
  intros c k H b L.
  assert (G : forall b, (if lower b =? 98 then (b2N b =? 98) || (b2N b =? 66) else if lower b =? 111 then (b2N b =? 111) || (b2N b =? 79)
                         else if lower b =? 120 then (b2N b =? 120) || (b2N b =? 88) else true) = true).
  { intros [[] [] [] [] [] [] [] []]; vm_compute; reflexivity. }
  specialize (G b). rewrite L in G. pose proof (N2b_b2N b) as R.
  destruct H as [H|[H|[H|[]]]]; injection H as <- <-; cbn in G; apply orb_true_iff in G; rewrite !N.eqb_eq in G;
    destruct G as [G|G]; rewrite G in R; rewrite <- R; vm_compute; tauto.
Qed.
Definition is_prefix (c : byte) : bool := (lower c =? 98) || (lower c =? 111) || (lower c =? 120).
Lemma not_prefix_digit : forall c d, digit c d -> d < 10 -> is_prefix c = false.
Proof.
  intros c d H L. apply digit_of in H. destruct H as (_ & E & _). unfold value_of_char in E. destruct (is_digit c) eqn:D.
  - revert D. clear. revert c. assert (G : forall c, is_digit c && is_prefix c = false) by (intros [[] [] [] [] [] [] [] []]; vm_compute; reflexivity).
    intros c D. specialize (G c). rewrite D in G. exact G.
  - destruct (is_letter 122 c) eqn:D2; [|discriminate]. destruct (letter_cases c D2) as [[A B]|[A B]]; injection E as <-; lia.
Qed.
Lemma base_decimal : forall c s, b2N c <> 48 -> number_base (c :: s) = (10, c :: s) /\ underscore_ok (c :: s) = underscore_loop false (c :: s) SBegin.
Proof.
  intros c s H. apply N.eqb_neq in H. unfold number_base, underscore_ok. destruct s as [|b [|e r]]; rewrite H; auto.
Qed.
Lemma base_octal : forall s, match s with c :: _ => is_prefix c = false | [] => True end ->
  number_base (N2b 48 :: s) = (8, s) /\ underscore_ok (N2b 48 :: s) = underscore_loop false s SDigit.
Proof.
  intros s H. destruct s as [|c r]; [split; reflexivity|]. unfold is_prefix in H. 
  assert (U : underscore_loop false (N2b 48 :: c :: r) SBegin = underscore_loop false (c :: r) SDigit) by reflexivity.
  unfold number_base, underscore_ok. rewrite H. rewrite !orb_false_iff in H. destruct H as [[H1 H2] H3].
  change (b2N (N2b 48) =? 48) with true. rewrite H1, H2, H3. split; [destruct r; reflexivity|exact U].
Qed.
Lemma base_prefix : forall c k, In (c, k) [(98, 2); (111, 8); (120, 16)] -> forall b e r, lower b = c ->
  number_base (N2b 48 :: b :: e :: r) = (k, e :: r) /\
  underscore_ok (N2b 48 :: b :: e :: r) = underscore_loop (k =? 16) (e :: r) SDigit.
Proof.
  intros c k H b e r L. unfold number_base, underscore_ok. change (b2N (N2b 48) =? 48) with true.
  destruct H as [H|[H|[H|[]]]]; injection H as <- <-; rewrite L; split; reflexivity.
Qed.

Lemma uint_inv : forall s n, parse_uint s = Some n -> forall base r i, number_base s = (base, r) ->
  underscore_ok s = underscore_loop (base =? 16) r i -> In base bases -> i <> SUnderscore -> i <> SOther ->
  follows base r i 0 n /\ n < 2 ^ 64.
Proof.
  intros s n E base r i NB U B N1 N2. unfold parse_uint in E. rewrite NB in E. destruct s as [|a s]; [discriminate|].
  destruct (parse_digits base r 0) as [m|] eqn:P; [|discriminate].
  rewrite U in E.
  assert (V : underscore_loop (base =? 16) r i = true).
  { destruct (existsb is_underscore r) eqn:X.
    - destruct (underscore_loop _ r i); [reflexivity|discriminate].
    - exact (none_underscored base r B i 0 m eq_refl N1 X P). }
  rewrite V in E. rewrite andb_false_r in E. injection E as <-.
  split; [|exact (parse_range base r B 0 m eq_refl P)].
  exact (parse_follows base r B i 0 m eq_refl N2 P V).
Qed.
Lemma uint_intro : forall s base r i l sep t, s <> [] -> number_base s = (base, r) ->
  underscore_ok s = underscore_loop (base =? 16) r i -> In base bases ->
  r = sep ++ t -> In sep [[]; lit "_"] -> (i = SDigit \/ sep = []) -> digits base t l -> number_of base l < 2 ^ 64 ->
  parse_uint s = Some (number_of base l).
Proof.
  intros s base r i l sep t NE NB U B -> S I D L. unfold parse_uint. destruct s as [|a s]; [contradiction|]. rewrite NB, sep_parse by exact S.
  rewrite (digits_parse base t l B D 0 eq_refl). change (number_from base 0 l) with (number_of base l).
  apply N.ltb_lt in L. rewrite L. rewrite U.
  assert (V : underscore_loop (base =? 16) (sep ++ t) i = true).
  { destruct I as [->| ->]; [exact (sep_underscores base sep t l B S D)|exact (digits_underscores base t l B D i)]. }
  rewrite V, andb_false_r. reflexivity.
Qed.
Lemma parse_uint_number : forall s n, parse_uint s = Some n -> number s n /\ n < 2 ^ 64.
Proof.
  intros s n E. destruct s as [|z s]; [discriminate|].
  destruct (N.eqb_spec (b2N z) 48) as [Z|Z].
  - assert (z = N2b 48) as -> by (rewrite <- (N2b_b2N z), Z; reflexivity).
    destruct s as [|b r].
    { vm_compute in E. injection E as <-. split; [exact just_zero|reflexivity]. }
    destruct (is_prefix b) eqn:PB.
    + destruct r as [|e r].
      { exfalso. clear - E PB. revert E. unfold parse_uint, number_base. change (b2N (N2b 48) =? 48) with true. cbv iota.
        assert (G : forall b, (if is_prefix b then match parse_digits 8 [b] 0 with None => true | _ => false end else true) = true)
          by (intros [[] [] [] [] [] [] [] []]; vm_compute; reflexivity).
        specialize (G b). rewrite PB in G. destruct (parse_digits 8 [b] 0); discriminate. }
      assert (exists k, In (lower b, k) [(98, 2); (111, 8); (120, 16)]) as (k & K).
      { unfold is_prefix in PB. rewrite !orb_true_iff, !N.eqb_eq in PB. destruct PB as [[Q|Q]|Q]; [exists 2|exists 8|exists 16]; rewrite Q; cbn; tauto. }
      destruct (base_prefix _ _ K b e r eq_refl) as [NB U].
      assert (B : In k bases) by (clear - K; destruct K as [K|[K|[K|[]]]]; injection K as _ <-; cbn; auto).
      destruct (uint_inv _ n E k (e :: r) SDigit NB U B ltac:(discriminate) ltac:(discriminate)) as [F L]. split; [|exact L].
      destruct F as [[F _]|(sep & t & l & R & S & D & ->)]; [discriminate|]. rewrite R.
      exact (based_number [N2b 48; b] k sep t l (lower_prefix _ _ K b eq_refl) S D).
    + destruct (base_octal (b :: r) PB) as [NB U].
      destruct (uint_inv _ n E 8 (b :: r) SDigit NB U ltac:(cbn; auto) ltac:(discriminate) ltac:(discriminate)) as [F L]. split; [|exact L].
      destruct F as [[F _]|(sep & t & l & R & S & D & ->)]; [discriminate|]. rewrite R.
      exact (based_number (lit "0") 8 sep t l ltac:(left; reflexivity) S D).
  - destruct (base_decimal z s Z) as [NB U].
    destruct (uint_inv _ n E 10 (z :: s) SBegin NB U ltac:(cbn; auto) ltac:(discriminate) ltac:(discriminate)) as [F L]. split; [|exact L].
    destruct F as [(F & _)|(l & D & ->)]; [discriminate|].
    destruct (digits_first _ _ _ D) as (c & s' & d & l' & E1 & -> & Dc & _). injection E1 as <- <-.
    apply (decimal_number (z :: s) d l' D). intros ->. apply Z. now apply (digit_zero z 0 Dc).
Qed.
Lemma number_parse_uint : forall s n, number s n -> n < 2 ^ 64 -> parse_uint s = Some n.
Proof.
  intros s n H L. destruct H as [s d l D NZ| |prefix base sep s l P S D].
  - destruct (digits_first _ _ _ D) as (c & s' & d' & l' & -> & E & Dc & _). injection E as <- <-.
    destruct (base_decimal c s') as [NB U]. { intros Q. apply NZ. now apply (digit_zero c d Dc). }
    exact (uint_intro (c :: s') 10 (c :: s') SBegin (d :: l) [] (c :: s') ltac:(discriminate) NB U ltac:(cbn; auto) eq_refl
             ltac:(now left) ltac:(now right) D L).
  - reflexivity.
  - assert (B : In base bases).
    { clear - P. cbn [prefixes In] in P. destruct P as [P|[P|[P|[P|[P|[P|[P|[]]]]]]]]; injection P as _ <-; cbn; auto. }
    destruct (digits_first _ _ _ D) as (c & s' & d & l' & -> & -> & Dc & Lb).
    assert (K : forall b k x, In (x, k) [(98, 2); (111, 8); (120, 16)] -> lower b = x -> k = base -> prefix = [N2b 48; b] ->
              parse_uint (prefix ++ sep ++ c :: s') = Some (number_of base (d :: l'))).
    { intros b k x K Lx -> ->. change ([N2b 48; b] ++ sep ++ c :: s') with (N2b 48 :: b :: (sep ++ c :: s')).
      remember (sep ++ c :: s') as r eqn:R. destruct r as [|e r]; [destruct sep; discriminate|].
      destruct (base_prefix x base K b e r Lx) as [NB U].
      exact (uint_intro (N2b 48 :: b :: e :: r) base (e :: r) SDigit (d :: l') sep (c :: s') ltac:(discriminate) NB U B R S ltac:(now left) D L). }
    destruct P as [P|P].
    + injection P as <- <-. change (lit "0" ++ sep ++ c :: s') with (N2b 48 :: (sep ++ c :: s')).
      destruct (base_octal (sep ++ c :: s')) as [NB U].
      { destruct S as [<-|[<-|[]]]; [|reflexivity]. cbn [app]. apply (not_prefix_digit c d Dc). lia. }
      exact (uint_intro (N2b 48 :: sep ++ c :: s') 8 _ SDigit (d :: l') sep (c :: s') ltac:(discriminate) NB U B eq_refl S ltac:(now left) D L).
    + cbn [In] in P. destruct P as [P|[P|[P|[P|[P|[P|[]]]]]]]; injection P as <- <-;
        (eapply K; [| |reflexivity|reflexivity]; [|reflexivity]; vm_compute; tauto).
Qed.

(** ** Options *)
Lemma lit_eqb : forall m n, bytes_eqb (lit m) (lit n) = String.eqb m n.
Proof.
  intros m n. destruct (String.eqb_spec m n) as [->|H]; [apply bytes_eqb_refl|].
  destruct (bytes_eqb (lit m) (lit n)) eqn:E; [|reflexivity]. apply bytes_eqb_eq in E. exfalso. apply H. revert n E H.
  induction m as [|c m IH]; intros [|d n] E H; try discriminate; [reflexivity|].
  cbn in E. injection E as -> E. f_equal. apply IH; [exact E|]. congruence.
Qed.
Lemma parse_bool_words : forall x b, parse_bool x = Some b <-> In x (if b then says_true else says_false).
Proof.
  intros x b. unfold parse_bool. fold says_true says_false.
  destruct (existsb (bytes_eqb x) says_true) eqn:T.
  - apply existsb_exists in T. destruct T as (y & I & E). apply bytes_eqb_eq in E. subst y. split.
    + intros E. injection E as <-. exact I.
    + destruct b; [reflexivity|]. intros J. exfalso. unfold says_true, says_false in *. cbn [map In] in *.
      destruct I as [<-|[<-|[<-|[<-|[<-|[<-|[]]]]]]]; decompose [or] J; discriminate || contradiction.
  - assert (NT : ~ In x says_true).
    { intros I. assert (C : existsb (bytes_eqb x) says_true = true) by (apply existsb_exists; exists x; split; [exact I|apply bytes_eqb_refl]).
      congruence. }
    destruct (existsb (bytes_eqb x) says_false) eqn:F.
    + apply existsb_exists in F. destruct F as (y & I & E). apply bytes_eqb_eq in E. subst y. split.
      * intros E. injection E as <-. exact I.
      * destruct b; [intros J; contradiction|reflexivity].
    + split; [discriminate|]. destruct b; [intros J; contradiction|]. intros I.
      assert (C : existsb (bytes_eqb x) says_false = true) by (apply existsb_exists; exists x; split; [exact I|apply bytes_eqb_refl]).
      congruence.
Qed.

(** the name and the value of an argument *)
Definition good_name (n : arg) : Prop :=
  match n with [] => False | c :: _ => b2N c <> 45 /\ b2N c <> 61 end /\ Forall (fun c => b2N c <> 61) n.
Definition value_part (v : option arg) : arg := match v with Some x => lit "=" ++ x | None => [] end.
Lemma cut_equals_spec : forall n v, Forall (fun c => b2N c <> 61) n -> cut_equals (n ++ value_part v) = (n, v).
Proof.
  intros n v F. induction F as [|c n H F IH]; [destruct v; reflexivity|]. cbn [app cut_equals].
  apply N.eqb_neq in H. rewrite H, IH. reflexivity.
Qed.
Lemma cut_name_spec : forall n v, good_name n -> cut_name (n ++ value_part v) = (n, v).
Proof.
  intros [|c n] v [G F]; [contradiction|]. inversion F as [|? ? _ F' ]; subst. cbn [app cut_name]. now rewrite cut_equals_spec.
Qed.
Lemma cut_equals_inv : forall s n v, cut_equals s = (n, v) -> s = n ++ value_part v /\ Forall (fun c => b2N c <> 61) n.
Proof.
  induction s as [|c s IH]; intros n v E; cbn in E.
  - injection E as <- <-. split; [reflexivity|constructor].
  - destruct (b2N c =? 61) eqn:C.
    + injection E as <- <-. apply N.eqb_eq in C. split; [|constructor]. cbn. f_equal. rewrite <- (N2b_b2N c), C. reflexivity.
    + destruct (cut_equals s) as [a w] eqn:Q. injection E as <- <-. destruct (IH a w eq_refl) as [-> F]. split; [reflexivity|].
      constructor; [now apply N.eqb_neq|exact F].
Qed.
Lemma flag_name_spec : forall d n v, In d dashes -> good_name n -> flag_name (d ++ n ++ v) = FName (n ++ v).
Proof.
  intros d [|c n] v D [G F]; [contradiction|]. destruct G as [G1 G2]. apply N.eqb_neq in G1, G2.
  destruct D as [<-|[<-|[]]].
  - change (lit "-" ++ (c :: n) ++ v) with (N2b 45 :: c :: (n ++ v)). unfold flag_name. change (b2N (N2b 45) =? 45) with true. cbv iota.
    rewrite G1, G2. reflexivity.
  - change (lit "--" ++ (c :: n) ++ v) with (N2b 45 :: N2b 45 :: c :: (n ++ v)). unfold flag_name. change (b2N (N2b 45) =? 45) with true. cbv iota.
    rewrite G1, G2. reflexivity.
Qed.
Lemma flag_name_inv : forall s, match flag_name s with
  | FNone => no_option s
  | FTerminator => s = lit "--"
  | FBad => True
  | FName name => exists d, In d dashes /\ s = d ++ name /\ match name with [] => False | c :: _ => b2N c <> 45 /\ b2N c <> 61 end
  end.
Proof.
  assert (DASH : forall a, b2N a = 45 -> a = N2b 45) by (intros a E; rewrite <- (N2b_b2N a), E; reflexivity).
  intros [|a [|b r]]; unfold flag_name.
  - right. intros s. discriminate.
  - destruct (N.eqb_spec (b2N a) 45) as [E|E].
    + apply DASH in E. subst. left. reflexivity.
    + right. intros s Q. injection Q as -> _. apply E. reflexivity.
  - destruct (N.eqb_spec (b2N a) 45) as [E|E].
    2:{ right. intros s Q. injection Q as -> _. apply E. reflexivity. }
    apply DASH in E. subst a. destruct (N.eqb_spec (b2N b) 45) as [E|E].
    + apply DASH in E. subst b. destruct r as [|c r]; [reflexivity|].
      destruct ((b2N c =? 45) || (b2N c =? 61)) eqn:Q; [exact I|]. apply orb_false_iff in Q. rewrite !N.eqb_neq in Q.
      exists (lit "--"). split; [right; left; reflexivity|]. split; [reflexivity|exact Q].
    + cbn [orb]. destruct (N.eqb_spec (b2N b) 61) as [E2|E2]; [exact I|].
      exists (lit "-"). split; [left; reflexivity|]. split; [reflexivity|split; assumption].
Qed.

Section Flags.
  Variable defs : list (string * kind).
  Definition ldefs : list (arg * kind) := map (fun d => (lit (fst d), snd d)) defs.
  (** the names are names, no two the same, and not "h" or "help" *)
  Definition good_defs : Prop :=
    (forall n k, In (n, k) defs -> good_name (lit n) /\ lookup (lit n) ldefs = Some k) /\
    lookup (lit "h") ldefs = None /\ lookup (lit "help") ldefs = None.
  Definition option_ok (o : option_given) : Prop :=
    match o with
    | Switch n _ => In (n, KBool) defs
    | Setting n v => In (n, KString) defs \/ (In (n, KUint) defs /\ exists t, number v t /\ t < 2 ^ 64)
    end.
  Definition stored (o : option_given) : arg * value :=
    match o with
    | Switch n b => (lit n, VBool b)
    | Setting n v =>
        (lit n, match lookup (lit n) ldefs with
                | Some KUint => VUint (match parse_uint v with Some t => t | None => 0 end)
                | _ => VString v
                end)
    end.
  Hypothesis GD : good_defs.

  Lemma lookup_defs : forall n k, lookup n ldefs = Some k -> exists m, n = lit m /\ In (m, k) defs.
  Proof.
    clear GD. unfold ldefs. induction defs as [|[m j] l IH]; intros n k E; [discriminate|]. cbn [map lookup fst snd] in E.
    destruct (bytes_eqb (lit m) n) eqn:Q.
    - injection E as <-. apply bytes_eqb_eq in Q. exists m. split; [auto|now left].
    - destruct (IH n k E) as (m' & -> & I). exists m'. split; [reflexivity|now right].
  Qed.
  Lemma set_setting : forall n v, option_ok (Setting n v) -> exists k, lookup (lit n) ldefs = Some k /\ k <> KBool /\
    set_value k v = Some (snd (stored (Setting n v))).
  Proof.
    intros n v [I|[I (t & T & L)]]; destruct GD as [G _]; destruct (G _ _ I) as [_ E].
    - exists KString. cbn [stored snd]. rewrite E. repeat split. discriminate.
    - exists KUint. cbn [stored snd set_value]. rewrite E, (number_parse_uint v t T L). repeat split. discriminate.
  Qed.
  Lemma option_name : forall o, option_ok o -> good_name (lit (match o with Switch n _ => n | Setting n _ => n end)).
  Proof. intros [n b|n v]; intros H; destruct GD as [G _]; [|destruct H as [H|[H _]]]; exact (proj1 (G _ _ H)). Qed.
  Lemma parse_written : forall o a, written o a -> option_ok o -> forall b vals,
    parse_flags ldefs (a ++ b) vals = parse_flags ldefs b (stored o :: vals).
  Proof.
    intros o a W OK b vals. pose proof (option_name o OK) as GN.
    destruct W as [d n D|d n w D I|d n w D I|d n v D|d n v D]; cbn [app parse_flags].
    - pose proof (flag_name_spec d (lit n) [] D GN) as E. rewrite !app_nil_r in E. rewrite E.
      pose proof (cut_name_spec (lit n) None GN) as C. cbn [value_part] in C. rewrite app_nil_r in C. rewrite C.
      destruct GD as [G _]. rewrite (proj2 (G _ _ OK)). reflexivity.
    - change (lit "=" ++ w) with (value_part (Some w)). rewrite (flag_name_spec d (lit n) _ D GN), (cut_name_spec (lit n) (Some w) GN).
      destruct GD as [G _]. rewrite (proj2 (G _ _ OK)). cbn [set_value]. rewrite (proj2 (parse_bool_words w true) I). reflexivity.
    - change (lit "=" ++ w) with (value_part (Some w)). rewrite (flag_name_spec d (lit n) _ D GN), (cut_name_spec (lit n) (Some w) GN).
      destruct GD as [G _]. rewrite (proj2 (G _ _ OK)). cbn [set_value]. rewrite (proj2 (parse_bool_words w false) I). reflexivity.
    - change (lit "=" ++ v) with (value_part (Some v)). rewrite (flag_name_spec d (lit n) _ D GN), (cut_name_spec (lit n) (Some v) GN).
      destruct (set_setting n v OK) as (k & E & NB & S). rewrite E, S. destruct k; [contradiction|reflexivity|reflexivity].
    - pose proof (flag_name_spec d (lit n) [] D GN) as E. rewrite !app_nil_r in E. rewrite E.
      pose proof (cut_name_spec (lit n) None GN) as C. cbn [value_part] in C. rewrite app_nil_r in C. rewrite C.
      destruct (set_setting n v OK) as (k & E2 & NB & S). rewrite E2, S. destruct k; [contradiction|reflexivity|reflexivity].
  Qed.
  Lemma parse_all_written : forall os a, all_written os a -> Forall option_ok os -> forall b vals,
    parse_flags ldefs (a ++ b) vals = parse_flags ldefs b (rev (map stored os) ++ vals).
  Proof.
    intros os a W. induction W as [|o os x xs W1 W IH]; intros F b vals; [reflexivity|].
    inversion F as [|? ? F1 F2]; subst. rewrite <- app_assoc, (parse_written o x W1 F1), IH by exact F2.
    cbn [map rev]. rewrite <- app_assoc. reflexivity.
  Qed.
  Lemma flag_name_none : forall a, no_option a -> flag_name a = FNone.
  Proof.
    intros a [->|H]; [reflexivity|]. destruct a as [|x [|y r]]; try reflexivity. unfold flag_name.
    destruct (N.eqb_spec (b2N x) 45) as [E|E]; [|reflexivity]. exfalso. apply (H (y :: r)).
    rewrite <- (N2b_b2N x), E. reflexivity.
  Qed.
  Lemma parse_operands : forall given b vals, operands given b -> parse_flags ldefs b vals = PDone vals given.
  Proof.
    intros given b vals [H|]; [|reflexivity]. destruct given as [|a r]; [reflexivity|]. cbn [parse_flags].
    now rewrite (flag_name_none a H).
  Qed.
  Lemma parse_help : forall d h v b vals, In d dashes -> In h [lit "h"; lit "help"] -> (v = [] \/ exists x, v = lit "=" ++ x) ->
    parse_flags ldefs ([d ++ h ++ v] ++ b) vals = PHelp.
  Proof.
    intros d h v b vals D H V. cbn [app parse_flags].
    assert (GN : good_name h).
    { destruct H as [<-|[<-|[]]]; (split; [split; discriminate|]); repeat constructor; discriminate. }
    rewrite (flag_name_spec d h v D GN).
    assert (exists w, v = value_part w) as (w & ->) by (destruct V as [->|[x ->]]; [exists None|exists (Some x)]; reflexivity).
    rewrite (cut_name_spec h w GN). destruct GD as (_ & G1 & G2).
    destruct H as [<-|[<-|[]]]; rewrite ?G1, ?G2; reflexivity.
  Qed.

  (** and the other way round *)
  Lemma set_ok : forall n k v w, In (n, k) defs -> k <> KBool -> set_value k v = Some w ->
    option_ok (Setting n v) /\ stored (Setting n v) = (lit n, w).
  Proof.
    intros n k v w I NB S. destruct GD as [G _]. destruct (G _ _ I) as [_ E]. unfold stored, option_ok. rewrite E.
    destruct k; [contradiction| |].
    - cbn in S. injection S as <-. auto.
    - cbn in S. destruct (parse_uint v) as [t|] eqn:P; [|discriminate]. injection S as <-.
      split; [|reflexivity]. right. split; [exact I|]. exists t. exact (parse_uint_number v t P).
  Qed.
  Definition reads_as (args : list arg) (vals : list (arg * value)) (p : parsed) : Prop :=
    match p with
    | PDone vals' rest => exists os, Forall option_ok os /\ consists_of os rest args /\ vals' = rev (map stored os) ++ vals
    | PHelp => exists os, Forall option_ok os /\ asks_for_help os args
    | PBad => True
    end.
  Lemma reads_more : forall o a args vals p, option_ok o -> written o a -> reads_as args (stored o :: vals) p -> reads_as (a ++ args) vals p.
  Proof.
    intros o a args vals p OK W H. destruct p as [vals' rest| |]; [| |exact I].
    - destruct H as (os & F & (x & y & -> & A & B) & ->). exists (o :: os). split; [now constructor|]. split.
      + exists (a ++ x), y. rewrite app_assoc. split; [reflexivity|]. split; [now constructor|exact B].
      + cbn [map rev]. rewrite <- app_assoc. reflexivity.
    - destruct H as (os & F & (x & d & h & v & b & -> & A & B)). exists (o :: os). split; [now constructor|].
      exists (a ++ x), d, h, v, b. rewrite app_assoc. split; [reflexivity|]. split; [now constructor|exact B].
  Qed.
  Lemma parse_reads : forall k args, (List.length args <= k)%nat -> forall vals, reads_as args vals (parse_flags ldefs args vals).
  Proof.
    assert (END : forall given args vals, operands given args -> reads_as args vals (PDone vals given)).
    { intros given args vals H. exists []. split; [constructor|]. split; [|reflexivity]. exists [], args. split; [reflexivity|]. split; [constructor|exact H]. }
    induction k as [|k IH]; intros args L vals.
    { destruct args; [|cbn in L; lia]. apply END. now constructor. }
    destruct args as [|s rest]; [apply END; now constructor|]. cbn in L. assert (L' : (List.length rest <= k)%nat) by lia.
    cbn [parse_flags]. pose proof (flag_name_inv s) as FI. destruct (flag_name s) as [| | |name].
    - apply END. now constructor.
    - subst s. apply END. exact (given_after_dashes rest).
    - exact I.
    - destruct FI as (d & D & -> & NN). destruct (cut_name name) as [n v] eqn:C.
      assert (NM : name = n ++ value_part v).
      { destruct name as [|c name]; [contradiction|]. cbn in C. destruct (cut_equals name) as [a w] eqn:Q. injection C as <- <-.
        destruct (cut_equals_inv _ _ _ Q) as [-> _]. reflexivity. }
      subst name. destruct (lookup n ldefs) as [kd|] eqn:LK.
      2:{ destruct (bytes_eqb n (lit "help") || bytes_eqb n (lit "h")) eqn:H; [|exact I].
          exists []. split; [constructor|]. exists [], d, n, (value_part v), rest. split; [reflexivity|]. split; [constructor|]. split; [exact D|].
          split; [|destruct v as [x|]; [right; exists x|left]; reflexivity].
          apply orb_true_iff in H. rewrite !bytes_eqb_eq in H. destruct H as [-> | ->]; cbn; auto. }
      destruct (lookup_defs n kd LK) as (m & -> & IN).
      assert (SETTING : kd <> KBool -> reads_as ((d ++ lit m ++ value_part v) :: rest) vals
                match v with
                | Some x => match set_value kd x with Some w => parse_flags ldefs rest ((lit m, w) :: vals) | None => PBad end
                | None => match rest with
                          | [] => PBad
                          | x :: rest => match set_value kd x with Some w => parse_flags ldefs rest ((lit m, w) :: vals) | None => PBad end
                          end
                end).
      { intros NB. destruct v as [x|].
        - destruct (set_value kd x) as [w|] eqn:S; [|exact I]. destruct (set_ok m kd x w IN NB S) as [OK ST].
          apply (reads_more (Setting m x) [d ++ lit m ++ value_part (Some x)] rest vals); [exact OK|now constructor|]. rewrite ST. now apply IH.
        - destruct rest as [|x rest]; [exact I|]. destruct (set_value kd x) as [w|] eqn:S; [|exact I].
          destruct (set_ok m kd x w IN NB S) as [OK ST]. cbn [value_part]. rewrite app_nil_r.
          apply (reads_more (Setting m x) [d ++ lit m; x] rest vals); [exact OK|now constructor|]. rewrite ST. apply IH. cbn in L'. lia. }
      destruct kd.
      + destruct v as [x|].
        * cbn [set_value]. destruct (parse_bool x) as [bv|] eqn:PB; [|exact I]. cbn [option_map].
          apply (reads_more (Switch m bv) [d ++ lit m ++ value_part (Some x)] rest vals); [exact IN| |now apply IH].
          apply parse_bool_words in PB. destruct bv; now constructor.
        * cbn [value_part]. rewrite app_nil_r.
          apply (reads_more (Switch m true) [d ++ lit m] rest vals); [exact IN|now constructor|now apply IH].
      + apply SETTING. discriminate.
      + apply SETTING. discriminate.
  Qed.
End Flags.

(** ** The last value *)
Lemma lookup_next : forall A n m (a : A) l, lookup (lit n) ((lit m, a) :: l) = if String.eqb m n then Some a else lookup (lit n) l.
Proof. intros A n m a l. cbn [lookup]. now rewrite lit_eqb. Qed.
Lemma get_bool_last : forall defs n, good_defs defs -> In (n, KBool) defs -> forall os vals, Forall (option_ok defs) os ->
  get_bool n (rev (map (stored defs) os) ++ vals) = last_switch n os (get_bool n vals).
Proof.
  intros defs n G IN os. induction os as [|o os IH]; intros vals F; [reflexivity|]. inversion F as [|? ? F1 F2]; subst.
  cbn [map rev]. rewrite <- app_assoc. cbn [app]. rewrite IH by exact F2. destruct o as [m b|m v]; cbn [last_switch stored]; f_equal.
  - unfold get_bool. rewrite lookup_next. destruct (String.eqb m n); reflexivity.
  - unfold get_bool. rewrite lookup_next. destruct (String.eqb_spec m n) as [->|]; [|reflexivity].
    destruct G as [G _]. pose proof (proj2 (G _ _ IN)) as E.
    destruct F1 as [I|[I _]]; rewrite (proj2 (G _ _ I)) in E; discriminate.
Qed.
Lemma get_string_last : forall defs n d, good_defs defs -> In (n, KString) defs -> forall os vals, Forall (option_ok defs) os ->
  get_string n d (rev (map (stored defs) os) ++ vals) = last_setting n os (fun v => v) (get_string n d vals).
Proof.
  intros defs n d G IN os. induction os as [|o os IH]; intros vals F; [reflexivity|]. inversion F as [|? ? F1 F2]; subst.
  cbn [map rev]. rewrite <- app_assoc. cbn [app]. rewrite IH by exact F2. destruct G as [G _]. pose proof (proj2 (G _ _ IN)) as E.
  destruct o as [m b|m v]; cbn [last_setting stored]; f_equal.
  - unfold get_string. rewrite lookup_next. destruct (String.eqb_spec m n) as [->|]; [|reflexivity].
    rewrite (proj2 (G _ _ F1)) in E; discriminate.
  - unfold get_string. rewrite lookup_next. destruct (String.eqb_spec m n) as [->|]; [|reflexivity]. now rewrite E.
Qed.
Lemma get_uint_last : forall defs n d, good_defs defs -> In (n, KUint) defs -> forall os vals, Forall (option_ok defs) os ->
  get_uint n d (rev (map (stored defs) os) ++ vals) =
  last_setting n os (fun v => match parse_uint v with Some t => t | None => 0 end) (get_uint n d vals).
Proof.
  intros defs n d G IN os. induction os as [|o os IH]; intros vals F; [reflexivity|]. inversion F as [|? ? F1 F2]; subst.
  cbn [map rev]. rewrite <- app_assoc. cbn [app]. rewrite IH by exact F2. destruct G as [G _]. pose proof (proj2 (G _ _ IN)) as E.
  destruct o as [m b|m v]; cbn [last_setting stored]; f_equal.
  - unfold get_uint. rewrite lookup_next. destruct (String.eqb_spec m n) as [->|]; [|reflexivity].
    rewrite (proj2 (G _ _ F1)) in E; discriminate.
  - unfold get_uint. rewrite lookup_next. destruct (String.eqb_spec m n) as [->|]; [|reflexivity]. now rewrite E.
Qed.
Lemma last_setting_some : forall A n (read : arg -> A) os x d,
  last_setting n os read (match x with Some v => read v | None => d end) =
  match last_setting n os Some x with Some v => read v | None => d end.
Proof.
  intros A n read os. induction os as [|[m b|m v] os IH]; intros x d; cbn [last_setting]; [reflexivity|apply IH|].
  destruct (String.eqb m n); [exact (IH (Some v) d)|apply IH].
Qed.
Lemma last_setting_in : forall n os x v, last_setting n os Some x = Some v -> x = Some v \/ In (Setting n v) os.
Proof.
  intros n os. induction os as [|[m b|m w] os IH]; intros x v E; cbn [last_setting] in E; [now left| |].
  - destruct (IH x v E); [now left|right; now right].
  - destruct (IH _ v E) as [Q|Q]; [|right; now right]. destruct (String.eqb_spec m n) as [->|]; [|now left].
    injection Q as ->. right. now left.
Qed.
