(** What dec_text and hex_text say, as digits. *)
From Coq Require Import DecimalString HexadecimalString DecimalN HexadecimalN DecimalFacts HexadecimalFacts.
From Verif Require Import Base BaseProofs GoText ProbeTool SpecProbeTool.
Local Open Scope list_scope.
Local Open Scope N_scope.

Fixpoint ds10 (d : Decimal.uint) : list N :=
  match d with
  | Decimal.Nil => [] | Decimal.D0 d => 0 :: ds10 d | Decimal.D1 d => 1 :: ds10 d | Decimal.D2 d => 2 :: ds10 d
  | Decimal.D3 d => 3 :: ds10 d | Decimal.D4 d => 4 :: ds10 d | Decimal.D5 d => 5 :: ds10 d | Decimal.D6 d => 6 :: ds10 d
  | Decimal.D7 d => 7 :: ds10 d | Decimal.D8 d => 8 :: ds10 d | Decimal.D9 d => 9 :: ds10 d
  end.
Fixpoint ds16 (d : Hexadecimal.uint) : list N :=
  match d with
  | Hexadecimal.Nil => [] | Hexadecimal.D0 d => 0 :: ds16 d | Hexadecimal.D1 d => 1 :: ds16 d | Hexadecimal.D2 d => 2 :: ds16 d
  | Hexadecimal.D3 d => 3 :: ds16 d | Hexadecimal.D4 d => 4 :: ds16 d | Hexadecimal.D5 d => 5 :: ds16 d | Hexadecimal.D6 d => 6 :: ds16 d
  | Hexadecimal.D7 d => 7 :: ds16 d | Hexadecimal.D8 d => 8 :: ds16 d | Hexadecimal.D9 d => 9 :: ds16 d
  | Hexadecimal.Da d => 10 :: ds16 d | Hexadecimal.Db d => 11 :: ds16 d | Hexadecimal.Dc d => 12 :: ds16 d
  | Hexadecimal.Dd d => 13 :: ds16 d | Hexadecimal.De d => 14 :: ds16 d | Hexadecimal.Df d => 15 :: ds16 d
  end.
Lemma text10 : forall d, lit (DecimalString.NilEmpty.string_of_uint d) = map digit (ds10 d).
Proof. induction d; cbn [DecimalString.NilEmpty.string_of_uint ds10 map]; [reflexivity|..]; rewrite <- IHd; reflexivity. Qed.
Lemma text16 : forall d, map upper (lit (HexadecimalString.NilEmpty.string_of_uint d)) = map digit (ds16 d).
Proof. induction d; cbn [HexadecimalString.NilEmpty.string_of_uint ds16 map]; [reflexivity|..]; rewrite <- IHd; reflexivity. Qed.
Lemma below10 : forall d, Forall (fun x => x < 10) (ds10 d).
Proof. induction d; cbn [ds10]; constructor; try assumption; reflexivity. Qed.
Lemma below16 : forall d, Forall (fun x => x < 16) (ds16 d).
Proof. induction d; cbn [ds16]; constructor; try assumption; reflexivity. Qed.
Lemma acc10 : forall d p, N.pos (Pos.of_uint_acc d p) = fold_left (fun a x => a * 10 + x) (ds10 d) (N.pos p).
Proof. induction d; intros p; cbn [Pos.of_uint_acc ds10 fold_left]; [reflexivity|..]; rewrite IHd; f_equal; lia. Qed.
Lemma acc16 : forall d p, N.pos (Pos.of_hex_uint_acc d p) = fold_left (fun a x => a * 16 + x) (ds16 d) (N.pos p).
Proof. induction d; intros p; cbn [Pos.of_hex_uint_acc ds16 fold_left]; [reflexivity|..]; rewrite IHd; f_equal; lia. Qed.
Lemma value10 : forall d, N.of_uint d = value 10 (ds10 d).
Proof.
  intros d. unfold value, N.of_uint. induction d; cbn [Pos.of_uint ds10 fold_left]; try reflexivity; try exact IHd; rewrite acc10; reflexivity.
Qed.
Lemma value16 : forall d, N.of_hex_uint d = value 16 (ds16 d).
Proof.
  intros d. unfold value, N.of_hex_uint. induction d; cbn [Pos.of_hex_uint ds16 fold_left]; try reflexivity; try exact IHd; rewrite acc16; reflexivity.
Qed.
Lemma front10 : forall n, let ds := ds10 (N.to_uint n) in 1 <= lenN ds /\ (hd 0 ds = 0 -> lenN ds <= 1).
Proof.
  intros n. assert (U : N.to_uint n = Decimal.unorm (N.to_uint n)) by (rewrite <- DecimalN.Unsigned.to_of, DecimalN.Unsigned.of_to; reflexivity).
  cbv zeta. set (d := N.to_uint n) in *. clearbody d. unfold Decimal.unorm in U.
  assert (NZ : forall d, match Decimal.nzhead d with Decimal.D0 _ => False | _ => True end) by (induction d0; cbn; auto).
  specialize (NZ d). destruct (Decimal.nzhead d); subst d; cbn [ds10 hd]; try (exfalso; exact NZ); (split; [rewrite lenN_cons; lia|try discriminate; intros _; apply N.le_refl]).
Qed.
Lemma front16 : forall n, let ds := ds16 (N.to_hex_uint n) in 1 <= lenN ds /\ (hd 0 ds = 0 -> lenN ds <= 1).
Proof.
  intros n. assert (U : N.to_hex_uint n = Hexadecimal.unorm (N.to_hex_uint n)) by (rewrite <- HexadecimalN.Unsigned.to_of, HexadecimalN.Unsigned.of_to; reflexivity).
  cbv zeta. set (d := N.to_hex_uint n) in *. clearbody d. unfold Hexadecimal.unorm in U.
  assert (NZ : forall d, match Hexadecimal.nzhead d with Hexadecimal.D0 _ => False | _ => True end) by (induction d0; cbn; auto).
  specialize (NZ d). destruct (Hexadecimal.nzhead d); subst d; cbn [ds16 hd]; try (exfalso; exact NZ); (split; [rewrite lenN_cons; lia|try discriminate; intros _; apply N.le_refl]).
Qed.
Lemma nilzero10 : forall d, 1 <= lenN (ds10 d) -> DecimalString.NilZero.string_of_uint d = DecimalString.NilEmpty.string_of_uint d.
Proof. intros [] H; try reflexivity. vm_compute in H. destruct H. reflexivity. Qed.
Lemma nilzero16 : forall d, 1 <= lenN (ds16 d) -> HexadecimalString.NilZero.string_of_uint d = HexadecimalString.NilEmpty.string_of_uint d.
Proof. intros [] H; try reflexivity. vm_compute in H. destruct H. reflexivity. Qed.

(** the numerals *)
Lemma dec_numeral : forall n, numeral 10 1 n (dec_text n).
Proof.
  intros n. exists (ds10 (N.to_uint n)). destruct (front10 n) as [L H]. unfold dec_text. rewrite nilzero10 by exact L.
  split; [apply text10|]. split; [apply below10|]. split; [|split; [exact L|exact H]]. rewrite <- value10. apply DecimalN.Unsigned.of_to.
Qed.
Lemma hex_numeral : forall n, numeral 16 1 n (hex_upper n).
Proof.
  intros n. exists (ds16 (N.to_hex_uint n)). destruct (front16 n) as [L H]. unfold hex_upper, hex_text. rewrite nilzero16 by exact L.
  split; [apply text16|]. split; [apply below16|]. split; [|split; [exact L|exact H]]. rewrite <- value16. apply HexadecimalN.Unsigned.of_to.
Qed.
Lemma hex2_numeral : forall n, numeral 16 2 n (hex2_upper n).
Proof.
  intros n. unfold hex2_upper, hex2, pad_left. rewrite map_app. fold (hex_upper n). destruct (hex_numeral n) as (ds & E & F & V & L & H).
  assert (LT : lenN (hex_text n) = lenN ds).
  { apply (f_equal (@lenN _)) in E. unfold hex_upper in E. rewrite !lenN_map in E. exact E. }
  rewrite E, LT. destruct (N.eq_dec (lenN ds) 1) as [L1|L1].
  - exists (0 :: ds). rewrite L1. split; [reflexivity|]. split; [constructor; [reflexivity|exact F]|]. split; [exact V|].
    rewrite lenN_cons. split; [lia|]. intros _. lia.
  - exists ds. replace (2 - lenN ds) with 0 by lia. split; [reflexivity|]. split; [exact F|]. split; [exact V|].
    split; [lia|]. intros Z. specialize (H Z). lia.
Qed.
