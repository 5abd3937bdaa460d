(** Lemmas about the basic vocabulary. *)
From Verif Require Import Base.
Local Open Scope monad_scope.
Local Open Scope N_scope.
Ltac Zify.zify_post_hook ::= Z.to_euclidean_division_equations.

(** ** lists indexed by N *)
Lemma lenN_nil : forall A, lenN (@nil A) = 0. Proof. reflexivity. Qed.
Lemma lenN_cons : forall A (x : A) l, lenN (x :: l) = lenN l + 1.
Proof. intros; unfold lenN; cbn [List.length]; lia. Qed.
Lemma lenN_app : forall A (l m : list A), lenN (l ++ m) = lenN l + lenN m.
Proof. intros; unfold lenN; rewrite app_length; lia. Qed.
Lemma lenN_map : forall A B (f : A -> B) l, lenN (map f l) = lenN l.
Proof. intros; unfold lenN; now rewrite map_length. Qed.
Lemma lenN_rev : forall A (l : list A), lenN (rev l) = lenN l.
Proof. intros; unfold lenN; now rewrite rev_length. Qed.
Lemma lenN_0 : forall A (l : list A), lenN l = 0 -> l = [].
Proof. intros A [|x l]; auto. rewrite lenN_cons; lia. Qed.
Lemma lenN_repeat : forall A (x : A) n, lenN (repeat x n) = N.of_nat n.
Proof. intros; unfold lenN; now rewrite repeat_length. Qed.

Lemma takeN_firstn : forall A (l : list A) n, takeN n l = firstn (N.to_nat n) l.
Proof.
  induction l as [|x l IH]; intros n; cbn [takeN].
  - now rewrite firstn_nil.
  - destruct (N.eqb_spec n 0) as [->|H]; [reflexivity|].
    replace (N.to_nat n) with (S (N.to_nat (N.pred n))) by lia.
    cbn [firstn]. now rewrite IH.
Qed.
Lemma skipN_skipn : forall A (l : list A) n, skipN n l = skipn (N.to_nat n) l.
Proof.
  induction l as [|x l IH]; intros n; cbn [skipN].
  - now rewrite skipn_nil.
  - destruct (N.eqb_spec n 0) as [->|H]; [reflexivity|].
    replace (N.to_nat n) with (S (N.to_nat (N.pred n))) by lia.
    cbn [skipn]. now rewrite IH.
Qed.
Lemma nthN_nth_error : forall A (l : list A) n, nthN n l = nth_error l (N.to_nat n).
Proof.
  induction l as [|x l IH]; intros n; cbn [nthN].
  - now destruct (N.to_nat n).
  - destruct (N.eqb_spec n 0) as [->|H]; [reflexivity|].
    replace (N.to_nat n) with (S (N.to_nat (N.pred n))) by lia.
    cbn [nth_error]. now rewrite IH.
Qed.
Lemma lenN_takeN : forall A (l : list A) n, lenN (takeN n l) = N.min n (lenN l).
Proof. intros; rewrite takeN_firstn; unfold lenN; rewrite firstn_length; lia. Qed.
Lemma lenN_skipN : forall A (l : list A) n, lenN (skipN n l) = lenN l - n.
Proof. intros; rewrite skipN_skipn; unfold lenN; rewrite skipn_length; lia. Qed.
Lemma takeN_app_exact : forall A (l m : list A) n, n = lenN l -> takeN n (l ++ m) = l.
Proof.
  intros; subst; rewrite takeN_firstn; unfold lenN.
  rewrite Nat2N.id, firstn_app, Nat.sub_diag, firstn_O, firstn_all, app_nil_r; auto.
Qed.
Lemma skipN_app_exact : forall A (l m : list A) n, n = lenN l -> skipN n (l ++ m) = m.
Proof.
  intros; subst; rewrite skipN_skipn; unfold lenN.
  rewrite Nat2N.id, skipn_app, Nat.sub_diag, skipn_all; auto.
Qed.
Lemma takeN_0 : forall A (l : list A), takeN 0 l = [].
Proof. intros A [|x l]; reflexivity. Qed.
Lemma skipN_0 : forall A (l : list A), skipN 0 l = l.
Proof. intros A [|x l]; reflexivity. Qed.
Lemma takeN_all : forall A (l : list A) n, lenN l <= n -> takeN n l = l.
Proof. intros; rewrite takeN_firstn; apply firstn_all2; unfold lenN in *; lia. Qed.
Lemma skipN_all : forall A (l : list A) n, lenN l <= n -> skipN n l = [].
Proof. intros; rewrite skipN_skipn; apply skipn_all2; unfold lenN in *; lia. Qed.
Lemma takeN_skipN : forall A (l : list A) n, takeN n l ++ skipN n l = l.
Proof. intros; rewrite takeN_firstn, skipN_skipn; apply firstn_skipn. Qed.
Lemma skipN_skipN : forall A (l : list A) n m, skipN n (skipN m l) = skipN (m + n) l.
Proof.
  intros A l n m; revert l. rewrite N.add_comm.
  intros l. rewrite !skipN_skipn. rewrite N2Nat.inj_add.
  generalize (N.to_nat n) as a, (N.to_nat m) as b. clear n m. intros a b; revert l.
  induction b; intros l; [now rewrite Nat.add_0_r|].
  destruct l; [now rewrite !skipn_nil|].
  rewrite Nat.add_succ_r. cbn [skipn]. apply IHb.
Qed.
Lemma takeN_takeN : forall A (l : list A) n m, takeN n (takeN m l) = takeN (N.min n m) l.
Proof. intros; rewrite !takeN_firstn, firstn_firstn; f_equal; lia. Qed.
Lemma takeN_app_le : forall A (l m : list A) n, n <= lenN l -> takeN n (l ++ m) = takeN n l.
Proof.
  intros; rewrite !takeN_firstn, firstn_app. unfold lenN in *.
  replace (N.to_nat n - Datatypes.length l)%nat with O by lia. rewrite firstn_O, app_nil_r; auto.
Qed.
Lemma takeN_app_ge : forall A (l m : list A) n, lenN l <= n -> takeN n (l ++ m) = l ++ takeN (n - lenN l) m.
Proof.
  intros; rewrite !takeN_firstn, firstn_app. unfold lenN in *.
  rewrite firstn_all2 by lia. f_equal; f_equal; lia.
Qed.
Lemma skipN_app_le : forall A (l m : list A) n, n <= lenN l -> skipN n (l ++ m) = skipN n l ++ m.
Proof.
  intros; rewrite !skipN_skipn, skipn_app. unfold lenN in *.
  replace (N.to_nat n - Datatypes.length l)%nat with O by lia. auto.
Qed.
Lemma skipN_app_ge : forall A (l m : list A) n, lenN l <= n -> skipN n (l ++ m) = skipN (n - lenN l) m.
Proof.
  intros; rewrite !skipN_skipn, skipn_app. unfold lenN in *.
  rewrite skipn_all2 by lia. cbn. f_equal; lia.
Qed.

(** ** loops *)
Fixpoint loop_nat {S A} (k : nat) (body : A -> M S A) (a : A) : M S A :=
  match k with
  | O => ret a
  | Datatypes.S k => bind (body a) (loop_nat k body)
  end.
Lemma bind_assoc : forall S A B C (m : M S A) (f : A -> M S B) (g : B -> M S C) s,
  bind (bind m f) g s = bind m (fun a => bind (f a) g) s.
Proof. intros; unfold bind; destruct (m s) as [[] ?]; auto. Qed.
Lemma bind_ext : forall S A B (m : M S A) (f g : A -> M S B) s,
  (forall a s', f a s' = g a s') -> bind m f s = bind m g s.
Proof. intros; unfold bind; destruct (m s) as [[] ?]; auto. Qed.
Lemma bind_ret : forall S A B (a : A) (f : A -> M S B) s, bind (ret a) f s = f a s.
Proof. reflexivity. Qed.
Lemma bind_congr : forall S A B (m m' : M S A) (f : A -> M S B) s,
  m s = m' s -> bind m f s = bind m' f s.
Proof. intros; unfold bind; rewrite H; auto. Qed.
Lemma loop_nat_add : forall S A (body : A -> M S A) j k a s,
  loop_nat (j + k) body a s = bind (loop_nat j body a) (loop_nat k body) s.
Proof.
  induction j; intros k a s; [reflexivity|].
  cbn [loop_nat Nat.add]. rewrite bind_assoc. apply bind_ext. intros; apply IHj.
Qed.
Lemma loopP_nat : forall S A (body : A -> M S A) p a s,
  loopP p body a s = loop_nat (Pos.to_nat p) body a s.
Proof.
  induction p; intros a s.
  - replace (Pos.to_nat p~1) with (Datatypes.S (Pos.to_nat p + Pos.to_nat p)) by lia.
    cbn [loopP loop_nat]. apply bind_ext; intros. rewrite loop_nat_add.
    transitivity (bind (loop_nat (Pos.to_nat p) body a0) (loopP p body) s').
    + apply bind_congr, IHp.
    + apply bind_ext; intros; apply IHp.
  - replace (Pos.to_nat p~0) with (Pos.to_nat p + Pos.to_nat p)%nat by lia.
    cbn [loopP]. rewrite loop_nat_add.
    transitivity (bind (loop_nat (Pos.to_nat p) body a) (loopP p body) s).
    + apply bind_congr, IHp.
    + apply bind_ext; intros; apply IHp.
  - cbn [loopP]. change (Pos.to_nat 1) with 1%nat. cbn [loop_nat].
    unfold bind, ret; destruct (body a s) as [[] ?]; auto.
Qed.
Lemma loopN_nat : forall S A (body : A -> M S A) n a s,
  loopN n body a s = loop_nat (N.to_nat n) body a s.
Proof. intros S A body [|p] a s; [reflexivity|]. cbn [loopN]. rewrite loopP_nat. reflexivity. Qed.

Fixpoint while_nat {S A B} (k : nat) (body : A -> M S (A + B)) (a : A) : M S (A + B) :=
  match k with
  | O => ret (inl a)
  | Datatypes.S k => bind (body a) (fun x => match x with
                        | inl a1 => while_nat k body a1 | inr b => ret (inr b) end)
  end.
Lemma while_nat_add : forall S A B (body : A -> M S (A + B)) j k a s,
  while_nat (j + k) body a s =
  bind (while_nat j body a) (fun x => match x with
     | inl a1 => while_nat k body a1 | inr b => ret (inr b) end) s.
Proof.
  induction j; intros k a s; [reflexivity|].
  cbn [while_nat Nat.add]. rewrite bind_assoc. apply bind_ext. intros [a1|b] s'; auto.
Qed.
Lemma whileP_nat : forall S A B (body : A -> M S (A + B)) p a s,
  whileP p body a s = while_nat (Pos.to_nat p) body a s.
Proof.
  assert (E : forall S A B (body : A -> M S (A + B)) q,
    (forall a s, whileP q body a s = while_nat (Pos.to_nat q) body a s) ->
    forall a s,
    bind (whileP q body a) (fun x => match x with
                 | inl a1 => whileP q body a1 | inr b => ret (inr b) end) s
    = while_nat (Pos.to_nat q + Pos.to_nat q) body a s).
  { intros S A B body q IH a s. rewrite while_nat_add.
    transitivity (bind (while_nat (Pos.to_nat q) body a) (fun x => match x with
                 | inl a1 => whileP q body a1 | inr b => ret (inr b) end) s).
    - apply bind_congr, IH.
    - apply bind_ext; intros [a1|b] s'; auto. }
  induction p; intros a s.
  - replace (Pos.to_nat p~1) with (Datatypes.S (Pos.to_nat p + Pos.to_nat p)) by lia.
    cbn [whileP while_nat]. apply bind_ext; intros [a1|b] s'; auto.
  - replace (Pos.to_nat p~0) with (Pos.to_nat p + Pos.to_nat p)%nat by lia.
    cbn [whileP]. apply E, IHp.
  - cbn [whileP]. change (Pos.to_nat 1) with 1%nat. cbn [while_nat].
    unfold bind, ret; destruct (body a s) as [[[]| | |] ?]; auto.
Qed.

(** one step of a loop *)
Lemma loop_nat_ok : forall S A (body : A -> M S A) k a s a' s',
  body a s = (Ok a', s') -> loop_nat (Datatypes.S k) body a s = loop_nat k body a' s'.
Proof. intros; cbn [loop_nat]; unfold bind; now rewrite H. Qed.

(** [while] unfolded: with enough fuel the loop is its own unfolding *)
Lemma while_unfold : forall S A B (body : A -> M S (A + B)) k a s,
  while (Pos.of_succ_nat (Datatypes.S k)) body a s =
  match body a s with
  | (Ok (inl a1), s') => while (Pos.of_succ_nat k) body a1 s'
  | (Ok (inr b), s') => (Ok b, s')
  | (Err e, s') => (Err e, s')
  | (Panic, s') => (Panic, s')
  | (OutOfFuel, s') => (OutOfFuel, s')
  end.
Proof.
  intros. unfold while. rewrite whileP_nat.
  rewrite SuccNat2Pos.id_succ. cbn [while_nat]. unfold bind.
  destruct (body a s) as [[[a1|b]|e| |] s']; try reflexivity.
  rewrite whileP_nat, SuccNat2Pos.id_succ. reflexivity.
Qed.

(** ** bytes and bits *)
Lemma b2N_lt : forall b, b2N b < 256.
Proof. intros; unfold b2N. apply N_ascii_bounded. Qed.
Lemma N2b_b2N : forall b, N2b (b2N b) = b.
Proof.
  intros; unfold N2b. rewrite N.mod_small by apply b2N_lt. apply ascii_N_embedding.
Qed.
Lemma b2N_N2b : forall n, b2N (N2b n) = n mod 256.
Proof.
  intros; unfold N2b, b2N. apply N_ascii_embedding. apply N.mod_lt; discriminate.
Qed.
Lemma b2N_inj : forall a b, b2N a = b2N b -> a = b.
Proof. intros a b H. rewrite <- (N2b_b2N a), H. apply N2b_b2N. Qed.
Lemma N2b_mod : forall n, N2b (n mod 256) = N2b n.
Proof. intros; unfold N2b; now rewrite N.mod_mod by discriminate. Qed.
Lemma byte_eqb_eq : forall a b, byte_eqb a b = true <-> a = b.
Proof. intros; apply Ascii.eqb_eq. Qed.
Lemma bytes_eqb_eq : forall a b, bytes_eqb a b = true <-> a = b.
Proof.
  induction a; intros [|x b]; cbn [bytes_eqb]; split; try discriminate; auto.
  - rewrite andb_true_iff, byte_eqb_eq, IHa. intros [-> ->]; auto.
  - intros [= -> ->]. rewrite andb_true_iff, byte_eqb_eq, IHa. auto.
Qed.
Lemma bytes_eqb_refl : forall a, bytes_eqb a a = true.
Proof. intros; now apply bytes_eqb_eq. Qed.

Lemma bits_of_byte_length : forall b, List.length (bits_of_byte b) = 8%nat.
Proof. intros []; reflexivity. Qed.
Lemma byte_of_bits_of_byte : forall b, byte_of_bits (bits_of_byte b) = b.
Proof. intros []; reflexivity. Qed.
Lemma bits_of_byte_of_bits : forall l, List.length l = 8%nat -> bits_of_byte (byte_of_bits l) = l.
Proof.
  intros l H. do 9 (destruct l as [|? l]; try discriminate). reflexivity.
Qed.
Lemma bits_of_bytes_app : forall a b, bits_of_bytes (a ++ b) = bits_of_bytes a ++ bits_of_bytes b.
Proof. intros; apply flat_map_app. Qed.
Lemma bits_of_bytes_cons : forall a b, bits_of_bytes (a :: b) = bits_of_byte a ++ bits_of_bytes b.
Proof. reflexivity. Qed.
Lemma bits_of_bytes_length : forall l, List.length (bits_of_bytes l) = (8 * List.length l)%nat.
Proof.
  induction l; [reflexivity|]. rewrite bits_of_bytes_cons, app_length, bits_of_byte_length, IHl.
  cbn [List.length]; lia.
Qed.
Lemma lenN_bits_of_bytes : forall l, lenN (bits_of_bytes l) = 8 * lenN l.
Proof. intros; unfold lenN; rewrite bits_of_bytes_length; lia. Qed.
Lemma bits_of_bytes_inj : forall a b, bits_of_bytes a = bits_of_bytes b -> a = b.
Proof.
  induction a; intros [|y b] H.
  - reflexivity.
  - destruct y; discriminate.
  - destruct a; discriminate.
  - rewrite !bits_of_bytes_cons in H.
    assert (E : bits_of_byte a = bits_of_byte y /\ bits_of_bytes a0 = bits_of_bytes b).
    { apply app_eq_app in H. destruct a, y. destruct H as [l [[H1 H2]|[H1 H2]]];
      cbn in *; destruct l; try (injection H1; intros; discriminate);
      rewrite ?app_nil_r in *; subst; auto. }
    destruct E as [E1 E2]. f_equal; [|now apply IHa].
    rewrite <- (byte_of_bits_of_byte a), E1. apply byte_of_bits_of_byte.
Qed.

(** ** numbers as bits *)
Lemma bits_to_N_acc_app : forall a b acc,
  bits_to_N_acc acc (a ++ b) = bits_to_N_acc (bits_to_N_acc acc a) b.
Proof. induction a; intros; cbn [bits_to_N_acc app]; auto. Qed.
Lemma bits_to_N_acc_shift : forall l acc,
  bits_to_N_acc acc l = acc * 2 ^ lenN l + bits_to_N l.
Proof.
  unfold bits_to_N. induction l; intros acc; cbn [bits_to_N_acc].
  - rewrite lenN_nil; lia.
  - rewrite IHl, (IHl (2 * 0 + _)), lenN_cons, N.pow_add_r. lia.
Qed.
Lemma bits_to_N_app : forall a b, bits_to_N (a ++ b) = bits_to_N a * 2 ^ lenN b + bits_to_N b.
Proof. intros; unfold bits_to_N at 1. rewrite bits_to_N_acc_app, bits_to_N_acc_shift. reflexivity. Qed.
Lemma bits_to_N_lt : forall l, bits_to_N l < 2 ^ lenN l.
Proof.
  induction l using rev_ind; [reflexivity|].
  rewrite bits_to_N_app, lenN_app, N.pow_add_r. change (lenN [x]) with 1.
  unfold bits_to_N at 2. cbn [bits_to_N_acc]. destruct x; lia.
Qed.
Lemma N_to_bits_length : forall w n, List.length (N_to_bits w n) = w.
Proof.
  induction w; intros; cbn [N_to_bits]; [reflexivity|].
  rewrite app_length, IHw; cbn; lia.
Qed.
Lemma lenN_N_to_bits : forall w n, lenN (N_to_bits w n) = N.of_nat w.
Proof. intros; unfold lenN; now rewrite N_to_bits_length. Qed.
Lemma div2_odd : forall n, n = 2 * N.div2 n + (if N.odd n then 1 else 0).
Proof. intros; rewrite (N.div2_odd n) at 1. unfold N.b2n. destruct (N.odd n); lia. Qed.
Lemma bits_to_N_to_bits : forall w n, bits_to_N (N_to_bits w n) = n mod 2 ^ N.of_nat w.
Proof.
  induction w; intros n; cbn [N_to_bits].
  - unfold bits_to_N; cbn. now rewrite N.mod_1_r.
  - rewrite bits_to_N_app, IHw. change (lenN [N.odd n]) with 1.
    unfold bits_to_N; cbn [bits_to_N_acc].
    rewrite Nat2N.inj_succ, N.pow_succ_r'.
    pose proof (div2_odd n) as E. set (q := N.div2 n) in *.
    assert (0 < 2 ^ N.of_nat w) by (apply N.neq_0_lt_0, N.pow_nonzero; lia).
    set (p := 2 ^ N.of_nat w) in *.
    rewrite N.mul_0_r, N.add_0_l, N.pow_1_r.
    pose proof (N.div_mod q p ltac:(lia)) as D. pose proof (N.mod_lt q p ltac:(lia)) as L.
    apply N.mod_unique with (q := q / p); [destruct (N.odd n); lia|].
    rewrite E at 1. rewrite D at 1. destruct (N.odd n); lia.
Qed.
Lemma N_to_bits_to_N : forall l, N_to_bits (List.length l) (bits_to_N l) = l.
Proof.
  induction l using rev_ind; [reflexivity|].
  rewrite app_length, Nat.add_1_r. cbn [N_to_bits].
  rewrite bits_to_N_app. change (lenN [x]) with 1.
  unfold bits_to_N at 2 4; cbn [bits_to_N_acc].
  rewrite N.pow_1_r, N.mul_0_r, N.add_0_l.
  rewrite N.mul_comm.
  replace (N.div2 (2 * bits_to_N l + (if x then 1 else 0))) with (bits_to_N l).
  - rewrite IHl. f_equal. f_equal.
    rewrite N.add_comm. destruct x.
    + rewrite N.odd_add_mul_2. reflexivity.
    + rewrite N.odd_add_mul_2. reflexivity.
  - destruct x; [now rewrite N.div2_succ_double with (n := bits_to_N l) || (rewrite N.add_1_r; destruct (bits_to_N l); reflexivity)|].
    rewrite N.add_0_r. destruct (bits_to_N l); reflexivity.
Qed.
Lemma bits_to_N_inj : forall a b, List.length a = List.length b -> bits_to_N a = bits_to_N b -> a = b.
Proof.
  intros a b H1 H2. rewrite <- (N_to_bits_to_N a), <- (N_to_bits_to_N b), H1, H2. reflexivity.
Qed.
Lemma N_to_bits_app : forall w1 w2 n,
  N_to_bits (w1 + w2) n = N_to_bits w1 (n / 2 ^ N.of_nat w2) ++ N_to_bits w2 n.
Proof.
  intros w1 w2; revert w1. induction w2; intros w1 n.
  - rewrite Nat.add_0_r. cbn [N_to_bits]. rewrite app_nil_r. change (2 ^ N.of_nat 0) with 1.
    now rewrite N.div_1_r.
  - rewrite Nat.add_succ_r. cbn [N_to_bits]. rewrite IHw2, app_assoc. f_equal. f_equal. f_equal.
    rewrite Nat2N.inj_succ, N.pow_succ_r', N.div2_div.
    rewrite N.div_div by (try apply N.pow_nonzero; lia). reflexivity.
Qed.
Lemma N_to_bits_mod : forall w n, N_to_bits w (n mod 2 ^ N.of_nat w) = N_to_bits w n.
Proof.
  intros. rewrite <- bits_to_N_to_bits. pose proof (N_to_bits_to_N (N_to_bits w n)) as H.
  now rewrite N_to_bits_length in H.
Qed.
Lemma bits_of_byte_N : forall b, bits_of_byte b = N_to_bits 8 (b2N b).
Proof. intros b. destruct b as [[] [] [] [] [] [] [] []]; reflexivity. Qed.
Lemma bits_to_N_byte : forall b, bits_to_N (bits_of_byte b) = b2N b.
Proof.
  intros. rewrite bits_of_byte_N, bits_to_N_to_bits. apply N.mod_small. apply b2N_lt.
Qed.
Lemma bits_of_N2b : forall n, bits_of_byte (N2b n) = N_to_bits 8 n.
Proof.
  intros. rewrite bits_of_byte_N, b2N_N2b. apply (N_to_bits_mod 8).
Qed.

(** ** big endian *)
Lemma be_to_N_acc_bits : forall l acc,
  be_to_N_acc acc l = bits_to_N_acc acc (bits_of_bytes l).
Proof.
  induction l; intros; [reflexivity|].
  rewrite bits_of_bytes_cons, bits_to_N_acc_app. cbn [be_to_N_acc]. rewrite IHl. f_equal.
  rewrite bits_to_N_acc_shift, bits_to_N_byte. unfold lenN; rewrite bits_of_byte_length.
  change (2 ^ N.of_nat 8) with 256. lia.
Qed.
Lemma be_to_N_bits : forall l, be_to_N l = bits_to_N (bits_of_bytes l).
Proof. intros; apply be_to_N_acc_bits. Qed.
Lemma N_to_be_length : forall w n, List.length (N_to_be w n) = w.
Proof.
  induction w; intros; cbn [N_to_be]; [reflexivity|].
  rewrite app_length, IHw; cbn; lia.
Qed.
Lemma lenN_N_to_be : forall w n, lenN (N_to_be w n) = N.of_nat w.
Proof. intros; unfold lenN; now rewrite N_to_be_length. Qed.
Lemma N_to_be_bits : forall w n, bits_of_bytes (N_to_be w n) = N_to_bits (8 * w) n.
Proof.
  induction w; intros n; [reflexivity|].
  replace (8 * S w)%nat with (8 * w + 8)%nat by lia.
  rewrite N_to_bits_app. cbn [N_to_be]. rewrite bits_of_bytes_app, IHw. f_equal.
  cbn [bits_of_bytes flat_map]. rewrite app_nil_r. apply bits_of_N2b.
Qed.
Lemma be_to_N_to_be : forall w n, be_to_N (N_to_be w n) = n mod 2 ^ (8 * N.of_nat w).
Proof.
  intros. rewrite be_to_N_bits, N_to_be_bits, bits_to_N_to_bits. f_equal. f_equal. lia.
Qed.
Lemma N_to_be_to_N : forall l, N_to_be (List.length l) (be_to_N l) = l.
Proof.
  intros. apply bits_of_bytes_inj. rewrite N_to_be_bits, be_to_N_bits.
  rewrite <- bits_of_bytes_length. apply N_to_bits_to_N.
Qed.
Lemma be_to_N_lt : forall l, be_to_N l < 2 ^ (8 * lenN l).
Proof. intros; rewrite be_to_N_bits, <- lenN_bits_of_bytes; apply bits_to_N_lt. Qed.
