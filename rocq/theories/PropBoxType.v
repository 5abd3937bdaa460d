(** C20: the text form of box types. *)
From Verif Require Import Base BaseProofs Schema Structs Registry Text SpecFields.
Local Open Scope string_scope.
Local Open Scope list_scope.
Local Open Scope N_scope.

(** printable ASCII *)
Definition plain_char (c : byte) : Prop := 32 <= N_of_ascii c <= 126.
Definition copyright : byte := ascii_of_N 169.
(** the two hexadecimal digits of a byte *)
Definition in_hex (c : byte) : list byte :=
  bytes_of_string (digit (N_of_ascii c / 16) ++ digit (N_of_ascii c mod 16))%string.

Lemma is_ascii_iff : forall c, is_ascii c = true <-> plain_char c.
Proof. intros c. unfold is_ascii, plain_char. rewrite andb_true_iff, !N.leb_le. tauto. Qed.
Lemma hex_byte_spec : forall c, hex_byte c = in_hex c.
Proof. intros [[] [] [] [] [] [] [] []]; reflexivity. Qed.
Lemma copyright_iff : forall c, N_of_ascii c =? 169 = true <-> c = copyright.
Proof.
  intros c. rewrite N.eqb_eq. split; [|now intros ->]. intros H. rewrite <- (ascii_N_embedding c), H. reflexivity.
Qed.

(** C20.  Four printable characters print as themselves; a type with a byte that
    is neither printable nor 0xa9 prints as 0x and the eight hexadecimal digits;
    0xa9 (the copyright sign of QuickTime types) prints as (c). *)
Theorem C20_text : forall a b c d,
  (plain_char a -> plain_char b -> plain_char c -> plain_char d -> box_type_string [a; b; c; d] = [a; b; c; d]) /\
  (forall x, In x [a; b; c; d] -> ~ plain_char x -> x <> copyright ->
     box_type_string [a; b; c; d] = bytes_of_string "0x" ++ in_hex a ++ in_hex b ++ in_hex c ++ in_hex d) /\
  ((forall x, In x [a; b; c; d] -> plain_char x \/ x = copyright) ->
     box_type_string [a; b; c; d] =
     flat_map (fun x => if Ascii.eqb x copyright then bytes_of_string "(c)" else [x]) [a; b; c; d]).
Proof.
  intros a b c d.
  assert (P : forall x, is_printable x = true <-> plain_char x \/ x = copyright).
  { intros x. unfold is_printable. now rewrite orb_true_iff, is_ascii_iff, copyright_iff. }
  assert (Q : (forall x, In x [a; b; c; d] -> plain_char x \/ x = copyright) ->
     box_type_string [a; b; c; d] =
     flat_map (fun x => if Ascii.eqb x copyright then bytes_of_string "(c)" else [x]) [a; b; c; d]).
  { intros H. unfold box_type_string.
    replace (forallb is_printable [a; b; c; d]) with true by (symmetry; apply forallb_forall; intros x I; apply P, H, I).
    apply flat_map_ext. intros x. destruct (Ascii.eqb_spec x copyright) as [->|N]; [reflexivity|].
    destruct (N_of_ascii x =? 169) eqn:E; [apply copyright_iff in E; congruence|reflexivity]. }
  assert (NC : forall x, plain_char x -> Ascii.eqb x copyright = false).
  { intros x H. destruct (Ascii.eqb_spec x copyright) as [->|N]; [|reflexivity]. unfold plain_char in H. vm_compute in H. now destruct H as [_ H]. }
  split; [|split; [|exact Q]].
  - intros Ha Hb Hc Hd. rewrite Q.
    + cbn [flat_map]. rewrite !NC by assumption. reflexivity.
    + intros x [<-|[<-|[<-|[<-|[]]]]]; now left.
  - intros x I N1 N2. unfold box_type_string.
    replace (forallb is_printable [a; b; c; d]) with false.
    + cbn [flat_map]. now rewrite !hex_byte_spec, app_nil_r.
    + symmetry. destruct (forallb is_printable [a; b; c; d]) eqn:E; [|reflexivity]. rewrite forallb_forall in E.
      apply E, P in I. tauto.
Qed.
Print Assumptions C20_text.
Example C20_case :
  (box_type_string (bt "moov"), box_type_string [copyright; "n"; "a"; "m"]%char, box_type_string [bzero; "a"; copyright; ascii_of_N 255]%char)
  = (bytes_of_string "moov", bytes_of_string "(c)nam", bytes_of_string "0x0061a9ff").
Proof. vm_compute. reflexivity. Qed.

(** Distinct types print differently, except one pair.  *)
Theorem C20_injective_partial : forall a b c d a' b' c' d',
  box_type_string [a; b; c; d] = box_type_string [a'; b'; c'; d'] ->
  [a; b; c; d] = [a'; b'; c'; d'] \/
  ([a; b; c; d] = [copyright; "("; "c"; ")"]%char /\ [a'; b'; c'; d'] = ["("; "c"; ")"; copyright]%char) \/
  ([a; b; c; d] = ["("; "c"; ")"; copyright]%char /\ [a'; b'; c'; d'] = [copyright; "("; "c"; ")"]%char).
Proof.
  assert (HI : forall x y r s, hex_byte x ++ r = hex_byte y ++ s -> x = y /\ r = s).
  { intros x y r s H. unfold hex_byte in H. cbn [app] in H. injection H as H1 H2 H3. split; [|exact H3].
    assert (D : forall n m, n < 16 -> m < 16 -> hex_digit n = hex_digit m -> n = m).
    { clear. intros n m Hn Hm H. apply (f_equal N_of_ascii) in H. unfold hex_digit in H.
      destruct (N.ltb_spec n 10), (N.ltb_spec m 10); rewrite !N_ascii_embedding in H by lia; lia. }
    pose proof (N_ascii_bounded x). pose proof (N_ascii_bounded y).
    apply D in H1; [|apply N.div_lt_upper_bound; lia|apply N.div_lt_upper_bound; lia].
    apply D in H2; [|apply N.mod_lt; lia|apply N.mod_lt; lia].
    rewrite <- (ascii_N_embedding x), <- (ascii_N_embedding y). f_equal.
    rewrite (N.div_mod (N_of_ascii x) 16), (N.div_mod (N_of_ascii y) 16) by lia. now rewrite H1, H2. }
  set (g := fun c => if N_of_ascii c =? 169 then bytes_of_string "(c)" else [c]).
  assert (PC : forall x, is_printable x = true -> (x = copyright /\ g x = ["("; "c"; ")"]%char) \/ (x <> copyright /\ g x = [x])).
  { intros x H. unfold g. destruct (N_of_ascii x =? 169) eqn:E.
    - left. split; [now apply copyright_iff|reflexivity].
    - right. split; [|reflexivity]. intros ->. discriminate E. }
  intros a b c d a' b' c' d' H. unfold box_type_string in H. fold g in H.
  destruct (forallb is_printable [a; b; c; d]) eqn:E1, (forallb is_printable [a'; b'; c'; d']) eqn:E2.
  - cbn [forallb] in E1, E2. rewrite !andb_true_iff in E1, E2. destruct E1 as (Pa & Pb & Pc & Pd & _). destruct E2 as (Pa' & Pb' & Pc' & Pd' & _).
    cbn [flat_map] in H.
    destruct (PC _ Pa) as [[-> Ga]|[Na Ga]], (PC _ Pb) as [[-> Gb]|[Nb Gb]], (PC _ Pc) as [[-> Gc]|[Nc Gc]], (PC _ Pd) as [[-> Gd]|[Nd Gd]];
    destruct (PC _ Pa') as [[-> Ga']|[Na' Ga']], (PC _ Pb') as [[-> Gb']|[Nb' Gb']], (PC _ Pc') as [[-> Gc']|[Nc' Gc']], (PC _ Pd') as [[-> Gd']|[Nd' Gd']];
    rewrite ?Ga, ?Gb, ?Gc, ?Gd, ?Ga', ?Gb', ?Gc', ?Gd' in H; cbn [app] in H; clear Ga Gb Gc Gd Ga' Gb' Gc' Gd' Pa Pb Pc Pd Pa' Pb' Pc' Pd' PC HI g;
    first [discriminate H | now left | injection H; intros; subst; first [now left | right; left; now split | right; right; now split | exfalso; congruence]].
  - exfalso. cbn [forallb] in E1. rewrite !andb_true_iff in E1. destruct E1 as (Pa & Pb & Pc & Pd & _).
    cbn [flat_map] in H. unfold hex_byte in H. cbn [app bytes_of_string list_ascii_of_string] in H.
    destruct (PC _ Pa) as [[-> Ga]|[Na Ga]], (PC _ Pb) as [[-> Gb]|[Nb Gb]], (PC _ Pc) as [[-> Gc]|[Nc Gc]], (PC _ Pd) as [[-> Gd]|[Nd Gd]];
    rewrite ?Ga, ?Gb, ?Gc, ?Gd in H; cbn [app] in H; discriminate H.
  - exfalso. cbn [forallb] in E2. rewrite !andb_true_iff in E2. destruct E2 as (Pa & Pb & Pc & Pd & _).
    cbn [flat_map] in H. unfold hex_byte in H. cbn [app bytes_of_string list_ascii_of_string] in H.
    destruct (PC _ Pa) as [[-> Ga]|[Na Ga]], (PC _ Pb) as [[-> Gb]|[Nb Gb]], (PC _ Pc) as [[-> Gc]|[Nc Gc]], (PC _ Pd) as [[-> Gd]|[Nd Gd]];
    rewrite ?Ga, ?Gb, ?Gc, ?Gd in H; cbn [app] in H; discriminate H.
  - apply app_inv_head in H. cbn [flat_map] in H.
    apply HI in H. destruct H as [-> H]. apply HI in H. destruct H as [-> H]. apply HI in H. destruct H as [-> H]. apply HI in H. destruct H as [-> _].
    now left.
Qed.
Print Assumptions C20_injective_partial.
(** the pair *)
Theorem C20_injective_refuted : exists t t', lenN t = 4 /\ lenN t' = 4 /\ t <> t' /\ box_type_string t = box_type_string t'.
Proof. exists [copyright; "("; "c"; ")"]%char, ["("; "c"; ")"; copyright]%char. repeat split. discriminate. Qed.
Print Assumptions C20_injective_refuted.

(** StrToBoxType and String are inverse on printable types; Uint32ToBoxType gives
    the bytes of the number, most significant first. *)
Theorem C20_from_text : forall s, Forall plain_char s ->
  (lenN s = 4 -> str_to_box_type s = Ok s /\ box_type_string s = s) /\ (lenN s <> 4 -> str_to_box_type s = Panic).
Proof.
  intros s F. unfold str_to_box_type. split; intros L.
  - rewrite L. split; [reflexivity|]. unfold lenN in L. destruct s as [|a [|b [|c [|d [|e s]]]]]; cbn in L; try lia.
    inversion F as [|? ? Ha F1]. inversion F1 as [|? ? Hb F2]. inversion F2 as [|? ? Hc F3]. inversion F3 as [|? ? Hd _]. subst.
    now apply C20_text.
  - apply N.eqb_neq in L. now rewrite L.
Qed.
Print Assumptions C20_from_text.
