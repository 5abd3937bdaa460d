(** C10: Unmarshal returns. *)
From Verif Require Import Base BaseProofs BitIO Schema Methods Registry Marshal Unmarshal Decode.
From Verif Require Import SpecTotal BitIOProofs MarshalProofs MarshalCount UnmarshalProofs VersionFacts Causal Shape Total.
Local Open Scope string_scope.
Local Open Scope list_scope.
Local Open Scope N_scope.
Ltac Zify.zify_post_hook ::= Z.to_euclidean_division_equations.

Lemma find_def_type : forall t c l d, find_def t c l = Some d -> In (t, d) l.
Proof.
  intros t c. induction l as [|[t' d'] l IH]; intros d H; [discriminate|]. cbn [find_def] in H.
  destruct (bt_eqb t t') eqn:E; cbn [andb] in H.
  - destruct (pred_holds _ _); [|right; auto]. injection H as ->. left. f_equal.
    apply bytes_eqb_eq in E. now symmetry.
  - right. auto.
Qed.
Lemma std_trun_type : forallb (fun td => implb (String.eqb (bd_name (snd td)) "Trun") (bt_eqb (fst td) (bt "trun")))
  std_registry = true.
Proof. vm_compute. reflexivity. Qed.
Lemma trun_type : forall t c d, get_box_def std_registry t c = Some d -> bd_name d = "Trun" -> t = bt "trun".
Proof.
  intros t c d H E. unfold get_box_def in H. destruct (find_def t c (rev std_registry)) as [d'|] eqn:F.
  - injection H as ->. apply find_def_type in F. apply in_rev in F.
    pose proof std_trun_type as S. rewrite forallb_forall in S. specialize (S _ F). cbn [fst snd] in S.
    rewrite E in S. cbn [String.eqb implb] in S. now apply bytes_eqb_eq in S.
  - destruct (UnderIlst c); [|discriminate]. destruct (_ && _); [|discriminate]. injection H as <-. discriminate.
Qed.

(** On a stream of less than 2^48 bytes (the size of an address space; the model
    lets make() of more than that panic), UnmarshalAny of any type, registered
    or not, with any payload size and context returns a value or an error.  The
    exception is the trun box described in SpecTotal.v. *)
Theorem C10_unmarshal_total_partial : forall data t size ctx pos,
  pos <= lenN data -> lenN data < 2 ^ 48 ->
  (t = bt "trun" -> ~ trun_endless (skipN pos data)) ->
  (exists d x n, fst (unmarshal_any std_registry data t size ctx pos) = Ok (d, x, n)) \/
  (exists e, fst (unmarshal_any std_registry data t size ctx pos) = Err e).
Proof.
  intros data t size ctx pos Hp Hd NT. change (2 ^ 48) with 281474976710656 in Hd.
  destruct (get_box_def std_registry t ctx) as [d|] eqn:G.
  2:{ right. unfold unmarshal_any, new_box. rewrite G. cbn [fst]. eauto. }
  assert (Hd' : lenN data < 2 ^ 62) by (change (2 ^ 62) with 4611686018427387904; lia).
  pose proof (unmarshal_any_decode t ctx d data size pos G Hp Hd') as U. cbv zeta in U.
  pose proof (all_defs_check _ _ _ _ _ eq_refl std_total G) as H1. cbv beta in H1.
  pose proof (all_defs_check _ _ _ _ _ eq_refl std_ht G) as H2. cbv beta in H2.
  pose proof (all_defs_check _ _ _ _ _ eq_refl std_trun G) as H3. cbv beta in H3.
  pose proof (all_defs_check _ _ _ _ _ eq_refl std_nodup G) as H4. cbv beta in H4.
  pose proof (all_defs_check _ _ _ _ _ eq_refl std_fb G) as H5. cbv beta in H5.
  pose proof (all_defs_check _ _ _ _ _ eq_refl std_no_cp G) as H6. cbv beta in H6.
  assert (F : fine true (decode (dfuel data) d size ctx (zero_flds (bd_flds d)) (bits_of_bytes (skipN pos data)))).
  { apply decode_fine; auto.
    - pose proof (lenN_skipN _ data pos) as L. pose proof (lenN_bits_of_bytes (skipN pos data)) as Q.
      unfold dfuel. unfold lenN in *. lia.
    - rewrite lenN_skipN. unfold maxAlloc. lia.
    - intros _ E. apply NT. eapply trun_type; eauto. }
  destruct (unmarshal_any std_registry data t size ctx pos) as [[[[d' x] n]|e| |] p]; cbn [fst].
  - left. eauto.
  - right. eauto.
  - rewrite U in F. destruct F.
  - rewrite U in F. discriminate F.
Qed.
Print Assumptions C10_unmarshal_total_partial.

(** Not even then does it panic. *)
Theorem C10_no_panic : forall data t size ctx pos,
  pos <= lenN data -> lenN data < 2 ^ 48 ->
  fst (unmarshal_any std_registry data t size ctx pos) <> Panic.
Proof.
  intros data t size ctx pos Hp Hd. change (2 ^ 48) with 281474976710656 in Hd.
  destruct (get_box_def std_registry t ctx) as [d|] eqn:G.
  2:{ unfold unmarshal_any, new_box. rewrite G. cbn [fst]. clear. discriminate. }
  assert (Hd' : lenN data < 2 ^ 62) by (change (2 ^ 62) with 4611686018427387904; lia).
  pose proof (unmarshal_any_decode t ctx d data size pos G Hp Hd') as U. cbv zeta in U.
  pose proof (all_defs_check _ _ _ _ _ eq_refl std_total G) as H1. cbv beta in H1.
  pose proof (all_defs_check _ _ _ _ _ eq_refl std_ht G) as H2. cbv beta in H2.
  pose proof (all_defs_check _ _ _ _ _ eq_refl std_trun G) as H3. cbv beta in H3.
  pose proof (all_defs_check _ _ _ _ _ eq_refl std_nodup G) as H4. cbv beta in H4.
  pose proof (all_defs_check _ _ _ _ _ eq_refl std_fb G) as H5. cbv beta in H5.
  pose proof (all_defs_check _ _ _ _ _ eq_refl std_no_cp G) as H6. cbv beta in H6.
  assert (F : fine false (decode (dfuel data) d size ctx (zero_flds (bd_flds d)) (bits_of_bytes (skipN pos data)))).
  { apply decode_fine; auto.
    - pose proof (lenN_skipN _ data pos) as L. pose proof (lenN_bits_of_bytes (skipN pos data)) as Q.
      unfold dfuel. unfold lenN in *. lia.
    - rewrite lenN_skipN. unfold maxAlloc. lia.
    - clear. discriminate. }
  intros E. rewrite (surjective_pairing (unmarshal_any _ _ _ _ _ _)), E in U. rewrite U in F. exact F.
Qed.
Print Assumptions C10_no_panic.

(** Payloads of different kinds: cut off, with an unsupported version, with an
    absurd count, of an unknown type, a trun with a proper count. *)
Example C10_cases :
  let go t s := fst (unmarshal_any std_registry (hex s) (bt t) (lenN (hex s)) ctx0 0) in
  (match go "elst" "02000000" with Err _ => true | _ => false end,
   match go "elst" "0000" with Err _ => true | _ => false end,
   match go "stts" "00000000ffffffff0000" with Err _ => true | _ => false end,
   match go "zzzz" "0000" with Err _ => true | _ => false end,
   match go "trun" "00000100000000020000000100000002" with Ok _ => true | _ => false end) =
  (true, true, true, true, true).
Proof. vm_compute. reflexivity. Qed.

(** The exception is real: nine bytes, and the decoder has not finished after
    any number of rounds. *)
Definition endless : list byte := hex "00000000ffffffff00".
Lemma dwhile_stuck : forall A B (body : A -> D (A + B)) st,
  (forall a, exists a1, body a st = Ok (inl a1, st)) -> forall k a, dwhile k body a st = OutOfFuel.
Proof.
  intros A B body st H. induction k as [|k IH]; intros a; [reflexivity|]. cbn [dwhile]. unfold dbind.
  destruct (H a) as [a1 E]. rewrite E. apply IH.
Qed.
Theorem C10_unmarshal_total_refuted :
  exists data, lenN data = 9 /\ trun_endless data /\
    fst (unmarshal_any std_registry data (bt "trun") 9 ctx0 0) = OutOfFuel /\
    exists d, get_box_def std_registry (bt "trun") ctx0 = Some d /\
      forall fuel, decode fuel d 9 ctx0 (zero_flds (bd_flds d)) (bits_of_bytes data) = OutOfFuel.
Proof.
  exists endless. split; [reflexivity|]. split; [split; vm_compute; reflexivity|]. split; [vm_compute; reflexivity|].
  destruct (get_box_def std_registry (bt "trun") ctx0) as [d|] eqn:E; [|vm_compute in E; discriminate].
  exists d. split; [reflexivity|]. intros k. vm_compute in E. injection E as <-.
  cbv -[dwhile]. rewrite dwhile_stuck; [reflexivity|]. intros a. eexists. reflexivity.
Qed.
Print Assumptions C10_unmarshal_total_refuted.
