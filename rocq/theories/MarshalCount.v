(** Marshal's count, for every value. *)
From Verif Require Import Base BaseProofs BitIO BitIOProofs SpecBitIO BitIOFacts
     Schema Methods Registry Marshal SpecCodec MarshalProofs.
Local Open Scope string_scope.
Local Open Scope list_scope.
Local Open Scope N_scope.
Local Open Scope monad_scope.
Ltac Zify.zify_post_hook ::= Z.to_euclidean_division_equations.

(** No boolean is declared wider than a byte. *)
Fixpoint bool_ok_val (f : finfo) (t : sty) : bool :=
  match t with
  | SBool => negb (f_sizeDyn f) && (f_size f <=? 8)
  | SArr _ u => bool_ok_val f u
  | SSlice u => bool_ok_val f u
  | SPtr u => bool_ok_val f u
  | SStruct _ _ fs => bool_ok_flds fs
  | _ => true
  end
with bool_ok_flds (fs : flds) : bool :=
  match fs with
  | FNil => true
  | FCons f t r => bool_ok_val f t && bool_ok_flds r
  end.

Definition steady {A} (m : M mst A) : Prop :=
  forall s bits, minv s bits -> exists b, minv (snd (m s)) (bits ++ b).

Lemma steady_ret : forall A (a : A), steady (ret a).
Proof. intros A a s bits I. exists []. now rewrite app_nil_r. Qed.
Lemma steady_fail : forall A e, steady (@fail mst A e).
Proof. intros A a s bits I. exists []. now rewrite app_nil_r. Qed.
Lemma steady_panic : forall A, steady (@panic mst A).
Proof. intros A s bits I. exists []. now rewrite app_nil_r. Qed.
Lemma steady_bind : forall A B (m : M mst A) (k : A -> M mst B),
  steady m -> (forall a, steady (k a)) -> steady (bind m k).
Proof.
  intros A B m k Hm Hk s bits I. destruct (Hm s bits I) as (b & Hb).
  unfold bind. destruct (m s) as [[a| | |] s1]; cbn [snd] in *; eauto.
  destruct (Hk a s1 _ Hb) as (b2 & H2). exists (b ++ b2). now rewrite app_assoc.
Qed.
Lemma steady_put_bits : forall b size, size <= 8 -> steady (put_bits b size).
Proof. intros b size L s bits I. now apply put_bits_any. Qed.
Lemma steady_put_chunks : forall size val adj, steady (put_chunks size val adj).
Proof. intros size val adj s bits I. now apply put_chunks_any. Qed.
Lemma steady_ignore : forall A (m : M mst A), steady m -> steady (ignore_err m).
Proof.
  intros A m H s bits I. destruct (H s bits I) as (b & Hb). exists b.
  unfold ignore_err. destruct (m s) as [[] s1]; exact Hb.
Qed.
Lemma steady_iter : forall (m : val -> M mst unit), (forall v, steady (m v)) ->
  forall l, steady (iter_list m l).
Proof.
  intros m H. induction l; cbn [iter_list]; [apply steady_ret|].
  apply steady_bind; auto.
Qed.
Lemma steady_uint : forall vi size n, steady (marshal_uint vi size n).
Proof.
  intros [] size n; unfold marshal_uint.
  - apply steady_ignore. unfold write_uvarint.
    repeat (apply steady_bind; [apply steady_put_bits; lia|intros]). apply steady_put_bits; lia.
  - apply steady_bind; [apply steady_put_chunks|intros; apply steady_ret].
Qed.
Lemma steady_int : forall vi size n, steady (marshal_int vi size n).
Proof.
  intros [] size n; unfold marshal_int; [apply steady_fail|].
  apply steady_bind; [apply steady_put_chunks|intros; apply steady_ret].
Qed.
Lemma steady_string : forall bs l, steady (marshal_string bs l).
Proof.
  intros bs l. unfold marshal_string. apply steady_bind.
  - induction l; cbn [put_bytes]; [apply steady_ret|].
    apply steady_bind; [apply steady_put_bits; lia|auto].
  - intros. destruct bs; [apply steady_ret|apply steady_put_bits; lia].
Qed.

Lemma util_write_string_unaligned : forall p s bits, minv s bits -> lenN bits mod 8 <> 0 ->
  util_write_string p s = (Err EAlign, s).
Proof.
  intros p s bits [W _] A. destruct W as (pend & L & -> & Wd & _).
  unfold util_write_string, bind, lift_w, wr_write.
  rewrite lenN_app, lenN_bits_of_bytes in A.
  destruct (N.eqb_spec (w_width (m_w s)) 0); [lia|]. destruct s; reflexivity.
Qed.

(** a hook together with the count it returns *)
Lemma steady_hook : forall A h ver self (k : N * bool -> M mst A),
  (forall wo, steady (k wo)) ->
  steady (wo <- on_write h ver self ;; add_wbits (fst wo) ;;; k wo).
Proof.
  intros A h ver self k Hk s bits I.
  assert (H0 : forall b, exists b', minv (snd ((add_wbits 0 ;;; k (0, b)) s)) (bits ++ b')).
  { intros b. unfold bind, add_wbits. apply Hk. destruct I as [W C]. split; [exact W|]. cbn. lia. }
  destruct h; cbn [on_write].
  - apply (H0 false).
  - apply (H0 (negb (ver =? 0))).
  - destruct (ver =? 0); [apply (H0 false)|].
    set (x := as_bytes (lookup "SchemeIdUri" self)) in *.
    set (y := as_bytes (lookup "Value" self)) in *.
    destruct (N.eq_dec (lenN bits mod 8) 0) as [A0|A0].
    + destruct (util_write_string_ok x s bits I A0) as (s1 & W1 & V1 & C1).
      destruct (util_write_string_ok y (mkmst (m_w s1) (lenN (bits ++ cstring_bits x)))
                     (bits ++ cstring_bits x)) as (s2 & W2 & V2 & C2).
      { split; [exact V1|reflexivity]. }
      { unfold cstring_bits. rewrite lenN_app, lenN_bits_of_bytes. lia. }
      assert (W2' : exists s2', util_write_string y s1 = (Ok tt, s2') /\
                m_w s2' = m_w s2 /\ m_wbits s2' = m_wbits s1).
      { unfold util_write_string, bind, lift_w in W2 |- *. cbn [m_w m_wbits] in W2.
        destruct (wr_write y (m_w s1)) as [[] w1]; try discriminate. cbn [m_w] in *.
        destruct (wr_write [bzero] w1) as [[a0| | |] w2]; try discriminate. cbn [m_w] in *.
        destruct a0. injection W2 as <-. eexists. split; [reflexivity|]. split; reflexivity. }
      destruct W2' as (s2' & W2' & Ew & Ec).
      unfold bind. rewrite W1, W2'. cbn [fst snd ret add_wbits].
      destruct (Hk ((lenN x + lenN y + 2) * 8, false)
                  (mkmst (m_w s2') (m_wbits s2' + (lenN x + lenN y + 2) * 8))
                  (bits ++ cstring_bits x ++ cstring_bits y)) as (b & Hb).
      { split; cbn [m_w m_wbits].
        - rewrite Ew, app_assoc. exact V2.
        - rewrite Ec, C1. destruct I as [_ ->]. unfold cstring_bits.
          rewrite !lenN_app, !lenN_bits_of_bytes, !lenN_app.
          change (lenN [bzero]) with 1. lia. }
      rewrite <- !app_assoc in Hb. eauto.
    + unfold bind. rewrite (util_write_string_unaligned x s bits I A0). cbn [snd].
      exists []. now rewrite app_nil_r.
  - apply (H0 false).
  - destruct (as_bool _ && _).
    + exists []. unfold bind, fail. cbn [snd]. now rewrite app_nil_r.
    + apply (H0 true).
Qed.

Lemma marshal_steady : forall rn root ctx,
  (forall t f size len v, bool_ok_val f t = true -> (f_sizeDyn f = false -> size = f_size f) ->
     steady (marshal_val rn root ctx f size len t v)) /\
  (forall fs sname cfo self, bool_ok_flds fs = true ->
     steady (marshal_flds rn root ctx sname cfo self fs)).
Proof.
  intros rn root ctx. apply sty_flds_mutind.
  - intros w f size len v B S. destruct v; try apply steady_panic. apply steady_uint.
  - intros w f size len v B S. destruct v; try apply steady_panic. apply steady_int.
  - intros f size len v B S. destruct v; try apply steady_panic.
    cbn in B. apply andb_true_iff in B. destruct B as [B1 B2]. apply N.leb_le in B2.
    apply steady_put_bits. rewrite S; [auto|]. now destruct (f_sizeDyn f).
  - intros f size len v B S. destruct v; try apply steady_panic. apply steady_string.
  - intros n u IH f size len v B S. destruct v; try apply steady_panic.
    apply steady_iter. auto.
  - intros u IH f size len v B S. destruct v as [| | | |l| |]; try apply steady_panic.
    cbn [marshal_val]. destruct (negb (len =? LengthUnlimited) && (lenN l <? len)) eqn:Short;
      [apply steady_fail|].
    cbv zeta. set (n := if len =? LengthUnlimited then lenN l else len).
    assert (lenN (takeN n l) = n) as Ln.
    { rewrite lenN_takeN. unfold n. destruct (len =? LengthUnlimited); [lia|].
      cbn [negb andb] in Short. apply N.ltb_ge in Short. lia. }
    intros s bits I. destruct (is_u8 u && (size =? 8) && (m_wbits s mod 8 =? 0)) eqn:F.
    + apply andb_3 in F. destruct F as (F1 & F2 & F3). apply N.eqb_eq in F3.
      destruct I as [W C].
      destruct (wr_copy_ok (map (fun x => N2b (as_uint (Some x))) (takeN n l)) (m_w s) bits W)
        as (w' & E' & W'); [rewrite <- C; auto|].
      exists (bits_of_bytes (map (fun x => N2b (as_uint (Some x))) (takeN n l))).
      unfold bind, lift_w, add_wbits. rewrite E'. cbn [snd].
      split; [exact W'|]. cbn [m_wbits]. rewrite lenN_app, lenN_bits_of_bytes, lenN_map, Ln, C. lia.
    + apply (steady_iter (fun x => ignore_err (marshal_val rn root ctx f size len u x))); auto.
      intros. apply steady_ignore. auto.
  - intros u IH f size len v B S. destruct v as [| | | | |[x|]|]; try apply steady_panic.
    apply (IH f size len x B S).
  - intros name cfo fs IH f size len v B S. destruct v; try apply steady_panic.
    apply (IH name cfo _ B).
  - intros. apply steady_ret.
  - intros f t IHt rest IHr sname cfo self B. rewrite marshal_flds_cons. cbv zeta.
    cbn [bool_ok_flds] in B. apply andb_true_iff in B. destruct B as [B1 B2].
    destruct (resolve_size _ _ f) as [size|] eqn:Es; [|apply steady_panic].
    destruct (resolve_len _ _ f) as [len|]; [|apply steady_panic].
    apply steady_bind; [|intros; auto].
    destruct (is_target _ _ _ _ f); [|apply steady_ret].
    apply (steady_hook unit _ _ _ (fun wo => if snd wo then ret tt
      else match lookup (f_name f) self with
           | Some v => marshal_val rn root ctx f size len t v
           | None => panic
           end)).
    intros [n b]. cbn [snd]. destruct b; [apply steady_ret|].
    destruct (lookup (f_name f) self); [|apply steady_panic].
    apply IHt; auto. intros D. unfold resolve_size in Es. rewrite D in Es. congruence.
Qed.

Lemma marshal_count : forall d ctx v n out, bool_ok_flds (bd_flds d) = true ->
  marshal_def d ctx v [] = (Ok n, out) -> n = lenN out.
Proof.
  intros d ctx v n out B. unfold marshal_def.
  destruct (proj2 (marshal_steady (bd_name d) v ctx) (bd_flds d) (bd_name d) true v B
              _ [] minv_new) as (b & W & C).
  cbn [app] in *.
  destruct (marshal_flds (bd_name d) v ctx (bd_name d) true v (bd_flds d) (mkmst (new_writer []) 0))
    as [[] s]; try discriminate. cbn [snd] in *.
  intros [= E1 <-]. destruct (N.eqb_spec (m_wbits s mod 8) 0) as [A|]; [|discriminate].
  injection E1 as <-. rewrite C in *.
  rewrite <- (winv_aligned _ _ W A) at 1. rewrite lenN_bits_of_bytes. lia.
Qed.

(** every definition that a lookup can return *)
Lemma find_def_In : forall t c l d, find_def t c l = Some d -> exists t', In (t', d) l.
Proof.
  induction l as [|[t' d'] l IH]; intros d H; [discriminate|]. cbn [find_def] in H.
  destruct (bt_eqb t t' && pred_holds (bd_pred d') c).
  - injection H as <-. exists t'. left; auto.
  - destruct (IH d H) as (t2 & H2). exists t2. right; auto.
Qed.
Lemma get_box_def_In : forall R t c d, get_box_def R t c = Some d ->
  In d (item_def :: map snd R).
Proof.
  intros R t c d H. unfold get_box_def in H.
  destruct (find_def t c (rev R)) as [d'|] eqn:F.
  - injection H as <-. apply find_def_In in F. destruct F as (t' & F).
    right. apply in_map_iff. exists (t', d'). split; auto. now apply in_rev.
  - left. destruct (UnderIlst c); [|discriminate].
    destruct (_ && _); [congruence|discriminate].
Qed.
Definition all_defs : list boxdef := item_def :: map snd std_registry.
Lemma all_defs_check : forall (p : boxdef -> bool) R t c d, R = std_registry ->
  forallb p all_defs = true -> get_box_def R t c = Some d -> p d = true.
Proof.
  intros p R t c d -> F H. rewrite forallb_forall in F. apply F. now apply get_box_def_In in H.
Qed.

Lemma std_bool_ok : forallb (fun d => bool_ok_flds (bd_flds d)) all_defs = true.
Proof. vm_compute. reflexivity. Qed.

Lemma std_marshal_count : forall t ctx v n out,
  marshal std_registry t ctx v [] = (Ok n, out) -> n = lenN out.
Proof.
  intros t ctx v n out H. unfold marshal in H.
  destruct (get_box_def std_registry t ctx) as [d|] eqn:G; [|discriminate].
  eapply marshal_count; eauto.
  exact (all_defs_check _ _ _ _ _ eq_refl std_bool_ok G).
Qed.
