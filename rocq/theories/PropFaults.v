(** C15: failures of the underlying writer. *)
From Verif Require Import Base BaseProofs BitIO Schema Methods Registry Marshal.
From Verif Require Import BitIOProofs BitIOFacts MarshalProofs MarshalCount.
Local Open Scope string_scope.
Local Open Scope list_scope.
Local Open Scope N_scope.
Local Open Scope monad_scope.
Ltac Zify.zify_post_hook ::= Z.to_euclidean_division_equations.

(** Types without expandable-size integers ("varint"), and whose lists, if they
    have any, are lists of bytes and all their fields whole bytes. *)
Fixpoint rep_val (bytes : bool) (f : finfo) (t : sty) : bool :=
  match t with
  | SUint _ | SInt _ | SBool => negb bytes || ((f_size f mod 8 =? 0) && negb (f_sizeDyn f))
  | SStr => true
  | SArr _ u | SPtr u => rep_val bytes f u
  | SSlice u => bytes && is_u8 u && (f_size f =? 8) && negb (f_sizeDyn f)
  | SStruct _ _ fs => rep_flds bytes fs
  end
with rep_flds (bytes : bool) (fs : flds) : bool :=
  match fs with
  | FNil => true
  | FCons f t r => negb (f_varint f) && rep_val bytes f t && rep_flds bytes r
  end.
Definition byte_lists_only (fs : flds) : bool := rep_flds true fs || rep_flds false fs.

Definition clean (s : mst) : mst :=
  mkmst (mkwst (w_out (m_w s)) (w_octet (m_w s)) (w_width (m_w s)) []) (m_wbits s).
Definition cleanw (s : wst) : wst := mkwst (w_out s) (w_octet s) (w_width s) [].
Definition honw {A} (m : M wst A) : Prop := forall s a s', m s = (Ok a, s') -> m (cleanw s) = (Ok a, cleanw s').

Lemma honw_ret : forall A (a : A), honw (ret a).
Proof. intros A a s x s' H. unfold ret in *. now injection H as <- <-. Qed.
Lemma honw_bind : forall A B (m : M wst A) (k : A -> M wst B), honw m -> (forall a, honw (k a)) -> honw (bind m k).
Proof.
  intros A B m k Hm Hk s a s' H. unfold bind in *. destruct (m s) as [[x| | |] s1] eqn:E; try discriminate.
  apply Hm in E. rewrite E. now apply Hk.
Qed.
Lemma honw_under : forall p, honw (under_write p).
Proof.
  intros p [o c w f] a s' H. unfold under_write in *. cbn [w_faults cleanw w_out w_octet w_width] in *.
  destruct f as [|[] f]; try discriminate; injection H as <- <-; reflexivity.
Qed.
Lemma honw_write : forall p, honw (wr_write p).
Proof.
  intros p s a s' H. unfold wr_write in *. cbn [cleanw w_width]. destruct (w_width s =? 0); [|discriminate].
  now apply honw_under.
Qed.
Lemma honw_bit : forall b, honw (write_bit b).
Proof.
  intros b s a s' H. unfold write_bit in *. cbn [cleanw w_width w_octet w_out w_faults].
  destruct (w_width s + 1 =? 8) eqn:E.
  - match type of H with match under_write ?p ?x with _ => _ end = _ => set (s1 := x) in *; set (q := p) in * end.
    destruct (under_write q s1) as [[y| | |] s2] eqn:U; try discriminate. apply honw_under in U.
    change (mkwst (w_out s) (if b then N.lor (w_octet s) (if w_width s <=? 7 then 2 ^ (7 - w_width s) else 0) else w_octet s)
       (w_width s + 1) []) with (cleanw s1). rewrite U. injection H as <- <-. reflexivity.
  - injection H as <- <-. reflexivity.
Qed.
Lemma honw_bits : forall d w, honw (write_bits d w).
Proof.
  intros d w. unfold write_bits. destruct (_ <=? _); [|apply honw_ret].
  induction (skipN (lenN (bits_of_bytes d) - w) (bits_of_bytes d)) as [|b l IH]; cbn [write_bit_list]; [apply honw_ret|].
  apply honw_bind; [apply honw_bit|intros _; exact IH].
Qed.
Lemma honw_copy : forall p, honw (wr_copy p).
Proof.
  intros p. unfold wr_copy. generalize (S (List.length p)) as k. intros k. revert p.
  induction k as [|k IH]; intros p; cbn [write_chunks]; [apply honw_ret|].
  destruct p; [apply honw_ret|]. apply honw_bind; [apply honw_write|intros _; apply IH].
Qed.

Section Honest.
  Variable bytes : bool.
  Definition al (s : mst) : Prop := bytes = true -> m_wbits s mod 8 = 0.
  (** success with failing writes means success, with the same effect, without *)
  Definition honest {A} (m : M mst A) : Prop := forall s a s', al s ->
    m s = (Ok a, s') -> m (clean s) = (Ok a, clean s').
  Definition keeps {A} (m : M mst A) : Prop := forall s a s', al s -> m s = (Ok a, s') -> al s'.
  Definition good {A} (m : M mst A) : Prop := honest m /\ keeps m.

  Lemma good_ret : forall A (a : A), good (ret a).
  Proof. split; intros s x s' L H; unfold ret in *; injection H as <- <-; auto. Qed.
  Lemma good_fail : forall A e, good (@fail mst A e).
  Proof. split; intros s x s' L H; discriminate. Qed.
  Lemma good_panic : forall A, good (@panic mst A).
  Proof. split; intros s x s' L H; discriminate. Qed.
  Lemma good_bind : forall A B (m : M mst A) (k : A -> M mst B), good m -> (forall a, good (k a)) -> good (bind m k).
  Proof.
    intros A B m k [H1 H2] Hk. split; intros s a s' L H; unfold bind in *;
      destruct (m s) as [[x| | |] s1] eqn:E; try discriminate; pose proof (H2 _ _ _ L E) as L1.
    - rewrite (H1 _ _ _ L E). destruct (Hk x) as [K1 _]. now apply K1.
    - destruct (Hk x) as [_ K2]. eapply K2; eauto.
  Qed.
  Lemma good_lift : forall A (m : M wst A), honw m -> good (lift_w m).
  Proof.
    intros A m Hm. split; intros s a s' L H; unfold lift_w in *; destruct (m (m_w s)) as [r w] eqn:E.
    - assert (Q : r = Ok a /\ mkmst w (m_wbits s) = s') by (now injection H). destruct Q as [-> <-].
      apply Hm in E. change (m_w (clean s)) with (cleanw (m_w s)). rewrite E. reflexivity.
    - assert (Q : mkmst w (m_wbits s) = s') by (now injection H). subst s'. exact L.
  Qed.
  Lemma good_add : forall n, (bytes = true -> n mod 8 = 0) -> good (add_wbits n).
  Proof.
    intros n Hn. split; intros s a s' L H; unfold add_wbits in *; injection H as <- <-; [reflexivity|].
    intros B. specialize (L B). specialize (Hn B). cbn [m_wbits]. lia.
  Qed.
  Lemma good_put : forall b size, (bytes = true -> size mod 8 = 0) -> good (put_bits b size).
  Proof. intros. apply good_bind; [apply good_lift, honw_bits|intros _; now apply good_add]. Qed.
  Definition goodI {B} (m : M mst B) (J : B -> Prop) : Prop :=
    good m /\ forall s b s', m s = (Ok b, s') -> J b.
  Lemma goodI_bind : forall A B (J : A -> Prop) (L : B -> Prop) (m : M mst A) (k : A -> M mst B),
    goodI m J -> (forall a, J a -> goodI (k a) L) ->
    goodI (bind m k) L.
  Proof.
    intros A B J L m k [[H1 H2] H3] Hk. split; [split|]; intros s a s'; [intros Hl|intros Hl|]; intros H; unfold bind in *;
      destruct (m s) as [[x| | |] s1] eqn:E; try discriminate; destruct (Hk x (H3 _ _ _ E)) as [[K1 K2] K3].
    - rewrite (H1 _ _ _ Hl E). apply K1; eauto.
    - pose proof (H2 _ _ _ Hl E). eapply K2; eauto.
    - eapply K3; eauto.
  Qed.
  Lemma goodI_loop : forall A (J : A -> Prop) (body : A -> M mst A),
    (forall a, J a -> goodI (body a) J) ->
    forall n a, J a -> goodI (loopN n body a) J.
  Proof.
    intros A J body Hb n a Ha. destruct n as [|p]; cbn [loopN].
    { split; [apply good_ret|]. unfold ret. intros s b s' H. now injection H as <- <-. }
    revert a Ha. induction p as [p IH|p IH|]; intros a Ha; cbn [loopP]; auto.
    - apply (goodI_bind A A J); auto. intros x Hx. apply (goodI_bind A A J); auto.
    - apply (goodI_bind A A J); auto.
  Qed.
  Lemma good_chunks : forall size val adj, (bytes = true -> size mod 8 = 0) -> good (put_chunks size val adj).
  Proof.
    intros size val adj Hs. unfold put_chunks.
    apply (goodI_loop N (fun i => i mod 8 = 0)); [|reflexivity]. intros i Hi. cbv zeta. split.
    - apply good_bind; [|intros _; apply good_ret]. apply good_put. intros B. specialize (Hs B).
      destruct (N.ltb_spec size (i + 8)); lia.
    - intros s b s'. unfold bind. destruct (put_bits _ _ s) as [[] s1]; try discriminate. unfold ret.
      intros H. assert (b = i + 8) by (now injection H). subst b. lia.
  Qed.
  Lemma good_iter : forall g (l : list val), (forall x, good (g x)) -> good (iter_list g l).
  Proof.
    intros g l H. induction l as [|x l IH]; cbn [iter_list]; [apply good_ret|]. apply good_bind; auto.
  Qed.
  Lemma good_string : forall bs l, good (marshal_string bs l).
  Proof.
    intros bs l. unfold marshal_string. apply good_bind.
    - induction l as [|b l IH]; cbn [put_bytes]; [apply good_ret|]. apply good_bind; [now apply good_put|auto].
    - intros _. destruct bs; [apply good_ret|now apply good_put].
  Qed.
  Lemma good_hook : forall h ver self, good (wo <- on_write h ver self ;; add_wbits (fst wo) ;;; ret (snd wo)).
  Proof.
    intros h ver self.
    assert (K : forall n (b : bool), n mod 8 = 0 -> good (add_wbits (fst (n, b)) ;;; ret (snd (n, b)))).
    { intros n b Hn. apply good_bind; [now apply good_add|intros; apply good_ret]. }
    assert (K0 : forall b : bool, good (wo <- ret (0, b) ;; add_wbits (fst wo) ;;; ret (snd wo))).
    { intros b. exact (K 0 b eq_refl). }
    assert (U : forall l, good (util_write_string l)).
    { intros l. apply good_bind; [apply good_lift, honw_write|intros; apply good_lift, honw_write]. }
    destruct h; cbn [on_write]; try apply K0.
    - destruct (ver =? 0); [apply K0|].
      set (a := as_bytes (lookup "SchemeIdUri" self)). set (b := as_bytes (lookup "Value" self)).
      enough (G : good (util_write_string a ;;; util_write_string b ;;; add_wbits ((lenN a + lenN b + 2) * 8) ;;; ret false)).
      { assert (E : forall s, (wo <- (util_write_string a ;;; util_write_string b ;;; ret ((lenN a + lenN b + 2) * 8, false)) ;;
                  add_wbits (fst wo) ;;; ret (snd wo)) s =
           (util_write_string a ;;; util_write_string b ;;; add_wbits ((lenN a + lenN b + 2) * 8) ;;; ret false) s).
        { intros s. unfold bind. destruct (util_write_string a s) as [[] s1]; auto.
          destruct (util_write_string b s1) as [[] s2]; auto. }
        destruct G as [G1 G2]. split; intros s x s' L H; rewrite ?E in *; eauto. }
      repeat (apply good_bind; [apply U|intros _]). apply good_bind; [apply good_add; lia|intros; apply good_ret].
    - destruct (_ && _); [|apply K0]. split; intros s x s' L H; discriminate.
  Qed.

  Lemma marshal_good : forall rn root ctx,
    (forall t f size len v, f_varint f = false -> (f_sizeDyn f = false -> size = f_size f) ->
       rep_val bytes f t = true -> good (marshal_val rn root ctx f size len t v)) /\
    (forall fs sname cfo self, rep_flds bytes fs = true -> good (marshal_flds rn root ctx sname cfo self fs)).
  Proof.
    intros rn root ctx.
    assert (SZ : forall f size, (f_sizeDyn f = false -> size = f_size f) ->
              negb bytes || ((f_size f mod 8 =? 0) && negb (f_sizeDyn f)) = true -> bytes = true -> size mod 8 = 0).
    { intros f size S H ->. cbn [negb orb] in H. apply andb_prop in H. destruct H as [H1 H2].
      apply negb_true_iff in H2. rewrite (S H2). now apply N.eqb_eq. }
    apply sty_flds_mutind.
    - intros w f size len v V S H. destruct v; try apply good_panic. cbn [marshal_val]. rewrite V. unfold marshal_uint.
      apply good_bind; [apply good_chunks; eauto|intros; apply good_ret].
    - intros w f size len v V S H. destruct v; try apply good_panic. cbn [marshal_val]. rewrite V. unfold marshal_int.
      apply good_bind; [apply good_chunks; eauto|intros; apply good_ret].
    - intros f size len v V S H. destruct v; try apply good_panic. cbn [marshal_val].
      apply good_put. eauto.
    - intros f size len v V S H. destruct v; try apply good_panic. apply good_string.
    - intros n u IH f size len v V S H. destruct v; try apply good_panic. cbn [marshal_val]. apply good_iter. intros x. now apply IH.
    - intros u IH f size len v V S H. destruct v as [| | | |l| |]; try apply good_panic. cbn [marshal_val rep_val] in *.
      destruct (negb (len =? LengthUnlimited) && (lenN l <? len)); [apply good_fail|].
      apply andb_prop in H. destruct H as [H H4]. apply andb_prop in H. destruct H as [H H3].
      apply andb_prop in H. destruct H as [H1 H2]. apply negb_true_iff in H4. apply N.eqb_eq in H3.
      rewrite (S H4), H3, H2. cbn [andb N.eqb]. cbv zeta.
      set (n := if len =? LengthUnlimited then lenN l else len).
      assert (G : good (lift_w (wr_copy (map (fun x => N2b (as_uint (Some x))) (takeN n l))) ;;; add_wbits (n * 8))).
      { apply good_bind; [apply good_lift, honw_copy|intros _; apply good_add; lia]. }
      destruct G as [G1 G2]. split; intros s x s' L E; pose proof (L H1) as L8; change (8 =? 8) with true in *; cbn [andb] in *.
      + rewrite L8 in E. change (m_wbits (clean s)) with (m_wbits s). rewrite L8. now apply G1.
      + rewrite L8 in E. eapply G2; eauto.
    - intros u IH f size len v V S H. destruct v as [| | | | |[x|]|]; try apply good_panic. cbn [marshal_val]. now apply IH.
    - intros name cfo fs IH f size len v V S H. destruct v; try apply good_panic. apply IH. exact H.
    - intros sname cfo self H. apply good_ret.
    - intros f t IHt rest IHr sname cfo self H. rewrite marshal_flds_cons. cbv zeta.
      change (negb (f_varint f) && rep_val bytes f t && rep_flds bytes rest = true) in H.
      apply andb_prop in H. destruct H as [H H3]. apply andb_prop in H. destruct H as [H1 H2]. apply negb_true_iff in H1.
      set (cn := cfo_name rn cfo sname) in *. set (env := cfo_env root ctx cfo self) in *.
      destruct (resolve_size cn env f) as [size|] eqn:RS; [|apply good_panic].
      destruct (resolve_len cn env f) as [len|]; [|apply good_panic].
      apply good_bind; [|intros _; now apply IHr].
      destruct (is_target _ _ _ _ _); [|apply good_ret].
      set (k := fun o : bool => if o then ret tt else match lookup (f_name f) self with
                | Some v => marshal_val rn root ctx f size len t v | None => panic end).
      enough (G : good (o <- (wo <- on_write (hook_of cn (f_name f)) (get_version root) self ;; add_wbits (fst wo) ;;; ret (snd wo)) ;; k o)).
      { match goal with |- good ?m => assert (E : forall s, m s =
          (o <- (wo <- on_write (hook_of cn (f_name f)) (get_version root) self ;; add_wbits (fst wo) ;;; ret (snd wo)) ;; k o) s) end.
        { intros s. unfold bind. destruct (on_write _ _ _ s) as [[] s1]; reflexivity. }
        destruct G as [G1 G2]. split; intros s x s' L Q; rewrite ?E in *; eauto. }
      apply good_bind; [apply good_hook|]. intros [|]; unfold k; [apply good_ret|].
      destruct (lookup (f_name f) self); [|apply good_panic]. apply IHt; auto.
      intros D. unfold resolve_size in RS. rewrite D in RS. now injection RS.
  Qed.
End Honest.

(** C15 for the types without expandable-size integers and without lists of
    anything but bytes: when Marshal reports success although the writer was
    failing, it has written exactly what it writes when no write fails.
    Missing: all other types, for which the claim is false (below). *)
Theorem C15_write_failures_partial : forall t ctx d v faults n out,
  get_box_def std_registry t ctx = Some d -> byte_lists_only (bd_flds d) = true ->
  marshal std_registry t ctx v faults = (Ok n, out) ->
  marshal std_registry t ctx v [] = (Ok n, out).
Proof.
  intros t ctx d v faults n out G B H. unfold marshal in *. rewrite G in *. unfold marshal_def in *.
  destruct (marshal_flds _ _ _ _ _ _ _ _) as [[[]| | |] s] eqn:E; try discriminate.
  assert (Q : exists bytes, rep_flds bytes (bd_flds d) = true).
  { unfold byte_lists_only in B. apply orb_prop in B. destruct B; eauto. }
  destruct Q as [bytes R].
  destruct (proj2 (marshal_good bytes (bd_name d) v ctx) _ (bd_name d) true v R) as [Hh _].
  apply Hh in E; [|intros _; reflexivity].
  change (clean (mkmst (new_writer faults) 0)) with (mkmst (new_writer []) 0) in E. rewrite E. exact H.
Qed.
Print Assumptions C15_write_failures_partial.

(** 124 of the 156 registrations meet the hypothesis; here are some that do and
    some that do not. *)
Example C15_types :
  map (fun t => match get_box_def std_registry (bt t) ctx0 with Some d => byte_lists_only (bd_flds d) | None => false end)
      ["tkhd"; "mdhd"; "hdlr"; "tfhd"; "mdat"; "saiz"; "stts"; "ftyp"; "esds"; "elst"] =
  [true; true; true; true; true; true; false; false; false; false].
Proof. vm_compute. reflexivity. Qed.
(** tfdt makes one call for each of its eight bytes; the call that fails *)
Definition tfdt_v : list (string * val) :=
  [("FullBox", VStruct [("Version", VUint 0); ("Flags", VList [VUint 0; VUint 0; VUint 0])]);
   ("BaseMediaDecodeTimeV0", VUint 258); ("BaseMediaDecodeTimeV1", VUint 0)].
Example C15_case :
  map (fun k => fst (marshal std_registry (bt "tfdt") ctx0 tfdt_v (repeat false k ++ [true]))) [0; 3; 7; 8]%nat =
  [Err EWrite; Err EWrite; Err EWrite; Ok 8].
Proof. vm_compute. reflexivity. Qed.

(** The claim is false for a list of structs: when the write of the last byte of
    an stts entry fails, Marshal reports success: it has written 15 bytes instead of 16. *)
Definition stts1 : list (string * val) :=
  [("FullBox", VStruct [("Version", VUint 0); ("Flags", VList [VUint 0; VUint 0; VUint 0])]);
   ("EntryCount", VUint 1);
   ("Entries", VList [VStruct [("SampleCount", VUint 5); ("SampleDelta", VUint 6)]])].
Theorem C15_write_failures_refuted : exists t ctx v faults n out,
  marshal std_registry t ctx v faults = (Ok n, out) /\ In true (firstn 16 faults) /\
  marshal std_registry t ctx v [] <> (Ok n, out).
Proof.
  exists (bt "stts"), ctx0, stts1, (repeat false 15 ++ [true]), 15, (hex "000000000000000100000005000000").
  split; [vm_compute; reflexivity|]. split; [vm_compute; repeat (try (left; reflexivity); right)|].
  intros H. vm_compute in H. discriminate.
Qed.
Print Assumptions C15_write_failures_refuted.
