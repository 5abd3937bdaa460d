(** Marshal of a complete box does not panic, and what the handler of edit does
    to the stack of its Writer. *)
From Verif Require Import Base BitIO Schema Structs Methods Registry Marshal Unmarshal SpecCodec
     SpecRoundTrip GoText SpecStringify Decode BoxInfo ReadTree Writer Text Accessors Edit.
From Verif Require Import BaseProofs MarshalProofs VersionFacts Shape RoundTripBase UnmarshalProofs Total Causal EditTime Typed SpecTrace SpecTree Flow TraceProofs PropTrace PropFlow PropSafe.
Local Open Scope string_scope.
Local Open Scope list_scope.
Local Open Scope N_scope.
Local Open Scope monad_scope.

(** ** Programs that do not panic *)
Definition fin {A} (r : res A) : Prop := match r with Ok _ | Err _ => True | Panic | OutOfFuel => False end.
Definition calm {S A} (m : M S A) : Prop := forall s, fin (fst (m s)).
Lemma calm_bind : forall S A B (m : M S A) (k : A -> M S B), calm m -> (forall a, calm (k a)) -> calm (bind m k).
Proof.
  intros S A B m k H K s. unfold bind. specialize (H s). destruct (m s) as [[a|e| |] s1]; cbn [fst] in *; auto. apply K.
Qed.
Lemma calm_ret : forall S A (a : A), calm (S := S) (ret a).
Proof. intros S A a s. exact I. Qed.
Lemma calm_lift : forall A (m : M wst A), calm m -> calm (lift_w m).
Proof. intros A m H s. specialize (H (m_w s)). unfold lift_w. destruct (m (m_w s)) as [r w]. exact H. Qed.
Lemma calm_under : forall p, calm (under_write p).
Proof. intros p s. unfold under_write. destruct (w_faults s) as [|[|] f]; exact I. Qed.
Lemma calm_bit : forall b, calm (write_bit b).
Proof.
  intros b s. unfold write_bit. cbv zeta. destruct (_ =? 8); [|exact I].
  match goal with |- context [under_write ?p ?s1] => pose proof (calm_under p s1) as H; destruct (under_write p s1) as [[u|e| |] s2] end;
    exact H.
Qed.
Lemma calm_bit_list : forall l, calm (write_bit_list l).
Proof. induction l as [|b l IH]; [apply calm_ret|]. cbn [write_bit_list]. apply calm_bind; [apply calm_bit|auto]. Qed.
Lemma calm_bits : forall p w, calm (write_bits p w).
Proof. intros p w. unfold write_bits. cbv zeta. destruct (_ <=? _); [apply calm_bit_list|apply calm_ret]. Qed.
Lemma calm_write : forall p, calm (wr_write p).
Proof. intros p s. unfold wr_write. destruct (_ =? 0); [apply calm_under|exact I]. Qed.
Lemma calm_chunks : forall k p, calm (write_chunks k p).
Proof.
  induction k as [|k IH]; intros p; [apply calm_ret|]. cbn [write_chunks]. destruct p; [apply calm_ret|].
  apply calm_bind; [apply calm_write|auto].
Qed.
Lemma calm_add : forall n, calm (add_wbits n).
Proof. intros n s. exact I. Qed.
Lemma calm_put : forall b n, calm (put_bits b n).
Proof. intros b n. apply calm_bind; [apply calm_lift, calm_bits|intros _; apply calm_add]. Qed.
Lemma calm_loopP : forall S A (body : A -> M S A), (forall a, calm (body a)) -> forall p a, calm (loopP p body a).
Proof.
  intros S A body H. induction p as [p IH|p IH|]; intros a; cbn [loopP]; auto.
  - apply calm_bind; [auto|]. intros b. apply calm_bind; auto.
  - apply calm_bind; auto.
Qed.
Lemma calm_loopN : forall S A (body : A -> M S A) n a, (forall a, calm (body a)) -> calm (loopN n body a).
Proof. intros S A body [|p] a H; [apply calm_ret|]. now apply calm_loopP. Qed.
Lemma calm_put_chunks : forall size v adj, calm (put_chunks size v adj).
Proof. intros. apply calm_loopN. intros a. cbv zeta. apply calm_bind; [apply calm_put|intros; apply calm_ret]. Qed.
Lemma calm_ignore : forall A (m : M mst A), calm m -> calm (ignore_err m).
Proof. intros A m H s. specialize (H s). unfold ignore_err. destruct (m s) as [[a|e| |] s1]; exact H. Qed.
Lemma calm_uint : forall v n x, calm (marshal_uint v n x).
Proof.
  intros [|] n x; cbn [marshal_uint].
  - apply calm_ignore. unfold write_uvarint. repeat (apply calm_bind; [apply calm_put|intros _]). apply calm_put.
  - apply calm_bind; [apply calm_put_chunks|intros; apply calm_ret].
Qed.
Lemma calm_int : forall v n x, calm (marshal_int v n x).
Proof.
  intros [|] n x; cbn [marshal_int]; [intros s; exact I|]. cbv zeta. apply calm_bind; [apply calm_put_chunks|intros; apply calm_ret].
Qed.
Lemma calm_bytes : forall l, calm (put_bytes l).
Proof. induction l as [|b l IH]; [apply calm_ret|]. cbn [put_bytes]. apply calm_bind; [apply calm_put|auto]. Qed.
Lemma calm_string : forall b s, calm (marshal_string b s).
Proof. intros b s. apply calm_bind; [apply calm_bytes|]. intros _. destruct b; [apply calm_ret|apply calm_put]. Qed.
Lemma calm_iter : forall f l, (forall v, In v l -> calm (f v)) -> calm (iter_list f l).
Proof.
  intros f. induction l as [|v l IH]; intros H; [apply calm_ret|]. cbn [iter_list].
  apply calm_bind; [apply H; now left|]. intros _. apply IH. intros w Hw. apply H. now right.
Qed.
Lemma calm_hook : forall h ver self, calm (on_write h ver self).
Proof.
  intros h ver self. destruct h; cbn [on_write]; try apply calm_ret.
  - destruct (ver =? 0); [apply calm_ret|]. cbv zeta. unfold util_write_string.
    apply calm_bind; [apply calm_bind; [apply calm_lift, calm_write|intros _; apply calm_lift, calm_write]|]. intros _.
    apply calm_bind; [apply calm_bind; [apply calm_lift, calm_write|intros _; apply calm_lift, calm_write]|]. intros _.
    apply calm_ret.
  - destruct (_ && _); [intros s; exact I|apply calm_ret].
Qed.
Lemma In_take : forall (l : list val) n v, In v (takeN n l) -> In v l.
Proof. intros l n v H. rewrite <- (takeN_skipN _ l n). apply in_or_app. now left. Qed.

Section Calm.
  Variable rname : string.
  Variable root : list (string * val).
  Variable ctx : context.
  Lemma calm_all :
    (forall t f size len v, has_type rname root ctx f size len t v = true -> calm (marshal_val rname root ctx f size len t v)) /\
    (forall fs sname cfo self, has_fields rname root ctx sname cfo self fs = true ->
       calm (marshal_flds rname root ctx sname cfo self fs)).
  Proof.
    apply sty_flds_mutind.
    - intros w f size len v HT. destruct v; try discriminate. apply calm_uint.
    - intros w f size len v HT. destruct v; try discriminate. apply calm_int.
    - intros f size len v HT. destruct v; try discriminate. apply calm_put.
    - intros f size len v HT. destruct v; try discriminate. apply calm_string.
    - intros n u IH f size len v HT. destruct v as [| | | |l| |]; try discriminate.
      cbn [has_type] in HT. apply andb_prop in HT. destruct HT as [_ HT]. rewrite forallb_forall in HT.
      cbn [marshal_val]. apply calm_iter. auto.
    - intros u IH f size len v HT. destruct v as [| | | |l| |]; try discriminate.
      cbn [has_type] in HT. apply andb_prop in HT. destruct HT as [_ HT]. rewrite forallb_forall in HT.
      cbn [marshal_val]. cbv zeta. destruct (_ && _); [intros s; exact I|]. intros s.
      destruct (_ && _).
      + apply calm_bind; [apply calm_lift, calm_chunks|intros _; apply calm_add].
      + apply calm_iter. intros v Hv. apply calm_ignore. apply IH. apply HT. eapply In_take, Hv.
    - intros u IH f size len v HT. destruct v as [| | | | |[x|]|]; try discriminate.
      apply (IH f size len x HT).
    - intros name cfo fs IH f size len v HT. destruct v as [| | | | | |l]; try discriminate.
      apply (IH name cfo l HT).
    - intros sname cfo self _. apply calm_ret.
    - intros f t IHt rest IHr sname cfo self HT. cbn [has_fields] in HT. cbn [marshal_flds]. cbv zeta.
      destruct (owner rname root ctx cfo sname self) as [cn env] eqn:OW.
      assert (Ecn : cfo_name rname cfo sname = cn /\ cfo_env root ctx cfo self = env).
      { unfold owner in OW. unfold cfo_name, cfo_env, root_env. destruct cfo; injection OW as <- <-; auto. }
      destruct Ecn as [-> ->].
      destruct (resolve_size cn env f) as [size|]; [|discriminate].
      destruct (resolve_len cn env f) as [len|]; [|discriminate].
      apply andb_prop in HT. destruct HT as [HT HR]. rewrite is_target_enabled.
      apply calm_bind; [|intros _; apply IHr, HR].
      destruct (enabled _ _ _ _ _); [|apply calm_ret].
      apply calm_bind; [apply calm_hook|]. intros wo. apply calm_bind; [apply calm_add|]. intros _.
      destruct (snd wo); [apply calm_ret|].
      destruct (lookup (f_name f) self) as [v|]; [|discriminate]. apply IHt, HT.
  Qed.
End Calm.
Lemma marshal_calm : forall R t ctx d x faults, get_box_def R t ctx = Some d -> complete_box ctx d x = true ->
  fin (fst (marshal R t ctx x faults)).
Proof.
  intros R t ctx d x faults G H. unfold marshal. rewrite G. unfold marshal_def.
  pose proof (proj2 (calm_all (bd_name d) x ctx) (bd_flds d) _ _ _ H (mkmst (new_writer faults) 0)) as C.
  destruct (marshal_flds _ _ _ _ _ _ _ _) as [[u|e| |] s]; cbn [fst] in *; try contradiction; try exact I.
  destruct (_ =? 0); exact I.
Qed.

(** ** The box that edit has changed *)
Lemma flags_update : forall k x v, k <> "FullBox" -> get_flags (update k x v) = get_flags v.
Proof. intros k x v H. unfold get_flags, fullbox_of. rewrite lookup_update_other by congruence. reflexivity. Qed.
Lemma update_absent : forall k x v, lookup k v = None -> update k x v = v.
Proof.
  intros k x. induction v as [|[a b] v IH]; intros H; [reflexivity|]. cbn [lookup update] in *.
  destruct (String.eqb k a); [discriminate|]. now rewrite IH.
Qed.
Lemma tfdt_edited : forall ctx x k v,
  (k = "BaseMediaDecodeTimeV0" /\ v < 2 ^ 32) \/ (k = "BaseMediaDecodeTimeV1" /\ v < 2 ^ 64) ->
  complete_box ctx tfdt_def x = true -> complete_box ctx tfdt_def (update k (VUint v) x) = true.
Proof.
  intros ctx x k v K H. destruct (lookup k x) as [y|] eqn:E.
  2:{ now rewrite update_absent. }
  revert H. 
  let d := eval vm_compute in tfdt_def in change tfdt_def with d.
  unfold complete_box.
  cbn [bd_name bd_flds has_fields owner resolve_size resolve_len f_sizeDyn f_lenDyn f_size f_length obind f_name].
  unfold enabled, version_allows, flags_allow. cbn [f_optDyn f_optFlag f_nOptFlag f_version f_nVersion].
  cbn -[N.ltb N.eqb get_version get_flags lookup update N.pow].
  destruct K as [[-> L]|[-> L]]; rewrite version_update by discriminate; rewrite flags_update by discriminate;
    rewrite lookup_update_same by congruence; rewrite !lookup_update_other by discriminate;
    apply N.ltb_lt in L; rewrite L; cbn [andb]; intros H.
  - apply andb_prop in H. destruct H as [H1 H]. rewrite H1. apply andb_prop in H. destruct H as [H2 H]. rewrite H.
    match goal with |- context [if ?c then true else true] => destruct c end; reflexivity.
  - apply andb_prop in H. destruct H as [H1 H]. rewrite H1. apply andb_prop in H. destruct H as [H2 H]. rewrite H2. cbn [andb].
    match goal with |- context [if ?c then true else true] => destruct c end; reflexivity.
Qed.
Lemma edited_complete : forall cfg t ctx d x, cf_time cfg < 2 ^ 64 -> get_box_def std_registry t ctx = Some d ->
  complete_box ctx d x = true -> complete_box ctx d (edit_fields cfg t x) = true.
Proof.
  intros cfg t ctx d x L G H. unfold edit_fields. destruct (bt_eqb t (bt "tfdt") && _) eqn:E; [|exact H].
  apply andb_prop in E. destruct E as [E _]. apply bytes_eqb_eq in E. subst t. rewrite tfdt_found in G.
  apply some_inj in G. subst d. destruct (_ =? 0); apply tfdt_edited; auto.
  left. split; [reflexivity|]. unfold w32. apply N.mod_lt. discriminate.
Qed.

(** ** Handlers that keep an invariant and, when they succeed, a relation between
    the state before and the state after *)
Fixpoint keepr {St V P} (D : res (boxdef * list (string * val) * N)) (Inv : St -> Prop) (R : St -> St -> Prop) (s0 : St)
         (p : hprog St V P) : Prop :=
  match p with
  | HRet s _ => Inv s /\ R s0 s
  | HFail s _ => Inv s
  | HReadPayload k => keepr D Inv R s0 (k D)
  | HReadData k => forall r, keepr D Inv R s0 (k r)
  | HExpand s _ k => Inv s /\ forall r s1, Inv s1 -> (forall l, r = Ok l -> R s s1) -> keepr D Inv R s0 (k r s1)
  | HMove _ k => keepr D Inv R s0 k
  end.
Section Walk.
  Variable data : list byte.
  Hypothesis data_small : lenN data < 2 ^ 48.
  Let data62 : lenN data < 2 ^ 62 := data62 data data_small.
  Context {St V P : Type}.
  Variable h : handler_t St V P.
  Variable Inv : St -> Prop.
  Variable R : St -> St -> Prop.
  Hypothesis R_refl : forall s, R s s.
  Hypothesis R_trans : forall a b c, R a b -> R b c -> R a c.
  Hypothesis h_keeps : forall bi pth q s, inside data bi -> Inv s -> keepr (dec data bi) Inv R s (h bi pth q s).
  Definition good {A} (s0 : St) (x : res A * St) : Prop :=
    np (fst x) /\ Inv (snd x) /\ (forall a, fst x = Ok a -> R s0 (snd x)).

  Lemma sem_good : forall bi (child : N -> P -> St -> res (list V) * St), inside data bi ->
    (forall n q s, Inv s -> good s (child n q s)) ->
    forall s0 p s, keepr (dec data bi) Inv R s0 p -> Inv s -> good s0 (sem data bi child p s).
  Proof.
    intros bi child I1 HC s0. pose proof (dec_np data data_small bi I1) as D1. pose proof (dat_np data data_small bi I1) as D2.
    induction p as [s1 v|s1 e|k IH|k IH|s1 q k IH|pos0 k IH]; intros s K Hs; cbn [sem keepr] in *; unfold good; cbn [fst snd].
    - destruct K. repeat split; auto.
    - repeat split; auto. intros a H. discriminate H.
    - destruct (dec data bi); try contradiction; try (apply IH; auto); cbn [fst snd]; repeat split; auto; discriminate.
    - destruct (dat data bi); try contradiction; try (apply IH; auto); cbn [fst snd]; repeat split; auto; discriminate.
    - destruct K as [K1 K2]. destruct (dec data bi) as [[[d x] n]|e| |]; try contradiction.
      + specialize (HC n q s1 K1). destruct (child n q s1) as [[vs|e| |] s2]; unfold good in HC; cbn [fst snd] in HC; destruct HC as (HC1 & HC2 & HC3);
          try contradiction.
        * apply IH; [apply K2; [assumption|intros l _; now apply (HC3 vs)]|assumption].
        * apply IH; [apply K2; [assumption|intros l H; discriminate H]|assumption].
        * cbn [fst snd]. repeat split; auto. discriminate.
      + apply IH; [apply K2; [assumption|intros l H; discriminate H]|assumption].
      + cbn [fst snd]. repeat split; auto. discriminate.
    - apply IH; auto.
  Qed.
  Lemma visit_good : forall rec bi pth params s, inside data bi -> Inv s ->
    (forall t p c q lo s, Inv s -> good s (rec t p c q lo s)) -> good s (visit data h rec bi pth params s).
  Proof.
    intros rec bi0 pth params s I1 Hs HR. unfold visit. pose proof (prep_np data data_small bi0 pth I1) as PN.
    destruct (prep data bi0 pth) as [bi|e| |] eqn:EP; try contradiction; try (repeat split; auto; discriminate).
    destruct (prep_same _ _ _ _ EP) as (c & Q).
    assert (I2 : inside data bi) by (subst bi; now apply inside_set). cbv zeta.
    set (ch := fun n q s => rec _ _ _ q (_ + n) s).
    pose proof (sem_good bi ch I2 (fun n q s0 => HR _ _ _ q _ s0) s _ s (h_keeps bi (pth ++ [bi_type bi]) params s I2 Hs) Hs) as SG.
    unfold good in SG. destruct (sem data bi ch _ s) as [[v|e| |] s1]; cbn [fst snd] in *; destruct SG as (S1 & S2 & S3); try contradiction;
      try (repeat split; auto; discriminate).
    destruct (fits _); repeat split; auto; cbn [fst snd]; try discriminate. intros a _. now apply (S3 v).
  Qed.
  Lemma lev_good : forall fuel root total pth ctx params lo s, Inv s -> good s (lev data h fuel root total pth ctx params lo s).
  Proof.
    induction fuel as [|fuel IH]; intros root total pth ctx params lo s Hs; cbn [lev]; [repeat split; auto; discriminate|].
    destruct (root || _).
    2:{ destruct (_ && _); repeat split; auto; discriminate. }
    pose proof (box_at_plain data data62 lo) as BP. destruct (box_at data lo) as [b|e| |] eqn:EB; try contradiction.
    2:{ destruct e; try (repeat split; auto; discriminate). destruct root; repeat split; auto; discriminate. }
    destruct (negb root && _); [repeat split; auto; discriminate|].
    destruct (box_at_ok _ data62 _ _ EB) as (_ & Hi & _).
    pose proof (visit_good (lev data h fuel false) (set_ctx b ctx) pth params s (proj2 (inside_set data b ctx) Hi) Hs
                (fun t p c q lo s => IH false t p c q lo s)) as VG.
    unfold good in VG. destruct (visit data h _ _ _ _ _) as [[[v b']|e| |] s1]; cbn [fst snd] in *; destruct VG as (V1 & V2 & V3); try contradiction;
      try (repeat split; auto; discriminate).
    specialize (IH root (sub64 total (bi_size b)) pth (next_ctx b' ctx) params (w64 (lo + bi_size b)) s1 V2).
    unfold good in IH. destruct (lev data h fuel root _ pth _ params _ s1) as [[vs|e| |] s2]; cbn [fst snd] in *; destruct IH as (J1 & J2 & J3);
      unfold good; cbn [fst snd]; repeat split; auto; try discriminate.
    intros a _. eapply R_trans; [exact (V3 _ eq_refl)|exact (J3 _ eq_refl)].
  Qed.
  Lemma root_good : forall params pos s, Inv s ->
    np (fst (read_box_structure std_registry data h params (pos, s))) /\
    Inv (snd (snd (read_box_structure std_registry data h params (pos, s)))).
  Proof.
    intros params pos s Hs. unfold read_box_structure, bind, lift_s, s_seek. cbn [fst snd].
    change (0 <? 9223372036854775808) with true. cbv iota.
    destruct (lev_spec data data62 h (tree_fuel data) true 0 [] ctx0 params 0 s) as (q1 & L1). rewrite L1. cbn [fst snd].
    destruct (lev_good (tree_fuel data) true 0 [] ctx0 params 0 s Hs) as (A & B & _). now split.
  Qed.
End Walk.

(** ** The Writer *)
Definition stack_of (s : est) : list boxinfo := wr_stack (e_w s).
Definition leaves {A} (m : M writer A) : Prop := forall w,
  fin (fst (m w)) /\ (forall a, fst (m w) = Ok a -> wr_stack (snd (m w)) = wr_stack w).
Lemma leaves_bind : forall A B (m : M writer A) (k : A -> M writer B), leaves m -> (forall a, leaves (k a)) -> leaves (bind m k).
Proof.
  intros A B m k H K w. destruct (H w) as [H1 H2]. unfold bind. destruct (m w) as [[a|e| |] w1]; cbn [fst snd] in *; try contradiction;
    try (split; [exact I|intros b Hb; discriminate Hb]).
  destruct (K a w1) as [K1 K2]. split; [exact K1|]. intros b Hb. rewrite (K2 b Hb). now apply (H2 a).
Qed.
Lemma leaves_ret : forall A (a : A), leaves (ret a).
Proof. intros A a w. split; [exact I|reflexivity]. Qed.
Lemma leaves_fail : forall A e, leaves (A := A) (fail e).
Proof. intros A e w. split; [exact I|]. intros a H. discriminate H. Qed.
Lemma leaves_lift : forall A (m : M ofile A), calm m -> leaves (lift_o m).
Proof.
  intros A m H w. specialize (H (wr_file w)). unfold lift_o. destruct (m (wr_file w)) as [r f]. cbn [fst snd wr_stack] in *.
  split; [destruct r; try exact I; contradiction|reflexivity].
Qed.
Lemma calm_o_write : forall p, calm (o_write p).
Proof. intros p s. unfold o_write. destruct (o_faults s) as [|[k|] f]; exact I. Qed.
Lemma calm_o_tell : calm o_tell.
Proof. intros s. exact I. Qed.
Lemma calm_o_seek : forall x, calm (o_seek x).
Proof. intros x s. unfold o_seek. destruct (_ <? _); exact I. Qed.
Lemma calm_info : forall bi, calm (write_box_info bi).
Proof.
  intros bi. unfold write_box_info. apply calm_bind; [apply calm_o_tell|]. intros o. cbv zeta.
  apply calm_bind; [apply calm_o_write|]. intros _. apply calm_ret.
Qed.
Lemma leaves_write : forall p, leaves (w_write p).
Proof. intros p. apply leaves_lift, calm_o_write. Qed.
Lemma leaves_chunks : forall k p, leaves (w_chunks k p).
Proof.
  induction k as [|k IH]; intros p; [apply leaves_ret|]. cbn [w_chunks]. destruct p; [apply leaves_ret|].
  apply leaves_bind; [apply leaves_write|auto].
Qed.
Lemma leaves_copy : forall data bi, leaves (copy_box data bi).
Proof.
  intros data bi. unfold copy_box. destruct (_ <=? _); [apply leaves_fail|]. destruct (_ <=? _); [apply leaves_fail|]. cbv zeta.
  apply leaves_bind; [apply leaves_chunks|]. intros _. destruct (_ =? _); [apply leaves_ret|apply leaves_fail].
Qed.
Lemma start_pushes : forall bi w, fin (fst (Writer.start_box bi w)) /\
  (forall a, fst (Writer.start_box bi w) = Ok a -> wr_stack (snd (Writer.start_box bi w)) = a :: wr_stack w).
Proof.
  intros bi w. unfold Writer.start_box, bind. destruct (leaves_lift _ _ (calm_info bi) w) as [A B].
  destruct (lift_o (write_box_info bi) w) as [[b|e| |] w1]; cbn [fst snd wr_stack] in *; try contradiction;
    try (split; [exact I|intros a Ha; discriminate Ha]).
  split; [exact I|]. intros a Ha. injection Ha as <-. f_equal. now apply (B b).
Qed.
Lemma end_pops : forall b rest w, wr_stack w = b :: rest -> fin (fst (end_box w)) /\
  (forall a, fst (end_box w) = Ok a -> wr_stack (snd (end_box w)) = rest).
Proof.
  intros b rest w E. unfold end_box. rewrite E.
  match goal with |- context [?m (mkwr (wr_file w) rest)] => assert (L : leaves m) end.
  { apply leaves_bind; [apply leaves_lift, calm_o_tell|]. intros e. cbv zeta.
    apply leaves_bind; [apply leaves_lift, calm_o_seek|]. intros _.
    apply leaves_bind; [apply leaves_lift, calm_info|]. intros b2.
    destruct (negb _); [apply leaves_fail|].
    apply leaves_bind; [apply leaves_lift, calm_o_seek|]. intros _. apply leaves_ret. }
  apply (L (mkwr (wr_file w) rest)).
Qed.

(** ** The handler of edit *)
Definition unharmed (s : est) : Prop := e_panic s = false.
Definition same_stack (s s' : est) : Prop := wr_stack (e_w s) = wr_stack (e_w s').
Lemma call_keeps : forall A (m : M writer A) s D s0 k, unharmed s -> fin (fst (m (e_w s))) ->
  (forall a w, m (e_w s) = (Ok a, w) -> keepr D unharmed same_stack s0 (k a (mkest w false))) ->
  keepr D unharmed same_stack s0 (call m s k).
Proof.
  intros A m s D s0 k Hs N1 H. unfold call. rewrite Hs. destruct (m (e_w s)) as [[a|e| |] w]; cbn [fst] in *; try contradiction.
  - now apply H.
  - reflexivity.
Qed.
Lemma edit_keeps : forall cfg data bi pth q s, lenN data < 2 ^ 48 -> cf_time cfg < 2 ^ 64 -> inside data bi -> unharmed s ->
  keepr (dec data bi) unharmed same_stack s (edit_handler cfg data bi pth q s).
Proof.
  intros cfg data bi pth q s L TM II Hs. unfold edit_handler.
  destruct (boxes_exist _ _); [split; [exact Hs|reflexivity]|].
  destruct (_ || _).
  { destruct (leaves_copy data bi (e_w s)) as [A B]. apply call_keeps; [exact Hs|exact A|].
    intros a w E. cbn [keepr]. split; [reflexivity|]. unfold same_stack. cbn [e_w]. rewrite E in B. symmetry. apply (B a). reflexivity. }
  destruct (start_pushes bi (e_w s)) as [A B]. apply call_keeps; [exact Hs|exact A|].
  intros b w1 E. rewrite E in B. specialize (B b eq_refl). cbn [snd] in B. cbn [keepr].
  destruct (dec data bi) as [[[d x] n]|er| |] eqn:D; try reflexivity.
  assert (MC : fin (fst (marshal std_registry (bi_type bi) (bi_ctx bi) (edit_fields cfg (bi_type bi) x) []))).
  { pose proof (data62 data L) as L2. rewrite (dec_payload data L2 bi II) in D. unfold payload_at in D.
    match type of D with fst ?u = _ => destruct u as [r p'] eqn:U end. cbn [fst] in D. subst r.
    pose proof (unmarshal_any_def _ _ _ _ _ _ _ _ _ U) as G.
    apply decoded_complete in U; [|apply II|exact L2]. eapply marshal_calm; [exact G|]. now apply edited_complete. }
  destruct (marshal _ _ _ _ _) as [m out]. cbn [fst] in MC.
  destruct (leaves_write out w1) as [A1 B1]. apply call_keeps; [reflexivity|exact A1|].
  intros u w2 E2. cbn [e_w] in E2. rewrite E2 in B1. specialize (B1 u eq_refl). cbn [snd] in B1.
  apply call_keeps; [reflexivity|exact MC|].
  intros k w3 E3. cbn [e_w] in E3. injection E3 as _ <-. cbn [keepr]. split; [reflexivity|].
  intros r s1 H1 HR. destruct r as [l|er| |]; try exact H1.
  specialize (HR l eq_refl). unfold same_stack in HR. cbn [e_w] in HR.
  assert (ST : wr_stack (e_w s1) = b :: wr_stack (e_w s)) by congruence.
  destruct (end_pops _ _ _ ST) as [A4 B4]. apply call_keeps; [exact H1|exact A4|].
  intros a w4 E4. rewrite E4 in B4. specialize (B4 a eq_refl). cbn [snd] in B4. split; [reflexivity|].
  unfold same_stack. cbn [e_w]. congruence.
Qed.
Lemma edit_calm : forall cfg data, lenN data < 2 ^ 48 -> cf_time cfg < 2 ^ 64 -> fst (edit_file cfg data) <> Panic.
Proof.
  intros cfg data L TM. unfold edit_file.
  set (s0 := mkest _ _).
  destruct (root_good data L (edit_handler cfg data) unharmed same_stack (fun s => eq_refl)
    (fun a b c (H : same_stack a b) (K : same_stack b c) => eq_trans H K)
    (fun bi pth q s I1 Hs => edit_keeps cfg data bi pth q s L TM I1 Hs) tt 0 s0 eq_refl) as [A B].
  destruct (read_box_structure _ _ _ _ _) as [r [p s]]. cbn [fst snd] in *. rewrite B.
  destruct r; cbn [fst]; try discriminate. contradiction.
Qed.
