(** Proofs for C73: traversals whose handlers write to an output that may fail. *)
From Verif Require Import Base BaseProofs Schema Structs Registry Unmarshal BoxInfo ReadTree Extract Text GoText Stringify Edit Tool
  StdoutFaults SpecStdoutFaults.
Local Open Scope string_scope.
Local Open Scope list_scope.
Local Open Scope N_scope.
Local Open Scope monad_scope.

(** ** A traversal beside another one whose output does not fail *)
Section Traversal.
  Context {S1 S2 V P : Type}.
  Variable near : S1 -> S2 -> Prop.            (* nothing has been lost *)
  Variable gone : S1 -> S2 -> Prop.            (* the left one has given up *)
  Variable grow : S2 -> S2 -> Prop.
  Variable e0 : err.
  Hypothesis grow_refl : forall t, grow t t.
  Hypothesis grow_trans : forall a b c, grow a b -> grow b c -> grow a c.
  Hypothesis gone_grow : forall x a b, gone x a -> grow a b -> gone x b.

  (** [c]: the state before the program is at least [t0] *)
  Inductive grows : bool -> S2 -> hprog S2 V P -> Prop :=
  | GRet : forall c t0 t v, grow t0 t -> grows c t0 (HRet t v)
  | GFail : forall c t0 t e, grow t0 t -> grows c t0 (HFail t e)
  | GPayload : forall t0 l, (forall r, grows true t0 (l r)) -> grows true t0 (HReadPayload l)
  | GData : forall t0 l, (forall r, grows true t0 (l r)) -> grows true t0 (HReadData l)
  | GExpand : forall c t0 t q l, grow t0 t -> (forall r t', grow t t' -> grows true t' (l r t')) -> grows c t0 (HExpand t q l)
  | GMove : forall c t0 n l, grows c t0 l -> grows c t0 (HMove n l).
  Inductive alike : hprog S1 V P -> hprog S2 V P -> Prop :=
  | ARet : forall x t v, near x t -> alike (HRet x v) (HRet t v)
  | AFail : forall x t e, near x t -> alike (HFail x e) (HFail t e)
  | AGone : forall x t p, gone x t -> grows false t p -> alike (HFail x e0) p
  | APayload : forall k l, (forall r, alike (k r) (l r)) -> alike (HReadPayload k) (HReadPayload l)
  | AData : forall k l, (forall r, alike (k r) (l r)) -> alike (HReadData k) (HReadData l)
  | AExpand : forall x t q k l, near x t -> (forall r x' t', near x' t' -> alike (k r x') (l r t')) ->
      (forall x', k (Err e0) x' = HFail x' e0) -> (forall r t', grows true t' (l r t')) -> alike (HExpand x q k) (HExpand t q l)
  | AMove : forall n k l, alike k l -> alike (HMove n k) (HMove n l).

  Variable R : registry.
  Variable data : list byte.
  Variables (h1 : handler_t S1 V P) (h2 : handler_t S2 V P).
  Hypothesis h_alike : forall bi p q x t, near x t -> alike (h1 bi p q x) (h2 bi p q t).
  Hypothesis h_grows : forall bi p q t, grows true t (h2 bi p q t).

  Definition mono {A} (m : M (N * S2) A) : Prop := forall n t, grow t (snd (snd (m (n, t)))).
  Definition both {A} (o1 : res A * (N * S1)) (o2 : res A * (N * S2)) : Prop :=
    (fst o1 = fst o2 /\ fst (snd o1) = fst (snd o2) /\ near (snd (snd o1)) (snd (snd o2))) \/
    (fst o1 = Err e0 /\ gone (snd (snd o1)) (snd (snd o2))).
  Definition sim {A} (m1 : M (N * S1) A) (m2 : M (N * S2) A) : Prop :=
    mono m2 /\ forall n x t, near x t -> both (m1 (n, x)) (m2 (n, t)).
  Ltac asis := split; [reflexivity|split; [reflexivity|cbn [fst snd]; assumption]].
  Ltac easy_sim := split; [intros n t; apply grow_refl|intros n x t H; left; asis].

  Lemma sim_ret : forall A (a : A), sim (ret a) (ret a). Proof. intros A a. easy_sim. Qed.
  Lemma sim_fail : forall A e, sim (@fail _ A e) (fail e). Proof. intros A e. easy_sim. Qed.
  Lemma sim_panic : forall A, sim (@panic _ A) panic. Proof. intros A. easy_sim. Qed.
  Lemma mono_lift : forall A (m : M N A), mono (lift_s m).
  Proof. intros A m n t. unfold lift_s. cbn [fst snd]. destruct (m n). apply grow_refl. Qed.
  Lemma mono_try : forall A (m : M N A), mono (attempt (lift_s m)).
  Proof. intros A m n t. unfold attempt, lift_s. cbn [fst snd]. destruct (m n) as [[a|e| |] n']; apply grow_refl. Qed.
  Lemma sim_lift : forall A (m : M N A), sim (lift_s m) (lift_s m).
  Proof. intros A m. split; [apply mono_lift|]. intros n x t H. unfold lift_s. cbn [fst snd]. destruct (m n). left. asis. Qed.
  Lemma sim_try : forall A (m : M N A), sim (attempt (lift_s m)) (attempt (lift_s m)).
  Proof.
    intros A m. split; [apply mono_try|]. intros n x t H. unfold attempt, lift_s. cbn [fst snd].
    destruct (m n) as [[a|e| |] n']; left; asis.
  Qed.
  Lemma mono_bind : forall A C (m : M (N * S2) A) (k : A -> M (N * S2) C), mono m -> (forall a, mono (k a)) -> mono (bind m k).
  Proof.
    intros A C m k Hm Hk n t. specialize (Hm n t). unfold bind. destruct (m (n, t)) as [[a|e| |] [n1 t1]]; cbn [fst snd] in *; try exact Hm.
    eapply grow_trans; [exact Hm|apply Hk].
  Qed.
  Lemma sim_bind : forall A C (m1 : M (N * S1) A) m2 (k1 : A -> M (N * S1) C) k2, sim m1 m2 -> (forall a, sim (k1 a) (k2 a)) -> sim (bind m1 k1) (bind m2 k2).
  Proof.
    intros A C m1 m2 k1 k2 [Mm Hm] Hk. split; [apply mono_bind; [exact Mm|intros a; apply Hk]|].
    intros n x t H. unfold bind. destruct (Hm n x t H) as [(E & E2 & Q)|[E G]].
    - destruct (m1 (n, x)) as [r [n1 x1]], (m2 (n, t)) as [r2 [n2 t1]]. cbn [fst snd] in *. subst r2 n2.
      destruct r as [a|e| |]; [now apply Hk|left; asis..].
    - right. destruct (m1 (n, x)) as [r [n1 x1]], (m2 (n, t)) as [r2 [n2 t1]]. cbn [fst snd] in *. subst r. split; [reflexivity|].
      destruct r2 as [a|e| |]; cbn [fst snd]; try exact G. eapply gone_grow; [exact G|]. apply Hk.
  Qed.
  Lemma mono_run : forall bi (e2 : N -> P -> M (N * S2) (list V)), (forall total q, mono (e2 total q)) ->
    forall c t0 p, grows c t0 p -> forall co n u, (c = true -> grow t0 u) -> grow t0 (snd (snd (run_handler R data bi e2 co p (n, u)))).
  Proof.
    intros bi e2 He c t0 p Hp. induction Hp as [c t0 t v G|c t0 t e G|t0 l Hl IH|t0 l Hl IH|c t0 t q l G Hl IH|c t0 m l Hl IH];
      intros co n u U; cbn [run_handler].
    - exact G.
    - exact G.
    - specialize (U eq_refl). unfold bind, attempt, lift_s. cbn [fst snd]. destruct (read_payload R data bi n) as [[z|e| |] n1]; cbn [fst snd]; auto.
    - specialize (U eq_refl). unfold bind, attempt, lift_s. cbn [fst snd]. destruct (read_data data bi n) as [[z|e| |] n1]; cbn [fst snd]; auto.
    - assert (TAIL : forall co' total n' w, grow t w ->
        grow t0 (snd (snd ((vs <- attempt (e2 total q) ;; s' <- get ;; run_handler R data bi e2 co' (l vs (snd s'))) (n', w))))).
      { intros co' total n' w W. unfold bind, attempt, get. specialize (He total q n' w).
        destruct (e2 total q (n', w)) as [[vs|e| |] [n2 t2]]; cbn [fst snd] in *.
        - apply grow_trans with t; [exact G|]. apply grow_trans with t2; [now apply grow_trans with w|].
          apply IH; [now apply grow_trans with w|]. intros _. apply grow_refl.
        - apply grow_trans with t; [exact G|]. apply grow_trans with t2; [now apply grow_trans with w|].
          apply IH; [now apply grow_trans with w|]. intros _. apply grow_refl.
        - apply grow_trans with t; [exact G|]. now apply grow_trans with w.
        - apply grow_trans with t; [exact G|]. now apply grow_trans with w. }
      unfold bind at 1. cbn [fst snd]. destruct (co =? 0).
      + unfold bind, attempt, lift_s, get, ret. cbn [fst snd]. destruct (read_payload R data bi n) as [[z|e| |] n1]; cbn [fst snd]; try exact G.
        * specialize (TAIL (w64 (bi_offset bi + bi_hsize bi + snd z)) (sub64 (bi_offset bi + bi_size bi) (w64 (bi_offset bi + bi_hsize bi + snd z))) n1 t (grow_refl t)).
          unfold bind, attempt, get in TAIL. destruct (e2 _ q (n1, t)) as [[b|e'| |] [n3 t3]]; cbn [fst snd] in *; exact TAIL.
        * apply grow_trans with t; [exact G|]. apply IH; [apply grow_refl|]. intros _. apply grow_refl.
      + unfold bind, attempt, lift_s, get, ret. cbn [fst snd]. destruct (s_seek co n) as [[z|e| |] n1]; cbn [fst snd]; try exact G.
        * specialize (TAIL co (sub64 (bi_offset bi + bi_size bi) co) n1 t (grow_refl t)).
          unfold bind, attempt, get in TAIL. destruct (e2 _ q (n1, t)) as [[b|e'| |] [n3 t3]]; cbn [fst snd] in *; exact TAIL.
        * apply grow_trans with t; [exact G|]. apply IH; [apply grow_refl|]. intros _. apply grow_refl.
    - unfold bind. cbn [fst snd]. now apply IH.
  Qed.
  Lemma sim_run : forall bi (e1 : N -> P -> M (N * S1) (list V)) e2, (forall total q, sim (e1 total q) (e2 total q)) ->
    forall (p1 : hprog S1 V P) p2, alike p1 p2 -> forall co n x t, near x t -> both (run_handler R data bi e1 co p1 (n, x)) (run_handler R data bi e2 co p2 (n, t)).
  Proof.
    intros bi e1 e2 He p1 p2 Hp.
    induction Hp as [x t v H|x t e H|x t p G Gp|k l Hk IH|k l Hk IH|x t q k l H Hk IH Hf Hg|pos k l Hk IH]; intros co n y u Q; cbn [run_handler].
    - left. asis.
    - left. asis.
    - right. split; [reflexivity|]. eapply gone_grow; [exact G|].
      apply (mono_run bi e2 (fun a b => proj1 (He a b)) false t p Gp). discriminate.
    - unfold bind, attempt, lift_s. cbn [fst snd]. destruct (read_payload R data bi n) as [[z|e| |] n1]; cbn [fst snd]; [now apply IH|now apply IH|left; asis..].
    - unfold bind, attempt, lift_s. cbn [fst snd]. destruct (read_data data bi n) as [[z|e| |] n1]; cbn [fst snd]; [now apply IH|now apply IH|left; asis..].
    - assert (TAIL : forall co' total n' y u, near y u ->
        both ((vs <- attempt (e1 total q) ;; s' <- get ;; run_handler R data bi e1 co' (k vs (snd s'))) (n', y))
             ((vs <- attempt (e2 total q) ;; s' <- get ;; run_handler R data bi e2 co' (l vs (snd s'))) (n', u))).
      { clear n y u Q. intros co' total n y u Q. unfold bind, attempt, get. destruct (proj2 (He total q) n y u Q) as [(E & E2 & Q1)|[E G]].
        - destruct (e1 total q (n, y)) as [r [n1 y1]], (e2 total q (n, u)) as [r2 [n2 u1]]. cbn [fst snd] in *. subst r2 n2.
          destruct r as [vs|e| |]; cbn [fst snd]; [now apply IH|now apply IH|left; asis..].
        - destruct (e1 total q (n, y)) as [r [n1 y1]], (e2 total q (n, u)) as [r2 [n2 u1]]. cbn [fst snd] in *. subst r. cbn [fst snd].
          rewrite Hf. cbn [run_handler]. right. split; [reflexivity|]. cbn [fst snd].
          destruct r2 as [vs|e| |]; cbn [fst snd]; try exact G;
            (eapply gone_grow; [exact G|]; apply (mono_run bi e2 (fun a b => proj1 (He a b)) true u1); [apply Hg|intros _; apply grow_refl]). }
      unfold bind at 1. unfold bind at 4. cbn [fst snd]. destruct (co =? 0).
      + unfold bind, attempt, lift_s, get, ret. cbn [fst snd]. destruct (read_payload R data bi n) as [[z|e| |] n1]; cbn [fst snd].
        * specialize (TAIL (w64 (bi_offset bi + bi_hsize bi + snd z)) (sub64 (bi_offset bi + bi_size bi) (w64 (bi_offset bi + bi_hsize bi + snd z))) n1 x t H).
          unfold bind, attempt, get in TAIL.
          destruct (e1 _ q (n1, x)) as [[a|e| |] [n2 x2]], (e2 _ q (n1, t)) as [[b|e'| |] [n3 t3]]; cbn [fst snd] in *; exact TAIL.
        * now apply IH.
        * left; asis.
        * left; asis.
      + unfold bind, attempt, lift_s, get, ret. cbn [fst snd]. destruct (s_seek co n) as [[z|e| |] n1]; cbn [fst snd].
        * specialize (TAIL co (sub64 (bi_offset bi + bi_size bi) co) n1 x t H).
          unfold bind, attempt, get in TAIL.
          destruct (e1 _ q (n1, x)) as [[a|e| |] [n2 x2]], (e2 _ q (n1, t)) as [[b|e'| |] [n3 t3]]; cbn [fst snd] in *; exact TAIL.
        * now apply IH.
        * left; asis.
        * left; asis.
    - unfold bind. cbn [fst snd]. now apply IH.
  Qed.
  Lemma sim_structure : forall fuel root total pth ctx q,
    sim (read_structure R data h1 fuel root total pth ctx q) (read_structure R data h2 fuel root total pth ctx q).
  Proof.
    induction fuel as [|fuel IH]; intros root total pth ctx q; cbn [read_structure]; [easy_sim|].
    destruct (root || (SmallHeaderSize <=? total)).
    2:{ destruct (_ && _); [apply sim_fail|apply sim_ret]. }
    apply sim_bind; [apply sim_try|]. intros [bi|e| |]; try apply sim_panic.
    2:{ destruct e; try apply sim_fail. destruct root; [apply sim_ret|apply sim_fail]. }
    destruct (_ && _); [apply sim_fail|]. apply sim_bind.
    - unfold box_internal. apply sim_bind; [apply sim_lift|]. intros b. cbv zeta.
      apply sim_bind; [|intros v; apply sim_bind; [apply sim_lift|intros _; apply sim_ret]].
      split.
      + intros n t. apply (mono_run _ _ (fun _ _ => proj1 (IH _ _ _ _ _)) true t); [apply h_grows|intros _; apply grow_refl].
      + intros n x t H. apply sim_run; [intros; apply IH|apply h_alike; exact H|exact H].
    - intros [v bi']. cbv zeta. apply sim_bind; [apply IH|]. intros vs. apply sim_ret.
  Qed.
  Lemma sim_box_structure : forall q, sim (read_box_structure R data h1 q) (read_box_structure R data h2 q).
  Proof. intros q. unfold read_box_structure. apply sim_bind; [apply sim_lift|]. intros _. apply sim_structure. Qed.
End Traversal.

(** ** extract *)
Definition grow (a b : tst) : Prop := exists l, t_out b = t_out a ++ l.
Lemma grow_refl : forall t, grow t t. Proof. intros t. exists []. now rewrite app_nil_r. Qed.
Lemma grow_trans : forall a b c, grow a b -> grow b c -> grow a c.
Proof. intros a b c [l H] [m K]. exists (l ++ m). now rewrite K, H, app_assoc. Qed.
Lemma grow_print : forall l t, grow t (print l t). Proof. intros l t. now exists l. Qed.

Section Extract.
  Variable script : list (option N).
  Definition near_e (x : ost) (t : tst) : Prop :=
    fst x = t /\ t_panic t = false /\ exists pre, script = pre ++ snd x /\ succeed pre.
  Definition gone_e (x : ost) (t : tst) : Prop :=
    t_panic (fst x) = false /\ grow (fst x) t /\ exists pre k, script = pre ++ Some k :: snd x /\ succeed pre.
  Lemma gone_e_grow : forall x a b, gone_e x a -> grow a b -> gone_e x b.
  Proof. intros x a b (A & B & C) G. split; [exact A|split; [now apply grow_trans with a|exact C]]. Qed.
  Lemma write_near : forall l x t, near_e x t -> exists x', 
    (write_out l x = (true, x') /\ near_e x' (print l t)) \/ (write_out l x = (false, x') /\ gone_e x' (print l t)).
  Proof.
    intros l [s sc] t (E & Pn & pre & Hs & Hp). cbn [fst snd] in *. subst t. unfold write_out. cbn [fst snd]. destruct sc as [|[k|] r].
    - eexists. left. split; [reflexivity|]. split; [reflexivity|split; [exact Pn|]]. now exists pre.
    - eexists. right. split; [reflexivity|]. split; [exact Pn|split].
      + exists (skipN k l). cbn [fst print t_out]. rewrite <- app_assoc, takeN_skipN. reflexivity.
      + now exists pre, k.
    - eexists. left. split; [reflexivity|]. split; [reflexivity|split; [exact Pn|]]. exists (pre ++ [None]). split.
      + rewrite <- app_assoc. exact Hs.
      + intros x Hx. apply in_app_or in Hx. destruct Hx as [Hx|[<-|[]]]; [now apply Hp|reflexivity].
  Qed.
  Lemma print_app : forall a b t, print b (print a t) = print (a ++ b) t.
  Proof. intros a b t. unfold print. cbn [t_out t_panic]. now rewrite app_assoc. Qed.
  Lemma pieces_near : forall ps x t, near_e x t -> exists x', 
    (write_pieces ps x = (true, x') /\ near_e x' (print (List.concat ps) t)) \/ (write_pieces ps x = (false, x') /\ gone_e x' (print (List.concat ps) t)).
  Proof.
    induction ps as [|p ps IH]; intros x t H; cbn [write_pieces List.concat].
    - exists x. left. split; [reflexivity|]. unfold print. rewrite app_nil_r. now destruct t.
    - destruct (write_near p x t H) as (x1 & [[E Q]|[E Q]]); rewrite E.
      + destruct (IH x1 _ Q) as (x2 & K). rewrite print_app in K. now exists x2.
      + exists x1. right. split; [reflexivity|]. eapply gone_e_grow; [exact Q|]. exists (List.concat ps). cbn [print t_out]. now rewrite app_assoc.
  Qed.
  Lemma rest_alike : forall bi x t, near_e x t -> alike near_e gone_e grow EWrite (extract_rest_on bi x) (extract_rest bi t).
  Proof.
    intros bi x t H. unfold extract_rest_on, extract_rest. destruct (negb _); [now constructor|]. destruct (_ && _); [now constructor|].
    constructor.
    - exact H.
    - intros r x' t' H'. destruct r as [v|e| |]; [now constructor| |now constructor..]. destruct e; now constructor.
    - intros x'. reflexivity.
    - intros r t'. destruct r as [v|e| |]; [constructor; apply grow_refl| |constructor; apply grow_refl..]. destruct e; constructor; apply grow_refl.
  Qed.
  Lemma rest_grows : forall c bi t0 t, grow t0 t -> grows grow c t0 (extract_rest bi t).
  Proof.
    intros c bi t0 t H. unfold extract_rest. destruct (negb _); [now constructor|]. destruct (_ && _); [now constructor|].
    constructor; [exact H|]. intros r t' _. destruct r as [v|e| |]; [constructor; apply grow_refl| |constructor; apply grow_refl..]. destruct e; constructor; apply grow_refl.
  Qed.
  Variable split : list byte -> list (list byte).
  Hypothesis split_all : forall l, List.concat (split l) = l.
  Lemma extract_alike : forall data boxType bi p q x t, near_e x t ->
    alike near_e gone_e grow EWrite (extract_handler_on split data boxType bi p q x) (extract_tool_handler data boxType bi p q t).
  Proof.
    intros data boxType bi p q x t H. unfold extract_handler_on, extract_tool_handler. destruct (bt_eqb _ _); [|now apply rest_alike].
    destruct (copy_out data bi) as [got complete]. destruct (pieces_near (split got) x t H) as (x' & K). rewrite split_all in K.
    destruct K as [[E Q]|[E Q]]; rewrite E; cbn [negb].
    - destruct complete; [constructor; now apply rest_alike|now constructor].
    - eapply AGone; [exact Q|]. destruct complete; [constructor; apply rest_grows; apply grow_refl|constructor; apply grow_refl].
  Qed.
  Lemma extract_grows : forall data boxType bi p q t, grows grow true t (extract_tool_handler data boxType bi p q t).
  Proof.
    intros data boxType bi p q t. unfold extract_tool_handler. destruct (bt_eqb _ _); [|apply rest_grows, grow_refl].
    destruct (copy_out data bi) as [got [|]]; [constructor; apply rest_grows|constructor]; apply grow_print.
  Qed.
  Lemma extract_all : forall data boxType r out rest, extract_tool_on split data boxType script = (r, out, rest) ->
    ((r, out) = extract_tool data boxType /\ exists pre, script = pre ++ rest /\ succeed pre) \/
    (r = Err EWrite /\ (exists pre k, script = pre ++ Some k :: rest /\ succeed pre) /\ exists more, snd (extract_tool data boxType) = out ++ more).
  Proof.
    intros data boxType r out rest H. unfold extract_tool_on in H. unfold extract_tool.
    assert (H0 : near_e (mktst [] false, script) (mktst [] false)).
    { split; [reflexivity|split; [reflexivity|]]. exists []. split; [reflexivity|]. intros x []. }
    destruct (proj2 (sim_box_structure near_e gone_e grow EWrite grow_refl grow_trans gone_e_grow std_registry data _ _
      (extract_alike data boxType) (extract_grows data boxType) tt) 0 _ _ H0) as [(E & E2 & (E3 & Pn & Q))|[E (Pn & G & Q)]];
    destruct (read_box_structure _ _ (extract_handler_on _ _ _) _ _) as [r1 [n1 x1]], (read_box_structure _ _ (extract_tool_handler _ _) _ _) as [r2 [n2 t2]];
    cbn [fst snd] in *; unfold finish_on in H; cbn [fst snd] in H.
    - subst r2 n2 t2. left. injection H as H <-. rewrite <- H. unfold finish. cbn [fst snd]. split; [reflexivity|exact Q].
    - right. subst r1. unfold finish in H. cbn [fst snd] in H. rewrite Pn in H. injection H as <- <- <-.
      split; [reflexivity|split; [exact Q|]]. destruct G as [l G]. exists l. unfold finish. cbn [fst snd]. destruct (t_panic t2); exact G.
  Qed.
End Extract.

(** ** dump and psshdump *)
Lemma kept_app : forall a b script, kept script (a ++ b) = kept script a ++ kept (skipn (List.length a) script) b.
Proof.
  induction a as [|t a IH]; intros b script; [reflexivity|]. cbn [app kept List.length]. destruct script as [|[k|] r].
  - rewrite IH, skipn_nil, app_assoc. now destruct (List.length a).
  - cbn [skipn]. now rewrite IH, app_assoc.
  - cbn [skipn]. now rewrite IH, app_assoc.
Qed.
Lemma skipn_tl : forall A n (l : list A), tl (skipn n l) = skipn (S n) l.
Proof. intros A. induction n as [|n IH]; intros [|a l]; try reflexivity. cbn [skipn]. rewrite IH. reflexivity. Qed.
Section Printing.
  Variable script : list (option N).
  Definition near_p (x : ost) (t : tst) : Prop :=
    t_panic (fst x) = t_panic t /\
    exists texts, lines texts /\ t_out t = List.concat texts /\ t_out (fst x) = kept script texts /\
      snd x = skipn (List.length texts) script.
  Lemma println_near : forall line x t, near_p x t -> near_p (println_on line x) (println line t).
  Proof.
    intros line [s sc] t (P & texts & L & T & X & S). cbn [fst snd] in *. unfold println_on, println. 
    assert (K : t_panic (fst (snd (write_out (line ++ [N2b 10]) (s, sc)))) = t_panic s).
    { unfold write_out. cbn [fst snd]. now destruct sc as [|[k|] r]. }
    split; [rewrite K; exact P|]. exists (texts ++ [line ++ [N2b 10]]). split; [|split; [|split]].
    - intros u Hu. apply in_app_or in Hu. destruct Hu as [Hu|[<-|[]]]; [now apply L|now exists line].
    - cbn [print t_out]. rewrite T, concat_app. cbn [List.concat]. now rewrite app_nil_r.
    - rewrite kept_app, <- S, <- X. unfold write_out. cbn [fst snd]. destruct sc as [|[k|] r]; cbn [fst snd print t_out kept]; now rewrite app_nil_r.
    - rewrite app_length. cbn [List.length]. rewrite Nat.add_1_r, <- skipn_tl, <- S. unfold write_out. cbn [fst snd]. now destruct sc as [|[k|] r].
  Qed.
  Lemma panics_near : forall x t, near_p x t -> near_p (panics x) (mktst (t_out t) true).
  Proof. intros x t (P & H). split; [reflexivity|exact H]. Qed.
  Definition never (x : ost) (t : tst) : Prop := False.
  Definition any (a b : tst) : Prop := True.
  Lemma any_grows : forall c t p, c = true -> grows any c t (p : tprog).
  Proof.
    intros c t p E. revert t. induction p; intros u; subst c; first [constructor; exact I|constructor; [exact I|auto]|constructor; auto].
  Qed.
  Lemma raw_alike : forall bi full line x t, near_p x t -> alike near_p never any EWrite (dump_raw_on bi full line x) (dump_raw bi full line t).
  Proof.
    intros bi full line x t H. unfold dump_raw_on, dump_raw. destruct full; [|constructor; now apply println_near].
    destruct (_ <=? _); [constructor; now apply panics_near|]. constructor. intros [[d n]|e| |]; constructor; try exact H. now apply println_near.
  Qed.
  Lemma dump_alike : forall graphic cfg bi p q x t, near_p x t ->
    alike near_p never any EWrite (dump_handler_on graphic cfg bi p q x) (dump_handler graphic cfg bi p q t).
  Proof.
    intros graphic cfg bi p q x t H. unfold dump_handler_on, dump_handler. cbv zeta. destruct (_ && _); [constructor; now apply println_near|].
    destruct (is_supported _ _ _); [|now apply raw_alike]. destruct (_ && should_has_no_children _); [constructor; now apply println_near|].
    constructor. intros [[[d v] n]|e| |]; [| |constructor; exact H..].
    - destruct (stringify _ _ _ _ _) as [str|e| |]; [|now constructor|constructor; now apply panics_near..].
      constructor; [now apply println_near| | |].
      + intros r x' t' H'. destruct r; now constructor.
      + reflexivity.
      + intros r t'. now apply any_grows.
    - destruct e; try (now constructor). now apply raw_alike.
  Qed.
  Lemma near_p0 : near_p (mktst [] false, script) (mktst [] false).
  Proof. split; [reflexivity|]. exists []. split; [intros u []|]. now repeat split. Qed.
  Lemma dump_all : forall graphic cfg data r out rest, dump_tool_on graphic cfg data script = (r, out, rest) ->
    r = fst (dump_tool graphic cfg data) /\ exists texts, lines texts /\
      snd (dump_tool graphic cfg data) = List.concat texts /\ out = kept script texts.
  Proof.
    intros graphic cfg data r out rest H. unfold dump_tool_on in H. unfold dump_tool.
    destruct (proj2 (sim_box_structure near_p never any EWrite (fun _ => I) (fun _ _ _ _ _ => I) (fun _ _ _ f _ => f) std_registry data _ _
      (dump_alike graphic cfg) (fun bi p q t => any_grows true t _ eq_refl) tt) 0 _ _ near_p0) as [(E & E2 & (Pn & texts & L & T & X & S))|[E []]];
    destruct (read_box_structure _ _ (dump_handler_on _ _) _ _) as [r1 [n1 x1]], (read_box_structure _ _ (dump_handler _ _) _ _) as [r2 [n2 t2]];
    cbn [fst snd] in *; unfold finish_on in H; cbn [fst snd] in H.
    subst r2 n2. unfold finish in *. cbn [fst snd] in *. rewrite Pn in H.
    destruct (t_panic t2); cbn [fst snd]; injection H as <- <- <-; (split; [reflexivity|]; exists texts; now repeat split).
  Qed.
  Lemma lines_near : forall l x t, near_p x t -> near_p (fold_left (fun s line => println_on line s) l x) (fold_left (fun s line => println line s) l t).
  Proof. induction l as [|a l IH]; intros x t H; cbn [fold_left]; [exact H|]. apply IH. now apply println_near. Qed.
  Lemma lines_out : forall l t, fold_left (fun s line => println line s) l t = print (List.concat (map (fun a => a ++ [N2b 10]) l)) t.
  Proof.
    induction l as [|a l IH]; intros t; cbn [fold_left map List.concat].
    - unfold print. rewrite app_nil_r. now destruct t.
    - rewrite IH. unfold println. apply print_app.
  Qed.
  Lemma pssh_lines_text : forall i bi x raw, List.concat (map (fun a => a ++ [N2b 10]) (pssh_lines i bi x raw)) = pssh_text i bi x raw.
  Proof. intros i bi x raw. unfold pssh_lines, pssh_text. cbn [map List.concat]. cbv zeta. rewrite !app_nil_r. reflexivity. Qed.
  Lemma pssh_near : forall data l i pos x t, near_p x t ->
    fst (pssh_loop_on data i l pos x) = fst (pssh_loop data i l pos) /\
    near_p (snd (pssh_loop_on data i l pos x)) (print (snd (pssh_loop data i l pos)) t).
  Proof.
    intros data. assert (N0 : forall t, print [] t = t) by (intros t; unfold print; rewrite app_nil_r; now destruct t).
    induction l as [|[bi [d v]] l IH]; intros i pos x t H; cbn [pssh_loop_on pssh_loop]; [rewrite N0; now split|].
    destruct ((seek_to_start bi;;; read_raw data bi) pos) as [[raw|e| |] pos']; cbn [fst snd]; try (rewrite N0; now split).
    specialize (IH (i + 1) pos' _ _ (lines_near (pssh_lines i bi v raw) x t H)). rewrite lines_out, pssh_lines_text in IH.
    destruct (pssh_loop data (i + 1) l pos') as [r2 o2]. cbn [fst snd] in *. now rewrite print_app in IH.
  Qed.
  Lemma psshdump_all : forall data r out rest, psshdump_tool_on data script = (r, out, rest) ->
    r = fst (psshdump_tool data) /\ exists texts, lines texts /\
      snd (psshdump_tool data) = List.concat texts /\ out = kept script texts.
  Proof.
    intros data r out rest H. unfold psshdump_tool_on in H. unfold psshdump_tool.
    assert (T0 : lines [] /\ [] = List.concat (@nil (list byte)) /\ [] = kept script []) by (split; [intros u []|now split]).
    destruct (extract_boxes_with_payload _ _ _ _ _) as [[l|e| |] pos]; try (injection H as <- <- <-; split; [reflexivity|now exists []]).
    destruct (pssh_near data l 0 pos _ _ near_p0) as [E (Pn & texts & L & T & X & S)].
    destruct (pssh_loop_on _ _ _ _ _) as [r1 x1], (pssh_loop _ _ _ _) as [r2 o2]. cbn [fst snd print t_out app] in *.
    injection H as <- <- <-. subst r2. split; [reflexivity|]. exists texts. now repeat split.
  Qed.
End Printing.
