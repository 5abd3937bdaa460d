(** Proofs for C72: divide on a disk where calls fail. *)
From Verif Require Import Base BaseProofs BitIO Schema Structs Methods Registry Unmarshal BoxInfo ReadTree Extract Accessors Probe Writer GoText ProbeTool Divide
  WriterProofs EditFaultsProofs SpecDivideFaults DivideFaults.
Local Open Scope string_scope.
Local Open Scope list_scope.
Local Open Scope N_scope.
Local Open Scope monad_scope.

(** bytes written one after the other *)
Lemma overwrite_app : forall d q a b, overwrite (overwrite d q a) (q + lenN a) b = overwrite d q (a ++ b).
Proof.
  intros d q [|x a] b; [change (lenN []) with 0; now rewrite N.add_0_r|].
  destruct b as [|y b]; [now rewrite app_nil_r|].
  assert (G : forall l d q, l <> [] -> overwrite d q l = takeN q d ++ repeat bzero (N.to_nat (q - lenN d)) ++ l ++ skipN (q + lenN l) d).
  { intros [|z l] d0 q0 H; [contradiction|reflexivity]. }
  rewrite !G by (cbn [app]; discriminate). set (A := x :: a). set (B := y :: b).
  set (Z := repeat bzero (N.to_nat (q - lenN d))).
  assert (L : lenN (takeN q d ++ Z ++ A) = q + lenN A).
  { rewrite !lenN_app, lenN_takeN. unfold Z. rewrite lenN_repeat. clear. lia. }
  replace (takeN q d ++ Z ++ A ++ skipN (q + lenN A) d) with ((takeN q d ++ Z ++ A) ++ skipN (q + lenN A) d) by now rewrite <- !app_assoc.
  rewrite (lenN_app _ (takeN q d ++ Z ++ A)), L. replace (q + lenN A - (q + lenN A + lenN (skipN (q + lenN A) d))) with 0 by (clear; lia).
  rewrite takeN_app_exact by now symmetry. rewrite skipN_app_ge by (rewrite L; clear; lia). rewrite L, skipN_skipN, lenN_app.
  cbn [N.to_nat repeat app]. rewrite <- !app_assoc. do 4 f_equal. f_equal. clear. lia.
Qed.

Section Faults.
  Variable all : script.
  Notation hit := (some_call_fails all).
  Definition part (fl : script) : Prop := suffix fl all.
  Definition lost {A} (r : res A) : Prop := hit /\ forall a, r <> Ok a.

  Lemma part_next : forall fl, part fl -> part (snd (next_call fl)).
  Proof. intros [|[k|] fl] [p E]; cbn; [now exists p|exists (p ++ [Some k])|exists (p ++ [None])]; now rewrite <- app_assoc. Qed.
  Lemma next_hit : forall fl, part fl -> fst (next_call fl) = true \/ hit.
  Proof. intros [|[k|] fl] [p E]; cbn; auto. right. exists k. rewrite E. apply in_or_app. right. now left. Qed.

  (** ** operations on a file *)
  Definition fine {A} (m : M ofile A) : Prop := forall d q fl, part fl ->
    (m (mkof d q []) = (fst (m (mkof d q fl)), mkof (o_data (snd (m (mkof d q fl)))) (o_pos (snd (m (mkof d q fl)))) []) /\
     part (o_faults (snd (m (mkof d q fl))))) \/
    lost (fst (m (mkof d q fl))).
  Lemma fine_ret : forall A (a : A), fine (ret a). Proof. intros A a d q fl H. left. now split. Qed.
  Lemma fine_bind : forall A B (m : M ofile A) (k : A -> M ofile B), fine m -> (forall a, fine (k a)) -> fine (bind m k).
  Proof.
    intros A B m k Hm Hk d q fl H. unfold bind. destruct (Hm d q fl H) as [[E P]|[h L]].
    - rewrite E. destruct (m (mkof d q fl)) as [[a|e| |] [d1 q1 fl1]]; cbn [fst snd o_data o_pos o_faults] in *; [|left; now split..].
      apply (Hk a d1 q1 fl1 P).
    - right. split; [exact h|]. destruct (m (mkof d q fl)) as [[a|e| |] f1]; cbn [fst] in *; [now destruct (L a)|intros x; discriminate..].
  Qed.
  Lemma fine_write : forall p, fine (o_write p).
  Proof.
    intros p d q fl H. pose proof (part_next fl H) as N1. pose proof (next_hit fl H) as N2. unfold o_write. cbn [o_faults o_data o_pos].
    destruct fl as [|[k|] fl]; cbn [fst snd next_call o_faults o_data o_pos] in *; [left; now split| |left; now split].
    right. destruct N2 as [N2|N2]; [discriminate|]. split; [exact N2|intros a; discriminate].
  Qed.
  Lemma fine_seeking : forall A (m : M ofile A), fine m -> fine (seeking m).
  Proof.
    intros A m Hm d q fl H. pose proof (part_next fl H) as N1. pose proof (next_hit fl H) as N2. unfold seeking. cbn [o_faults o_data o_pos next_call].
    destruct (next_call fl) as [[|] r]; cbn [fst snd] in *; [now apply Hm|].
    right. destruct N2 as [N2|N2]; [discriminate|]. split; [exact N2|intros a; discriminate].
  Qed.
  Lemma writes_concat : forall ps d q, o_writes ps (mkof d q []) = o_write (List.concat ps) (mkof d q []).
  Proof.
    induction ps as [|p r IH]; intros d q; cbn [o_writes List.concat].
    - unfold ret, o_write. cbn [o_faults o_data o_pos overwrite]. change (lenN []) with 0. now rewrite N.add_0_r.
    - unfold bind. unfold o_write at 1. cbn [o_faults o_data o_pos]. rewrite IH. unfold o_write. cbn [o_faults o_data o_pos].
      rewrite overwrite_app, lenN_app, N.add_assoc. reflexivity.
  Qed.
  Lemma fine_writes : forall ps, fine (o_writes ps).
  Proof. induction ps as [|p r IH]; cbn [o_writes]; [apply fine_ret|]. apply fine_bind; [apply fine_write|]. intros _. exact IH. Qed.
  (** [m] is [m'] but for failures *)
  Definition stands {A} (m m' : M ofile A) : Prop := fine m /\ forall d q, m (mkof d q []) = m' (mkof d q []).
  Lemma fine_tell : fine o_tell. Proof. intros d q fl H. left. now split. Qed.
  Lemma fine_seek : forall x, fine (o_seek x). Proof. intros x d q fl H. left. unfold o_seek. destruct (x <? _); now split. Qed.
  Lemma fine_end : fine o_seek_end. Proof. intros d q fl H. left. now split. Qed.
  Lemma fine_info : forall bi, fine (write_info bi).
  Proof.
    intros bi. unfold write_info. apply fine_seeking. unfold write_box_info. apply fine_bind; [apply fine_tell|]. intros o. cbv zeta.
    apply fine_bind; [apply fine_write|]. intros _. apply fine_ret.
  Qed.
  Lemma stands_end : stands (seeking o_seek_end) o_seek_end.
  Proof. split; [apply fine_seeking, fine_end|reflexivity]. Qed.
  Lemma stands_seek : forall x, stands (seeking (o_seek x)) (o_seek x).
  Proof. intros x. split; [apply fine_seeking, fine_seek|reflexivity]. Qed.
  Lemma stands_info : forall bi, stands (write_info bi) (write_box_info bi).
  Proof. intros bi. split; [apply fine_info|reflexivity]. Qed.
  Lemma stands_writes : forall ps l, List.concat ps = l -> stands (o_writes ps) (o_write l).
  Proof. intros ps l <-. split; [apply fine_writes|]. intros d q. apply writes_concat. Qed.

  (** ** operations on the tracks *)
  Section Ops.
    Variable Rel : dst -> dst -> Prop.
    Definition hon {A} (m1 : M fdst A) (m2 : M dst A) : Prop := forall s t fl, part fl -> Rel s t ->
      (fst (m1 (s, fl)) = fst (m2 t) /\ Rel (fst (snd (m1 (s, fl)))) (snd (m2 t)) /\ part (snd (snd (m1 (s, fl))))) \/
      lost (fst (m1 (s, fl))).
    Lemma hon_ret : forall A (a : A), hon (ret a) (ret a). Proof. intros A a s t fl H R. left. now repeat split. Qed.
    Lemma hon_panic : forall A, hon (@panic fdst A) panic. Proof. intros A s t fl H R. left. now repeat split. Qed.
    Lemma hon_bind : forall A B (m1 : M fdst A) m2 (k1 : A -> M fdst B) k2, hon m1 m2 -> (forall a, hon (k1 a) (k2 a)) -> hon (bind m1 k1) (bind m2 k2).
    Proof.
      intros A B m1 m2 k1 k2 Hm Hk s t fl H R. unfold bind. destruct (Hm s t fl H R) as [(E & R1 & P)|[h L]].
      - destruct (m1 (s, fl)) as [r [s1 fl1]], (m2 t) as [r2 t1]. cbn [fst snd] in *. subst r2. destruct r as [a|e| |]; [|left; now repeat split..].
        apply (Hk a s1 t1 fl1 P R1).
      - right. split; [exact h|]. destruct (m1 (s, fl)) as [[a|e| |] x1]; cbn [fst] in *; [now destruct (L a)|intros x; discriminate..].
    Qed.
    Lemma hon_for : forall A B (f1 : N -> B -> A -> M fdst A) f2, (forall i x a, hon (f1 i x a) (f2 i x a)) ->
      forall l i a, hon (for_each f1 i l a) (for_each f2 i l a).
    Proof. intros A B f1 f2 Hf l. induction l as [|x l IH]; intros i a; cbn [for_each]; [apply hon_ret|]. apply hon_bind; auto. Qed.
  End Ops.
  Lemma hon_still : forall A (m : M dst A), hon eq (still m) m.
  Proof. intros A m s t fl H <-. left. unfold still. cbn [fst snd]. destruct (m s). now repeat split. Qed.
  Lemma hon_range : forall order A (f1 : N -> A -> M fdst A) f2 a, (forall x a, hon eq (f1 x a) (f2 x a)) ->
    hon eq (range_on order f1 a) (range order f2 a).
  Proof.
    intros order A f1 f2 a Hf s t fl H <-. unfold range_on, range. cbn [fst snd]. destruct (visit order s) as [ids s'].
    apply (hon_for eq A N (fun _ id a => f1 id a) (fun _ id a => f2 id a) (fun _ => Hf) ids 0 a s' s' fl H eq_refl).
  Qed.
  Lemma hon_init : forall A id (m m2 : M ofile A), stands m m2 -> hon eq (init_op_on id m) (init_op id m2).
  Proof.
    intros A id m m2 [Hm Hq] s t fl H <-. unfold init_op_on, init_op. cbn [fst snd]. destruct (find_track id s) as [t|]; [|left; now repeat split].
    cbv zeta. destruct (Hm (content (Of (d_type t) Init) s) (d_ipos t) fl H) as [[E P]|L].
    - rewrite <- Hq, E. destruct (m (mkof _ _ fl)) as [r f]. cbn [fst snd o_data o_pos] in *. left. now repeat split.
    - right. destruct (m (mkof _ _ fl)) as [r f]. exact L.
  Qed.
  Lemma hon_seg : forall A id (m m2 : M ofile A), stands m m2 -> hon eq (seg_op_on id m) (seg_op id m2).
  Proof.
    intros A id m m2 [Hm Hq] s t fl H <-. unfold seg_op_on, seg_op. cbn [fst snd]. destruct (find_track id s) as [t|]; [|left; now repeat split].
    cbv zeta. destruct (Hm (content (Of (d_type t) (Seg (d_sname t))) s) (d_spos t) fl H) as [[E P]|L].
    - rewrite <- Hq, E. destruct (m (mkof _ _ fl)) as [r f]. cbn [fst snd o_data o_pos] in *. left. now repeat split.
    - right. destruct (m (mkof _ _ fl)) as [r f]. exact L.
  Qed.
  Lemma hon_create : forall p, hon eq (create_on p) (fun s => (Ok tt, set_file p [] s)).
  Proof.
    intros p s t fl H <-. pose proof (part_next fl H) as N1. pose proof (next_hit fl H) as N2. unfold create_on. cbn [fst snd].
    destruct (next_call fl) as [[|] r]; cbn [fst snd] in *; [left; now repeat split|right].
    destruct N2 as [N2|N2]; [discriminate|]. split; [exact N2|intros a; discriminate].
  Qed.

  (** ** traversals *)
  Definition near (x : fdst) (t : dst) : Prop := fst x = t /\ part (snd x).
  Inductive alike {V P} : hprog fdst V P -> hprog dst V P -> Prop :=
  | ARet : forall x t v, near x t -> alike (HRet x v) (HRet t v)
  | AFail : forall x t e, near x t -> alike (HFail x e) (HFail t e)
  | ALost : forall x e p, hit -> alike (HFail x e) p
  | APayload : forall k l, (forall r, alike (k r) (l r)) -> alike (HReadPayload k) (HReadPayload l)
  | AData : forall k l, (forall r, alike (k r) (l r)) -> alike (HReadData k) (HReadData l)
  | AExpand : forall x t q k l, near x t -> (forall r x' t', near x' t' -> alike (k r x') (l r t')) ->
      (forall e x', exists x'' e', k (Err e) x' = HFail x'' e') -> alike (HExpand x q k) (HExpand t q l)
  | AMove : forall n k l, alike k l -> alike (HMove n k) (HMove n l).

  Ltac asis := split; [reflexivity|split; [reflexivity|cbn [fst snd]; assumption]].
  Section Traversal.
    Context {V P : Type}.
    Variable R : registry.
    Variable data : list byte.
    Variables (h1 : handler_t fdst V P) (h2 : handler_t dst V P).
    Hypothesis h_alike : forall bi p q x t, near x t -> alike (h1 bi p q x) (h2 bi p q t).

    Definition both {A} (o1 : res A * (N * fdst)) (o2 : res A * (N * dst)) : Prop :=
      (fst o1 = fst o2 /\ fst (snd o1) = fst (snd o2) /\ near (snd (snd o1)) (snd (snd o2))) \/ lost (fst o1).
    Definition sim {A} (m1 : M (N * fdst) A) (m2 : M (N * dst) A) : Prop :=
      forall n x t, near x t -> both (m1 (n, x)) (m2 (n, t)).
    Lemma sim_ret : forall A (a : A), sim (ret a) (ret a). Proof. intros A a n x t H. left. asis. Qed.
    Lemma sim_fail : forall A e, sim (@fail _ A e) (fail e). Proof. intros A e n x t H. left. asis. Qed.
    Lemma sim_panic : forall A, sim (@panic _ A) panic. Proof. intros A n x t H. left. asis. Qed.
    Lemma sim_lift : forall A (m : M N A), sim (lift_s m) (lift_s m).
    Proof. intros A m n x t H. unfold lift_s. cbn [fst snd]. destruct (m n). left. asis. Qed.
    Lemma sim_try : forall A (m : M N A), sim (attempt (lift_s m)) (attempt (lift_s m)).
    Proof. intros A m n x t H. unfold attempt, lift_s. cbn [fst snd]. destruct (m n) as [[a|e| |] n']; left; asis. Qed.
    Lemma sim_bind : forall A C (m1 : M (N * fdst) A) m2 (k1 : A -> M (N * fdst) C) k2, sim m1 m2 -> (forall a, sim (k1 a) (k2 a)) -> sim (bind m1 k1) (bind m2 k2).
    Proof.
      intros A C m1 m2 k1 k2 Hm Hk n x t H. unfold bind. destruct (Hm n x t H) as [(E & E2 & Q)|[h L]].
      - destruct (m1 (n, x)) as [r [n1 x1]], (m2 (n, t)) as [r2 [n2 t1]]. cbn [fst snd] in *. subst r2 n2.
        destruct r as [a|e| |]; [now apply Hk|left; asis..].
      - right. split; [exact h|]. destruct (m1 (n, x)) as [[a|e| |] y]; cbn [fst] in *; [now destruct (L a)|intros z; discriminate..].
    Qed.
    Lemma sim_run : forall bi (e1 : N -> P -> M (N * fdst) (list V)) e2, (forall total q, sim (e1 total q) (e2 total q)) ->
      forall (p1 : hprog fdst V P) p2, alike p1 p2 -> forall co, sim (run_handler R data bi e1 co p1) (run_handler R data bi e2 co p2).
    Proof.
      intros bi e1 e2 He p1 p2 Hp. induction Hp as [x t v H|x t e H|x e p h|k l Hk IH|k l Hk IH|x t q k l H Hk IH Hf|pos k l Hk IH]; intros co; cbn [run_handler].
      - intros n y u _. left. asis.
      - intros n y u _. left. asis.
      - intros n y u _. right. split; [exact h|intros a; discriminate].
      - apply sim_bind; [apply sim_try|]. intros r. apply IH.
      - apply sim_bind; [apply sim_try|]. intros r. apply IH.
      - assert (TAIL : forall co' total n y u, near y u ->
          both ((vs <- attempt (e1 total q) ;; s' <- get ;; run_handler R data bi e1 co' (k vs (snd s'))) (n, y))
               ((vs <- attempt (e2 total q) ;; s' <- get ;; run_handler R data bi e2 co' (l vs (snd s'))) (n, u))).
        { intros co' total n y u Q. unfold bind, attempt, get. destruct (He total q n y u Q) as [(E & E2 & Q1)|[h L]].
          - destruct (e1 total q (n, y)) as [r [n1 y1]], (e2 total q (n, u)) as [r2 [n2 u1]]. cbn [fst snd] in *. subst r2 n2.
            destruct r as [vs|e| |]; cbn [fst snd]; [now apply IH|now apply IH|left; asis..].
          - destruct (e1 total q (n, y)) as [[vs|e| |] [n1 y1]]; cbn [fst snd] in *; [now destruct (L vs)| |right; split; [exact h|intros a; discriminate]..].
            destruct (Hf e y1) as (x'' & e' & ->). cbn [run_handler]. right. split; [exact h|intros a; discriminate]. }
        intros n y u _. unfold bind at 1. unfold bind at 4. cbn [fst snd]. destruct (co =? 0).
        + unfold bind, attempt, lift_s, get, ret. cbn [fst snd]. destruct (read_payload R data bi n) as [[z|e| |] n1]; cbn [fst snd].
          * specialize (TAIL (w64 (bi_offset bi + bi_hsize bi + snd z)) (sub64 (bi_offset bi + bi_size bi) (w64 (bi_offset bi + bi_hsize bi + snd z))) n1 x t H).
            unfold bind, attempt, get in TAIL.
            destruct (e1 _ q (n1, x)) as [[a|e| |] [n2 x2]], (e2 _ q (n1, t)) as [[b|e'| |] [n3 t3]]; cbn [fst snd] in *; exact TAIL.
          * now apply IH.
          * left; asis.
          * left; asis.
        + unfold bind, attempt, lift_s, get, ret. cbn [fst snd]. destruct (s_seek co n) as [[z|e| |] n1]; cbn [fst snd].
          * specialize (TAIL co (sub64 (bi_offset bi + bi_size bi) co) n1 x t H).
            unfold bind, attempt, get in TAIL.
            destruct (e1 _ q (n1, x)) as [[a|e| |] [n2 x2]], (e2 _ q (n1, t)) as [[b|e'| |] [n3 t3]]; cbn [fst snd] in *; exact TAIL.
          * now apply IH.
          * left; asis.
          * left; asis.
      - intros n y u Q. unfold bind. cbn [fst snd]. now apply IH.
    Qed.
    Lemma sim_structure : forall fuel root total pth ctx q,
      sim (read_structure R data h1 fuel root total pth ctx q) (read_structure R data h2 fuel root total pth ctx q).
    Proof.
      induction fuel as [|fuel IH]; intros root total pth ctx q; cbn [read_structure]; [intros n x t H; left; asis|].
      destruct (root || (SmallHeaderSize <=? total)).
      2:{ destruct (_ && _); [apply sim_fail|apply sim_ret]. }
      apply sim_bind; [apply sim_try|]. intros [bi|e| |]; try apply sim_panic.
      2:{ destruct e; try apply sim_fail. destruct root; [apply sim_ret|apply sim_fail]. }
      destruct (_ && _); [apply sim_fail|]. apply sim_bind.
      - unfold box_internal. apply sim_bind; [apply sim_lift|]. intros b. cbv zeta.
        apply sim_bind; [|intros v; apply sim_bind; [apply sim_lift|intros _; apply sim_ret]].
        intros n x t H. apply sim_run; [intros; apply IH|apply h_alike; exact H|exact H].
      - intros [v bi']. cbv zeta. apply sim_bind; [apply IH|]. intros vs. apply sim_ret.
    Qed.
    Lemma sim_box_structure : forall q, sim (read_box_structure R data h1 q) (read_box_structure R data h2 q).
    Proof. intros q. unfold read_box_structure. apply sim_bind; [apply sim_lift|]. intros _. apply sim_structure. Qed.
  End Traversal.

  (** ** the handler *)
  Section Handler.
    Variable order : N -> list N -> list N.
    Variable bits_per_second : N -> seconds -> N.
    Variable seconds_text : seconds -> text.
    Variable target_text : list seconds -> text.
    Variable split : list byte -> list (list byte).
    Hypothesis split_whole : forall l, List.concat (split l) = l.
    Variable data : list byte.
    Lemma create_hon : hon eq (create_files_on order) (create_files order).
    Proof.
      apply hon_range. intros id a s t fl H <-. cbn [fst]. destruct (find_track id s) as [t|]; [|left; split; [reflexivity|now split]].
      exact (hon_bind eq _ _ _ _ _ _ (hon_create (Of (d_type t) Init)) (fun _ => hon_create (Of (d_type t) (Seg 0))) s s fl H eq_refl).
    Qed.
    Lemma headers_hon : forall bi mine, hon eq (write_headers_on order bi mine) (write_headers order bi mine).
    Proof.
      intros bi mine. apply hon_range. intros id m. destruct (mine id); [|apply hon_ret].
      apply hon_bind; [apply hon_init, stands_end|]. intros o. apply hon_bind; [apply hon_init, stands_info|]. intros b. apply hon_ret.
    Qed.
    Lemma rewrite_hon : forall mine m, hon eq (rewrite_headers_on order mine m) (rewrite_headers order mine m).
    Proof.
      intros mine m. apply hon_range. intros id x. destruct (mine id); [|apply hon_ret].
      destruct (get_bi id x) as [[o b]|]; [|apply hon_panic].
      apply hon_bind; [apply hon_init, stands_seek|]. intros _. apply hon_bind; [apply hon_init, stands_info|]. intros b'. apply hon_ret.
    Qed.
    Lemma alike_call : forall A (m1 : M fdst A) m2 k1 k2, hon eq m1 m2 -> (forall a x t, near x t -> alike (k1 a x) (k2 a t)) ->
      forall x t, near x t -> alike (fcall m1 x k1) (dcall m2 t k2).
    Proof.
      intros A m1 m2 k1 k2 Hm Hk [s fl] t [E P]. cbn [fst snd] in E, P. subst t. unfold fcall, dcall.
      destruct (Hm s s fl P eq_refl) as [(E & E2 & Q)|[h L]].
      - destruct (m1 (s, fl)) as [r [s1 fl1]], (m2 s) as [r2 s2]. cbn [fst snd] in *. subst r2 s2.
        destruct r as [a|e| |]; [apply Hk|apply AFail|apply AFail|apply AFail]; now split.
      - destruct (m1 (s, fl)) as [[a|e| |] x1]; cbn [fst] in *; [now destruct (L a)|now apply ALost..].
    Qed.
    Lemma alike_finish : forall mine m x t, near x t -> alike (finish_init_on order mine m x) (finish_init order mine m t).
    Proof. intros mine m. apply alike_call; [apply rewrite_hon|]. intros a x t H. now apply ARet. Qed.
    Lemma alike_payload : forall mine ids m x t, near x t -> alike (copy_payload_on order split mine ids m x) (copy_payload order mine ids m t).
    Proof.
      intros mine ids. induction ids as [|id r IH]; intros m x t H; cbn [copy_payload_on copy_payload]; [now apply alike_finish|].
      destruct (mine id); [|now apply IH]. apply AData. destruct H as [<- P].
      intros [[d n]|e| |]; [|apply AFail; now split..].
      apply alike_call; [|intros a y u Q; now apply IH|now split].
      apply hon_bind; [apply hon_init, stands_writes, split_whole|]. intros _. apply hon_still.
    Qed.
    Lemma alike_init : forall bi mine x t, near x t -> alike (init_box_on order split bi mine x) (init_box order bi mine t).
    Proof.
      intros bi mine. apply alike_call; [apply headers_hon|]. intros m x t H. destruct (bt_eqb (bi_type bi) (bt "moov")).
      - apply AExpand; [exact H| |intros e x'; eexists; eexists; reflexivity].
        intros [vals|e| |] y u Q; [|destruct Q as [<- Q]; apply AFail; now split..].
        apply alike_call; [apply hon_still| |exact Q]. intros a z v Z. now apply alike_finish.
      - destruct H as [<- P]. destruct (visit order (fst x)) as [ids s]. apply alike_payload. now split.
    Qed.
    Lemma alike_segment : forall bi x t, near x t -> alike (copy_segment_on split bi x) (copy_segment bi t).
    Proof.
      intros bi x t H. unfold copy_segment_on, copy_segment. pose proof H as [E P]. rewrite E.
      apply alike_call; [apply hon_seg, stands_info| |exact H]. intros _ y u [<- Q]. apply AData.
      intros [[d n]|e| |]; [|apply AFail; now split..].
      apply alike_call; [apply hon_seg, stands_writes, split_whole| |now split]. intros _ z v Z. now apply ARet.
    Qed.
    Lemma alike_extract : forall bi p k1 k2 x t, near x t -> (forall bs, alike (k1 bs) (k2 bs)) -> alike (fextract data bi p x k1) (dextract data bi p t k2).
    Proof.
      intros bi p k1 k2 x t [<- P] Hk. unfold fextract, dextract. destruct (extract_boxes_with_payload _ _ _ _ _) as [[bs|e| |] pos]; apply AMove;
        [apply Hk|apply AFail; now split..].
    Qed.
    Lemma next_hon : forall t duration, hon eq (next_segment_on t duration) (fun s => (Ok tt, next_segment t duration s)).
    Proof.
      intros t duration. unfold next_segment_on, next_segment. cbv zeta.
      exact (hon_bind eq _ _ _ _ _ _ (hon_create (Of (d_type t) (Seg (lenN (d_segments t))))) (fun _ => hon_still _ _)).
    Qed.
    Lemma handler_alike : forall bi p q x t, near x t ->
      alike (divide_handler_on order bits_per_second split data bi p q x) (divide_handler order bits_per_second data bi p q t).
    Proof.
      intros bi p q x t H. pose proof H as [E P]. unfold divide_handler_on, divide_handler. cbv zeta.
      destruct (is bi _).
      { destruct (is bi ["trak"]); [|now apply alike_init]. apply alike_extract; [exact H|].
        intros [|[b [d x1]] [|y r]]; [now apply AFail|now apply alike_init|now apply AFail]. }
      destruct (is bi ["moof"]).
      { apply alike_extract; [exact H|]. intros [|[b [d tfhd]] [|y r]]; [now apply AFail| |now apply AFail].
        cbn [fst snd]. rewrite E. destruct (find_track _ (set_curr _ t)) as [tr|]; [|apply ARet; now split].
        apply alike_extract; [now split|]. intros [|[b2 [d2 trun]] r]; [apply AFail; now split|].
        change (copy_segment bi (next_segment tr ?d (set_curr ?i t))) with
          (dcall (fun s => (Ok tt, next_segment tr d s)) (set_curr i t) (fun _ s => copy_segment bi s)).
        apply alike_call; [apply next_hon| |now split]. intros _ y u Q. now apply alike_segment. }
      destruct (is bi ["mdat"]).
      { rewrite E. destruct (find_track (ds_curr t) t) as [tr|]; [|now apply ARet].
        destruct (rev (d_segments tr)) as [|d r]; [apply AFail; now split|]. cbv zeta. apply alike_segment. now split. }
      destruct (is bi ["mfra"]); [now apply ARet|now apply AFail].
    Qed.

    (** ** the playlists *)
    Definition pale (s t : dst) : Prop :=
      ds_tracks s = ds_tracks t /\ ds_loops s = ds_loops t /\
      forall p, (media_file p \/ ~ hit -> ds_files s p = ds_files t p) /\ cut_at_most p (ds_files t p) (ds_files s p).
    Lemma whole : forall l w, shortened l w w.
    Proof. intros l w. rewrite <- (app_nil_r w). apply SKeep, SNil. Qed.
    Lemma pale_refl : forall s, pale s s.
    Proof.
      intros s. split; [reflexivity|]. split; [reflexivity|]. intros p. split; [reflexivity|].
      unfold cut_at_most. destruct (ds_files s p); [apply whole|exact I].
    Qed.
    Definition unchecked (p : fpath) (l : list (bool * text)) : Prop := forall t, In (false, t) l -> In t (fixed_texts p).
    Lemma pale_find : forall s t id, pale s t -> find_track id s = find_track id t.
    Proof. intros s t id (E & _). unfold find_track. now rewrite E. Qed.
    Lemma pale_range : forall A (f1 : N -> A -> M fdst A) f2 a, (forall x a, hon pale (f1 x a) (f2 x a)) ->
      hon pale (range_on order f1 a) (range order f2 a).
    Proof.
      intros A f1 f2 a Hf s t fl H (E1 & E2 & E3). unfold range_on, range, visit. cbn [fst snd]. rewrite E1, E2.
      apply (hon_for pale A N (fun _ id a => f1 id a) (fun _ id a => f2 id a) (fun _ => Hf)); [exact H|]. split; [reflexivity|]. split; [reflexivity|exact E3].
    Qed.
    Lemma put_lines_all : forall p l d q fl, part fl -> q = lenN d -> unchecked p l ->
      let o := put_lines l (mkof d q fl) in
      part (o_faults (snd o)) /\
      (fst o = Ok tt /\ (~ hit -> o_data (snd o) = d ++ List.concat (map snd l)) /\
       (exists g, o_data (snd o) = d ++ g /\ shortened (fixed_texts p) (List.concat (map snd l)) g) \/ lost (fst o)).
    Proof.
      cbv zeta. intros p. induction l as [|[c t] l IH]; intros d q fl H Q U; cbn [put_lines].
      { cbn. split; [exact H|]. left. split; [reflexivity|]. split; [intros _; now rewrite app_nil_r|].
        exists []. rewrite app_nil_r. split; [reflexivity|apply SNil]. }
      assert (U' : unchecked p l) by (intros u Hu; apply U; now right).
      assert (K : forall fl, part fl ->
        part (o_faults (snd (put_lines l (mkof (d ++ t) (lenN (d ++ t)) fl)))) /\
        (fst (put_lines l (mkof (d ++ t) (lenN (d ++ t)) fl)) = Ok tt /\
         (~ hit -> o_data (snd (put_lines l (mkof (d ++ t) (lenN (d ++ t)) fl))) = d ++ t ++ List.concat (map snd l)) /\
         (exists g, o_data (snd (put_lines l (mkof (d ++ t) (lenN (d ++ t)) fl))) = d ++ g /\
            shortened (fixed_texts p) (t ++ List.concat (map snd l)) g) \/ lost (fst (put_lines l (mkof (d ++ t) (lenN (d ++ t)) fl))))).
      { intros f Hf. destruct (IH (d ++ t) _ f Hf eq_refl U') as [I1 I2]. split; [exact I1|]. destruct I2 as [(A & B & g & C & D)|I2]; [left|now right].
        split; [exact A|]. split; [intros n; rewrite (B n); now rewrite app_assoc|]. exists (t ++ g). rewrite C, app_assoc. split; [reflexivity|]. now apply SKeep. }
      pose proof (part_next fl H) as N1. pose proof (next_hit fl H) as N2. unfold o_write. cbn [o_faults o_data o_pos].
      assert (W : forall u, overwrite d q u = d ++ u).
      { intros u. subst q. apply overwrite_end. }
      assert (Q' : forall u, q + lenN u = lenN (d ++ u)) by (intros u; subst q; now rewrite lenN_app).
      cbn [map List.concat snd]. destruct fl as [|[k|] fl]; cbn [next_call fst snd] in *.
      - rewrite W, Q'. now apply K.
      - destruct N2 as [N2|N2]; [discriminate|]. destruct c.
        + cbn [fst snd o_faults]. split; [exact N1|]. right. split; [exact N2|intros a; discriminate].
        + rewrite W, Q'. destruct (IH (d ++ takeN k t) _ fl N1 eq_refl U') as [I1 I2]. split; [exact I1|].
          destruct I2 as [(A & _ & g & C & D)|I2]; [left|now right]. split; [exact A|]. split; [intros n; contradiction|].
          exists (takeN k t ++ g). rewrite C, app_assoc. split; [reflexivity|]. apply SCut; [apply U; now left|exact D].
      - rewrite W, Q'. now apply K.
    Qed.
    Lemma playlist_hon : forall p l c, ~ media_file p -> unchecked p l -> List.concat (map snd l) = c ->
      hon pale (playlist_on p l) (fun s => (Ok tt, set_file p c s)).
    Proof.
      intros p l c Hp Hu Hc s t fl H (E1 & E2 & E3). pose proof (part_next fl H) as N1. pose proof (next_hit fl H) as N2. unfold playlist_on. cbn [fst snd].
      destruct (next_call fl) as [[|] r]; cbn [fst snd] in *.
      2:{ right. destruct N2 as [N2|N2]; [discriminate|]. split; [exact N2|intros a; discriminate]. }
      destruct (put_lines_all p l [] 0 r N1 eq_refl Hu) as [P1 [(P2 & P3 & g & P4 & P5)|P2]]; destruct (put_lines l (mkof [] 0 r)) as [q f]; cbn [fst snd] in *; [left|now right].
      subst q. split; [reflexivity|]. split; [|exact P1]. split; [exact E1|]. split; [exact E2|]. intros p'. cbn [ds_files set_file].
      destruct (fpath_eqb p p') eqn:EQ; [|apply E3]. assert (p = p').
      { destruct p as [|a m], p' as [|b n]; try discriminate; [reflexivity|]. cbn in EQ. apply andb_prop in EQ. destruct EQ as [EA EB].
        destruct a, b; try discriminate; destruct m, n; try discriminate; cbn in EB; try reflexivity; apply N.eqb_eq in EB; now subst. }
      subst p'. split.
      - intros [Hp'|Hp']; [contradiction|]. f_equal. rewrite (P3 Hp'). exact Hc.
      - cbn [cut_at_most]. rewrite P4, <- Hc. exact P5.
    Qed.
    Lemma media_text : forall l, List.concat (map snd (media_playlist_calls seconds_text target_text l)) = media_playlist seconds_text target_text l.
    Proof.
      intros l. unfold media_playlist_calls, media_playlist. rewrite map_app, List.concat_app, map_app, List.concat_app.
      assert (G : forall i, List.concat (map snd (media_calls seconds_text i l)) = media_lines seconds_text i l).
      { induction l as [|d r IH]; intros i; cbn [media_calls media_lines map snd List.concat]; [reflexivity|]. rewrite IH, <- !app_assoc. reflexivity. }
      rewrite G. cbn [map snd List.concat]. rewrite <- !app_assoc, app_nil_r. reflexivity.
    Qed.
    Lemma media_fixed : forall t l, unchecked (Of t Playlist) (media_playlist_calls seconds_text target_text l).
    Proof.
      intros t l u H. unfold media_playlist_calls in H.
      assert (G : forall i, ~ In (false, u) (media_calls seconds_text i l)).
      { clear. induction l as [|d r IH]; intros i; cbn [media_calls]; [intros []|]. intros [H|[H|H]]; [discriminate..|now apply IH in H]. }
      apply in_app_or in H. destruct H as [H|H].
      - cbn [In] in H. cbn [fixed_texts In]. destruct H as [H|[H|[H|[H|[H|[]]]]]]; try discriminate; injection H as <-; auto 6.
      - apply in_app_or in H. destruct H as [H|[H|[]]]; [destruct (G _ H)|]. injection H as <-. cbn [fixed_texts In]. auto 6.
    Qed.
    Lemma master_fixed : forall m, unchecked Master (master_playlist_calls m).
    Proof.
      intros m u H. unfold master_playlist_calls in H. cbv zeta in H.
      destruct (m TAudio), (m TEncAudio), (m TVideo), (m TEncVideo); cbn [In app] in H;
        repeat (destruct H as [H|H]; [first [discriminate H|injection H as <-; cbn [fixed_texts In]; auto 9]|]); destruct H.
    Qed.
    Lemma master_text : forall m, List.concat (map snd (master_playlist_calls m)) = master_playlist m.
    Proof.
      intros m. unfold master_playlist_calls, master_playlist. cbv zeta.
      destruct (m TAudio), (m TEncAudio), (m TVideo), (m TEncVideo); cbn [map snd List.concat app]; rewrite <- ?app_assoc, ?app_nil_r; reflexivity.
    Qed.
    Lemma playlists_hon : hon pale (playlists_on order seconds_text target_text) (playlists order seconds_text target_text).
    Proof.
      unfold playlists_on, playlists. apply hon_bind.
      - apply pale_range. intros id m s t fl H Q. cbn [fst snd]. rewrite (pale_find s t id Q).
        destruct (find_track id t) as [tr|]; left; (split; [reflexivity|]; now split).
      - intros m. apply hon_bind; [apply playlist_hon; [intros []|apply master_fixed|apply master_text]|]. intros _. apply pale_range.
        intros id a s t fl H Q. cbn [fst snd]. rewrite (pale_find s t id Q). destruct (find_track id t) as [tr|].
        + apply playlist_hon; [intros []|apply media_fixed|apply media_text|exact H|exact Q].
        + left. split; [reflexivity|]. now split.
    Qed.

    (** ** all of it *)
    Lemma divide_all :
      let x := divide_on order bits_per_second seconds_text target_text split data all in
      let y := divide order bits_per_second seconds_text target_text data in
      (fst (fst x) = fst y /\ forall p, (media_file p \/ ~ hit -> snd (fst x) p = snd y p) /\ (fst y = Ok tt -> cut_at_most p (snd y p) (snd (fst x) p))) \/
      lost (fst (fst x)).
    Proof.
      assert (same : forall (r : res unit) (g : fpath -> option text), r = r /\ forall p, (media_file p \/ ~ hit -> g p = g p) /\ (r = Ok tt -> cut_at_most p (g p) (g p))).
      { intros r g. split; [reflexivity|]. intros p. split; [reflexivity|]. intros _. unfold cut_at_most. destruct (g p); [apply whole|exact I]. }
      cbv zeta. unfold divide_on, divide. destruct (track_map data 0) as [[tracks|e| |] pos]; try (left; apply same).
      set (s0 := mkds tracks no_files 0xFFFFFFFF 0 (Ok tt)).
      pose proof (create_hon s0 s0 all (ex_intro _ [] eq_refl) eq_refl) as C.
      destruct (create_files_on order (s0, all)) as [r [s fl]], (create_files order s0) as [r2 t]. cbn [fst snd] in C.
      destruct C as [(C1 & C2 & C3)|[h L]].
      2:{ right. split; [exact h|]. destruct r as [[]|e| |]; cbn [fst snd]; [now destruct (L tt)|intros a; discriminate..]. }
      subst r2 t. destruct r as [[]|e| |]; try (left; apply same).
      pose proof (sim_box_structure std_registry data _ _ handler_alike tt pos (s, fl) s (conj eq_refl C3)) as K.
      destruct (read_box_structure _ _ (divide_handler_on _ _ _ _) _ _) as [r [n1 x1]], (read_box_structure _ _ (divide_handler _ _ _) _ _) as [r2 [n2 t1]].
      cbn [fst snd]. destruct K as [(E1 & _ & E3 & E4)|[h L]].
      - cbn [fst snd] in E1, E3, E4. subst r2 t1. destruct (ds_stop (fst x1)) as [u|e| |]; try (left; apply same). destruct r as [v|e| |]; try (left; apply same).
        destruct (playlists_hon (fst x1) (fst x1) (snd x1) E4) as [(P1 & P2 & P3)|L]; [apply pale_refl| |].
        + rewrite <- surjective_pairing in P1, P2. destruct (playlists_on _ _ _ x1) as [r1 y1], (playlists _ _ _ (fst x1)) as [r3 y2]. cbn [fst snd] in *.
          left. split; [exact P1|]. destruct P2 as (_ & _ & P2). intros p. destruct (P2 p) as [Q1 Q2]. split; [exact Q1|intros _; exact Q2].
        + rewrite <- surjective_pairing in L. right. destruct (playlists_on _ _ _ x1) as [r1 y1]. exact L.
      - right. split; [exact h|]. destruct (ds_stop (fst x1)) as [u|e| |]; try (intros a; discriminate).
        destruct r as [v|e| |]; [now destruct (L v)|intros a; discriminate..].
    Qed.
  End Handler.
End Faults.
