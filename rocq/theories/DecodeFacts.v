(** Facts about the decoder that hold for every schema: what it consumes, that
    it looks at nothing else, and that more fuel changes nothing. *)
From Verif Require Import Base BitIO Schema Methods Registry Marshal Unmarshal SpecCodec Decode.
From Verif Require Import BaseProofs BitIOProofs MarshalProofs UnmarshalProofs.
Local Open Scope string_scope.
Local Open Scope list_scope.
Local Open Scope N_scope.
Local Open Scope dec_scope.
Ltac Zify.zify_post_hook ::= Z.to_euclidean_division_equations.

(** A decoder with fuel that consumes a prefix of the bits ahead, and succeeds in
    the same way whatever follows that prefix, with any fuel above the number of
    bits consumed. *)
Definition local {A} (d : nat -> D A) : Prop :=
  forall k p b v p' r, d k (p, b) = Ok (v, (p', r)) ->
  exists c, b = c ++ r /\ p' = p + lenN c /\
    forall k' r', (List.length c < k')%nat -> d k' (p, c ++ r') = Ok (v, (p', r')).

Lemma local_ret : forall A (a : A), local (fun _ => dret a).
Proof.
  intros A a k p b v p' r H. injection H as -> -> ->. exists []. cbn [app].
  rewrite lenN_nil, N.add_0_r. auto.
Qed.
Lemma local_fail : forall A e, local (fun _ => @dfail A e).
Proof. intros A e k p b v p' r H. discriminate. Qed.
Lemma local_panic : forall A, local (fun _ => @dpanic A).
Proof. intros A k p b v p' r H. discriminate. Qed.

Lemma local_bind : forall A B (m : nat -> D A) (f : nat -> A -> D B),
  local m -> (forall a, local (fun k => f k a)) -> local (fun k => dbind (m k) (f k)).
Proof.
  intros A B m f Hm Hf k p b v p' r H. unfold dbind in H.
  destruct (m k (p, b)) as [[a [p1 r1]]| | |] eqn:E; try discriminate.
  destruct (Hm k p b a p1 r1 E) as (c1 & E1 & P1 & L1).
  destruct (Hf a k p1 r1 v p' r H) as (c2 & E2 & P2 & L2).
  exists (c1 ++ c2). subst. rewrite <- app_assoc. split; [reflexivity|].
  split; [rewrite lenN_app; lia|]. intros k' r' Hk. rewrite app_length in Hk.
  unfold dbind. rewrite <- app_assoc, L1 by lia. apply L2. lia.
Qed.

(** reading the position *)
Lemma local_dpos : forall A (f : nat -> N -> D A),
  (forall p, local (fun k => f k p)) -> local (fun k => dbind dpos (f k)).
Proof.
  intros A f H. apply (local_bind N A (fun _ => dpos) f); auto.
  intros k p b v p' r E. injection E as -> -> ->. exists []. cbn [app].
  rewrite lenN_nil, N.add_0_r. auto.
Qed.

Lemma local_take : forall n, local (fun _ => d_take n).
Proof.
  intros n k p b v p' r H. unfold d_take in H. cbn [fst snd] in H.
  destruct (N.leb_spec n (lenN b)) as [L|]; [|discriminate]. injection H as <- <- <-.
  exists (takeN n b). rewrite takeN_skipN. split; [reflexivity|].
  assert (Lt : lenN (takeN n b) = n) by (rewrite lenN_takeN; lia).
  split; [lia|]. intros k' r' _. unfold d_take. cbn [fst snd]. rewrite lenN_app, Lt.
  destruct (N.leb_spec n (n + lenN r')); [|lia].
  rewrite takeN_app_exact, skipN_app_exact by auto. reflexivity.
Qed.

Lemma local_bytes : forall n, local (fun _ => d_bytes n).
Proof.
  intros n k p b v p' r H. unfold d_bytes in H. cbn [fst snd] in H.
  destruct (N.eqb_spec (p mod 8) 0) as [A8|A8].
  - destruct (N.leb_spec (8 * n) (lenN b)) as [L|].
    2:{ destruct (lenN b =? 0); discriminate. }
    assert (Lt : lenN (takeN (8 * n) b) = 8 * n) by (rewrite lenN_takeN; lia).
    exists (takeN (8 * n) b).
    assert (E : v = pack (takeN (8 * n) b) /\ p' = p + 8 * n /\ r = skipN (8 * n) b)
      by (now injection H as <- <- <-).
    destruct E as (-> & -> & ->).
    rewrite takeN_skipN. split; [reflexivity|].
    split; [lia|]. intros k' r' _. unfold d_bytes. cbn [fst snd]. rewrite lenN_app, Lt.
    destruct (N.eqb_spec (p mod 8) 0); [|lia].
    destruct (N.leb_spec (8 * n) (8 * n + lenN r')); [|lia].
    rewrite takeN_app_exact, skipN_app_exact by auto. reflexivity.
  - destruct (N.eqb_spec n 0) as [->|]; [|discriminate]. injection H as <- <- <-.
    exists []. cbn [app]. rewrite lenN_nil, N.add_0_r. split; [reflexivity|]. split; [reflexivity|].
    intros k' r' _. unfold d_bytes. cbn [fst snd].
    destruct (N.eqb_spec (p mod 8) 0); [lia|]. reflexivity.
Qed.

(** the test for available bytes, together with the read it guards *)
Lemma local_has_bytes : forall A n (e : err) (q : bool) (f : list byte -> D A),
  (forall l, local (fun _ => f l)) ->
  local (fun _ => ok <~ d_has n ;;
           if negb ok then dfail e else if q then dpanic else dbind (d_bytes n) f).
Proof.
  intros A n e q f Hf k p b v p' r H. unfold dbind at 1, d_has in H. cbn [fst snd] in H.
  destruct (N.eqb_spec (p mod 8) 0) as [A8|]; [|discriminate]. cbn [andb] in H.
  destruct (N.leb_spec (8 * n) (lenN b)) as [L|]; [|discriminate]. cbn [negb] in H.
  destruct q; [discriminate|].
  assert (LB : local (fun _ => dbind (d_bytes n) f)).
  { apply (local_bind _ _ (fun _ => d_bytes n) (fun _ => f)); [apply local_bytes|auto]. }
  destruct (LB k p b v p' r H) as (c & E & P & L2). exists c. split; [auto|]. split; [auto|].
  intros k' r' Hk. specialize (L2 k' r' Hk). unfold dbind at 1, d_has. cbn [fst snd].
  destruct (N.eqb_spec (p mod 8) 0); [|lia]. cbn [andb].
  destruct (N.leb_spec (8 * n) (lenN (c ++ r'))) as [|Bad]; [exact L2|]. exfalso.
  unfold dbind, d_bytes in L2. cbn [fst snd] in L2.
  destruct (N.eqb_spec (p mod 8) 0); [|lia].
  destruct (N.leb_spec (8 * n) (lenN (c ++ r'))); [lia|].
  destruct (lenN (c ++ r') =? 0); discriminate.
Qed.

Lemma local_loop : forall A (body : nat -> A -> D A), (forall a, local (fun k => body k a)) ->
  forall j a, local (fun k => dloop j (body k) a).
Proof.
  intros A body Hb. induction j as [|j IH]; intros a; [apply local_ret|].
  cbn [dloop]. apply (local_bind _ _ (fun k => body k a) (fun k a1 => dloop j (body k) a1)); auto.
Qed.

(** a while loop; [stuck]: an iteration that consumes nothing would be repeated
    for ever *)
Lemma local_while : forall A B (body : nat -> A -> D (A + B)),
  (forall a, local (fun k => body k a)) ->
  (forall k p b a a1, body k a (p, b) = Ok (inl a1, (p, b)) ->
     forall a', exists a2, body k a' (p, b) = Ok (inl a2, (p, b))) ->
  forall a, local (fun k => dwhile k (body k) a).
Proof.
  intros A B body Hb Hs a.
  assert (G : forall k j a p b v p' r, dwhile j (body k) a (p, b) = Ok (v, (p', r)) ->
    exists c, b = c ++ r /\ p' = p + lenN c /\
      forall k' j' r', (List.length c < k')%nat -> (List.length c < j')%nat ->
        dwhile j' (body k') a (p, c ++ r') = Ok (v, (p', r'))).
  2:{ intros k p b v p' r H. destruct (G k k a p b v p' r H) as (c & E & P & L).
      exists c. split; [auto|]. split; [auto|]. intros k' r' Hk. now apply L. }
  clear a. intros k. induction j as [|j IH]; intros a p b v p' r H; [discriminate|].
  cbn [dwhile] in H. unfold dbind in H.
  destruct (body k a (p, b)) as [[x [p1 r1]]| | |] eqn:E; try discriminate.
  destruct (Hb a k p b x p1 r1 E) as (c1 & E1 & P1 & L1).
  destruct x as [a1|y].
  - destruct c1 as [|b1 c1].
    { exfalso. cbn [app] in E1. rewrite lenN_nil, N.add_0_r in P1. subst b p1.
      pose proof (Hs k p r1 a a1 E) as St. revert H. generalize a1. generalize j. clear - St.
      intros m. induction m as [|m IH]; intros a2 H; [discriminate|].
      cbn [dwhile] in H. unfold dbind in H. destruct (St a2) as (a3 & E3). rewrite E3 in H.
      exact (IH _ H). }
    destruct (IH a1 p1 r1 v p' r H) as (c2 & E2 & P2 & L2).
    exists ((b1 :: c1) ++ c2). subst. rewrite <- app_assoc. split; [reflexivity|].
    split; [rewrite lenN_app; lia|]. intros k' j' r' Hk Hj. rewrite app_length in Hk, Hj.
    cbn [List.length] in Hk, Hj. destruct j' as [|j']; [lia|].
    cbn [dwhile]. unfold dbind. rewrite <- app_assoc, L1 by (cbn [List.length]; lia).
    apply L2; lia.
  - injection H as -> -> ->. exists c1. split; [auto|]. split; [auto|].
    intros k' j' r' Hk Hj. destruct j' as [|j']; [lia|].
    cbn [dwhile]. unfold dbind. rewrite L1 by lia. reflexivity.
Qed.

Lemma take_progress : forall n p b v st', n <> 0 -> d_take n (p, b) = Ok (v, st') -> fst st' <> p.
Proof.
  intros n p b v st' Hn H. unfold d_take in H. cbn [fst snd] in H.
  destruct (n <=? lenN b); [|discriminate]. injection H as <- <-. cbn [fst]. lia.
Qed.

Lemma local_uvarint : local (fun k => d_uvarint k).
Proof.
  unfold d_uvarint. apply (local_while _ _ (fun _ val =>
      o <~ d_take 8 ;;
      let b := bits_to_N o in
      let val' := w64 (w64 (128 * val) + b mod 128) in
      dret (if b <? 128 then inr val' else inl val'))).
  - intros a. apply (local_bind _ _ (fun _ => d_take 8)); [apply local_take|].
    intros; apply local_ret.
  - intros k p b a a1 H a'. exfalso. unfold dbind in H.
    destruct (d_take 8 (p, b)) as [[o st1]| | |] eqn:E; try discriminate.
    injection H as _ ->. apply (take_progress 8) in E; [|lia]. now cbn [fst] in E.
Qed.

Lemma local_uint : forall w vi size, local (fun k => d_uint k w vi size).
Proof.
  intros w vi size. unfold d_uint. destruct vi.
  - apply (local_bind _ _ (fun k => d_uvarint k)); [apply local_uvarint|]. intros; apply local_ret.
  - destruct (size =? 0); [apply local_fail|].
    apply (local_bind _ _ (fun _ => d_take size)); [apply local_take|]. intros; apply local_ret.
Qed.
Lemma local_int : forall w vi size, local (fun _ => d_int w vi size).
Proof.
  intros w vi size. unfold d_int. destruct vi; [apply local_fail|].
  destruct (size =? 0); [apply local_fail|].
  apply (local_bind _ _ (fun _ => d_take size)); [apply local_take|]. intros; apply local_ret.
Qed.
Lemma local_bool : forall size, local (fun _ => d_bool size).
Proof.
  intros size. unfold d_bool. destruct (size =? 0); [apply local_fail|].
  apply (local_bind _ _ (fun _ => d_take size)); [apply local_take|]. intros; apply local_ret.
Qed.

Lemma local_string_c : forall lim base, local (fun k => d_string_c k lim base).
Proof.
  intros lim base. unfold d_string_c.
  apply (local_bind _ _ (fun k => dwhile k _ [])); [|intros; apply local_ret].
  apply (local_while _ _ (fun _ acc =>
           p <~ dpos ;;
           if lim <=? p - base then dret (inr acc)
           else c <~ d_take 8 ;;
                let b := N2b (bits_to_N c) in
                if b2N b =? 0 then dret (inr acc) else dret (inl (b :: acc)))).
  - intros a. apply (local_dpos _ (fun _ p => _)). intros p.
    destruct (lim <=? p - base); [apply local_ret|].
    apply (local_bind _ _ (fun _ => d_take 8)); [apply local_take|].
    intros c. cbv zeta. destruct (_ =? 0); apply local_ret.
  - intros k p b a a1 H a'. exfalso. unfold dbind, dpos in H. cbn [fst] in H.
    destruct (lim <=? p - base); [discriminate|].
    destruct (d_take 8 (p, b)) as [[o st1]| | |] eqn:E; try discriminate.
    apply (take_progress 8) in E; [|lia].
    destruct (_ =? 0); [discriminate|]. injection H as _ ->. now cbn [fst] in E.
Qed.

Lemma bytes1_progress : forall p b v st', d_bytes 1 (p, b) = Ok (v, st') -> fst st' <> p.
Proof.
  intros p b v st' H. unfold d_bytes in H. cbn [fst snd] in H. cbn [N.eqb] in H.
  destruct (p mod 8 =? 0); [|discriminate].
  destruct (8 * 1 <=? lenN b); [|destruct (lenN b =? 0); discriminate].
  assert (E : st' = (p + 8 * 1, skipN (8 * 1) b)) by (now injection H as <- <-).
  subst st'. cbn [fst]. lia.
Qed.

Lemma local_zstring : local (fun k => d_zstring k).
Proof.
  unfold d_zstring. apply (local_bind _ _ (fun k => dwhile k _ [])); [|intros; apply local_ret].
  apply (local_while _ _ (fun _ acc =>
      b <~ d_bytes 1 ;;
      match b with
      | [c] => if b2N c =? 0 then dret (inr acc) else dret (inl (c :: acc))
      | _ => dpanic
      end)).
  - intros a. apply (local_bind _ _ (fun _ => d_bytes 1)); [apply local_bytes|].
    intros [|c [|c2 l]]; [apply local_panic| |apply local_panic].
    destruct (_ =? 0); apply local_ret.
  - intros k p b a a1 H a'. exfalso. unfold dbind in H.
    destruct (d_bytes 1 (p, b)) as [[o st1]| | |] eqn:E; try discriminate.
    apply bytes1_progress in E.
    destruct o as [|c [|c2 l]]; try discriminate.
    destruct (_ =? 0); [discriminate|]. injection H as _ ->. now cbn [fst] in E.
Qed.

Lemma local_map : forall (f : nat -> val -> D val), (forall v, local (fun k => f k v)) ->
  forall l, local (fun k => d_map (f k) l).
Proof.
  intros f Hf. induction l as [|v l IH]; [apply local_ret|]. cbn [d_map].
  apply (local_bind _ _ (fun k => f k v) (fun k x => dbind (d_map (f k) l) (fun xs => dret (x :: xs))));
    [auto|]. intros x.
  apply (local_bind _ _ (fun k => d_map (f k) l) (fun k xs => dret (x :: xs))); [auto|].
  intros; apply local_ret.
Qed.

Lemma local_hook : forall h ver self left, local (fun k => d_hook k h ver self left).
Proof.
  intros h ver self left. destruct h; cbn [d_hook].
  - apply local_ret.
  - apply local_ret.
  - destruct (ver =? 0); [apply local_ret|].
    apply (local_bind _ _ (fun k => d_zstring k) (fun k a => dbind (d_zstring k) _));
      [apply local_zstring|]. intros a.
    apply (local_bind _ _ (fun k => d_zstring k)); [apply local_zstring|]. intros; apply local_ret.
  - cbv zeta. destruct (_ =? 0); [apply local_ret|].
    apply local_has_bytes. intros [|c tl]; [apply local_panic|apply local_ret].
  - apply local_ret.
Qed.

(** No registered box uses the string=c_p form. *)
Fixpoint no_cp_val (t : sty) : bool :=
  match t with
  | SArr _ u | SSlice u | SPtr u => no_cp_val u
  | SStruct _ _ fs => no_cp_flds fs
  | _ => true
  end
with no_cp_flds (fs : flds) : bool :=
  match fs with
  | FNil => true
  | FCons f t r => negb (f_cp f) && no_cp_val t && no_cp_flds r
  end.

Section Local.
  Variables (rname : string) (versions : list N) (ctx : context).

  Lemma dec_flds_cons' : forall fu rt lim base sname cfo self f t rest,
    dec_flds fu rname versions ctx rt lim base sname cfo self (FCons f t rest) =
        let root := box_of rt self in
        let env := if cfo : bool then mkenv self (get_version root) (get_flags root) ctx
                   else mkenv root (get_version root) (get_flags root) ctx in
        let cn := if cfo then sname else rname in
        match resolve_size cn env f, resolve_len cn env f with
        | Some size, Some len =>
            self' <~
              (if is_target (get_version root) (get_flags root) cn env f then
                 p <~ dpos ;;
                 h <~ d_hook fu (hook_of cn (f_name f)) (get_version root) self
                        (sub64 lim (p - base)) ;;
                 let '(override, self1) := h in
                 if override then dret self1
                 else
                   match lookup (f_name f) self1 with
                   | None => dpanic
                   | Some cur =>
                       x <~ dec_val fu rname versions ctx (box_of rt self1) lim base f size len t cur ;;
                       let self2 := update (f_name f) x self1 in
                       if is_fullbox t && negb (version_in versions (get_version (box_of rt self2)))
                       then dfail EUnsupportedVersion
                       else dret self2
                   end
               else dret self) ;;
            dec_flds fu rname versions ctx rt lim base sname cfo self' rest
        | _, _ => dpanic
        end.
  Proof. reflexivity. Qed.

  Lemma dec_local :
    (forall t, no_cp_val t = true -> forall rt lim base f size len cur, f_cp f = false ->
       local (fun k => dec_val k rname versions ctx rt lim base f size len t cur)) /\
    (forall fs, no_cp_flds fs = true -> forall rt lim base sname cfo self,
       local (fun k => dec_flds k rname versions ctx rt lim base sname cfo self fs)).
  Proof.
    apply sty_flds_mutind.
    - intros w _ rt lim base f size len cur _. apply local_uint.
    - intros w _ rt lim base f size len cur _. apply local_int.
    - intros _ rt lim base f size len cur _. apply local_bool.
    - intros _ rt lim base f size len cur Hc. cbn [dec_val]. unfold d_string. rewrite Hc.
      apply local_string_c.
    - (* array *)
      intros n u IH Hn rt lim base f size len cur Hc. cbn [dec_val].
      destruct cur; try apply local_panic.
      apply (local_bind _ _ (fun k => d_map (dec_val k rname versions ctx rt lim base f size len u) l));
        [|intros; apply local_ret].
      apply (local_map (fun k => dec_val k rname versions ctx rt lim base f size len u)).
      intros v. now apply IH.
    - (* slice *)
      intros u IH Hn rt lim base f size len cur Hc. cbn [dec_val].
      apply (local_dpos _ (fun k p => _)). intros p. cbv zeta.
      destruct (_ && _ && _); [apply local_fail|].
      destruct (_ && _ && _); [apply local_has_bytes; intros; apply local_ret|].
      set (elem := fun k acc =>
         x <~ dec_val k rname versions ctx rt lim base f size len u (zero u) ;;
         p <~ dpos ;;
         if lim <? p - base then dfail (EMsg "failed to read array completely") else dret (x :: acc)).
      assert (LE : forall acc, local (fun k => elem k acc)).
      { intros acc. unfold elem.
        apply (local_bind _ _ (fun k => dec_val k rname versions ctx rt lim base f size len u (zero u)));
          [now apply IH|]. intros x. apply (local_dpos _ (fun _ p => _)). intros p1.
        destruct (lim <? p1 - base); [apply local_fail|apply local_ret]. }
      apply (local_bind _ _ (fun k => if len =? LengthUnlimited
               then dwhile k (fun acc => p0 <~ dpos ;;
                       if lim <=? p0 - base then dret (inr acc)
                       else acc' <~ elem k acc ;; dret (inl acc')) []
               else dloop (N.to_nat len) (elem k) [])); [|intros; apply local_ret].
      destruct (len =? LengthUnlimited).
      + apply (local_while _ _ (fun k acc => p0 <~ dpos ;;
                       if lim <=? p0 - base then dret (inr acc)
                       else acc' <~ elem k acc ;; dret (inl acc'))).
        * intros acc. apply (local_dpos _ (fun k p => _)). intros p1.
          destruct (lim <=? p1 - base); [apply local_ret|].
          apply (local_bind _ _ (fun k => elem k acc)); [apply LE|]. intros; apply local_ret.
        * intros k p1 b a a1 H a'. unfold dbind at 1, dpos in H. unfold dbind at 1, dpos.
          cbn [fst] in *. destruct (lim <=? p1 - base); [discriminate|].
          unfold elem, dbind, dpos in H. unfold elem, dbind, dpos.
          destruct (dec_val k rname versions ctx rt lim base f size len u (zero u) (p1, b))
            as [[x st1]| | |]; try discriminate.
          destruct (lim <? fst st1 - base); [discriminate|].
          injection H as _ ->. exists (x :: a'). reflexivity.
      + apply local_loop. exact LE.
    - (* pointer *)
      intros u IH Hn rt lim base f size len cur Hc. cbn [dec_val].
      apply (local_bind _ _ (fun k => dec_val k rname versions ctx rt lim base f size len u (zero u)));
        [now apply IH|]. intros; apply local_ret.
    - (* struct *)
      intros name cfo fs IH Hn rt lim base f size len cur Hc.
      destruct cur as [| | | | | |l]; try apply local_panic.
      enough (L : local (fun k =>
          if negb (size =? 0) && (size mod 8 =? 0) then
              p <~ dpos ;;
              x <~ dec_flds k rname versions ctx (Some rt) (w64 size) p name cfo l fs ;;
              q <~ dpos ;;
              if q - p =? size then dret (VStruct x) else dfail (EMsg "invalid alignment")
          else
              x <~ dec_flds k rname versions ctx (Some rt) lim base name cfo l fs ;; dret (VStruct x)))
        by exact L.
      destruct (_ && _).
      + apply (local_dpos _ (fun k p => _)). intros p.
        apply (local_bind _ _ (fun k => dec_flds k rname versions ctx (Some rt) (w64 size) p name cfo l fs));
          [now apply IH|]. intros x. apply (local_dpos _ (fun _ q => _)). intros q.
        destruct (_ =? _); [apply local_ret|apply local_fail].
      + apply (local_bind _ _ (fun k => dec_flds k rname versions ctx (Some rt) lim base name cfo l fs));
          [now apply IH|]. intros; apply local_ret.
    - intros _ rt lim base sname cfo self. apply local_ret.
    - intros f t IHt rest IHr Hn rt lim base sname cfo self.
      cbn [no_cp_flds] in Hn. apply andb_prop in Hn. destruct Hn as [Hn Hr].
      apply andb_prop in Hn. destruct Hn as [Hf Ht]. apply negb_true_iff in Hf.
      enough (L : local (fun fu =>
        let root := box_of rt self in
        let env := if cfo : bool then mkenv self (get_version root) (get_flags root) ctx
                   else mkenv root (get_version root) (get_flags root) ctx in
        let cn := if cfo then sname else rname in
        match resolve_size cn env f, resolve_len cn env f with
        | Some size, Some len =>
            self' <~
              (if is_target (get_version root) (get_flags root) cn env f then
                 p <~ dpos ;;
                 h <~ d_hook fu (hook_of cn (f_name f)) (get_version root) self
                        (sub64 lim (p - base)) ;;
                 let '(override, self1) := h in
                 if override then dret self1
                 else
                   match lookup (f_name f) self1 with
                   | None => dpanic
                   | Some cur =>
                       x <~ dec_val fu rname versions ctx (box_of rt self1) lim base f size len t cur ;;
                       let self2 := update (f_name f) x self1 in
                       if is_fullbox t && negb (version_in versions (get_version (box_of rt self2)))
                       then dfail EUnsupportedVersion
                       else dret self2
                   end
               else dret self) ;;
            dec_flds fu rname versions ctx rt lim base sname cfo self' rest
        | _, _ => dpanic
        end)) by exact L.
      cbv zeta. set (root := box_of rt self). set (cn := if cfo then sname else rname).
      set (env := if cfo then _ else _). clearbody env.
      destruct (resolve_size cn env f) as [size|]; [|apply local_panic].
      destruct (resolve_len cn env f) as [len|]; [|apply local_panic].
      apply (local_bind _ _ (fun fu => if is_target (get_version root) (get_flags root) cn env f then
                 p <~ dpos ;;
                 h <~ d_hook fu (hook_of cn (f_name f)) (get_version root) self
                        (sub64 lim (p - base)) ;;
                 let '(override, self1) := h in
                 if override then dret self1
                 else
                   match lookup (f_name f) self1 with
                   | None => dpanic
                   | Some cur =>
                       x <~ dec_val fu rname versions ctx (box_of rt self1) lim base f size len t cur ;;
                       let self2 := update (f_name f) x self1 in
                       if is_fullbox t && negb (version_in versions (get_version (box_of rt self2)))
                       then dfail EUnsupportedVersion
                       else dret self2
                   end
               else dret self)
          (fun fu self' => dec_flds fu rname versions ctx rt lim base sname cfo self' rest));
        [|intros; now apply IHr].
      destruct (is_target _ _ _ _ _); [|apply local_ret].
      apply (local_dpos _ (fun k p => _)). intros p.
      apply (local_bind _ _ (fun fu => d_hook fu _ _ self _) (fun fu h => let '(override, self1) := h in _));
        [apply local_hook|].
      intros [override self1]. destruct override; [apply local_ret|].
      destruct (lookup (f_name f) self1) as [cur|]; [|apply local_panic].
      apply (local_bind _ _ (fun fu => dec_val fu rname versions ctx (box_of rt self1) lim base f size len t cur));
        [now apply IHt|]. intros x. cbv zeta.
      destruct (_ && _); [apply local_fail|apply local_ret].
  Qed.
End Local.
