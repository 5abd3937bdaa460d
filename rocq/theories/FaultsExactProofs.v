(** Lemmas for PropFaultsExact: Marshal with a failing writer, types with fields
    that are not whole bytes. *)
From Verif Require Import Base BaseProofs BitIO Schema Methods Registry Marshal.
From Verif Require Import BitIOProofs BitIOFacts MarshalProofs MarshalCount PropFaults SpecReuse.
Local Open Scope string_scope.
Local Open Scope list_scope.
Local Open Scope N_scope.
Local Open Scope monad_scope.
Ltac Zify.zify_post_hook ::= Z.to_euclidean_division_equations.

(** started with [k] bits in the last byte, success with failing writes means
    success, with the same effect, without; and [k'] bits in the last byte *)
Definition at_ {A} (k k' : N) (m : M mst A) : Prop := forall s a s', m_wbits s mod 8 = k ->
  m s = (Ok a, s') -> m (clean s) = (Ok a, clean s') /\ m_wbits s' mod 8 = k'.

Lemma at_ret : forall A k (a : A), at_ k k (ret a).
Proof. intros A k a s x s' K H. unfold ret in *. injection H as <- <-. auto. Qed.
Lemma at_panic : forall A k k', at_ k k' (@panic mst A).
Proof. intros A k k' s x s' K H. discriminate. Qed.
Lemma at_bind : forall A B k k1 k2 (m : M mst A) (g : A -> M mst B),
  at_ k k1 m -> (forall a, at_ k1 k2 (g a)) -> at_ k k2 (bind m g).
Proof.
  intros A B k k1 k2 m g Hm Hg s a s' K H. unfold bind in *. destruct (m s) as [[x| | |] s1] eqn:E; try discriminate.
  destruct (Hm _ _ _ K E) as [E1 K1]. rewrite E1. now apply Hg.
Qed.
Lemma at_put : forall k b n, at_ k ((k + n) mod 8) (put_bits b n).
Proof.
  intros k b n s a s' K H. split.
  - refine (proj1 (good_put false b n _) _ _ _ _ H); [discriminate|]. intros Q; discriminate.
  - unfold put_bits, bind, lift_w, add_wbits in H. destruct (write_bits _ _ _) as [[u| | |] w]; try discriminate.
    injection H as <- <-. cbn [m_wbits]. rewrite <- K. clear. lia.
Qed.

Lemma chunks_wbits : forall size val adj s i s', put_chunks size val adj s = (Ok i, s') ->
  m_wbits s' = m_wbits s + size.
Proof.
  intros size val adj s i s' H. unfold put_chunks in H.
  set (body := fun i : N => _) in H.
  assert (B : forall j s0 r s1, body j s0 = (Ok r, s1) ->
            r = j + 8 /\ m_wbits s1 = m_wbits s0 + (if size <? j + 8 then size - j else 8)).
  { intros j s0 r s1. unfold body. cbv zeta. unfold bind, put_bits, lift_w, add_wbits, ret, bind.
    destruct (write_bits _ _ _) as [[u| | |] w]; try discriminate. intros Q. injection Q as <- <-. auto. }
  assert (L : forall p j s0 r s1, loopP p body j s0 = (Ok r, s1) ->
            r = j + 8 * N.pos p /\ m_wbits s1 + N.min size j = m_wbits s0 + N.min size (j + 8 * N.pos p)).
  { clear H. induction p as [p IH|p IH|]; intros j s0 r s1; cbn [loopP]; unfold bind.
    - destruct (body j s0) as [[x| | |] s2] eqn:E1; try discriminate.
      destruct (loopP p body x s2) as [[y| | |] s3] eqn:E2; try discriminate. intros E3.
      apply B in E1. apply IH in E2. apply IH in E3. destruct (N.ltb_spec size (j + 8)); lia.
    - destruct (loopP p body j s0) as [[y| | |] s3] eqn:E2; try discriminate. intros E3.
      apply IH in E2. apply IH in E3. lia.
    - intros E1. apply B in E1. destruct (N.ltb_spec size (j + 8)); lia. }
  destruct ((size + 7) / 8) as [|p] eqn:D; cbn [loopN] in H.
  - unfold ret in H. injection H as <- <-. lia.
  - apply L in H. lia.
Qed.
Lemma at_chunks : forall k size val adj, at_ k ((k + size) mod 8) (put_chunks size val adj).
Proof.
  intros k size val adj s i s' K H. split.
  - refine (proj1 (good_chunks false size val adj _) _ _ _ _ H); discriminate.
  - apply chunks_wbits in H. rewrite H, <- K. clear. lia.
Qed.

(** the number of bits of a number or of an array of numbers *)
Fixpoint bits_val (f : finfo) (t : sty) : option N :=
  match t with
  | SUint _ | SInt _ | SBool => if f_sizeDyn f then None else Some (f_size f)
  | SArr n u => option_map (N.mul n) (bits_val f u)
  | _ => None
  end.
Lemma at_iter : forall g n (l : list val), (forall x k, In x l -> at_ k ((k + n) mod 8) (g x)) ->
  forall k, k < 8 -> at_ k ((k + lenN l * n) mod 8) (iter_list g l).
Proof.
  intros g n l. induction l as [|x l IH]; intros H k K; cbn [iter_list].
  - replace ((k + lenN (@nil val) * n) mod 8) with k by (unfold lenN; cbn; rewrite N.add_0_r; symmetry; now apply N.mod_small).
    apply at_ret.
  - replace ((k + lenN (x :: l) * n) mod 8) with (((k + n) mod 8 + lenN l * n) mod 8).
    + apply at_bind with (k1 := (k + n) mod 8); [apply H; now left|]. intros _. apply IH; [|lia].
      intros y j Y. apply H. now right.
    + replace (lenN (x :: l)) with (lenN l + 1) by (unfold lenN; cbn [List.length]; lia).
      rewrite N.mul_add_distr_r, N.mul_1_l. generalize (lenN l * n). clear. intros. lia.
Qed.
Lemma at_val : forall rn root ctx f size len t n, f_varint f = false ->
  (f_sizeDyn f = false -> size = f_size f) -> bits_val f t = Some n ->
  forall v k, k < 8 -> go_value t v -> at_ k ((k + n) mod 8) (marshal_val rn root ctx f size len t v).
Proof.
  intros rn root ctx f size len t. induction t as [w|w| | |m u IH|u IH|u IH|nm c fs]; intros n V S B v k K G;
    cbn [bits_val] in B; try discriminate.
  - destruct (f_sizeDyn f) eqn:D; [discriminate|]. injection B as <-. destruct G as [x ->]. cbn [marshal_val]. rewrite V.
    unfold marshal_uint. rewrite (S eq_refl). eapply at_bind; [apply at_chunks|]. intros; apply at_ret.
  - destruct (f_sizeDyn f) eqn:D; [discriminate|]. injection B as <-. destruct G as [x ->]. cbn [marshal_val]. rewrite V.
    unfold marshal_int. rewrite (S eq_refl). eapply at_bind; [apply at_chunks|]. intros; apply at_ret.
  - destruct (f_sizeDyn f) eqn:D; [discriminate|]. injection B as <-. destruct G as [x ->]. cbn [marshal_val].
    unfold marshal_bool. rewrite (S eq_refl). apply at_put.
  - destruct G as (l & -> & L & F). cbn [marshal_val]. destruct (bits_val f u) as [b|]; [|discriminate].
    injection B as <-. rewrite <- L. change (at_ k ((k + lenN l * b) mod 8) (iter_list (marshal_val rn root ctx f size len u) l)).
    apply at_iter; [|exact K]. intros x j X. rewrite Forall_forall in F.
    assert (Q : j < 8 \/ 8 <= j) by lia. destruct Q as [Q|Q]; [now apply IH; auto|].
    intros s a s' J. exfalso. clear - J Q. lia.
Qed.

(** Where in its byte a struct ends, if all its byte lists start at whole bytes. *)
Fixpoint lay (rn : string) (root : list (string * val)) (ctx : context) (fs : flds) (k : N) : option N :=
  match fs with
  | FNil => Some k
  | FCons f t r =>
      if is_target (get_version root) (get_flags root) rn (mkenv root (get_version root) (get_flags root) ctx) f then
        match hook_of rn (f_name f) with
        | HNone =>
            if f_varint f then None
            else if rep_val true f t && (k =? 0) then lay rn root ctx r 0
            else match bits_val f t with Some n => lay rn root ctx r ((k + n) mod 8) | None => None end
        | _ => None
        end
      else lay rn root ctx r k
  end.
Fixpoint fields_of (fs : flds) : list (string * sty) :=
  match fs with FNil => [] | FCons f t r => (f_name f, t) :: fields_of r end.
Lemma at_lay : forall rn root ctx fs k k', k < 8 -> lay rn root ctx fs k = Some k' ->
  Forall (fun x => forall v, lookup (fst x) root = Some v -> go_value (snd x) v) (fields_of fs) ->
  at_ k k' (marshal_flds rn root ctx rn true root fs).
Proof.
  intros rn root ctx fs. induction fs as [|f t r IH]; intros k k' K L G.
  - injection L as <-. apply at_ret.
  - rewrite marshal_flds_cons. cbv zeta. cbn [lay fields_of] in L, G. inversion G as [|? ? G1 G2]; subst. cbn [fst snd] in G1.
    change (cfo_name rn true rn) with rn. change (cfo_env root ctx true root) with (mkenv root (get_version root) (get_flags root) ctx).
    set (env := mkenv root (get_version root) (get_flags root) ctx) in *.
    destruct (resolve_size rn env f) as [size|] eqn:RS; [|apply at_panic].
    destruct (resolve_len rn env f) as [len|]; [|apply at_panic].
    assert (S : f_sizeDyn f = false -> size = f_size f).
    { intros D. unfold resolve_size in RS. rewrite D in RS. now injection RS. }
    destruct (is_target _ _ _ _ _); [|eapply at_bind; [apply at_ret|intros; now apply IH]].
    destruct (hook_of rn (f_name f)); try discriminate. cbn [on_write].
    assert (P : exists k1, k1 < 8 /\ lay rn root ctx r k1 = Some k' /\
              forall v, lookup (f_name f) root = Some v -> at_ k k1 (marshal_val rn root ctx f size len t v)).
    { destruct (f_varint f) eqn:V; [discriminate|]. destruct (rep_val true f t && (k =? 0)) eqn:R.
      - apply andb_prop in R. destruct R as [R Z]. apply N.eqb_eq in Z. subst k. exists 0. split; [lia|]. split; [exact L|].
        intros v _ s a s' Q H. destruct (proj1 (marshal_good true rn root ctx) t f size len v V S R) as [H1 H2].
        split; [apply H1; auto; intros _; exact Q|]. apply (H2 s a s'); auto. intros _; exact Q.
      - destruct (bits_val f t) as [n|] eqn:B; [|discriminate]. exists ((k + n) mod 8). split; [lia|]. split; [exact L|].
        intros v Lk. apply at_val; auto. }
    destruct P as (k1 & K1 & L1 & P). apply at_bind with (k1 := k1); [|intros _; now apply IH].
    intros s a s' Q H. unfold bind, ret, add_wbits in H. cbn [fst snd] in H.
    unfold bind, ret, add_wbits. cbn [fst snd].
    destruct (lookup (f_name f) root) as [v|] eqn:Lk; [|discriminate].
    specialize (P v eq_refl). apply P in H; [|cbn [m_wbits]; rewrite N.add_0_r; exact Q]. exact H.
Qed.

(** A Go struct has the fields of its type. *)
Lemma go_lookup : forall fs l, go_struct fs l -> NoDup (map fst (fields_of fs)) ->
  Forall (fun x => forall v, lookup (fst x) l = Some v -> go_value (snd x) v) (fields_of fs).
Proof.
  induction fs as [|f t r IH]; intros l G D; [constructor|]. destruct l as [|[n v] l]; [destruct G|].
  destruct G as (-> & G1 & G2). cbn [fields_of map fst] in *. inversion D as [|? ? D1 D2]; subst.
  constructor.
  - cbn [fst snd]. intros w. cbn [lookup]. rewrite String.eqb_refl. intros Q. now injection Q as <-.
  - specialize (IH l G2 D2). rewrite Forall_forall in *. intros [m u] I w. cbn [fst snd].
    intros Q. apply (IH _ I). cbn [fst]. revert Q. cbn [lookup]. 
    destruct (String.eqb_spec m (f_name f)) as [->|N]; [|auto].
    exfalso. apply D1. apply in_map_iff. exists (f_name f, u). auto.
Qed.

(** ** sdtp: a list of structs of four two-bit numbers *)
(** the bit writer after a write of it has failed: it never writes again *)
Definition dead (s : mst) : Prop := 8 <= w_width (m_w s).
Definition sound (k : N) (s : mst) : Prop := m_wbits s mod 8 = k /\ w_width (m_w s) = k.

Lemma two_bits : forall b, exists x y, write_bits [b] 2 = write_bit_list [x; y].
Proof.
  intros b. unfold write_bits.
  assert (L : List.length (bits_of_bytes [b]) = 8%nat) by (rewrite bits_of_bytes_length; reflexivity).
  destruct (bits_of_bytes [b]) as [|b0 [|b1 [|b2 [|b3 [|b4 [|b5 [|b6 [|b7 [|]]]]]]]]]; try discriminate.
  exists b6, b7. reflexivity.
Qed.
Definition put2 (n : N) : M mst unit := marshal_uint false 2 n.
Lemma put2_eq : forall n s, put2 n s = put_bits (N2b n) 2 s.
Proof.
  intros n s. unfold put2, marshal_uint, put_chunks. change ((2 + 7) / 8) with 1. cbn [loopN loopP].
  change (0 + 8 <? 2) with false. change (2 <? 0 + 8) with true. cbv iota zeta. change (2 - 0) with 2.
  unfold bind. destruct (put_bits (N2b n) 2 s) as [[[]| | |] s1]; reflexivity.
Qed.
Lemma put2_dead : forall n s, dead s -> exists s', put2 n s = (Ok tt, s') /\ dead s' /\ m_wbits s' = m_wbits s + 2.
Proof.
  intros n [w b] D. rewrite put2_eq. unfold put_bits. destruct (two_bits (N2b n)) as (x & y & ->).
  unfold dead in *. cbn [m_w m_wbits] in *. unfold bind, lift_w, add_wbits. cbn [write_bit_list m_w].
  unfold bind, write_bit, ret. destruct (N.eqb_spec (w_width w + 1) 8) as [E|_]; [lia|]. cbn [w_width].
  destruct (N.eqb_spec (w_width w + 1 + 1) 8) as [E|_]; [lia|].
  eexists. split; [reflexivity|]. cbn [m_w w_width m_wbits]. split; lia.
Qed.
Lemma put2_early : forall n k s, sound k s -> k <= 4 -> exists s', put2 n s = (Ok tt, s') /\ sound (k + 2) s' /\
  m_wbits s' = m_wbits s + 2.
Proof.
  intros n k [w b] [A D] K. rewrite put2_eq. unfold put_bits. destruct (two_bits (N2b n)) as (x & y & ->).
  cbn [m_w m_wbits] in *. unfold bind, lift_w, add_wbits. cbn [write_bit_list m_w].
  unfold bind, write_bit, ret. destruct (N.eqb_spec (w_width w + 1) 8) as [E|_]; [lia|]. cbn [w_width].
  destruct (N.eqb_spec (w_width w + 1 + 1) 8) as [E|_]; [lia|].
  eexists. split; [reflexivity|]. unfold sound. cbn [m_w w_width m_wbits]. split; [split|]; lia.
Qed.
Lemma put2_last : forall n s, sound 6 s -> exists r s', put2 n s = (r, s') /\
  ((r = Ok tt /\ sound 0 s' /\ m_wbits s' = m_wbits s + 2) \/
   (exists e, r = Err e /\ dead s' /\ m_wbits s' = m_wbits s)).
Proof.
  intros n [w b] [A D]. rewrite put2_eq. unfold put_bits. destruct (two_bits (N2b n)) as (x & y & ->).
  cbn [m_w m_wbits] in *. unfold bind, lift_w, add_wbits. cbn [write_bit_list m_w].
  unfold bind, write_bit, ret. destruct (N.eqb_spec (w_width w + 1) 8) as [E|_]; [lia|]. cbn [w_width].
  destruct (N.eqb_spec (w_width w + 1 + 1) 8) as [_|E]; [|lia].
  unfold under_write. cbn [w_faults w_out w_octet w_width]. destruct (w_faults w) as [|[] l].
  - eexists _, _. split; [reflexivity|]. left. split; [reflexivity|]. unfold sound. cbn [m_w w_width m_wbits]. split; [split|]; lia.
  - eexists _, _. split; [reflexivity|]. right. eexists. split; [reflexivity|]. unfold dead. cbn [m_w w_width m_wbits]. split; lia.
  - eexists _, _. split; [reflexivity|]. left. split; [reflexivity|]. unfold sound. cbn [m_w w_width m_wbits]. split; [split|]; lia.
Qed.
Lemma put2_honest : forall n s s', put2 n s = (Ok tt, s') -> put2 n (clean s) = (Ok tt, clean s').
Proof.
  intros n s s' H. rewrite put2_eq in *. refine (proj1 (good_put false (N2b n) 2 _) _ _ _ _ H); [discriminate|].
  intros Q; discriminate.
Qed.
Definition elem4 (a b c d : N) : M mst unit := put2 a ;;; put2 b ;;; put2 c ;;; put2 d.
Lemma elem4_honest : forall a b c d s s', elem4 a b c d s = (Ok tt, s') -> elem4 a b c d (clean s) = (Ok tt, clean s').
Proof.
  intros a b c d s s'. unfold elem4, bind.
  destruct (put2 a s) as [[[]| | |] s1] eqn:E1; try discriminate. rewrite (put2_honest _ _ _ E1).
  destruct (put2 b s1) as [[[]| | |] s2] eqn:E2; try discriminate. rewrite (put2_honest _ _ _ E2).
  destruct (put2 c s2) as [[[]| | |] s3] eqn:E3; try discriminate. rewrite (put2_honest _ _ _ E3).
  apply put2_honest.
Qed.
Lemma elem4_dead : forall a b c d s, dead s -> exists s', elem4 a b c d s = (Ok tt, s') /\ dead s' /\ m_wbits s' = m_wbits s + 8.
Proof.
  intros a b c d s D. unfold elem4, bind.
  destruct (put2_dead a s D) as (s1 & -> & D1 & W1). destruct (put2_dead b s1 D1) as (s2 & -> & D2 & W2).
  destruct (put2_dead c s2 D2) as (s3 & -> & D3 & W3). destruct (put2_dead d s3 D3) as (s4 & -> & D4 & W4).
  exists s4. split; [reflexivity|]. split; [exact D4|]. lia.
Qed.
Lemma elem4_sound : forall a b c d s, sound 0 s -> exists r s', elem4 a b c d s = (r, s') /\
  ((r = Ok tt /\ sound 0 s') \/ (exists e, r = Err e /\ dead s' /\ m_wbits s' mod 8 = 6)).
Proof.
  intros a b c d s D. unfold elem4, bind.
  destruct (put2_early a 0 s D) as (s1 & -> & D1 & W1); [lia|]. destruct (put2_early b 2 s1 D1) as (s2 & -> & D2 & W2); [lia|].
  destruct (put2_early c 4 s2 D2) as (s3 & -> & D3 & W3); [lia|].
  destruct (put2_last d s3 D3) as (r & s4 & -> & [(-> & S & W)|(e & -> & S & W)]).
  - eexists _, _. split; [reflexivity|]. left. auto.
  - eexists _, _. split; [reflexivity|]. right. eexists. split; [reflexivity|]. split; [exact S|]. destruct D3. rewrite W. assumption.
Qed.
(** a list of them *)
Lemma elems_loop : forall (g : val -> M mst unit) l,
  Forall (fun x => exists a b c d, forall s, g x s = elem4 a b c d s) l ->
  (forall s, sound 0 s -> exists s', iter_list (fun x => ignore_err (g x)) l s = (Ok tt, s') /\
     ((iter_list (fun x => ignore_err (g x)) l (clean s) = (Ok tt, clean s')) \/ m_wbits s' mod 8 = 6)) /\
  (forall s, dead s -> m_wbits s mod 8 = 6 ->
     exists s', iter_list (fun x => ignore_err (g x)) l s = (Ok tt, s') /\ m_wbits s' mod 8 = 6).
Proof.
  intros g l F. induction F as [|x l (a & b & c & d & E) F [IH1 IH2]]; (split; [intros s S|intros s S M]); cbn [iter_list].
  - exists s. split; [reflexivity|]. left. reflexivity.
  - exists s. auto.
  - unfold bind, ignore_err. rewrite !E.
    destruct (elem4_sound a b c d s S) as (r & s1 & Q & [(-> & S1)|(e & -> & S1 & M1)]); rewrite Q.
    + destruct (IH1 s1 S1) as (s2 & I & J). exists s2. split; [exact I|]. rewrite (elem4_honest _ _ _ _ _ _ Q). exact J.
    + destruct (IH2 s1 S1 M1) as (s2 & I & J). exists s2. split; [exact I|]. right. exact J.
  - unfold bind, ignore_err. rewrite !E. destruct (elem4_dead a b c d s S) as (s1 & Q & S1 & W). rewrite Q.
    apply IH2; [exact S1|]. rewrite W. clear - M. lia.
Qed.
