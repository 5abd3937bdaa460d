(** Specification of a traversal of arbitrary data: the log of everything that
    happens between readBoxStructure and a handler, and which logs are right. *)
From Verif Require Import Base Schema Structs Registry Unmarshal BoxInfo ReadTree SpecTree.
Local Open Scope string_scope.
Local Open Scope list_scope.
Local Open Scope N_scope.

(** ** The log.  The handler is called with a box and its path; it starts to
    expand the box; expanding gives a result; the handler returns. *)
Inductive event (V : Type) : Type :=
| ECall (bi : boxinfo) (p : list btype)
| EOpen
| EClose (r : res (list V))
| ERet (r : res V).
Arguments ECall {V} _ _. Arguments EOpen {V}. Arguments EClose {V} _. Arguments ERet {V} _.

(** A handler that does what [h] does and keeps a log *)
Section Log.
  Context {St V P : Type}.
  Fixpoint logged (p : hprog St V P) (l : list (event V)) : hprog (St * list (event V)) V P :=
    match p with
    | HRet s v => HRet (s, l ++ [ERet (Ok v)]) v
    | HFail s e => HFail (s, l ++ [ERet (Err e)]) e
    | HReadPayload k => HReadPayload (fun r => logged (k r) l)
    | HReadData k => HReadData (fun r => logged (k r) l)
    | HExpand s q k =>
        HExpand (s, l ++ [EOpen]) q (fun r x => logged (k r (fst x)) (snd x ++ [EClose r]))
    | HMove pos k => HMove pos (logged k l)
    end.
  Definition with_log (h : handler_t St V P) : handler_t (St * list (event V)) V P :=
    fun bi p q x => logged (h bi p q (fst x)) (snd x ++ [ECall bi p]).
End Log.

(** ** Right logs *)

(** the boxes follow each other from [lo] to [hi] *)
Fixpoint consecutive (lo : N) (bs : list boxinfo) (hi : N) : Prop :=
  match bs with
  | [] => lo = hi
  | b :: r => bi_offset b = lo /\ consecutive (lo + bi_size b) r hi
  end.
(** The boxes [bs] found in [bi] behind its fields, which end at [lo]: inside [bi]
    and consecutive; if there was no error, they fill it (QuickTime files may have
    some bytes at the end, not enough for a header).  Nothing is claimed when the
    size of [bi] is absurd. *)
Definition contained {A} (qt : bool) (bi : boxinfo) (lo : N) (bs : list boxinfo) (r : res A) : Prop :=
  bi_hsize bi <= bi_size bi -> bi_offset bi + bi_size bi < 2 ^ 64 ->
  bi_offset bi + bi_hsize bi <= lo /\
  exists hi, consecutive lo bs hi /\ hi <= bi_offset bi + bi_size bi /\
    (forall v, r = Ok v -> hi = bi_offset bi + bi_size bi \/ qt = true /\ bi_offset bi + bi_size bi < hi + 8).

Section Trace.
  Variable data : list byte.
  Variable base : context.
  Variable V : Type.

  (** no complete header at [lo] *)
  Definition no_header (lo : N) : Prop :=
    lenN data < lo + 8 \/ (lenN data < lo + 16 /\ be_to_N (takeN 4 (skipN lo data)) = 1).
  Definition payload_at (t : btype) (bi : boxinfo) (c : context) : res (boxdef * list (string * val) * N) :=
    fst (unmarshal_any std_registry data t ((bi_size bi + 2 ^ 64 - bi_hsize bi) mod 2 ^ 64) c (bi_offset bi + bi_hsize bi)).

  (** what a box tells about the file: a top-level ftyp whether it is a QuickTime
      file, a keys box the number of keys *)
  Definition announce (anc : list btype) (qt : bool) (keys : Z) (bi : boxinfo) : res (bool * Z) :=
    match (if bt_eqb (bi_type bi) (bt "ftyp") && (match anc with [] => true | _ => false end)
           then match payload_at (bt "ftyp") bi (ctx_of base qt keys anc) with
                | Ok (_, x, _) => Ok (qt || has_compatible_brand x brand_qt)
                | Err e => Err e | Panic => Panic | OutOfFuel => OutOfFuel
                end
           else Ok qt) with
    | Ok qt' =>
        if bt_eqb (bi_type bi) (bt "keys")
        then match payload_at (bt "keys") bi (ctx_of base qt' keys anc) with
             | Ok (_, x, _) => Ok (qt', as_Z (lookup "EntryCount" x))
             | Err e => Err e | Panic => Panic | OutOfFuel => OutOfFuel
             end
        else Ok (qt', keys)
    | Err e => Err e | Panic => Panic | OutOfFuel => OutOfFuel
    end.

  (** a box was found at [lo], and is not larger than what is left *)
  Definition found (root : bool) (total lo : N) (bi : boxinfo) : Prop :=
    fst (read_box_info data lo) = Ok bi /\ bi_offset bi = lo /\ (root = false -> 8 <= total /\ bi_size bi <= total).
  (** why no handler is called *)
  Definition stops (root : bool) (anc : list btype) (qt : bool) (keys : Z) (total lo : N) (e : err) : Prop :=
    (fst (read_box_info data lo) = Err e /\ (root = true -> e <> EEOF)) \/
    (root = false /\ 0 < total < 8 /\ qt = false) \/
    (root = false /\ exists bi, fst (read_box_info data lo) = Ok bi /\ total < bi_size bi) \/
    (exists bi, found root total lo bi /\ announce anc qt keys bi = Err e).

  (** [level root anc qt keys total lo log bs r]: reading boxes from [lo], inside
      boxes of the types [anc]; [total] bytes are left there (not used at the top
      level); the handler is called for the boxes [bs]; [r] is the result.
      [body]: what happens between the call of the handler for [bi] and its return. *)
  Inductive level : bool -> list btype -> bool -> Z -> N -> N -> list (event V) -> list boxinfo -> res (list V) -> Prop :=
  | L_end : forall root anc qt keys total lo,
      (if root : bool then no_header lo else total < 8 /\ (total = 0 \/ qt = true)) ->
      level root anc qt keys total lo [] [] (Ok [])
  | L_stop : forall root anc qt keys total lo e,
      stops root anc qt keys total lo e -> level root anc qt keys total lo [] [] (Err e)
  | L_fail : forall root anc qt keys total lo b qt' keys' log e,
      found root total lo b -> announce anc qt keys b = Ok (qt', keys') ->
      let bi := set_ctx b (ctx_of base qt' keys' anc) in
      body anc qt' keys' bi log ->
      level root anc qt keys total lo (ECall bi (anc ++ [bi_type b]) :: log ++ [ERet (Err e)]) [bi] (Err e)
  | L_lost : forall root anc qt keys total lo b qt' keys' log v,    (* the position of the end is not an int64 *)
      found root total lo b -> announce anc qt keys b = Ok (qt', keys') ->
      let bi := set_ctx b (ctx_of base qt' keys' anc) in
      body anc qt' keys' bi log -> 2 ^ 63 <= (lo + bi_size b) mod 2 ^ 64 ->
      level root anc qt keys total lo (ECall bi (anc ++ [bi_type b]) :: log ++ [ERet (Ok v)]) [bi] (Err ESeek)
  | L_next : forall root anc qt keys total lo b qt' keys' log v log2 bs r,
      found root total lo b -> announce anc qt keys b = Ok (qt', keys') ->
      let bi := set_ctx b (ctx_of base qt' keys' anc) in
      body anc qt' keys' bi log ->
      level root anc qt' keys' (total - bi_size b) ((lo + bi_size b) mod 2 ^ 64) log2 bs r ->
      level root anc qt keys total lo (ECall bi (anc ++ [bi_type b]) :: log ++ ERet (Ok v) :: log2) (bi :: bs)
        (match r with Ok vs => Ok (v :: vs) | x => x end)
  with body : list btype -> bool -> Z -> boxinfo -> list (event V) -> Prop :=
  | B_nil : forall anc qt keys bi, body anc qt keys bi []
  | B_unread : forall anc qt keys bi e rest,
      payload_at (bi_type bi) bi (bi_ctx bi) = Err e -> body anc qt keys bi rest ->
      body anc qt keys bi (EOpen :: EClose (Err e) :: rest)
  | B_group : forall anc qt keys bi d x n log bs r rest,
      payload_at (bi_type bi) bi (bi_ctx bi) = Ok (d, x, n) ->
      let lo := bi_offset bi + bi_hsize bi + n in
      level false (anc ++ [bi_type bi]) qt keys ((bi_offset bi + bi_size bi + 2 ^ 64 - lo) mod 2 ^ 64) lo log bs r ->
      contained qt bi lo bs r ->
      body anc qt keys bi rest ->
      body anc qt keys bi (EOpen :: log ++ EClose r :: rest).
End Trace.
Arguments level _ _ {V}. Arguments body _ _ {V}.
