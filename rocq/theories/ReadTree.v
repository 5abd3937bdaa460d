(** Model of read.go: traversal of the box structure with a handler. *)
From Verif Require Import Base Schema Structs Registry Unmarshal BoxInfo.
Local Open Scope monad_scope.

Definition path := list btype.

(** ** What a ReadHandler can do, as a program.  A handler is a Go function; in
    one run it finishes after finitely many calls of the functions of its
    ReadHandle (read.go:26-33), each of which hands a result back to it.  It
    may also move the shared stream to any position ([HMove], any combination
    of Seek and Read on it), and it owns some state [St] which it may change at
    any time.  [V] is the type of the values it returns, [P] of the params. *)
Section Handlers.
  Variables St V P : Type.
  Inductive hprog : Type :=
  | HRet (s : St) (v : V)                                  (* return v, nil *)
  | HFail (s : St) (e : err)                               (* return nil, e *)
  | HReadPayload (k : res (boxdef * list (string * val) * N) -> hprog)
  | HReadData (k : res (list byte * N) -> hprog)
  | HExpand (s : St) (p : P) (k : res (list V) -> St -> hprog)
  | HMove (pos : N) (k : hprog).
  Definition handler_t := boxinfo -> path -> P -> St -> hprog.
End Handlers.
Arguments HRet {St V P} _ _. Arguments HFail {St V P} _ _. Arguments HReadPayload {St V P} _.
Arguments HReadData {St V P} _. Arguments HExpand {St V P} _ _ _. Arguments HMove {St V P} _ _.

(** Ftyp.HasCompatibleBrand: box_types_iso14496_12.go:587-594 *)
Definition brands_of (ftyp : list (string * val)) : list (list byte) :=
  match lookup "CompatibleBrands" ftyp with
  | Some (VList l) =>
      map (fun e => match e with VStruct fs => as_bytes (lookup "CompatibleBrand" fs) | _ => [] end) l
  | _ => []
  end.
Definition has_compatible_brand (ftyp : list (string * val)) (b : list byte) : bool :=
  existsb (fun x => bytes_eqb x b) (brands_of ftyp).
Definition brand_qt : list byte := bytes_of_string "qt  ".   (* :542 *)

(** IsIlstMetaBoxType: box_types_metadata.go:63-70 *)
Definition is_ilst_meta (t : btype) : bool := existsb (bt_eqb t) ilstMetaBoxTypes.

Definition set_qt (c : context) : context :=
  mkctx true (QuickTimeKeysMetaEntryCount c) (UnderWave c) (UnderIlst c) (UnderIlstMeta c)
        (UnderIlstFreeMeta c) (UnderUdta c).
Definition set_keys (z : Z) (c : context) : context :=
  mkctx (IsQuickTimeCompatible c) z (UnderWave c) (UnderIlst c) (UnderIlstMeta c)
        (UnderIlstFreeMeta c) (UnderUdta c).

(** Context for the children: read.go:79-91 *)
Definition child_ctx (t : btype) (c : context) : context :=
  if bt_eqb t (bt "wave") then
    mkctx (IsQuickTimeCompatible c) (QuickTimeKeysMetaEntryCount c) true (UnderIlst c)
          (UnderIlstMeta c) (UnderIlstFreeMeta c) (UnderUdta c)
  else if bt_eqb t (bt "ilst") then
    mkctx (IsQuickTimeCompatible c) (QuickTimeKeysMetaEntryCount c) (UnderWave c) true
          (UnderIlstMeta c) (UnderIlstFreeMeta c) (UnderUdta c)
  else if UnderIlst c && negb (UnderIlstMeta c) && is_ilst_meta t then
    mkctx (IsQuickTimeCompatible c) (QuickTimeKeysMetaEntryCount c) (UnderWave c) (UnderIlst c)
          true (if bt_eqb t (bt "----") then true else UnderIlstFreeMeta c) (UnderUdta c)
  else if bt_eqb t (bt "udta") then
    mkctx (IsQuickTimeCompatible c) (QuickTimeKeysMetaEntryCount c) (UnderWave c) (UnderIlst c)
          (UnderIlstMeta c) (UnderIlstFreeMeta c) true
  else c.

Definition set_ctx (bi : boxinfo) (c : context) : boxinfo :=
  mkbi (bi_offset bi) (bi_size bi) (bi_hsize bi) (bi_type bi) (bi_eof bi) c.
Definition payload_size (bi : boxinfo) : N := sub64 (bi_size bi) (bi_hsize bi).

Section Read.
  Variable R : registry.
  Variable data : list byte.

  (** SeekToPayload then UnmarshalAny: read.go:106-110, 132-136 *)
  Definition read_payload (bi : boxinfo) : M N (boxdef * list (string * val) * N) :=
    seek_to_payload bi ;;;
    unmarshal_any R data (bi_type bi) (payload_size bi) (bi_ctx bi).

  (** ReadData: read.go:118-128.  The bytes given to the writer are returned
      along with the count; a writer that fails is not modelled. *)
  Definition read_data (bi : boxinfo) : M N (list byte * N) :=
    seek_to_payload bi ;;;
    d <- s_copy data (payload_size bi) ;;
    ret (d, payload_size bi).

  (** read.go:48-77: what happens to the box information before the handler is
      called.  (Ftyp and Keys are read into variables of these types; the model
      goes through the registry, which holds exactly these definitions.) *)
  Definition prepare (bi : boxinfo) (pth : path) : M N boxinfo :=
    seek_to_payload bi ;;;
    bi1 <- (if (match pth with [] => true | _ => false end) && bt_eqb (bi_type bi) (bt "ftyp") then
              x <- unmarshal_any R data (bt "ftyp") (payload_size bi) (bi_ctx bi) ;;
              let bi' := if has_compatible_brand (snd (fst x)) brand_qt
                         then set_ctx bi (set_qt (bi_ctx bi)) else bi in
              seek_to_payload bi' ;;; ret bi'
            else ret bi) ;;
    (if bt_eqb (bi_type bi1) (bt "keys") then
       x <- unmarshal_any R data (bt "keys") (payload_size bi1) (bi_ctx bi1) ;;
       let bi' := set_ctx bi1 (set_keys (as_Z (lookup "EntryCount" (snd (fst x)))) (bi_ctx bi1)) in
       seek_to_payload bi' ;;; ret bi'
     else ret bi1).

  Context {St V P : Type}.
  Variable handler : handler_t St V P.

  Definition lift_s {A} (m : M N A) : M (N * St) A := fun s =>
    let (r, p) := m (fst s) in (r, (p, snd s)).
  (** run something and hand its result to the handler *)
  Definition attempt {S A} (m : M S A) : M S (res A) := fun s =>
    let (r, s') := m s in
    match r with
    | Panic => (Panic, s')
    | OutOfFuel => (OutOfFuel, s')
    | x => (Ok x, s')
    end.

  (** handler(h) with the closures of read.go:103-149.  [co] is childrenOffset;
      [expand total] is readBoxStructure on the children. *)
  Fixpoint run_handler (bi : boxinfo) (expand : N -> P -> M (N * St) (list V))
           (co : N) (p : hprog St V P) : M (N * St) V :=
    match p with
    | HRet s v => fun x => (Ok v, (fst x, s))
    | HFail s e => fun x => (Err e, (fst x, s))
    | HReadPayload k =>
        r <- attempt (lift_s (read_payload bi)) ;;
        run_handler bi expand
          (match r with Ok (_, _, n) => w64 (bi_offset bi + bi_hsize bi + n) | _ => co end) (k r)
    | HReadData k =>
        r <- attempt (lift_s (read_data bi)) ;; run_handler bi expand co (k r)
    | HExpand s p k =>
        (fun x => (Ok tt, (fst x, s))) ;;;
        r <- attempt (
          if co =? 0 then
            x <- lift_s (read_payload bi) ;;
            let co' := w64 (bi_offset bi + bi_hsize bi + snd x) in
            vs <- attempt (expand (sub64 (bi_offset bi + bi_size bi) co') p) ;;
            ret (co', vs)
          else
            lift_s (s_seek co) ;;;
            vs <- attempt (expand (sub64 (bi_offset bi + bi_size bi) co) p) ;;
            ret (co, vs)) ;;
        s' <- get ;;
        match r with
        | Ok (co', vs) => run_handler bi expand co' (k vs (snd s'))
        | Err e => run_handler bi expand co (k (Err e) (snd s'))
        | _ => panic
        end
    | HMove pos k => (fun x => (Ok tt, (pos, snd x))) ;;; run_handler bi expand co k
    end.

  (** readBoxStructure: read.go:160-199 and readBoxStructureFromInternal:
      read.go:48-158.  One unit of fuel per loop iteration and per level. *)
  Definition box_internal
      (rec : N -> path -> context -> P -> M (N * St) (list V))
      (bi0 : boxinfo) (pth : path) (params : P) : M (N * St) (V * boxinfo) :=
    bi <- lift_s (prepare bi0 pth) ;;
    let newPath := pth ++ [bi_type bi] in
    v <- (fun x =>
            run_handler bi (fun total p => rec total newPath (child_ctx (bi_type bi) (bi_ctx bi)) p) 0
              (handler bi newPath params (snd x)) x) ;;
    lift_s (seek_to_end bi) ;;;
    ret (v, bi).

  Fixpoint read_structure (fuel : nat) (isRoot : bool) (total : N) (pth : path) (ctx : context)
           (params : P) : M (N * St) (list V) :=
    match fuel with
    | O => fun s => (OutOfFuel, s)
    | S fuel' =>
        if isRoot || (SmallHeaderSize <=? total) then
          h <- attempt (lift_s (read_box_info data)) ;;
          match h with
          | Err EEOF => if isRoot then ret [] else fail EEOF
          | Err e => fail e
          | Ok bi =>
              if negb isRoot && (total <? bi_size bi) then fail (EMsg "too large box size")
              else
                x <- box_internal (fun t p c q => read_structure fuel' false t p c q)
                       (set_ctx bi ctx) pth params ;;
                let '(v, bi') := x in
                let ctx1 := if IsQuickTimeCompatible (bi_ctx bi') then set_qt ctx else ctx in
                let ctx2 := if bt_eqb (bi_type bi') (bt "keys")
                            then set_keys (QuickTimeKeysMetaEntryCount (bi_ctx bi')) ctx1 else ctx1 in
                vs <- read_structure fuel' isRoot (sub64 total (bi_size bi)) pth ctx2 params ;;
                ret (v :: vs)
          | _ => panic
          end
        else if negb (total =? 0) && negb (IsQuickTimeCompatible ctx)
        then fail (EMsg "unexpected EOF")
        else ret []
    end.

  (** Fuel that is always enough when no root box wraps around: every box takes
      at least 8 bytes of the input, see Properties. *)
  Definition tree_fuel : nat := List.length data + 3.

  (** ReadBoxStructure: read.go:37-42 *)
  Definition read_box_structure (params : P) : M (N * St) (list V) :=
    lift_s (s_seek 0) ;;; read_structure tree_fuel true 0 [] ctx0 params.

  (** ReadBoxStructureFromInternal: read.go:44-46 *)
  Definition read_box_structure_from_internal (bi : boxinfo) (params : P) : M (N * St) V :=
    x <- box_internal (fun t p c q => read_structure tree_fuel false t p c q) bi [] params ;;
    ret (fst x).
End Read.
