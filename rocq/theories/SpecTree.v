(** Specification of box files: trees of boxes, the bytes they stand for, and
    what a traversal of a tree does. *)
From Verif Require Import Base Schema Structs Registry Unmarshal BoxInfo ReadTree.
Local Open Scope string_scope.
Local Open Scope list_scope.
Local Open Scope N_scope.

(** ** Box trees.  The payload of a box consists of its own fields, of the boxes
    it contains, and of at most 7 stray bytes (some QuickTime files have them). *)
Inductive form := Small | Large | ToEnd.     (* 32-bit size, 64-bit size, size 0 *)
Inductive box := Box (f : form) (t : btype) (own : list byte) (kids : list box) (slack : list byte).

Definition hsize (f : form) : N := match f with Large => 16 | _ => 8 end.
Definition box_form (b : box) : form := match b with Box f _ _ _ _ => f end.
Definition box_type (b : box) : btype := match b with Box _ t _ _ _ => t end.

Definition header (f : form) (t : btype) (payload_size : N) : list byte :=
  match f with
  | Small => N_to_be 4 (8 + payload_size) ++ t
  | Large => N_to_be 4 1 ++ t ++ N_to_be 8 (16 + payload_size)
  | ToEnd => N_to_be 4 0 ++ t
  end.
Fixpoint box_bytes (b : box) : list byte :=
  match b with
  | Box f t own kids slack =>
      let payload := own ++ flat_map box_bytes kids ++ slack in
      header f t (lenN payload) ++ payload
  end.
Definition payload (b : box) : list byte :=
  match b with Box _ _ own kids slack => own ++ flat_map box_bytes kids ++ slack end.
Definition box_size (b : box) : N := lenN (box_bytes b).
Definition file_bytes (ts : list box) : list byte := flat_map box_bytes ts.

(** [last]: the box ends where the file ends (needed for a box of size 0) *)
Fixpoint box_wf (last : bool) (b : box) {struct b} : Prop :=
  match b with
  | Box f t own kids slack =>
      lenN t = 4 /\ lenN slack < 8 /\
      (f = Small -> 8 + lenN (payload b) < 2 ^ 32) /\
      (f = ToEnd -> last = true) /\
      (fix all (l : list box) : Prop :=
         match l with
         | [] => True
         | [k] => box_wf (last && match slack with [] => true | _ => false end) k
         | k :: r => box_wf false k /\ all r
         end) kids
  end.
Fixpoint list_wf (last : bool) (l : list box) : Prop :=
  match l with
  | [] => True
  | [k] => box_wf last k
  | k :: r => box_wf false k /\ list_wf last r
  end.

(** ** The context of a box: where it is in the tree.  [base]: the context the
    traversal starts with; [anc]: the types of the enclosing boxes, outermost
    first; [qt], [keys]: what the ftyp and keys boxes passed so far said. *)
Definition among (t : string) (anc : list btype) : bool := existsb (bt_eqb (bt t)) anc.
(** the outermost enclosing metadata item that is inside an ilst box *)
Fixpoint ilst_item (in_ilst : bool) (anc : list btype) : option btype :=
  match anc with
  | [] => None
  | t :: r => if in_ilst && is_ilst_meta t then Some t else ilst_item (in_ilst || bt_eqb t (bt "ilst")) r
  end.
Definition ctx_of (base : context) (qt : bool) (keys : Z) (anc : list btype) : context :=
  let item := if UnderIlstMeta base then None else ilst_item (UnderIlst base) anc in
  mkctx qt keys
    (UnderWave base || among "wave" anc)
    (UnderIlst base || among "ilst" anc)
    (UnderIlstMeta base || match item with Some _ => true | None => false end)
    (UnderIlstFreeMeta base || match item with Some t => bt_eqb t (bt "----") | None => false end)
    (UnderUdta base || among "udta" anc).

(** ** The traversal, on the tree *)
Section Walk.
  Variable data : list byte.     (* the file *)
  Variable base : context.
  Context {St V P : Type}.
  Variable handler : handler_t St V P.

  (** what UnmarshalAny says about the payload of the box [b] at offset [o] *)
  Definition decoded (c : context) (o : N) (b : box) : res (boxdef * list (string * val) * N) :=
    fst (unmarshal_any std_registry data (box_type b) (lenN (payload b)) c (o + hsize (box_form b))).

  (** what a box tells about itself and the boxes after it: an ftyp at the top
      level whether this is a QuickTime file, a keys box the number of keys *)
  Definition enter (anc : list btype) (qt : bool) (keys : Z) (o : N) (b : box) : res (bool * Z) :=
    match (if bt_eqb (box_type b) (bt "ftyp") && (match anc with [] => true | _ => false end)
           then match decoded (ctx_of base qt keys anc) o b with
                | Ok (_, x, _) => Ok (qt || has_compatible_brand x brand_qt)
                | Err e => Err e | Panic => Panic | OutOfFuel => OutOfFuel
                end
           else Ok qt) with
    | Ok qt' =>
        if bt_eqb (box_type b) (bt "keys")
        then match decoded (ctx_of base qt' keys anc) o b with
             | Ok (_, x, _) => Ok (qt', as_Z (lookup "EntryCount" x))
             | Err e => Err e | Panic => Panic | OutOfFuel => OutOfFuel
             end
        else Ok (qt', keys)
    | Err e => Err e | Panic => Panic | OutOfFuel => OutOfFuel
    end.

  (** One call of the handler.  [None]: the handler made a payload be decoded on
      which the decoder panics or does not stop, or expanded a box whose
      definition does not end where the contained boxes begin. *)
  Fixpoint run (dec : res (boxdef * list (string * val) * N)) (own_size : N) (bytes : list byte)
      (children : P -> St -> option (res (list V) * St)) (p : hprog St V P) : option (res V * St) :=
    match p with
    | HRet s v => Some (Ok v, s)
    | HFail s e => Some (Err e, s)
    | HReadPayload k =>
        match dec with
        | Ok _ | Err _ => run dec own_size bytes children (k dec)
        | _ => None
        end
    | HReadData k => run dec own_size bytes children (k (Ok (bytes, lenN bytes)))
    | HExpand s q k =>
        match dec with
        | Ok (_, _, n) =>
            if n =? own_size then
              match children q s with
              | Some (r, s') => run dec own_size bytes children (k r s')
              | None => None
              end
            else None
        | Err e => run dec own_size bytes children (k (Err e) s)
        | _ => None
        end
    | HMove _ k => run dec own_size bytes children k
    end.

  (** one box at offset [o]: its result, and what it told *)
  Fixpoint walk_box (anc : list btype) (qt : bool) (keys : Z) (o : N) (b : box) (params : P) (s : St)
      {struct b} : option (res (V * (bool * Z)) * St) :=
    match enter anc qt keys o b with
    | Err e => Some (Err e, s)
    | Panic | OutOfFuel => None
    | Ok (qt', keys') =>
        match b with
        | Box f t own kids slack =>
            let c := ctx_of base qt' keys' anc in
            let bi := mkbi o (box_size b) (hsize f) t (match f with ToEnd => true | _ => false end) c in
            let children (q : P) (s : St) :=
              (fix walk_kids (keys : Z) (o : N) (l : list box) (s : St) {struct l}
                 : option (res (list V) * St) :=
                 match l with
                 | [] =>
                     Some ((match slack with [] => Ok [] | _ => if qt' then Ok [] else Err (EMsg "unexpected EOF") end), s)
                 | k :: r =>
                     match walk_box (anc ++ [t]) qt' keys o k q s with
                     | Some (Ok (v, (_, keys1)), s1) =>
                         match walk_kids keys1 (o + box_size k) r s1 with
                         | Some (Ok vs, s2) => Some (Ok (v :: vs), s2)
                         | x => x
                         end
                     | Some (Err e, s1) => Some (Err e, s1)
                     | _ => None
                     end
                 end) keys' (o + hsize f + lenN own) kids s in
            match run (decoded c o b) (lenN own) (payload b) children (handler bi (anc ++ [t]) params s) with
            | Some (Ok v, s') => Some (Ok (v, (qt', keys')), s')
            | Some (Err e, s') => Some (Err e, s')
            | _ => None
            end
        end
    end.

  (** the boxes of a file *)
  Fixpoint walk_file (qt : bool) (keys : Z) (o : N) (l : list box) (params : P) (s : St)
    : option (res (list V) * St) :=
    match l with
    | [] => Some (Ok [], s)
    | b :: r =>
        match walk_box [] qt keys o b params s with
        | Some (Ok (v, (qt1, keys1)), s1) =>
            match walk_file qt1 keys1 (o + box_size b) r params s1 with
            | Some (Ok vs, s2) => Some (Ok (v :: vs), s2)
            | x => x
            end
        | Some (Err e, s1) => Some (Err e, s1)
        | _ => None
        end
    end.
End Walk.
