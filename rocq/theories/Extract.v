(** Model of extract.go (and BoxPath of read.go). *)
From Verif Require Import Base Schema Structs Registry Unmarshal BoxInfo ReadTree.
Local Open Scope string_scope.
Local Open Scope list_scope.
Local Open Scope N_scope.
Local Open Scope monad_scope.

(** compareWith: read.go:11-24: (forwardMatch, match) *)
Fixpoint compare_with (lhs rhs : path) : bool * bool :=
  match lhs, rhs with
  | [], [] => (false, true)
  | [], _ :: _ => (true, false)
  | _ :: _, [] => (false, false)
  | a :: l, b :: r => if match_with a b then compare_with l r else (false, false)
  end.

(** matchPath: extract.go:91-98 *)
Definition match_path (paths : list path) (p : path) : bool * bool :=
  fold_left (fun acc q => let (fm, m) := compare_with p q in (fst acc || fm, snd acc || m))
            paths (false, false).

(** the handler of ExtractBoxes: extract.go:62-81.  The state is the list of
    boxes found so far. *)
Definition extract_handler (has_parent : bool) (paths : list path)
  : handler_t (list boxinfo) unit unit :=
  fun bi pth _ boxes =>
    let p := if has_parent then tl pth else pth in
    if bt_eqb (bi_type bi) bt_any then HRet boxes tt
    else
      let (fm, m) := match_path paths p in
      let boxes1 := if m then boxes ++ [bi] else boxes in
      if fm then
        HExpand boxes1 tt (fun r s => match r with
                                      | Err e => HFail s e
                                      | _ => HRet s tt end)
      else HRet boxes1 tt.

Section Extract.
  Variable R : registry.
  Variable data : list byte.

  (** ExtractBoxes: extract.go:49-89.  Result of the call, and the boxes
      collected (Go returns them along with the error). *)
  Definition extract_boxes (parent : option boxinfo) (paths : list path)
    : M N (list boxinfo) := fun pos =>
    match paths with
    | [] => (Ok [], pos)
    | _ =>
        if existsb (fun p => match p with [] => true | _ => false end) paths
        then (Err (EMsg "box path must not be empty"), pos)
        else
          let fin {A} (x : res A * (N * list boxinfo)) : res (list boxinfo) * N :=
            match x with
            | (Ok _, (p, bs)) => (Ok bs, p)
            | (Err e, (p, _)) => (Err e, p)
            | (Panic, (p, _)) => (Panic, p)
            | (OutOfFuel, (p, _)) => (OutOfFuel, p)
            end in
          match parent with
          | Some bi => fin (read_box_structure_from_internal R data (extract_handler true paths) bi tt (pos, []))
          | None => fin (read_box_structure R data (extract_handler false paths) tt (pos, []))
          end
    end.
  (** ExtractBox: extract.go:45-47 *)
  Definition extract_box (parent : option boxinfo) (p : path) := extract_boxes parent [p].

  (** ExtractBoxesWithPayload: extract.go:17-43 *)
  Fixpoint payloads (ctx : context) (bis : list boxinfo)
    : M N (list (boxinfo * (boxdef * list (string * val)))) :=
    match bis with
    | [] => ret []
    | bi :: r =>
        seek_to_payload bi ;;;
        x <- unmarshal_any R data (bi_type bi) (payload_size bi) ctx ;;
        xs <- payloads ctx r ;;
        ret ((bi, fst x) :: xs)
    end.
  Definition extract_boxes_with_payload (parent : option boxinfo) (paths : list path)
    : M N (list (boxinfo * (boxdef * list (string * val)))) :=
    bis <- extract_boxes parent paths ;;
    payloads (match parent with Some bi => bi_ctx bi | None => ctx0 end) bis.
  (** ExtractBoxWithPayload: extract.go:13-15 *)
  Definition extract_box_with_payload (parent : option boxinfo) (p : path) :=
    extract_boxes_with_payload parent [p].
End Extract.
