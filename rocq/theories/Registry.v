(** Model of mp4.go: box types, box definitions, lookup. *)
From Verif Require Import Base Schema Structs.
Local Open Scope string_scope.
Local Open Scope list_scope.
Local Open Scope N_scope.

(** BoxType: mp4.go:13-14; a list of four bytes *)
Definition btype := list byte.
Definition bt (s : string) : btype := bytes_of_string s.
Definition bt_eqb (a b : btype) : bool := bytes_eqb a b.

(** boxTypeAny, MatchWith: mp4.go:47-58 *)
Definition bt_any : btype := [bzero; bzero; bzero; bzero].
Definition match_with (a b : btype) : bool :=
  bt_eqb a bt_any || bt_eqb b bt_any || bt_eqb a b.

(** Context predicates used in registrations: box_types_metadata.go:95-97,
    124-126, 193-195; box_types_iso14496_12.go:2450-2452 *)
Definition pred_holds (p : pred) (c : context) : bool :=
  match p with
  | PAlways => true
  | PUnderUdta => UnderUdta c
  | PIlstMetaContainer => UnderIlst c && negb (UnderIlstMeta c)
  | PUnderIlstMeta => UnderIlstMeta c
  | PUnderIlstFree => UnderIlstFreeMeta c
  end.

(** boxDef: mp4.go:60-65 (dataType and fields together) *)
Record boxdef : Set := mkdef {
  bd_name : string;          (* name of the Go struct *)
  bd_flds : flds;            (* buildFields(payload) *)
  bd_any : bool;             (* the struct implements IAnyType *)
  bd_pred : pred;
  bd_versions : list N
}.
Definition registry := list (btype * boxdef).   (* registration order *)

Definition def_of_type (t : gty) (any : bool) (p : pred) (vs : list N) : option boxdef :=
  match compile t with
  | Some (SStruct name _ fs) => Some (mkdef name fs any p vs)
  | _ => None
  end.

(** AddBoxDef, AddBoxDefEx, AddAnyTypeBoxDef, AddAnyTypeBoxDefEx: mp4.go:67-101.
    boxMap is one list in registration order instead of a map of lists. *)
Definition add_box_def (R : registry) (t : btype) (d : boxdef) : registry := R ++ [(t, d)].

(** itemBoxFields and the definition made up for numbered items: mp4.go:103, 113-121 *)
Definition item_def : boxdef :=
  Eval vm_compute in
  match def_of_type t_Item true PIlstMetaContainer [] with
  | Some d => d | None => mkdef "" FNil false PAlways [] end.

(** getBoxDef: mp4.go:105-124 *)
Fixpoint find_def (t : btype) (c : context) (rev_R : registry) : option boxdef :=
  match rev_R with
  | [] => None
  | (t', d) :: r => if bt_eqb t t' && pred_holds (bd_pred d) c then Some d else find_def t c r
  end.
Definition get_box_def (R : registry) (t : btype) (c : context) : option boxdef :=
  match find_def t c (rev R) with
  | Some d => Some d
  | None =>
      if UnderIlst c then
        let id := Z.of_N (be_to_N t) in
        if (1 <=? id)%Z && (id <=? QuickTimeKeysMetaEntryCount c)%Z then Some item_def else None
      else None
  end.

(** IsSupported: mp4.go:126-128 *)
Definition is_supported (R : registry) (t : btype) (c : context) : bool :=
  match get_box_def R t c with Some _ => true | None => false end.
(** GetSupportedVersions: mp4.go:149-155 *)
Definition get_supported_versions (R : registry) (t : btype) (c : context) : res (list N) :=
  match get_box_def R t c with Some d => Ok (bd_versions d) | None => Err ENotFound end.
(** IsSupportedVersion: mp4.go:157-171 *)
Definition version_in (vs : list N) (v : N) : bool :=
  match vs with [] => true | _ => existsb (N.eqb v) vs end.
Definition is_supported_version (R : registry) (t : btype) (v : N) (c : context) : bool :=
  match get_box_def R t c with Some d => version_in (bd_versions d) v | None => false end.
(** New: mp4.go:130-147: a zero value of the definition's struct *)
Definition new_box (R : registry) (t : btype) (c : context) : res (boxdef * list (string * val)) :=
  match get_box_def R t c with
  | Some d => Ok (d, zero_flds (bd_flds d))
  | None => Err ENotFound
  end.

(** The registrations performed by the package's init functions. *)
Definition build_registry (l : list regdef) : option registry :=
  fold_right (fun r acc =>
    match def_of_type (rg_ty r) (rg_any r) (rg_pred r) (rg_versions r), acc with
    | Some d, Some rest => Some ((rg_type r, d) :: rest)
    | _, _ => None end) (Some []) l.
Definition std_registry : registry :=
  Eval vm_compute in match build_registry registrations with Some R => R | None => [] end.
