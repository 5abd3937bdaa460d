(** The values a Go variable of a given type can hold, as far as their form goes:
    what a box that has been used before may contain. *)
From Verif Require Import Base Schema Methods Registry SpecCodec.
Local Open Scope list_scope.
Local Open Scope N_scope.

Fixpoint go_value (t : sty) (v : val) : Prop :=
  match t with
  | SUint _ => exists n, v = VUint n
  | SInt _ => exists z, v = VInt z
  | SBool => exists b, v = VBool b
  | SStr => exists s, v = VStr s
  | SArr n u => exists l, v = VList l /\ lenN l = n /\ Forall (go_value u) l
  | SSlice u => exists l, v = VList l /\ Forall (go_value u) l
  | SPtr u => v = VPtr None \/ exists x, v = VPtr (Some x) /\ go_value u x
  | SStruct _ _ fs => exists l, v = VStruct l /\ go_struct fs l
  end
(** one value for each field, in the order of declaration *)
with go_struct (fs : flds) (l : list (string * val)) : Prop :=
  match fs, l with
  | FNil, [] => True
  | FCons f t r, (n, v) :: m => n = f_name f /\ go_value t v /\ go_struct r m
  | _, _ => False
  end.

Fixpoint finfos (fs : flds) : list finfo := match fs with FNil => [] | FCons f _ r => f :: finfos r end.

(** A field of a box after Unmarshal: into a fresh box that held [fresh], which
    gave [y], and into a used one that held [used], which gave [x].  A field that
    the payload contains is the same in both.  One that it does not contain is
    what it was before. *)
Definition left_or_read (d : boxdef) (ctx : context) (fresh used y x : list (string * val)) (f : finfo) : Prop :=
  if enabled (get_version y) (get_flags y) (bd_name d) (mkenv y (get_version y) (get_flags y) ctx) f
  then lookup (f_name f) y = lookup (f_name f) x
  else lookup (f_name f) y = lookup (f_name f) fresh /\ lookup (f_name f) x = lookup (f_name f) used.
