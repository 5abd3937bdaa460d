(** Specification of the decoded boxes that are the same after being written and
    read once more. *)
From Verif Require Import Base Schema Methods Registry SpecRoundTrip.
Local Open Scope string_scope.
Local Open Scope list_scope.
Local Open Scope N_scope.

(** Every integer of variable length is below 2^28: they are written as four
    groups of seven bits (bitio writer of this package), while any number of
    groups is read. *)
Fixpoint varints_fit (f : finfo) (t : sty) (v : val) : bool :=
  match t, v with
  | SUint _, VUint n => negb (f_varint f) || (n <? 2 ^ 28)
  | SPtr u, VPtr (Some x) => varints_fit f u x
  | SArr _ u, VList l => forallb (varints_fit f u) l
  | SSlice u, VList l => forallb (varints_fit f u) l
  | SStruct _ _ fs, VStruct l => varints_fit_flds fs l
  | _, _ => true
  end
with varints_fit_flds (fs : flds) (l : list (string * val)) : bool :=
  match fs with
  | FNil => true
  | FCons f t r =>
      match lookup (f_name f) l with Some v => varints_fit f t v | None => true end && varints_fit_flds r l
  end.

(** A handler name is written with a NUL at its end and no length.  It must not
    contain a NUL and, where the box is of QuickTime style (PreDefined is not 0),
    must not begin with its own length. *)
Definition name_fits (x : list (string * val)) : bool :=
  match lookup "Name" x with
  | Some (VStr s) =>
      no_nul s &&
      ((as_uint (lookup "PreDefined" x) =? 0) ||
       match s with [] => true | c :: _ => negb (b2N c =? lenN s) || (b2N c =? 255) end)
  | _ => false
  end.

Definition rewritable (d : boxdef) (x : list (string * val)) : bool :=
  varints_fit_flds (bd_flds d) x &&
  (negb (String.eqb (bd_name d) "Hdlr") || name_fits x).
