(** Specification: how many list elements and string bytes a decoded value holds.
    (Arrays of a fixed length, and the structs themselves, have the size that
    their Go type says, whatever the payload is.) *)
From Verif Require Import Base Schema.
Local Open Scope list_scope.
Local Open Scope N_scope.

Definition sumN (l : list N) : N := fold_right N.add 0 l.

Fixpoint elems (t : sty) (v : val) : N :=
  match t, v with
  | SStr, VStr s => lenN s
  | SSlice u, VList l => lenN l + sumN (map (elems u) l)
  | SArr _ u, VList l => sumN (map (elems u) l)
  | SPtr u, VPtr (Some x) => elems u x
  | SStruct _ _ fs, VStruct l => elems_flds fs l
  | _, _ => 0
  end
with elems_flds (fs : flds) (l : list (string * val)) : N :=
  match fs with
  | FNil => 0
  | FCons f t r =>
      match lookup (f_name f) l with Some v => elems t v | None => 0 end + elems_flds r l
  end.
