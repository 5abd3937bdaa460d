(** Specification of the plain box types: integers, one-bit booleans, arrays,
    lists and structs of those.  No strings, no variable length integers, and
    none of the box types with a special reader (emsg, hdlr) or a
    BeforeUnmarshal (meta). *)
From Verif Require Import Base Schema Methods Registry.
Local Open Scope string_scope.
Local Open Scope list_scope.
Local Open Scope N_scope.

Fixpoint plain_val (f : finfo) (t : sty) : bool :=
  match t with
  | SUint _ => negb (f_varint f)
  | SInt _ => true
  (* avcC's HighProfileFieldsEnabled is not stored at all *)
  | SBool => negb (f_sizeDyn f) && (f_size f =? 1) || String.eqb (f_name f) "HighProfileFieldsEnabled"
  | SStr => false
  | SArr _ u | SSlice u | SPtr u => plain_val f u
  | SStruct _ _ fs => plain_flds fs
  end
with plain_flds (fs : flds) : bool :=
  match fs with FNil => true | FCons f t r => plain_val f t && plain_flds r end.

Definition plain_box (d : boxdef) : bool :=
  negb (str_in (bd_name d) ["Emsg"; "Hdlr"; "Meta"]) &&
  plain_flds (bd_flds d).
