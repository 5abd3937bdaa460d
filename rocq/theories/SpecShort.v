(** Specification: a box value in which a list has fewer elements than the
    count that the box declares for it. *)
From Verif Require Import Base Schema Methods Registry SpecCodec.
Local Open Scope string_scope.
Local Open Scope list_scope.
Local Open Scope N_scope.

Section Short.
  Variable deep : bool.        (* look also at lists inside the elements of lists *)
  Variable rname : string.     (* struct of the box *)
  Variable root : list (string * val).
  Variable ctx : context.

  (** [len]: the declared count of the field.  The count 2^32-1 stands for a list
      without a declared count. *)
  Fixpoint short_val (f : finfo) (len : N) (t : sty) (v : val) : bool :=
    match t, v with
    | SSlice u, VList l =>
        negb (len =? LengthUnlimited) && (lenN l <? len) ||
        deep && existsb (short_val f len u) l
    | SArr _ u, VList l => existsb (short_val f len u) l
    | SPtr u, VPtr (Some x) => short_val f len u x
    | SStruct name cfo fs, VStruct l => short_flds name cfo l fs
    | _, _ => false
    end
  with short_flds (sname : string) (cfo : bool) (self : list (string * val)) (fs : flds) : bool :=
    match fs with
    | FNil => false
    | FCons f t rest =>
        let (cn, env) := owner rname root ctx cfo sname self in
        match enabled (get_version root) (get_flags root) cn env f, resolve_len cn env f,
              lookup (f_name f) self with
        | true, Some len, Some v => short_val f len t v
        | _, _, _ => false
        end || short_flds sname cfo self rest
    end.
End Short.

Definition short_box (deep : bool) (d : boxdef) (ctx : context) (v : list (string * val)) : bool :=
  short_flds deep (bd_name d) v ctx (bd_name d) true v (bd_flds d).
