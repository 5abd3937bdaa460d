(** Specification of the payload of a box: which bits a value stands for.

    A box struct is a list of fields, each with the declaration found in its
    struct tag ([finfo]) and a type.  The payload is the concatenation of the
    enabled fields, big-endian, each in its declared number of bits.  The
    functions answer [None] for a value that its declaration cannot hold. *)
From Verif Require Import Base Schema Methods.
Local Open Scope string_scope.
Local Open Scope list_scope.
Local Open Scope N_scope.

Notation fields := (list (string * val)) (only parsing).

(** ** Elementary encodings *)
Definition uint_bits (size n : N) : list bool := N_to_bits (N.to_nat size) n.
(** two's complement *)
Definition int_bits (size : N) (z : Z) : list bool := N_to_bits (N.to_nat size) (ofZ size z).
(** four groups of seven bits, each but the last announced by a one *)
Definition varint_bits (n : N) : list bool :=
  (true :: uint_bits 7 (n / 2 ^ 21)) ++ (true :: uint_bits 7 (n / 2 ^ 14)) ++
  (true :: uint_bits 7 (n / 2 ^ 7)) ++ (false :: uint_bits 7 n).
Definition bool_bits (size : N) (b : bool) : list bool := repeat b (N.to_nat size).
Definition cstring_bits (s : list byte) : list bool := bits_of_bytes (s ++ [bzero]).

Definition uint_fits (size n : N) : bool := n <? 2 ^ size.
Definition int_fits (size : N) (z : Z) : bool :=
  (1 <=? size) && (- Z.of_N (2 ^ (size - 1)) <=? z)%Z && (z <? Z.of_N (2 ^ (size - 1)))%Z.

Fixpoint concat_bits (f : val -> option (list bool)) (l : list val) : option (list bool) :=
  match l with
  | [] => Some []
  | v :: r => obind (f v) (fun b => obind (concat_bits f r) (fun c => Some (b ++ c)))
  end.

(** ** Which fields are present *)
Section Enabled.
  Variables (ver flags : N) (cname : string) (cenv : menv).
  Definition version_allows (f : finfo) : bool :=
    (ver =? anyVersion) ||
    ((f_version f =? anyVersion) || (f_version f =? ver)) &&
    ((f_nVersion f =? anyVersion) || negb (f_nVersion f =? ver)).
  Definition flags_allow (f : finfo) : bool :=
    ((f_optFlag f =? 0) || negb (N.land flags (f_optFlag f) =? 0)) &&
    ((f_nOptFlag f =? 0) || (N.land flags (f_nOptFlag f) =? 0)).
  (** [m_opt]: the rule of the box type for its optional fields *)
  Definition option_allows (f : finfo) : bool :=
    if f_optDyn f then ceval cenv (m_opt cname (f_name f)) else true.
  Definition enabled (f : finfo) : bool :=
    version_allows f && flags_allow f && option_allows f.
End Enabled.

(** avcC: the profiles with chroma and bit depth fields *)
Definition is_high_profile (n : N) : bool := existsb (N.eqb n) [100; 110; 122; 144].

(** ** The payload *)
Section Layout.
  Variable rname : string.     (* struct of the box *)
  Variable root : fields.      (* the box *)
  Variable ctx : context.

  Definition spec_env (self : fields) : menv :=
    mkenv self (get_version root) (get_flags root) ctx.
  (** the object that answers for dynamic sizes, lengths and options: the
      enclosing struct if it can, else the box *)
  Definition owner (cfo : bool) (sname : string) (self : fields) : string * menv :=
    if cfo then (sname, spec_env self) else (rname, spec_env root).

  (** [size], [len]: declared size in bits of the (element of the) field, number
      of elements *)
  Fixpoint layout_val (f : finfo) (size len : N) (t : sty) (v : val) : option (list bool) :=
    match t, v with
    | SUint w, VUint n =>
        if f_varint f then
          if (size =? 0) && uint_fits w n && uint_fits 28 n then Some (varint_bits n) else None
        else if uint_fits w n && uint_fits size n then Some (uint_bits size n) else None
    | SInt w, VInt z =>
        if negb (f_varint f) && (size <=? 64) && int_fits size z
        then Some (int_bits size z) else None
    | SBool, VBool b => if size <=? 8 then Some (bool_bits size b) else None
    | SStr, VStr s => Some (if f_boxString f then bits_of_bytes s else cstring_bits s)
    | SPtr u, VPtr (Some x) => layout_val f size len u x
    | SArr n u, VList l =>
        if lenN l =? n then concat_bits (layout_val f size len u) l else None
    | SSlice u, VList l =>
        if len =? LengthUnlimited then concat_bits (layout_val f size len u) l
        else if len <=? lenN l then concat_bits (layout_val f size len u) (takeN len l)
        else None
    | SStruct name cfo fs, VStruct l => layout_flds None name cfo l fs
    | _, _ => None
    end
  (** [top]: [Some n] in the box struct itself, after n bits; [None] in a nested
      struct.  The strings of a version 1 emsg need a byte boundary. *)
  with layout_flds (top : option N) (sname : string) (cfo : bool) (self : fields) (fs : flds)
       : option (list bool) :=
    match fs with
    | FNil => Some []
    | FCons f t rest =>
        let (cn, env) := owner cfo sname self in
        obind (resolve_size cn env f) (fun size =>
        obind (resolve_len cn env f) (fun len =>
        let plain := obind (lookup (f_name f) self) (layout_val f size len t) in
        obind
          (if enabled (get_version root) (get_flags root) cn env f then
             match hook_of cn (f_name f) with
             | HNone | HHdlrName => plain
             (* emsg: from version 1 on, the two strings come just before the data *)
             | HEmsgSkip => if get_version root =? 0 then plain else Some []
             | HEmsgData =>
                 if get_version root =? 0 then plain
                 else match top with
                      | Some n =>
                          if n mod 8 =? 0 then
                            obind plain (fun b =>
                              Some (cstring_bits (as_bytes (lookup "SchemeIdUri" self)) ++
                                    cstring_bits (as_bytes (lookup "Value" self)) ++ b))
                          else None
                      | None => None
                      end
             (* avcC: not stored; must agree with the profile *)
             | HAvcHigh =>
                 if implb (as_bool (lookup "HighProfileFieldsEnabled" self))
                          (is_high_profile (as_uint (lookup "Profile" self)))
                 then Some [] else None
             end
           else Some [])
          (fun b =>
             obind (layout_flds (option_map (fun n => n + lenN b) top) sname cfo self rest)
                   (fun r => Some (b ++ r)))))
    end.
End Layout.

(** The bits of one field, as in [layout_flds]; [plain]: the bits of its value. *)
Definition field_bits (rn : string) (root : fields) (ctx : context) (top : option N) (cn : string)
    (env : menv) (self : fields) (f : finfo) (plain : option (list bool)) : option (list bool) :=
  if enabled (get_version root) (get_flags root) cn env f then
    match hook_of cn (f_name f) with
    | HNone | HHdlrName => plain
    | HEmsgSkip => if get_version root =? 0 then plain else Some []
    | HEmsgData =>
        if get_version root =? 0 then plain
        else match top with
             | Some n =>
                 if n mod 8 =? 0 then
                   obind plain (fun b =>
                     Some (cstring_bits (as_bytes (lookup "SchemeIdUri" self)) ++
                           cstring_bits (as_bytes (lookup "Value" self)) ++ b))
                 else None
             | None => None
             end
    | HAvcHigh =>
        if implb (as_bool (lookup "HighProfileFieldsEnabled" self))
                 (is_high_profile (as_uint (lookup "Profile" self)))
        then Some [] else None
    end
  else Some [].

(** The payload of a box: struct name, fields, context, value. *)
Definition layout (name : string) (fs : flds) (ctx : context) (v : fields) : option (list bool) :=
  layout_flds name v ctx (Some 0) name true v fs.
