(** Model of marshaller.go, writing side. *)
From Verif Require Import Base BitIO Schema Methods Registry.
Local Open Scope string_scope.
Local Open Scope list_scope.
Local Open Scope N_scope.
Local Open Scope monad_scope.

(** marshaller: marshaller.go:39-44; src and ctx are parameters below *)
Record mst := mkmst { m_w : wst; m_wbits : N }.

Definition lift_w {A} (m : M wst A) : M mst A := fun s =>
  let (r, w) := m (m_w s) in (r, mkmst w (m_wbits s)).
Definition add_wbits (n : N) : M mst unit := fun s => (Ok tt, mkmst (m_w s) (m_wbits s + n)).

(** WriteBits of one byte followed by m.wbits += size, as all the callers do *)
Definition put_bits (b : byte) (size : N) : M mst unit :=
  lift_w (write_bits [b] size) ;;; add_wbits size.

(** the byte index loop shared by marshalInt and marshalUint:
    for i := 0; i < fi.size; i += 8.  [adj first size v] is the sign treatment *)
Definition put_chunks (size val : N) (adj : bool -> N -> N -> N) : M mst N :=
  loopN ((size + 7) / 8) (fun i =>
    let v := if i + 8 <? size then N.shiftr val (size - (i + 8)) else val in
    let sz := if size <? i + 8 then size - i else 8 in
    put_bits (N2b (adj (i =? 0) sz v)) sz ;;; ret (i + 8)) 0.

(** marshalUint: marshaller.go:195-218; writeUvarint: 253-267.  The error of
    writeUvarint is dropped by marshalUint. *)
Definition ignore_err {A} (m : M mst A) : M mst unit := fun s =>
  match m s with
  | (Ok _, s') => (Ok tt, s')
  | (Err _, s') => (Ok tt, s')
  | (Panic, s') => (Panic, s')
  | (OutOfFuel, s') => (OutOfFuel, s')
  end.
Definition write_uvarint (u : N) : M mst unit :=
  put_bits (N2b (N.lor (N.shiftr u 21 mod 256) 128)) 8 ;;;
  put_bits (N2b (N.lor (N.shiftr u 14 mod 256) 128)) 8 ;;;
  put_bits (N2b (N.lor (N.shiftr u 7 mod 256) 128)) 8 ;;;
  put_bits (N2b (N.land u 127)) 8.
Definition marshal_uint (varint : bool) (size val : N) : M mst unit :=
  if varint then ignore_err (write_uvarint val)
  else put_chunks size val (fun _ _ v => v) ;;; ret tt.

(** marshalInt: marshaller.go:159-193 *)
Definition marshal_int (varint : bool) (size : N) (z : Z) : M mst unit :=
  if varint then fail (EMsg "signed varint is unsupported")
  else
    let sign := (z <? 0)%Z in
    put_chunks size (ofZ 64 z) (fun first sz v =>
      if first then
        if sign then N.lor v (2 ^ (sz - 1)) else N.land v (2 ^ (sz - 1) - 1)
      else v) ;;; ret tt.

(** marshalBool: marshaller.go:220-232 *)
Definition marshal_bool (size : N) (b : bool) : M mst unit :=
  put_bits (if b then N2b 255 else N2b 0) size.

(** marshalString: marshaller.go:234-251 *)
Fixpoint put_bytes (l : list byte) : M mst unit :=
  match l with
  | [] => ret tt
  | b :: r => put_bits b 8 ;;; put_bytes r
  end.
Definition marshal_string (boxstring : bool) (s : list byte) : M mst unit :=
  put_bytes s ;;; (if boxstring then ret tt else put_bits bzero 8).

Fixpoint iter_list (f : val -> M mst unit) (l : list val) : M mst unit :=
  match l with
  | [] => ret tt
  | v :: r => f v ;;; iter_list f r
  end.

Definition is_u8 (t : sty) : bool := match t with SUint 8 => true | _ => false end.

(** OnWriteField: box.go:70-72 and the overrides cited in Methods.hook.
    Returns wbits and override. *)
Definition util_write_string (s : list byte) : M mst unit :=   (* internal/util/io.go:22-30 *)
  lift_w (wr_write s) ;;; lift_w (wr_write [bzero]).
Definition high_profile (n : N) : bool := (n =? 100) || (n =? 110) || (n =? 122) || (n =? 144).
Definition on_write (h : hook) (ver : N) (self : list (string * val)) : M mst (N * bool) :=
  match h with
  | HNone => ret (0, false)
  | HEmsgSkip => ret (0, negb (ver =? 0))
  | HEmsgData =>
      if ver =? 0 then ret (0, false)
      else
        let a := as_bytes (lookup "SchemeIdUri" self) in
        let b := as_bytes (lookup "Value" self) in
        util_write_string a ;;; util_write_string b ;;;
        ret ((lenN a + lenN b + 2) * 8, false)
  | HHdlrName => ret (0, false)
  | HAvcHigh =>
      if as_bool (lookup "HighProfileFieldsEnabled" self)
         && negb (high_profile (as_uint (lookup "Profile" self)))
      then fail (EMsg "each values of Profile and HighProfileFieldsEnabled are inconsistent")
      else ret (0, true)
  end.

Section Marshal.
  (** the box being written: struct name, value, context *)
  Variable rname : string.
  Variable root : list (string * val).
  Variable ctx : context.

  Definition root_env : menv := mkenv root (get_version root) (get_flags root) ctx.
  (** custom field object of a struct: field.go:263-268.  (Methods of nested
      structs never ask for the version, so the environment of a nested struct
      keeps the version of the box.) *)
  Definition cfo_env (cfo : bool) (self : list (string * val)) : menv :=
    if cfo then mkenv self (get_version root) (get_flags root) ctx else root_env.
  Definition cfo_name (cfo : bool) (sname : string) : string := if cfo then sname else rname.

  (** marshal: marshaller.go:71-92 and the functions it dispatches to.  A value
      that does not have the shape of its type cannot exist in Go; the model
      answers [Panic] there. *)
  Fixpoint marshal_val (f : finfo) (size len : N) (t : sty) (v : val) : M mst unit :=
    match t with
    | SUint _ => match v with VUint n => marshal_uint (f_varint f) size n | _ => panic end
    | SInt _ => match v with VInt z => marshal_int (f_varint f) size z | _ => panic end
    | SBool => match v with VBool b => marshal_bool size b | _ => panic end
    | SStr => match v with VStr s => marshal_string (f_boxString f) s | _ => panic end
    (* marshalPtr: :94-96; a nil pointer panics in v.Elem().Type() *)
    | SPtr u => match v with VPtr (Some x) => marshal_val f size len u x | _ => panic end
    (* marshalArray: :124-133 *)
    | SArr _ u => match v with VList l => iter_list (marshal_val f size len u) l | _ => panic end
    (* marshalSlice: :135-157; the errors of the elements are dropped *)
    | SSlice u =>
        match v with
        | VList l =>
            if negb (len =? LengthUnlimited) && (lenN l <? len)
            then fail (EMsg "the slice has too few elements")
            else
              let length := if len =? LengthUnlimited then lenN l else len in
              fun s =>
              if is_u8 u && (size =? 8) && (m_wbits s mod 8 =? 0) then
                (lift_w (wr_copy (map (fun x => N2b (as_uint (Some x))) (takeN length l))) ;;;
                 add_wbits (length * 8)) s
              else iter_list (fun x => ignore_err (marshal_val f size len u x)) (takeN length l) s
        | _ => panic
        end
    | SStruct name cfo fs =>
        match v with VStruct l => marshal_flds name cfo l fs | _ => panic end
    end
  (** marshalStruct: marshaller.go:98-122 *)
  with marshal_flds (sname : string) (cfo : bool) (self : list (string * val)) (fs : flds)
       : M mst unit :=
    match fs with
    | FNil => ret tt
    | FCons f t rest =>
        let env := cfo_env cfo self in
        let cn := cfo_name cfo sname in
        match resolve_size cn env f, resolve_len cn env f with
        | Some size, Some len =>
            (if is_target (get_version root) (get_flags root) cn env f then
               wo <- on_write (hook_of cn (f_name f)) (get_version root) self ;;
               add_wbits (fst wo) ;;;
               (if snd wo then ret tt
                else match lookup (f_name f) self with
                     | Some v => marshal_val f size len t v
                     | None => panic
                     end)
             else ret tt) ;;;
            marshal_flds sname cfo self rest
        | _, _ => panic
        end
    end.
End Marshal.

(** Marshal: marshaller.go:46-69.  Result: the byte count, and what reached the
    writer (also when an error is returned). *)
Definition marshal_def (d : boxdef) (ctx : context) (v : list (string * val)) (faults : list bool)
  : res N * list byte :=
  match marshal_flds (bd_name d) v ctx (bd_name d) true v (bd_flds d) (mkmst (new_writer faults) 0) with
  | (Ok _, s) =>
      ((if m_wbits s mod 8 =? 0 then Ok (m_wbits s / 8)
        else Err (EMsg "box size is not multiple of 8 bits")), w_out (m_w s))
  | (Err e, s) => (Err e, w_out (m_w s))
  | (Panic, s) => (Panic, w_out (m_w s))
  | (OutOfFuel, s) => (OutOfFuel, w_out (m_w s))
  end.
Definition marshal (R : registry) (t : btype) (ctx : context) (v : list (string * val))
           (faults : list bool) : res N * list byte :=
  match get_box_def R t ctx with
  | None => (Err ENotFound, [])
  | Some d => marshal_def d ctx v faults
  end.
