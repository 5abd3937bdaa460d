(** Model of marshaller.go, reading side. *)
From Verif Require Import Base BitIO Schema Methods Registry Marshal.
Local Open Scope string_scope.
Local Open Scope list_scope.
Local Open Scope N_scope.
Local Open Scope monad_scope.

(** unmarshaller: marshaller.go:269-275.  [u.size] is a parameter of the
    functions below.  rbits is not reduced modulo 2^64: every increment is
    matched by bits taken from the stream, so it stays below 8 times the length
    of the stream, which Go's int64 offsets keep far from 2^64 in practice. *)
Record ust := mkust { u_r : rst; u_rbits : N }.

Definition lift_r {A} (m : M rst A) : M ust A := fun s =>
  let (r, x) := m (u_r s) in (r, mkust x (u_rbits s)).
Definition add_rbits (n : N) : M ust unit := fun s => (Ok tt, mkust (u_r s) (u_rbits s + n)).
Definition get_rbits : M ust N := fun s => (Ok (u_rbits s), s).

(** Largest allocation the Go runtime accepts; [make] beyond it panics. *)
Definition maxAlloc : N := 281474976710656.

Section Unmarshal.
  Variable data : list byte.

  (** bound for loops that end with the data *)
  Definition loop_fuel : positive := N.succ_pos (8 * lenN data + 8).

  (** readerHasSize: marshaller.go:20-37.  When the size is missing the stream
      is left at its end. *)
  Definition reader_has_size (size : N) : M rst bool := fun s =>
    match seek_cur0 s with
    | (Ok pre, s1) =>
        match seek_end data s1 with
        | (Ok e, s2) =>
            if sub64 e pre <? size then (Ok false, s2)
            else match seek_start pre s2 with
                 | (Ok _, s3) => (Ok true, s3)
                 | (_, s3) => (Ok false, s3)
                 end
        | (_, s2) => (Ok false, s2)
        end
    | (_, s1) => (Ok false, s1)
    end.

  (** ReadBits + u.rbits += size *)
  Definition take_bits (size : N) : M ust (list byte) :=
    d <- lift_r (read_bits data size) ;; add_rbits size ;;; ret d.

  (** val <<= 8; val |= data[i] over a uint64 *)
  Definition be_fold64 (init : N) (l : list byte) : N :=
    fold_left (fun v b => w64 (256 * v + b2N b)) l init.

  (** readUvarint: marshaller.go:645-660 *)
  Definition read_uvarint : M ust N :=
    while loop_fuel (fun val =>
      o <- take_bits 8 ;;
      let b := be_to_N o in
      let val' := w64 (w64 (128 * val) + b mod 128) in
      ret (if b <? 128 then inr val' else inl val')) 0.

  (** unmarshalUint: marshaller.go:513-541 *)
  Definition unmarshal_uint (w : N) (varint : bool) (size : N) : M ust val :=
    if varint then v <- read_uvarint ;; ret (VUint (v mod 2 ^ w))
    else if size =? 0 then fail (EMsg "size must not be zero")
    else d <- take_bits size ;; ret (VUint (be_fold64 0 d mod 2 ^ w)).

  (** unmarshalInt: marshaller.go:477-511 *)
  Definition unmarshal_int (w : N) (varint : bool) (size : N) : M ust val :=
    if varint then fail (EMsg "signed varint is unsupported")
    else if size =? 0 then fail (EMsg "size must not be zero")
    else
      d <- take_bits size ;;
      let mask := 2 ^ ((size - 1) mod 8) in
      let '(sign, d') :=
        match d with
        | [] => (false, [])
        | b :: r => if negb (N.land (b2N b) mask =? 0)
                    then (true, N2b (N.lor (b2N b) (255 - (mask - 1))) :: r)
                    else (false, d)
        end in
      let v := be_fold64 (if sign then W64 - 1 else 0) d' in
      ret (VInt (toZ w v)).

  (** unmarshalBool: marshaller.go:543-561 *)
  Definition unmarshal_bool (size : N) : M ust val :=
    if size =? 0 then fail (EMsg "size must not be zero")
    else d <- take_bits size ;; ret (VBool (existsb (fun b => negb (b2N b =? 0)) d)).

  (** unmarshalStringC: marshaller.go:574-596 *)
  Definition unmarshal_string_c (usize : N) : M ust val :=
    s <- while loop_fuel (fun acc =>
           r <- get_rbits ;;
           if w64 (usize * 8) <=? r then ret (inr acc)
           else c <- take_bits 8 ;;
                match c with
                | [b] => if b2N b =? 0 then ret (inr acc) else ret (inl (b :: acc))
                | _ => panic
                end) [] ;;
    ret (VStr (rev s)).

  (** tryReadPString: marshaller.go:607-643, with IsPString = true (box.go:58-60;
      no box type overrides it).  No registered box uses string=c_p. *)
  Definition try_read_pstring (usize : N) : M ust (option val) :=
    r <- get_rbits ;;
    let remaining := sub64 (w64 (usize * 8)) r / 8 in
    if remaining <? 2 then ret None
    else
      off <- lift_r seek_cur0 ;;
      b0 <- lift_r (read_full data 1) ;;
      let plen := be_to_N b0 in
      if remaining - 1 <? plen then lift_r (seek_start off) ;;; ret None
      else buf <- lift_r (read_full data plen) ;;
           add_rbits ((lenN buf + 1) * 8) ;;; ret (Some (VStr buf)).
  (** unmarshalString: marshaller.go:563-572, unmarshalStringCP: 598-605 *)
  Definition unmarshal_string (usize : N) (cp : bool) : M ust val :=
    if cp then
      o <- try_read_pstring usize ;;
      match o with Some v => ret v | None => unmarshal_string_c usize end
    else unmarshal_string_c usize.

  Definition bytes_val (l : list byte) : val := VList (map (fun b => VUint (b2N b)) l).

  Fixpoint map_list (f : val -> M ust val) (l : list val) : M ust (list val) :=
    match l with
    | [] => ret []
    | v :: r => x <- f v ;; xs <- map_list f r ;; ret (x :: xs)
    end.

  (** util.ReadString: internal/util/io.go:8-20 *)
  Definition util_read_string : M rst (list byte) :=
    s <- while loop_fuel (fun acc =>
      b <- read_full data 1 ;;
      match b with
      | [c] => if b2N c =? 0 then ret (inr acc) else ret (inl (c :: acc))
      | _ => panic
      end) [] ;;
    ret (rev s).

  Fixpoint take_until_nul (l : list byte) : list byte :=
    match l with
    | [] => []
    | b :: r => if b2N b =? 0 then [] else b :: take_until_nul r
    end.

  (** OnReadField: box.go:66-68 and overrides; Hdlr.OnReadName:
      box_types_iso14496_12.go:635-667.  Returns rbits, override and the new
      receiver. *)
  Definition on_read (h : hook) (ver : N) (self : list (string * val)) (leftBits : N)
    : M ust (N * bool * list (string * val)) :=
    match h with
    | HNone => ret (0, false, self)
    | HEmsgSkip => ret (0, negb (ver =? 0), self)
    | HEmsgData =>
        if ver =? 0 then ret (0, false, self)
        else
          a <- lift_r util_read_string ;;
          b <- lift_r util_read_string ;;
          ret ((lenN a + lenN b + 2) * 8, false,
               update "Value" (VStr b) (update "SchemeIdUri" (VStr a) self))
    | HHdlrName =>
        let size := leftBits / 8 in
        if size =? 0 then ret (0, true, update "Name" (VStr []) self)
        else
          ok <- lift_r (reader_has_size size) ;;
          if negb ok then fail (EMsg "not enough bits")
          else if maxAlloc <=? size then panic
          else
            buf <- lift_r (read_full data size) ;;
            match buf with
            | [] => panic
            | p :: tl =>
                let plen := b2N p in
                let name :=
                  if negb (as_uint (lookup "PreDefined" self) =? 0) && (2 <=? size)
                     && (size =? (plen + 1) mod 256)
                  then takeN plen tl
                  else take_until_nul buf in
                ret (leftBits, true, update "Name" (VStr name) self)
            end
    | HAvcHigh =>
        ret (0, true,
             update "HighProfileFieldsEnabled"
               (VBool ((32 <=? leftBits) && high_profile (as_uint (lookup "Profile" self)))) self)
    end.

  Variable rname : string.       (* struct name of the box *)
  Variable versions : list N.    (* its registered versions *)
  Variable ctx : context.

  Definition is_fullbox (t : sty) : bool :=
    match t with SStruct n _ _ => String.eqb n "FullBox" | _ => false end.

  (** The box as the methods see it while a struct [self] is being filled:
      [None] when the struct is the box itself; for nested structs, the box as
      it was when the enclosing top level field was started.  (Simplification:
      Go reads the box through a pointer.  The only fields that could have
      changed meanwhile are those of the top level field being read, and no
      registered box has a method that looks at its own field.) *)
  Definition box_of (rt : option (list (string * val))) (self : list (string * val)) :=
    match rt with Some r => r | None => self end.

  (** unmarshal and what it dispatches to: marshaller.go:334-357.  [cur] is the
      present content of the destination. *)
  Fixpoint unmarshal_val (rt : list (string * val)) (usize : N) (f : finfo) (size len : N)
           (t : sty) (cur : val) : M ust val :=
    match t with
    | SUint w => unmarshal_uint w (f_varint f) size
    | SInt w => unmarshal_int w (f_varint f) size
    | SBool => unmarshal_bool size
    | SStr => unmarshal_string usize (f_cp f)
    (* unmarshalPtr: :359-362 *)
    | SPtr u => x <- unmarshal_val rt usize f size len u (zero u) ;; ret (VPtr (Some x))
    (* unmarshalArray: :412-421 *)
    | SArr _ u =>
        match cur with
        | VList l => xs <- map_list (unmarshal_val rt usize f size len u) l ;; ret (VList xs)
        | _ => panic
        end
    (* unmarshalSlice: :423-475 *)
    | SSlice u =>
        rb <- get_rbits ;;
        let left := sub64 (w64 (usize * 8)) rb in
        if (len =? LengthUnlimited) && negb (size =? 0) && negb (left mod size =? 0)
        then fail (EMsg "invalid alignment")
        else
          let length := if len =? LengthUnlimited
                        then (if size =? 0 then 0 else left / size) else len in
          if (rb mod 8 =? 0) && is_u8 u && (size =? 8) then
            let total := w64 (length * size) / 8 in
            ok <- lift_r (reader_has_size total) ;;
            if negb ok then fail (EMsg "not enough bits")
            else if maxAlloc <=? total then panic
            else
              buf <- lift_r (copy_n data total) ;;
              add_rbits (total * 8) ;;;
              ret (bytes_val buf)
          else
            let elem (acc : list val) : M ust (list val) :=
              x <- unmarshal_val rt usize f size len u (zero u) ;;
              r <- get_rbits ;;
              if w64 (usize * 8) <? r
              then fail (EMsg "failed to read array completely")
              else ret (x :: acc) in
            xs <- (if len =? LengthUnlimited then
                     while loop_fuel (fun acc =>
                       r <- get_rbits ;;
                       if w64 (usize * 8) <=? r then ret (inr acc)
                       else acc' <- elem acc ;; ret (inl acc')) []
                   else loopN len elem []) ;;
            ret (VList (rev xs))
    (* unmarshalStructInternal: :364-380 *)
    | SStruct name cfo fs =>
        match cur with
        | VStruct l =>
            if negb (size =? 0) && (size mod 8 =? 0) then
              rb <- get_rbits ;;
              (fun s => (Ok tt, mkust (u_r s) 0)) ;;;
              x <- unmarshal_flds (Some rt) (size / 8) name cfo l fs ;;
              rb2 <- get_rbits ;;
              (fun s => (Ok tt, mkust (u_r s) (rb + rb2))) ;;;
              if rb2 =? size then ret (VStruct x) else fail (EMsg "invalid alignment")
            else
              x <- unmarshal_flds (Some rt) usize name cfo l fs ;; ret (VStruct x)
        | _ => panic
        end
    end
  (** unmarshalStruct: marshaller.go:382-410 *)
  with unmarshal_flds (rt : option (list (string * val))) (usize : N) (sname : string)
       (cfo : bool) (self : list (string * val)) (fs : flds) : M ust (list (string * val)) :=
    match fs with
    | FNil => ret self
    | FCons f t rest =>
        let root := box_of rt self in
        let env := if cfo then mkenv self (get_version root) (get_flags root) ctx
                   else mkenv root (get_version root) (get_flags root) ctx in
        let cn := if cfo then sname else rname in
        match resolve_size cn env f, resolve_len cn env f with
        | Some size, Some len =>
            self' <-
              (if is_target (get_version root) (get_flags root) cn env f then
                 rb <- get_rbits ;;
                 h <- on_read (hook_of cn (f_name f)) (get_version root) self
                        (sub64 (w64 (usize * 8)) rb) ;;
                 let '(rbits, override, self1) := h in
                 add_rbits rbits ;;;
                 if override then ret self1
                 else
                   match lookup (f_name f) self1 with
                   | None => panic
                   | Some cur =>
                       x <- unmarshal_val (box_of rt self1) usize f size len t cur ;;
                       let self2 := update (f_name f) x self1 in
                       if is_fullbox t && negb (version_in versions (get_version (box_of rt self2)))
                       then fail EUnsupportedVersion
                       else ret self2
                   end
               else ret self) ;;
            unmarshal_flds rt usize sname cfo self' rest
        | _, _ => panic
        end
    end.
End Unmarshal.

(** Meta.BeforeUnmarshal: box_types_iso14496_12.go:896-911; box.go:62-64 *)
Definition before_unmarshal (data : list byte) (sname : string) (self : list (string * val))
  : M rst (bool * list (string * val)) :=
  if String.eqb sname "Meta" then
    fun s =>
    match read_full data 4 s with
    | (Ok buf, s1) =>
        let s2 := mkrst (r_pos s1 - 4) (r_octet s1) (r_width s1) in
        if existsb (fun b => negb (b2N b =? 0)) buf then
          (Ok (true, update "FullBox"
                 (VStruct [("Version", VUint 0); ("Flags", VList [VUint 0; VUint 0; VUint 0])]) self), s2)
        else (Ok (false, self), s2)
    | (Err e, s1) => (Err e, s1)
    | (Panic, s1) => (Panic, s1)
    | (OutOfFuel, s1) => (OutOfFuel, s1)
    end
  else ret (false, self).

(** Unmarshal: marshaller.go:286-332.  [dst] is the destination's present
    content.  The state is the position of the io.ReadSeeker.  Result: the new
    content and the count. *)
Definition unmarshal_def (d : boxdef) (data : list byte) (size : N) (ctx : context)
           (dst : list (string * val)) : M N (list (string * val) * N) := fun pos =>
  let self := set_version anyVersion dst in
  match before_unmarshal data (bd_name d) self (new_reader pos) with
  | (Ok (true, self1), r) => (Ok (self1, 0), r_pos r)
  | (Ok (false, self1), r) =>
      let sn := r_pos r in
      match unmarshal_flds data (bd_name d) (bd_versions d) ctx None size (bd_name d) true self1
              (bd_flds d) (mkust (new_reader sn) 0) with
      | (Ok x, s) =>
          ((if negb (u_rbits s mod 8 =? 0) then Err (EMsg "box size is not multiple of 8 bits")
            else if w64 (size * 8) <? u_rbits s then Err (EMsg "overrun error")
            else Ok (x, u_rbits s / 8)), r_pos (u_r s))
      | (Err EUnsupportedVersion, s) => (Err EUnsupportedVersion, sn)
      | (Err e, s) => (Err e, r_pos (u_r s))
      | (Panic, s) => (Panic, r_pos (u_r s))
      | (OutOfFuel, s) => (OutOfFuel, r_pos (u_r s))
      end
  | (Err e, r) => (Err e, r_pos r)
  | (Panic, r) => (Panic, r_pos r)
  | (OutOfFuel, r) => (OutOfFuel, r_pos r)
  end.

(** UnmarshalAny: marshaller.go:277-284.  The definition is returned along with
    the value, so that the value's type is known. *)
Definition unmarshal_any (R : registry) (data : list byte) (t : btype) (size : N) (ctx : context)
  : M N (boxdef * list (string * val) * N) := fun pos =>
  match new_box R t ctx with
  | Ok (d, z) =>
      match unmarshal_def d data size ctx z pos with
      | (Ok (x, n), p) => (Ok (d, x, n), p)
      | (Err e, p) => (Err e, p)
      | (Panic, p) => (Panic, p)
      | (OutOfFuel, p) => (OutOfFuel, p)
      end
  | Err e => (Err e, pos)
  | Panic => (Panic, pos)
  | OutOfFuel => (OutOfFuel, pos)
  end.
