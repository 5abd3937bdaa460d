(** What Unmarshal computes, as a function of the bits that follow the stream
    position.  The functions below follow Unmarshal.v case by case, with the
    stream state replaced by the number of bits consumed so far and the list of
    the bits that remain.  UnmarshalProofs.v shows that Unmarshal is this
    function; the properties of decoding are then proved here. *)
From Verif Require Import Base BitIO Schema Methods Registry Marshal Unmarshal SpecCodec.
Local Open Scope string_scope.
Local Open Scope list_scope.
Local Open Scope N_scope.

(** position (bits since the start of the payload) and the bits ahead *)
Definition dst : Set := (N * list bool)%type.
Definition D (A : Type) : Type := dst -> res (A * dst).
Definition dret {A} (a : A) : D A := fun st => Ok (a, st).
Definition dfail {A} (e : err) : D A := fun _ => Err e.
Definition dpanic {A} : D A := fun _ => Panic.
Definition dbind {A B} (m : D A) (k : A -> D B) : D B := fun st =>
  match m st with
  | Ok (a, st1) => k a st1
  | Err e => Err e
  | Panic => Panic
  | OutOfFuel => OutOfFuel
  end.
Declare Scope dec_scope.
Notation "x <~ m ;; k" := (dbind m (fun x => k))
  (at level 61, m at next level, right associativity) : dec_scope.
Local Open Scope dec_scope.
Definition dpos : D N := fun st => Ok (fst st, st).

Fixpoint dloop {A} (k : nat) (body : A -> D A) (a : A) : D A :=
  match k with
  | O => dret a
  | S j => a1 <~ body a ;; dloop j body a1
  end.
Fixpoint dwhile {A B} (k : nat) (body : A -> D (A + B)) (a : A) : D B :=
  match k with
  | O => fun _ => OutOfFuel
  | S j => x <~ body a ;; match x with inl a1 => dwhile j body a1 | inr b => dret b end
  end.

Definition d_take (n : N) : D (list bool) := fun st =>
  if n <=? lenN (snd st) then Ok (takeN n (snd st), (fst st + n, skipN n (snd st)))
  else Err EEOF.
(** n bytes at once; only at a byte boundary *)
Definition d_bytes (n : N) : D (list byte) := fun st =>
  if fst st mod 8 =? 0 then
    if 8 * n <=? lenN (snd st)
    then Ok (pack (takeN (8 * n) (snd st)), (fst st + 8 * n, skipN (8 * n) (snd st)))
    else if lenN (snd st) =? 0 then Err EEOF else Err EUnexpectedEOF
  else if n =? 0 then Ok ([], st) else Err EAlign.
Definition d_has (n : N) : D bool := fun st =>
  Ok ((fst st mod 8 =? 0) && (8 * n <=? lenN (snd st)), st).

Section Decode.
  Variable fuel : nat.

  Definition d_uvarint : D N :=
    dwhile fuel (fun val =>
      o <~ d_take 8 ;;
      let b := bits_to_N o in
      let val' := w64 (w64 (128 * val) + b mod 128) in
      dret (if b <? 128 then inr val' else inl val')) 0.

  Definition d_uint (w : N) (varint : bool) (size : N) : D val :=
    if varint then v <~ d_uvarint ;; dret (VUint (v mod 2 ^ w))
    else if size =? 0 then dfail (EMsg "size must not be zero")
    else b <~ d_take size ;; dret (VUint (w64 (bits_to_N b) mod 2 ^ w)).

  (** two's complement, sign extended to 64 bits, cut to w bits *)
  Definition d_int (w : N) (varint : bool) (size : N) : D val :=
    if varint then dfail (EMsg "signed varint is unsupported")
    else if size =? 0 then dfail (EMsg "size must not be zero")
    else b <~ d_take size ;;
         let z := match b with true :: _ => (Z.of_N (bits_to_N b) - Z.of_N (2 ^ size))%Z
                             | _ => Z.of_N (bits_to_N b) end in
         dret (VInt (toZ w (ofZ 64 z))).

  Definition d_bool (size : N) : D val :=
    if size =? 0 then dfail (EMsg "size must not be zero")
    else b <~ d_take size ;; dret (VBool (existsb (fun x => x) b)).

  (** [base]: where the innermost sized struct (or the payload) begins *)
  Definition d_string_c (lim base : N) : D val :=
    s <~ dwhile fuel (fun acc =>
           p <~ dpos ;;
           if lim <=? p - base then dret (inr acc)
           else c <~ d_take 8 ;;
                let b := N2b (bits_to_N c) in
                if b2N b =? 0 then dret (inr acc) else dret (inl (b :: acc))) [] ;;
    dret (VStr (rev s)).

  Definition d_pstring (lim base : N) : D (option val) :=
    p <~ dpos ;;
    let remaining := sub64 lim (p - base) / 8 in
    if remaining <? 2 then dret None
    else fun st =>
      if negb (fst st mod 8 =? 0) then Err EAlign
      else (b0 <~ d_bytes 1 ;;
       let plen := be_to_N b0 in
       if remaining - 1 <? plen then fun _ => Ok (None, st)
       else buf <~ d_bytes plen ;; dret (Some (VStr buf))) st.
  Definition d_string (lim base : N) (cp : bool) : D val :=
    if cp then
      o <~ d_pstring lim base ;;
      match o with Some v => dret v | None => d_string_c lim base end
    else d_string_c lim base.

  Fixpoint d_map (f : val -> D val) (l : list val) : D (list val) :=
    match l with
    | [] => dret []
    | v :: r => x <~ f v ;; xs <~ d_map f r ;; dret (x :: xs)
    end.

  Definition d_zstring : D (list byte) :=
    s <~ dwhile fuel (fun acc =>
      b <~ d_bytes 1 ;;
      match b with
      | [c] => if b2N c =? 0 then dret (inr acc) else dret (inl (c :: acc))
      | _ => dpanic
      end) [] ;;
    dret (rev s).

  Definition d_hook (h : hook) (ver : N) (self : fields) (leftBits : N) : D (bool * fields) :=
    match h with
    | HNone => dret (false, self)
    | HEmsgSkip => dret (negb (ver =? 0), self)
    | HEmsgData =>
        if ver =? 0 then dret (false, self)
        else
          a <~ d_zstring ;;
          b <~ d_zstring ;;
          dret (false, update "Value" (VStr b) (update "SchemeIdUri" (VStr a) self))
    | HHdlrName =>
        let size := leftBits / 8 in
        if size =? 0 then dret (true, update "Name" (VStr []) self)
        else
          ok <~ d_has size ;;
          if negb ok then dfail (EMsg "not enough bits")
          else if maxAlloc <=? size then dpanic
          else
            buf <~ d_bytes size ;;
            match buf with
            | [] => dpanic
            | p :: tl =>
                let plen := b2N p in
                let name :=
                  if negb (as_uint (lookup "PreDefined" self) =? 0) && (2 <=? size)
                     && (size =? (plen + 1) mod 256)
                  then takeN plen tl
                  else take_until_nul buf in
                dret (true, update "Name" (VStr name) self)
            end
    | HAvcHigh =>
        dret (true,
             update "HighProfileFieldsEnabled"
               (VBool ((32 <=? leftBits) && high_profile (as_uint (lookup "Profile" self)))) self)
    end.

  Variable rname : string.
  Variable versions : list N.
  Variable ctx : context.

  (** [lim], [base]: number of bits of the innermost sized struct (or of the
      payload), and where it begins *)
  Fixpoint dec_val (rt : fields) (lim base : N) (f : finfo) (size len : N) (t : sty) (cur : val)
    : D val :=
    match t with
    | SUint w => d_uint w (f_varint f) size
    | SInt w => d_int w (f_varint f) size
    | SBool => d_bool size
    | SStr => d_string lim base (f_cp f)
    | SPtr u => x <~ dec_val rt lim base f size len u (zero u) ;; dret (VPtr (Some x))
    | SArr _ u =>
        match cur with
        | VList l => xs <~ d_map (dec_val rt lim base f size len u) l ;; dret (VList xs)
        | _ => dpanic
        end
    | SSlice u =>
        p <~ dpos ;;
        let left := sub64 lim (p - base) in
        if (len =? LengthUnlimited) && negb (size =? 0) && negb (left mod size =? 0)
        then dfail (EMsg "invalid alignment")
        else
          let length := if len =? LengthUnlimited
                        then (if size =? 0 then 0 else left / size) else len in
          if ((p - base) mod 8 =? 0) && is_u8 u && (size =? 8) then
            let total := w64 (length * size) / 8 in
            ok <~ d_has total ;;
            if negb ok then dfail (EMsg "not enough bits")
            else if maxAlloc <=? total then dpanic
            else buf <~ d_bytes total ;; dret (bytes_val buf)
          else
            let elem (acc : list val) : D (list val) :=
              x <~ dec_val rt lim base f size len u (zero u) ;;
              p <~ dpos ;;
              if lim <? p - base
              then dfail (EMsg "failed to read array completely")
              else dret (x :: acc) in
            xs <~ (if len =? LengthUnlimited then
                     dwhile fuel (fun acc =>
                       p <~ dpos ;;
                       if lim <=? p - base then dret (inr acc)
                       else acc' <~ elem acc ;; dret (inl acc')) []
                   else dloop (N.to_nat len) elem []) ;;
            dret (VList (rev xs))
    | SStruct name cfo fs =>
        match cur with
        | VStruct l =>
            if negb (size =? 0) && (size mod 8 =? 0) then
              p <~ dpos ;;
              x <~ dec_flds (Some rt) (w64 size) p name cfo l fs ;;
              q <~ dpos ;;
              if q - p =? size then dret (VStruct x) else dfail (EMsg "invalid alignment")
            else
              x <~ dec_flds (Some rt) lim base name cfo l fs ;; dret (VStruct x)
        | _ => dpanic
        end
    end
  with dec_flds (rt : option fields) (lim base : N) (sname : string) (cfo : bool)
       (self : fields) (fs : flds) : D fields :=
    match fs with
    | FNil => dret self
    | FCons f t rest =>
        let root := box_of rt self in
        let env := if cfo then mkenv self (get_version root) (get_flags root) ctx
                   else mkenv root (get_version root) (get_flags root) ctx in
        let cn := if cfo then sname else rname in
        match resolve_size cn env f, resolve_len cn env f with
        | Some size, Some len =>
            self' <~
              (if is_target (get_version root) (get_flags root) cn env f then
                 p <~ dpos ;;
                 h <~ d_hook (hook_of cn (f_name f)) (get_version root) self
                        (sub64 lim (p - base)) ;;
                 let '(override, self1) := h in
                 if override then dret self1
                 else
                   match lookup (f_name f) self1 with
                   | None => dpanic
                   | Some cur =>
                       x <~ dec_val (box_of rt self1) lim base f size len t cur ;;
                       let self2 := update (f_name f) x self1 in
                       if is_fullbox t && negb (version_in versions (get_version (box_of rt self2)))
                       then dfail EUnsupportedVersion
                       else dret self2
                   end
               else dret self) ;;
            dec_flds rt lim base sname cfo self' rest
        | _, _ => dpanic
        end
    end.
End Decode.

(** Meta.BeforeUnmarshal looks at the next four bytes. *)
Definition d_before (sname : string) (self : fields) : D (bool * fields) := fun st =>
  if String.eqb sname "Meta" then
    match d_bytes 4 st with
    | Ok (buf, _) =>
        if existsb (fun b => negb (b2N b =? 0)) buf then
          Ok ((true, update "FullBox"
                 (VStruct [("Version", VUint 0); ("Flags", VList [VUint 0; VUint 0; VUint 0])]) self), st)
        else Ok ((false, self), st)
    | Err e => Err e
    | Panic => Panic
    | OutOfFuel => OutOfFuel
    end
  else Ok ((false, self), st).

(** Unmarshal of [size] bytes, given all bits from the stream position on:
    the value and the number of bytes read. *)
Definition decode (fuel : nat) (d : boxdef) (size : N) (ctx : context) (dst0 : fields)
           (bits : list bool) : res (fields * N) :=
  match d_before (bd_name d) (set_version anyVersion dst0) (0, bits) with
  | Ok ((true, x), _) => Ok (x, 0)
  | Ok ((false, self), _) =>
      match dec_flds fuel (bd_name d) (bd_versions d) ctx None (w64 (size * 8)) 0 (bd_name d) true
              self (bd_flds d) (0, bits) with
      | Ok (x, (p, _)) =>
          if negb (p mod 8 =? 0) then Err (EMsg "box size is not multiple of 8 bits")
          else if w64 (size * 8) <? p then Err (EMsg "overrun error")
          else Ok (x, p / 8)
      | Err e => Err e
      | Panic => Panic
      | OutOfFuel => OutOfFuel
      end
  | Err e => Err e
  | Panic => Panic
  | OutOfFuel => OutOfFuel
  end.
