(** Model of field.go: struct tags, field descriptors, field order; and the
    small language in which the box specific methods are transcribed. *)
From Verif Require Import Base.

(** ** Go types of box structs, as they appear in the source. *)
Inductive gty : Set :=
| GUint (w : N)                 (* uint8 .. uint64, byte *)
| GInt (w : N)                  (* int8 .. int64 *)
| GBool
| GString
| GArray (n : N) (t : gty)
| GSlice (t : gty)
| GPtr (t : gty)
| GStruct (name : string) (fs : gflds)
with gflds : Set :=
| GNil
| GCons (embedded : bool) (name : string) (t : gty) (tag : option string) (rest : gflds).

(** ** strings helpers *)
Fixpoint str_split (c : ascii) (s : string) : list string :=
  match s with
  | EmptyString => [EmptyString]
  | String a r =>
      if Ascii.eqb a c then EmptyString :: str_split c r
      else match str_split c r with
           | [] => [String a EmptyString]
           | x :: l => String a x :: l
           end
  end.
(** strings.SplitN(e, "=", 2) *)
Fixpoint str_cut (c : ascii) (s : string) : string * option string :=
  match s with
  | EmptyString => (EmptyString, None)
  | String a r =>
      if Ascii.eqb a c then (EmptyString, Some r)
      else let (x, y) := str_cut c r in (String a x, y)
  end.
Fixpoint str_ltrim (s : string) : string :=
  match s with
  | String " " r => str_ltrim r
  | _ => s
  end.
Fixpoint str_rev_acc (s acc : string) : string :=
  match s with EmptyString => acc | String a r => str_rev_acc r (String a acc) end.
Definition str_rev (s : string) := str_rev_acc s EmptyString.
(** strings.Trim(s, " ") *)
Definition str_trim (s : string) : string := str_rev (str_ltrim (str_rev (str_ltrim s))).

Definition digit_val (base : N) (a : ascii) : option N :=
  let n := N_of_ascii a in
  let v := if (48 <=? n) && (n <=? 57) then Some (n - 48)
           else if (97 <=? n) && (n <=? 122) then Some (n - 87)
           else if (65 <=? n) && (n <=? 90) then Some (n - 55) else None in
  match v with Some d => if d <? base then Some d else None | None => None end.
Fixpoint digits_val (base acc : N) (s : string) : option N :=
  match s with
  | EmptyString => Some acc
  | String a r => match digit_val base a with
                  | Some d => digits_val base (base * acc + d) r
                  | None => None end
  end.
(** strconv.ParseUint(s, base, 32) *)
Definition parse_uint32 (base : N) (s : string) : option N :=
  match s with
  | EmptyString => None
  | _ => match digits_val base 0 s with
         | Some n => if n <? W32 then Some n else None
         | None => None end
  end.
(** strconv.Atoi: optional sign, decimal digits, int64 range *)
Definition atoi (s : string) : option Z :=
  let pos t := match t with EmptyString => None | _ => digits_val 10 0 t end in
  match s with
  | String "-" r => match pos r with
                    | Some n => if n <=? 9223372036854775808 then Some (- Z.of_N n)%Z else None
                    | None => None end
  | String "+" r => match pos r with
                    | Some n => if n <? 9223372036854775808 then Some (Z.of_N n) else None
                    | None => None end
  | _ => match pos s with
         | Some n => if n <? 9223372036854775808 then Some (Z.of_N n) else None
         | None => None end
  end.

(** ** parseFieldTag: field.go:237-251.  The Go map is an association list with
    the last occurrence of a key first, so that lookup sees the last one. *)
Definition parse_field_tag (s : string) : list (string * string) :=
  rev (map (fun e => match str_cut "=" e with
                     | (k, Some v) => (str_trim k, str_trim v)
                     | (k, None) => (str_trim k, EmptyString)
                     end) (str_split "," s)).
Fixpoint tag_get (k : string) (m : list (string * string)) : option string :=
  match m with
  | [] => None
  | (k', v) :: r => if String.eqb k k' then Some v else tag_get k r
  end.
Definition tag_has (k : string) (m : list (string * string)) : bool :=
  match tag_get k m with Some _ => true | None => false end.

(** ** field descriptors: field.go:36-49 (flags as booleans; children live in
    the compiled type [sty]) *)
Record finfo : Set := mkfi {
  f_name : string;
  f_cnst : string;
  f_order : Z;
  f_optFlag : N;
  f_nOptFlag : N;
  f_size : N;
  f_length : N;
  f_version : N;
  f_nVersion : N;
  f_string : bool;  f_extend : bool;  f_dec : bool;  f_hex : bool;
  f_iso639 : bool;  f_uuid : bool;  f_hidden : bool;  f_optDyn : bool;
  f_varint : bool;  f_sizeDyn : bool;  f_lenDyn : bool;  f_boxString : bool;
  f_cp : bool        (* strType = stringType_C_P *)
}.

Definition LengthUnlimited : N := 4294967295.   (* box.go:11 *)
Definition anyVersion : N := 255.               (* marshaller.go:15 *)

(** the numeric key that gives the order: field.go:101-109.  Go iterates over a
    map in random order; with a single numeric key the choice is forced.  The
    model takes the first one in the tag. *)
Fixpoint tag_order (m : list (string * string)) : Z :=
  match m with
  | [] => 0%Z
  | (k, v) :: r => match v with
                   | EmptyString => match atoi k with Some z => z | None => tag_order r end
                   | _ => tag_order r end
  end.

Definition obind {A B} (x : option A) (f : A -> option B) : option B :=
  match x with Some a => f a | None => None end.

Definition tag_opt_value (o : option string) : option N :=
  match o with
  | None => Some 0
  | Some v => match v with
              | String "0" (String "x" r) => parse_uint32 16 r
              | _ => parse_uint32 10 v end
  end.
Definition tag_ver_value (o : option string) : option N :=
  match o with
  | None => Some anyVersion
  | Some v => match atoi v with
              | Some z => if (z <=? 255)%Z then Some (ofZ 8 z) else None
              | None => None end
  end.
Definition is_dyn (o : option string) : bool :=
  match o with Some v => String.eqb v "dynamic" | None => false end.

(** buildField: field.go:96-235.  [None] is a panic (malformed tag). *)
Definition build_field (name tag : string) : option finfo :=
  let m := parse_field_tag tag in
  let opt := tag_get "opt" m in
  let size := tag_get "size" m in
  let len := tag_get "len" m in
  obind (if is_dyn opt then Some 0 else tag_opt_value opt) (fun optv =>
  obind (tag_opt_value (tag_get "nopt" m)) (fun noptv =>
  obind (tag_ver_value (tag_get "ver" m)) (fun ver =>
  obind (tag_ver_value (tag_get "nver" m)) (fun nver =>
  obind (match size with
         | None => Some 0
         | Some v => if is_dyn size then Some 0 else parse_uint32 10 v end) (fun sizev =>
  obind (match len with
         | None => Some LengthUnlimited
         | Some v => if is_dyn len then Some LengthUnlimited else parse_uint32 10 v end) (fun lenv =>
  Some {| f_name := name;
          f_cnst := match tag_get "const" m with Some v => v | None => EmptyString end;
          f_order := tag_order (rev m);
          f_optFlag := optv; f_nOptFlag := noptv;
          f_size := sizev; f_length := lenv;
          f_version := ver; f_nVersion := nver;
          f_string := tag_has "string" m; f_extend := tag_has "extend" m;
          f_dec := tag_has "dec" m; f_hex := tag_has "hex" m;
          f_iso639 := tag_has "iso639-2" m; f_uuid := tag_has "uuid" m;
          f_hidden := tag_has "hidden" m; f_optDyn := is_dyn opt;
          f_varint := tag_has "varint" m; f_sizeDyn := is_dyn size;
          f_lenDyn := is_dyn len; f_boxString := tag_has "boxstring" m;
          f_cp := match tag_get "string" m with Some v => String.eqb v "c_p" | None => false end
       |})))))).

(** ** Compiled types: the Go type of a value together with the descriptors of
    the fields inside it (reflect.Type + field.children).  [cfo] says whether
    the struct type implements ICustomFieldObject itself. *)
Inductive sty : Set :=
| SUint (w : N)
| SInt (w : N)
| SBool
| SStr
| SArr (n : N) (t : sty)
| SSlice (t : sty)
| SPtr (t : sty)
| SStruct (name : string) (cfo : bool) (fs : flds)
with flds : Set :=
| FNil
| FCons (f : finfo) (t : sty) (rest : flds).

(** A struct type implements ICustomFieldObject iff it is, or embeds something
    that leads to, BaseCustomFieldObject (box.go:35-72).  field.go:263 *)
Fixpoint impl_cfo (t : gty) : bool :=
  match t with
  | GStruct name fs => String.eqb name "BaseCustomFieldObject" || impl_cfo_flds fs
  | _ => false
  end
with impl_cfo_flds (fs : gflds) : bool :=
  match fs with
  | GNil => false
  | GCons e _ t _ r => (e && impl_cfo t) || impl_cfo_flds r
  end.

(** Insertion into a list sorted by order; equal orders keep their position.
    Inserting from the right gives sort.SliceStable.  field.go:79-81 *)
Fixpoint fins (f : finfo) (t : sty) (l : flds) : flds :=
  match l with
  | FNil => FCons f t FNil
  | FCons f' t' r => if (f_order f <=? f_order f')%Z then FCons f t l
                     else FCons f' t' (fins f t r)
  end.

(** buildFieldsAny / buildFieldsStruct: field.go:64-94 (the diagnostics printed
    to stderr are left out) *)
Fixpoint compile (t : gty) : option sty :=
  match t with
  | GUint w => Some (SUint w)
  | GInt w => Some (SInt w)
  | GBool => Some SBool
  | GString => Some SStr
  | GArray n u => match compile u with Some s => Some (SArr n s) | None => None end
  | GSlice u => match compile u with Some s => Some (SSlice s) | None => None end
  | GPtr u => match compile u with Some s => Some (SPtr s) | None => None end
  | GStruct name fs => match compile_flds fs with
                       | Some l => Some (SStruct name (String.eqb name "BaseCustomFieldObject"
                                                       || impl_cfo_flds fs) l)
                       | None => None end
  end
with compile_flds (fs : gflds) : option flds :=
  match fs with
  | GNil => Some FNil
  | GCons _ name t tag r =>
      match compile_flds r with
      | None => None
      | Some l => match tag with
                  | None => Some l
                  | Some tg => match build_field name tg, compile t with
                               | Some f, Some s => Some (fins f s l)
                               | _, _ => None end
                  end
      end
  end.

(** ** Values *)
Inductive val : Set :=
| VUint (n : N)
| VInt (z : Z)
| VBool (b : bool)
| VStr (s : list byte)
| VList (l : list val)                     (* arrays and slices *)
| VPtr (p : option val)
| VStruct (fs : list (string * val)).

Fixpoint lookup (k : string) (l : list (string * val)) : option val :=
  match l with
  | [] => None
  | (k', v) :: r => if String.eqb k k' then Some v else lookup k r
  end.
Fixpoint update (k : string) (x : val) (l : list (string * val)) : list (string * val) :=
  match l with
  | [] => []
  | (k', v) :: r => if String.eqb k k' then (k', x) :: r else (k', v) :: update k x r
  end.

(** Go zero values (reflect.Zero / reflect.New) *)
Fixpoint zero (t : sty) : val :=
  match t with
  | SUint _ => VUint 0
  | SInt _ => VInt 0
  | SBool => VBool false
  | SStr => VStr []
  | SArr n u => VList (repeat (zero u) (N.to_nat n))
  | SSlice _ => VList []
  | SPtr _ => VPtr None
  | SStruct _ _ fs => VStruct (zero_flds fs)
  end
with zero_flds (fs : flds) : list (string * val) :=
  match fs with
  | FNil => []
  | FCons f t r => (f_name f, zero t) :: zero_flds r
  end.

(** ** Context: box_info.go:11-32 *)
Record context : Set := mkctx {
  IsQuickTimeCompatible : bool;
  QuickTimeKeysMetaEntryCount : Z;
  UnderWave : bool;
  UnderIlst : bool;
  UnderIlstMeta : bool;
  UnderIlstFreeMeta : bool;
  UnderUdta : bool
}.
Definition ctx0 : context := mkctx false 0 false false false false false.

(** ** The language of box specific methods.  Expressions denote Go [uint]
    values; [MPanic] is the panic at the end of the method.  Conditions read
    fields of the receiver, its version and flags, and the context. *)
Inductive mcond : Set :=
| CTrue | CFalse
| CNot (a : mcond) | CAnd (a b : mcond) | COr (a b : mcond)
| CFieldB (name : string)          (* boolean field *)
| CFieldIs (name : string) (n : N) (* unsigned field = n *)
| CFieldZ (name : string) (z : Z)  (* signed field = z *)
| CFieldS (name : string) (s : string) (* byte array field = s *)
| CVersion (n : N)                 (* GetVersion() = n *)
| CFlag (mask : N)                 (* GetFlags() & mask <> 0 *)
| CQt | CWave.                     (* ctx.IsQuickTimeCompatible, ctx.UnderWave *)

Inductive mexp : Set :=
| MConst (n : N)
| MField (name : string)           (* uint(box.Field), unsigned or signed field *)
| MIf (c : mcond) (a b : mexp)
| MAdd (a b : mexp)                (* uint (64 bit) arithmetic *)
| MSub (a b : mexp)
| MMul (a b : mexp)
| MMul32 (a b : mexp)              (* uint32 arithmetic *)
| MPanic.

(** Receiver environment *)
Record menv := mkenv { e_self : list (string * val); e_ver : N; e_flags : N; e_ctx : context }.

Definition as_uint (v : option val) : N :=
  match v with
  | Some (VUint n) => n
  | Some (VInt z) => ofZ 64 z
  | _ => 0
  end.
Definition as_Z (v : option val) : Z :=
  match v with Some (VInt z) => z | Some (VUint n) => Z.of_N n | _ => 0%Z end.
Definition as_bool (v : option val) : bool :=
  match v with Some (VBool b) => b | _ => false end.
Definition as_bytes (v : option val) : list byte :=
  match v with
  | Some (VList l) => map (fun x => N2b (as_uint (Some x))) l
  | Some (VStr s) => s
  | _ => []
  end.

Fixpoint ceval (e : menv) (c : mcond) : bool :=
  match c with
  | CTrue => true
  | CFalse => false
  | CNot a => negb (ceval e a)
  | CAnd a b => ceval e a && ceval e b
  | COr a b => ceval e a || ceval e b
  | CFieldB f => as_bool (lookup f (e_self e))
  | CFieldIs f n => as_uint (lookup f (e_self e)) =? n
  | CFieldZ f z => (as_Z (lookup f (e_self e)) =? z)%Z
  | CFieldS f s => bytes_eqb (as_bytes (lookup f (e_self e))) (bytes_of_string s)
  | CVersion n => e_ver e =? n
  | CFlag m => negb (N.land (e_flags e) m =? 0)
  | CQt => IsQuickTimeCompatible (e_ctx e)
  | CWave => UnderWave (e_ctx e)
  end.

Fixpoint meval (e : menv) (x : mexp) : option N :=
  match x with
  | MConst n => Some n
  | MField f => Some (as_uint (lookup f (e_self e)))
  | MIf c a b => if ceval e c then meval e a else meval e b
  | MAdd a b => obind (meval e a) (fun x => obind (meval e b) (fun y => Some (w64 (x + y))))
  | MSub a b => obind (meval e a) (fun x => obind (meval e b) (fun y => Some (sub64 x y)))
  | MMul a b => obind (meval e a) (fun x => obind (meval e b) (fun y => Some (w64 (x * y))))
  | MMul32 a b => obind (meval e a) (fun x => obind (meval e b) (fun y => Some (w32 (x * y))))
  | MPanic => None
  end.

(** ** GetVersion / GetFlags of a box: box.go:112-124, 150-166.  A box whose struct
    embeds FullBox reads it; every other box answers 0.  (No registered box
    struct shadows these methods.) *)
Definition fullbox_of (root : list (string * val)) : option (list (string * val)) :=
  match lookup "FullBox" root with Some (VStruct l) => Some l | _ => None end.
Definition get_version (root : list (string * val)) : N :=
  match fullbox_of root with Some l => as_uint (lookup "Version" l) | None => 0 end.
Definition flags_of_bytes (l : list val) : N :=
  match l with
  | [VUint a; VUint b; VUint c] => N.lxor (N.lxor (N.shiftl a 16) (N.shiftl b 8)) c
  | _ => 0
  end.
Definition get_flags (root : list (string * val)) : N :=
  match fullbox_of root with
  | Some l => match lookup "Flags" l with Some (VList fl) => flags_of_bytes fl | _ => 0 end
  | None => 0
  end.
(** SetVersion: box.go:117-119, 155-158 (no effect on boxes without FullBox) *)
Definition set_version (ver : N) (root : list (string * val)) : list (string * val) :=
  match fullbox_of root with
  | Some l => update "FullBox" (VStruct (update "Version" (VUint ver) l)) root
  | None => root
  end.
