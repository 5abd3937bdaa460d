(** Model of string.go, of the StringifyField methods of the box types and of
    internal/util/string.go.  Functions of Go's standard library are in
    GoText.v. *)
From Verif Require Import Base Schema Methods Registry Marshal GoText.
Local Open Scope string_scope.
Local Open Scope list_scope.
Local Open Scope N_scope.

Section Stringify.
  (** unicode.IsGraphic: the tables of the unicode package are not modelled, the
      functions below take the predicate as a parameter *)
  Variable graphic : N -> bool.

  (** EscapeUnprintable, EscapeUnprintables: internal/util/string.go:33-42 *)
  Definition escape_unprintable (r : N) : N := if graphic r then r else 46.
  Definition escape (s : text) : text := map_runes escape_unprintable s.
  Definition quoted_escaped (s : text) : text := lit """" ++ escape s ++ lit """".

  (** FormatSignedFixedFloat1616, FormatUnsignedFixedFloat1616,
      FormatSignedFixedFloat88: internal/util/string.go:9-31.  val>>16 is the
      floor of the quotient. *)
  Definition fixed_1616 (z : Z) : text :=
    if (z mod 65536 =? 0)%Z then int_text (z / 65536) else float_text 16 5 z.
  Definition fixed_88 (z : Z) : text :=
    if (z mod 256 =? 0)%Z then int_text (z / 256) else float_text 8 3 z.

  (** StringifyField: box.go:53-56 is the default (not overridden).  The cases
      are selected by the receiver's struct name and the field name.  None of
      the methods uses its indent, depth and ctx arguments. *)
  Definition stringify_field (sname fname : string) (self : list (string * val)) : option text :=
    (* Mvhd: box_types_iso14496_12.go:1074-1081 *)
    if String.eqb sname "Mvhd" then
      if String.eqb fname "Rate" then Some (fixed_1616 (as_Z (lookup "Rate" self))) else None
    (* VisualSampleEntry: :1254-1264 *)
    else if String.eqb sname "VisualSampleEntry" then
      if String.eqb fname "Compressorname" then
        match as_bytes (lookup "Compressorname" self) with
        | c :: r => if b2N c <=? 31 then Some (quoted_escaped (takeN (b2N c) r)) else None
        | [] => None
        end
      else None
    (* AudioSampleEntry: :1302-1309 *)
    else if String.eqb sname "AudioSampleEntry" then
      if String.eqb fname "SampleRate" then Some (fixed_1616 (as_Z (lookup "SampleRate" self))) else None
    (* Smhd: :1782-1789 *)
    else if String.eqb sname "Smhd" then
      if String.eqb fname "Balance" then Some (fixed_88 (as_Z (lookup "Balance" self))) else None
    (* Tkhd: :2215-2224 *)
    else if String.eqb sname "Tkhd" then
      if String.eqb fname "Width" then Some (fixed_1616 (as_Z (lookup "Width" self)))
      else if String.eqb fname "Height" then Some (fixed_1616 (as_Z (lookup "Height" self)))
      else None
    (* Descriptor: box_types_iso14496_14.go:63-81 *)
    else if String.eqb sname "Descriptor" then
      if String.eqb fname "Tag" then
        let tag := as_Z (lookup "Tag" self) in
        if (tag =? 3)%Z then Some (lit "ESDescr")
        else if (tag =? 4)%Z then Some (lit "DecoderConfigDescr")
        else if (tag =? 5)%Z then Some (lit "DecSpecificInfo")
        else if (tag =? 6)%Z then Some (lit "SLConfigDescr")
        else None
      else None
    (* Pssh: box_types_iso23001_7.go:44-61 *)
    else if String.eqb sname "Pssh" then
      if String.eqb fname "KIDs" then
        let kid v := match v with VStruct e => uuid_text (as_bytes (lookup "KID" e)) | _ => [] end in
        let fix all (first : bool) (l : list val) : text :=
          match l with
          | [] => []
          | v :: r => (if first then [] else lit ", ") ++ kid v ++ all false r
          end in
        match lookup "KIDs" self with
        | Some (VList l) => Some (lit "[" ++ all true l ++ lit "]")
        | _ => None
        end
      else None
    (* Data: box_types_metadata.go:129-158 *)
    else if String.eqb sname "Data" then
      let ty := as_uint (lookup "DataType" self) in
      if String.eqb fname "DataType" then
        if ty =? 0 then Some (lit "BINARY")
        else if ty =? 1 then Some (lit "UTF8")
        else if ty =? 2 then Some (lit "UTF16")
        else if ty =? 3 then Some (lit "MAC_STR")
        else if ty =? 14 then Some (lit "JPEG")
        else if ty =? 21 then Some (lit "INT")
        else if ty =? 22 then Some (lit "FLOAT32")
        else if ty =? 23 then Some (lit "FLOAT64")
        else None
      else if String.eqb fname "Data" then
        if ty =? 1 then Some (quoted_escaped (as_bytes (lookup "Data" self))) else None
      else None
    (* StringData: box_types_metadata.go:166-171 *)
    else if String.eqb sname "StringData" then
      if String.eqb fname "Data" then Some (quoted_escaped (as_bytes (lookup "Data" self))) else None
    (* Item: box_types_metadata.go:186-192 *)
    else if String.eqb sname "Item" then
      if String.eqb fname "ItemName" then Some (quoted_escaped (as_bytes (lookup "ItemName" self))) else None
    (* Key: box_types_metadata.go:249-257 *)
    else if String.eqb sname "Key" then
      if String.eqb fname "KeyNamespace" then Some (quoted_escaped (as_bytes (lookup "KeyNamespace" self)))
      else if String.eqb fname "KeyValue" then Some (quoted_escaped (as_bytes (lookup "KeyValue" self)))
      else None
    else None.

  (** stringifier: string.go:13-18.  The buffer is passed along. *)
  Variable indent : text.
  Variable rname : string.                     (* src: its struct name and its value *)
  Variable root : list (string * val).
  Variable ctx : context.
  Definition no_indent : bool := match indent with [] => true | _ => false end.

  (** writeIndent: string.go:257-261 *)
  Definition write_indent (depth : nat) (buf : text) : text :=
    buf ++ List.concat (repeat indent depth).
  (** m.buf.Len() != 0 && m.buf.Bytes()[m.buf.Len()-1] != '{': string.go:93 *)
  Definition needs_space (buf : text) : bool :=
    match rev buf with [] => false | b :: _ => negb (b2N b =? 123) end.

  (** stringifyInt: string.go:212-226.  -val does not change math.MinInt64; no
      field tagged hex has 64 bits, so the model negates exactly. *)
  Definition str_int (f : finfo) (z : Z) (buf : text) : text :=
    if f_hex f then
      if (0 <=? z)%Z then buf ++ lit "0x" ++ hex_text (Z.abs_N z)
      else buf ++ lit "-0x" ++ hex_text (Z.abs_N z)
    else buf ++ int_text z.
  (** stringifyUint: string.go:228-242.  No box has a uintptr. *)
  Definition str_uint (f : finfo) (w n : N) (buf : text) : text :=
    if f_iso639 f then buf ++ [N2b (n + 96)]
    else if f_uuid f then buf ++ pad_left 2 (hex_text n)
    else if f_string f then buf ++ [N2b n]
    else if f_hex f || (negb (f_dec f) && (w =? 8)) then buf ++ lit "0x" ++ hex_text n
    else buf ++ dec_text n.

  (** the loops of stringifyArray and stringifySlice: [sep] between elements,
      [after i] behind element i *)
  Fixpoint str_elems (elem : val -> text -> res text) (sep : text) (after : nat -> text)
           (i : nat) (l : list val) (buf : text) : res text :=
    match l with
    | [] => Ok buf
    | v :: r =>
        match elem v (buf ++ (match i with O => [] | _ => sep end)) with
        | Ok b => str_elems elem sep after (S i) r (b ++ after i)
        | e => e
        end
    end.
  Definition uuid_dash (i : nat) : text :=
    match i with 3%nat | 5%nat | 7%nat | 9%nat => lit "-" | _ => [] end.

  (** stringify: string.go:48-69 and what it dispatches to.  A value that does
      not have the shape of its type cannot exist in Go; the model answers
      [Panic] there. *)
  Fixpoint str_val (f : finfo) (len : N) (depth : nat) (t : sty) (v : val) (buf : text) : res text :=
    match t with
    | SUint w => match v with VUint n => Ok (str_uint f w n buf) | _ => Panic end
    | SInt _ => match v with VInt z => Ok (str_int f z buf) | _ => Panic end
    (* stringifyBool: :244-248 *)
    | SBool => match v with VBool b => Ok (buf ++ lit (if b then "true" else "false")) | _ => Panic end
    (* stringifyString: :250-256 *)
    | SStr => match v with VStr s => Ok (buf ++ quoted_escaped s) | _ => Panic end
    (* stringifyPtr: :71-73; the element of a nil pointer has no type: panic *)
    | SPtr u => match v with VPtr (Some x) => str_val f len depth u x buf | _ => Panic end
    (* stringifyArray: :139-174.  With the string tag the elements go to a
       buffer of their own.  (The dashes of a uuid would not; no field is tagged
       both string and uuid.) *)
    | SArr _ u =>
        match v with
        | VList l =>
            if f_string f then
              match str_elems (str_val f len (S depth) u) [] (fun _ => []) 0 l [] with
              | Ok b => Ok (buf ++ lit """" ++ escape b ++ lit """")
              | e => e
              end
            else
              let '(b, sep, e) :=
                if f_iso639 f then (lit """", [], lit """")
                else if f_uuid f then ([], [], [])
                else (lit "[", lit ", ", lit "]") in
              let after := if f_uuid f then uuid_dash else fun _ => [] in
              match str_elems (str_val f len (S depth) u) sep after 0 l (buf ++ b) with
              | Ok x => Ok (x ++ e)
              | r => r
              end
        | _ => Panic
        end
    (* stringifySlice: :176-210 *)
    | SSlice u =>
        match v with
        | VList l0 =>
            let l := if len =? LengthUnlimited then l0 else takeN len l0 in
            if f_string f then
              match str_elems (str_val f len (S depth) u) [] (fun _ => []) 0 l [] with
              | Ok b => Ok (buf ++ lit """" ++ escape b ++ lit """")
              | e => e
              end
            else
              let '(b, sep, e) :=
                if f_iso639 f then (lit """", [], lit """") else (lit "[", lit ", ", lit "]") in
              match str_elems (str_val f len (S depth) u) sep (fun _ => []) 0 l (buf ++ b) with
              | Ok x => Ok (x ++ e)
              | r => r
              end
        | _ => Panic
        end
    (* stringifyStruct: :75-137 *)
    | SStruct name cfo fs =>
        match v with
        | VStruct l =>
            if f_extend f then str_flds depth name cfo l fs buf
            else
              match str_flds (S depth) name cfo l fs
                      (buf ++ lit "{" ++ (if no_indent then [] else [N2b 10])) with
              | Ok b => Ok ((if no_indent then b else write_indent (S depth) b) ++ lit "}")
              | e => e
              end
        | _ => Panic
        end
    end
  (** the loop of stringifyStruct: string.go:84-128 *)
  with str_flds (depth : nat) (sname : string) (cfo : bool) (self : list (string * val)) (fs : flds)
                (buf : text) : res text :=
    match fs with
    | FNil => Ok buf
    | FCons f t rest =>
        let env := cfo_env root ctx cfo self in
        let cn := cfo_name rname cfo sname in
        match resolve_size cn env f, resolve_len cn env f with
        | Some _, Some len =>
            if negb (is_target (get_version root) (get_flags root) cn env f)
            then str_flds depth sname cfo self rest buf
            else if negb (String.eqb (f_cnst f) "") || f_hidden f
            then str_flds depth sname cfo self rest buf
            else
              let b1 :=
                if f_extend f then buf
                else (if no_indent then buf ++ (if needs_space buf then lit " " else [])
                      else write_indent (S depth) buf) ++ lit (f_name f) ++ lit "=" in
              let nl := if negb (f_extend f) && negb no_indent then [N2b 10] else [] in
              let receiver := if cfo then self else root in
              match stringify_field cn (f_name f) receiver with
              | Some s => str_flds depth sname cfo self rest (b1 ++ s ++ nl)
              | None =>
                  match (if String.eqb (f_name f) "Version" then Ok (b1 ++ dec_text (get_version root))
                         else if String.eqb (f_name f) "Flags" then
                           Ok (b1 ++ lit "0x" ++ pad_left 6 (hex_text (get_flags root)))
                         else match lookup (f_name f) self with
                              | Some v => str_val f len depth t v b1
                              | None => Panic
                              end) with
                  | Ok b2 => str_flds depth sname cfo self rest (b2 ++ nl)
                  | e => e
                  end
              end
        | _, _ => Panic
        end
    end.
End Stringify.

(** StringifyWithIndent, Stringify: string.go:20-46.  [t]: what src.GetType()
    answers; [x]: the box, of the struct that t is registered with. *)
Definition stringify_with_indent (graphic : N -> bool) (R : registry) (t : btype) (x : list (string * val))
           (indent : text) (ctx : context) : res text :=
  match get_box_def R t ctx with
  | None => Err ENotFound
  | Some d => str_flds graphic indent (bd_name d) x ctx 0 (bd_name d) true x (bd_flds d) []
  end.
Definition stringify (graphic : N -> bool) (R : registry) (t : btype) (x : list (string * val))
           (ctx : context) : res text :=
  stringify_with_indent graphic R t x [] ctx.
