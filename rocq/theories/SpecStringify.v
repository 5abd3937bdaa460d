(** What Stringify should print: the visible, enabled fields of a box, in the
    order of their declaration, each once, as name=value. *)
From Verif Require Import Base Schema Methods Registry SpecCodec GoText.
Local Open Scope string_scope.
Local Open Scope list_scope.
Local Open Scope N_scope.

(** ** What is shown *)
Inductive shown : Type :=
| Text (s : text)                         (* a number, a name, a quoted string *)
| Record (l : list (string * shown))      (* a struct *)
| Items (l : list shown).                 (* an array or slice *)

Section Show.
  Variable graphic : N -> bool.           (* unicode.IsGraphic *)

  (** a string in quotes, with a point for every character that is not graphic *)
  Definition printable (s : text) : text := map_runes (fun r => if graphic r then r else 46) s.
  Definition quoted (s : text) : text := lit """" ++ printable s ++ lit """".

  (** a fixed point number with k fraction bits: an integer, or p decimals *)
  Definition fixed_point (k p : N) (z : Z) : text :=
    if (z mod Z.of_N (2 ^ k) =? 0)%Z then int_text (z / Z.of_N (2 ^ k)) else float_text k p z.

  Definition join (sep : text) (l : list text) : text :=
    match l with
    | [] => []
    | x :: r => x ++ List.concat (map (fun y => sep ++ y) r)
    end.

  Definition bytes_in (l : list val) : list byte := map (fun v => N2b (as_uint (Some v))) l.

  (** Fields with a form of their own.  The rest is in [show_val]. *)
  Definition one_of (names : list (N * string)) (n : N) : option text :=
    match find (fun p => fst p =? n) names with Some p => Some (lit (snd p)) | None => None end.
  Definition own_form (struct field : string) (self : list (string * val)) : option text :=
    let is s f := String.eqb struct s && String.eqb field f in
    let value := lookup field self in
    (* the version in decimal, the three bytes of flags as one hexadecimal number *)
    if is "FullBox" "Version" then Some (dec_text (as_uint value))
    else if is "FullBox" "Flags" then
      match value with
      | Some (VList [a; b; c]) =>
          Some (lit "0x" ++ pad_left 6 (hex_text (65536 * as_uint (Some a) + 256 * as_uint (Some b) + as_uint (Some c))))
      | _ => None
      end
    (* fixed point numbers *)
    else if is "Mvhd" "Rate" || is "AudioSampleEntry" "SampleRate" || is "Tkhd" "Width" || is "Tkhd" "Height"
    then Some (fixed_point 16 5 (as_Z value))
    else if is "Smhd" "Balance" then Some (fixed_point 8 3 (as_Z value))
    (* a counted string in 32 bytes; anything else is shown as bytes *)
    else if is "VisualSampleEntry" "Compressorname" then
      match as_bytes value with
      | n :: s => if b2N n <? 32 then Some (quoted (takeN (b2N n) s)) else None
      | [] => None
      end
    (* names of numbers *)
    else if is "Descriptor" "Tag" then
      if (as_Z value <? 0)%Z then None
      else one_of [(3, "ESDescr"); (4, "DecoderConfigDescr"); (5, "DecSpecificInfo"); (6, "SLConfigDescr")]
             (Z.to_N (as_Z value))
    else if is "Data" "DataType" then
      one_of [(0, "BINARY"); (1, "UTF8"); (2, "UTF16"); (3, "MAC_STR"); (14, "JPEG"); (21, "INT");
              (22, "FLOAT32"); (23, "FLOAT64")] (as_uint value)
    (* byte sequences that hold text *)
    else if is "Data" "Data" then
      if as_uint (lookup "DataType" self) =? 1 then Some (quoted (as_bytes value)) else None
    else if is "StringData" "Data" || is "Item" "ItemName" || is "Key" "KeyNamespace" || is "Key" "KeyValue"
    then Some (quoted (as_bytes value))
    (* the key ids of a protection system *)
    else if is "Pssh" "KIDs" then
      match value with
      | Some (VList l) =>
          Some (lit "[" ++ join (lit ", ") (map (fun v =>
                  match v with VStruct e => uuid_text (as_bytes (lookup "KID" e)) | _ => [] end) l) ++ lit "]")
      | _ => None
      end
    else None.

  Definition show_uint (f : finfo) (w n : N) : text :=
    if f_hex f || ((w =? 8) && negb (f_dec f)) then lit "0x" ++ hex_text n else dec_text n.
  Definition show_int (f : finfo) (z : Z) : text :=
    if f_hex f then (if (z <? 0)%Z then lit "-0x" else lit "0x") ++ hex_text (Z.abs_N z) else int_text z.

  (** neither reserved nor marked hidden *)
  Definition visible (f : finfo) : bool := String.eqb (f_cnst f) "" && negb (f_hidden f).

  Variable rname : string.                (* struct of the box *)
  Variable root : list (string * val).    (* the box *)
  Variable ctx : context.

  Fixpoint show_val (f : finfo) (t : sty) (v : val) : shown :=
    match t, v with
    | SUint w, VUint n => Text (show_uint f w n)
    | SInt _, VInt z => Text (show_int f z)
    | SBool, VBool b => Text (lit (if b then "true" else "false"))
    | SStr, VStr s => Text (quoted s)
    | SPtr u, VPtr (Some x) => show_val f u x
    | SArr _ u, VList l | SSlice u, VList l =>
        if f_string f then Text (quoted (bytes_in l))
        (* three letters, stored as numbers from 1 *)
        else if f_iso639 f then Text (lit """" ++ map (fun v => N2b (96 + as_uint (Some v))) l ++ lit """")
        else if f_uuid f then Text (uuid_text (bytes_in l))
        else Items (map (show_val f u) l)
    | SStruct name cfo fs, VStruct l => Record (show_flds name cfo l fs)
    | _, _ => Text []
    end
  (** the fields of a struct; those of an embedded struct stand among them *)
  with show_flds (sname : string) (cfo : bool) (self : list (string * val)) (fs : flds)
       : list (string * shown) :=
    match fs with
    | FNil => []
    | FCons f t rest =>
        let (cn, env) := owner rname root ctx cfo sname self in
        (if enabled (get_version root) (get_flags root) cn env f && visible f then
           let v :=
             match own_form sname (f_name f) self with
             | Some s => Text s
             | None => match lookup (f_name f) self with Some v => show_val f t v | None => Text [] end
             end in
           if f_extend f then match v with Record l => l | _ => [] end
           else [(f_name f, v)]
         else []) ++ show_flds sname cfo self rest
    end.
End Show.

(** ** How it is written.  Without indentation: the fields separated by blanks;
    with: one to a line, at its depth. *)
Section Write.
  Variable indent : text.
  Definition oneline : bool := match indent with [] => true | _ => false end.
  Definition margin (depth : nat) : text := List.concat (repeat indent depth).
  Definition lines (depth : nat) (items : list text) : text :=
    if oneline then join (lit " ") items
    else List.concat (map (fun i => margin (S depth) ++ i ++ [N2b 10]) items).
  Fixpoint write (depth : nat) (v : shown) : text :=
    match v with
    | Text s => s
    | Record l =>
        lit "{" ++ (if oneline then [] else [N2b 10]) ++
        lines (S depth) (map (fun p => lit (fst p) ++ lit "=" ++ write (S depth) (snd p)) l) ++
        (if oneline then [] else margin (S depth)) ++ lit "}"
    | Items l => lit "[" ++ join (lit ", ") (map (write (S depth)) l) ++ lit "]"
    end.
  Definition write_fields (depth : nat) (l : list (string * shown)) : text :=
    lines depth (map (fun p => lit (fst p) ++ lit "=" ++ write depth (snd p)) l).
End Write.

(** ** The text of a box *)
Definition box_text (graphic : N -> bool) (indent : text) (ctx : context) (d : boxdef)
           (x : list (string * val)) : text :=
  write_fields indent 0 (show_flds graphic (bd_name d) x ctx (bd_name d) true x (bd_flds d)).

(** ** Boxes that can be printed: every field that the box has (by its version,
    its flags and the rules of its type) holds a value of the field's Go type
    that fits the declared number of bits, no pointer is nil, and no slice is longer than declared. *)
Section Typed.
  Variable rname : string.
  Variable root : list (string * val).
  Variable ctx : context.
  Fixpoint has_type (f : finfo) (size len : N) (t : sty) (v : val) : bool :=
    match t, v with
    | SUint w, VUint n => (n <? 2 ^ w) && (f_varint f || (n <? 2 ^ size))
    | SInt _, VInt _ | SBool, VBool _ | SStr, VStr _ => true
    | SPtr u, VPtr (Some x) => has_type f size len u x
    | SArr n u, VList l => (lenN l =? n) && forallb (has_type f size len u) l
    | SSlice u, VList l =>
        ((len =? LengthUnlimited) || (lenN l <=? len)) && forallb (has_type f size len u) l
    | SStruct name cfo fs, VStruct l => has_fields name cfo l fs
    | _, _ => false
    end
  with has_fields (sname : string) (cfo : bool) (self : list (string * val)) (fs : flds) : bool :=
    match fs with
    | FNil => true
    | FCons f t rest =>
        let (cn, env) := owner rname root ctx cfo sname self in
        match resolve_size cn env f, resolve_len cn env f with
        | Some size, Some len =>
            (if enabled (get_version root) (get_flags root) cn env f then
               match lookup (f_name f) self with Some v => has_type f size len t v | None => false end
             else true) && has_fields sname cfo self rest
        | _, _ => false
        end
    end.
End Typed.
Definition complete_box (ctx : context) (d : boxdef) (x : list (string * val)) : bool :=
  has_fields (bd_name d) x ctx (bd_name d) true x (bd_flds d).
