(** A notation for the syntax tables of the file format specifications
    (ISO/IEC 14496-12, 14496-14, 14496-15, 23001-7, ETSI TS 102 366, the AV1,
    VP9, Opus and FLAC bindings, the QuickTime file format), and the bits that a
    box value stands for according to such a table.

    A table is a list of columns: a condition, the name of a field, and its
    form.  All integers are big-endian. *)
From Verif Require Import Base Schema SpecCodec.
Local Open Scope string_scope.
Local Open Scope list_scope.
Local Open Scope N_scope.

(** ** Forms.  Sizes are in bits.  Sizes, counts and conditions may refer to
    other fields, to the version and to the flags ([mexp], [mcond]). *)
Inductive form : Set :=
| UInt (size : mexp)               (* unsigned int(size) *)
| SInt' (size : mexp)              (* signed int(size), two's complement *)
| Bit (size : mexp)                (* bit(size), all equal *)
| ZString                          (* string, terminated by a NUL *)
| RestString                       (* string, up to the end *)
| Expandable                       (* 4 groups of 7 bits, 14496-1 8.3.3 *)
| Times (n : N) (s : form)         (* n of them *)
| Several (count : mexp) (s : form) (* count of them; 0xffffffff means no limit *)
| ToTheEnd (s : form)              (* as many as there are *)
| Present (s : form)               (* present (the value is a pointer) *)
| Absent                           (* takes no room *)
(* columns; [own]: conditions, sizes and counts in them refer to the group's own
   fields, else to those of the box *)
| Group (own : bool) (l : list (mcond * string * form)).
Definition table := list (mcond * string * form).

(** ** The bits of a value *)
Definition number (env : menv) (e : mexp) : N := match meval env e with Some n => n | None => 0 end.
Definition elements (v : val) : list val := match v with VList l => l | _ => [] end.
Definition members (v : val) : fields := match v with VStruct l => l | _ => [] end.
Definition pointee (v : val) : val := match v with VPtr (Some x) => x | _ => VPtr None end.
(** a struct has all its members; the default does not matter *)
Definition member (name : string) (v : val) : val :=
  match lookup name (members v) with Some x => x | None => VPtr None end.

(** [root]: the box; [env]: what conditions, sizes and counts refer to *)
Section Meaning.
  Variable root : fields.
  Variable ctx : context.
  Definition seen_from (self : fields) : menv := mkenv self (get_version root) (get_flags root) ctx.
  Fixpoint bits_of (env : menv) (s : form) (v : val) {struct s} : list bool :=
    match s with
    | UInt e => uint_bits (number env e) (as_uint (Some v))
    | SInt' e => int_bits (number env e) (as_Z (Some v))
    | Bit e => bool_bits (number env e) (as_bool (Some v))
    | ZString => cstring_bits (as_bytes (Some v))
    | RestString => bits_of_bytes (as_bytes (Some v))
    | Expandable => varint_bits (as_uint (Some v))
    | Times n s => flat_map (bits_of env s) (takeN n (elements v))
    | Several e s =>
        flat_map (bits_of env s)
          (if number env e =? 4294967295 then elements v else takeN (number env e) (elements v))
    | ToTheEnd s => flat_map (bits_of env s) (elements v)
    | Present s => bits_of env s (pointee v)
    | Absent => []
    | Group own l =>
        let env' := seen_from (if own then members v else root) in
        flat_map (fun c => let '(cond, name, s) := c in
                           if ceval env' cond then bits_of env' s (member name v) else []) l
    end.
End Meaning.
(** the payload of the box [x] according to a table *)
Definition table_bits (T : table) (ctx : context) (x : fields) : list bool :=
  bits_of x ctx (seen_from x ctx x) (Group true T) (VStruct x).

(** ** Shorthands for the tables *)
Definition is (name : string) (s : form) : mcond * string * form := (CTrue, name, s).
Definition v0 (name : string) (s : form) : mcond * string * form := (CVersion 0, name, s).
Definition v1 (name : string) (s : form) : mcond * string * form := (CVersion 1, name, s).
Definition when (c : mcond) (name : string) (s : form) : mcond * string * form := (c, name, s).
Definition u (n : N) : form := UInt (MConst n).
Definition i (n : N) : form := SInt' (MConst n).
Definition flag1 : form := Bit (MConst 1).
(** class FullBox *)
Definition FullBoxHeader : mcond * string * form :=
  is "FullBox" (Group true [is "Version" (u 8); is "Flags" (Times 3 (u 8))]).
