(** Specification of the values that a payload represents faithfully.

    [layout] (SpecCodec.v) says which bits a value is written as.  A reader can
    only get the value back if nothing in it is lost or ambiguous in those bits:
    a string must not contain its own terminator, a list without a stored length
    must extend to the end of the payload, a list with a stored length must have
    exactly that many elements, an absent field must have the value that a fresh
    box has, and so on.  [well_formed] collects these conditions. *)
From Verif Require Import Base Schema Methods Registry SpecCodec.
Local Open Scope string_scope.
Local Open Scope list_scope.
Local Open Scope N_scope.

Fixpoint val_eqb (a b : val) : bool :=
  match a, b with
  | VUint m, VUint n => m =? n
  | VInt m, VInt n => (m =? n)%Z
  | VBool m, VBool n => Bool.eqb m n
  | VStr m, VStr n => bytes_eqb m n
  | VList l, VList m =>
      (fix go (l m : list val) : bool :=
         match l, m with
         | [], [] => true
         | x :: l', y :: m' => val_eqb x y && go l' m'
         | _, _ => false
         end) l m
  | VPtr None, VPtr None => true
  | VPtr (Some x), VPtr (Some y) => val_eqb x y
  | VStruct l, VStruct m =>
      (fix go (l m : list (string * val)) : bool :=
         match l, m with
         | [], [] => true
         | (j, x) :: l', (k, y) :: m' => String.eqb j k && val_eqb x y && go l' m'
         | _, _ => false
         end) l m
  | _, _ => false
  end.
Fixpoint strs_eqb (a b : list string) : bool :=
  match a, b with
  | [], [] => true
  | x :: a', y :: b' => String.eqb x y && strs_eqb a' b'
  | _, _ => false
  end.
Definition no_nul (s : list byte) : bool := forallb (fun b => negb (b2N b =? 0)) s.

Fixpoint names_of (fs : flds) : list string :=
  match fs with FNil => [] | FCons f _ r => f_name f :: names_of r end.

Section RoundTrip.
  Variables (rname : string) (root : fields) (ctx : context).

  (** the elements of a list, one after the other: [p] bits precede the first,
      [rem] bits of the payload (or of the enclosing sized struct) are left.
      [ok p rem cur x]: the condition on one element. *)
  Fixpoint rt_list (ok : N -> N -> val -> val -> bool) (enc : val -> option (list bool))
      (p rem : N) (cur l : list val) : bool :=
    match l, cur with
    | [], [] => true
    | x :: r, c :: cr =>
        match enc x with
        | Some b => ok p (rem - lenN b) c x && rt_list ok enc (p + lenN b) (rem - lenN b) cr r
        | None => false
        end
    | _, _ => false
    end.

  (** [p]: bits before this value, counted from the start of the payload;
      [rem]: bits AFTER this value in the payload or the enclosing sized struct;
      [cur]: what the destination holds before. *)
  Fixpoint rt_val (p rem : N) (f : finfo) (size len : N) (t : sty) (cur v : val) : bool :=
    match t, v with
    | SUint w, VUint n => f_varint f || (1 <=? size) && (size <=? 64)
    | SInt w, VInt z => (size <=? w) && (w <=? 64)
    | SBool, VBool _ => 1 <=? size
    | SStr, VStr s => negb (f_cp f) && no_nul s && (negb (f_boxString f) || (rem =? 0))
    | SPtr u, VPtr (Some x) => rt_val p rem f size len u (zero u) x
    | SArr n u, VList l =>
        match cur with
        | VList cl =>
            let enc := layout_val rname root ctx f size len u in
            match concat_bits enc l with
            | Some b => rt_list (fun p rem => rt_val p rem f size len u) enc p (rem + lenN b) cl l
            | None => false
            end
        | _ => false
        end
    | SSlice u, VList l =>
        let enc := layout_val rname root ctx f size len u in
        match concat_bits enc l with
        | Some b =>
            (if len =? LengthUnlimited
             then (rem =? 0) && ((size =? 0) || (lenN b mod size =? 0)) &&
                  forallb (fun x => match enc x with Some (_ :: _) => true | _ => false end) l
             else lenN l =? len) &&
            rt_list (fun p rem => rt_val p rem f size len u) enc p (rem + lenN b)
                    (repeat (zero u) (List.length l)) l
        | None => false
        end
    | SStruct name cfo fs, VStruct l =>
        match cur with
        | VStruct cl =>
            strs_eqb (map fst l) (names_of fs) && strs_eqb (map fst cl) (names_of fs) &&
            match layout_flds rname root ctx None name cfo l fs with
            | Some b =>
                if negb (size =? 0) && (size mod 8 =? 0)
                then (p mod 8 =? 0) && (lenN b =? size) && rt_flds None p size name cfo l cl fs
                else rt_flds None p (rem + lenN b) name cfo l cl fs
            | None => false
            end
        | _ => false
        end
    | _, _ => false
    end
  (** Here [rem] counts the bits from [p] on to the end of the payload or of the
      enclosing sized struct. *)
  with rt_flds (top : option N) (p rem : N) (sname : string) (cfo : bool) (self cur : fields)
      (fs : flds) : bool :=
    match fs with
    | FNil => true
    | FCons f t rest =>
        let (cn, env) := owner rname root ctx cfo sname self in
        match resolve_size cn env f, resolve_len cn env f, lookup (f_name f) self,
              lookup (f_name f) cur with
        | Some size, Some len, Some x, Some c =>
            let plain := layout_val rname root ctx f size len t x in
            match field_bits rname root ctx top cn env self f plain with
            | Some b =>
                let rem' := rem - lenN b in
                (if enabled (get_version root) (get_flags root) cn env f then
                   match hook_of cn (f_name f) with
                   | HNone => rt_val p rem' f size len t c x
                   | HEmsgSkip =>
                       if get_version root =? 0 then rt_val p rem' f size len t c x else true
                   | HEmsgData =>
                       if get_version root =? 0 then rt_val p rem' f size len t c x
                       else match lookup "SchemeIdUri" self, lookup "Value" self with
                            | Some (VStr s1), Some (VStr s2) =>
                                no_nul s1 && no_nul s2 && (p mod 8 =? 0) &&
                                rt_val (p + 8 * (lenN s1 + 1) + 8 * (lenN s2 + 1)) rem' f size len t c x
                            | _, _ => false
                            end
                   (* the handler name is the rest of the box, and must not look like a
                      counted (Pascal) string in a box of QuickTime style *)
                   | HHdlrName =>
                       match t, x with
                       | SStr, VStr s =>
                           negb (f_boxString f) && no_nul s && (rem' =? 0) && (p mod 8 =? 0) &&
                           negb (negb (as_uint (lookup "PreDefined" self) =? 0) &&
                                 match s with
                                 | [] => false
                                 | b :: _ => lenN s + 1 =? (b2N b + 1) mod 256
                                 end)
                       | _, _ => false
                       end
                   (* true iff the profile has the extra fields and room is left for them *)
                   | HAvcHigh =>
                       match x with
                       | VBool h => Bool.eqb h ((32 <=? rem) &&
                                                is_high_profile (as_uint (lookup "Profile" self)))
                       | _ => false
                       end
                   end
                 else val_eqb x c) &&
                rt_flds (option_map (fun n => n + lenN b) top) (p + lenN b) rem' sname cfo self cur rest
            | None => false
            end
        | _, _, _, _ => false
        end
    end.
End RoundTrip.

(** A value of the box type [d] that its payload represents faithfully: it has a
    layout of a whole number of bytes (less than 2^48 of them), its version is a
    registered one, and the conditions above hold for a fresh destination.  A
    meta box must have version and flags 0, otherwise its payload looks like the
    QuickTime form, which has neither. *)
Definition well_formed (d : boxdef) (ctx : context) (v : fields) : bool :=
  strs_eqb (map fst v) (names_of (bd_flds d)) &&
  match layout (bd_name d) (bd_flds d) ctx v with
  | Some bits =>
      (lenN bits mod 8 =? 0) && (lenN bits <? 2 ^ 51) &&
      version_in (bd_versions d) (get_version v) &&
      implb (String.eqb (bd_name d) "Meta") ((get_version v =? 0) && (get_flags v =? 0)) &&
      rt_flds (bd_name d) v ctx (Some 0) 0 (lenN bits) (bd_name d) true v
        (set_version anyVersion (zero_flds (bd_flds d))) (bd_flds d)
  | None => false
  end.
