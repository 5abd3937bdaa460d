(** Model of methods of boxes that the codec itself does not call: the flags of a
    full box (box.go) and the brands of a file type box. *)
From Verif Require Import Base Schema Structs Registry Marshal Unmarshal BoxInfo ReadTree.
Local Open Scope string_scope.
Local Open Scope list_scope.
Local Open Scope N_scope.

Notation fields := (list (string * val)) (only parsing).

(** FullBox.SetFlags: box.go:173-178; Box.SetFlags does nothing: box.go:131-133 *)
Definition byte_of (n : N) : N := n mod 256.
Definition set_flags (flags : N) (root : fields) : fields :=
  match fullbox_of root with
  | Some l =>
      update "FullBox" (VStruct (update "Flags"
        (VList [VUint (byte_of (N.shiftr flags 16)); VUint (byte_of (N.shiftr flags 8)); VUint (byte_of flags)]) l)) root
  | None => root
  end.
(** CheckFlag: box.go:126-129 (Box: always true), 168-171 (FullBox) *)
Definition check_flag (flag : N) (root : fields) : bool :=
  match fullbox_of root with
  | Some _ => negb (N.land (get_flags root) flag =? 0)
  | None => true
  end.
(** AddFlag, RemoveFlag: box.go:135-141 (Box: nothing), 180-188.  [^flag] is the
    complement in 32 bits. *)
Definition add_flag (flag : N) (root : fields) : fields := set_flags (N.lor (get_flags root) flag) root.
Definition remove_flag (flag : N) (root : fields) : fields :=
  set_flags (N.land (get_flags root) (4294967295 - flag)) root.

(** Ftyp.AddCompatibleBrand: box_types_iso14496_12.go:568-574 *)
Definition brand_elem (b : list byte) : val := VStruct [("CompatibleBrand", VList (map (fun c => VUint (b2N c)) b))].
Definition brand_list (ftyp : fields) : list val :=
  match lookup "CompatibleBrands" ftyp with Some (VList l) => l | _ => [] end.
Definition add_compatible_brand (ftyp : fields) (b : list byte) : fields :=
  if has_compatible_brand ftyp b then ftyp
  else update "CompatibleBrands" (VList (brand_list ftyp ++ [brand_elem b])) ftyp.

(** Ftyp.RemoveCompatibleBrand: box_types_iso14496_12.go:576-585.  The loop with
    its index [i]; an element equal to the brand is replaced by the last one.
    [None]: out of fuel. *)
Definition brand_of_elem (e : val) : list byte :=
  match e with VStruct fs => as_bytes (lookup "CompatibleBrand" fs) | _ => [] end.
Fixpoint remove_loop (fuel : nat) (b : list byte) (i : N) (l : list val) : option (list val) :=
  match fuel with
  | O => None
  | S k =>
      if i <? lenN l then
        let x := nth (N.to_nat i) l (VStruct []) in
        if negb (bytes_eqb (brand_of_elem x) b) then remove_loop k b (i + 1) l
        else
          let last := nth (N.to_nat (lenN l - 1)) l (VStruct []) in
          remove_loop k b i (takeN (lenN l - 1) (takeN i l ++ [last] ++ skipN (i + 1) l))
      else Some l
  end.
Definition remove_compatible_brand (ftyp : fields) (b : list byte) : option fields :=
  match remove_loop (S (List.length (brand_list ftyp))) b 0 (brand_list ftyp) with
  | Some l => Some (update "CompatibleBrands" (VList l) ftyp)
  | None => None
  end.
