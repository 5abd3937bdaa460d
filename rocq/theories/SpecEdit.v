(** Specification of the edit command: what happens to the tree of a file. *)
From Verif Require Import Base Schema Registry BoxInfo SpecTree SpecExtract SpecLossless Text.
Local Open Scope string_scope.
Local Open Scope list_scope.
Local Open Scope N_scope.

Section Edited.
  Variable data : list byte.             (* the file *)
  Variable dropped : btype -> bool.      (* the types to drop *)
  Variable time : option N.              (* the new decode time *)

  (** A tfdt box: version, flags, and the decode time, which has 4 bytes in
      version 0 and 8 bytes in version 1. *)
  Definition new_time (t : btype) (own : list byte) : list byte :=
    match time with
    | Some v =>
        if bt_eqb t (bt "tfdt") then
          takeN 4 own ++ (if be_to_N (takeN 1 own) =? 0 then N_to_be 4 (v mod 2 ^ 32) else N_to_be 8 v)
        else own
    | None => own
    end.

  (** boxes that are taken over as they are *)
  Definition whole (t : btype) (c : context) : bool := negb (is_supported std_registry t c) || bt_eqb t (bt "mdat").

  (** [anc], [qt], [keys], [o]: as in SpecExtract *)
  Fixpoint edit_box (anc : list btype) (qt : bool) (keys : Z) (o : N) (b : box) {struct b} : list box :=
    match b with
    | Box f t own kids slack =>
        let (qt', keys') := match enter data ctx0 anc qt keys o b with Ok x => x | _ => (qt, keys) end in
        if dropped t then []
        else if whole t (ctx_of ctx0 qt' keys' anc) then [b]
        else
          [Box f t (new_time t own)
             ((fix edit_kids (keys : Z) (o : N) (l : list box) : list box :=
                 match l with
                 | [] => []
                 | k :: r =>
                     edit_box (anc ++ [t]) qt' keys o k ++
                     edit_kids (match enter data ctx0 (anc ++ [t]) qt' keys o k with Ok x => snd x | _ => keys end)
                               (o + box_size k) r
                 end) keys' (o + hsize f + lenN own) kids)
             []]
    end.
  Fixpoint edit_boxes (qt : bool) (keys : Z) (o : N) (l : list box) : list box :=
    match l with
    | [] => []
    | b :: r =>
        let (qt', keys') := match enter data ctx0 [] qt keys o b with Ok x => x | _ => (qt, keys) end in
        edit_box [] qt keys o b ++ edit_boxes qt' keys' (o + box_size b) r
    end.

  (** What is needed of a box that is decoded and encoded again: its definition is
      plain (SpecLossless), its fields end where the boxes in it begin; and it has
      stray bytes only in a QuickTime file.  ftyp and keys boxes can be decoded. *)
  Definition editable (e : entry) : Prop :=
    (exists x, e_told e = Ok x) /\
    match e_box e with
    | Box _ t own _ slack =>
        dropped t = false -> whole t (bi_ctx (e_info e)) = false ->
        (exists d x, decoded data (bi_ctx (e_info e)) (bi_offset (e_info e)) (e_box e) = Ok (d, x, lenN own) /\
                     plain_box d = true) /\
        (slack = [] \/ IsQuickTimeCompatible (bi_ctx (e_info e)) = true)
    end.
End Edited.
