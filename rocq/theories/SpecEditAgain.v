(** Specification of edit without options on files whose boxes need not be
    canonical: which tree is written, and what it has in common with the tree
    that was read. *)
From Verif Require Import Base Schema Registry Marshal BoxInfo SpecTree SpecExtract SpecReencode SpecEdit.
Local Open Scope string_scope.
Local Open Scope list_scope.
Local Open Scope N_scope.

Section Again.
  Variable data : list byte.             (* the file *)

  (** what Marshal makes of what Unmarshal made of the fields of a box *)
  Definition again_fields (c : context) (o : N) (b : box) : list byte :=
    match decoded data c o b with
    | Ok (_, x, _) => snd (marshal std_registry (box_type b) c x [])
    | _ => []
    end.

  (** The tree that is written: boxes of unsupported types and mdat as they are,
      the fields of the others written again, stray bytes left out.
      [anc], [qt], [keys], [o]: as in SpecExtract *)
  Fixpoint again_box (anc : list btype) (qt : bool) (keys : Z) (o : N) (b : box) {struct b} : box :=
    match b with
    | Box f t own kids slack =>
        let (qt', keys') := match enter data ctx0 anc qt keys o b with Ok x => x | _ => (qt, keys) end in
        let c := ctx_of ctx0 qt' keys' anc in
        if whole t c then b
        else
          Box f t (again_fields c o b)
            ((fix again_kids (keys : Z) (o : N) (l : list box) : list box :=
                match l with
                | [] => []
                | k :: r =>
                    again_box (anc ++ [t]) qt' keys o k ::
                    again_kids (match enter data ctx0 (anc ++ [t]) qt' keys o k with Ok x => snd x | _ => keys end)
                               (o + box_size k) r
                end) keys' (o + hsize f + lenN own) kids)
            []
    end.
  Fixpoint again_file (qt : bool) (keys : Z) (o : N) (l : list box) : list box :=
    match l with
    | [] => []
    | b :: r =>
        let (qt', keys') := match enter data ctx0 [] qt keys o b with Ok x => x | _ => (qt, keys) end in
        again_box [] qt keys o b :: again_file qt' keys' (o + box_size b) r
    end.

  (** What is needed of a box: its type is copied, or it can be decoded, its
      fields end where the boxes in it begin, and they have values that can be
      written and read (SpecReencode).  If there are boxes in it, and it is not a
      meta box, its fields are as Marshal writes them.  Stray bytes are found in
      QuickTime files only. *)
  Definition again_ok (e : entry) : Prop :=
    (exists x, e_told e = Ok x) /\
    match e_box e with
    | Box _ t own kids slack =>
        let c := bi_ctx (e_info e) in
        whole t c = false ->
        (exists d x, decoded data c (bi_offset (e_info e)) (e_box e) = Ok (d, x, lenN own) /\
                     rewritable d x = true /\
                     (kids = [] \/ bd_name d = "Meta" \/ snd (marshal std_registry t c x []) = own)) /\
        (slack = [] \/ IsQuickTimeCompatible c = true)
    end.
End Again.

(** no boxes are told apart inside a box that is copied *)
Definition closed (e : entry) : Prop :=
  match e_box e with Box _ t _ kids _ => whole t (bi_ctx (e_info e)) = true -> kids = [] end.

(** every box with a 32-bit size has a size below 2^32 *)
Fixpoint fits (b : box) : Prop :=
  match b with
  | Box f _ _ kids _ =>
      (f = Small -> 8 + lenN (payload b) < 2 ^ 32) /\
      (fix all (l : list box) : Prop := match l with [] => True | k :: r => fits k /\ all r end) kids
  end.

(** ** Two files with the same contents: the box [b] at offset [o] of [data], the
    box [b'] at offset [o'] of [data']. *)
Section Same.
  Variables data data' : list byte.
  Fixpoint same_box (anc : list btype) (qt : bool) (keys : Z) (o o' : N) (b b' : box) {struct b} : Prop :=
    match b, b' with
    | Box f t own kids _, Box f' t' own' kids' slack' =>
        exists qt1 keys1,
          (* they tell the same about the file *)
          enter data ctx0 anc qt keys o b = Ok (qt1, keys1) /\
          enter data' ctx0 anc qt keys o' b' = Ok (qt1, keys1) /\
          let c := ctx_of ctx0 qt1 keys1 anc in
          if whole t c then b' = b
          else
            f' = f /\ t' = t /\ slack' = [] /\
            (* they are decoded to the same box *)
            (exists d x, decoded data c o b = Ok (d, x, lenN own) /\ decoded data' c o' b' = Ok (d, x, lenN own')) /\
            (* and so are the boxes in them, one by one *)
            (fix same_kids (keys : Z) (o o' : N) (l l' : list box) {struct l} : Prop :=
               match l, l' with
               | [], [] => True
               | k :: r, k' :: r' =>
                   same_box (anc ++ [t]) qt1 keys o o' k k' /\
                   same_kids (match enter data ctx0 (anc ++ [t]) qt1 keys o k with Ok x => snd x | _ => keys end)
                             (o + box_size k) (o' + box_size k') r r'
               | _, _ => False
               end) keys1 (o + hsize f + lenN own) (o' + hsize f + lenN own') kids kids'
    end.
  Fixpoint same_file (qt : bool) (keys : Z) (o o' : N) (l l' : list box) : Prop :=
    match l, l' with
    | [], [] => True
    | b :: r, b' :: r' =>
        same_box [] qt keys o o' b b' /\
        let (qt1, keys1) := match enter data ctx0 [] qt keys o b with Ok x => x | _ => (qt, keys) end in
        same_file qt1 keys1 (o + box_size b) (o' + box_size b') r r'
    | _, _ => False
    end.
End Same.
