(** Specification of edit with its options on files whose boxes need not be
    canonical. *)
From Verif Require Import Base Schema Registry Marshal BoxInfo SpecTree SpecExtract SpecReencode SpecEdit.
Local Open Scope string_scope.
Local Open Scope list_scope.
Local Open Scope N_scope.

(** the boxes whose decode time is replaced *)
Definition retimed (time : option N) (t : btype) : bool :=
  match time with Some _ => bt_eqb t (bt "tfdt") | None => false end.

Section Any.
  Variable data : list byte.             (* the file *)
  Variable dropped : btype -> bool.      (* the types to drop *)
  Variable time : option N.              (* the new decode time *)

  (** what Marshal makes of what Unmarshal made of the fields of a box, with the
      new decode time *)
  Definition any_fields (c : context) (o : N) (b : box) : list byte :=
    match decoded data c o b with
    | Ok (_, x, _) => new_time time (box_type b) (snd (marshal std_registry (box_type b) c x []))
    | _ => []
    end.

  (** The tree that is written.  [anc], [qt], [keys], [o]: as in SpecExtract *)
  Fixpoint any_box (anc : list btype) (qt : bool) (keys : Z) (o : N) (b : box) {struct b} : list box :=
    match b with
    | Box f t own kids slack =>
        let (qt', keys') := match enter data ctx0 anc qt keys o b with Ok x => x | _ => (qt, keys) end in
        let c := ctx_of ctx0 qt' keys' anc in
        if dropped t then []
        else if whole t c then [b]
        else
          [Box f t (any_fields c o b)
             ((fix any_kids (keys : Z) (o : N) (l : list box) : list box :=
                 match l with
                 | [] => []
                 | k :: r =>
                     any_box (anc ++ [t]) qt' keys o k ++
                     any_kids (match enter data ctx0 (anc ++ [t]) qt' keys o k with Ok x => snd x | _ => keys end)
                              (o + box_size k) r
                 end) keys' (o + hsize f + lenN own) kids)
             []]
    end.
  Fixpoint any_file (qt : bool) (keys : Z) (o : N) (l : list box) : list box :=
    match l with
    | [] => []
    | b :: r =>
        let (qt', keys') := match enter data ctx0 [] qt keys o b with Ok x => x | _ => (qt, keys) end in
        any_box [] qt keys o b ++ any_file qt' keys' (o + box_size b) r
    end.

  (** What is needed of a box, as in SpecEditAgain; nothing of a box that is
      dropped. *)
  Definition any_ok (e : entry) : Prop :=
    (exists x, e_told e = Ok x) /\
    match e_box e with
    | Box _ t own kids slack =>
        let c := bi_ctx (e_info e) in
        dropped t = false -> whole t c = false ->
        (exists d x, decoded data c (bi_offset (e_info e)) (e_box e) = Ok (d, x, lenN own) /\
                     rewritable d x = true /\
                     (kids = [] \/ bd_name d = "Meta" \/ snd (marshal std_registry t c x []) = own)) /\
        (slack = [] \/ IsQuickTimeCompatible c = true)
    end.

  (** ** What the file that is written has in common with the file that was read:
      the box [b] at offset [o] of [data], the boxes [l'] at offset [o'] of [data'],
      which are what became of it. *)
  Variable data' : list byte.
  Fixpoint kept_box (anc : list btype) (qt : bool) (keys : Z) (o o' : N) (b : box) (l' : list box) {struct b} : Prop :=
    match b with
    | Box f t own kids _ =>
        if dropped t then
          (* it told nothing, so that the boxes after it mean the same without it *)
          l' = [] /\ enter data ctx0 anc qt keys o b = Ok (qt, keys)
        else exists b', l' = [b'] /\
          exists qt1 keys1,
            (* they tell the same about the file *)
            enter data ctx0 anc qt keys o b = Ok (qt1, keys1) /\
            enter data' ctx0 anc qt keys o' b' = Ok (qt1, keys1) /\
            let c := ctx_of ctx0 qt1 keys1 anc in
            if whole t c then b' = b
            else exists own' kids', b' = Box f t own' kids' [] /\
              (exists d x, decoded data c o b = Ok (d, x, lenN own) /\
                 (* the decode time is changed, or they are decoded to the same box *)
                 (if retimed time t then own' = new_time time t own
                  else decoded data' c o' b' = Ok (d, x, lenN own'))) /\
              (* the same for the boxes in them, one by one *)
              (fix kept_kids (keys : Z) (o o' : N) (l l' : list box) {struct l} : Prop :=
                 match l with
                 | [] => l' = []
                 | k :: r => exists k' r', l' = k' ++ r' /\
                     kept_box (anc ++ [t]) qt1 keys o o' k k' /\
                     kept_kids (match enter data ctx0 (anc ++ [t]) qt1 keys o k with Ok x => snd x | _ => keys end)
                               (o + box_size k) (o' + lenN (file_bytes k')) r r'
                 end) keys1 (o + hsize f + lenN own) (o' + hsize f + lenN own') kids kids'
    end.
  Fixpoint kept_file (qt : bool) (keys : Z) (o o' : N) (l l' : list box) : Prop :=
    match l with
    | [] => l' = []
    | b :: r => exists b' r', l' = b' ++ r' /\
        kept_box [] qt keys o o' b b' /\
        let (qt1, keys1) := match enter data ctx0 [] qt keys o b with Ok x => x | _ => (qt, keys) end in
        kept_file qt1 keys1 (o + box_size b) (o' + lenN (file_bytes b')) r r'
    end.
End Any.
