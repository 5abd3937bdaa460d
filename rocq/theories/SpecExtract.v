(** Specification of ExtractBoxes: the listing of all boxes of a file, and which
    of them a set of path patterns selects. *)
From Verif Require Import Base Schema Structs Registry Unmarshal BoxInfo ReadTree SpecTree.
Local Open Scope string_scope.
Local Open Scope list_scope.
Local Open Scope N_scope.

(** ** Paths.  The type 0x00000000 is the wildcard of a pattern; a box that has
    this type itself is never selected, nor is anything in it. *)
Definition wildcard : btype := N_to_be 4 0.
Definition named (p : path) : bool := forallb (fun t => negb (bt_eqb t wildcard)) p.
Fixpoint matches (q p : path) : bool :=
  match q, p with
  | [], [] => true
  | a :: q', t :: p' => (bt_eqb a wildcard || bt_eqb a t) && matches q' p'
  | _, _ => false
  end.
(** [p] leads to a place above something [q] stands for *)
Fixpoint leads (q p : path) : bool :=
  match q, p with
  | _ :: _, [] => true
  | a :: q', t :: p' => (bt_eqb a wildcard || bt_eqb a t) && leads q' p'
  | [], _ => false
  end.
(** [skip]: the number of boxes the patterns do not mention: 1 below a parent *)
Definition selected (skip : nat) (paths : list path) (p : path) : bool :=
  named p && existsb (fun q => matches q (skipn skip p)) paths.
Definition opened (skip : nat) (paths : list path) (p : path) : bool :=
  named p && existsb (fun q => leads q (skipn skip p)) paths.

(** ** All boxes of a tree in file order, each with its path, its information
    and the tree it stands for *)
Record entry := { e_path : path; e_info : boxinfo; e_box : box; e_told : res (bool * Z) }.
Section Listing.
  Variable data : list byte.
  Variable base : context.
  Fixpoint list_box (anc : list btype) (qt : bool) (keys : Z) (o : N) (b : box) {struct b} : list entry :=
    match b with
    | Box f t own kids slack =>
        let told := enter data base anc qt keys o b in
        let (qt', keys') := match told with Ok x => x | _ => (qt, keys) end in
        {| e_path := anc ++ [t];
           e_info := mkbi o (box_size b) (hsize f) t (match f with ToEnd => true | _ => false end)
                          (ctx_of base qt' keys' anc);
           e_box := b;
           e_told := told |} ::
        (fix list_kids (keys : Z) (o : N) (l : list box) : list entry :=
           match l with
           | [] => []
           | k :: r =>
               list_box (anc ++ [t]) qt' keys o k ++
               list_kids (match enter data base (anc ++ [t]) qt' keys o k with Ok x => snd x | _ => keys end)
                         (o + box_size k) r
           end) keys' (o + hsize f + lenN own) kids
    end.
  Fixpoint list_file (qt : bool) (keys : Z) (o : N) (l : list box) : list entry :=
    match l with
    | [] => []
    | b :: r =>
        let (qt', keys') := match enter data base [] qt keys o b with Ok x => x | _ => (qt, keys) end in
        list_box [] qt keys o b ++ list_file qt' keys' (o + box_size b) r
    end.

  (** What the traversal needs.  A box on the way to what is looked for can be
      decoded, its fields end where the boxes in it begin, and it has stray bytes
      only in a QuickTime file.  The ftyp and keys boxes met can be decoded. *)
  Definition can_open (e : entry) : Prop :=
    match e_box e with
    | Box _ _ own _ slack =>
        (exists d x, decoded data (bi_ctx (e_info e)) (bi_offset (e_info e)) (e_box e) = Ok (d, x, lenN own)) /\
        (slack = [] \/ IsQuickTimeCompatible (bi_ctx (e_info e)) = true)
    end.
  Definition readable (skip : nat) (paths : list path) (e : entry) : Prop :=
    (opened skip paths (e_path e) = true -> can_open e) /\
    ((List.length (e_path e) = 1%nat \/ opened skip paths (removelast (e_path e)) = true) ->
     exists x, e_told e = Ok x).
End Listing.
