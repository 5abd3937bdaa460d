(** Specification of the Writer: programs, and the trees they write. *)
From Verif Require Import Base Schema Registry BoxInfo ReadTree Writer SpecTree.
Local Open Scope string_scope.
Local Open Scope list_scope.
Local Open Scope N_scope.
Local Open Scope monad_scope.

(** ** Programs: sequences of calls.  A program stops at the first error. *)
Inductive op :=
| OStart (bi : boxinfo)                     (* w.StartBox(bi) *)
| OPut (l : list byte)                      (* w.Write(l) *)
| OCopy (src : list byte) (bi : boxinfo)    (* w.CopyBox(src, bi) *)
| OEnd.                                     (* w.EndBox() *)
Inductive out := Started (bi : boxinfo) | Wrote | Ended (bi : boxinfo).
Definition exec (o : op) : M writer out :=
  match o with
  | OStart bi => x <- start_box bi ;; ret (Started x)
  | OPut l => w_write l ;;; ret Wrote
  | OCopy src bi => copy_box src bi ;;; ret Wrote
  | OEnd => x <- end_box ;; ret (Ended x)
  end.
Fixpoint exec_all (l : list op) : M writer (list out) :=
  match l with
  | [] => ret []
  | o :: r => x <- exec o ;; xs <- exec_all r ;; ret (x :: xs)
  end.
Fixpoint started (l : list out) : list boxinfo :=
  match l with [] => [] | Started bi :: r => bi :: started r | _ :: r => started r end.
Fixpoint ended (l : list out) : list boxinfo :=
  match l with [] => [] | Ended bi :: r => bi :: ended r | _ :: r => ended r end.

(** a file with contents [d], positioned at its end *)
Definition at_end (d : list byte) (faults : list (option N)) : writer := mkwr (mkof d (lenN d) faults) [].

(** the part of the source that CopyBox is asked for *)
Definition cut (src : list byte) (bi : boxinfo) : list byte := takeN (bi_size bi) (skipN (bi_offset bi) src).
Definition available (src : list byte) (bi : boxinfo) : Prop :=
  bi_offset bi < 2 ^ 63 /\ bi_size bi < 2 ^ 63 /\ lenN (cut src bi) = bi_size bi.

(** the form of header that StartBox chooses *)
Definition form_of (bi : boxinfo) : form :=
  if bi_eof bi then ToEnd
  else if (bi_size bi <? 2 ^ 32) && negb (bi_hsize bi =? 16) then Small else Large.

(** ** Which programs write which trees.  [o]: where in the file the trees are;
    the last argument: what EndBox returns, in the order of the calls.  [c]:
    whether whole boxes may be copied. *)
Inductive puts : list op -> list byte -> Prop :=
| puts_nil : puts [] []
| puts_put l r bytes : puts r bytes -> puts (OPut l :: r) (l ++ bytes)
| puts_copy src bi r bytes : available src bi -> puts r bytes -> puts (OCopy src bi :: r) (cut src bi ++ bytes).
Inductive writes (c : bool) : N -> list op -> list box -> list boxinfo -> Prop :=
| writes_nil o : writes c o [] [] []
| writes_box o bi own_ops own kids_ops kids kids_out slack_ops slack r ts outs :
    let b := Box (form_of bi) (bi_type bi) own kids slack in
    puts own_ops own ->
    writes c (o + hsize (form_of bi) + lenN own) kids_ops kids kids_out ->
    puts slack_ops slack ->
    writes c (o + box_size b) r ts outs ->
    writes c o (OStart bi :: own_ops ++ kids_ops ++ slack_ops ++ OEnd :: r) (b :: ts)
      (kids_out ++
       mkbi o (box_size b) (hsize (form_of bi)) (bi_type bi) (bi_eof bi) ctx0 :: outs)
| writes_copy o src bi b r ts outs :          (* a whole box copied *)
    c = true -> available src bi -> cut src bi = box_bytes b ->
    writes c (o + box_size b) r ts outs ->
    writes c o (OCopy src bi :: r) (b :: ts) outs.

(** types have four bytes, and boxes with an 8-byte header are smaller than 4 GiB *)
Fixpoint sized (b : box) : Prop :=
  match b with
  | Box f t own kids slack =>
      lenN t = 4 /\ (f = Small -> box_size b < 2 ^ 32) /\
      (fix all (l : list box) : Prop := match l with [] => True | k :: r => sized k /\ all r end) kids
  end.

(** ** Programs in general: types have four bytes, and no box with an 8-byte header
    grows to 4 GiB.  [st]: for the open boxes, innermost first, the form of the
    header and the number of bytes so far. *)
Definition grow (n : N) (st : list (form * N)) : list (form * N) :=
  match st with [] => [] | (f, k) :: r => (f, k + n) :: r end.
Fixpoint sizes_ok (st : list (form * N)) (ops : list op) : Prop :=
  match ops with
  | [] => True
  | OPut l :: r => sizes_ok (grow (lenN l) st) r
  | OCopy src bi :: r => sizes_ok (grow (lenN (cut src bi)) st) r
  | OStart bi :: r => lenN (bi_type bi) = 4 /\ sizes_ok ((form_of bi, hsize (form_of bi)) :: st) r
  | OEnd :: r =>
      match st with
      | [] => True
      | (f, n) :: st' => (f = Small -> n < 2 ^ 32) /\ sizes_ok (grow n st') r
      end
  end.
(** all bytes a program writes *)
Fixpoint volume (ops : list op) : N :=
  match ops with
  | [] => 0
  | OPut l :: r => lenN l + volume r
  | OCopy src bi :: r => lenN (cut src bi) + volume r
  | OStart bi :: r => 16 + volume r
  | OEnd :: r => volume r
  end.
