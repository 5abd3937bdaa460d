(** Model of write.go on a destination whose Write and Seek calls may fail: the text
    of Writer.v, with the calls of Seek (SeekToStart, WriteBoxInfo and EndBox make
    them) following the same script as those of Write. *)
From Verif Require Import Base Schema Registry BoxInfo Writer SpecWriter Divide DivideFaults.
Local Open Scope string_scope.
Local Open Scope list_scope.
Local Open Scope N_scope.
Local Open Scope monad_scope.

(** StartBox: write.go:27-34 *)
Definition start_box_on (bi : boxinfo) : M writer boxinfo :=
  bi' <- lift_o (write_info bi) ;;
  (fun s => (Ok bi', mkwr (wr_file s) (bi' :: wr_stack s))).
(** EndBox: write.go:36-56.  The box is taken from the stack first, whatever follows. *)
Definition end_box_on : M writer boxinfo := fun s =>
  match wr_stack s with
  | [] => (Panic, s)
  | bi0 :: rest =>
      (e <- lift_o (seeking o_tell) ;;
       let bi := set_size bi0 (sub64 e (bi_offset bi0)) in
       lift_o (seeking (o_seek (bi_offset bi))) ;;;
       bi2 <- lift_o (write_info bi) ;;
       if negb (bi_hsize bi =? bi_hsize bi2) then fail (EMsg "header size changed")
       else lift_o (seeking (o_seek e)) ;;; ret bi) (mkwr (wr_file s) rest)
  end.

Section Pieces.
  (** the pieces in which io.CopyN hands over what it reads *)
  Variable split : list byte -> list (list byte).
  (** CopyBox: write.go:58-68; the source is [data] and does not fail *)
  Definition copy_box_on (data : list byte) (bi : boxinfo) : M writer unit :=
    if 9223372036854775808 <=? bi_offset bi then fail ESeek
    else if 9223372036854775808 <=? bi_size bi then fail (EMsg "failed to copy box")
    else
      let p := takeN (bi_size bi) (skipN (bi_offset bi) data) in
      lift_o (o_writes (split p)) ;;;
      (if lenN p =? bi_size bi then ret tt else fail EEOF).

  (** one call; Write: write.go:19-21 *)
  Definition exec_on (o : op) : M writer out :=
    match o with
    | OStart bi => x <- start_box_on bi ;; ret (Started x)
    | OPut l => lift_o (o_write l) ;;; ret Wrote
    | OCopy src bi => copy_box_on src bi ;;; ret Wrote
    | OEnd => x <- end_box_on ;; ret (Ended x)
    end.
  Fixpoint exec_all_on (l : list op) : M writer (list out) :=
    match l with
    | [] => ret []
    | o :: r => x <- exec_on o ;; xs <- exec_all_on r ;; ret (x :: xs)
    end.
End Pieces.
