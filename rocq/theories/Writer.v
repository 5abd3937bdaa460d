(** Model of write.go. *)
From Verif Require Import Base Schema Registry BoxInfo.
Local Open Scope string_scope.
Local Open Scope list_scope.
Local Open Scope N_scope.
Local Open Scope monad_scope.

(** Writer: write.go:8-17; the stack has its top first *)
Record writer := mkwr { wr_file : ofile; wr_stack : list boxinfo }.
Definition new_writer_of (f : ofile) : writer := mkwr f [].
Definition lift_o {A} (m : M ofile A) : M writer A := fun s =>
  let (r, f) := m (wr_file s) in (r, mkwr f (wr_stack s)).

(** Write: write.go:19-21.  Seek: write.go:23-25 (absolute) *)
Definition w_write (p : list byte) : M writer unit := lift_o (o_write p).
Definition w_seek (x : N) : M writer unit := lift_o (o_seek x).

(** StartBox: write.go:27-34 *)
Definition start_box (bi : boxinfo) : M writer boxinfo :=
  bi' <- lift_o (write_box_info bi) ;;
  (fun s => (Ok bi', mkwr (wr_file s) (bi' :: wr_stack s))).

Definition set_size (bi : boxinfo) (n : N) : boxinfo :=
  mkbi (bi_offset bi) n (bi_hsize bi) (bi_type bi) (bi_eof bi) (bi_ctx bi).

(** EndBox: write.go:36-56.  An empty stack is an index out of range panic. *)
Definition end_box : M writer boxinfo := fun s =>
  match wr_stack s with
  | [] => (Panic, s)
  | bi0 :: rest =>
      (e <- lift_o o_tell ;;
       let bi := set_size bi0 (sub64 e (bi_offset bi0)) in
       lift_o (o_seek (bi_offset bi)) ;;;
       bi2 <- lift_o (write_box_info bi) ;;
       if negb (bi_hsize bi =? bi_hsize bi2) then fail (EMsg "header size changed")
       else lift_o (o_seek e) ;;; ret bi) (mkwr (wr_file s) rest)
  end.

(** io.CopyN(w, r, n): chunks of at most 32 KiB; [src] is what the source holds
    from its position on. *)
Fixpoint w_chunks (fuel : nat) (p : list byte) : M writer unit :=
  match fuel with
  | O => ret tt
  | S k => match p with
           | [] => ret tt
           | _ => w_write (takeN 32768 p) ;;; w_chunks k (skipN 32768 p)
           end
  end.

(** CopyBox: write.go:58-68.  The source is the content [data]; the position it
    is left at does not matter. *)
Definition copy_box (data : list byte) (bi : boxinfo) : M writer unit :=
  if 9223372036854775808 <=? bi_offset bi then fail ESeek
  else if 9223372036854775808 <=? bi_size bi then fail (EMsg "failed to copy box")
  else
    let p := takeN (bi_size bi) (skipN (bi_offset bi) data) in
    w_chunks (S (List.length p)) p ;;;
    (if lenN p =? bi_size bi then ret tt else fail EEOF).
