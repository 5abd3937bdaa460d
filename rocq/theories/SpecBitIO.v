(** Specification vocabulary for the bit level reader and writer. *)
From Verif Require Import Base BitIO.
Local Open Scope monad_scope.

(** One call on a bit writer: WriteBit b, WriteBits(d, w), Write(p). *)
Inductive wop : Set :=
| WBit (b : bool)
| WBits (d : list byte) (w : N)
| WBytes (p : list byte).

(** The group of bits a call stands for: the [w] low bits of the big-endian
    number [d], most significant first. *)
Definition op_bits (o : wop) : list bool :=
  match o with
  | WBit b => [b]
  | WBits d w => N_to_bits (N.to_nat w) (be_to_N d)
  | WBytes p => bits_of_bytes p
  end.

(** A width must not exceed the data; whole bytes may only be written at a byte
    boundary.  [n] counts the bits written before. *)
Fixpoint ops_ok (n : N) (l : list wop) : Prop :=
  match l with
  | [] => True
  | o :: r =>
      match o with
      | WBit _ => True
      | WBits d w => w <= 8 * lenN d
      | WBytes _ => n mod 8 = 0
      end /\ ops_ok (n + lenN (op_bits o)) r
  end.

(** The value the corresponding read call returns: ReadBit gives the bit (here
    as a byte 0 or 1), ReadBits(w) gives the number right aligned in the least
    number of bytes, Read gives the bytes. *)
Definition op_value (o : wop) : list byte :=
  match o with
  | WBit b => [if b then N2b 1 else N2b 0]
  | WBits d w => N_to_be (N.to_nat ((w + 7) / 8)) (be_to_N d mod 2 ^ w)
  | WBytes p => p
  end.

(** The calls themselves. *)
Definition do_write (o : wop) : M wst unit :=
  match o with
  | WBit b => write_bit b
  | WBits d w => write_bits d w
  | WBytes p => wr_write p
  end.
Fixpoint do_writes (l : list wop) : M wst unit :=
  match l with
  | [] => ret tt
  | o :: r => do_write o ;;; do_writes r
  end.
Definition do_read (data : list byte) (o : wop) : M rst (list byte) :=
  match o with
  | WBit _ => b <- read_bit data ;; ret [if b then N2b 1 else N2b 0]
  | WBits _ w => read_bits data w
  | WBytes p => read_full data (lenN p)
  end.
Fixpoint do_reads (data : list byte) (l : list wop) : M rst (list (list byte)) :=
  match l with
  | [] => ret []
  | o :: r => x <- do_read data o ;; xs <- do_reads data r ;; ret (x :: xs)
  end.
