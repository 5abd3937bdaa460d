(** Basic vocabulary shared by the model: bytes, results, the state monad used
    for Go code with side effects, lists indexed by [N], and loops. *)
From Coq Require Export List NArith ZArith Bool Ascii String.
From Coq Require Export Lia.
Export ListNotations.
Global Open Scope N_scope.
Global Open Scope list_scope.

(** ** Bytes (Go [byte]/[uint8]) *)
Definition byte := ascii.
Definition b2N (b : byte) : N := N_of_ascii b.
Definition N2b (n : N) : byte := ascii_of_N (n mod 256).
Definition bzero : byte := ascii_of_N 0.
Definition byte_eqb (a b : byte) : bool := Ascii.eqb a b.

(** Most significant bit first. *)
Definition bits_of_byte (b : byte) : list bool :=
  match b with Ascii b0 b1 b2 b3 b4 b5 b6 b7 => [b7;b6;b5;b4;b3;b2;b1;b0] end.

Definition bits_of_bytes (l : list byte) : list bool := flat_map bits_of_byte l.

Definition byte_of_bits (l : list bool) : byte :=
  match l with
  | [b7;b6;b5;b4;b3;b2;b1;b0] => Ascii b0 b1 b2 b3 b4 b5 b6 b7
  | _ => bzero
  end.

(** ** Results of a Go call.  [Panic] is a run-time panic, [OutOfFuel] marks a
    loop of the model that exhausted its bound; it is not a Go outcome. *)
Inductive err : Set :=
| EEOF                     (* io.EOF *)
| EUnexpectedEOF           (* io.ErrUnexpectedEOF *)
| EAlign                   (* bitio.ErrInvalidAlignment *)
| ENotFound                (* mp4.ErrBoxInfoNotFound *)
| EUnsupportedVersion      (* mp4.ErrUnsupportedBoxVersion *)
| ESeek                    (* negative position given to Seek *)
| EWrite                   (* failure of the underlying Write *)
| EMsg (s : string)        (* errors.New / fmt.Errorf *)
| EHandler (n : N).        (* an error made by a caller supplied handler *)

Inductive res (A : Type) : Type :=
| Ok (a : A)
| Err (e : err)
| Panic
| OutOfFuel.
Arguments Ok {A} _. Arguments Err {A} _. Arguments Panic {A}. Arguments OutOfFuel {A}.

(** ** State monad: Go code reading or writing some state [S].  The state is
    returned in every case: a failing Go call still moved the stream. *)
Definition M (S A : Type) : Type := S -> res A * S.
Definition ret {S A} (a : A) : M S A := fun s => (Ok a, s).
Definition fail {S A} (e : err) : M S A := fun s => (Err e, s).
Definition panic {S A} : M S A := fun s => (Panic, s).
Definition bind {S A B} (m : M S A) (f : A -> M S B) : M S B :=
  fun s => match m s with
           | (Ok a, s') => f a s'
           | (Err e, s') => (Err e, s')
           | (Panic, s') => (Panic, s')
           | (OutOfFuel, s') => (OutOfFuel, s')
           end.
Definition get {S} : M S S := fun s => (Ok s, s).
Definition put {S} (s : S) : M S unit := fun _ => (Ok tt, s).
Declare Scope monad_scope.
Delimit Scope monad_scope with monad.
Notation "x <- m ;; k" := (bind m (fun x => k))
  (at level 61, m at next level, right associativity) : monad_scope.
Notation "m ;;; k" := (bind m (fun _ => k))
  (at level 61, right associativity) : monad_scope.

(** ** Loops.  [loopP p] runs its body exactly [p] times, stopping at the first
    result that is not [Ok].  The recursion is on the binary representation, so
    a huge count read from a file does not make the model unrunnable. *)
Fixpoint loopP {S A} (p : positive) (body : A -> M S A) (a : A) : M S A :=
  match p with
  | xH => body a
  | xO q => bind (loopP q body a) (loopP q body)
  | xI q => bind (body a) (fun a1 => bind (loopP q body a1) (loopP q body))
  end.
Definition loopN {S A} (n : N) (body : A -> M S A) (a : A) : M S A :=
  match n with N0 => ret a | Npos p => loopP p body a end.

(** [whileP p]: at most [p] iterations; the body says [inr] to leave the loop. *)
Fixpoint whileP {S A B} (p : positive) (body : A -> M S (A + B)) (a : A) : M S (A + B) :=
  match p with
  | xH => body a
  | xO q => bind (whileP q body a) (fun x => match x with
                 | inl a1 => whileP q body a1 | inr b => ret (inr b) end)
  | xI q => bind (body a) (fun x => match x with
                 | inl a1 => bind (whileP q body a1) (fun y => match y with
                       | inl a2 => whileP q body a2 | inr b => ret (inr b) end)
                 | inr b => ret (inr b) end)
  end.
Definition while {S A B} (p : positive) (body : A -> M S (A + B)) (a : A) : M S B :=
  fun s => match whileP p body a s with
           | (Ok (inl _), s') => (OutOfFuel, s')
           | (Ok (inr b), s') => (Ok b, s')
           | (Err e, s') => (Err e, s')
           | (Panic, s') => (Panic, s')
           | (OutOfFuel, s') => (OutOfFuel, s')
           end.

(** ** Lists indexed by [N] (recursion on the list, so large indices are cheap) *)
Definition lenN {A} (l : list A) : N := N.of_nat (List.length l).
Fixpoint takeN {A} (n : N) (l : list A) : list A :=
  match l with
  | [] => []
  | x :: r => if n =? 0 then [] else x :: takeN (N.pred n) r
  end.
Fixpoint skipN {A} (n : N) (l : list A) : list A :=
  match l with
  | [] => []
  | x :: r => if n =? 0 then l else skipN (N.pred n) r
  end.
Fixpoint nthN {A} (n : N) (l : list A) : option A :=
  match l with
  | [] => None
  | x :: r => if n =? 0 then Some x else nthN (N.pred n) r
  end.

(** ** Fixed width integers *)
Definition W8 : N := 256.
Definition W32 : N := 4294967296.
Definition W64 : N := 18446744073709551616.
Definition w8 (n : N) := n mod W8.
Definition w32 (n : N) := n mod W32.
Definition w64 (n : N) := n mod W64.
(** unsigned subtraction modulo 2^64 *)
Definition sub64 (a b : N) : N := (a + W64 - b mod W64) mod W64.
(** two's complement: int64/uint64 conversions *)
Definition toZ (w : N) (n : N) : Z :=
  let m := n mod 2 ^ w in
  if m <? 2 ^ (w - 1) then Z.of_N m else (Z.of_N m - Z.of_N (2 ^ w))%Z.
Definition ofZ (w : N) (z : Z) : N := Z.to_N (z mod Z.of_N (2 ^ w)).

(** ** Big-endian values of bytes and bits *)
Fixpoint bits_to_N_acc (acc : N) (l : list bool) : N :=
  match l with
  | [] => acc
  | b :: r => bits_to_N_acc (2 * acc + (if b then 1 else 0)) r
  end.
Definition bits_to_N := bits_to_N_acc 0.
Fixpoint N_to_bits (w : nat) (n : N) : list bool :=
  match w with
  | O => []
  | S k => N_to_bits k (N.div2 n) ++ [N.odd n]
  end.
Fixpoint be_to_N_acc (acc : N) (l : list byte) : N :=
  match l with
  | [] => acc
  | b :: r => be_to_N_acc (256 * acc + b2N b) r
  end.
Definition be_to_N := be_to_N_acc 0.
Fixpoint N_to_be (w : nat) (n : N) : list byte :=
  match w with
  | O => []
  | S k => N_to_be k (n / 256) ++ [N2b n]
  end.

(** ** Hexadecimal literals, for tests and witnesses *)
Definition hexval (a : ascii) : N :=
  let n := N_of_ascii a in
  if (48 <=? n) && (n <=? 57) then n - 48
  else if (97 <=? n) && (n <=? 102) then n - 87
  else if (65 <=? n) && (n <=? 70) then n - 55 else 0.
Fixpoint hex (s : string) : list byte :=
  match s with
  | String a (String b r) => N2b (16 * hexval a + hexval b) :: hex r
  | _ => []
  end.
Fixpoint bytes_of_string (s : string) : list byte :=
  match s with EmptyString => [] | String a r => a :: bytes_of_string r end.
Fixpoint bytes_eqb (a b : list byte) : bool :=
  match a, b with
  | [], [] => true
  | x :: a', y :: b' => byte_eqb x y && bytes_eqb a' b'
  | _, _ => false
  end.
