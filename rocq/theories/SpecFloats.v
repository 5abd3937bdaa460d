(** What number a float stands for. *)
From Coq Require Import ZArith FloatClass SpecFloat.
From Verif Require Import Floats.
Local Open Scope Z_scope.
(** [x] is a finite float and its value is exactly [n] / 2^[k]: with mantissa [m]
    and exponent [e], m * 2^e = n / 2^k.  Zero is the positive zero. *)
Definition is_quotient (x : float) (n : Z) (k : Z) : Prop :=
  match x with
  | S754_zero s => s = false /\ n = 0
  | S754_finite s m e =>
      (if s then - Zpos m else Zpos m) * 2 ^ Z.max 0 (e + k) = n * 2 ^ Z.max 0 (- (e + k))
  | _ => False
  end.
