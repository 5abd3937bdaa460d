(** The numbers in the playlists of the divide command: cmd/mp4tool/internal/divide/divide.go,
    with Go's float64.  [Divide.v] leaves them open. *)
From Coq Require Import ZArith FloatClass SpecFloat.
From Verif Require Import Base GoText Floats ProbeTool Divide.
Local Open Scope string_scope.
Local Open Scope list_scope.
Local Open Scope N_scope.

(** fmt's %f, for divide.go:425: strconv.FormatFloat(f, 'f', 6, 64), with fmt's treatment of what is not a number *)
Definition verb_f (f : float) : text :=
  match f with
  | S754_zero s => float_text 0 6 0          (* no negative zero occurs here *)
  | S754_finite s m e =>
      float_text (Z.to_N (- e)) 6 ((if s then Zneg m else Zpos m) * 2 ^ Z.max 0 e)
  | S754_infinity s => lit (if s then "-Inf" else "+Inf")
  | S754_nan => lit "NaN"
  end.

Section Floats.
  (** What Go gives for the conversion of a float that the integer type cannot hold:
      the language leaves it to the implementation. *)
  Variable unheld_uint64 : float -> N.
  Variable unheld_int : float -> Z.

  (** uint64(f), for divide.go:314: the fraction is discarded *)
  Definition to_uint64 (f : float) : N :=
    match f with
    | S754_zero _ => 0
    | S754_finite false m e =>
        let z := (Zpos m * 2 ^ Z.max 0 e / 2 ^ Z.max 0 (- e))%Z in
        if (z <? 2 ^ 64)%Z then Z.to_N z else unheld_uint64 f
    | _ => unheld_uint64 f
    end.
  (** int(math.Ceil(f)) for f that is not negative, for divide.go:419 *)
  Definition int_ceil (f : float) : Z :=
    match f with
    | S754_zero _ => 0
    | S754_finite false m e =>
        let z := (- (- (Zpos m * 2 ^ Z.max 0 e) / 2 ^ Z.max 0 (- e)))%Z in
        if (z <? 2 ^ 63)%Z then z else unheld_int f
    | _ => unheld_int f
    end.

  (** float64(duration) / float64(t.timescale): divide.go:305 *)
  Definition float_seconds (d : seconds) : float :=
    float64_div (float64_of (Z.of_N (sec_duration d))) (float64_of (Z.of_N (sec_timescale d))).
  (** uint64(float64(h.BoxInfo.Size) * 8 / duration): divide.go:314 *)
  Definition go_bits_per_second (size : N) (d : seconds) : N :=
    to_uint64 (float64_div (float64_mul (float64_of (Z.of_N size)) (float64_of 8)) (float_seconds d)).
  (** divide.go:425 *)
  Definition go_seconds_text (d : seconds) : text := verb_f (float_seconds d).
  (** maxDur: divide.go:410-415 *)
  Definition max_duration (l : list seconds) : float :=
    fold_left (fun m d => if float64_gt (float_seconds d) m then float_seconds d else m) l (S754_zero false).
  (** divide.go:419 *)
  Definition go_target_text (l : list seconds) : text := int_text (int_ceil (max_duration l)).
  (** divide.go with these numbers *)
  Definition go_divide (order : N -> list N -> list N) (data : list byte) :=
    divide order go_bits_per_second go_seconds_text go_target_text data.
End Floats.
