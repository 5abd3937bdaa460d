(** The functions of Go's standard library (and of google/uuid) that string.go
    and internal/util/string.go call to turn values into text, by their
    documented contracts.  They are not part of /repo; both the model and the
    specification of Stringify refer to them. *)
From Coq Require Import DecimalString HexadecimalString.
From Verif Require Import Base Schema.
Local Open Scope string_scope.
Local Open Scope list_scope.
Local Open Scope N_scope.

Definition text := list byte.
Definition lit (s : string) : text := bytes_of_string s.

(** strconv.FormatUint(n, 10), strconv.FormatUint(n, 16) *)
Definition dec_text (n : N) : text := lit (DecimalString.NilZero.string_of_uint (N.to_uint n)).
Definition hex_text (n : N) : text := lit (HexadecimalString.NilZero.string_of_uint (N.to_hex_uint n)).
(** strconv.FormatInt(z, 10), strconv.Itoa *)
Definition int_text (z : Z) : text :=
  if (z <? 0)%Z then lit "-" ++ dec_text (Z.abs_N z) else dec_text (Z.abs_N z).
(** fmt verbs such as %02x and %06x: left padded with zeros *)
Definition pad_left (k : N) (s : text) : text := repeat (N2b 48) (N.to_nat (k - lenN s)) ++ s.

(** strconv.FormatFloat(z / 2^k, 'f', p, _) for a quotient that the float holds
    exactly: the nearest number with p decimals, the even one of two equally
    near ones. *)
Definition round_even (n d : N) : N :=
  let q := n / d in
  let r := n mod d in
  if (2 * r <? d) || ((2 * r =? d) && N.even q) then q else q + 1.
Definition float_text (k p : N) (z : Z) : text :=
  let q := round_even (Z.abs_N z * 10 ^ p) (2 ^ k) in
  (if (z <? 0)%Z then lit "-" else []) ++ dec_text (q / 10 ^ p) ++ lit "." ++
  pad_left p (dec_text (q mod 10 ^ p)).

(** uuid.UUID.String: five groups of hexadecimal digits *)
Definition hex2 (n : N) : text := pad_left 2 (hex_text n).
Definition uuid_text (l : list byte) : text :=
  let h l := List.concat (map (fun b => hex2 (b2N b)) l) in
  h (takeN 4 l) ++ lit "-" ++ h (takeN 2 (skipN 4 l)) ++ lit "-" ++ h (takeN 2 (skipN 6 l)) ++
  lit "-" ++ h (takeN 2 (skipN 8 l)) ++ lit "-" ++ h (skipN 10 l).

(** utf8.DecodeRune: the code point at the start of the bytes and its width;
    U+FFFD of width 1 if there is no valid encoding *)
Definition in_range (lo hi n : N) : bool := (lo <=? n) && (n <=? hi).
Definition rune_error : N := 65533.
Definition decode_rune (l : list byte) : N * nat :=
  let bad := (rune_error, 1%nat) in
  let cont n := in_range 128 191 n in
  match map b2N l with
  | [] => bad
  | a :: r =>
      if a <? 128 then (a, 1%nat)
      else if in_range 194 223 a then
        match r with
        | b :: _ => if cont b then (64 * (a mod 32) + b mod 64, 2%nat) else bad
        | _ => bad
        end
      else if in_range 224 239 a then
        match r with
        | b :: c :: _ =>
            if in_range (if a =? 224 then 160 else 128) (if a =? 237 then 159 else 191) b && cont c
            then (4096 * (a mod 16) + 64 * (b mod 64) + c mod 64, 3%nat) else bad
        | _ => bad
        end
      else if in_range 240 244 a then
        match r with
        | b :: c :: d :: _ =>
            if in_range (if a =? 240 then 144 else 128) (if a =? 244 then 143 else 191) b
               && cont c && cont d
            then (262144 * (a mod 8) + 4096 * (b mod 64) + 64 * (c mod 64) + d mod 64, 4%nat)
            else bad
        | _ => bad
        end
      else bad
  end.
(** the code points of a string, as Go's range loop delivers them *)
Fixpoint runes (skip : nat) (l : list byte) : list N :=
  match l with
  | [] => []
  | _ :: r =>
      match skip with
      | S k => runes k r
      | O => let (c, w) := decode_rune l in c :: runes (w - 1) r
      end
  end.
(** code points that UTF-8 can express *)
Definition scalar (c : N) : bool := (c <? 55296) || in_range 57344 1114111 c.
(** utf8.AppendRune *)
Definition encode_rune (c0 : N) : list byte :=
  let c := if scalar c0 then c0 else rune_error in
  map N2b
    (if c <? 128 then [c]
     else if c <? 2048 then [192 + c / 64; 128 + c mod 64]
     else if c <? 65536 then [224 + c / 4096; 128 + (c / 64) mod 64; 128 + c mod 64]
     else [240 + c / 262144; 128 + (c / 4096) mod 64; 128 + (c / 64) mod 64; 128 + c mod 64]).
(** strings.Map, for a mapping that drops nothing *)
Definition map_runes (f : N -> N) (l : list byte) : list byte :=
  List.concat (map (fun c => encode_rune (f c)) (runes 0 l)).
