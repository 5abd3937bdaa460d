(** Model of the text functions of mp4.go. *)
From Verif Require Import Base Schema Structs Registry.
Local Open Scope string_scope.
Local Open Scope list_scope.
Local Open Scope N_scope.

(** StrToBoxType: mp4.go:16-21; a string of another length is a panic *)
Definition str_to_box_type (code : list byte) : res btype :=
  if lenN code =? 4 then Ok code else Panic.
(** Uint32ToBoxType: mp4.go:24-28 *)
Definition uint32_to_box_type (i : N) : btype := N_to_be 4 i.

(** isASCII, isPrintable: mp4.go:39-45 *)
Definition is_ascii (c : byte) : bool := (32 <=? N_of_ascii c) && (N_of_ascii c <=? 126).
Definition is_printable (c : byte) : bool := is_ascii c || (N_of_ascii c =? 169).

(** fmt verb %02x of a byte *)
Definition hex_digit (n : N) : byte := ascii_of_N (if n <? 10 then 48 + n else 87 + n).
Definition hex_byte (c : byte) : list byte :=
  [hex_digit (N_of_ascii c / 16); hex_digit (N_of_ascii c mod 16)].

(** BoxType.String: mp4.go:30-37.  strings.ReplaceAll replaces byte 0xa9. *)
Definition box_type_string (t : btype) : list byte :=
  if forallb is_printable t
  then flat_map (fun c => if N_of_ascii c =? 169 then bytes_of_string "(c)" else [c]) t
  else bytes_of_string "0x" ++ flat_map hex_byte t.
