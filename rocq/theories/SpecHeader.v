(** ISO/IEC 14496-12 clause 4.2: the box header, as a relation between the bytes
    from the start of the box to the end of the stream and what a reader must
    make of them: size, header size, type, "extends to the end". *)
From Verif Require Import Base.

Inductive iso_header : list byte -> res (N * N * list byte * bool) -> Prop :=
| ih_short rest :
    lenN rest < 8 -> iso_header rest (Err EEOF)
| ih_small size type tail :
    2 <= size < 2 ^ 32 -> lenN type = 4 ->
    iso_header (N_to_be 4 size ++ type ++ tail) (Ok (size, 8, type, false))
| ih_large size type tail :
    1 <= size < 2 ^ 64 -> lenN type = 4 ->
    iso_header (N_to_be 4 1 ++ type ++ N_to_be 8 size ++ tail) (Ok (size, 16, type, false))
| ih_large_short type tail :
    lenN type = 4 -> lenN tail < 8 ->
    iso_header (N_to_be 4 1 ++ type ++ tail) (Err EEOF)
| ih_large_zero type tail :
    lenN type = 4 ->
    iso_header (N_to_be 4 1 ++ type ++ N_to_be 8 0 ++ tail) (Err (EMsg "invalid size"))
| ih_to_eof type tail :
    lenN type = 4 ->
    iso_header (N_to_be 4 0 ++ type ++ tail) (Ok (8 + lenN tail, 8, type, true)).

(** A header whose fields fit the form selected by [hsize]: the 32-bit form
    (8 bytes), the 64-bit form (16 bytes), or "to the end of the file" (8 bytes). *)
Definition well_formed_header (size hsize : N) (type : list byte) (eof : bool) : Prop :=
  lenN type = 4 /\ size < 2 ^ 64 /\
  ((eof = true /\ hsize = 8) \/
   (eof = false /\ hsize = 8 /\ 2 <= size < 2 ^ 32) \/
   (eof = false /\ hsize = 16 /\ 1 <= size)).
