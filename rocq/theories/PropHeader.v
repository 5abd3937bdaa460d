(** C03, C04, C05: box headers. *)
From Verif Require Import Base BaseProofs Schema Registry BoxInfo SpecHeader HeaderProofs.
Local Open Scope monad_scope.
Local Open Scope string_scope.
Local Open Scope list_scope.
Local Open Scope N_scope.

(** C03.  [new_ofile d pos] is a file with contents [d] positioned at [pos].
    The 2^61 bound keeps offsets inside Go's int64. *)
Theorem C03_header_round_trip : forall (bi : boxinfo) (d : list byte) (pos : N),
  well_formed_header (bi_size bi) (bi_hsize bi) (bi_type bi) (bi_eof bi) ->
  pos <= lenN d -> lenN d < 2 ^ 61 ->
  exists d' bi',
    write_box_info bi (new_ofile d pos) = (Ok bi', new_ofile d' (pos + bi_hsize bi)) /\
    takeN pos d' = takeN pos d /\
    skipN (pos + bi_hsize bi) d' = skipN (pos + bi_hsize bi) d /\
    read_box_info d' pos =
      (Ok (mkbi pos (if bi_eof bi then lenN d' - pos else bi_size bi) (bi_hsize bi)
                (bi_type bi) (bi_eof bi) ctx0), pos + bi_hsize bi).
Proof. exact written_header_round_trip. Qed.
Print Assumptions C03_header_round_trip.

(** A 64-bit header of 2^33 bytes written over the middle of a file. *)
Example C03_case :
  let bi := mkbi 0 8589934592 16 (bytes_of_string "mdat") false ctx0 in
  let d := bytes_of_string "0123456789abcdefghijklmnopq" in
  well_formed_header (bi_size bi) (bi_hsize bi) (bi_type bi) (bi_eof bi) /\
  4 <= lenN d /\ lenN d < 2 ^ 61 /\
  o_data (snd (write_box_info bi (new_ofile d 4))) =
    bytes_of_string "0123" ++ hex "000000016d6461740000000200000000" ++ bytes_of_string "klmnopq".
Proof.
  cbv zeta. split; [|vm_compute; split; [discriminate|split; [reflexivity|reflexivity]]].
  split; [reflexivity|]. split; [reflexivity|]. right; right.
  split; [reflexivity|]. split; [reflexivity|]. discriminate.
Qed.

(** C04.  Every stream starts with exactly one of the forms of [iso_header]
    ([C04_grammar_total]); whichever it is, ReadBoxInfo returns what the
    standard says and stops after the header. *)
Theorem C04_read_box_info : forall (data : list byte) (pos : N) o,
  lenN data < 2 ^ 63 ->
  iso_header (skipN pos data) o ->
  exists pos',
    read_box_info data pos =
    (match o with
     | Ok (size, h, type, e) => Ok (mkbi pos size h type e ctx0)
     | Err e => Err e
     | _ => Panic
     end, pos') /\
    (forall size h type e, o = Ok (size, h, type, e) -> pos' = pos + h).
Proof. exact read_box_info_spec. Qed.
Print Assumptions C04_read_box_info.

Theorem C04_grammar_total : forall rest, exists o, iso_header rest o.
Proof. exact iso_header_total. Qed.
Print Assumptions C04_grammar_total.

Example C04_case_small :
  iso_header (hex "00000018" ++ bytes_of_string "free" ++ [bzero])
             (Ok (24, 8, bytes_of_string "free", false)).
Proof. apply (ih_small 24 (bytes_of_string "free") [bzero]); [|reflexivity]. split; [discriminate|reflexivity]. Qed.
Example C04_case_large_truncated :
  iso_header (hex "00000001" ++ bytes_of_string "mdat" ++ hex "00000001") (Err EEOF) /\
  read_box_info (hex "000000016d64617400000001") 0 = (Err EEOF, 12).
Proof. split; [apply (ih_large_short (bytes_of_string "mdat") (hex "00000001")); reflexivity|vm_compute; reflexivity]. Qed.

(** C05.  False in general: when the header form does not match HeaderSize, the
    header carries Size but the returned Size is adjusted. *)
Theorem C05_returned_info_refuted : exists bi d pos bi' f',
  write_box_info bi (new_ofile d pos) = (Ok bi', f') /\
  exists bi'', fst (read_box_info (o_data f') pos) = Ok bi'' /\
    bi_size bi'' = 24 /\ bi_size bi' = 32.
Proof.
  exists (mkbi 0 24 0 (bytes_of_string "moov") false ctx0), [], 0.
  do 2 eexists. split; [vm_compute; reflexivity|]. eexists. split; [vm_compute; reflexivity|].
  split; reflexivity.
Qed.
Print Assumptions C05_returned_info_refuted.

(** It holds when HeaderSize is the size of the form that is written and, for a
    box extending to the end of the file, Size is the distance to that end. *)
Theorem C05_returned_info_partial : forall (bi : boxinfo) (d : list byte) (pos : N),
  well_formed_header (bi_size bi) (bi_hsize bi) (bi_type bi) (bi_eof bi) ->
  pos <= lenN d -> lenN d < 2 ^ 61 ->
  (bi_eof bi = true -> bi_size bi = N.max (lenN d) (pos + 8) - pos) ->
  exists bi' f',
    write_box_info bi (new_ofile d pos) = (Ok bi', f') /\
    fst (read_box_info (o_data f') pos) = Ok bi'.
Proof. exact write_returns_what_is_read. Qed.
Print Assumptions C05_returned_info_partial.

Example C05_case :
  let bi := mkbi 77 100 8 (bytes_of_string "trak") false ctx0 in
  well_formed_header (bi_size bi) (bi_hsize bi) (bi_type bi) (bi_eof bi) /\
  fst (write_box_info bi (new_ofile [bzero] 1)) = Ok (mkbi 1 100 8 (bytes_of_string "trak") false ctx0).
Proof.
  cbv zeta. split; [|reflexivity]. split; [reflexivity|]. split; [reflexivity|].
  right; left. split; [reflexivity|]. split; [reflexivity|]. split; [discriminate|reflexivity].
Qed.
