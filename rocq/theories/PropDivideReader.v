(** C70, mp4tool divide: on a file that cannot be read to the end it fails with the
    error of the reader, or writes the files it writes for the contents of the file. *)
From Verif Require Import Base BaseProofs BitIO Schema Structs Registry Unmarshal BoxInfo ReadTree Extract Probe SpecTree GoText ProbeTool Divide PropDivide Stream PropStream
  AnyReader AnyReaderProofs PropAnyReader Failing SpecFailing FailingProofs PropFailing PropSeekFails ToolReader ToolReaderProofs PropToolReader
  DivideReader DivideReaderProofs.
Local Open Scope string_scope.
Local Open Scope list_scope.
Local Open Scope N_scope.

(** when Read fails, and when Seek may fail too; for every order in which the maps of
    tracks are visited, and all results of floating point *)
Theorem C70_divide : forall m fails e0 free data fuel, fair m free data fuel -> e0 <> EEOF -> lenN data < 2 ^ 63 ->
  forall order bits_per_second seconds_text target_text,
  fails_or_writes fails (eq e0)
    (t_divide (failing_reader m fails e0 free data fuel) (loop_fuel data) (tree_fuel data) order bits_per_second seconds_text target_text)
    (divide order bits_per_second seconds_text target_text data) /\
  forall e1 lands, e1 <> EEOF ->
  fails_or_writes fails (reported e0 e1)
    (t_divide (faulty_reader m fails e0 free data e1 lands fuel) (loop_fuel data) (tree_fuel data) order bits_per_second seconds_text target_text)
    (divide order bits_per_second seconds_text target_text data).
Proof.
  intros m fails e0 free data fuel H ne L order bps st tt'. split; [|intros e1 lands ne1]; apply fow_of; intros c0 t HT.
  - exact (divide_gives _ _ _ _ _ _ _ (failing_may_fail m fails e0 free data ne c0 fuel H) ne L order bps st tt' t HT).
  - exact (divide_gives _ _ _ _ _ _ _ (faulty_may_fail m fails e0 e1 free lands data c0 ne fuel H) (no_eof e0 e1 ne ne1) L order bps st tt' t HT).
Qed.
Print Assumptions C70_divide.

(** A file with one video track and two fragments, when the call listed fails, of Read
    or of Seek; and when no call fails. *)
Definition short_tree : list box :=
  [ Box Small (bt "moov") [] [ ex_trak "00000001" "0000000a" [ex_avc1] ] [];
    ex_moof "0000000000000001" "0000010000000002000000050000000f"; ex_entry "mdat" "6162";
    ex_moof "0000000000000001" "00000100000000010000001e"; ex_entry "mdat" "66" ].
Definition dividing (fails : nat -> bool) : res unit * (fpath -> option (list byte)) * nat :=
  let data := file_bytes short_tree in
  let '(r, files, (_, calls)) :=
    t_divide (faulty_reader (fun _ => (1000, false)) fails broken (fun _ => 512) data jammed (fun _ => 3) 2000)
      (loop_fuel data) (tree_fuel data) in_order ex_bits ex_seconds ex_target (0, 0%nat) in
  (r, files, calls).
Example C70_divide_case :
  fair (fun _ => (1000, false)) (fun _ => 512) (file_bytes short_tree) 2000 /\ broken <> EEOF /\ jammed <> EEOF /\
  lenN (file_bytes short_tree) < 2 ^ 63 /\
  map (fun k => fst (fst (dividing (fun i => Nat.eqb i k)))) [0; 2; 28; 500]%nat = [Err jammed; Ok tt; Err broken; Err jammed] /\
  (let '(r, files, calls) := dividing (fun _ => false) in
   r = Ok tt /\ calls = 564%nat /\
   files (Of TVideo (Seg 1)) = Some (file_bytes [ ex_moof "0000000000000001" "00000100000000010000001e"; ex_entry "mdat" "66" ])).
Proof.
  split; [split; [intros i; cbn; lia|split; [intros i; reflexivity|split; [intros; lia|vm_compute; reflexivity]]]|].
  split; [discriminate|]. split; [discriminate|]. split; [reflexivity|]. split; [vm_compute; reflexivity|]. vm_compute. repeat (split; [reflexivity|]). reflexivity.
Qed.
