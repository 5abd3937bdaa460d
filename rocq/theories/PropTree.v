(** C21: the traversal of a file visits exactly its box tree.

    [read_box_structure std_registry data handler params (pos, s)]: ReadBoxStructure
    on a stream with the contents [data], at any position [pos]; [s] is the state
    of the handler.  SpecTree says what a file is and what a traversal does. *)
From Verif Require Import Base BaseProofs Schema Structs Registry Unmarshal BoxInfo ReadTree SpecTree TreeProofs.
Local Open Scope string_scope.
Local Open Scope list_scope.
Local Open Scope N_scope.

(** [walk_file … = Some _]: no payload the handler asks for makes the decoder
    panic or loop (C10), and a box is expanded only where its own fields end
    where the boxes in it begin. *)
Theorem C21_walk : forall St V P (handler : handler_t St V P) ts params pos s r s',
  lenN (file_bytes ts) < 2 ^ 62 -> list_wf true ts ->
  walk_file (file_bytes ts) ctx0 handler false 0 0 ts params s = Some (r, s') ->
  exists pos', read_box_structure std_registry (file_bytes ts) handler params (pos, s) = (r, (pos', s')).
Proof.
  intros St V P handler ts params pos s r s' HD HW H.
  assert (C : (count_list ts < tree_fuel (file_bytes ts))%nat).
  { pose proof (count_list_bytes _ _ HW). unfold tree_fuel, file_bytes in *. lia. }
  destruct (file_ok (file_bytes ts) ctx0 handler HD ts [] (tree_fuel (file_bytes ts)) false 0%Z params s r s'
              eq_refl HW C H 0) as (p' & E).
  exists p'. unfold read_box_structure. unfold bind at 1, lift_s, s_seek. exact E.
Qed.
Print Assumptions C21_walk.

(** ReadBoxStructureFromInternal, from any box of a file and any context *)
Theorem C21_walk_from : forall St V P (handler : handler_t St V P) pre b post last qt keys base params pos s r s',
  let data := pre ++ box_bytes b ++ post in
  lenN data < 2 ^ 62 -> box_wf last b -> (last = true -> post = []) ->
  walk_box data base handler [] qt keys (lenN pre) b params s = Some (r, s') ->
  exists pos', read_box_structure_from_internal std_registry data handler
    (mkbi (lenN pre) (box_size b) (hsize (box_form b)) (box_type b)
          (match box_form b with ToEnd => true | _ => false end) (ctx_of base qt keys [])) params (pos, s) =
    (match r with Ok (v, _) => Ok v | Err e => Err e | Panic => Panic | OutOfFuel => OutOfFuel end, (pos', s')).
Proof.
  intros St V P handler pre b post last qt keys base params pos s r s' data HD HW HL H.
  assert (C : (count b <= tree_fuel data)%nat).
  { pose proof (count_bytes _ _ HW). unfold tree_fuel, data in *. rewrite !app_length. lia. }
  assert (A : at_place data pre post last b) by (split; [reflexivity|auto]).
  pose proof (all_box_ok data base handler HD b pre post last _ [] qt keys params pos s r s' A C H) as B.
  unfold read_box_structure_from_internal.
  destruct r as [[v [qt' keys']]|e| |]; [| |contradiction..].
  - destruct B as [B _]. eexists. unfold info in B. rewrite (bind_ok _ _ _ _ _ _ _ _ B). reflexivity.
  - destruct B as [p' B]. exists p'. unfold info in B. unfold bind. rewrite B. reflexivity.
Qed.
Print Assumptions C21_walk_from.

(** ** A file: ftyp (QuickTime), moov with a 64-bit header holding two traks,
    one of them with stray bytes at its end, and an mdat of size 0.  The handler
    expands moov and trak, decodes ftyp, copies the other payloads, and moves the
    stream about. *)
Definition Seen : Type := (list btype * (N * N) * context * list byte)%type.
Definition case_handler : handler_t (list Seen) N N := fun bi p q s =>
  if bt_eqb (bi_type bi) (bt "moov") || bt_eqb (bi_type bi) (bt "trak") then
    HExpand (s ++ [(p, (bi_offset bi, bi_size bi), bi_ctx bi, [])]) (q + 1) (fun r s' =>
      match r with
      | Ok vs => HMove 3 (HRet s' (fold_left N.add vs (100 * q)))
      | Err e => HFail s' e
      | _ => HFail s' EEOF
      end)
  else if bt_eqb (bi_type bi) (bt "ftyp") then
    HMove 0 (HReadPayload (fun r => match r with Ok (_, _, n) => HRet s n | Err e => HFail s e | _ => HFail s EEOF end))
  else HReadData (fun r => match r with
      | Ok (d, n) => HRet (s ++ [(p, (bi_offset bi, bi_size bi), bi_ctx bi, d)]) n
      | Err e => HFail s e | _ => HFail s EEOF end).
Definition case_file : list box :=
  [ Box Small (bt "ftyp") (hex "71742020000000007174202069736f6d") [] [];
    Box Large (bt "moov") []
      [ Box Small (bt "trak") [] [ Box Small (bt "abcd") (hex "0102") [] []; Box Large (bt "free") [] [] [] ] (hex "000000");
        Box Small (bt "trak") [] [] [] ] [];
    Box ToEnd (bt "mdat") (hex "ffee") [] [] ].
Lemma case_wf : list_wf true case_file /\ lenN (file_bytes case_file) < 2 ^ 62.
Proof. vm_compute. repeat split; intros; try discriminate; reflexivity. Qed.
Definition case_result : res (list N) * list Seen :=
  let q := mkctx true 0 false false false false false in
  (Ok [16; 202; 2],
   [ ([bt "moov"], (24, 61), q, []);
     ([bt "moov"; bt "trak"], (40, 37), q, []);
     ([bt "moov"; bt "trak"; bt "abcd"], (48, 10), q, hex "0102");
     ([bt "moov"; bt "trak"; bt "free"], (58, 16), q, []);
     ([bt "moov"; bt "trak"], (77, 8), q, []);
     ([bt "mdat"], (85, 10), q, hex "ffee") ]).
Example C21_case :
  walk_file (file_bytes case_file) ctx0 case_handler false 0 0 case_file 0 [] = Some case_result.
Proof. vm_compute. reflexivity. Qed.
