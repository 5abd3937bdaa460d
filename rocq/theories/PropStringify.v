(** C48: what Stringify prints. *)
From Verif Require Import Base BitIO Schema Structs Methods Registry Marshal Unmarshal SpecCodec GoText Stringify
     SpecStringify RepoVectors.
From Verif Require Import BaseProofs MarshalCount VersionFacts StringifyProofs StringifyText Typed.
Local Open Scope string_scope.
Local Open Scope list_scope.
Local Open Scope N_scope.

(** Every decoded box prints as [box_text] (SpecStringify.v): its visible
    enabled fields in the order of declaration, each once, as name=value;
    whatever characters count as graphic and whatever the indentation.
    Missing: Item and DOps, the two structs with a Version field that is not the
    version of a FullBox; see [C48_refuted]. *)
Theorem C48_stringify_partial : forall graphic indent data t size ctx pos d x n pos',
  pos <= lenN data -> lenN data < 2 ^ 62 ->
  unmarshal_any std_registry data t size ctx pos = (Ok (d, x, n), pos') ->
  bd_name d <> "Item" -> bd_name d <> "DOps" ->
  stringify_with_indent graphic std_registry t x indent ctx = Ok (box_text graphic indent ctx d x).
Proof.
  intros graphic indent data t size ctx pos d x n pos' P L H N1 N2.
  pose proof (unmarshal_any_def _ _ _ _ _ _ _ _ _ H) as G.
  apply decoded_complete in H; try assumption.
  apply stringify_complete; try assumption. unfold clashing.
  apply String.eqb_neq in N1, N2. rewrite N1, N2. reflexivity.
Qed.
Print Assumptions C48_stringify_partial.

(** It holds of every box value with a value of its Go type in each enabled
    field, decoded or not. *)
Theorem C48_complete_partial : forall graphic indent ctx t d x,
  get_box_def std_registry t ctx = Some d -> complete_box ctx d x = true ->
  bd_name d <> "Item" -> bd_name d <> "DOps" ->
  stringify_with_indent graphic std_registry t x indent ctx = Ok (box_text graphic indent ctx d x).
Proof.
  intros graphic indent ctx t d x G H N1 N2. apply stringify_complete; try assumption. unfold clashing.
  apply String.eqb_neq in N1, N2. rewrite N1, N2. reflexivity.
Qed.
Print Assumptions C48_complete_partial.

(** No decoded box, Item and DOps included, makes Stringify panic or fail. *)
Theorem C48_no_panic : forall graphic indent data t size ctx pos d x n pos',
  pos <= lenN data -> lenN data < 2 ^ 62 ->
  unmarshal_any std_registry data t size ctx pos = (Ok (d, x, n), pos') ->
  exists s, stringify_with_indent graphic std_registry t x indent ctx = Ok s.
Proof.
  intros graphic indent data t size ctx pos d x n pos' P L H.
  pose proof (unmarshal_any_def _ _ _ _ _ _ _ _ _ H) as G.
  apply decoded_complete in H; try assumption. eapply stringify_ok; eassumption.
Qed.
Print Assumptions C48_no_panic.

(** The full claim is false: a dOps box of version 1 prints Version=0, since the
    name Version alone makes stringifyStruct print GetVersion of the box
    (string.go:118-121), which is 0 for a struct that is no FullBox. *)
Definition dops_bytes : list byte := hex "01020138000bb800000000".
Definition dops : res (boxdef * list (string * val) * N) :=
  fst (unmarshal_any std_registry dops_bytes (bt "dOps") (lenN dops_bytes) ctx0 0).
Theorem C48_refuted : exists d x n,
  unmarshal_any std_registry dops_bytes (bt "dOps") (lenN dops_bytes) ctx0 0 = (Ok (d, x, n), lenN dops_bytes) /\
  stringify ascii_graphic std_registry (bt "dOps") x ctx0 <> Ok (box_text ascii_graphic [] ctx0 d x).
Proof.
  destruct (unmarshal_any std_registry dops_bytes (bt "dOps") (lenN dops_bytes) ctx0 0) as [[[[d x] n]| | |] p] eqn:E.
  2-4: exfalso; assert (X : match unmarshal_any std_registry dops_bytes (bt "dOps") (lenN dops_bytes) ctx0 0 with
         (Ok _, _) => true | _ => false end = true) by (vm_compute; reflexivity); rewrite E in X; clear - X; discriminate X.
  exists d, x, n.
  assert (X : match unmarshal_any std_registry dops_bytes (bt "dOps") (lenN dops_bytes) ctx0 0 with
     | (Ok (d, x, _), p) => (p =? lenN dops_bytes) &&
         match stringify ascii_graphic std_registry (bt "dOps") x ctx0 with
         | Ok s => negb (bytes_eqb s (box_text ascii_graphic [] ctx0 d x)) &&
                   bytes_eqb s (lit "Version=0 OutputChannelCount=0x2 PreSkip=312 InputSampleRate=768000 OutputGain=0 ChannelMappingFamily=0x0")
         | _ => true end
     | _ => false end = true) by (vm_compute; reflexivity).
  rewrite E in X. apply andb_prop in X. destruct X as [X1 X2]. apply N.eqb_eq in X1. subst p. split; [reflexivity|].
  intros S. rewrite S in X2. apply andb_prop in X2. destruct X2 as [X2 _].
  apply negb_true_iff in X2. rewrite bytes_eqb_refl in X2. clear - X2. discriminate X2.
Qed.
Print Assumptions C48_refuted.

(** Strings: the characters (code points, U+FFFD for bytes that are no UTF-8)
    of a printed string are those of the string, a point in place of each that
    is not graphic. *)
Theorem C48_escape : forall graphic s,
  runes 0 (escape graphic s) = map (fun r => if graphic r then r else 46) (runes 0 s).
Proof. intros graphic s. exact (printable_runes graphic s). Qed.
Print Assumptions C48_escape.

(** If no character below U+0020 is graphic, no decoded box prints a byte below
    32, except the line ends and the indentation that the caller asked for. *)
Theorem C48_no_controls_partial : forall graphic indent data t size ctx pos d x n pos' s,
  (forall r, r < 32 -> graphic r = false) ->
  pos <= lenN data -> lenN data < 2 ^ 62 ->
  unmarshal_any std_registry data t size ctx pos = (Ok (d, x, n), pos') ->
  bd_name d <> "Item" -> bd_name d <> "DOps" ->
  stringify_with_indent graphic std_registry t x indent ctx = Ok s ->
  forall b, In b s -> 32 <= b2N b \/ (indent <> [] /\ b2N b = 10) \/ In b indent.
Proof.
  intros graphic indent data t size ctx pos d x n pos' s G P L H N1 N2 S.
  rewrite (C48_stringify_partial graphic indent _ _ _ _ _ _ _ _ _ P L H N1 N2) in S.
  pose proof (unmarshal_any_def _ _ _ _ _ _ _ _ _ H) as D.
  apply decoded_complete in H; try assumption.
  assert (E : box_text graphic indent ctx d x = s) by congruence. subst s.
  apply Forall_forall. exact (box_text_laid graphic indent ctx t d x G D H).
Qed.
Print Assumptions C48_no_controls_partial.

(** DEL (127) is a control character too, and a decoded mdhd with the language
    31, 31, 31 prints it: iso639 letters are not escaped (string.go:202-204). *)
Definition mdhd_bytes : list byte := hex "00000000000000000000000000000001000000007fff0000".
Theorem C48_del_refuted : exists d x n s,
  ascii_graphic 127 = false /\
  unmarshal_any std_registry mdhd_bytes (bt "mdhd") (lenN mdhd_bytes) ctx0 0 = (Ok (d, x, n), lenN mdhd_bytes) /\
  stringify ascii_graphic std_registry (bt "mdhd") x ctx0 = Ok s /\ In 127 (map b2N s).
Proof.
  destruct (unmarshal_any std_registry mdhd_bytes (bt "mdhd") (lenN mdhd_bytes) ctx0 0) as [[[[d x] n]| | |] p] eqn:E.
  2-4: exfalso; assert (X : match unmarshal_any std_registry mdhd_bytes (bt "mdhd") (lenN mdhd_bytes) ctx0 0 with
         (Ok _, _) => true | _ => false end = true) by (vm_compute; reflexivity); rewrite E in X; clear - X; discriminate X.
  assert (X : match unmarshal_any std_registry mdhd_bytes (bt "mdhd") (lenN mdhd_bytes) ctx0 0 with
     | (Ok (d, x, _), p) => (p =? lenN mdhd_bytes) &&
         match stringify ascii_graphic std_registry (bt "mdhd") x ctx0 with
         | Ok s => existsb (N.eqb 127) (map b2N s)
         | _ => false end
     | _ => false end = true) by (vm_compute; reflexivity).
  rewrite E in X. apply andb_prop in X. destruct X as [X1 X2]. apply N.eqb_eq in X1. subst p.
  destruct (stringify ascii_graphic std_registry (bt "mdhd") x ctx0) as [s| | |] eqn:S; try discriminate X2.
  exists d, x, n, s. split; [reflexivity|]. split; [reflexivity|]. split; [exact S|].
  apply existsb_exists in X2. destruct X2 as (y & I & Q). apply N.eqb_eq in Q. subst y. exact I.
Qed.
Print Assumptions C48_del_refuted.

(** the text of a decoded box, and what the specification expects *)
Definition both (t : btype) (indent payload : list byte) : option (text * text) :=
  match unmarshal_any std_registry payload t (lenN payload) ctx0 0 with
  | (Ok (d, x, _), _) =>
      match stringify_with_indent ascii_graphic std_registry t x indent ctx0 with
      | Ok s => Some (s, box_text ascii_graphic indent ctx0 d x)
      | _ => None
      end
  | _ => None
  end.
(** a stts with its fields on separate lines, a location with control characters
    in it, and bytes that are no UTF-8 *)
Example C48_case :
  let stts := lit "  Version=0" ++ [N2b 10] ++ lit "  Flags=0x000000" ++ [N2b 10] ++ lit "  EntryCount=1" ++ [N2b 10] ++
              lit "  Entries=[{" ++ [N2b 10] ++ lit "      SampleCount=2" ++ [N2b 10] ++ lit "      SampleDelta=3" ++ [N2b 10] ++
              lit "    }]" ++ [N2b 10] in
  both (bt "stts") (lit "  ") (hex "00000000000000010000000200000003") = Some (stts, stts) /\
  both (bt "url ") [] (hex "00000000610a1b6200") =
    Some (lit "Version=0 Flags=0x000000 Location=""a..b""", lit "Version=0 Flags=0x000000 Location=""a..b""") /\
  escape ascii_graphic (hex "41ff1b42") = lit "A..B".
Proof. vm_compute. repeat split; reflexivity. Qed.
