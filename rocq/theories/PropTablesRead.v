(** C50: payloads that follow the tables are read as the tables say. *)
From Verif Require Import Base BaseProofs BitIO Schema Structs Methods Registry Marshal Unmarshal Decode.
From Verif Require Import SpecCodec SpecLossless SpecRoundTrip SpecReencode BitIOProofs UnmarshalProofs PropMarshal PropUnmarshal
     VersionFacts PropRoundTrip PropLossless ReencodeBoxes PropReencode Vectors SpecIso SpecTables IsoProofs PropLookup PropTables.
Local Open Scope string_scope.
Local Open Scope list_scope.
Local Open Scope N_scope.

Lemma wf_layout : forall d ctx v, well_formed d ctx v = true ->
  exists bits, layout (bd_name d) (bd_flds d) ctx v = Some bits /\ lenN bits mod 8 = 0.
Proof.
  intros d ctx v W. unfold well_formed in W. apply andb_prop in W. destruct W as [_ W].
  destruct (layout (bd_name d) (bd_flds d) ctx v) as [bits|]; [|discriminate].
  apply andb_prop in W. destruct W as [W _]. apply andb_prop in W. destruct W as [W _].
  apply andb_prop in W. destruct W as [W _]. apply andb_prop in W. destruct W as [W _].
  apply N.eqb_eq in W. eauto.
Qed.
(** A payload that is what the table gives for a well-formed value [v]
    (SpecRoundTrip.v) is read as [v], wherever it stands in a stream, whether or
    not there are strings in it.  Missing: hvcC, and sgpd with another number of
    roll distances than announced, for which the claim is false (PropTables.v). *)
Theorem C50_table_is_read_partial : forall types T t ctx d v payload pre post,
  In (types, bd_name d, T) standard_tables -> In t types ->
  get_box_def std_registry t ctx = Some d -> get_version v <> 255 -> (bd_name d = "Sgpd" -> counted v) ->
  well_formed d ctx v = true ->
  bits_of_bytes payload = table_bits T ctx v ->
  lenN pre + lenN payload + lenN post < 2 ^ 62 ->
  unmarshal_any std_registry (pre ++ payload ++ post) t (lenN payload) ctx (lenN pre) =
    (Ok (d, v, lenN payload), lenN pre + lenN payload).
Proof.
  intros types T t ctx d v payload pre post I It G V S W E L.
  destruct (wf_layout d ctx v W) as (bits & EL & A).
  destruct (C50_written_partial types T t ctx d v bits I It G V S EL A) as (out & M & B).
  destruct (C07_round_trip t ctx d v G W) as (out' & M' & R).
  rewrite M in M'. assert (E' : out = out') by congruence. subst out'.
  rewrite <- E in B. apply bits_of_bytes_inj in B. subst out. now apply R.
Qed.
Print Assumptions C50_table_is_read_partial.

(** Whatever payload a box was read from, with unterminated strings and all: what
    the table gives for the box is a whole number of bytes, and is read as the same
    box.  [rewritable]: see C62.  (For boxes without strings C50_read_partial says
    more: what the table gives is what was read.) *)
Theorem C50_decoded_partial : forall types T data t size ctx pos d x n pos',
  In (types, bd_name d, T) standard_tables -> In t types ->
  pos <= lenN data -> lenN data < 2 ^ 45 ->
  unmarshal_any std_registry data t size ctx pos = (Ok (d, x, n), pos') -> get_version x <> 255 ->
  (bd_name d = "Sgpd" -> counted x) -> rewritable d x = true ->
  exists payload, bits_of_bytes payload = table_bits T ctx x /\
    forall pre post, lenN pre + lenN payload + lenN post < 2 ^ 62 ->
      unmarshal_any std_registry (pre ++ payload ++ post) t (lenN payload) ctx (lenN pre) =
        (Ok (d, x, lenN payload), lenN pre + lenN payload).
Proof.
  intros types T data t size ctx pos d x n pos' I It Hp Hd H V S RW.
  assert (Hd' : lenN data < 2 ^ 62).
  { change (2 ^ 45) with 35184372088832 in Hd. change (2 ^ 62) with 4611686018427387904. clear - Hd. lia. }
  pose proof (unmarshal_any_def _ _ _ _ _ _ _ _ _ H) as G.
  destruct (C62_reencode_partial data t size ctx pos d x n pos' Hp Hd H RW) as (out & M & R).
  exists out. split; [|exact R].
  destruct (plain_box d) eqn:PB.
  - pose proof (C12_lossless _ _ _ _ _ _ _ _ _ Hp Hd' PB H) as M'. rewrite M in M'.
    assert (E : out = takeN n (skipN pos data)) by congruence.
    rewrite E. exact (C50_read_partial types T data t size ctx pos d x n pos' I It PB Hp Hd' H V S).
  - pose proof (decoded_well_formed _ _ _ _ _ _ _ _ _ Hp Hd H RW PB) as W.
    destruct (wf_layout d ctx x W) as (bits & EL & A).
    destruct (C50_written_partial types T t ctx d x bits I It G V S EL A) as (out' & M' & B).
    rewrite M in M'. assert (E : out = out') by congruence. now rewrite E.
Qed.
Print Assumptions C50_decoded_partial.

(** The two event messages of PropTables.v, without the field that their version
    does not have, are well-formed.  A URL entry without its NUL is read as the
    entry with the NUL that the table gives. *)
Definition url_payload : list byte := hex "000000006162".
Example C50_case_strings :
  match get_box_def std_registry (bt "emsg") ctx0 with
  | Some d => (well_formed d ctx0 (update "PresentationTime" (VUint 0) (emsg_v 0)) &&
               well_formed d ctx0 (update "PresentationTimeDelta" (VUint 0) (emsg_v 1)))%bool
  | None => false
  end = true /\
  match unmarshal_any std_registry url_payload (bt "url ") 6 ctx0 0 with
  | (Ok (d, x, n), _) => Some (rewritable d x, n, pack (match find_row (bt "url ") (bd_name d) with Some T => table_bits T ctx0 x | None => [] end))
  | _ => None
  end = Some (true, 6, hex "00000000616200").
Proof. split; vm_compute; reflexivity. Qed.
