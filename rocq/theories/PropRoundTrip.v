(** C07: what Marshal wrote, Unmarshal reads back. *)
From Verif Require Import Base BaseProofs BitIO Schema Methods Registry Marshal Unmarshal
     SpecCodec SpecRoundTrip RoundTripMeta PropMarshal Vectors.
Local Open Scope string_scope.
Local Open Scope list_scope.
Local Open Scope N_scope.

(** [well_formed d ctx v] (SpecRoundTrip.v): the value [v] of the box type [d] has
    a layout and nothing in it is lost or ambiguous in that layout.  [pre] and
    [post]: whatever surrounds the payload in the stream. *)
Theorem C07_round_trip : forall t ctx d v,
  get_box_def std_registry t ctx = Some d -> well_formed d ctx v = true ->
  exists out,
    marshal std_registry t ctx v [] = (Ok (lenN out), out) /\
    forall pre post, lenN pre + lenN out + lenN post < 2 ^ 62 ->
      unmarshal_any std_registry (pre ++ out ++ post) t (lenN out) ctx (lenN pre) =
        (Ok (d, v, lenN out), lenN pre + lenN out).
Proof.
  intros t ctx d v G W. pose proof W as W'. unfold well_formed in W'.
  apply andb_prop in W'. destruct W' as [_ W'].
  destruct (layout (bd_name d) (bd_flds d) ctx v) as [bits|] eqn:E; [|discriminate].
  apply andb_prop in W'. destruct W' as [W' _]. apply andb_prop in W'. destruct W' as [W' _].
  apply andb_prop in W'. destruct W' as [W' _]. apply andb_prop in W'. destruct W' as [W' _].
  apply N.eqb_eq in W'.
  destruct (C06_marshal_layout std_registry t ctx d v bits G E W') as (out & EO & M).
  exists out. split; [exact M|]. intros pre post L. now apply (unmarshal_rt t ctx d v bits).
Qed.
Print Assumptions C07_round_trip.

(** The hypotheses hold for an edit list of version 1 and for the value that
    each payload of the Go unit tests stands for (boxes with strings, counted
    and unbounded lists, optional fields, versions 0 and 1, emsg, hdlr, avcC,
    esds and meta among them); re-encoding gives the payload again. *)
Example C07_case_elst :
  match get_box_def std_registry (bt "elst") ctx0 with
  | Some d => well_formed d ctx0 elst_v1
  | None => false
  end = true.
Proof. vm_compute. reflexivity. Qed.

Definition vector_ok (v : vector) : bool :=
  let bin := hex (vc_bin v) in
  match unmarshal_any std_registry bin (vc_type v) (lenN bin) (vc_ctx v) 0 with
  | (Ok (d, x, n), _) =>
      (n =? lenN bin) && well_formed d (vc_ctx v) x &&
      match marshal std_registry (vc_type v) (vc_ctx v) x [] with
      | (Ok m, out) => bytes_eqb out bin
      | _ => false
      end
  | _ => false
  end.
Example C07_case_go_tests : lenN vectors = 136 /\ forallb vector_ok vectors = true.
Proof. split; vm_compute; reflexivity. Qed.

(** A name with a NUL inside is not well-formed, and indeed does not survive. *)
Definition hdlr_nul : fields :=
  [fullbox 0 0 0 0; ("PreDefined", VUint 0); ("HandlerType", VList [VUint 118; VUint 105; VUint 100; VUint 101]);
   ("Reserved", VList [VUint 0; VUint 0; VUint 0]); ("Name", VStr (hex "410042"))].
Example C07_nul_not_well_formed :
  match get_box_def std_registry (bt "hdlr") ctx0 with
  | Some d => well_formed d ctx0 hdlr_nul
  | None => true
  end = false /\
  match marshal std_registry (bt "hdlr") ctx0 hdlr_nul [] with
  | (Ok n, out) =>
      match unmarshal_any std_registry out (bt "hdlr") n ctx0 0 with
      | (Ok (_, v, m), _) => (lookup "Name" v, n, m)
      | _ => (None, 0, 0)
      end
  | _ => (None, 0, 0)
  end = (Some (VStr (hex "41")), 28, 28).
Proof. split; vm_compute; reflexivity. Qed.
