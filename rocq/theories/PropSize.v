(** C14: the decoded value is not larger than the payload. *)
From Verif Require Import Base BaseProofs BitIO Schema Methods Registry Marshal Unmarshal Decode.
From Verif Require Import SpecTotal SpecSize BitIOProofs MarshalProofs MarshalCount UnmarshalProofs VersionFacts
     Causal Shape Total RoundTripMeta SizeProofs PropTotal.
Local Open Scope string_scope.
Local Open Scope list_scope.
Local Open Scope N_scope.

(** The number of list elements and string bytes at all levels of a decoded box
    is at most the number of bits read, 8 * n (and n is at most the payload size,
    C09).  The exception is a trun whose samples have no content. *)
Theorem C14_decoded_size_partial : forall data t size ctx pos d x n pos',
  pos <= lenN data -> lenN data < 2 ^ 62 ->
  (t = bt "trun" -> trun_has_fields (skipN pos data) = true) ->
  unmarshal_any std_registry data t size ctx pos = (Ok (d, x, n), pos') ->
  elems_flds (bd_flds d) x <= 8 * n.
Proof.
  intros data t size ctx pos d x n pos' Hp Hd NT H.
  pose proof (unmarshal_any_def _ _ _ _ _ _ _ _ _ H) as G.
  pose proof (unmarshal_any_decode t ctx d data size pos G Hp Hd) as U. cbv zeta in U. rewrite H in U.
  destruct U as (_ & U & _). revert U. apply decode_size.
  - exact (all_defs_check _ _ _ _ _ eq_refl std_total G).
  - exact (all_defs_check _ _ _ _ _ eq_refl std_ht G).
  - exact (all_defs_check _ _ _ _ _ eq_refl std_trun G).
  - exact (all_defs_check _ _ _ _ _ eq_refl std_nodup G).
  - exact (all_defs_check _ _ _ _ _ eq_refl std_fb G).
  - exact (all_defs_check _ _ _ _ _ eq_refl std_no_cp G).
  - exact (all_defs_check _ _ _ _ _ eq_refl std_meta G).
  - intros E. apply NT. eapply trun_type; eauto.
Qed.
Print Assumptions C14_decoded_size_partial.

Definition size_of (s t : string) : option (N * N) :=
  match unmarshal_any std_registry (hex s) (bt t) (lenN (hex s)) ctx0 0 with
  | (Ok (d, x, n), _) => Some (elems_flds (bd_flds d) x, n)
  | _ => None
  end.
(** 1 brand; 2 samples; 1 key id and 2 data bytes *)
Example C14_cases :
  (size_of "69736f6d0000000069736f6d" "ftyp",
   size_of "000001000000000200000001000000ff" "trun",
   size_of "01000000ffffffffffffffffffffffffffffffff00000001aaaaaaaaaaaaaaaaaaaaaaaaaaaaaaaa00000002bbcc" "pssh") =
  (Some (1, 12), Some (2, 16), Some (3, 46)).
Proof. vm_compute. reflexivity. Qed.

(** The exception is real: eight bytes decode into 300 list elements (and into
    any number up to 2^32 - 2, as the count field says: C14_any_count). *)
Theorem C14_decoded_size_refuted : exists data d x n pos',
  lenN data = 8 /\ unmarshal_any std_registry data (bt "trun") 8 ctx0 0 = (Ok (d, x, n), pos') /\
  8 * n < elems_flds (bd_flds d) x.
Proof.
  assert (E : size_of "000000000000012c" "trun" = Some (300, 8)) by (vm_compute; reflexivity).
  exists (hex "000000000000012c"). unfold size_of in E.
  change (lenN (hex "000000000000012c")) with 8 in *.
  destruct (unmarshal_any std_registry (hex "000000000000012c") (bt "trun") 8 ctx0 0) as [[[[d x] n]| | |] p]; try discriminate.
  assert (Q : elems_flds (bd_flds d) x = 300 /\ n = 8) by (now injection E). destruct Q as [Q ->].
  exists d, x, 8, p. rewrite Q. repeat split.
Qed.
Print Assumptions C14_decoded_size_refuted.
