(** Specification of the one payload on which the decoder does not stop: a track
    fragment run (trun) that claims 2^32-1 samples (the code's "unlimited") and
    whose flags give the samples no content at all. *)
From Verif Require Import Base Schema.
Local Open Scope list_scope.
Local Open Scope N_scope.

(** a sample in a trun has content: one of the flags 0x100, 0x200, 0x400, 0x800
    (bits 0 to 3 of the second flags byte) is set *)
Definition trun_has_fields (payload : list byte) : bool :=
  match payload with _ :: _ :: f :: _ => negb (N.land (b2N f) 15 =? 0) | _ => false end.
Definition trun_sample_count (payload : list byte) : N := be_to_N (takeN 4 (skipN 4 payload)).
Definition trun_endless (payload : list byte) : Prop :=
  trun_has_fields payload = false /\ trun_sample_count payload = 4294967295.
