(** What FindIDRFrames should find in samples of whatever contents. *)
From Verif Require Import Base Probe SpecProbe.
Local Open Scope list_scope.
Local Open Scope N_scope.

(** A unit starts at [o] in the sample (SpecProbe.v: the lengths found in the file
    are followed from the start of the sample), and the sample has room for its
    length, of [w] bytes, and its first byte. *)
Definition unit_in (data : list byte) (w : N) (p : place) (o : N) : Prop :=
  unit_start data w p o /\ o + w + 1 <= l_size p.
(** the first byte of that unit is in the file and says: slice of an IDR picture *)
Definition idr_unit (data : list byte) (w : N) (p : place) (o : N) : Prop :=
  exists h, nth_error data (N.to_nat (l_offset p + o + w)) = Some h /\ b2N h mod 32 = 5.
Definition has_idr (data : list byte) (w : N) (p : place) : Prop :=
  exists o, unit_in data w p o /\ idr_unit data w p o.
(** the length or the first byte of that unit is beyond the end of the file *)
Definition beyond (data : list byte) (w : N) (p : place) (o : N) : Prop :=
  lenN data < l_offset p + o + w + 1.

(** [l]: the indices of the samples that have the property, in order *)
Inductive picked (Q : place -> Prop) : list place -> list N -> Prop :=
| picked_nil : picked Q [] []
| picked_yes : forall p ps l, Q p -> picked Q ps l -> picked Q (p :: ps) (l_index p :: l)
| picked_no : forall p ps l, ~ Q p -> picked Q ps l -> picked Q (p :: ps) l.
