(** What C71 says: Write calls of the output that fail.  A script lists what the
    successive calls do: [None] succeeds, [Some k] fails after [k] bytes. *)
From Verif Require Import Base.

(** from the first call that fails on, every call fails *)
Definition fails_for_good (faults : list (option N)) : Prop := forall pre k post x,
  faults = pre ++ Some k :: post -> In x post -> x <> None.
