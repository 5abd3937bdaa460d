(** What C65, C69 and C70 say an operation does on a reader that fails. *)
From Verif Require Import Base Schema Registry ReadTree.
Local Open Scope string_scope.
Local Open Scope N_scope.

(** Any call of Read may report the error [e0], which is not io.EOF, along with
    some, all or none of the bytes asked for; the other calls are those of a fair
    reader (PropAnyReader.v).  The operation returns [e0] and one of the calls it made
    failed, or it returns what it returns on a reader that fills every buffer, and
    leaves the stream in the same place. *)
Definition fails_or_same {A} (fails : nat -> bool) (e0 : err) (x : M (N * nat) A) (y : M N A) : Prop :=
  forall pos calls, exists r pos' calls', x (pos, calls) = (r, (pos', calls')) /\
    (r = Err e0 /\ (exists i, (calls <= i < calls')%nat /\ fails i = true) \/
     (r, pos') = y pos).
(** the same for the traversals, with the state of the handler *)
Definition fails_or_same_with {St A} (fails : nat -> bool) (e0 : err) (x : M ((N * nat) * St) A) (y : M (N * St) A) : Prop :=
  forall pos calls st, exists r pos' calls' st', x ((pos, calls), st) = (r, ((pos', calls'), st')) /\
    (r = Err e0 /\ (exists i, (calls <= i < calls')%nat /\ fails i = true) \/
     (r, (pos', st')) = y (pos, st)).

(** For C69 any call of Seek may fail too, with the error [e1], and leave the stream
    anywhere.  The errors an operation may report are these two and two of the
    package's own.  The operation returns one of them and one of the calls it made, of
    Read or of Seek, failed; or it does what it does on a reader that never fails. *)
Definition reported (e0 e1 e : err) : Prop :=
  e = e0 \/ e = e1 \/ e = EMsg "not enough bits" \/ e = EUnsupportedVersion.
Definition reports_or_same {A} (fails : nat -> bool) (e0 e1 : err) (x : M (N * nat) A) (y : M N A) : Prop :=
  forall pos calls, exists r pos' calls', x (pos, calls) = (r, (pos', calls')) /\
    ((exists e, r = Err e /\ reported e0 e1 e) /\ (exists i, (calls <= i < calls')%nat /\ fails i = true) \/
     (r, pos') = y pos).
Definition reports_or_same_with {St A} (fails : nat -> bool) (e0 e1 : err) (x : M ((N * nat) * St) A) (y : M (N * St) A) : Prop :=
  forall pos calls st, exists r pos' calls' st', x ((pos, calls), st) = (r, ((pos', calls'), st')) /\
    ((exists e, r = Err e /\ reported e0 e1 e) /\ (exists i, (calls <= i < calls')%nat /\ fails i = true) \/
     (r, (pos', st')) = y (pos, st)).
(** For handlers that take ErrUnsupportedBoxVersion for a box they cannot parse and go
    on: it is not among the errors; when the operation fails as on a reader that never
    fails, the stream may be elsewhere. *)
Definition reported_but (e0 e1 e : err) : Prop := e = e0 \/ e = e1 \/ e = EMsg "not enough bits".
Definition reports_or_does {St A} (fails : nat -> bool) (e0 e1 : err) (x : M ((N * nat) * St) A) (y : M (N * St) A) : Prop :=
  forall pos calls st, exists r pos' calls' st', x ((pos, calls), st) = (r, ((pos', calls'), st')) /\
    ((exists e, r = Err e /\ reported_but e0 e1 e) /\ (exists i, (calls <= i < calls')%nat /\ fails i = true) \/
     r = fst (y (pos, st)) /\ st' = snd (snd (y (pos, st))) /\ (forall a, r = Ok a -> pos' = fst (snd (y (pos, st))))).

(** ** Handlers that hand on the error [e0] when reading or expanding fails with it *)
Fixpoint passes (e0 : err) {St V P} (p : hprog St V P) : Prop :=
  match p with
  | HRet _ _ | HFail _ _ => True
  | HReadPayload k => (exists s, k (Err e0) = HFail s e0) /\ forall r, passes e0 (k r)
  | HReadData k => (exists s, k (Err e0) = HFail s e0) /\ forall r, passes e0 (k r)
  | HExpand _ _ k => (forall s, exists s', k (Err e0) s = HFail s' e0) /\ forall r s, passes e0 (k r s)
  | HMove _ k => passes e0 k
  end.

(** ** Commands.  A command reads a file whose Read, or Seek, may fail, and writes to
    another file or to its output.  It returns one of the errors in [E], and one of the
    calls it made failed; or it returns what it returns on the contents of the file and,
    if this is a success, has written the same (bytes or, for divide, files). *)
Definition fails_or_writes {Out} (fails : nat -> bool) (E : err -> Prop)
  (x : N * nat -> res unit * Out * (N * nat)) (y : res unit * Out) : Prop :=
  forall calls, exists r out pos' calls', x (0, calls) = (r, out, (pos', calls')) /\
    ((exists e, r = Err e /\ E e) /\ (exists i, (calls <= i < calls')%nat /\ fails i = true) \/
     r = fst y /\ (fst y = Ok tt -> out = snd y)).
