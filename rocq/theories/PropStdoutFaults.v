(** C73: mp4tool extract, dump and psshdump on a standard output whose Write calls fail. *)
From Verif Require Import Base BaseProofs Schema Registry BoxInfo Tool StdoutFaults SpecStdoutFaults StdoutFaultsProofs GoText Stringify Text.
From Coq Require Import Lia.
Local Open Scope string_scope.
Local Open Scope list_scope.
Local Open Scope N_scope.

(** extract, in whatever pieces the copy hands over the bytes of a box: no call of
    Write failed, and extract returns and has written what it does when none fails; or
    the last call it made failed, no earlier one did, extract returns the error, and has
    written a beginning of what it writes when none fails. *)
Theorem C73_extract : forall split data boxType script r out rest,
  (forall l, List.concat (split l) = l) -> extract_tool_on split data boxType script = (r, out, rest) ->
  ((exists pre, script = pre ++ rest /\ succeed pre) /\ (r, out) = extract_tool data boxType) \/
  ((exists pre k, script = pre ++ Some k :: rest /\ succeed pre) /\ r = Err EWrite /\
   exists more, snd (extract_tool data boxType) = out ++ more).
Proof.
  intros split data boxType script r out rest Hs H.
  destruct (extract_all script split Hs data boxType r out rest H) as [[A B]|(A & B & C)]; [left|right]; repeat split; assumption.
Qed.
Print Assumptions C73_extract.

(** dump never notices: whichever calls fail it returns what it returns when none
    does, and it has printed what these calls have left of its lines. *)
Theorem C73_dump_never_notices : forall graphic cfg data script r out rest,
  dump_tool_on graphic cfg data script = (r, out, rest) ->
  r = fst (dump_tool graphic cfg data) /\
  exists texts, lines texts /\ snd (dump_tool graphic cfg data) = List.concat texts /\ out = kept script texts.
Proof. intros graphic cfg data script r out rest. apply dump_all. Qed.
Print Assumptions C73_dump_never_notices.
(** so does psshdump *)
Theorem C73_psshdump_never_notices : forall data script r out rest,
  psshdump_tool_on data script = (r, out, rest) ->
  r = fst (psshdump_tool data) /\
  exists texts, lines texts /\ snd (psshdump_tool data) = List.concat texts /\ out = kept script texts.
Proof. intros data script r out rest. apply psshdump_all. Qed.
Print Assumptions C73_psshdump_never_notices.

(** When no call fails they do what Tool.v says. *)
Lemma kept_all : forall texts script, succeed script -> kept script texts = List.concat texts.
Proof.
  induction texts as [|t texts IH]; intros script H; [reflexivity|]. cbn [kept List.concat]. destruct script as [|[k|] r].
  - now rewrite IH.
  - specialize (H (Some k) (or_introl eq_refl)). discriminate.
  - rewrite IH; [reflexivity|]. intros x Hx. apply H. now right.
Qed.
Theorem C73_no_failure : forall script, succeed script ->
  (forall split data boxType, (forall l, List.concat (split l) = l) ->
     fst (extract_tool_on split data boxType script) = extract_tool data boxType) /\
  (forall graphic cfg data, fst (dump_tool_on graphic cfg data script) = dump_tool graphic cfg data) /\
  (forall data, fst (psshdump_tool_on data script) = psshdump_tool data).
Proof.
  intros script H. split; [|split].
  - intros split data boxType Hs. destruct (extract_tool_on split data boxType script) as [[r out] rest] eqn:E.
    destruct (C73_extract _ _ _ _ _ _ _ Hs E) as [[_ G]|[(pre & k & G & _) _]]; [exact G|].
    assert (Q : In (Some k) script) by (rewrite G; apply in_or_app; right; now left). apply H in Q. discriminate.
  - intros graphic cfg data. destruct (dump_tool_on graphic cfg data script) as [[r out] rest] eqn:E.
    destruct (C73_dump_never_notices _ _ _ _ _ _ _ E) as (-> & texts & _ & T & ->). rewrite kept_all, <- T by exact H.
    cbn [fst]. now destruct (dump_tool graphic cfg data).
  - intros data. destruct (psshdump_tool_on data script) as [[r out] rest] eqn:E.
    destruct (C73_psshdump_never_notices _ _ _ _ _ E) as (-> & texts & _ & T & ->). rewrite kept_all, <- T by exact H.
    cbn [fst]. now destruct (psshdump_tool data).
Qed.
Print Assumptions C73_no_failure.

(** A file with two free boxes, of 8 and 12 bytes, and a moov box with a pssh box *)
Definition two_free : list byte := hex "00000008667265650000000c6672656501020304".
Definition one_pssh : list byte :=
  hex "000000286d6f6f76000000207073736800000000000102030405060708090a0b0c0d0e0f00000000".
(** as on a full disk: nothing can be written *)
Definition full_disk : list (option N) := repeat (Some 0) 20.
(** The copy in pieces of three bytes, as on a reader that returns as many: three
    calls for the first box, four for the second *)
Definition threes : list byte -> list (list byte) := fix go l :=
  match l with a :: b :: c :: r => [a; b; c] :: go r | [] => [] | _ => [l] end.
Example C73_threes : forall l, List.concat (threes l) = l.
Proof.
  assert (H : forall n l, (List.length l < n)%nat -> List.concat (threes l) = l).
  { induction n as [|n IH]; intros l L; [inversion L|]. destruct l as [|a [|b [|c r]]]; try reflexivity.
    change (threes (a :: b :: c :: r)) with ([a; b; c] :: threes r). cbn [List.concat app]. rewrite IH; [reflexivity|].
    cbn [List.length] in L. lia. }
  intros l. exact (H _ l (le_n _)).
Qed.
(** extract of the free boxes, the fourth call failing after one byte: error, 9 bytes
    written; without a failure, 20. *)
Example C73_case :
  extract_tool_on threes two_free (bt "free") [None; None; None; Some 1; None] = (Err EWrite, takeN 9 two_free, [None]) /\
  extract_tool_on threes two_free (bt "free") [None; None; None] = (Ok tt, two_free, []) /\
  extract_tool two_free (bt "free") = (Ok tt, two_free).
Proof. split; [|split]; vm_compute; reflexivity. Qed.

Definition plain_dump : dump_cfg := mkdcfg [] false false false 80.
(** The claim that a command fails when it cannot print is false of dump and of
    psshdump: on a full disk they succeed and have printed nothing. *)
Theorem C73_refuted :
  (exists cfg data rest, dump_tool_on (fun _ => true) cfg data full_disk = (Ok tt, [], rest) /\
     snd (dump_tool (fun _ => true) cfg data) <> []) /\
  (exists data rest, psshdump_tool_on data full_disk = (Ok tt, [], rest) /\ snd (psshdump_tool data) <> []).
Proof.
  split.
  - exists plain_dump, two_free, (repeat (Some 0) 18). split; vm_compute; [reflexivity|discriminate].
  - exists one_pssh, (repeat (Some 0) 11). split; vm_compute; [reflexivity|discriminate].
Qed.
Print Assumptions C73_refuted.
(** the first line of dump lost after four bytes *)
Example C73_dump_case : exists rest,
  dump_tool_on (fun _ => true) plain_dump two_free [Some 4] =
  (Ok tt, lit "[fre" ++ lit "[free] Size=12 Data=[...] (use ""-full free"" to show all)" ++ [N2b 10], rest).
Proof. exists []. vm_compute. reflexivity. Qed.
