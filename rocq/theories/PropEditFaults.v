(** C71: mp4tool edit on an output whose Write calls fail. *)
From Verif Require Import Base BaseProofs Schema Registry BoxInfo Writer Edit EditFaults SpecEditFaults EditFaultsProofs.
Local Open Scope string_scope.
Local Open Scope list_scope.
Local Open Scope N_scope.

Lemma spec_for_good : forall faults, fails_for_good faults -> forgood (map call_fails faults).
Proof.
  induction faults as [|[k|] l IH]; cbn [map call_fails forgood]; intros H; [exact I| |].
  - apply Forall_forall. intros x Hx. apply in_map_iff in Hx. destruct Hx as (y & E & Hy).
    specialize (H [] k l y eq_refl Hy). destruct y; [now rewrite <- E|congruence].
  - apply IH. intros pre k post x E. apply (H (None :: pre) k post x). cbn [app]. now rewrite E.
Qed.

(** When the output starts to fail and still fails when edit returns, edit does
    not return nil, unless it never came to the call that fails: then the output
    is the one it writes when no call fails.  (The output is still failing when
    some of the script is left.)
    Missing: an output that fails now and then, or only where it has to grow
    (a full disk); the claim is false there (below). *)
Theorem C71_edit_for_good_partial : forall cfg data faults out rest,
  fails_for_good faults -> edit_file_on cfg data faults = (Ok tt, out, rest) -> rest <> [] ->
  edit_file cfg data = (Ok tt, out).
Proof.
  intros cfg data faults out rest F H N. destruct (edit_on_for_good cfg data faults (spec_for_good _ F)) as [[r G]|[_ G]].
  - rewrite G in H. now injection H.
  - rewrite H in G. contradiction.
Qed.
Print Assumptions C71_edit_for_good_partial.

(** When no call fails, edit does what Edit.v says: whether Marshal writes its
    bytes one by one makes no difference. *)
Theorem C71_edit_no_failure : forall cfg data n,
  fst (edit_file_on cfg data (repeat None n)) = edit_file cfg data.
Proof.
  intros cfg data n. assert (E : forall b, In b (map call_fails (repeat None n)) -> b = false).
  { intros b H. apply in_map_iff in H. destruct H as (y & <- & H). apply repeat_spec in H. now subst y. }
  assert (F : forgood (map call_fails (repeat None n))).
  { apply spec_for_good. intros pre k post x H _. exfalso.
    assert (Q : In (Some k) (repeat None n)) by (rewrite H; apply in_or_app; right; now left).
    apply repeat_spec in Q. discriminate. }
  destruct (edit_on_for_good cfg data _ F) as [[r G]|[G _]]; [now rewrite G|]. apply E in G. discriminate.
Qed.
Print Assumptions C71_edit_no_failure.

(** A file with one stts box of two entries: 1 call for the header, 24 for the
    payload, 1 for the header again. *)
Definition stts_file : list byte := hex "0000002073747473000000000000000200000005000000060000000700000008".
Definition plain : config := options None None.
(** an output that fails from its k-th call on: error for k < 26 *)
Example C71_case :
  map (fun k => let '(r, out, rest) := edit_file_on plain stts_file (repeat None k ++ repeat (Some 0) 40) in
                (r, lenN out, lenN rest)) [0; 1; 10; 16; 25; 26]%nat =
  [(Err EWrite, 0, 39); (Err EWrite, 8, 39); (Err EWrite, 17, 38); (Err EWrite, 23, 38); (Err EWrite, 32, 39); (Ok tt, 32, 40)].
Proof. vm_compute. reflexivity. Qed.

(** The claim is false when the output has room for 29 bytes, as on a full disk:
    the call of Marshal for the 30th byte fails, its error is dropped (and so are
    the bytes that follow in the list, for which the bit writer makes no call any
    more), but EndBox only overwrites what is there, and succeeds.  edit returns
    nil; the file it has written cannot be read. *)
Theorem C71_edit_refuted : exists cfg data faults out rest e,
  edit_file_on cfg data faults = (Ok tt, out, rest) /\
  edit_file cfg data = (Ok tt, data) /\ out <> data /\
  edit_file cfg out = (Err e, takeN 8 out).
Proof.
  exists plain, stts_file, (repeat None 22 ++ repeat (Some 0) 1 ++ repeat None 1),
         (hex "0000001d73747473000000000000000200000005000000060000000700"), [], EEOF.
  vm_compute. repeat split; try reflexivity. discriminate.
Qed.
Print Assumptions C71_edit_refuted.
