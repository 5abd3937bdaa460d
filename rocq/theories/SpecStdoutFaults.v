(** What C73 says: Write calls of the standard output that fail.  A script lists what
    the successive calls do: [None] succeeds, [Some k] fails after [k] bytes; calls
    after its end succeed. *)
From Verif Require Import Base.
Local Open Scope list_scope.

(** The first [pre] calls succeed *)
Definition succeed (pre : list (option N)) : Prop := forall x, In x pre -> x = None.
(** What is left of texts written by one call each, when nobody looks at the errors *)
Fixpoint kept (script : list (option N)) (texts : list (list byte)) : list byte :=
  match texts, script with
  | [], _ => []
  | t :: l, [] => t ++ kept [] l
  | t :: l, None :: r => t ++ kept r l
  | t :: l, Some k :: r => takeN k t ++ kept r l
  end.
(** texts that end with a newline *)
Definition lines (texts : list (list byte)) : Prop := forall t, In t texts -> exists l, t = l ++ [N2b 10].
