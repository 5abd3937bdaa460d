(** What a struct tag says, and what an ordering of fields is: the vocabulary of
    C18.  Nothing here refers to the parser. *)
From Verif Require Import Base Schema.
Local Open Scope string_scope.
Local Open Scope list_scope.
Local Open Scope N_scope.

(** a tag is a list of items separated by commas *)
Definition free_of (c : ascii) (s : string) : Prop := ~ In c (list_ascii_of_string s).
Definition items_of (tag : string) (items : list string) : Prop :=
  items <> [] /\ Forall (free_of ",") items /\ tag = String.concat "," items.
Definition blanks (s : string) : Prop := Forall (fun c => c = " "%char) (list_ascii_of_string s).
Definition trimmed (s : string) : Prop := forall x, (s <> " " ++ x)%string /\ (s <> x ++ " ")%string.
(** an item is a bare key, or key=value; blanks around both are ignored *)
Definition item (e k v : string) : Prop := trimmed k /\ trimmed v /\
  exists b1 b2, blanks b1 /\ blanks b2 /\ free_of "=" k /\
    ((e = (b1 ++ k ++ b2)%string /\ v = "") \/
     exists b3 b4, blanks b3 /\ blanks b4 /\ e = (b1 ++ k ++ b2 ++ "=" ++ b3 ++ v ++ b4)%string).
(** the value that the tag gives to a key: that of its last occurrence *)
Definition says (items : list string) (k v : string) : Prop :=
  exists a e b, items = a ++ e :: b /\ item e k v /\ forall e' v', In e' b -> ~ item e' k v'.

(** numerals *)
Definition digit (d : N) : string := String.substring (N.to_nat d) 1 "0123456789abcdef".
Fixpoint spell (ds : list N) : string :=
  match ds with [] => "" | d :: r => (digit d ++ spell r)%string end.
Definition value (base : N) (ds : list N) : N := fold_left (fun a d => base * a + d) ds 0.
Definition numeral (base : N) (s : string) (n : N) : Prop :=
  exists ds, ds <> [] /\ Forall (fun d => d < base) ds /\ s = spell ds /\ n = value base ds.
(** signed decimal *)
Definition number (s : string) (z : Z) : Prop :=
  exists n, (numeral 10 s n /\ z = Z.of_N n) \/
            (exists t, numeral 10 t n /\ (s = String "+" t /\ z = Z.of_N n \/ s = String "-" t /\ z = (- Z.of_N n)%Z)).

(** the item of the tag that is a number, the only one *)
Definition ranked (items : list string) (z : Z) : Prop :=
  exists a e b k, items = a ++ e :: b /\ item e k "" /\ number k z /\
    forall e' k' v' z', In e' (a ++ b) -> item e' k' v' -> ~ number k' z'.

(** fields with a tag, in declaration order: name, tag and type *)
Fixpoint tagged (fs : gflds) : list (string * string * gty) :=
  match fs with
  | GNil => []
  | GCons _ n t (Some tag) r => (n, tag, t) :: tagged r
  | GCons _ n t None r => tagged r
  end.
Fixpoint listed (l : flds) : list (finfo * sty) :=
  match l with FNil => [] | FCons f t r => (f, t) :: listed r end.
