(** How a command line of mp4tool is written and what it asks for: the notation of
    numbers, of options and of the arguments after them. *)
From Verif Require Import Base GoText Cli.
Local Open Scope string_scope.
Local Open Scope list_scope.
Local Open Scope N_scope.

(** ** Numbers: decimal, or in another base after a prefix *)
Inductive digit : byte -> N -> Prop :=
| decimal_digit : forall k, k < 10 -> digit (N2b (48 + k)) k            (* '0' to '9' *)
| upper_digit : forall k, 10 <= k < 16 -> digit (N2b (65 + (k - 10))) k   (* 'A' to 'F' *)
| lower_digit : forall k, 10 <= k < 16 -> digit (N2b (97 + (k - 10))) k.  (* 'a' to 'f' *)
(** digits below the base; between two of them one underscore may stand *)
Inductive digits (base : N) : arg -> list N -> Prop :=
| one_digit : forall c d, digit c d -> d < base -> digits base [c] [d]
| next_digit : forall c d s l, digit c d -> d < base -> digits base s l -> digits base ([c] ++ s) (d :: l)
| next_digit_apart : forall c d s l, digit c d -> d < base -> digits base s l -> digits base ([c] ++ lit "_" ++ s) (d :: l).
Definition number_of (base : N) (l : list N) : N := fold_left (fun n d => n * base + d) l 0.
Definition prefixes : list (arg * N) :=
  [(lit "0", 8); (lit "0o", 8); (lit "0O", 8); (lit "0b", 2); (lit "0B", 2); (lit "0x", 16); (lit "0X", 16)].
Inductive number : arg -> N -> Prop :=
| decimal_number : forall s d l, digits 10 s (d :: l) -> d <> 0 -> number s (number_of 10 (d :: l))
| just_zero : number (lit "0") 0
| based_number : forall prefix base separator s l,
    In (prefix, base) prefixes -> In separator [[]; lit "_"] -> digits base s l ->
    number (prefix ++ separator ++ s) (number_of base l).

(** ** Options *)
(** What one option says: a switch is on or off; a setting has a text. *)
Inductive option_given := Switch (name : string) (on : bool) | Setting (name : string) (text : arg).
Definition says_true : list arg := map lit ["1"; "t"; "T"; "true"; "TRUE"; "True"].
Definition says_false : list arg := map lit ["0"; "f"; "F"; "false"; "FALSE"; "False"].
Definition dashes : list arg := [lit "-"; lit "--"].
(** An option takes one argument, or two: a setting may be followed by its text. *)
Inductive written : option_given -> list arg -> Prop :=
| switch_alone : forall d n, In d dashes -> written (Switch n true) [d ++ lit n]
| switch_true : forall d n w, In d dashes -> In w says_true -> written (Switch n true) [d ++ lit n ++ lit "=" ++ w]
| switch_false : forall d n w, In d dashes -> In w says_false -> written (Switch n false) [d ++ lit n ++ lit "=" ++ w]
| setting_joined : forall d n v, In d dashes -> written (Setting n v) [d ++ lit n ++ lit "=" ++ v]
| setting_apart : forall d n v, In d dashes -> written (Setting n v) [d ++ lit n; v].
(** The options end before an argument that is no option, or with "--". *)
Definition no_option (a : arg) : Prop := a = lit "-" \/ forall s, a <> lit "-" ++ s.
Inductive operands (given : list arg) : list arg -> Prop :=
| given_plainly : match given with [] => True | a :: _ => no_option a end -> operands given given
| given_after_dashes : operands given ([lit "--"] ++ given).
Inductive all_written : list option_given -> list arg -> Prop :=
| no_more : all_written [] []
| one_more : forall o os a args, written o a -> all_written os args -> all_written (o :: os) (a ++ args).
(** The line consists of options and then operands. *)
Definition consists_of (os : list option_given) (given line : list arg) : Prop :=
  exists a b, line = a ++ b /\ all_written os a /\ operands given b.
(** The line asks for help after some options. *)
Definition asks_for_help (os : list option_given) (line : list arg) : Prop :=
  exists a d h v b, line = a ++ [d ++ h ++ v] ++ b /\ all_written os a /\
    In d dashes /\ In h [lit "h"; lit "help"] /\ (v = [] \/ exists x, v = lit "=" ++ x).

(** The last one counts. *)
Fixpoint last_switch (n : string) (os : list option_given) (otherwise : bool) : bool :=
  match os with
  | [] => otherwise
  | Switch m b :: r => last_switch n r (if String.eqb m n then b else otherwise)
  | Setting _ _ :: r => last_switch n r otherwise
  end.
Fixpoint last_setting {A} (n : string) (os : list option_given) (read : arg -> A) (otherwise : A) : A :=
  match os with
  | [] => otherwise
  | Switch _ _ :: r => last_setting n r read otherwise
  | Setting m v :: r => last_setting n r read (if String.eqb m n then read v else otherwise)
  end.

(** ** The options of the commands *)
Definition dump_option (o : option_given) : Prop :=
  match o with
  | Switch n _ => In n ["a"; "mdat"; "free"; "offset"; "hex"]
  | Setting n _ => n = "full"
  end.
Definition probe_option (o : option_given) : Prop :=
  match o with Switch _ _ => False | Setting n _ => n = "format" end.
Definition extract_option (o : option_given) : Prop := False.
Definition edit_option (o : option_given) : Prop :=
  match o with
  | Switch _ _ => False
  | Setting n v => n = "drop" \/ (n = "base_media_decode_time" /\ exists t, number v t /\ t < 2 ^ 64)
  end.

(** ** What a line asks for *)
Inductive asks : list arg -> action -> Prop :=
| ask_nothing : asks [] Usage
| ask_help : forall r, asks (lit "help" :: r) Help
| ask_unknown : forall c r,
    ~ In c (map lit ["help"; "dump"; "psshdump"; "probe"; "extract"; "alpha"]) -> asks (c :: r) Usage
| ask_alpha_nothing : asks [lit "alpha"] Usage
| ask_alpha_unknown : forall c r, ~ In c (map lit ["edit"; "divide"]) -> asks (lit "alpha" :: c :: r) Usage
(* no options *)
| ask_psshdump : forall f r, asks (lit "psshdump" :: f :: r) (PsshDump f)
| ask_psshdump_usage : asks [lit "psshdump"] Usage
| ask_divide : forall f d r, asks (lit "alpha" :: lit "divide" :: f :: d :: r) (DivideFile f d)
| ask_divide_usage : forall r, (List.length r < 2)%nat -> asks (lit "alpha" :: lit "divide" :: r) Usage
(* dump *)
| ask_dump : forall line os f r, Forall dump_option os -> consists_of os (f :: r) line ->
    asks (lit "dump" :: line)
      (Dump (last_setting "full" os (fun v => v) []) (last_switch "a" os false) (last_switch "mdat" os false)
            (last_switch "free" os false) (last_switch "offset" os false) (last_switch "hex" os false) f)
| ask_dump_usage : forall line os, Forall dump_option os -> consists_of os [] line -> asks (lit "dump" :: line) Usage
| ask_dump_help : forall line os, Forall dump_option os -> asks_for_help os line -> asks (lit "dump" :: line) FlagHelp
(* probe *)
| ask_probe : forall line os f r, Forall probe_option os -> consists_of os (f :: r) line ->
    asks (lit "probe" :: line) (ProbeFile (last_setting "format" os (fun v => v) (lit "json")) f)
| ask_probe_usage : forall line os, Forall probe_option os -> consists_of os [] line -> asks (lit "probe" :: line) Usage
| ask_probe_help : forall line os, Forall probe_option os -> asks_for_help os line -> asks (lit "probe" :: line) FlagHelp
(* extract *)
| ask_extract : forall line t f r, consists_of [] (t :: f :: r) line -> List.length t = 4%nat ->
    asks (lit "extract" :: line) (ExtractBox t f)
| ask_extract_usage : forall line given, consists_of [] given line ->
    match given with t :: f :: r => List.length t <> 4%nat | _ => True end -> asks (lit "extract" :: line) Usage
| ask_extract_help : forall line, asks_for_help [] line -> asks (lit "extract" :: line) FlagHelp
(* edit *)
| ask_edit : forall line os time i o r, Forall edit_option os -> consists_of os (i :: o :: r) line ->
    match last_setting "base_media_decode_time" os Some None with
    | Some v => number v time /\ time < 2 ^ 64
    | None => time = 2 ^ 64 - 1
    end ->
    asks (lit "alpha" :: lit "edit" :: line) (EditFile time (last_setting "drop" os (fun v => v) []) i o)
| ask_edit_usage : forall line os given, Forall edit_option os -> consists_of os given line -> (List.length given < 2)%nat ->
    asks (lit "alpha" :: lit "edit" :: line) Usage
| ask_edit_help : forall line os, Forall edit_option os -> asks_for_help os line ->
    asks (lit "alpha" :: lit "edit" :: line) FlagHelp.
