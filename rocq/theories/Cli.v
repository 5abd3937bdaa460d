(** Model of the command line of mp4tool: cmd/mp4tool/main.go and the Main
    functions of the commands, with what they use of Go's package flag and of
    strconv.ParseBool and strconv.ParseUint. *)
From Coq Require Import SpecFloat.
From Verif Require Import Base Schema Structs Registry GoText Probe ProbeTool Tool Edit Divide DivideFloats.
Local Open Scope string_scope.
Local Open Scope list_scope.
Local Open Scope N_scope.

(** A string given on the command line *)
Definition arg := list byte.

(** ** strconv *)
(** strconv.ParseBool, used for dump.go:34-38.  [None]: a syntax error. *)
Definition parse_bool (s : arg) : option bool :=
  if existsb (bytes_eqb s) (map lit ["1"; "t"; "T"; "true"; "TRUE"; "True"]) then Some true
  else if existsb (bytes_eqb s) (map lit ["0"; "f"; "F"; "false"; "FALSE"; "False"]) then Some false
  else None.
(** lower: c | ('x' - 'X') *)
Definition lower (c : byte) : N := N.lor (b2N c) 32.
(** '0' <= c && c <= '9', and 'a' <= lower(c) && lower(c) <= last *)
Definition is_digit (c : byte) : bool := (48 <=? b2N c) && (b2N c <=? 57).
Definition is_letter (last : N) (c : byte) : bool := (97 <=? lower c) && (lower c <=? last).
Definition is_underscore (c : byte) : bool := b2N c =? 95.
(** The base and the rest after the prefix, for base 0 *)
Definition number_base (s : arg) : N * arg :=
  match s with
  | z :: c :: e :: r =>
      if b2N z =? 48 then
        if lower c =? 98 then (2, e :: r)
        else if lower c =? 111 then (8, e :: r)
        else if lower c =? 120 then (16, e :: r)
        else (8, c :: e :: r)
      else (10, s)
  | z :: r => if b2N z =? 48 then (8, r) else (10, s)
  | [] => (10, s)
  end.
(** The loop of strconv.ParseUint, for 64 bits.  [None]: a syntax or range error. *)
Fixpoint parse_digits (base : N) (s : arg) (n : N) : option N :=
  match s with
  | [] => Some n
  | c :: r =>
      if is_underscore c then parse_digits base r n
      else
        match (if is_digit c then Some (b2N c - 48) else if is_letter 122 c then Some (lower c - 97 + 10) else None) with
        | None => None
        | Some d =>
            if base <=? d then None
            else if (2 ^ 64 - 1) / base + 1 <=? n then None
            else let n0 := (n * base) mod 2 ^ 64 in
                 let n1 := (n0 + d) mod 2 ^ 64 in
                 if n1 <? n0 then None else parse_digits base r n1
        end
  end.
(** underscoreOK: what was seen before *)
Inductive saw := SBegin | SDigit | SUnderscore | SOther.
Fixpoint underscore_loop (hex : bool) (s : arg) (i : saw) : bool :=
  match s with
  | [] => match i with SUnderscore => false | _ => true end
  | c :: r =>
      if is_digit c || (hex && is_letter 102 c) then underscore_loop hex r SDigit
      else if is_underscore c then
        match i with SDigit => underscore_loop hex r SUnderscore | _ => false end
      else match i with SUnderscore => false | _ => underscore_loop hex r SOther end
  end.
(** underscoreOK.  Simplified: no sign, since ParseUint has refused it. *)
Definition underscore_ok (s : arg) : bool :=
  match s with
  | z :: c :: r =>
      if (b2N z =? 48) && ((lower c =? 98) || (lower c =? 111) || (lower c =? 120)) then
        underscore_loop (lower c =? 120) r SDigit
      else underscore_loop false s SBegin
  | _ => underscore_loop false s SBegin
  end.
(** strconv.ParseUint(s, 0, 64), used for edit.go:40 *)
Definition parse_uint (s : arg) : option N :=
  match s with
  | [] => None
  | _ =>
      let (base, r) := number_base s in
      match parse_digits base r 0 with
      | Some n => if existsb is_underscore r && negb (underscore_ok s) then None else Some n
      | None => None
      end
  end.

(** ** package flag *)
(** The flags of the commands are booleans, strings and uint64s *)
Inductive kind := KBool | KString | KUint.
Inductive value := VBool (b : bool) | VString (s : arg) | VUint (n : N).
(** Value.Set *)
Definition set_value (k : kind) (s : arg) : option value :=
  match k with
  | KBool => option_map VBool (parse_bool s)
  | KString => Some (VString s)
  | KUint => option_map VUint (parse_uint s)
  end.
(** FlagSet.Parse with ExitOnError: the values that have been set, the last one
    first, and FlagSet.Args; or a request for help, or an error, with which the
    process ends *)
Inductive parsed := PDone (vals : list (arg * value)) (rest : list arg) | PHelp | PBad.
(** strings.IndexByte(s, '='): before and after it *)
Fixpoint cut_equals (s : arg) : arg * option arg :=
  match s with
  | [] => ([], None)
  | c :: r => if b2N c =? 61 then ([], Some r) else let (a, v) := cut_equals r in (c :: a, v)
  end.
(** The name and the value: the search for '=' leaves out the first byte *)
Definition cut_name (s : arg) : arg * option arg :=
  match s with
  | [] => ([], None)
  | c :: r => let (a, v) := cut_equals r in (c :: a, v)
  end.
(** The beginning of FlagSet.parseOne *)
Inductive flag_arg := FNone | FTerminator | FBad | FName (s : arg).
Definition flag_name (s : arg) : flag_arg :=
  let check (r : arg) :=
    match r with
    | [] => FBad
    | c :: _ => if (b2N c =? 45) || (b2N c =? 61) then FBad else FName r
    end in
  match s with
  | a :: b :: r =>
      if b2N a =? 45 then
        if b2N b =? 45 then match r with [] => FTerminator | _ => check r end
        else check (b :: r)
      else FNone
  | _ => FNone
  end.
Fixpoint lookup {A} (n : arg) (l : list (arg * A)) : option A :=
  match l with
  | [] => None
  | (m, a) :: r => if bytes_eqb m n then Some a else lookup n r
  end.
Fixpoint parse_flags (defs : list (arg * kind)) (args : list arg) (vals : list (arg * value)) : parsed :=
  match args with
  | [] => PDone vals []
  | s :: rest =>
      match flag_name s with
      | FNone => PDone vals args
      | FTerminator => PDone vals rest
      | FBad => PBad
      | FName name =>
          let (n, v) := cut_name name in
          match lookup n defs, v with
          | None, _ => if bytes_eqb n (lit "help") || bytes_eqb n (lit "h") then PHelp else PBad
          | Some KBool, None => parse_flags defs rest ((n, VBool true) :: vals)
          | Some k, Some x =>
              match set_value k x with
              | Some w => parse_flags defs rest ((n, w) :: vals)
              | None => PBad
              end
          | Some k, None =>
              match rest with
              | [] => PBad
              | x :: rest =>
                  match set_value k x with
                  | Some w => parse_flags defs rest ((n, w) :: vals)
                  | None => PBad
                  end
              end
          end
      end
  end.
(** The variable of a flag after Parse *)
Definition get_bool (n : string) (vals : list (arg * value)) : bool :=
  match lookup (lit n) vals with Some (VBool b) => b | _ => false end.
Definition get_string (n : string) (default : arg) (vals : list (arg * value)) : arg :=
  match lookup (lit n) vals with Some (VString s) => s | _ => default end.
Definition get_uint (n : string) (default : N) (vals : list (arg * value)) : N :=
  match lookup (lit n) vals with Some (VUint x) => x | _ => default end.

(** ** The Main functions, up to the first use of a file *)
(** What is to be done.  [Usage]: print the usage, or what is wrong with the box
    type, and return 1. *)
Inductive action :=
| Usage | Help | FlagHelp | FlagError
| Dump (full : arg) (all mdat free offset hex : bool) (input : arg)
| PsshDump (input : arg)
| ProbeFile (format : arg) (input : arg)
| ExtractBox (boxType : btype) (input : arg)
| EditFile (time : N) (drop : arg) (input output : arg)
| DivideFile (input dir : arg).
Definition with_flags (defs : list (string * kind)) (args : list arg) (k : list (arg * value) -> list arg -> action) : action :=
  match parse_flags (map (fun d => (lit (fst d), snd d)) defs) args [] with
  | PDone vals rest => k vals rest
  | PHelp => FlagHelp
  | PBad => FlagError
  end.
(** dump.go:31-50 *)
Definition dump_main (args : list arg) : action :=
  with_flags [("full", KString); ("a", KBool); ("mdat", KBool); ("free", KBool); ("offset", KBool); ("hex", KBool)] args
    (fun vals rest =>
       match rest with
       | fpath :: _ =>
           Dump (get_string "full" [] vals) (get_bool "a" vals) (get_bool "mdat" vals) (get_bool "free" vals)
                (get_bool "offset" vals) (get_bool "hex" vals) fpath
       | [] => Usage
       end).
(** psshdump.go:13-19 *)
Definition psshdump_main (args : list arg) : action := match args with a :: _ => PsshDump a | [] => Usage end.
(** probe.go:15-29 *)
Definition probe_main (args : list arg) : action :=
  with_flags [("format", KString)] args
    (fun vals rest => match rest with ipath :: _ => ProbeFile (get_string "format" (lit "json") vals) ipath | [] => Usage end).
(** extract.go:19-39, and StrToBoxType in extract.go:49 *)
Definition extract_main (args : list arg) : action :=
  with_flags [] args
    (fun _ rest =>
       match rest with
       | boxType :: inputPath :: _ => if lenN boxType =? 4 then ExtractBox boxType inputPath else Usage
       | _ => Usage
       end).
(** edit.go:38-56 *)
Definition edit_main (args : list arg) : action :=
  with_flags [("base_media_decode_time", KUint); ("drop", KString)] args
    (fun vals rest =>
       match rest with
       | inputPath :: outputPath :: _ =>
           EditFile (get_uint "base_media_decode_time" UNoValue vals) (get_string "drop" [] vals) inputPath outputPath
       | _ => Usage
       end).
(** divide.go:26-32 *)
Definition divide_main (args : list arg) : action :=
  match args with a :: b :: _ => DivideFile a b | _ => Usage end.
(** alpha: main.go:42-57 *)
Definition alpha_main (args : list arg) : action :=
  match args with
  | [] => Usage
  | c :: r => if bytes_eqb c (lit "edit") then edit_main r
              else if bytes_eqb c (lit "divide") then divide_main r else Usage
  end.
(** main: main.go:15-40.  [args]: os.Args[1:] *)
Definition main_action (args : list arg) : action :=
  match args with
  | [] => Usage
  | c :: r => if bytes_eqb c (lit "help") then Help
              else if bytes_eqb c (lit "dump") then dump_main r
              else if bytes_eqb c (lit "psshdump") then psshdump_main r
              else if bytes_eqb c (lit "probe") then probe_main r
              else if bytes_eqb c (lit "extract") then extract_main r
              else if bytes_eqb c (lit "alpha") then alpha_main r
              else Usage
  end.

(** ** What the commands do *)
(** The surroundings of the process.  Simplified: a file that is opened is a
    regular file and can be read; writing succeeds; what divide writes goes to an
    empty directory. *)
Record world := mkworld
  { w_file : arg -> option (list byte);           (* the contents of what os.Open opens; None: it fails *)
    w_create : arg -> bool;                       (* whether os.Create succeeds *)
    w_same : arg -> arg -> bool;                  (* whether two paths lead to one file *)
    w_width : N;                                  (* terminalWidth: dump.go:23-29 *)
    w_graphic : N -> bool;                        (* unicode.IsGraphic, for dump *)
    w_help_code : N;                              (* the exit code of package flag after -help: 0, and 2 before Go 1.15 *)
    w_order : N -> list N -> list N;              (* the order of range over a map, for divide *)
    w_uint64 : spec_float -> N;                   (* conversions that Go leaves open, for divide *)
    w_int : spec_float -> Z }.
(** How the process ends: the exit code (None: it does not end), what is printed by
    the command before any error message, the report of probe and whether it is
    in JSON, the file created by edit, the files of divide.  The text of error
    and usage messages is not modelled. *)
Record process := mkprocess
  { pr_exit : option N;
    pr_stdout : list byte;
    pr_report : option (bool * report);
    pr_created : option (arg * list byte);
    pr_divided : option (arg * (fpath -> option (list byte))) }.
(** return 0, return 1 after an error; a panic ends a Go program with exit code 2 *)
Definition exit_code {A} (r : res A) : option N :=
  match r with Ok _ => Some 0 | Err _ => Some 1 | Panic => Some 2 | OutOfFuel => None end.
Definition ends (code : N) : process := mkprocess (Some code) [] None None None.
Definition prints (r : res unit * list byte) : process := mkprocess (exit_code (fst r)) (snd r) None None None.
(** os.Open, and the end of the Main functions: dump.go:70-75, psshdump.go:19-23,
    probe.go:30-34, extract.go:41-45, edit.go:58-63, divide.go:32-36 *)
Definition with_input (w : world) (path : arg) (k : list byte -> process) : process :=
  match w_file w path with Some data => k data | None => ends 1 end.
(** probe.go:37-55.  The YAML encoder has no errors. *)
Definition probe_process (format : arg) (data : list byte) : process :=
  if bytes_eqb format (lit "json") then
    let r := probe_tool data in
    mkprocess (exit_code r) [] (match r with Ok rep => Some (true, rep) | _ => None end) None None
  else
    let r := fst (build_report data 0) in
    mkprocess (exit_code r) [] (match r with Ok rep => Some (false, rep) | _ => None end) None None.
(** editFile: edit.go:66-127.  os.Create empties the file: if it is the input as
    well, there is nothing left to read. *)
Definition edit_process (w : world) (cfg : config) (input output : arg) (data : list byte) : process :=
  if w_create w output then
    let r := edit_file cfg (if w_same w input output then [] else data) in
    mkprocess (exit_code (fst r)) [] None (Some (output, snd r)) None
  else ends 1.
Definition perform (w : world) (a : action) : process :=
  match a with
  | Usage => ends 1
  | Help => ends 0                                            (* main.go:24-25 *)
  | FlagHelp => ends (w_help_code w)
  | FlagError => ends 2                                       (* flag.ExitOnError *)
  | Dump full all mdat free offset hex input =>
      with_input w input (fun data => prints (dump_tool (w_graphic w) (dump_options full all mdat free offset hex (w_width w)) data))
  | PsshDump input => with_input w input (fun data => prints (psshdump_tool data))
  | ProbeFile format input => with_input w input (probe_process format)
  | ExtractBox t input => with_input w input (fun data => prints (extract_tool data t))
  | EditFile time drop input output => with_input w input (edit_process w (mkcfg time (split_comma drop)) input output)
  | DivideFile input dir =>
      with_input w input (fun data =>
        let r := go_divide (w_uint64 w) (w_int w) (w_order w) data in
        mkprocess (exit_code (fst r)) [] None None (Some (dir, snd r)))
  end.
Definition mp4tool (w : world) (args : list arg) : process := perform w (main_action args).
