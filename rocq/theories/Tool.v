(** Model of cmd/mp4tool: util.go, extract.go, dump.go, psshdump.go.
    Simplified throughout: bufseekio (a cache) is the file itself; standard
    output never fails; the command line is parsed already; what is printed
    after a failure ("Error: ...") is left out, the error is returned. *)
From Verif Require Import Base Schema Structs Registry Unmarshal BoxInfo ReadTree Extract Text GoText Stringify Edit.
Local Open Scope string_scope.
Local Open Scope list_scope.
Local Open Scope N_scope.
Local Open Scope monad_scope.

(** ShouldHasNoChildren: cmd/mp4tool/internal/util/util.go:5-22 *)
Definition should_has_no_children (t : btype) : bool :=
  existsb (fun s => bt_eqb t (bt s))
    ["emsg"; "esds"; "ftyp"; "pssh"; "ctts"; "co64"; "elst"; "sbgp"; "sdtp"; "stco"; "stsc"; "stts"; "stss";
     "stsz"; "tfra"; "trun"].

(** What a command has printed, and whether it has panicked (after which nothing
    more happens). *)
Record tst := mktst { t_out : list byte; t_panic : bool }.
Definition print (l : list byte) (s : tst) : tst := mktst (t_out s ++ l) (t_panic s).
Definition tprog := hprog tst unit unit.
Definition finish {A} (x : res A * (N * tst)) : res unit * list byte :=
  let (r, s) := x in
  if t_panic (snd s) then (Panic, t_out (snd s))
  else (match r with Ok _ => Ok tt | Err e => Err e | Panic => Panic | OutOfFuel => OutOfFuel end, t_out (snd s)).

(** ** extract: cmd/mp4tool/internal/extract/extract.go:55-77 *)
(** io.CopyN(os.Stdout, r, int64(size)) after SeekToStart: the bytes written, and
    whether the data ends early.  The offset of a box is a position that has been
    read from, so the seek, whose error the code ignores, does not fail. *)
Definition copy_out (data : list byte) (bi : boxinfo) : list byte * bool :=
  if (bi_size bi =? 0) || (9223372036854775808 <=? bi_size bi) then ([], true)
  else
    let got := takeN (bi_size bi) (skipN (bi_offset bi) data) in
    (got, lenN got =? bi_size bi).
(** extract.go:64-75 *)
Definition extract_rest (bi : boxinfo) (s : tst) : tprog :=
  if negb (is_supported std_registry (bi_type bi) (bi_ctx bi)) then HRet s tt
  else if (256 <=? bi_size bi) && should_has_no_children (bi_type bi) then HRet s tt
  else HExpand s tt (fun r s =>
         match r with
         | Ok _ => HRet s tt
         | Err EUnsupportedVersion => HRet s tt
         | Err e => HFail s e
         | _ => HFail s EEOF              (* not reached: Expand hands over a result or an error *)
         end).
(** extract.go:56-76 *)
Definition extract_tool_handler (data : list byte) (boxType : btype) : handler_t tst unit unit := fun bi _ _ s =>
  if bt_eqb (bi_type bi) boxType then
    let (got, complete) := copy_out data bi in
    if complete then HMove (bi_offset bi + lenN got) (extract_rest bi (print got s))
    else HFail (print got s) EEOF
  else extract_rest bi s.
(** extract: nil or an error, and what has been printed *)
Definition extract_tool (data : list byte) (boxType : btype) : res unit * list byte :=
  finish (read_box_structure std_registry data (extract_tool_handler data boxType) tt (0, mktst [] false)).

(** ** dump: cmd/mp4tool/internal/dump/dump.go *)
(** mp4dump and terminalWidth: dump.go:24-30, 78-83 *)
Record dump_cfg := mkdcfg { dc_full : list (list byte); dc_all : bool; dc_offset : bool; dc_hex : bool; dc_width : N }.
(** The options of Main: dump.go:33-67.  [full]: the text after -full, empty
    without it. *)
Definition dump_options (full : list byte) (all mdat free offset hex : bool) (width : N) : dump_cfg :=
  mkdcfg (split_comma full ++ (if mdat then [lit "mdat"] else []) ++ (if free then [lit "free"; lit "skip"] else []))
         all offset hex width.
(** sizeFormat: dump.go:109-112 *)
Definition dump_num (cfg : dump_cfg) (n : N) : text := if dc_hex cfg then lit "0x" ++ hex_text n else dec_text n.
(** The beginning of a line: dump.go:101-116, printIndent: dump.go:180-184 *)
Definition dump_head (cfg : dump_cfg) (bi : boxinfo) (pth : path) : text :=
  repeat (N2b 32) (2 * (List.length pth - 1)) ++ lit "[" ++ box_type_string (bi_type bi) ++ lit "]" ++
  (if is_supported std_registry (bi_type bi) (bi_ctx bi) then [] else lit " (unsupported box type)") ++
  (if dc_offset cfg then lit " Offset=" ++ dump_num cfg (bi_offset bi) else []) ++
  lit " Size=" ++ dump_num cfg (bi_size bi).
(** fmt.Println(line.String()) *)
Definition println (line : text) (s : tst) : tst := print (line ++ [N2b 10]) s.
(** (use "-full %s" to show all): dump.go:123, 134, 150, 175 *)
Definition use_full (bi : boxinfo) : text := lit "(use ""-full " ++ box_type_string (bi_type bi) ++ lit """ to show all)".
(** dump.go:166-172 *)
Fixpoint dump_bytes (first : bool) (l : list byte) : text :=
  match l with
  | [] => []
  | c :: r => (if first then [] else lit " ") ++ lit "0x" ++ hex2 (b2N c) ++ dump_bytes false r
  end.
(** A box that is not decoded: dump.go:160-178.  make panics for a capacity of
    2^48 or more; running out of memory is not modelled. *)
Definition dump_raw (bi : boxinfo) (full : bool) (line : text) (s : tst) : tprog :=
  if full then
    if maxAlloc <=? payload_size bi then HFail (mktst (t_out s) true) EEOF
    else HReadData (fun r =>
      match r with
      | Ok (d, _) => HRet (println (line ++ lit " Data=[" ++ dump_bytes true d ++ lit "]") s) tt
      | Err e => HFail s e
      | _ => HFail s EEOF                   (* not reached *)
      end)
  else HRet (println (line ++ lit " Data=[...] " ++ use_full bi) s) tt.
(** dump.go:97-179.  [graphic]: the runes that Stringify takes for graphic. *)
Definition dump_handler (graphic : N -> bool) (cfg : dump_cfg) : handler_t tst unit unit := fun bi pth _ s =>
  let line := dump_head cfg bi pth in
  let full := boxes_exist (dc_full cfg) (box_type_string (bi_type bi)) in
  if negb full && (bt_eqb (bi_type bi) (bt "mdat") || bt_eqb (bi_type bi) (bt "free") || bt_eqb (bi_type bi) (bt "skip"))
  then HRet (println (line ++ lit " Data=[...] " ++ use_full bi) s) tt
  else
    let full := full || dc_all cfg in
    if is_supported std_registry (bi_type bi) (bi_ctx bi) then
      if negb full && (64 <=? payload_size bi) && should_has_no_children (bi_type bi)
      then HRet (println (line ++ lit " ... " ++ use_full bi) s) tt
      else HReadPayload (fun r =>
        match r with
        | Err EUnsupportedVersion => dump_raw bi full (line ++ lit " (unsupported box version)") s
        | Err e => HFail s e
        | Ok (_, x, _) =>
            match stringify graphic std_registry (bi_type bi) x (bi_ctx bi) with
            | Ok str =>
                let rest :=
                  if negb full && (dc_width cfg <? lenN line + lenN str + 2) then lit " ... " ++ use_full bi
                  else match str with [] => [] | _ => lit " " ++ str end in
                HExpand (println (line ++ rest) s) tt (fun r s =>
                  match r with
                  | Ok _ => HRet s tt
                  | Err e => HFail s e
                  | _ => HFail s EEOF       (* not reached *)
                  end)
            | Err e => HFail s e
            | _ => HFail (mktst (t_out s) true) EEOF
            end
        | _ => HFail s EEOF                 (* not reached *)
        end)
    else dump_raw bi full line s.
(** dump: nil or an error, and what has been printed *)
Definition dump_tool (graphic : N -> bool) (cfg : dump_cfg) (data : list byte) : res unit * list byte :=
  finish (read_box_structure std_registry data (dump_handler graphic cfg) tt (0, mktst [] false)).

(** ** psshdump: cmd/mp4tool/internal/psshdump/psshdump.go *)
(** base64.StdEncoding.EncodeToString *)
Definition base64_digit (n : N) : byte :=
  N2b (if n <? 26 then 65 + n else if n <? 52 then 97 + (n - 26) else if n <? 62 then 48 + (n - 52)
       else if n =? 62 then 43 else 47).
Fixpoint base64 (l : list byte) : text :=
  match l with
  | a :: b :: c :: r =>
      let v := b2N a * 65536 + b2N b * 256 + b2N c in
      map base64_digit [v / 262144; v / 4096 mod 64; v / 64 mod 64; v mod 64] ++ base64 r
  | [a; b] =>
      let v := b2N a * 65536 + b2N b * 256 in
      map base64_digit [v / 262144; v / 4096 mod 64; v / 64 mod 64] ++ [N2b 61]
  | [a] =>
      let v := b2N a * 65536 in
      map base64_digit [v / 262144; v / 4096 mod 64] ++ [N2b 61; N2b 61]
  | [] => []
  end.
(** the system ID: psshdump.go:48-54 *)
Fixpoint sysid_text (i : N) (l : list byte) : text :=
  match l with
  | [] => []
  | c :: r => hex2 (b2N c) ++ (if existsb (N.eqb i) [3; 5; 7; 9] then lit "-" else []) ++ sysid_text (i + 1) r
  end.
(** io.ReadFull into make([]byte, Size): psshdump.go:59-62.  make panics for a
    length of 2^48 or more. *)
Definition read_raw (data : list byte) (bi : boxinfo) : M N (list byte) :=
  if maxAlloc <=? bi_size bi then panic
  else if bi_size bi =? 0 then ret []
  else fun pos =>
    let got := takeN (bi_size bi) (skipN pos data) in
    (if lenN got =? bi_size bi then Ok got else if lenN got =? 0 then Err EEOF else Err EUnexpectedEOF, pos + lenN got).
(** pssh.Flags, printed with %x: two digits for each of the bytes *)
Definition flag_bytes (x : list (string * val)) : list byte :=
  match fullbox_of x with Some l => as_bytes (lookup "Flags" l) | None => [] end.
(** psshdump.go:64-72 *)
Definition pssh_text (i : N) (bi : boxinfo) (x : list (string * val)) (raw : list byte) : text :=
  let line s := s ++ [N2b 10] in
  line (dec_text i ++ lit ":") ++
  line (lit "  offset: " ++ dec_text (bi_offset bi)) ++
  line (lit "  size: " ++ dec_text (bi_size bi)) ++
  line (lit "  version: " ++ dec_text (get_version x)) ++
  line (lit "  flags: 0x" ++ flat_map (fun c => hex2 (b2N c)) (flag_bytes x)) ++
  line (lit "  systemId: " ++ sysid_text 0 (as_bytes (lookup "SystemID" x))) ++
  line (lit "  dataSize: " ++ int_text (as_Z (lookup "DataSize" x))) ++
  line (lit "  base64: """ ++ base64 raw ++ lit """") ++
  line [].
(** the loop: psshdump.go:45-73 *)
Fixpoint pssh_loop (data : list byte) (i : N) (l : list (boxinfo * (boxdef * list (string * val)))) (pos : N)
  : res unit * list byte :=
  match l with
  | [] => (Ok tt, [])
  | (bi, (_, x)) :: r =>
      match (seek_to_start bi ;;; read_raw data bi) pos with
      | (Ok raw, pos') => let (q, out) := pssh_loop data (i + 1) r pos' in (q, pssh_text i bi x raw ++ out)
      | (Err e, _) => (Err e, [])
      | (Panic, _) => (Panic, [])
      | (OutOfFuel, _) => (OutOfFuel, [])
      end
  end.
(** dump: psshdump.go:28-76 *)
Definition psshdump_tool (data : list byte) : res unit * list byte :=
  match extract_boxes_with_payload std_registry data None [[bt "moov"; bt "pssh"]; [bt "moof"; bt "pssh"]] 0 with
  | (Ok l, pos) => pssh_loop data 0 l pos
  | (Err e, _) => (Err e, [])
  | (Panic, _) => (Panic, [])
  | (OutOfFuel, _) => (OutOfFuel, [])
  end.
