(** Model of extract.go, dump.go and psshdump.go in cmd/mp4tool on a standard output
    whose Write calls may fail: the functions of Tool.v, with the calls they make.
    (Writing to a pipe nobody reads ends a Go program at once: that is left out.) *)
From Verif Require Import Base Schema Structs Registry Unmarshal BoxInfo ReadTree Extract Text GoText Stringify Edit Tool.
Local Open Scope string_scope.
Local Open Scope list_scope.
Local Open Scope N_scope.
Local Open Scope monad_scope.

(** What has been written, and what the calls of Write still to come do: [None]
    writes all, [Some k] fails after [k] bytes; all calls after the end of the list
    write all. *)
Definition ost := (tst * list (option N))%type.
(** os.Stdout.Write *)
Definition write_out (l : list byte) (s : ost) : bool * ost :=
  match snd s with
  | [] => (true, (print l (fst s), []))
  | None :: r => (true, (print l (fst s), r))
  | Some k :: r => (false, (print (takeN k l) (fst s), r))
  end.
Definition finish_on {A} (x : res A * (N * ost)) : res unit * list byte * list (option N) :=
  (finish (fst x, (fst (snd x), fst (snd (snd x)))), snd (snd (snd x))).

(** ** extract: cmd/mp4tool/internal/extract/extract.go:55-77 *)
(** The loop of io.Copy, which stops at the first call that fails *)
Fixpoint write_pieces (ps : list (list byte)) (s : ost) : bool * ost :=
  match ps with
  | [] => (true, s)
  | p :: r => let (ok, s') := write_out p s in if ok then write_pieces r s' else (false, s')
  end.
Definition oprog := hprog ost unit unit.
(** extract.go:64-75, as Tool.extract_rest *)
Definition extract_rest_on (bi : boxinfo) (s : ost) : oprog :=
  if negb (is_supported std_registry (bi_type bi) (bi_ctx bi)) then HRet s tt
  else if (256 <=? bi_size bi) && should_has_no_children (bi_type bi) then HRet s tt
  else HExpand s tt (fun r s =>
         match r with
         | Ok _ => HRet s tt
         | Err EUnsupportedVersion => HRet s tt
         | Err e => HFail s e
         | _ => HFail s EEOF              (* not reached: Expand hands over a result or an error *)
         end).
(** extract.go:56-76.  [split]: the pieces in which io.CopyN hands over the bytes of
    the box, which depend on what the Read calls return. *)
Definition extract_handler_on (split : list byte -> list (list byte)) (data : list byte) (boxType : btype)
  : handler_t ost unit unit := fun bi _ _ s =>
  if bt_eqb (bi_type bi) boxType then
    let (got, complete) := copy_out data bi in
    let (ok, s) := write_pieces (split got) s in
    if negb ok then HFail s EWrite
    else if complete then HMove (bi_offset bi + lenN got) (extract_rest_on bi s)
    else HFail s EEOF
  else extract_rest_on bi s.
(** extract: nil or an error, what has been written, and what is left of the script *)
Definition extract_tool_on (split : list byte -> list (list byte)) (data : list byte) (boxType : btype)
  (script : list (option N)) : res unit * list byte * list (option N) :=
  finish_on (read_box_structure std_registry data (extract_handler_on split data boxType) tt (0, (mktst [] false, script))).

(** ** dump: cmd/mp4tool/internal/dump/dump.go *)
(** fmt.Println(line.String()): one call of Write, its error dropped *)
Definition println_on (line : text) (s : ost) : ost := snd (write_out (line ++ [N2b 10]) s).
Definition panics (s : ost) : ost := (mktst (t_out (fst s)) true, snd s).
(** dump.go:160-178, as Tool.dump_raw *)
Definition dump_raw_on (bi : boxinfo) (full : bool) (line : text) (s : ost) : oprog :=
  if full then
    if maxAlloc <=? payload_size bi then HFail (panics s) EEOF
    else HReadData (fun r =>
      match r with
      | Ok (d, _) => HRet (println_on (line ++ lit " Data=[" ++ dump_bytes true d ++ lit "]") s) tt
      | Err e => HFail s e
      | _ => HFail s EEOF                   (* not reached *)
      end)
  else HRet (println_on (line ++ lit " Data=[...] " ++ use_full bi) s) tt.
(** dump.go:97-179, as Tool.dump_handler *)
Definition dump_handler_on (graphic : N -> bool) (cfg : dump_cfg) : handler_t ost unit unit := fun bi pth _ s =>
  let line := dump_head cfg bi pth in
  let full := boxes_exist (dc_full cfg) (box_type_string (bi_type bi)) in
  if negb full && (bt_eqb (bi_type bi) (bt "mdat") || bt_eqb (bi_type bi) (bt "free") || bt_eqb (bi_type bi) (bt "skip"))
  then HRet (println_on (line ++ lit " Data=[...] " ++ use_full bi) s) tt
  else
    let full := full || dc_all cfg in
    if is_supported std_registry (bi_type bi) (bi_ctx bi) then
      if negb full && (64 <=? payload_size bi) && should_has_no_children (bi_type bi)
      then HRet (println_on (line ++ lit " ... " ++ use_full bi) s) tt
      else HReadPayload (fun r =>
        match r with
        | Err EUnsupportedVersion => dump_raw_on bi full (line ++ lit " (unsupported box version)") s
        | Err e => HFail s e
        | Ok (_, x, _) =>
            match stringify graphic std_registry (bi_type bi) x (bi_ctx bi) with
            | Ok str =>
                let rest :=
                  if negb full && (dc_width cfg <? lenN line + lenN str + 2) then lit " ... " ++ use_full bi
                  else match str with [] => [] | _ => lit " " ++ str end in
                HExpand (println_on (line ++ rest) s) tt (fun r s =>
                  match r with
                  | Ok _ => HRet s tt
                  | Err e => HFail s e
                  | _ => HFail s EEOF       (* not reached *)
                  end)
            | Err e => HFail s e
            | _ => HFail (panics s) EEOF
            end
        | _ => HFail s EEOF                 (* not reached *)
        end)
    else dump_raw_on bi full line s.
Definition dump_tool_on (graphic : N -> bool) (cfg : dump_cfg) (data : list byte) (script : list (option N))
  : res unit * list byte * list (option N) :=
  finish_on (read_box_structure std_registry data (dump_handler_on graphic cfg) tt (0, (mktst [] false, script))).

(** ** psshdump: cmd/mp4tool/internal/psshdump/psshdump.go *)
(** psshdump.go:64-72: nine calls of Write, as Tool.pssh_text; the errors are dropped *)
Definition pssh_lines (i : N) (bi : boxinfo) (x : list (string * val)) (raw : list byte) : list text :=
  [dec_text i ++ lit ":";
   lit "  offset: " ++ dec_text (bi_offset bi);
   lit "  size: " ++ dec_text (bi_size bi);
   lit "  version: " ++ dec_text (get_version x);
   lit "  flags: 0x" ++ flat_map (fun c => hex2 (b2N c)) (flag_bytes x);
   lit "  systemId: " ++ sysid_text 0 (as_bytes (lookup "SystemID" x));
   lit "  dataSize: " ++ int_text (as_Z (lookup "DataSize" x));
   lit "  base64: """ ++ base64 raw ++ lit """";
   []].
(** the loop: psshdump.go:45-73 *)
Fixpoint pssh_loop_on (data : list byte) (i : N) (l : list (boxinfo * (boxdef * list (string * val)))) (pos : N) (s : ost)
  : res unit * ost :=
  match l with
  | [] => (Ok tt, s)
  | (bi, (_, x)) :: r =>
      match (seek_to_start bi ;;; read_raw data bi) pos with
      | (Ok raw, pos') => pssh_loop_on data (i + 1) r pos' (fold_left (fun s line => println_on line s) (pssh_lines i bi x raw) s)
      | (Err e, _) => (Err e, s)
      | (Panic, _) => (Panic, s)
      | (OutOfFuel, _) => (OutOfFuel, s)
      end
  end.
(** dump: psshdump.go:28-76 *)
Definition psshdump_tool_on (data : list byte) (script : list (option N)) : res unit * list byte * list (option N) :=
  let (r, s) :=
    match extract_boxes_with_payload std_registry data None [[bt "moov"; bt "pssh"]; [bt "moof"; bt "pssh"]] 0 with
    | (Ok l, pos) => pssh_loop_on data 0 l pos (mktst [] false, script)
    | (Err e, _) => (Err e, (mktst [] false, script))
    | (Panic, _) => (Panic, (mktst [] false, script))
    | (OutOfFuel, _) => (OutOfFuel, (mktst [] false, script))
    end in
  (r, t_out (fst s), snd s).
