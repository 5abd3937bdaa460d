(** Model of cmd/mp4tool/internal/edit/edit.go. *)
From Verif Require Import Base Schema Structs Registry Marshal Unmarshal BoxInfo ReadTree Writer Text Accessors.
Local Open Scope string_scope.
Local Open Scope list_scope.
Local Open Scope N_scope.
Local Open Scope monad_scope.

(** UNoValue: edit.go:14 *)
Definition UNoValue : N := 18446744073709551615.
(** Config: edit.go:16-36.  The values of the options: base_media_decode_time
    (a uint64) and the text after -drop. *)
Record config := mkcfg { cf_time : N; cf_drop : list (list byte) }.

(** strings.Split(s, ","): edit.go:53 *)
Fixpoint split_comma (s : list byte) : list (list byte) :=
  match s with
  | [] => [[]]
  | c :: r =>
      if N_of_ascii c =? 44 then [] :: split_comma r
      else match split_comma r with
           | x :: l => (c :: x) :: l
           | [] => [[c]]
           end
  end.
(** The options of Main: edit.go:39-53.  [None]: the option is not given.  The
    parsing of the command line is in Cli.v. *)
Definition options (time : option N) (drop : option (list byte)) : config :=
  mkcfg (match time with Some t => t | None => UNoValue end)
        (split_comma (match drop with Some s => s | None => [] end)).
(** Boxes.Exists: edit.go:22-29 *)
Definition boxes_exist (l : list (list byte)) (t : list byte) : bool := existsb (fun x => bytes_eqb x t) l.

(** The state of the handler: the Writer, and whether there was a panic (after
    which nothing more happens). *)
Record est := mkest { e_w : writer; e_panic : bool }.
Definition eprog := hprog est unit unit.
(** call a method of the Writer; return its error if there is one *)
Definition call {A} (m : M writer A) (s : est) (k : A -> est -> eprog) : eprog :=
  match m (e_w s) with
  | (Ok a, w) => k a (mkest w (e_panic s))
  | (Err e, w) => HFail (mkest w (e_panic s)) e
  | (_, w) => HFail (mkest w true) EEOF
  end.

(** edit some fields: edit.go:102-113 *)
Definition edit_fields (cfg : config) (t : btype) (x : fields) : fields :=
  if bt_eqb t (bt "tfdt") && negb (cf_time cfg =? UNoValue) then
    if get_version x =? 0
    then update "BaseMediaDecodeTimeV0" (VUint (w32 (cf_time cfg))) x
    else update "BaseMediaDecodeTimeV1" (VUint (cf_time cfg)) x
  else x.

(** The handler: edit.go:81-125.  Marshal writes to the Writer byte by byte; here
    its bytes are written with one call, which makes a difference only for an
    output that fails. *)
Definition edit_handler (cfg : config) (data : list byte) : handler_t est unit unit := fun bi _ _ s =>
  if boxes_exist (cf_drop cfg) (box_type_string (bi_type bi)) then HRet s tt
  else if negb (is_supported std_registry (bi_type bi) (bi_ctx bi)) || bt_eqb (bi_type bi) (bt "mdat") then
    call (copy_box data bi) s (fun _ s => HMove (bi_offset bi + bi_size bi) (HRet s tt))
  else
    call (start_box bi) s (fun _ s =>
    HReadPayload (fun r =>
      match r with
      | Ok (d, x, _) =>
          let (m, out) := marshal std_registry (bi_type bi) (bi_ctx bi) (edit_fields cfg (bi_type bi) x) [] in
          call (w_write out) s (fun _ s =>
          call (fun w => (m, w)) s (fun _ s =>
          HExpand s tt (fun r s =>
            match r with
            | Ok _ => call end_box s (fun _ s => HRet s tt)
            | Err e => HFail s e
            | _ => HFail s EEOF     (* not reached: Expand hands over a result or an error *)
            end)))
      | Err e => HFail s e
      | _ => HFail s EEOF           (* not reached *)
      end)).

(** editFile: edit.go:66-127, with a fresh output file.  The contents of the
    output, and nil or an error. *)
Definition edit_file (cfg : config) (data : list byte) : res unit * list byte :=
  let (r, s) := read_box_structure std_registry data (edit_handler cfg data) tt
                  (0, mkest (new_writer_of (new_ofile [] 0)) false) in
  let out := o_data (wr_file (e_w (snd s))) in
  if e_panic (snd s) then (Panic, out)
  else (match r with Ok _ => Ok tt | Err e => Err e | Panic => Panic | OutOfFuel => OutOfFuel end, out).
