(** Model of cmd/mp4tool/internal/edit/edit.go on an output whose Write calls may
    fail: the handler of Edit.v, with the calls Marshal makes to the Writer. *)
From Verif Require Import Base BitIO Schema Structs Registry Marshal Unmarshal BoxInfo ReadTree Writer Text Accessors Edit.
Local Open Scope string_scope.
Local Open Scope list_scope.
Local Open Scope N_scope.
Local Open Scope monad_scope.

(** does the scripted Write call fail? *)
Definition call_fails (x : option N) : bool := match x with Some _ => true | None => false end.

(** Marshal: marshaller.go:46-69, as Marshal.marshal; it also returns what is left
    of the script of the Write calls. *)
Definition marshal_on (R : registry) (t : btype) (ctx : context) (v : fields) (faults : list bool)
  : res N * list byte * list bool :=
  match get_box_def R t ctx with
  | None => (Err ENotFound, [], faults)
  | Some d =>
      let (r, s) := marshal_flds (bd_name d) v ctx (bd_name d) true v (bd_flds d) (mkmst (new_writer faults) 0) in
      (match r with
       | Ok _ => if m_wbits s mod 8 =? 0 then Ok (m_wbits s / 8)
                 else Err (EMsg "box size is not multiple of 8 bits")
       | Err e => Err e
       | Panic => Panic
       | OutOfFuel => OutOfFuel
       end, w_out (m_w s), w_faults (m_w s))
  end.

(** mp4.Marshal(w, box, ctx) with w the Writer: edit.go:115; Writer.Write is Write
    of the file (write.go:19-21).  The calls of Marshal write one after the other
    from the current position.  A call of Marshal's that fails writes nothing
    here (the calls of the Writer itself may write some bytes before they fail). *)
Definition w_marshal (t : btype) (ctx : context) (v : fields) : M writer N := fun w =>
  let f := wr_file w in
  let '(r, out, rest) := marshal_on std_registry t ctx v (map call_fails (o_faults f)) in
  (r, mkwr (mkof (overwrite (o_data f) (o_pos f) out) (o_pos f + lenN out)
                 (skipn (List.length (o_faults f) - List.length rest) (o_faults f))) (wr_stack w)).

(** The handler: edit.go:81-125 *)
Definition edit_handler_on (cfg : config) (data : list byte) : handler_t est unit unit := fun bi _ _ s =>
  if boxes_exist (cf_drop cfg) (box_type_string (bi_type bi)) then HRet s tt
  else if negb (is_supported std_registry (bi_type bi) (bi_ctx bi)) || bt_eqb (bi_type bi) (bt "mdat") then
    call (copy_box data bi) s (fun _ s => HMove (bi_offset bi + bi_size bi) (HRet s tt))
  else
    call (start_box bi) s (fun _ s =>
    HReadPayload (fun r =>
      match r with
      | Ok (d, x, _) =>
          call (w_marshal (bi_type bi) (bi_ctx bi) (edit_fields cfg (bi_type bi) x)) s (fun _ s =>
          HExpand s tt (fun r s =>
            match r with
            | Ok _ => call end_box s (fun _ s => HRet s tt)
            | Err e => HFail s e
            | _ => HFail s EEOF     (* not reached: Expand hands over a result or an error *)
            end))
      | Err e => HFail s e
      | _ => HFail s EEOF           (* not reached *)
      end)).

(** editFile: edit.go:66-127, with a fresh output file whose Write calls follow
    the script.  nil or an error, the contents of the output, and the part of the
    script that was not used. *)
Definition edit_file_on (cfg : config) (data : list byte) (faults : list (option N))
  : res unit * list byte * list (option N) :=
  let (r, s) := read_box_structure std_registry data (edit_handler_on cfg data) tt
                  (0, mkest (new_writer_of (mkof [] 0 faults)) false) in
  let f := wr_file (e_w (snd s)) in
  if e_panic (snd s) then (Panic, o_data f, o_faults f)
  else (match r with Ok _ => Ok tt | Err e => Err e | Panic => Panic | OutOfFuel => OutOfFuel end, o_data f, o_faults f).
