(** The reading operations of the package over an arbitrary reader.

    Unmarshal.v, BoxInfo.v, ReadTree.v, Extract.v and Probe.v model a reader that
    fills every buffer, as a position in the data.  The definitions here are the
    same text with the operations on the reader left open; AnyReaderProofs.v
    relates the two. *)
From Verif Require Import Base BitIO Schema Structs Methods Registry Marshal Unmarshal BoxInfo ReadTree Extract Accessors Probe Stream.
Local Open Scope string_scope.
Local Open Scope list_scope.
Local Open Scope N_scope.
Local Open Scope monad_scope.

(** ** What a reader offers.  [T] is the state of the stream, [S] that of a
    bitio.Reader over it. *)
Record reader (S T : Type) := mkreader
  { o_new : T -> S;                        (* bitio.NewReadSeeker: internal/bitio/read.go:80-85 *)
    o_under : S -> T;                      (* the stream below a bitio reader *)
    o_bits : N -> M S (list byte);         (* ReadBits: internal/bitio/read.go:38-57 *)
    o_full : N -> M S (list byte);         (* io.ReadFull *)
    o_copy : N -> M S (list byte);         (* io.CopyN into a bytes.Buffer *)
    o_string : M S (list byte);            (* util.ReadString: internal/util/io.go:8-20 *)
    o_cur : M S N;                         (* Seek(0, io.SeekCurrent) *)
    o_end : M S N;                         (* Seek(0, io.SeekEnd) *)
    o_start : N -> M S N;                  (* Seek(x, io.SeekStart) *)
    o_move : (N -> N) -> M S unit }.       (* other movements of the stream *)
Arguments o_new {S T}. Arguments o_under {S T}. Arguments o_bits {S T}. Arguments o_full {S T}. Arguments o_copy {S T}.
Arguments o_string {S T}. Arguments o_cur {S T}. Arguments o_end {S T}. Arguments o_start {S T}. Arguments o_move {S T}.

(** the unmarshaller over it: marshaller.go:269-275 *)
Record gust (S : Type) := mkgust { g_r : S; g_rbits : N }.
Arguments mkgust {S} _ _. Arguments g_r {S} _. Arguments g_rbits {S} _.

Section AnyReader.
  Context {S T : Type}.
  Variable O : reader S T.
  Variable lf : positive.    (* bound for loops that end with the data *)
  Variable tf : nat.         (* bound for the traversal *)

  Definition g_lift {A} (m : M S A) : M (gust S) A := fun s =>
    let (r, x) := m (g_r s) in (r, mkgust x (g_rbits s)).
  Definition g_add (n : N) : M (gust S) unit := fun s => (Ok tt, mkgust (g_r s) (g_rbits s + n)).
  Definition g_get : M (gust S) N := fun s => (Ok (g_rbits s), s).
  Definition g_set (n : N) : M (gust S) unit := fun s => (Ok tt, mkgust (g_r s) n).

  (** ** Unmarshal *)
  (** readerHasSize: marshaller.go:20-37 *)
  Definition g_reader_has_size (size : N) : M S bool := fun s =>
    match o_cur O s with
    | (Ok pre, s1) =>
        match o_end O s1 with
        | (Ok e, s2) =>
            if sub64 e pre <? size then (Ok false, s2)
            else match o_start O pre s2 with
                 | (Ok _, s3) => (Ok true, s3)
                 | (_, s3) => (Ok false, s3)
                 end
        | (_, s2) => (Ok false, s2)
        end
    | (_, s1) => (Ok false, s1)
    end.
  Definition g_take_bits (size : N) : M (gust S) (list byte) :=
    d <- g_lift (o_bits O size) ;; g_add size ;;; ret d.
  (** readUvarint: marshaller.go:645-660 *)
  Definition g_read_uvarint : M (gust S) N :=
    while lf (fun val =>
      o <- g_take_bits 8 ;;
      let b := be_to_N o in
      let val' := w64 (w64 (128 * val) + b mod 128) in
      ret (if b <? 128 then inr val' else inl val')) 0.
  (** unmarshalUint: marshaller.go:513-541 *)
  Definition g_uint (w : N) (varint : bool) (size : N) : M (gust S) val :=
    if varint then v <- g_read_uvarint ;; ret (VUint (v mod 2 ^ w))
    else if size =? 0 then fail (EMsg "size must not be zero")
    else d <- g_take_bits size ;; ret (VUint (be_fold64 0 d mod 2 ^ w)).
  (** unmarshalInt: marshaller.go:477-511 *)
  Definition g_int (w : N) (varint : bool) (size : N) : M (gust S) val :=
    if varint then fail (EMsg "signed varint is unsupported")
    else if size =? 0 then fail (EMsg "size must not be zero")
    else
      d <- g_take_bits size ;;
      let mask := 2 ^ ((size - 1) mod 8) in
      let '(sign, d') :=
        match d with
        | [] => (false, [])
        | b :: r => if negb (N.land (b2N b) mask =? 0)
                    then (true, N2b (N.lor (b2N b) (255 - (mask - 1))) :: r)
                    else (false, d)
        end in
      let v := be_fold64 (if sign then W64 - 1 else 0) d' in
      ret (VInt (toZ w v)).
  (** unmarshalBool: marshaller.go:543-561 *)
  Definition g_bool (size : N) : M (gust S) val :=
    if size =? 0 then fail (EMsg "size must not be zero")
    else d <- g_take_bits size ;; ret (VBool (existsb (fun b => negb (b2N b =? 0)) d)).
  (** unmarshalStringC: marshaller.go:574-596 *)
  Definition g_string_c (usize : N) : M (gust S) val :=
    s <- while lf (fun acc =>
           r <- g_get ;;
           if w64 (usize * 8) <=? r then ret (inr acc)
           else c <- g_take_bits 8 ;;
                match c with
                | [b] => if b2N b =? 0 then ret (inr acc) else ret (inl (b :: acc))
                | _ => panic
                end) [] ;;
    ret (VStr (rev s)).
  (** tryReadPString: marshaller.go:607-643 *)
  Definition g_try_read_pstring (usize : N) : M (gust S) (option val) :=
    r <- g_get ;;
    let remaining := sub64 (w64 (usize * 8)) r / 8 in
    if remaining <? 2 then ret None
    else
      off <- g_lift (o_cur O) ;;
      b0 <- g_lift (o_full O 1) ;;
      let plen := be_to_N b0 in
      if remaining - 1 <? plen then g_lift (o_start O off) ;;; ret None
      else buf <- g_lift (o_full O plen) ;;
           g_add ((lenN buf + 1) * 8) ;;; ret (Some (VStr buf)).
  (** unmarshalString, unmarshalStringCP: marshaller.go:563-572, 598-605 *)
  Definition g_string (usize : N) (cp : bool) : M (gust S) val :=
    if cp then
      o <- g_try_read_pstring usize ;;
      match o with Some v => ret v | None => g_string_c usize end
    else g_string_c usize.
  Fixpoint g_map_list (f : val -> M (gust S) val) (l : list val) : M (gust S) (list val) :=
    match l with
    | [] => ret []
    | v :: r => x <- f v ;; xs <- g_map_list f r ;; ret (x :: xs)
    end.
  (** OnReadField: box.go:66-68 and overrides; Hdlr.OnReadName:
      box_types_iso14496_12.go:635-667 *)
  Definition g_on_read (h : hook) (ver : N) (self : list (string * val)) (leftBits : N)
    : M (gust S) (N * bool * list (string * val)) :=
    match h with
    | HNone => ret (0, false, self)
    | HEmsgSkip => ret (0, negb (ver =? 0), self)
    | HEmsgData =>
        if ver =? 0 then ret (0, false, self)
        else
          a <- g_lift (o_string O) ;;
          b <- g_lift (o_string O) ;;
          ret ((lenN a + lenN b + 2) * 8, false,
               update "Value" (VStr b) (update "SchemeIdUri" (VStr a) self))
    | HHdlrName =>
        let size := leftBits / 8 in
        if size =? 0 then ret (0, true, update "Name" (VStr []) self)
        else
          ok <- g_lift (g_reader_has_size size) ;;
          if negb ok then fail (EMsg "not enough bits")
          else if maxAlloc <=? size then panic
          else
            buf <- g_lift (o_full O size) ;;
            match buf with
            | [] => panic
            | p :: tl =>
                let plen := b2N p in
                let name :=
                  if negb (as_uint (lookup "PreDefined" self) =? 0) && (2 <=? size)
                     && (size =? (plen + 1) mod 256)
                  then takeN plen tl
                  else take_until_nul buf in
                ret (leftBits, true, update "Name" (VStr name) self)
            end
    | HAvcHigh =>
        ret (0, true,
             update "HighProfileFieldsEnabled"
               (VBool ((32 <=? leftBits) && high_profile (as_uint (lookup "Profile" self)))) self)
    end.

  Section Fields.
  Variable rname : string.
  Variable versions : list N.
  Variable ctx : context.
  (** unmarshal and what it dispatches to: marshaller.go:334-357 *)
  Fixpoint g_val (rt : list (string * val)) (usize : N) (f : finfo) (size len : N)
           (t : sty) (cur : val) : M (gust S) val :=
    match t with
    | SUint w => g_uint w (f_varint f) size
    | SInt w => g_int w (f_varint f) size
    | SBool => g_bool size
    | SStr => g_string usize (f_cp f)
    (* unmarshalPtr: :359-362 *)
    | SPtr u => x <- g_val rt usize f size len u (zero u) ;; ret (VPtr (Some x))
    (* unmarshalArray: :412-421 *)
    | SArr _ u =>
        match cur with
        | VList l => xs <- g_map_list (g_val rt usize f size len u) l ;; ret (VList xs)
        | _ => panic
        end
    (* unmarshalSlice: :423-475 *)
    | SSlice u =>
        rb <- g_get ;;
        let left := sub64 (w64 (usize * 8)) rb in
        if (len =? LengthUnlimited) && negb (size =? 0) && negb (left mod size =? 0)
        then fail (EMsg "invalid alignment")
        else
          let length := if len =? LengthUnlimited
                        then (if size =? 0 then 0 else left / size) else len in
          if (rb mod 8 =? 0) && is_u8 u && (size =? 8) then
            let total := w64 (length * size) / 8 in
            ok <- g_lift (g_reader_has_size total) ;;
            if negb ok then fail (EMsg "not enough bits")
            else if maxAlloc <=? total then panic
            else
              buf <- g_lift (o_copy O total) ;;
              g_add (total * 8) ;;;
              ret (bytes_val buf)
          else
            let elem (acc : list val) : M (gust S) (list val) :=
              x <- g_val rt usize f size len u (zero u) ;;
              r <- g_get ;;
              if w64 (usize * 8) <? r
              then fail (EMsg "failed to read array completely")
              else ret (x :: acc) in
            xs <- (if len =? LengthUnlimited then
                     while lf (fun acc =>
                       r <- g_get ;;
                       if w64 (usize * 8) <=? r then ret (inr acc)
                       else acc' <- elem acc ;; ret (inl acc')) []
                   else loopN len elem []) ;;
            ret (VList (rev xs))
    (* unmarshalStructInternal: :364-380 *)
    | SStruct name cfo fs =>
        match cur with
        | VStruct l =>
            if negb (size =? 0) && (size mod 8 =? 0) then
              rb <- g_get ;;
              g_set 0 ;;;
              x <- g_flds (Some rt) (size / 8) name cfo l fs ;;
              rb2 <- g_get ;;
              g_set (rb + rb2) ;;;
              if rb2 =? size then ret (VStruct x) else fail (EMsg "invalid alignment")
            else
              x <- g_flds (Some rt) usize name cfo l fs ;; ret (VStruct x)
        | _ => panic
        end
    end
  (** unmarshalStruct: marshaller.go:382-410 *)
  with g_flds (rt : option (list (string * val))) (usize : N) (sname : string)
       (cfo : bool) (self : list (string * val)) (fs : flds) : M (gust S) (list (string * val)) :=
    match fs with
    | FNil => ret self
    | FCons f t rest =>
        let root := box_of rt self in
        let env := if cfo then mkenv self (get_version root) (get_flags root) ctx
                   else mkenv root (get_version root) (get_flags root) ctx in
        let cn := if cfo then sname else rname in
        match resolve_size cn env f, resolve_len cn env f with
        | Some size, Some len =>
            self' <-
              (if is_target (get_version root) (get_flags root) cn env f then
                 rb <- g_get ;;
                 h <- g_on_read (hook_of cn (f_name f)) (get_version root) self
                        (sub64 (w64 (usize * 8)) rb) ;;
                 let '(rbits, override, self1) := h in
                 g_add rbits ;;;
                 if override then ret self1
                 else
                   match lookup (f_name f) self1 with
                   | None => panic
                   | Some cur =>
                       x <- g_val (box_of rt self1) usize f size len t cur ;;
                       let self2 := update (f_name f) x self1 in
                       if is_fullbox t && negb (version_in versions (get_version (box_of rt self2)))
                       then fail EUnsupportedVersion
                       else ret self2
                   end
               else ret self) ;;
            g_flds rt usize sname cfo self' rest
        | _, _ => panic
        end
    end.
  End Fields.

  (** Meta.BeforeUnmarshal: box_types_iso14496_12.go:896-911; box.go:62-64 *)
  Definition g_before_unmarshal (sname : string) (self : list (string * val))
    : M S (bool * list (string * val)) :=
    if String.eqb sname "Meta" then
      buf <- o_full O 4 ;;
      o_move O (fun pos => pos - 4) ;;;
      (if existsb (fun b => negb (b2N b =? 0)) buf then
         ret (true, update "FullBox"
                (VStruct [("Version", VUint 0); ("Flags", VList [VUint 0; VUint 0; VUint 0])]) self)
       else ret (false, self))
    else ret (false, self).

  (** An operation on the stream itself: through a bitio reader without pending
      bits, which passes every call on. *)
  Definition raw {A} (m : M S A) : M T A := fun t =>
    let (r, s) := m (o_new O t) in (r, o_under O s).

  (** Unmarshal: marshaller.go:286-332 *)
  Definition g_unmarshal (d : boxdef) (size : N) (ctx : context)
             (dst : list (string * val)) : M T (list (string * val) * N) :=
    b <- raw (g_before_unmarshal (bd_name d) (set_version anyVersion dst)) ;;
    match b with
    | (true, self1) => ret (self1, 0)
    | (false, self1) =>
        sn <- raw (o_cur O) ;;
        (fun t =>
          match g_flds (bd_name d) (bd_versions d) ctx None size (bd_name d) true self1
                  (bd_flds d) (mkgust (o_new O t) 0) with
          | (Ok x, s) =>
              ((if negb (g_rbits s mod 8 =? 0) then Err (EMsg "box size is not multiple of 8 bits")
                else if w64 (size * 8) <? g_rbits s then Err (EMsg "overrun error")
                else Ok (x, g_rbits s / 8)), o_under O (g_r s))
          | (Err EUnsupportedVersion, s) =>
              (_ <- attempt (raw (o_move O (fun _ => sn))) ;; fail EUnsupportedVersion) (o_under O (g_r s))
          | (Err e, s) => (Err e, o_under O (g_r s))
          | (Panic, s) => (Panic, o_under O (g_r s))
          | (OutOfFuel, s) => (OutOfFuel, o_under O (g_r s))
          end)
    end.
  (** UnmarshalAny: marshaller.go:277-284 *)
  Definition g_unmarshal_any (R : registry) (t : btype) (size : N) (ctx : context)
    : M T (boxdef * list (string * val) * N) :=
    match new_box R t ctx with
    | Ok (d, z) => x <- g_unmarshal d size ctx z ;; ret (d, fst x, snd x)
    | Err e => fail e
    | Panic => panic
    | OutOfFuel => fun t => (OutOfFuel, t)
    end.

  (** ** Box headers *)
  Definition g_seek (x : N) : M T unit := raw (o_start O x) ;;; ret tt.
  (** SeekToPayload, SeekToEnd: box_info.go:156-162 *)
  Definition g_seek_to_payload (bi : boxinfo) : M T unit := g_seek (w64 (bi_offset bi + bi_hsize bi)).
  Definition g_seek_to_end (bi : boxinfo) : M T unit := g_seek (w64 (bi_offset bi + bi_size bi)).
  (** ReadBoxInfo: box_info.go:102-150 *)
  Definition g_read_box_info : M T boxinfo :=
    offset <- raw (o_cur O) ;;
    h <- raw (o_copy O SmallHeaderSize) ;;
    let size := be_to_N (takeN 4 h) in
    let type := skipN 4 h in
    if size =? 0 then
      e <- raw (o_end O) ;;
      let size' := sub64 e offset in
      let bi := mkbi offset size' SmallHeaderSize type true ctx0 in
      g_seek_to_payload bi ;;;
      (if size' =? 0 then fail (EMsg "invalid size") else ret bi)
    else if size =? 1 then
      l <- raw (o_copy O (LargeHeaderSize - SmallHeaderSize)) ;;
      let size' := be_to_N l in
      if size' =? 0 then fail (EMsg "invalid size")
      else ret (mkbi offset size' LargeHeaderSize type false ctx0)
    else ret (mkbi offset size SmallHeaderSize type false ctx0).

  (** ** The traversal *)
  Section Traversal.
  Variable R : registry.
  (** read.go:106-110, 132-136 *)
  Definition g_read_payload (bi : boxinfo) : M T (boxdef * list (string * val) * N) :=
    g_seek_to_payload bi ;;;
    g_unmarshal_any R (bi_type bi) (payload_size bi) (bi_ctx bi).
  (** ReadData: read.go:118-128 *)
  Definition g_read_data (bi : boxinfo) : M T (list byte * N) :=
    g_seek_to_payload bi ;;;
    d <- raw (o_copy O (payload_size bi)) ;;
    ret (d, payload_size bi).
  (** read.go:48-77 *)
  Definition g_prepare (bi : boxinfo) (pth : path) : M T boxinfo :=
    g_seek_to_payload bi ;;;
    bi1 <- (if (match pth with [] => true | _ => false end) && bt_eqb (bi_type bi) (bt "ftyp") then
              x <- g_unmarshal_any R (bt "ftyp") (payload_size bi) (bi_ctx bi) ;;
              let bi' := if has_compatible_brand (snd (fst x)) brand_qt
                         then set_ctx bi (set_qt (bi_ctx bi)) else bi in
              g_seek_to_payload bi' ;;; ret bi'
            else ret bi) ;;
    (if bt_eqb (bi_type bi1) (bt "keys") then
       x <- g_unmarshal_any R (bt "keys") (payload_size bi1) (bi_ctx bi1) ;;
       let bi' := set_ctx bi1 (set_keys (as_Z (lookup "EntryCount" (snd (fst x)))) (bi_ctx bi1)) in
       g_seek_to_payload bi' ;;; ret bi'
     else ret bi1).

  Context {St V P : Type}.
  Variable handler : handler_t St V P.
  Definition g_lift_s {A} (m : M T A) : M (T * St) A := fun s =>
    let (r, p) := m (fst s) in (r, (p, snd s)).
  (** handler(h) with the closures of read.go:103-149 *)
  Fixpoint g_run_handler (bi : boxinfo) (expand : N -> P -> M (T * St) (list V))
           (co : N) (p : hprog St V P) : M (T * St) V :=
    match p with
    | HRet s v => fun x => (Ok v, (fst x, s))
    | HFail s e => fun x => (Err e, (fst x, s))
    | HReadPayload k =>
        r <- attempt (g_lift_s (g_read_payload bi)) ;;
        g_run_handler bi expand
          (match r with Ok (_, _, n) => w64 (bi_offset bi + bi_hsize bi + n) | _ => co end) (k r)
    | HReadData k =>
        r <- attempt (g_lift_s (g_read_data bi)) ;; g_run_handler bi expand co (k r)
    | HExpand s p k =>
        (fun x => (Ok tt, (fst x, s))) ;;;
        r <- attempt (
          if co =? 0 then
            x <- g_lift_s (g_read_payload bi) ;;
            let co' := w64 (bi_offset bi + bi_hsize bi + snd x) in
            vs <- attempt (expand (sub64 (bi_offset bi + bi_size bi) co') p) ;;
            ret (co', vs)
          else
            g_lift_s (g_seek co) ;;;
            vs <- attempt (expand (sub64 (bi_offset bi + bi_size bi) co) p) ;;
            ret (co, vs)) ;;
        s' <- get ;;
        match r with
        | Ok (co', vs) => g_run_handler bi expand co' (k vs (snd s'))
        | Err e => g_run_handler bi expand co (k (Err e) (snd s'))
        | _ => panic
        end
    | HMove pos k => g_lift_s (raw (o_move O (fun _ => pos))) ;;; g_run_handler bi expand co k
    end.
  (** readBoxStructureFromInternal: read.go:48-158 *)
  Definition g_box_internal
      (rec : N -> path -> context -> P -> M (T * St) (list V))
      (bi0 : boxinfo) (pth : path) (params : P) : M (T * St) (V * boxinfo) :=
    bi <- g_lift_s (g_prepare bi0 pth) ;;
    let newPath := pth ++ [bi_type bi] in
    v <- (fun x =>
            g_run_handler bi (fun total p => rec total newPath (child_ctx (bi_type bi) (bi_ctx bi)) p) 0
              (handler bi newPath params (snd x)) x) ;;
    g_lift_s (g_seek_to_end bi) ;;;
    ret (v, bi).
  (** readBoxStructure: read.go:160-199 *)
  Fixpoint g_read_structure (fuel : nat) (isRoot : bool) (total : N) (pth : path) (ctx : context)
           (params : P) : M (T * St) (list V) :=
    match fuel with
    | Datatypes.O => fun s => (OutOfFuel, s)
    | Datatypes.S fuel' =>
        if isRoot || (SmallHeaderSize <=? total) then
          h <- attempt (g_lift_s g_read_box_info) ;;
          match h with
          | Err EEOF => if isRoot then ret [] else fail EEOF
          | Err e => fail e
          | Ok bi =>
              if negb isRoot && (total <? bi_size bi) then fail (EMsg "too large box size")
              else
                x <- g_box_internal (fun t p c q => g_read_structure fuel' false t p c q)
                       (set_ctx bi ctx) pth params ;;
                let '(v, bi') := x in
                let ctx1 := if IsQuickTimeCompatible (bi_ctx bi') then set_qt ctx else ctx in
                let ctx2 := if bt_eqb (bi_type bi') (bt "keys")
                            then set_keys (QuickTimeKeysMetaEntryCount (bi_ctx bi')) ctx1 else ctx1 in
                vs <- g_read_structure fuel' isRoot (sub64 total (bi_size bi)) pth ctx2 params ;;
                ret (v :: vs)
          | _ => panic
          end
        else if negb (total =? 0) && negb (IsQuickTimeCompatible ctx)
        then fail (EMsg "unexpected EOF")
        else ret []
    end.
  (** ReadBoxStructure: read.go:37-42 *)
  Definition g_read_box_structure (params : P) : M (T * St) (list V) :=
    g_lift_s (g_seek 0) ;;; g_read_structure tf true 0 [] ctx0 params.
  (** ReadBoxStructureFromInternal: read.go:44-46 *)
  Definition g_read_box_structure_from_internal (bi : boxinfo) (params : P) : M (T * St) V :=
    x <- g_box_internal (fun t p c q => g_read_structure tf false t p c q) bi [] params ;;
    ret (fst x).
  End Traversal.

  (** ** Extract *)
  Section Extract.
  Variable R : registry.
  (** the boxes found by a traversal *)
  Definition g_fin {A} (m : M (T * list boxinfo) A) : M T (list boxinfo) := fun t =>
    match m (t, []) with
    | (Ok _, (p, bs)) => (Ok bs, p)
    | (Err e, (p, _)) => (Err e, p)
    | (Panic, (p, _)) => (Panic, p)
    | (OutOfFuel, (p, _)) => (OutOfFuel, p)
    end.
  (** ExtractBoxes: extract.go:49-89 *)
  Definition g_extract_boxes (parent : option boxinfo) (paths : list path) : M T (list boxinfo) :=
    match paths with
    | [] => ret []
    | _ =>
        if existsb (fun p => match p with [] => true | _ => false end) paths
        then fail (EMsg "box path must not be empty")
        else
          match parent with
          | Some bi => g_fin (g_read_box_structure_from_internal R (extract_handler true paths) bi tt)
          | None => g_fin (g_read_box_structure R (extract_handler false paths) tt)
          end
    end.
  (** ExtractBoxesWithPayload: extract.go:17-43 *)
  Fixpoint g_payloads (ctx : context) (bis : list boxinfo)
    : M T (list (boxinfo * (boxdef * list (string * val)))) :=
    match bis with
    | [] => ret []
    | bi :: r =>
        g_seek_to_payload bi ;;;
        x <- g_unmarshal_any R (bi_type bi) (payload_size bi) ctx ;;
        xs <- g_payloads ctx r ;;
        ret ((bi, fst x) :: xs)
    end.
  Definition g_extract_boxes_with_payload (parent : option boxinfo) (paths : list path)
    : M T (list (boxinfo * (boxdef * list (string * val)))) :=
    bis <- g_extract_boxes parent paths ;;
    g_payloads (match parent with Some bi => bi_ctx bi | None => ctx0 end) bis.

  (** ** Probe; what is done with the boxes read is that of Probe.v *)
  (** probeTrak: probe.go:181-368 *)
  Definition g_probe_trak (bi : boxinfo) : M T track :=
    bips <- g_extract_boxes_with_payload (Some bi) trak_paths ;;
    f <- for_each (fun _ bip f => note_box bip f) 0 bips nothing ;;
    make_track f.
  (** probeMoof: probe.go:489-567 *)
  Definition g_probe_moof (bi : boxinfo) : M T segment :=
    bips <- g_extract_boxes_with_payload (Some bi) moof_paths ;;
    f <- for_each (fun _ bip f => note_traf bip f) 0 bips (None, None, None) ;;
    make_segment (bi_offset bi) f.
  (** probe.go:126-131, 143-148 *)
  Definition g_read_box (bi : boxinfo) : M T fields :=
    g_seek_to_payload bi ;;;
    x <- g_unmarshal_any R (bi_type bi) (payload_size bi) (bi_ctx bi) ;;
    ret (snd (fst x)).
  (** the switch: probe.go:123-170 *)
  Definition g_probe_box (bi : boxinfo) (st : bool * probeinfo) : M T (bool * probeinfo) :=
    let (mdat, p) := st in
    let t := bi_type bi in
    if bt_eqb t (bt "ftyp") then
      x <- g_read_box bi ;;
      ret (mdat, mkprobe (as_bytes (lookup "MajorBrand" x)) (uint_of "MinorVersion" x)
                         (map (fun e => as_bytes (lookup "CompatibleBrand" e)) (structs "CompatibleBrands" x))
                         (p_fast p) (p_timescale p) (p_duration p) (p_tracks p) (p_segments p))
    else if bt_eqb t (bt "moov") then
      ret (mdat, mkprobe (p_major p) (p_minor p) (p_brands p) (negb mdat) (p_timescale p) (p_duration p) (p_tracks p) (p_segments p))
    else if bt_eqb t (bt "mvhd") then
      x <- g_read_box bi ;;
      ret (mdat, mkprobe (p_major p) (p_minor p) (p_brands p) (p_fast p) (uint_of "Timescale" x)
                         (if get_version x =? 0 then uint_of "DurationV0" x else uint_of "DurationV1" x)
                         (p_tracks p) (p_segments p))
    else if bt_eqb t (bt "trak") then
      tr <- g_probe_trak bi ;;
      ret (mdat, mkprobe (p_major p) (p_minor p) (p_brands p) (p_fast p) (p_timescale p) (p_duration p) (p_tracks p ++ [tr]) (p_segments p))
    else if bt_eqb t (bt "moof") then
      sg <- g_probe_moof bi ;;
      ret (mdat, mkprobe (p_major p) (p_minor p) (p_brands p) (p_fast p) (p_timescale p) (p_duration p) (p_tracks p) (p_segments p ++ [sg]))
    else if bt_eqb t (bt "mdat") then ret (true, p)
    else ret st.
  (** Probe: probe.go:106-172 *)
  Definition g_probe : M T probeinfo :=
    bis <- g_extract_boxes None probe_paths ;;
    x <- for_each (fun _ bi st => g_probe_box bi st) 0 bis (false, empty_probe) ;;
    ret (snd x).
  End Extract.

  (** FindIDRFrames: probe.go:569-609 *)
  Definition g_nal_turn (lsize dataOffset size : N) (nalOffset : N) : M T (N + bool) :=
    if w32 (w32 (nalOffset + lsize) + 1) <=? size then
      g_seek (w64 (dataOffset + nalOffset)) ;;;
      buf <- raw (o_full O (lsize + 1)) ;;
      let length := fold_left (fun a b => w32 (w32 (a * 256) + b2N b)) (takeN lsize buf) 0 in
      h <- byte_at buf lsize ;;
      if N.land h 0x1f =? 5 then ret (inr true)
      else ret (inl (w32 (nalOffset + w32 (lsize + length))))
    else ret (inr false).
  Definition g_idr_sample (fuel : positive) (lsize : N) (samples : list sample) (si : N) (st : N * list N)
    : M T (N * list N) :=
    let (dataOffset, idxs) := st in
    smp <- or_panic (nthN si samples) ;;
    if s_size smp =? 0 then ret st
    else
      found <- while fuel (g_nal_turn lsize dataOffset (s_size smp)) 0 ;;
      ret (w64 (dataOffset + s_size smp), if found : bool then idxs ++ [si] else idxs).
  Definition g_find_idr_frames (fuel : positive) (tr : track) : M T (option (list N)) :=
    match t_avc tr with
    | None => ret None
    | Some avc =>
        let samples := t_samples tr in
        x <- for_each (fun _ ch st =>
            let (si, idxs) := st : N * list N in
            let stop := N.max si (N.min (si + c_spc ch) (lenN samples)) in
            y <- forN si stop (g_idr_sample fuel (a_lsize avc) samples) (c_offset ch, idxs) ;;
            ret (stop, snd y))
          0 (t_chunks tr) (0, []) ;;
        ret (Some (snd x))
    end.
End AnyReader.

(** ** Readers *)
(** one that fills every buffer: a position in the data, BitIO.v *)
Definition plain_reader (data : list byte) : reader rst N :=
  mkreader rst N new_reader r_pos (read_bits data) (read_full data) (copy_n data) (util_read_string data)
    seek_cur0 (seek_end data) seek_start
    (fun f s => (Ok tt, mkrst (f (r_pos s)) (r_octet s) (r_width s))).
(** one that behaves as scripted, Stream.v: the position and the number of Read
    calls so far.  Seek does not depend on the script. *)
Definition seeks {A} (x : M rst A) : M sst A := fun s => let (a, r) := x (s_r s) in (a, mksst r (s_calls s)).
Definition stream_reader (fuel : nat) (m : manner) (free : nat -> N) (data : list byte) : reader sst (N * nat) :=
  mkreader sst (N * nat) (fun t => mksst (new_reader (fst t)) (snd t)) (fun s => (r_pos (s_r s), s_calls s))
    (s_read_bits m data) (Stream.s_read_full fuel m data) (s_copy_n fuel m free data) (s_read_string fuel m data)
    (seeks seek_cur0) (seeks (seek_end data)) (fun x => seeks (seek_start x))
    (fun f => seeks (fun s => (Ok tt, mkrst (f (r_pos s)) (r_octet s) (r_width s)))).
