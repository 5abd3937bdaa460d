(** Specification of the commands extract, dump and psshdump on the tree of a
    file. *)
From Verif Require Import Base Schema Registry Unmarshal SpecAccessors BoxInfo ReadTree SpecTree SpecExtract Text GoText Stringify.
Local Open Scope string_scope.
Local Open Scope list_scope.
Local Open Scope N_scope.

(** ** The boxes that are reached when only the boxes that [go] holds of are
    entered: those at the top level, and those in a box that is reached and
    entered; in file order.  [anc], [qt], [keys], [o]: as in SpecExtract. *)
Section Reached.
  Variable data : list byte.
  Variable go : entry -> bool.
  Fixpoint reach_box (anc : list btype) (qt : bool) (keys : Z) (o : N) (b : box) {struct b} : list entry :=
    match b with
    | Box f t own kids slack =>
        let told := enter data ctx0 anc qt keys o b in
        let (qt', keys') := match told with Ok x => x | _ => (qt, keys) end in
        let e := {| e_path := anc ++ [t];
                    e_info := mkbi o (box_size b) (hsize f) t (match f with ToEnd => true | _ => false end)
                                   (ctx_of ctx0 qt' keys' anc);
                    e_box := b;
                    e_told := told |} in
        e ::
        if go e then
          (fix reach_kids (keys : Z) (o : N) (l : list box) : list entry :=
             match l with
             | [] => []
             | k :: r =>
                 reach_box (anc ++ [t]) qt' keys o k ++
                 reach_kids (match enter data ctx0 (anc ++ [t]) qt' keys o k with Ok x => snd x | _ => keys end)
                            (o + box_size k) r
             end) keys' (o + hsize f + lenN own) kids
        else []
    end.
  Fixpoint reach_file (qt : bool) (keys : Z) (o : N) (l : list box) : list entry :=
    match l with
    | [] => []
    | b :: r =>
        let (qt', keys') := match enter data ctx0 [] qt keys o b with Ok x => x | _ => (qt, keys) end in
        reach_box [] qt keys o b ++ reach_file qt' keys' (o + box_size b) r
    end.

  (** What is needed of the boxes that are reached: ftyp and keys boxes can be
      decoded; a box that is entered can be decoded, its fields end where the
      boxes in it begin, and it has stray bytes only in a QuickTime file. *)
  Definition passable (e : entry) : Prop := (exists x, e_told e = Ok x) /\ (go e = true -> can_open data e).
End Reached.

Definition e_type (e : entry) : btype := bi_type (e_info e).
Definition e_payload (e : entry) : N := lenN (payload (e_box e)).
(** the type is registered (for the place of the box) *)
Definition known (e : entry) : bool := is_supported std_registry (e_type e) (bi_ctx (e_info e)).
(** the fields of the box *)
Definition e_decoded (data : list byte) (e : entry) : res (boxdef * list (string * val) * N) :=
  decoded data (bi_ctx (e_info e)) (bi_offset (e_info e)) (e_box e).
(** the version of the box is not one of those registered *)
Definition other_version (data : list byte) (e : entry) : bool :=
  match e_decoded data e with Err EUnsupportedVersion => true | _ => false end.
(** boxes that consist of fields only *)
Definition leaf_types : list string :=
  ["co64"; "ctts"; "elst"; "emsg"; "esds"; "ftyp"; "pssh"; "sbgp"; "sdtp"; "stco"; "stsc"; "stss"; "stsz"; "stts"; "tfra"; "trun"].
Definition leaf (e : entry) : bool := existsb (fun s => bt_eqb (bt s) (e_type e)) leaf_types.

(** ** extract: looks into every box of a registered type and version; large
    boxes that consist of fields only are not decoded *)
Definition looks_into (data : list byte) (e : entry) : bool :=
  known e && negb (leaf e && (256 <=? box_size (e_box e))) && negb (other_version data e).

(** ** dump: the line of a box *)
Record dump_style := mkstyle { full_names : list (list byte); full_all : bool; show_offset : bool; in_hex : bool; width : N }.
Section Line.
  Variable graphic : N -> bool.
  Variable data : list byte.
  Variable style : dump_style.
  Definition name_of (e : entry) : text := box_type_string (e_type e).
  Definition number (n : N) : text := if in_hex style then lit "0x" ++ hex_text n else dec_text n.
  (** depth, type, offset, size *)
  Definition head_of (e : entry) : text :=
    List.concat (repeat (lit "  ") (List.length (e_path e) - 1)) ++
    lit "[" ++ name_of e ++ lit "]" ++ (if known e then [] else lit " (unsupported box type)") ++
    (if show_offset style then lit " Offset=" ++ number (bi_offset (e_info e)) else []) ++
    lit " Size=" ++ number (box_size (e_box e)).
  Definition asked (e : entry) : bool := existsb (fun n => bytes_eqb n (name_of e)) (full_names style).
  Definition bulky (e : entry) : bool := existsb (fun s => bt_eqb (bt s) (e_type e)) ["free"; "mdat"; "skip"].
  Definition full (e : entry) : bool := asked e || full_all style.
  Definition hint (e : entry) : text := lit "(use ""-full " ++ name_of e ++ lit """ to show all)".
  (** the bytes of the payload *)
  Fixpoint spaced (l : list text) : text :=
    match l with
    | [] => []
    | [x] => x
    | x :: r => x ++ lit " " ++ spaced r
    end.
  Definition raw_of (e : entry) : text :=
    if full e then lit " Data=[" ++ spaced (map (fun c => lit "0x" ++ hex2 (b2N c)) (payload (e_box e))) ++ lit "]"
    else lit " Data=[...] " ++ hint e.
  (** whether the fields are shown or the box is passed over *)
  Definition hidden (e : entry) : bool := bulky e && negb (asked e).
  Definition cut_short (e : entry) : bool := leaf e && (64 <=? e_payload e) && negb (full e).
  Definition enters (e : entry) : bool := known e && negb (hidden e) && negb (cut_short e) && negb (other_version data e).
  (** the text of its fields (see C48) *)
  Definition fields_of (e : entry) : text :=
    match e_decoded data e with
    | Ok (_, x, _) => match stringify graphic std_registry (e_type e) x (bi_ctx (e_info e)) with Ok s => s | _ => [] end
    | _ => []
    end.
  Definition rest_of (e : entry) : text :=
    if hidden e then lit " Data=[...] " ++ hint e
    else if negb (known e) then raw_of e
    else if cut_short e then lit " ... " ++ hint e
    else if other_version data e then lit " (unsupported box version)" ++ raw_of e
    else if negb (full e) && (width style <? lenN (head_of e) + lenN (fields_of e) + 2) then lit " ... " ++ hint e
    else match fields_of e with [] => [] | s => lit " " ++ s end.
  Definition line_of (e : entry) : text := head_of e ++ rest_of e ++ [N2b 10].
End Line.

(** ** Base64 (RFC 4648): the bits of the data in groups of six, each shown as a
    character; the last group is filled up with zeros, and the characters with
    equals signs to a multiple of four. *)
Definition alphabet : list byte :=
  bytes_of_string "ABCDEFGHIJKLMNOPQRSTUVWXYZabcdefghijklmnopqrstuvwxyz0123456789+/".
Definition base64_of (l : list byte) (s : text) : Prop :=
  exists (groups : list N) (zeros pad : nat),
    Forall (fun g => g < 64) groups /\
    flat_map (N_to_bits 6) groups = bits_of_bytes l ++ repeat false zeros /\ (zeros < 6)%nat /\
    s = map (fun g => nth (N.to_nat g) alphabet bzero) groups ++ repeat (N2b 61) pad /\
    (pad < 4)%nat /\ lenN s mod 4 = 0.

(** ** psshdump: what is printed for a box, read from its payload *)
Definition hex_bytes (l : list byte) : text := flat_map (fun c => hex2 (b2N c)) l.
Definition bytes_at (p : list byte) (off n : N) : list byte := takeN n (skipN off p).
(** the textual form of a UUID: 8-4-4-4-12 hexadecimal digits *)
Definition uuid_text (p : list byte) (off : N) : text :=
  hex_bytes (bytes_at p off 4) ++ lit "-" ++ hex_bytes (bytes_at p (off + 4) 2) ++ lit "-" ++
  hex_bytes (bytes_at p (off + 6) 2) ++ lit "-" ++ hex_bytes (bytes_at p (off + 8) 2) ++ lit "-" ++
  hex_bytes (bytes_at p (off + 10) 6).
(** 23001-7 8.1: version 1 byte, flags 3 bytes, system ID 16 bytes; from version 1
    on the number of key IDs (4 bytes) and the key IDs (16 bytes each); the size of
    the data 4 bytes *)
Definition pssh_report (i : N) (e : entry) (encoded : text) : text :=
  let p := payload (e_box e) in
  let size_at := if number_at p 0 1 =? 0 then 20 else 24 + 16 * number_at p 20 4 in
  let line s := s ++ [N2b 10] in
  line (dec_text i ++ lit ":") ++
  line (lit "  offset: " ++ dec_text (bi_offset (e_info e))) ++
  line (lit "  size: " ++ dec_text (box_size (e_box e))) ++
  line (lit "  version: " ++ dec_text (number_at p 0 1)) ++
  line (lit "  flags: 0x" ++ hex_bytes (bytes_at p 1 3)) ++
  line (lit "  systemId: " ++ uuid_text p 4) ++
  line (lit "  dataSize: " ++ dec_text (number_at p size_at 4)) ++
  line (lit "  base64: """ ++ encoded ++ lit """") ++
  line [].
(** the box can be decoded, its fields fill it, and there are fewer than 2^32 - 1
    key IDs (a count of 2^32 - 1 is not taken as a number, but as "up to the end") *)
Definition decodable_pssh (data : list byte) (e : entry) : Prop :=
  (exists d x, e_decoded data e = Ok (d, x, lenN (payload (e_box e)))) /\
  (number_at (payload (e_box e)) 0 1 = 0 \/ number_at (payload (e_box e)) 20 4 < 2 ^ 32 - 1).
(** what psshdump looks for, and what it prints *)
Definition pssh_paths : list path := [[bt "moov"; bt "pssh"]; [bt "moof"; bt "pssh"]].
Fixpoint reports (i : N) (l : list (entry * text)) : text :=
  match l with [] => [] | (e, s) :: r => pssh_report i e s ++ reports (i + 1) r end.
