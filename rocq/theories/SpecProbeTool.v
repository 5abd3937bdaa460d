(** Specification of the report that mp4tool probe prints, from what Probe says. *)
From Verif Require Import Base Schema Structs Registry GoText Probe SpecProbe ProbeTool.
Local Open Scope string_scope.
Local Open Scope list_scope.
Local Open Scope N_scope.

(** ** Numbers as text *)
Definition digit (d : N) : byte := nth (N.to_nat d) (lit "0123456789ABCDEF") bzero.
Definition value (base : N) (ds : list N) : N := fold_left (fun a d => a * base + d) ds 0.
(** [txt] is [n] with at least [width] digits, and zeros in front only to get there. *)
Definition numeral (base width n : N) (txt : text) : Prop :=
  exists ds, txt = map digit ds /\ Forall (fun d => d < base) ds /\ value base ds = n /\
             width <= lenN ds /\ (hd 0 ds = 0 -> lenN ds <= width).

(** ** The codec, as in RFC 6381: the name of the sample entry and more *)
Definition codec_text (tr : track) (txt : text) : Prop :=
  match t_codec tr with
  | CodecAVC1 =>
      match t_avc tr with
      | Some a => exists p c l, numeral 16 2 (a_profile a) p /\ numeral 16 2 (a_compat a) c /\ numeral 16 2 (a_level a) l /\
                                txt = lit "avc1." ++ p ++ c ++ l
      | None => txt = lit "avc1"
      end
  | CodecMP4A =>
      match t_mp4a tr with
      | Some m =>
          if m_oti m =? 0 then txt = lit "mp4a"
          else exists o, numeral 16 1 (m_oti m) o /\
               if m_audoti m =? 0 then txt = lit "mp4a." ++ o
               else exists a, numeral 10 1 (m_audoti m) a /\ txt = lit "mp4a." ++ o ++ lit "." ++ a
      | None => txt = lit "mp4a"
      end
  | CodecUnknown => txt = lit "unknown"
  end.

(** ** Rates: those of the samples, or, unless both are known, those of the segments *)
Definition average (size timescale duration : N) : N := if duration =? 0 then 0 else rate size timescale duration.
Definition rates (segs : list segment) (tr : track) (avg peak : N) : Prop :=
  let ss := t_samples tr in
  let ts := t_timescale tr in
  let mine := of_track (t_id tr) segs in
  8 * total_size ss * ts < 2 ^ 64 -> total_size ss < 2 ^ 64 -> total_delta ss < 2 ^ 64 ->
  8 * sum (map g_size mine) * ts < 2 ^ 64 -> sum (map g_duration mine) < 2 ^ 64 ->
  let a := average (total_size ss) ts (total_delta ss) in
  exists m,
    (forall win, window ts ss win -> rate (total_size win) ts (total_delta win) <= m) /\
    (m = 0 \/ exists win, window ts ss win /\ m = rate (total_size win) ts (total_delta win)) /\
    (a <> 0 -> m <> 0 -> avg = a /\ peak = m) /\
    (a = 0 \/ m = 0 ->
     avg = average (sum (map g_size mine)) ts (sum (map g_duration mine)) /\
     greatest peak (map (fun s => rate (g_size s) ts (g_duration s)) (filter (fun s => negb (g_duration s =? 0)) mine))).

(** ** The samples with a slice of an IDR picture *)
Definition idr_count (data : list byte) (tr : track) (n : N) : Prop :=
  match t_codec tr, t_avc tr with
  | CodecAVC1, Some avc => forall (w : nat) units, a_lsize avc = N.of_nat w -> (w <= 4)%nat ->
      let ps := places (t_chunks tr) 0 (t_samples tr) in
      Forall (fun p => l_size p + N.of_nat w + 1 < 2 ^ 32 /\ made_of data w (units (l_index p)) p) ps ->
      n = lenN (filter (fun p => existsb is_idr (units (l_index p))) ps)
  | _, _ => n = 0
  end.

Record row_report (data : list byte) (segs : list segment) (tr : track) (row : trow) : Prop := mkrow_report
  { rr_id : r_id row = t_id tr;
    rr_timescale : r_timescale row = t_timescale tr;
    rr_duration : r_duration row = t_duration tr;
    rr_seconds : r_seconds row = mkseconds (t_duration tr) (t_timescale tr);
    rr_codec : codec_text tr (r_codec row);
    rr_encrypted : r_encrypted row = t_encrypted tr;
    rr_picture : match t_codec tr, t_avc tr with
                 | CodecAVC1, Some a => r_width row = a_width a /\ r_height row = a_height a
                 | _, _ => r_width row = 0 /\ r_height row = 0
                 end;
    rr_samples : r_samples row = lenN (t_samples tr);
    rr_chunks : r_chunks row = lenN (t_chunks tr);
    rr_idr : idr_count data tr (r_idr row);
    rr_rates : rates segs tr (r_bitrate row) (r_max row) }.
