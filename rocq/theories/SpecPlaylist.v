(** Specification of the numbers in the playlists of the divide command.  A fragment
    lasts [sec_duration / sec_timescale] seconds. *)
From Verif Require Import Base GoText ProbeTool SpecDivide.
Local Open Scope string_scope.
Local Open Scope list_scope.
Local Open Scope N_scope.

(** the durations and timescales there are, but for a timescale of 0 *)
Definition timed (d : seconds) : Prop := sec_duration d < 2 ^ 32 /\ 0 < sec_timescale d < 2 ^ 32.
(** the whole number of seconds the fragment fits in, and the highest of them *)
Definition ceiling (d : seconds) : N := (sec_duration d + sec_timescale d - 1) / sec_timescale d.
Definition longest (l : list seconds) : N := fold_right N.max 0 (map ceiling l).
(** [q] is the duration in millionths of a second, with an error of less than one;
    and exactly so if there is such a number *)
Definition is_millionths (d : seconds) (q : N) : Prop :=
  (Z.abs (Z.of_N q * Z.of_N (sec_timescale d) - 1000000 * Z.of_N (sec_duration d)) < Z.of_N (sec_timescale d))%Z.
(** with six decimals *)
Definition decimals (q : N) : text := dec_text (q / 1000000) ++ lit "." ++ pad_left 6 (dec_text (q mod 1000000)).
(** the playlist of a track; the durations in millionths of a second *)
Definition playlist (target : N) (durations : list N) : text :=
  lines ([ lit "#EXTM3U"; lit "#EXT-X-VERSION:7"; lit "#EXT-X-TARGETDURATION:" ++ dec_text target;
           lit "#EXT-X-PLAYLIST-TYPE:VOD"; lit "#EXT-X-MAP:URI=""init.mp4""" ] ++
         flat_map (fun x => [ lit "#EXTINF:" ++ decimals (snd x) ++ lit ","; dec_text (fst x) ++ lit ".mp4" ]) (numbered 0 durations) ++
         [ lit "#EXT-X-ENDLIST" ]).
(** [bits] is the rate of [size] bytes in the duration, rounded down, but for a
    relative error of 2 ^ -51 *)
Definition at_most_rate (size : N) (d : seconds) (bits : N) : Prop :=
  bits * sec_duration d * 2 ^ 51 <= 8 * size * sec_timescale d * (2 ^ 51 + 1).
Definition at_least_rate (size : N) (d : seconds) (bits : N) : Prop :=
  8 * size * sec_timescale d * (2 ^ 51 - 1) < (bits + 1) * sec_duration d * 2 ^ 51.
(** a rate that uint64 has room for: see [C61_bandwidth_case] for when there is none *)
Definition rated (size : N) (d : seconds) : Prop :=
  timed d /\ 0 < sec_duration d /\ size < 2 ^ 64 /\ 8 * size * sec_timescale d < 2 ^ 63 * sec_duration d.
