{
 "claims": [
  {
   "property": "C01",
   "status": "proved",
   "theorems": [
    "C01_bit_round_trip",
    "C01_complete_bytes"
   ],
   "note": ""
  },
  {
   "property": "C02",
   "status": "proved",
   "theorems": [
    "C02_unaligned_write",
    "C02_unaligned_read",
    "C02_absolute_seek"
   ],
   "note": ""
  },
  {
   "property": "C03",
   "status": "proved",
   "theorems": [
    "C03_header_round_trip"
   ],
   "note": ""
  },
  {
   "property": "C04",
   "status": "proved",
   "theorems": [
    "C04_read_box_info",
    "C04_grammar_total"
   ],
   "note": ""
  },
  {
   "property": "C05",
   "status": "partial",
   "theorems": [
    "C05_returned_info_partial",
    "C05_returned_info_refuted",
    "C05_exact"
   ],
   "note": "False in general (witness); holds when HeaderSize matches the written form. C05_exact gives the exact condition, for every BoxInfo value, under which the returned info is what ReadBoxInfo reads back."
  },
  {
   "property": "C06",
   "status": "proved",
   "theorems": [
    "C06_marshal_layout"
   ],
   "note": "For any registration. Values outside the declared layout (too wide, too short) are not covered: layout is None there."
  },
  {
   "property": "C07",
   "status": "proved",
   "theorems": [
    "C07_round_trip"
   ],
   "note": "All registered types, all contexts, all surrounding streams; well_formed is the separate specification in SpecRoundTrip.v; it holds for the 136 payloads of the Go unit tests (C07_case_go_tests)."
  },
  {
   "property": "C08",
   "status": "proved",
   "theorems": [
    "C08_marshal_count",
    "C08_marshal_count_any"
   ],
   "note": ""
  },
  {
   "property": "C09",
   "status": "proved",
   "theorems": [
    "C09_unmarshal_count"
   ],
   "note": "Streams shorter than 2^62 bytes."
  },
  {
   "property": "C10",
   "status": "partial",
   "theorems": [
    "C10_unmarshal_total_partial",
    "C10_unmarshal_total_refuted",
    "C10_no_panic"
   ],
   "note": "Unmarshal of any registered box returns a value or an error on every payload shorter than 2^48 bytes, except a trun without per-sample fields that declares 0xffffffff samples; the refutation shows that one looping for every amount of fuel."
  },
  {
   "property": "C11",
   "status": "proved",
   "theorems": [
    "C11_unsupported_rejected",
    "C11_never_succeeds_unsupported"
   ],
   "note": "meta is exempt: its leading bytes decide whether it is a full box (C11_meta)."
  },
  {
   "property": "C12",
   "status": "proved",
   "theorems": [
    "C12_lossless"
   ],
   "note": "142 of the 157 registered definitions are plain (C12_not_plain lists the others)."
  },
  {
   "property": "C13",
   "status": "partial",
   "theorems": [
    "C13_exact",
    "C13_short_list_partial",
    "C13_short_list_refuted"
   ],
   "note": "False as stated; C13_exact says for exactly which types it holds: for every registered type and item but avcC, hvcC, sgpd, esds and keys, Marshal never reports success when a list at any depth is shorter than its count; for each of these five a value is given that is written without an error. C13_short_list_partial: for all types, lists that are not inside an element of another list. marshalSlice drops the errors of its elements."
  },
  {
   "property": "C14",
   "status": "partial",
   "theorems": [
    "C14_decoded_size_partial",
    "C14_decoded_size_refuted",
    "C14_any_count"
   ],
   "note": "List elements and string bytes of a decoded box number at most 8 * bytes read, for every registered type, except a trun whose flags give samples no content (refuted by an 8-byte payload with 300 entries). C14_any_count: eight bytes decode into any number of entries below 2^32 - 1."
  },
  {
   "property": "C15",
   "status": "partial",
   "theorems": [
    "C15_exact",
    "C15_write_failures_partial",
    "C15_write_failures_refuted"
   ],
   "note": "False as stated; C15_exact says for exactly which types it holds: success under any pattern of write failures means the same output as without failures for every registered type and item except 21 structs (co64, ctts, elst, ftyp, styp, hvcC, saio, avcC, sbgp, sgpd, sidx, stco, stsc, stss, stsz, stts, tfra, trun, esds, pssh, keys), for each of which a value and a failing write are given where Marshal reports success and has lost bytes. C15_write_failures_partial is the part that needs no hypothesis on the value (124 registrations)."
  },
  {
   "property": "C16",
   "status": "partial",
   "theorems": [
    "C16_sgpd_refuted",
    "C16_payloads",
    "C16_written"
   ],
   "note": "The statement is false (C16_sgpd_refuted). Exactly: such a payload is accepted iff its size is 16, that is without entries (C16_payloads); every such box can be written, and read back iff it has no entries (C16_written)."
  },
  {
   "property": "C17",
   "status": "partial",
   "theorems": [
    "C17_payload_only_partial",
    "C17_meta_refuted",
    "C17_meta_exact"
   ],
   "note": "Holds for everything but a meta box shorter than 4 bytes, where it is refuted. C17_meta_exact: the exception is exactly the meta boxes with less than 4 bytes of payload."
  },
  {
   "property": "C18",
   "status": "proved",
   "theorems": [
    "C18_field_order",
    "C18_tags"
   ],
   "note": "C18_tags also states what each tag key means; C18_package_tags (Example) checks that every tag of the package carries one number."
  },
  {
   "property": "C19",
   "status": "proved",
   "theorems": [
    "C19_lookup",
    "C19_item",
    "C19_add",
    "C19_queries"
   ],
   "note": "Registration predicates are the five used in the package."
  },
  {
   "property": "C20",
   "status": "partial",
   "theorems": [
    "C20_text",
    "C20_from_text",
    "C20_injective_partial",
    "C20_injective_refuted"
   ],
   "note": "Text form proved for all types. Distinct types print differently except exactly one pair, {0xa9 '(c)', '(c)' 0xa9}, both printed (c)(c)."
  },
  {
   "property": "C21",
   "status": "proved",
   "theorems": [
    "C21_walk",
    "C21_walk_from"
   ],
   "note": "every tree, every handler program; hypotheses: less than 2^62 bytes, no payload the handler asks for makes the decoder panic or loop (C10), boxes are expanded where their fields end where their children begin"
  },
  {
   "property": "C22",
   "status": "proved",
   "theorems": [
    "C22_moves",
    "C22_moves_from"
   ],
   "note": "any data; two handlers that differ only in stream moves and in when and how often they call ReadPayload/ReadData give the same result, provided both traversals end"
  },
  {
   "property": "C23",
   "status": "proved",
   "theorems": [
    "C23_trace",
    "C23_log_harmless"
   ],
   "note": "any data, any handler; the relation level/body of SpecTrace.v contains the containment statement (contained). C23_absurd_size_refuted shows that the bound 2^64 on the end of the parent is needed"
  },
  {
   "property": "C24",
   "status": "partial",
   "theorems": [
    "C24_terminates_partial",
    "C24_round_refuted",
    "C24_deep_refuted"
   ],
   "note": "termination proved for handlers that refuse boxes with Size < HeaderSize or an end beyond 2^64, on data without the endless trun payload of C10; without this the code loops or recurses forever (two witnesses, for all fuel)"
  },
  {
   "property": "C25",
   "status": "proved",
   "theorems": [
    "C25_errors_stop",
    "C25_all_visited"
   ],
   "note": "any data, any handler whose traversal ends"
  },
  {
   "property": "C26",
   "status": "proved",
   "theorems": [
    "C26_context",
    "C23_trace",
    "C21_walk"
   ],
   "note": "flags on any data: C26_context; QuickTime and keys: in the relation level/announce (C23_trace) for any data and in walk_file (C21_walk) for trees"
  },
  {
   "property": "C27",
   "status": "partial",
   "theorems": [
    "C27_truncated_partial",
    "C27_truncated_refuted"
   ],
   "note": "proved for handlers that read or expand every box and pass errors on, outside of QuickTime files: success means whole boxes up to an incomplete header at the end; the incomplete header and a cut top-level box that is not read are accepted silently (witnesses)"
  },
  {
   "property": "C28",
   "status": "partial",
   "theorems": [
    "C28_read_data_partial",
    "C28_read_data_refuted",
    "C28_exact"
   ],
   "note": "proved for HeaderSize <= Size, payload below 2^63 bytes; with Size < HeaderSize the code returns a wrong count without an error; C28_exact: the count is the number of bytes written exactly if HeaderSize <= Size and the payload is below 2^63 bytes."
  },
  {
   "property": "C29",
   "status": "proved",
   "theorems": [
    "C29_extract",
    "C29_extract_from",
    "C29_selected"
   ],
   "note": "Boxes of type 0x00000000 are skipped (the code reads such a box as padding); the statement says so."
  },
  {
   "property": "C30",
   "status": "partial",
   "theorems": [
    "C30_payloads_partial",
    "C30_payloads_refuted"
   ],
   "note": "Proved for boxes whose decoding does not depend on the context, or whose context is the parent's. False in general: ExtractBoxesWithPayload decodes with the parent's (or an empty) context; refuted with udta/titl and a QuickTime mp4a."
  },
  {
   "property": "C31",
   "status": "proved",
   "theorems": [
    "C31_writer_tree"
   ],
   "note": ""
  },
  {
   "property": "C32",
   "status": "proved",
   "theorems": [
    "C32_read_back"
   ],
   "note": ""
  },
  {
   "property": "C33",
   "status": "proved",
   "theorems": [
    "C33_finished_data_stays"
   ],
   "note": "Any split of any program, any write faults."
  },
  {
   "property": "C34",
   "status": "partial",
   "theorems": [
    "C34_outgrown_partial",
    "C34_refuted"
   ],
   "note": "EndBox returns the error, but has overwritten the first 8 bytes of the content: the theorem gives the exact resulting bytes; the claim that bytes are unchanged is refuted."
  },
  {
   "property": "C35",
   "status": "proved",
   "theorems": [
    "C35_copy_box"
   ],
   "note": ""
  },
  {
   "property": "C36",
   "status": "partial",
   "theorems": [
    "C36_samples_partial",
    "C36_track",
    "C36_tracks",
    "C36_refuted",
    "C36_constant_size"
   ],
   "note": "Proved for tables with fewer than 2^32 samples: one sample per unit of stts, offsets from ctts (0 beyond), sizes from the EntrySize list of stsz. C36_track and C36_tracks lift this to trak boxes found in a file. Missing: a constant stsz SampleSize is ignored by the code: a witness is C36_refuted, and C36_constant_size says that every sample then has size 0, for every file; 2^32 samples or more."
  },
  {
   "property": "C37",
   "status": "proved",
   "theorems": [
    "C37_chunks",
    "C37_no_panic"
   ],
   "note": "Chunk offsets from stco/co64 and samples per chunk from the last stsc entry that starts at or before the chunk; the stsc loop never indexes out of range for any table."
  },
  {
   "property": "C38",
   "status": "proved",
   "theorems": [
    "C38_segment",
    "C38_exact",
    "C38_segments"
   ],
   "note": "Segment values from tfhd, tfdt and trun of a moof."
  },
  {
   "property": "C39",
   "status": "proved",
   "theorems": [
    "C39_samples",
    "C39_segments"
   ],
   "note": "Stated with the total duration below 2^64 as well."
  },
  {
   "property": "C40",
   "status": "partial",
   "theorems": [
    "C40_segments",
    "C40_samples_partial",
    "C40_panics",
    "C40_no_window",
    "C40_samples_refuted"
   ],
   "note": "Segments.GetMaxBitrate proved. Samples.GetMaxBitrate proved when no window has a total duration of 0; it divides by zero exactly if one has (C40_panics), e.g. deltas [5,0] and a window of 5 (C40_samples_refuted)."
  },
  {
   "property": "C41",
   "status": "partial",
   "theorems": [
    "C41_idr_partial",
    "C41_any_samples_partial",
    "C41_any_short_lengths",
    "C41_not_avc",
    "C41_terminates_partial",
    "C41_short_lengths_terminate",
    "C41_terminates_refuted"
   ],
   "note": "The result (indices of the samples with a unit of type 5, in order; an error only when a unit header is beyond the end of the file; no panic) is proved for samples made of NAL units and for samples of any contents whose unit lengths do not make the 32-bit offset within a sample wrap, in particular for every file with lengths of at most three bytes and samples not within 16 MiB of 4 GiB; termination likewise. Termination in general is false: a NAL length of 0xfffffffc makes the loop return to the same unit for ever (C41_terminates_refuted)."
  },
  {
   "property": "C42",
   "status": "partial",
   "theorems": [
    "C42_profile_partial",
    "C42_total",
    "C42_other",
    "C42_refuted"
   ],
   "note": "Total on every esds; the result is that of the signalling syntax without GASpecificConfig. With GASpecificConfig in its place, as in the standard, the extension is missed (C42_refuted)."
  },
  {
   "property": "C43",
   "status": "proved",
   "theorems": [
    "C43_fast_start"
   ],
   "note": ""
  },
  {
   "property": "C44",
   "status": "proved",
   "theorems": [
    "C44_has",
    "C44_add",
    "C44_remove"
   ],
   "note": ""
  },
  {
   "property": "C45",
   "status": "proved",
   "theorems": [
    "C45_flags"
   ],
   "note": "Holds for every box with a FullBox; a plain Box has no flags and its CheckFlag always answers true."
  },
  {
   "property": "C46",
   "status": "proved",
   "theorems": [
    "C46_unsigned",
    "C46_signed",
    "C46_balance",
    "C46_elst",
    "C46_ctts",
    "C46_trun",
    "C46_saio",
    "C46_tfra",
    "C46_fixed_point",
    "C46_balance_float",
    "C46_sample_rate",
    "C46_other_versions"
   ],
   "note": "Accessors of mvhd, mdhd, tkhd, mehd, tfdt, sidx, cslg, smhd, elst, ctts, trun, saio, tfra and the audio sample entries against byte offsets taken from ISO/IEC 14496-12. The accessors that return floats return exactly the fixed point number in the payload. Indexed accessors: for every index below a count other than 0xffffffff. Sample rate: boxes that are not in a QuickTime wave box. For boxes of other versions, which Unmarshal does not give, they return 0."
  },
  {
   "property": "C47",
   "status": "partial",
   "theorems": [
    "C47_read",
    "C47_iso",
    "C47_counted_partial",
    "C47_counted_refuted",
    "C47_counted_exact"
   ],
   "note": "Exact reading proved for every payload (C47_read); names of ISO writers and counted names up to 254 bytes come back; a counted name of 255 bytes does not (refuted: the length byte plus one wraps to 0). C47_counted_exact: a counted name comes back exactly if it is shorter than 255 bytes."
  },
  {
   "property": "C48",
   "status": "partial",
   "theorems": [
    "C48_stringify_partial",
    "C48_complete_partial",
    "C48_own_version",
    "C48_no_panic",
    "C48_refuted",
    "C48_escape",
    "C48_no_bytes_below_32",
    "C48_no_controls_partial",
    "C48_del_refuted"
   ],
   "note": "Proved for all decoded boxes except Item and DOps, whose own Version field (and Flags, of an Item) is printed as the version (and flags) of the box: C48_own_version gives exactly what is printed of these two, C48_refuted a case. Absence of panics, escaping and absence of bytes below 32 hold for all; DEL is printed, from iso639 letters (C48_del_refuted)."
  },
  {
   "property": "C49",
   "status": "proved",
   "theorems": [
    "C49_edit",
    "C49_identity",
    "C49_stray"
   ],
   "note": "The general theorem covers the options (new decode time, dropped boxes); C49_identity is the case without options. 'Completely consumed' includes: no stray bytes at the end of a QuickTime container (C49_stray shows that edit removes them)."
  },
  {
   "property": "C50",
   "status": "partial",
   "theorems": [
    "C50_written_partial",
    "C50_read_partial",
    "C50_table_is_read_partial",
    "C50_decoded_partial",
    "C50_hvcC_refuted",
    "C50_sgpd_refuted"
   ],
   "note": "Proved for every registered type but hvcC, and for sgpd when it has as many roll distances as announced, in both directions; decoded values with strings through the re-reading of what the table gives (values rewritable in the sense of C62). Both exceptions are refuted: hvcC deviates from ISO/IEC 14496-15 (numTemporalLayers and temporalIdNested have the wrong widths); sgpd reads roll distances up to the end of the box whatever entry_count says. Tables are hand-written and checked against the struct tags; version 255 excluded (the package's own marker for any version)."
  },
  {
   "property": "C51",
   "status": "proved",
   "theorems": [
    "C10_no_panic",
    "C51_traversal",
    "C51_extract",
    "C51_probe",
    "C51_idr"
   ],
   "note": "For every data shorter than 2^48 bytes; handlers are programs over the ReadHandle operations, which cannot panic themselves. Running out of memory or stack is not modelled (a trak with large sample counts, or very deep nesting, exhausts them). Where C10, C24 and C41 show that the code runs for ever, it does so without a panic."
  },
  {
   "property": "C52",
   "status": "proved",
   "theorems": [
    "C52_extract",
    "C52_all",
    "C52_no_panic"
   ],
   "note": ""
  },
  {
   "property": "C53",
   "status": "proved",
   "theorems": [
    "C53_dump"
   ],
   "note": "Boxes on the way are decodable (passable). -full names without commas, as the command splits at commas."
  },
  {
   "property": "C54",
   "status": "proved",
   "theorems": [
    "C54_psshdump",
    "C54_base64"
   ],
   "note": ""
  },
  {
   "property": "C55",
   "status": "partial",
   "theorems": [
    "C55_dump_partial",
    "C55_dump_refuted",
    "C55_psshdump_partial",
    "C55_psshdump_refuted",
    "C55_psshdump_exact"
   ],
   "note": "False in full: dump -a on a 16-byte file and psshdump on a 56-byte file panic in make. dump without -full, -a, -mdat, -free does not panic; psshdump panics only when a pssh box it found declares 2^48 bytes or more. C55_psshdump_exact: it panics exactly if the pssh boxes before such a box are whole."
  },
  {
   "property": "C56",
   "status": "proved",
   "theorems": [
    "C56_tracks",
    "C56_segments",
    "C56_movie",
    "C56_avc_refuted"
   ],
   "note": "C56_avc_refuted: for encrypted video the AVC configuration is left out although the avcC box is looked for and found (probe.go keeps it, but avc1 stays nil for encv)."
  },
  {
   "property": "C57",
   "status": "partial",
   "theorems": [
    "C57_report",
    "C57_panics_partial",
    "C57_panics_refuted",
    "C57_segment_refuted",
    "C57_json",
    "C57_no_report",
    "C57_first_track_panics"
   ],
   "note": "The contents of the report are proved (C57_report). Absence of panics is refuted (last sample without duration); it panics only if a track has a window without duration, or more than 2^64 units of time (C57_panics_partial). A report is printed as JSON exactly if no time scale is 0 (C57_json); a media segment without moov is refused (C57_segment_refuted). Conversely no report is given on a file with such a track (C57_no_report), and it panics if the track is the first (C57_first_track_panics)."
  },
  {
   "property": "C58",
   "status": "proved",
   "theorems": [
    "C58_divide",
    "C58_succeeds",
    "C58_no_trun_refuted",
    "C58_moof_in_moov_refuted",
    "C58_no_track_refuted",
    "C58_same_kind_refuted"
   ],
   "note": "C58_divide: every file after success. C58_succeeds: when it succeeds. The refuted ones show that the command panics on some files, and that the hypothesis on the kinds of the tracks is needed."
  },
  {
   "property": "C59",
   "status": "partial",
   "theorems": [
    "C59_text",
    "C59_unmarshal",
    "C59_traversal",
    "C59_probe",
    "C59_never_wrong_unmarshal",
    "C59_never_wrong_headers",
    "C59_never_wrong_extract",
    "C59_never_wrong_probe",
    "C59_any_split_partial",
    "C59_full_and_copy",
    "C59_bits_never_wrong",
    "C59_early_eof_refuted",
    "C59_empty_read_refuted",
    "C59_early_eof_unmarshal_refuted",
    "C59_empty_read_unmarshal_refuted"
   ],
   "note": "Proved for every split of the data by a reader that delivers at least a byte per call and reports io.EOF with a call of its own: Unmarshal, ReadBoxInfo, the traversal with any handler, Extract, Probe and FindIDRFrames give the same result and position. AnyReader.v is the text of these operations over an open set of reader operations; C59_text shows it is the model's. io.ReadFull and io.CopyN tolerate everything; ReadBits never returns wrong bits. Refuted in general: with io.EOF along with the last byte a box at the end of the file cannot be read, and an empty-handed call gives another SchemeIdUri and other message data of an emsg box without an error. On every reader within the contract, whatever it does, Unmarshal of any box but emsg, ExtractBoxes(WithPayload) on paths without emsg, and Probe give the in-memory result, an error, or no result at all; ReadBoxInfo and FindIDRFrames the in-memory result or none."
  },
  {
   "property": "C60",
   "status": "partial",
   "theorems": [
    "C60_used_box_partial",
    "C60_can_be_used_again",
    "C60_sgpd_refuted"
   ],
   "note": "All registered types, any earlier content. Exception: sgpd of version 2, where the statement is false (C60_sgpd_refuted)."
  },
  {
   "property": "C61",
   "status": "proved",
   "theorems": [
    "C61_target",
    "C61_extinf",
    "C61_bandwidth",
    "C61_playlist",
    "C61_divide"
   ],
   "note": "C61_divide: the playlists of every file of C58. A fragment without duration makes BANDWIDTH implementation-dependent, a timescale of 0 puts +Inf or NaN in the playlist (C61_bandwidth_case)."
  },
  {
   "property": "C62",
   "status": "partial",
   "theorems": [
    "C62_reencode_partial",
    "C62_consumed_suffices",
    "C62_name_refuted",
    "C62_name_count_refuted",
    "C62_varint_refuted"
   ],
   "note": "Full statement refuted: a counted handler name with a NUL, a QuickTime handler name that begins with its own length, and a varint of 2^28 or more do not survive. Proved for all other values of all registered types, for streams below 2^45 bytes."
  },
  {
   "property": "C63",
   "status": "partial",
   "theorems": [
    "C63_edit_partial",
    "C63_twice_partial",
    "C63_name_refuted"
   ],
   "note": "Proved for every well-formed file below 2^45 bytes whose boxes decode to rewritable values (SpecReencode.v) and whose rewritten boxes fit their size fields; boxes that contain boxes and are not meta must have their own fields as Marshal writes them. Without rewritable the statement is false: C63_name_refuted (a counted QuickTime handler name with a NUL inside is changed)."
  },
  {
   "property": "C64",
   "status": "partial",
   "theorems": [
    "C64_edit_partial",
    "C64_ftyp_refuted",
    "C64_twice_partial"
   ],
   "note": "Proved for all options but dropping ftyp or keys, which changes the meaning of other boxes (C64_ftyp_refuted), for every well-formed file below 2^45 bytes whose boxes decode to rewritable values (without: C63_name_refuted) and whose rewritten boxes fit their size fields; boxes that contain boxes and are not meta must have their own fields as Marshal writes them. C64_twice_partial: a second run with the same options changes nothing (for files where a copied box is not read to have children)."
  },
  {
   "property": "C65",
   "status": "proved",
   "theorems": [
    "C65_unmarshal",
    "C65_traversal",
    "C65_probe",
    "C65_dump",
    "C65_eof_refuted"
   ],
   "note": "Example C65_case. io.EOF itself is excluded, as it means the end of the data: C65_eof_refuted shows that a reader reporting it too early makes ReadBoxStructure succeed with fewer boxes. Seek does not fail."
  },
  {
   "property": "C66",
   "status": "proved",
   "theorems": [
    "C66_number",
    "C66_asks",
    "C66_one",
    "C66_bad_options",
    "C66_no_request",
    "C66_no_input",
    "C66_exit"
   ],
   "note": "Example C66_case. The grammar of the command line is in SpecCli.v, independent of the parser. The exit code after -help is a parameter, since it depends on the version of Go."
  },
  {
   "property": "C67",
   "status": "partial",
   "theorems": [
    "C67_edit_partial",
    "C67_in_place_refuted",
    "C67_time_refuted",
    "C67_dump",
    "C67_extract"
   ],
   "note": "Examples C67_case, C67_case_dump. The full statement is false of the code: with one file under both paths edit empties it before reading and reports success (C67_in_place_refuted, for every file), and the time 2^64-1 is taken for no option (C67_time_refuted)."
  },
  {
   "property": "C68",
   "status": "proved",
   "theorems": [
    "C68_marshal",
    "C68_complete",
    "C68_nil_refuted",
    "C68_edit",
    "C68_command"
   ],
   "note": "C68_nil_refuted: a box put together by a program, with a nil pointer that no file gives, does panic in Marshal; the claim is about boxes that have been read."
  },
  {
   "property": "C69",
   "status": "proved",
   "theorems": [
    "C69_unmarshal",
    "C69_traversal",
    "C69_probe",
    "C69_handlers",
    "C69_dump",
    "C69_masked_refuted",
    "C69_eof_refuted"
   ],
   "note": "The two refutations are part of the statement: the error of Seek may be replaced by \"not enough bits\", and io.EOF from Seek is taken for the end of the file. A handler that moves the stream itself (HMove) is taken to return the error of its Seek."
  },
  {
   "property": "C70",
   "status": "partial",
   "theorems": [
    "C70_edit",
    "C70_divide",
    "C70_psshdump",
    "C70_probe",
    "C70_extract_partial",
    "C70_extract_seek_refuted"
   ],
   "note": "edit, divide, psshdump and probe: proved for failing Read and failing Seek. extract: proved for failing Read; for failing Seek the statement is false (C70_extract_seek_refuted), because extract.go ignores the error of SeekToStart."
  },
  {
   "property": "C71",
   "status": "partial",
   "theorems": [
    "C71_edit_for_good_partial",
    "C71_edit_no_failure",
    "C71_edit_refuted"
   ],
   "note": "Proved for outputs that, once they fail, go on failing until edit returns. The full claim is false: on a full disk edit can return nil after writing a file that cannot be read (C71_edit_refuted)."
  },
  {
   "property": "C72",
   "status": "partial",
   "theorems": [
    "C72_media_partial",
    "C72_playlists_partial",
    "C72_no_failure",
    "C72_playlists_refuted"
   ],
   "note": "Proved for the init.mp4 files and the segments (equal to those of a run without failures whenever divide returns nil), and that playlists then are whole but for the ends of fixed texts. False of the fixed texts of playlists: C72_playlists_refuted gives two runs. Create, Write and Seek may fail, payloads are copied in any pieces; errors of Close are not looked at by the code and lose nothing in the model."
  },
  {
   "property": "C73",
   "status": "partial",
   "theorems": [
    "C73_extract",
    "C73_dump_never_notices",
    "C73_psshdump_never_notices",
    "C73_no_failure",
    "C73_refuted"
   ],
   "note": "extract: proved for all files, box types, scripts of failing calls and ways of cutting the copy into calls. dump and psshdump: the claim is false (C73_refuted), and for every file and script it is proved what they do instead. Not covered: probe, whose output is written by the json and yaml encoders."
  },
  {
   "property": "C74",
   "status": "proved",
   "theorems": [
    "C74_no_silent_failure",
    "C74_no_failure",
    "C74_tree",
    "C74_finished_data_stays"
   ],
   "note": "Examples C74_case, C74_case_stays. The source of CopyBox does not fail here (C70 has that for edit)."
  }
 ]
}
