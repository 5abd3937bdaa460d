{"id": "C01", "title": "Bit writer / bit reader round trip", "statement": "Any sequence of bit groups written with the bit writer (WriteBit, WriteBits of any byte slices and widths, aligned Write) and followed by enough padding bits to complete the last byte is read back unchanged by the bit reader asked for the same widths, and the bytes produced are exactly the concatenation of the groups, most significant bit first.", "quantifier": "every sequence of writes, every width, every data slice", "why_tests_cant": "The space of width sequences and alignments is unbounded; tests sample a handful of alignments.", "anchors": ["internal/bitio/read.go: ReadBits, ReadBit", "internal/bitio/write.go: WriteBits, WriteBit"]}
{"id": "C02", "title": "Unaligned byte access is refused without side effects", "statement": "A byte-wise Read or relative Seek while a bit reader is in the middle of a byte, and a byte-wise Write while a bit writer is in the middle of a byte, returns ErrInvalidAlignment, consumes nothing and emits nothing; at a byte boundary they behave as the underlying stream. A Seek from the start or to the end drops the bits left of the current byte: what is read afterwards is what a fresh reader at the new position reads.", "quantifier": "every reachable reader/writer state", "why_tests_cant": "Needs every alignment reachable by any history of calls.", "anchors": ["internal/bitio/read.go: Read, Seek", "internal/bitio/write.go: Write"]}
{"id": "C03", "title": "Box header round trip", "statement": "For every BoxInfo whose HeaderSize is the one WriteBoxInfo chooses and whose Size is representable (>=2 in a small header, >=1 in a large one, or ExtendToEOF), ReadBoxInfo at the place where WriteBoxInfo wrote returns the same Type, Size, HeaderSize, ExtendToEOF and the real offset, leaves the stream at the first payload byte, and WriteBoxInfo changes no byte outside the header.", "quantifier": "every type, 64-bit size, header form, offset and surrounding file content", "why_tests_cant": "2^64 sizes times arbitrary surrounding contents; boundaries at 2^32 are only sampled by tests.", "anchors": ["box_info.go: WriteBoxInfo, ReadBoxInfo"]}
{"id": "C04", "title": "ReadBoxInfo implements the ISO header grammar exactly", "statement": "On every stream, ReadBoxInfo returns: io.EOF when fewer than 8 bytes remain (or fewer than 16 for a 64-bit header), 'invalid size' for a 64-bit size of zero, and otherwise the type and the size that ISO/IEC 14496-12 defines (32-bit size; 64-bit size when the 32-bit field is 1; distance to end of file when it is 0), with the stream positioned after the header.", "quantifier": "every byte string and start position", "why_tests_cant": "All inputs, including every truncation point.", "anchors": ["box_info.go: ReadBoxInfo"]}
{"id": "C05", "title": "WriteBoxInfo's returned BoxInfo describes the bytes it wrote", "statement": "The BoxInfo returned by WriteBoxInfo is the one a reader of the written header obtains (same Offset, HeaderSize, Type, ExtendToEOF and Size).", "quantifier": "every input BoxInfo and writer state", "why_tests_cant": "All combinations of Size, HeaderSize, ExtendToEOF including those where the header form changes.", "anchors": ["box_info.go: WriteBoxInfo"]}
{"id": "C06", "title": "Marshal emits exactly the declared layout", "statement": "For every registered box type and every well-formed value, Marshal writes exactly the concatenation, in tag order, of the fields enabled by version, flags and optional-field rules, each encoded big-endian in its declared number of bits (two's complement for signed, NUL-terminated for strings, 4-byte 7-bit groups for varints), and nothing else.", "quantifier": "every registered box type, context and field assignment", "why_tests_cant": "Unbounded lists and all combinations of versions/flags/optional fields.", "anchors": ["marshaller.go: Marshal", "field.go: buildFields, isTargetField", "box_types_*.go"]}
{"id": "C07", "title": "Marshal/Unmarshal round trip for every registered box type", "statement": "For every registered box type and every well-formed value v of it, Unmarshal of the bytes Marshal(v) produced (embedded at any place of any stream, with payloadSize equal to Marshal's count) succeeds, returns a value equal to v and consumes exactly those bytes.", "quantifier": "every registered box type, supported version, context, well-formed value, surrounding stream", "why_tests_cant": "The unit tests check one or two values per box type; the statement is about all of them.", "anchors": ["marshaller.go: Marshal, Unmarshal", "box_types_*.go"]}
{"id": "C08", "title": "Marshal's count is the number of bytes written", "statement": "Whenever Marshal returns n without error on a writer that never fails, exactly n bytes have been appended to the writer.", "quantifier": "every registered box type, every value (well-formed or not), every context", "why_tests_cant": "All values, including inconsistent ones.", "anchors": ["marshaller.go: Marshal"]}
{"id": "C09", "title": "Unmarshal's count is the number of bytes consumed and never exceeds the payload", "statement": "Whenever Unmarshal (or UnmarshalAny) returns n without error, n <= payloadSize and the stream has advanced by exactly n bytes.", "quantifier": "every registered box type, every byte stream, every payload size, every context", "why_tests_cant": "Quantifies over all malformed inputs.", "anchors": ["marshaller.go: Unmarshal, UnmarshalAny"]}
{"id": "C10", "title": "Unmarshal is total: it neither panics nor diverges", "statement": "UnmarshalAny on any byte stream, any payload size, any registered or unregistered type and any context returns a value or an error; it never panics and never loops forever.", "quantifier": "every byte stream, payload size, box type and context", "why_tests_cant": "All inputs; fuzzing only samples them.", "anchors": ["marshaller.go: UnmarshalAny", "box_types_*.go: GetFieldSize, GetFieldLength, OnReadField"]}
{"id": "C11", "title": "Unsupported versions are rejected and the stream is restored", "statement": "If the version byte of a full box is not among the versions registered for its type, Unmarshal returns ErrUnsupportedBoxVersion and the stream is back at the start of the payload; Unmarshal never succeeds with an unsupported version. (A meta box is exempt: four nonzero leading bytes mean a QuickTime meta box, which has no version.)", "quantifier": "every versioned registered type, every version byte, every payload", "why_tests_cant": "All version bytes x all types x all payloads.", "anchors": ["marshaller.go: Unmarshal, unmarshalStruct", "mp4.go: IsSupportedVersion"]}
{"id": "C12", "title": "Decoding then encoding reproduces the payload bytes", "statement": "For every registered box type whose fields are plain (integers, 1-bit booleans, arrays, byte slices and structures of those) and every payload Unmarshal accepts, Marshal of the decoded box writes exactly the payload bytes that Unmarshal consumed.", "quantifier": "every payload of every plain registered type", "why_tests_cant": "All accepted payloads, including non-canonical ones.", "anchors": ["marshaller.go", "cmd/mp4tool/internal/edit/edit.go"]}
{"id": "C13", "title": "Marshal rejects lists shorter than their declared count", "statement": "If a counted list in a box (at any nesting depth) has fewer elements than its count field says, Marshal returns an error instead of writing a box whose counts lie.", "quantifier": "every registered type, nesting depth and count", "why_tests_cant": "All count/length combinations at all depths.", "anchors": ["marshaller.go: marshalSlice"]}
{"id": "C14", "title": "Decoded size is bounded by the payload", "statement": "The number of list elements Unmarshal materialises is at most the number of payload bits, so a small box cannot make the library allocate an unbounded structure.", "quantifier": "every payload of every registered type", "why_tests_cant": "Worst case over all inputs.", "anchors": ["marshaller.go: unmarshalSlice", "box_types_iso14496_12.go: Trun.GetFieldSize"]}
{"id": "C15", "title": "Write failures are reported by Marshal", "statement": "If any underlying Write call fails while Marshal runs, Marshal returns an error.", "quantifier": "every registered type, value, and failing write call", "why_tests_cant": "All failure points.", "anchors": ["marshaller.go: marshalSlice, marshalUint"]}
{"id": "C16", "title": "sgpd entries with explicit description lengths are readable", "statement": "A version-1 sgpd box of grouping type roll/prol with default_length 0 written by Marshal is accepted by Unmarshal.", "quantifier": "every such box", "why_tests_cant": "No test covers the description-length form; statement is over all entry lists.", "anchors": ["box_types_iso14496_12.go: Sgpd.RollDistancesL", "marshaller.go: unmarshalStructInternal"]}
{"id": "C17", "title": "Decoding depends only on the payload", "statement": "If Unmarshal succeeds on a payload, then it succeeds with the same value and count on every other stream that holds the same payload bytes at the read position, whatever precedes or follows them.", "quantifier": "every registered type, payload and pair of surrounding streams", "why_tests_cant": "A relational property over pairs of inputs.", "anchors": ["marshaller.go: Unmarshal"]}
{"id": "C18", "title": "Field order and tag parsing", "statement": "The fields of a box are processed in increasing order of the number in their mp4 tag, fields with equal numbers in declaration order, and every tagged field exactly once.", "quantifier": "every struct definition whose tags carry one number each", "why_tests_cant": "All struct definitions.", "anchors": ["field.go: buildFieldsStruct, buildField, parseFieldTag"]}
{"id": "C19", "title": "Box definition lookup: latest applicable registration wins", "statement": "Looking a box type up in a context returns the most recently registered definition whose predicate accepts the context, the numbered-item definition for types 1..N under ilst when none applies, and nothing otherwise; IsSupported, New, GetSupportedVersions and IsSupportedVersion agree with that definition.", "quantifier": "every registration history, box type and context", "why_tests_cant": "All registration sequences.", "anchors": ["mp4.go: getBoxDef, AddBoxDef, New, GetSupportedVersions, IsSupportedVersion"]}
{"id": "C20", "title": "BoxType text form", "statement": "Box types of four printable ASCII characters print as themselves, byte 0xa9 printing as (c); types with any other byte print as 0x followed by eight hex digits; distinct box types print differently.", "quantifier": "all 2^32 box types", "why_tests_cant": "2^32 values (pairs for injectivity).", "anchors": ["mp4.go: BoxType.String, StrToBoxType"]}
{"id": "C21", "title": "ReadBoxStructure walks exactly the box tree", "statement": "On a file that is the serialisation of a box tree, ReadBoxStructure with any handler calls the handler once per box the handler's parents expanded, in depth-first file order, with the right type, size, header size, offset, path and context; ReadPayload decodes that box, ReadData yields exactly its payload bytes, Expand returns the children's results; and the result is what the handler computes on the tree.", "quantifier": "every box tree (any depth/width, small, 64-bit and to-EOF headers) and every handler program", "why_tests_cant": "All trees and all handlers.", "anchors": ["read.go: ReadBoxStructure, readBoxStructureFromInternal, readBoxStructure"]}
{"id": "C22", "title": "Handlers may move the stream freely", "statement": "The result of a traversal does not depend on where a handler leaves the stream position, nor on the order or number of ReadPayload/ReadData calls it makes before or after Expand.", "quantifier": "every file, every handler, every interleaving of seeks", "why_tests_cant": "All handler behaviours.", "anchors": ["read.go: readBoxStructureFromInternal"]}
{"id": "C23", "title": "Children stay inside their parent", "statement": "On any input, every box reported to the handler while expanding a box whose Size is at least its HeaderSize and which ends below 2^64 has an extent [Offset, Offset+Size) inside the extent of that box after its own fields, and siblings are consecutive and do not overlap. (For a parent that ends beyond 2^64 this fails: 64-bit positions wrap around.)", "quantifier": "every byte stream, including malformed ones, and every handler", "why_tests_cant": "All malformed inputs.", "anchors": ["read.go: readBoxStructure"]}
{"id": "C24", "title": "Traversal terminates on every input", "statement": "ReadBoxStructure, ReadBoxStructureFromInternal and ExtractBoxes return on every finite stream provided the handler's own code terminates.", "quantifier": "every byte stream and handler", "why_tests_cant": "Termination over all inputs.", "anchors": ["read.go: readBoxStructure", "box_info.go: SeekToEnd"]}
{"id": "C25", "title": "Errors stop the traversal", "statement": "If a handler returns an error the traversal makes no further handler calls at that level and returns that error; a nil error means every box up to the end was visited.", "quantifier": "every file and handler", "why_tests_cant": "All positions of failing calls.", "anchors": ["read.go: readBoxStructure"]}
{"id": "C26", "title": "Context reflects the ancestors", "statement": "The Context passed for a box has UnderWave/UnderIlst/UnderUdta set iff some ancestor is a wave/ilst/udta box, UnderIlstMeta iff some ancestor is a metadata item under ilst, UnderIlstFreeMeta iff the outermost such item is '----', IsQuickTimeCompatible iff this or a preceding top-level ftyp lists 'qt  ', and the key count of the nearest keys box among this box, its preceding siblings and the preceding siblings of its ancestors.", "quantifier": "every box tree and position", "why_tests_cant": "All trees.", "anchors": ["read.go: readBoxStructureFromInternal, readBoxStructure"]}
{"id": "C27", "title": "Truncated files are reported", "statement": "A file that ends inside a box (header or payload) makes ReadBoxStructure return an error.", "quantifier": "every prefix of every file", "why_tests_cant": "All truncation points.", "anchors": ["read.go: readBoxStructure", "box_info.go: ReadBoxInfo"]}
{"id": "C28", "title": "ReadData returns exactly the payload", "statement": "ReadData writes exactly the Size-HeaderSize bytes following the header to its writer and returns that count, or returns an error if the stream is shorter.", "quantifier": "every file and box header, including Size smaller than HeaderSize", "why_tests_cant": "All header values.", "anchors": ["read.go: readBoxStructureFromInternal (ReadData)"]}
{"id": "C29", "title": "ExtractBoxes returns exactly the matching boxes", "statement": "On the serialisation of a box tree, ExtractBoxes returns the boxes whose path (from the root, or below the given parent) matches one of the given paths, wildcards matching any one type, each once, in file order. Boxes of type 0x00000000 (used as padding) and what is below them are left out.", "quantifier": "every tree, parent and non-empty list of non-empty paths", "why_tests_cant": "All trees and path sets.", "anchors": ["extract.go: ExtractBoxes, matchPath", "read.go: compareWith"]}
{"id": "C30", "title": "ExtractBoxesWithPayload decodes each box as a traversal would", "statement": "The payload returned by ExtractBoxesWithPayload for a box is the payload ReadPayload returns for the same box during ReadBoxStructure.", "quantifier": "every file, parent and path list", "why_tests_cant": "All contexts.", "anchors": ["extract.go: ExtractBoxesWithPayload"]}
{"id": "C31", "title": "Nested StartBox/EndBox produce the serialised tree", "statement": "Any well-nested sequence of StartBox, Write, CopyBox and EndBox on a fresh file yields the serialisation of the corresponding box tree with every size field correct, as long as each small-header box stays below 4 GiB; EndBox returns the header it wrote.", "quantifier": "every tree and write granularity", "why_tests_cant": "All nesting structures and sizes.", "anchors": ["write.go: StartBox, EndBox, CopyBox"]}
{"id": "C32", "title": "What Writer builds, ReadBoxStructure reads back", "statement": "Reading the output of a well-nested Writer program visits exactly the boxes started, in order, with the payload bytes written.", "quantifier": "every writer program", "why_tests_cant": "Composition of two unbounded behaviours.", "anchors": ["write.go", "read.go"]}
{"id": "C33", "title": "Writer never damages finished data", "statement": "At every point of every Writer program on an initially positioned-at-end file whose boxes with an 8-byte header stay below 4 GiB, and whatever writes fail, all bytes of already closed boxes and of data before the first box are intact; a failing or abandoned program leaves every completed box readable.", "quantifier": "every prefix (crash point) of every program", "why_tests_cant": "All crash points.", "anchors": ["write.go: EndBox"]}
{"id": "C34", "title": "EndBox on a box that outgrew its header", "statement": "If a box opened with an 8-byte header grows beyond 4 GiB, EndBox returns an error and leaves the bytes already written unchanged.", "quantifier": "every payload longer than 2^32-9 bytes", "why_tests_cant": "No test writes 4 GiB.", "anchors": ["write.go: EndBox", "box_info.go: WriteBoxInfo"]}
{"id": "C35", "title": "CopyBox copies the box verbatim", "statement": "CopyBox appends exactly the Size bytes of the source box to the destination or returns an error when they are not available.", "quantifier": "every source stream and BoxInfo", "why_tests_cant": "All sizes, including sizes beyond the stream and above 2^63.", "anchors": ["write.go: CopyBox"]}
{"id": "C36", "title": "Track samples follow stts, ctts and stsz", "statement": "Probe reports for each track one sample per unit of the stts counts with the delta of its run, composition offsets run-length expanded from ctts (zero beyond it), and sizes from stsz.", "quantifier": "every sample table", "why_tests_cant": "All run-length tables.", "anchors": ["probe.go: probeTrak"]}
{"id": "C37", "title": "Chunks follow stco/co64 and stsc", "statement": "Probe reports one chunk per stco/co64 entry with that offset and the samples-per-chunk of the last stsc entry whose FirstChunk does not exceed it (for strictly increasing FirstChunk starting at 1); no stsc table makes it panic.", "quantifier": "every chunk table", "why_tests_cant": "All tables, including malformed ones.", "anchors": ["probe.go: probeTrak"]}
{"id": "C38", "title": "Segment summary of a moof", "statement": "Probe's segment duration and size are the sums (mod 2^32) of the per-sample or default values of the last trun, and CompositionTimeOffset is the minimum over its samples of decode time plus composition offset.", "quantifier": "every trun/tfhd", "why_tests_cant": "All entry lists.", "anchors": ["probe.go: probeMoof"]}
{"id": "C39", "title": "Average bitrate", "statement": "Samples.GetBitrate and Segments.GetBitrate return floor(8*total size*timescale/total duration), or 0 when the total duration is 0, whenever 8*total size*timescale and the total duration are below 2^64.", "quantifier": "every sample/segment list and timescale", "why_tests_cant": "All lists.", "anchors": ["probe.go: Samples.GetBitrate, Segments.GetBitrate"]}
{"id": "C40", "title": "Peak bitrate never panics and is the maximum over windows", "statement": "Samples.GetMaxBitrate returns, for every sample list, timescale and window length, the maximum over the sliding windows it defines, without panicking; Segments.GetMaxBitrate returns the maximum over the track's segments with non-zero duration.", "quantifier": "every list, timescale and window", "why_tests_cant": "All lists, including zero durations.", "anchors": ["probe.go: GetMaxBitrate"]}
{"id": "C41", "title": "FindIDRFrames finds the samples with an IDR NAL unit", "statement": "FindIDRFrames returns, in increasing order, exactly the indices of the samples containing a NAL unit of type 5, and terminates on every input.", "quantifier": "every sample layout and file content", "why_tests_cant": "All contents; termination.", "anchors": ["probe.go: FindIDRFrames"]}
{"id": "C42", "title": "AAC profile detection", "statement": "detectAACProfile is total on every esds box, never reads past the decoder specific info without reporting an error, and returns (0x40, 29) / (0x40, 5) / (0x40, AOT) exactly according to the explicit backward-compatible SBR/PS signalling syntax.", "quantifier": "every decoder configuration byte string", "why_tests_cant": "All byte strings.", "anchors": ["probe.go: detectAACProfile"]}
{"id": "C43", "title": "FastStart", "statement": "Probe reports FastStart exactly when the last moov box precedes every mdat box.", "quantifier": "every sequence of top-level boxes", "why_tests_cant": "All orders of boxes.", "anchors": ["probe.go: Probe"]}
{"id": "C44", "title": "Compatible brands behave as a set", "statement": "After AddCompatibleBrand the brand is present and no other membership changed; adding a present brand changes nothing; after RemoveCompatibleBrand it is absent and all other brands keep their multiplicity.", "quantifier": "every brand list and brand", "why_tests_cant": "All lists.", "anchors": ["box_types_iso14496_12.go: Ftyp.AddCompatibleBrand, RemoveCompatibleBrand, HasCompatibleBrand"]}
{"id": "C45", "title": "Full box flags behave as a 24-bit set", "statement": "GetFlags returns the low 24 bits of the last SetFlags; AddFlag/RemoveFlag set/clear exactly the given bits; CheckFlag reports whether any given bit is set.", "quantifier": "all 2^24 x 2^32 flag combinations", "why_tests_cant": "2^56 combinations.", "anchors": ["box.go: FullBox"]}
{"id": "C46", "title": "Version-dependent accessors", "statement": "For every box decoded by Unmarshal, GetDuration, GetCreationTime, GetMediaTime, GetSampleOffset etc. return the value stored in the payload for the box's version.", "quantifier": "every payload of the versioned boxes", "why_tests_cant": "All values and versions.", "anchors": ["box_types_iso14496_12.go: Get* accessors"]}
{"id": "C47", "title": "Handler names round trip", "statement": "For every hdlr payload produced by a QuickTime writer (counted string) or an ISO writer (NUL-terminated), Unmarshal returns the name that was written.", "quantifier": "every name and both encodings", "why_tests_cant": "All names, including 255-byte counted strings.", "anchors": ["box_types_iso14496_12.go: Hdlr.OnReadName"]}
{"id": "C48", "title": "Stringify prints every visible enabled field once and escapes strings", "statement": "Stringify terminates without panic for every decoded box and prints, in field order, each visible enabled field exactly once as name=value; with indentation each field stands on its own line. In printed strings every character that is not graphic is replaced by a point, so that no control character of the file reaches the output.", "quantifier": "all byte strings, box types and contexts that decode, all indentations, all predicates for graphic characters", "why_tests_cant": "All values.", "anchors": ["string.go: Stringify"]}
{"id": "C49", "title": "edit without options is the identity", "statement": "mp4tool edit with no options reproduces its input byte for byte when every supported box in it is plain and completely consumed by its definition.", "quantifier": "every such file", "why_tests_cant": "All trees.", "anchors": ["cmd/mp4tool/internal/edit/edit.go: editFile"]}
{"id": "C50", "title": "Boxes have the layout that the specifications prescribe", "statement": "For every registered box type, the payload that Marshal writes for a well-formed value, and the payload that Unmarshal consumed for a decoded value of a type without strings, is the sequence of fields in the syntax table of the file format specification (ISO/IEC 14496-12/-14/-15/-30, 23001-7, 23003-5, AV1/VP9/Opus/AC-3 bindings, QuickTime, 3GPP): each present field, under the table's version/flags conditions, big-endian in the table's width, repeated as often as the table's count says. Conversely a payload that the table gives for a well-formed value, with or without strings, is read as that value, and what the table gives for any decoded value is read as that value again.", "quantifier": "every row of the tables, every value / every accepted payload, every context, version and flags", "why_tests_cant": "All versions, flags, counts and values of about 150 registrations; tests compare the package with expectations derived from the package.", "anchors": ["box_types_*.go: struct tags", "marshaller.go: Marshal, Unmarshal", "box_types_iso14496_12.go:729-730 (hvcC)"]}
{"id": "C51", "title": "Reading does not panic on any input", "statement": "Unmarshal, ReadBoxStructure, ExtractBoxes, ExtractBoxesWithPayload, Probe and FindIDRFrames return a value or an error or keep running, but never panic, whatever the bytes of the stream: no index out of range, no failed type assertion, no nil dereference, no absurd allocation.", "quantifier": "all byte sequences shorter than 2^48 bytes, all box types, sizes, contexts and positions, all handlers, all paths, all parents whose header lies in the data, all tracks", "why_tests_cant": "A panic needs one malformed combination of sizes, counts, versions and flags among unboundedly many files; fuzzing only samples them.", "anchors": ["probe.go:106-609", "extract.go:13-98", "read.go:37-199", "marshaller.go:277-660", "box_types_iso14496_12.go:223-232"]}
{"id": "C52", "title": "mp4tool extract prints exactly the boxes of the type", "statement": "On a file that is a tree of boxes, `mp4tool extract TYPE` prints the bytes of all boxes of the type, header included, in file order, and nothing else; it looks for them in every box it goes into: the boxes of registered type and version, except big boxes (256 bytes and more) of 16 types that never contain boxes. If the tree has no boxes in other boxes, that is every box of the type in the file. On no input does the command panic.", "quantifier": "all box trees, all types, all bytes shorter than 2^48 for the absence of panics", "why_tests_cant": "Nesting, box types and sizes are unbounded; the tests look at the size of four outputs.", "anchors": ["cmd/mp4tool/internal/extract/extract.go:43-81", "cmd/mp4tool/internal/util/util.go"]}
{"id": "C53", "title": "mp4tool dump prints one line for each box", "statement": "On a file that is a tree of boxes, `mp4tool dump` prints for each box it reaches one line: indentation by depth, type in brackets, a mark for unregistered types and versions, offset if asked, size, and the fields, or the bytes for types whose bytes are asked for, or a hint how to see what has been left out (mdat, free, unregistered boxes, lines that would not fit the terminal). It goes into the boxes of registered type and version, except big ones of types without boxes and those given with -full.", "quantifier": "all box trees, all lists of types for -full, all combinations of -a, -mdat, -free, -offset, -hex, all terminal widths", "why_tests_cant": "The line depends on type, version, sizes, options and depth at once; the tests compare four dumps of one file.", "anchors": ["cmd/mp4tool/internal/dump/dump.go:78-236"]}
{"id": "C54", "title": "mp4tool psshdump reports every pssh box", "statement": "On a file that is a tree of boxes, `mp4tool psshdump` prints a numbered report for each pssh box in a moov or moof box at the top level, in file order: offset, size, version, flags, system ID in UUID form and size of the data as they stand in the payload (behind the key IDs from version 1 on), and the base64 encoding of the whole box.", "quantifier": "all box trees, any number of pssh boxes, all payloads with fewer than 2^32 - 1 key IDs, sizes below 2^48", "why_tests_cant": "Positions, key ID counts and payload lengths are unbounded; the tests look at one box in two files.", "anchors": ["cmd/mp4tool/internal/psshdump/psshdump.go:28-76"]}
{"id": "C55", "title": "The commands dump and psshdump do not panic", "statement": "`mp4tool dump` and `mp4tool psshdump` end with an output or an error, or keep running, but do not panic, whatever the bytes of the file.", "quantifier": "all byte sequences shorter than 2^48, all options", "why_tests_cant": "A panic needs a box whose declared size is absurd, at a place that the command visits.", "anchors": ["cmd/mp4tool/internal/dump/dump.go:170-236", "cmd/mp4tool/internal/psshdump/psshdump.go:56-62"]}
{"id": "C56", "title": "What Probe reports, from the boxes of the file", "statement": "On a file that is a tree of boxes, a successful Probe reports: brands and minor version of the last ftyp box; timescale and duration of the last mvhd box; for each trak box in moov, in order, a track with the ID of its tkhd, timescale and duration of its mdhd, edits of its elst, samples from stts, ctts and stsz, chunks from stco or else co64 and stsc, the codec by the type of its last sample entry avc1, encv, mp4a or enca, encrypted exactly if there is an encv or enca entry, AVC configuration and picture size from avcC and avc1, AAC profile and channels from esds (also in wave) and mp4a or enca; for each moof box, in order, a segment from its traf. Boxes of these types elsewhere do not matter.", "quantifier": "all box trees shorter than 2^62 bytes whose boxes on the way can be decoded, any number of tracks and fragments", "why_tests_cant": "The report depends on which boxes are where, how often, and in which order; the tests look at a handful of files.", "anchors": ["probe.go:106-172", "probe.go:181-368", "probe.go:489-567"]}
{"id": "C57", "title": "mp4tool probe", "statement": "The probe command reports brands, FastStart, timescale and duration of the movie and, for each track that Probe finds, in order: ID, timescale, duration, encryption, picture size, numbers of samples and chunks, the codec string (avc1.PPCCLL, mp4a.OO.A in upper-case hexadecimal and decimal, or a plain name when the numbers are unknown), the number of samples with an IDR slice, and average and peak bitrate from the samples, or from the track's segments when one of the former is 0. It does not panic, and it prints a report for every file that Probe accepts.", "quantifier": "all box trees shorter than 2^62 bytes whose boxes on the way can be decoded; for panics, all inputs shorter than 2^48 bytes", "why_tests_cant": "The tests compare the output for one file; zero durations, missing movie headers and other codecs are not tried.", "anchors": ["cmd/mp4tool/internal/probe/probe.go:43-54", "cmd/mp4tool/internal/probe/probe.go:85-154"]}
{"id": "C58", "title": "mp4tool divide", "statement": "When the divide command succeeds, the output directory holds, for each track of a known kind (avc1, mp4a, encv, enca): init.mp4 with the boxes ftyp, pssh, mvhd, mvex, udta, sidx and moov of the file in order, moov without the other tracks and with the size that results; one numbered file for each fragment of the track (its moof box and the mdat boxes up to the next moof box, byte for byte), in order; a playlist with the duration of each fragment from the sample durations of its trun box. The master playlist names the audio and the video directory, the picture size and the highest rate of an mdat box. There are no other files, and the result does not depend on the order of Go maps. It succeeds if each box is of a type it knows at its level, each trak has one tkhd and one mdia/mdhd, each moof one traf/tfhd and a traf/trun, all of which can be decoded, no track has the ID 2^32-1 and nothing follows the last box in moov.", "quantifier": "all box trees shorter than 2^62 bytes whose boxes on the way can be decoded, in which no two tracks of known kinds share an ID or a kind; all map orders", "why_tests_cant": "The command has no tests.", "anchors": ["cmd/mp4tool/internal/divide/divide.go:67-357", "cmd/mp4tool/internal/divide/divide.go:359-434"]}
{"id": "C59", "title": "Reading does not depend on how the reader delivers its data", "statement": "Whatever an io.ReadSeeker does within the contract of io.Reader (short reads, io.EOF along with the last byte or with the next call, calls that deliver nothing), the read operations that the package uses - bitio ReadBits, io.ReadFull, io.CopyN, util.ReadString, Seek - return what they return on an in-memory reader, for every sequence of calls chosen from the replies to the earlier ones; and so Unmarshal, UnmarshalAny, ReadBoxInfo, ReadBoxStructure with any handler, ReadBoxStructureFromInternal, ExtractBoxes(WithPayload), Probe and FindIDRFrames give the same result and leave the stream at the same place. On no reader within the contract does an operation succeed with a wrong result: it gives the result it gives in memory, or an error, or keeps calling a reader that keeps delivering nothing.", "quantifier": "every data, every behaviour of the reader allowed by io.Reader, every adaptive sequence of calls; every box definition, registry, destination, size, context, handler, path list", "why_tests_cant": "The tests read from bytes.Reader and os.File, which never split, never return data together with io.EOF and never return empty-handed; the number of possible splits is exponential.", "anchors": ["internal/bitio/read.go:31-97", "internal/util/io.go:8-22", "marshaller.go:448", "box_info.go:114,138", "marshaller.go:277-660", "read.go:37-199", "extract.go:17-98", "probe.go:106-609"]}
{"id": "C60", "title": "Unmarshal into a box that has been used before", "statement": "Unmarshal into a box with any content ends as Unmarshal of the same payload into a fresh box: same error, or the same number of bytes read and the same reader position. Every field that the payload contains then holds the same value as in the fresh box; every field that it does not contain keeps the value it had. What Unmarshal leaves is again a content for which this holds.", "quantifier": "every registered box type, context, payload, payload size, position, and every earlier content of the box", "why_tests_cant": "The tests always decode into a fresh box. Whether an old value leaks into the reading of a later field depends on pairs of payloads of one type, version and flags included.", "anchors": ["marshaller.go:286-331", "marshaller.go:359-475", "box_types_iso14496_12.go:1550-1700", "box.go:71-140"]}
{"id": "C61", "title": "Numbers in the HLS playlists of mp4tool divide", "statement": "In a playlist that divide writes, TARGETDURATION is exactly the smallest whole number of seconds that no fragment exceeds; each EXTINF is the duration of the fragment with six decimals, less than a millionth of a second from the quotient of duration and timescale (exact if the quotient has six decimals), and never above TARGETDURATION, as HLS demands. BANDWIDTH in the master playlist is the highest rate of an mdat box rounded down, but for a relative error of 2^-51. All of this in IEEE 754 double precision with the roundings Go does.", "quantifier": "all durations below 2^32, all timescales from 1 to 2^32-1, all lists of fragments; all files of C58; rates below 2^63", "why_tests_cant": "There are 2^64 pairs of a duration and a timescale, and an error of a single rounding shows only for quotients next to a whole number. The command has no tests.", "anchors": ["cmd/mp4tool/internal/divide/divide.go:303-306", "cmd/mp4tool/internal/divide/divide.go:313-317", "cmd/mp4tool/internal/divide/divide.go:403-434"]}
{"id": "C62", "title": "A box that was read is the same after being written and read once more", "statement": "If Unmarshal accepts a payload, of any registered type, then Marshal accepts the resulting box, and Unmarshal of what Marshal wrote, put anywhere in any stream, gives that box again and consumes all of it. This includes payloads that are not canonical: bytes left over at the end, strings ended by the end of the box, sizes with needless groups, counted handler names, QuickTime meta boxes. Also, the consumed bytes alone determine the box: announcing any size between what was consumed and what was announced, whatever follows, changes nothing.", "quantifier": "all payloads, contexts and positions, all registered box types, all streams around the rewritten payload", "why_tests_cant": "The unit tests write and read canonical payloads only. The payloads that are accepted without being canonical are unbounded in number and kind, and rewriting files (mp4tool edit) depends on all of them.", "anchors": ["marshaller.go:46-275", "marshaller.go:277-660", "box_types_iso14496_12.go:419-464", "box_types_iso14496_12.go:626-660", "box_types_iso14496_12.go:896-920"]}
{"id": "C63", "title": "edit without options keeps the contents of every box", "statement": "mp4tool edit without options, on a well-formed file all of whose boxes can be decoded, canonical or not (strings ended by the end of the box, counted handler names, descriptor sizes with fewer or more groups than four, QuickTime meta boxes, stray bytes in QuickTime files), succeeds and writes a well-formed file with the same boxes in the same order and nesting, each decoded by the same definition to the same structure; unsupported boxes and mdat are unchanged. Running it once more on its output changes nothing.", "quantifier": "all well-formed files below 2^45 bytes whose boxes decode to rewritable values and whose rewritten boxes fit their size fields", "why_tests_cant": "The files of the test-suite are canonical; nothing compares the contents of what edit writes with what it read, and the encodings that are accepted but not reproduced are unbounded in number and combination.", "anchors": ["cmd/mp4tool/internal/edit/edit.go:66-127", "marshaller.go:46-660", "box_types_iso14496_12.go:626-660"]}
{"id": "C64", "title": "edit with options changes what it is asked to change and nothing else", "statement": "mp4tool edit with any decode time and any list of types to drop, on a well-formed file all of whose other boxes can be decoded, canonical or not, writes a well-formed file in which the boxes of the named types are gone with all that was in them, the decode time of every tfdt box is the new one in as many bytes as before, and every other box is copied byte for byte or is decoded by the same definition to the same structure, in the same order and nesting. A second run with the same options writes the same bytes again.", "quantifier": "all decode times and lists of types without ftyp and keys, all well-formed files below 2^45 bytes whose boxes decode to rewritable values and whose rewritten boxes fit their size fields", "why_tests_cant": "There is no test of edit. All files, all combinations of options, all non-canonical encodings.", "anchors": ["cmd/mp4tool/internal/edit/edit.go:66-127", "marshaller.go:46-660"]}
{"id": "C65", "title": "An error of the reader reaches the caller, and nothing else changes", "statement": "On a reader whose calls of Read may fail with an error other than io.EOF, along with none, some or all of the bytes asked for, each of Unmarshal, UnmarshalAny, ReadBoxInfo, ReadBoxStructure, ReadBoxStructureFromInternal (with handlers that return the error when they are given it), ExtractBoxes, ExtractBoxesWithPayload, Probe, FindIDRFrames and the traversal of mp4tool dump returns that very error, and then one of the calls it made did fail, or returns the result and leaves the stream at the place it has on a reader that never fails: no failure is swallowed in a way that changes a result, turned into another error, or taken for the end of the file.", "quantifier": "all data, all ways of splitting it over the calls of Read (at least a byte per call that does not fail), all sets of failing calls, all errors other than io.EOF, all registries, structs, handlers, paths and tracks", "why_tests_cant": "The tests read from bytes.Reader, which does not fail. All places where a failure can happen, for all files.", "anchors": ["internal/bitio/read.go:31-73", "internal/util/io.go:8-22", "marshaller.go:277-660", "box_info.go:102-150", "read.go:37-199", "extract.go:17-89", "probe.go:106-609"]}
{"id": "C66", "title": "The command line asks for one thing, which is done, and the exit code says whether it succeeded", "statement": "mp4tool reads its arguments as follows. The first names the command, after \"alpha\" the second. For dump, probe, extract and edit come options, each with one or two minus signs: a switch alone or with = and one of the words for true and false, a setting with its text after = or as the next argument; they end at the first argument that is no option, or with --. The last occurrence of an option counts. The number for edit is decimal, or in base 2, 8 or 16 after a prefix, with underscores between digits, and below 2^64. Every list of arguments that can be read this way can be read in one way only, and the command does what it asks for: with enough operands (and a box type of four bytes for extract) the operation of the command with these values, else nothing and exit code 1; with -h or -help, nothing. Any other list of arguments ends with exit code 2 and nothing is printed to standard output or created. If the input cannot be opened, the exit code is 1 and nothing is printed or created; otherwise the exit code is 0 exactly if the operation returned no error, 1 exactly if it returned one, and 2 exactly if it panicked.", "quantifier": "all lists of arguments, all contents of the file system, all files", "why_tests_cant": "The tests never run main or a Main function. All spellings and orders of the options, and all numbers.", "anchors": ["cmd/mp4tool/main.go:15-57", "cmd/mp4tool/internal/dump/dump.go:31-76", "cmd/mp4tool/internal/psshdump/psshdump.go:13-24", "cmd/mp4tool/internal/probe/probe.go:15-56", "cmd/mp4tool/internal/extract/extract.go:19-54", "cmd/mp4tool/internal/edit/edit.go:38-76", "cmd/mp4tool/internal/divide/divide.go:26-37"]}
{"id": "C67", "title": "The commands edit, dump and extract, run from the command line, give what the options ask for", "statement": "On a well-formed file, mp4tool alpha edit ends with exit code 0 and the file it creates holds the boxes of the input without those named after -drop, every tfdt box carrying the time after -base_media_decode_time if that option is given, whatever that number below 2^64 is and whatever the two paths are; mp4tool dump prints one line for every box it looks at, in the style that the options ask for, and extract prints the boxes of the given type, both with exit code 0.", "quantifier": "all well-formed files that the commands can read, all spellings of the options, all paths", "why_tests_cant": "The tests never run these commands. All files, options and paths.", "anchors": ["cmd/mp4tool/internal/edit/edit.go:38-127", "cmd/mp4tool/internal/dump/dump.go:31-76", "cmd/mp4tool/internal/extract/extract.go:19-54"]}
{"id": "C68", "title": "What has been read can be marshalled without a panic, and edit does not panic", "statement": "Marshal of a box that Unmarshal has read returns a number of bytes or an error, whatever the bytes it was read from and whatever the writer does; so `mp4tool alpha edit` ends with success or an error (or keeps running), but does not panic, whatever the bytes of the file and the options. The same holds, from the command line, for extract and for dump without -full, -a, -mdat and -free.", "quantifier": "all byte sequences shorter than 2^48 (2^62 for Marshal), all box types, contexts, failing writers, options and command lines", "why_tests_cant": "Marshal dereferences pointers and asks methods for sizes and lengths; whether they are in order depends on the tags, versions and flags of any file that is read, and EndBox panics unless every box has been started.", "anchors": ["marshaller.go:46-251", "cmd/mp4tool/internal/edit/edit.go:66-127", "write.go:27-56"]}
{"id": "C69", "title": "A Seek that fails makes the operation fail", "statement": "On a reader whose calls of Read and of Seek may fail, with errors other than io.EOF, and whose failing Seek leaves the stream anywhere, each of Unmarshal, UnmarshalAny, ReadBoxInfo, ReadBoxStructure, ReadBoxStructureFromInternal (with handlers that return the errors they are given), ExtractBoxes, ExtractBoxesWithPayload, Probe and FindIDRFrames fails, with the error of Read, the error of Seek, \"not enough bits\" or ErrUnsupportedBoxVersion, and then one of the calls it made did fail; or it returns the result and leaves the stream at the place it has on a reader that never fails. With a handler that goes on after ErrUnsupportedBoxVersion, such as that of mp4tool dump, ReadBoxStructure fails with one of the other three errors after a call failed, or it has the result and the state (for dump, the text printed) that it has on a reader that never fails. The error of Seek itself is not always returned: readerHasSize drops it, and a payload that is complete is then reported not to have enough bits; and a Seek that fails with io.EOF can make ReadBoxStructure succeed without the rest of the file.", "quantifier": "all data, all ways of splitting it over the calls of Read, all sets of failing calls, all errors other than io.EOF, all places where a failing Seek leaves the stream, all registries, structs, handlers, paths and tracks", "why_tests_cant": "The tests read from bytes.Reader, whose Seek does not fail at the places the package seeks to. All places where a failure can happen, for all files.", "anchors": ["marshaller.go:20-37", "marshaller.go:286-332", "marshaller.go:607-643", "internal/bitio/read.go:87-97", "box_types_iso14496_12.go:635-667", "box_types_iso14496_12.go:892-920", "box_info.go:102-162", "read.go:37-199", "extract.go:17-89", "probe.go:106-609", "cmd/mp4tool/internal/dump/dump.go:96-178"]}
{"id": "C70", "title": "The commands fail when the file they read fails", "statement": "When a call of Read on the input fails with an error that is not io.EOF, mp4tool edit, divide, extract and psshdump return that error, and a call did fail; or they return what they return for the contents of the file and, if this is success, have written exactly the same output (for divide, the same files). The report that mp4tool probe builds is likewise that of the contents, or the error. For edit, divide, psshdump and probe a Seek that fails does not go unnoticed either: they return the error of Read, the error of Seek, \"not enough bits\" or ErrUnsupportedBoxVersion. For extract this is not so: it ignores the error of SeekToStart, and can then print bytes that are not the box and succeed.", "quantifier": "all files of less than 2^63 bytes, all ways of splitting them over the calls of Read, all sets of failing calls, all errors other than io.EOF (and, for extract, ErrUnsupportedBoxVersion), all places where a failing Seek leaves the stream, all options of edit, all box types, all orders in which divide visits its maps", "why_tests_cant": "The tests run the commands on files that can be read. A truncated or damaged copy that is reported as a success needs a failure at one particular call.", "anchors": ["cmd/mp4tool/internal/edit/edit.go:66-127", "cmd/mp4tool/internal/extract/extract.go:56-77", "cmd/mp4tool/internal/psshdump/psshdump.go:28-76", "cmd/mp4tool/internal/probe/probe.go:85-154", "cmd/mp4tool/internal/divide/divide.go:67-357"]}
{"id": "C71", "title": "mp4tool edit fails when its output fails", "statement": "When a call of Write on the output of mp4tool edit fails, edit returns an error. This holds for an output that, once it has failed, goes on failing: edit then returns nil only if it never made a call that fails, and the output is the one it writes when no call fails. It is false for an output that fails only where it has to grow (a full disk), or only now and then: Marshal drops the errors of the elements of a list, EndBox only overwrites a header that is there, and edit returns nil after writing a file that cannot be read.", "quantifier": "all files, all options of edit, all scripts of failing Write calls (for the part that holds: those where every call after the first failing one fails)", "why_tests_cant": "The tests write to a disk with room. The claim is about every call at which the output may start to fail, in any file.", "anchors": ["cmd/mp4tool/internal/edit/edit.go:66-127", "marshaller.go:135-157", "write.go:36-56", "internal/bitio/write.go:47-61"]}
{"id": "C72", "title": "divide notices a disk that fails", "statement": "When a call that creates a file, or one that writes to one or moves its position, fails, mp4tool divide returns an error, or all the files it leaves are those it writes when no call fails. This holds of the init.mp4 files and of the segments: when divide returns nil, each of them is exactly as on a disk without failures. It does not hold of the playlists, most lines of which are written with file.WriteString, whose error is not looked at: divide can return nil and leave a top playlist without #EXTM3U, or a playlist without #EXT-X-ENDLIST. When divide returns nil all playlists are there, and what they lack is at most the ends of texts that do not depend on the file: the durations and names of the segments, the target duration, the bandwidth and the resolution are always written.", "quantifier": "all files, all sets of failing calls of os.Create, Write and Seek and numbers of bytes written before a Write fails, all pieces in which payloads are copied, all orders in which divide visits its maps", "why_tests_cant": "The tests write to a disk that works. Finding the unnoticed calls means failing each call of each run in turn.", "anchors": ["cmd/mp4tool/internal/divide/divide.go:156-168", "cmd/mp4tool/internal/divide/divide.go:171-357", "cmd/mp4tool/internal/divide/divide.go:359-434"]}
{"id": "C73", "title": "A command that cannot print fails", "statement": "When a call of Write on the standard output fails, the command returns an error. This holds of mp4tool extract: no call failed, and it returns and has written what it does on an output that works; or it stopped at the first call that failed, returns the error, and has written a beginning of what it would have written. It is false of dump and of psshdump, which print with fmt.Println and fmt.Printf and do not look at the error: whichever calls fail, they return what they return when none does, and have printed what the calls have left of the lines, each of which is one call. On a full disk they print nothing and succeed.", "quantifier": "all files, box types and options, all scripts of failing Write calls (for each call, whether it fails and after how many bytes), all ways in which the copy of extract is cut into calls", "why_tests_cant": "The tests replace os.Stdout by a pipe or a buffer that works; failing each call of each run in turn is not enumerable.", "anchors": ["cmd/mp4tool/internal/extract/extract.go:55-77", "cmd/mp4tool/internal/dump/dump.go:97-179", "cmd/mp4tool/internal/psshdump/psshdump.go:28-76"]}
{"id": "C74", "title": "The Writer reports every failure of its destination", "statement": "Whichever calls of Write and Seek on the destination fail, and however many bytes a failing Write has written: when a sequence of calls of StartBox, Write, CopyBox and EndBox returns no error, none of the calls they made on the destination has failed, and results, file, position and open boxes are those of a run without failures; a well-nested sequence then has written its tree (C31). When one of them returns an error, the data from before and every box closed by then are intact, and ReadBoxInfo returns for each of these boxes what EndBox returned.", "quantifier": "all sequences of calls on any file, all scripts of failing Write and Seek calls, all pieces in which CopyBox copies; for what is intact after an error: files positioned at their end, boxes with an 8-byte header below 4 GiB, below 2^62 bytes in all", "why_tests_cant": "The tests write to a buffer that never fails. Each of the calls inside each method can fail, after any number of bytes; EndBox alone makes five.", "anchors": ["write.go:19-68", "box_info.go:66-99"]}
