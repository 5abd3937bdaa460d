# Formal model of go-mp4 in Rocq: design

Source under study: `/repo` (abema/go-mp4, Go), read as text, never built or run.

## 1. Approach

* Plain Gallina over the Coq 8.16.1 standard library.
* The *model* transcribes the Go code function by function. Every definition cites
  file and lines. Where it simplifies, the comment beside it says so.
* The *specifications* (`Spec*.v`, and short definitions at the head of some
  `Prop*.v`) say what the format or the API promises without the helpers of the
  model: bit strings, header grammar, box trees and their serialisation, syntax
  tables of the standards, run-length expansion, sets, windows, printed text.
* *Proof* files (`*Proofs.v`, `*Facts.v`, and files named after what they prove)
  relate the two. `Prop*.v` hold the theorems of `properties.jsonl`, each followed
  by `Print Assumptions` and by an `Example` in which a concrete case meets its
  hypotheses.
* A claim of the source that is true only in part has a theorem `…_partial`, and,
  where the full claim is false of the model, a theorem `…_refuted` with a witness.

### Conventions of the model

* `byte` is `Ascii.ascii`. A stream is a `list byte` with a position in `N`.
  Go integers are `N` or `Z` with an explicit `mod 2^w` where the code can wrap.
* A Go call returns `Ok x | Err e | Panic | OutOfFuel`. Loops with a count from
  the data run by binary recursion on the count with early exit. Other loops take
  fuel computed from the input; theorems exclude `OutOfFuel` or prove that it does
  not occur. A `_refuted` theorem about divergence shows the loop running for
  every amount of fuel.
* Go struct types are transcribed by `tools/gen_structs.py` into `Structs.v` as data
  (name, Go type, tag string). The tag parser and the field compiler (`field.go`)
  are modelled and run on that data.
* Box-specific methods (`GetFieldSize`, `GetFieldLength`, `IsOptFieldEnabled`,
  `OnReadField`, `OnWriteField`, `BeforeUnmarshal`, `StringifyField`) are
  transcribed by hand, selected by struct name and field name.
* A handler given to `ReadBoxStructure` is an arbitrary *program*: a tree of the
  operations the API offers (ReadPayload, ReadData, Expand, moves of the stream,
  return a value or an error), with arbitrary state and arbitrary reactions.

## 2. Trusted base

* Coq 8.16.1's kernel (`coqc`, and `coqchk` in the check of the commit).
* Axioms: none. `Print Assumptions` answers "Closed under the global context" for
  every theorem named in `MANIFEST.json`. (Axioms of the ssreflect part of the
  standard library that `coqchk` lists come with a `Require`; no theorem uses them.)
* The transcription from Go into Gallina. It is checked, not proved, by running
  the model on the test vectors of the project: `Vectors.v` (136 payloads) and
  `RepoVectors.v` (138 payloads with the text Stringify prints); and, outside the
  build, the expected outputs of the tests of the commands and of Probe (`validation/`).
* The contracts of Go's library that the model states: `io.ReadFull`, `io.CopyN`,
  `Seek` on an in-memory stream; `sort.SliceStable` as a stable sort; `strconv`, `fmt`, `strings.Map`, `unicode/utf8` as in
  `GoText.v`; `int` and `uint` have 64 bits. `unicode.IsGraphic` is an arbitrary
  predicate.
* The specifications themselves, in particular the syntax tables of `SpecTables.v`
  and the byte offsets of `SpecAccessors.v`, typed in from the standards.

### What is modelled

| Go source | model | remarks |
|---|---|---|
| internal/bitio/*.go | `BitIO.v`, `Stream.v` | `BitIO.v`: stream fails only at its end and fills every buffer; `Stream.v`: readers that deliver piecemeal (C59), on which `AnyReader.v` runs the reading side of the package; `Failing.v`: readers whose Read fails (C65), and whose Seek fails too (C69); write faults in C15, C33 |
| internal/util/io.go | `Marshal.v`, `Unmarshal.v`, `Stream.v` | |
| internal/util/string.go | `Stringify.v` | floats are exact quotients |
| field.go | `Schema.v` | reflection is replaced by the compiled descriptors; a tag with two numeric keys: first taken |
| mp4.go, anytype.go | `Registry.v`, `Text.v` | registration predicates: those the package uses |
| box.go | `Registry.v`, `Methods.v`, `BoxMethods.v` | |
| box_types_*.go: structs, registrations | `Structs.v` (generated) | all of them |
| box_types_*.go: methods of the codec | `Methods.v`, `Marshal.v`, `Unmarshal.v` | all of them |
| box_types_*.go: accessors | `Accessors.v`, `Floats.v`, `BoxMethods.v` | floats are those of the standard library's `SpecFloat` (IEEE 754, round to nearest even) |
| box_types_*.go: StringifyField | `Stringify.v` | all of them |
| marshaller.go | `Marshal.v`, `Unmarshal.v` | most theorems: Unmarshal into a fresh box (UnmarshalAny); a box used before: C60 |
| box_info.go | `BoxInfo.v` | |
| read.go | `ReadTree.v` | |
| extract.go | `Extract.v` | |
| write.go | `Writer.v`, `WriterFaults.v` | `Writer.v`: Write may fail, Seek on the destination does not; `WriterFaults.v`: both may (C74) |
| probe.go | `Probe.v` | all of it; `ProbeFra` is an alias |
| string.go | `Stringify.v` | |
| cmd/mp4tool/internal/{util,extract,dump,psshdump} | `Tool.v`, `ToolReader.v`, `StdoutFaults.v` | the read cache left out; printing does not fail, but in `StdoutFaults.v` it may (C73); `ToolReader.v`: extract and psshdump on a reader that may fail (C70) |
| cmd/mp4tool/internal/probe | `ProbeTool.v` | the report, and whether JSON can encode it; `ToolReader.v`: on a reader that may fail (C70); float32 quotients are kept as pairs; the text of JSON and YAML is left out |
| cmd/mp4tool/internal/divide | `Divide.v`, `DivideReader.v`, `DivideFaults.v` | `DivideReader.v`: on a reader that may fail (C70), a copied payload is collected before it is written; `DivideFaults.v`: creating and writing files and Seek on them may fail (C72), in the other two they succeed; payloads are written in any pieces; what Close returns is not looked at in the code, and closing has no effect in the model; all: into an empty directory; the order of Go maps is a parameter; so are, in `Divide.v`, the results of floating point arithmetic |
| the float64 arithmetic of divide, %f, uint64(f), int(math.Ceil(f)) | `DivideFloats.v`, `Floats.v` | what Go leaves to the implementation (converting an infinity, NaN or a number that is too large to an integer) is a parameter |
| cmd/mp4tool/internal/edit | `Edit.v`, `ToolReader.v`, `EditFaults.v` | `Edit.v`: Marshal's output is written with one call; `ToolReader.v`: edit on a reader that may fail (C70); `EditFaults.v`: edit on an output that may fail, with every call Marshal makes (C71); a call of Marshal's that fails writes nothing |
| cmd/mp4tool/main.go, the Main functions, Go's flag.FlagSet.Parse, strconv.ParseBool and ParseUint | `Cli.v` | the text of usage and error messages is left out; opened files are regular files that can be read; the exit code of package flag after -help is a parameter |

Not modelled: buffering of the streams the commands use, errors of Seek on an output, how much of a copied box edit and mp4tool
extract have written when the reader fails in the middle of it, memory exhaustion, data races (the package starts no goroutine).

### Bounds in the theorems

Streams are shorter than 2^62 bytes (2^48 in C10 and C24): Go's offsets are
`int64`, and bit counts are `uint64`. There is no other bound on sizes, depths or
steps.

## 3. Properties and how they are proved

| id | files | method |
|---|---|---|
| C01, C02 | Base, BaseProofs, BitIOProofs, SpecBitIO, BitIOFacts, PropBitIO, PropSeek | invariant: written bits = emitted bytes ++ pending bits |
| C03–C05 | SpecHeader, HeaderProofs, PropHeader, PropHeaderExact | header grammar as a relation; codec and splice lemmas |
| C06, C08 | SpecCodec, MarshalProofs, MarshalCount, PropMarshal | layout function by induction on the schema |
| C07 | SpecRoundTrip, Causal, RoundTripBase, RoundTripProofs, RoundTripMeta, PropRoundTrip | decoder over bits (`Decode.v`, proved equal to the model); a field's meaning depends only on earlier fields |
| C09–C11, C17 | Decode, UnmarshalProofs, DecodeFacts, VersionFacts, SpecTotal, Total, PropUnmarshal, PropTotal | the same decoder; static checks of all definitions by computation |
| C12 | Shape, SpecLossless, Lossless, PropLossless | converse of C07 for plain types |
| C13–C16 | SpecShort, SpecSize, SizeProofs, PropShort, PropSize, PropAnyCount, PropFaults, SgpdFacts, PropSgpd | inductions and witnesses |
| C13 (exact) | PropShortExact | without lists inside list elements, short lists are those of C13_short_list_partial; a value for each of the five other types |
| C36 (constant sizes) | PropConstantSize | a decoded stsz with a SampleSize lists no sizes |
| C15 (exact) | FaultsExactProofs, PropFaultsExact | where each field starts in its byte, so that byte lists start at whole bytes; sdtp: the bit writer never writes again after a failure and the bit count ends 6 mod 8; a value and a failing call for each of the 21 types with losses |
| C18–C20 | SpecFields, PropFields, PropLookup, PropBoxType | permutation and sortedness; registration history |
| C21, C22, C25–C28 | SpecTree, TreeProofs, PropTree, Flow, PropFlow, PropCut | traversal of bytes refines traversal of the tree, for all handler programs |
| C23, C24, C26 | SpecTrace, TraceProofs, PropTrace | trace relation on arbitrary bytes |
| C29, C30 | SpecExtract, PropExtract, PropExtractPayload | C21 with the extracting handler |
| C31–C35 | SpecWriter, WriterProofs, PropWriter, PropWriterSafe | file = serialised closed boxes ++ open headers |
| C36–C38, C43 | SpecProbe, ProbeProofs, ProbeFound, PropProbe | independent tables; C29 finds the boxes |
| C39, C40 | PropBitrate | sums, windows |
| C41 | SpecIdr, PropIdr, PropIdrAny | samples made of NAL units, then of anything, along the chain of unit lengths |
| C42 | PropAac | the signalling syntax as a parser |
| C44, C45 | PropBoxMethods | lists and bits |
| C46 | SpecAccessors, LocateFacts, AccessorProofs, PropAccessors, SpecFloats, FloatFacts, PropFixed | numbers at byte offsets |
| C47 | PropHdlr | exact reading of every hdlr payload |
| C48 | GoText, SpecStringify, Typed, StringifyProofs, StringifyText, PropStringify, PropOwnVersion | decoded boxes have values of their types; printing follows a tree of what is shown |
| C49 | SpecEdit, EditProofs, EditTime, PropEdit | C12, C21 and C31 together |
| C50 | SpecIso, IsoProofs, SpecTables, PropTables, PropTablesRead | tables compared with compiled tags by computation; strings through C07 and C62 |
| C51 | Total (the non-strict case), Flow, PropSafe | a condition kept by every step of the reading programs; state invariant of handlers |
| C52–C55 | SpecTool, ToolProofs, PropTool, PropPssh | C21 with handlers that print a text for each box and go into some; C29, C30 for psshdump; base64 as groups of 6 bits |
| C56 | SpecReport, PropReport | C29 and C30 locate the boxes of a track; then C36–C38 |
| C57 | SpecProbeTool, NumText, PropProbeTool | C56 for the tracks, C39–C41 for rates and IDR frames; numerals as lists of digits |
| C58 | SpecDivide, DivideProofs, DivideWalk, DivideTree, DivideRuns, PropDivide, PropDivideRuns | invariant of the track map and the files; the handler on each kind of box; success by a bound on the size of the init.mp4; C21, C29 and C30 |
| C59 | Stream, AnyReader, AnyReaderProofs, AnyReaderWeak, PropStream, PropAnyReader, PropNeverWrong | simulation of each read operation, up to the number of calls; the reading operations over an open set of reader operations, related to the model; on readers of any behaviour the same simulation up to giving up |
| C60 | SpecReuse, ReuseFacts, PropReuse | relation between two decodings of the same bits; which fields are known when one is read: by computation on all definitions |
| C61 | SpecPlaylist, FloatRound, FloatOps, PropPlaylist | rounding to nearest as a statement about integers; error bounds for conversion and division; a double cannot be on the other side of a whole number |
| C62 | SpecReencode, Truncate, Reencode, ReencodeBoxes, PropReencode | decoding only what was consumed (induction over schemas); a decoded value has a layout that is read back: by induction for schemas without hooks, field by field for hdlr and emsg; then C07 or C12 |
| C63 | Extend, SpecEditAgain, EditAgain, PropEditAgain | decoding with another size when at least four bytes are left over in both (induction over schemas); C62 for each box; induction over the tree, with the place of each box in both files |
| C64 | SpecEditAny, EditAny, PropEditAny, EditAnyTwice, PropEditAnyTwice | as C63, with lists of boxes for what became of a box; C49 for tfdt; the second run by the same induction, with the fields of tfdt decoded by hand |
| C65 | Failing, SpecFailing, FailingProofs, PropFailing | each read operation fails with the reader's error after a failed call, or equals that of C59; the relation is carried through the operations of AnyReader.v |
| C66 | Cli, SpecCli, CliProofs, PropCli | a grammar of command lines in SpecCli.v; the parser of flags accepts it and, by induction on the arguments, nothing else; likewise for numbers |
| C67 | PropCommands | C49, C52 and C53 after C66 |
| C68 | PropEditSafe (EditSafeProofs) | a decoded box is complete (Typed), a complete box marshals without panic; the stack of the Writer is the same before and after each box |
| C69 | Failing (`faulty_reader`), SpecFailing, FailingProofs, PropSeekFails; DriftProofs, PropSeekDump | as C65 with a set of errors in place of one; where the code drops an error of Seek (readerHasSize, Unmarshal on an unsupported version) the error it returns instead is in the set; for dump, which goes on after ErrUnsupportedBoxVersion, a weaker relation: the stream may be elsewhere, and everything a handler can do next seeks to a place of its own |
| C70 | ToolReader, DivideReader, SpecFailing (`fails_or_writes`), ToolReaderProofs, DivideReaderProofs, PropToolReader, PropDivideReader | the traversal with a handler that reads, against the one that is handed the contents: both fail by the reader, or stop with the same error, or are in the same state; extract with a Seek that fails is refuted |
| C71 | EditFaults, SpecEditFaults, EditFaultsProofs, PropEditFaults | the run against the one without failures: the same, or a call has failed and all that are left fail, so that EndBox fails; a full disk is a counterexample (`C71_edit_refuted`) |
| C72 | DivideFaults, SpecDivideFaults, DivideFaultsProofs, PropDivideFaults | the two traversals step by step: same state, or a call of the script fails and the result is not success; for the playlists a third comparison: equal but for the ends of fixed texts (`C72_playlists_partial`); that they are equal is refuted |
| C73 | StdoutFaults, SpecStdoutFaults, StdoutFaultsProofs, PropStdoutFaults | two traversals step by step, on an output that may fail and on one that does not: nothing lost, or given up with a beginning of the output; for dump and psshdump lines cut by the script; that they fail is refuted |
| C74 | WriterFaults, PropWriterFaults | a law for each operation: success means no call failed and the same result without failures; what is intact after an error: the file is one that C33's invariant allows |

## 4. What the proofs found in the code

Each of these is a `_refuted` theorem, or follows from a theorem as noted.

* WriteBoxInfo returns a Size that does not match what it wrote when HeaderSize
  changes; `C05_exact` says for exactly which values it does match. EndBox of a box that outgrew its 8-byte header has overwritten the
  first 8 bytes of its content when it reports the error (C34).
* A trun without per-sample fields and with SampleCount 0xffffffff makes Unmarshal
  loop (C10); any other count makes it allocate that many entries from 8 bytes (C14).
* marshalSlice drops errors of its elements: short inner lists (C13; possible in
  avcC, hvcC, sgpd, esds and keys, and in no other type: `C13_exact`) and failed
  writes (C15) go unnoticed. Failed writes can be lost for exactly 21 of the 156
  registrations (`C15_exact`).
* A reader that reports io.EOF along with the last byte makes ReadBits fail; a call
  of Read that delivers nothing makes util.ReadString repeat a byte (C59).
* Unmarshal into a used box keeps the old content of fields that the payload lacks.
  sgpd of version 2 then takes DefaultLength from the earlier box and misreads
  alternative startup entries (C60).
* sgpd with explicit description lengths can be written but not read (C16).
* A box with Size below its header, or one that ends beyond 2^64, makes the
  traversal loop or recurse for ever (C24); ReadData then returns a count near 2^64
  (C28).
* A partial header at the end of a file, or a top-level box cut short that the
  handler does not read, is not reported (C27).
* ExtractBoxesWithPayload decodes with the context of the parent (C30).
* Two box types print alike: {a9 "(c)", "(c)" a9} (C20).
* Probe ignores a constant stsz sample size (C36); GetMaxBitrate can divide by zero
  (C40); FindIDRFrames can loop for ever (C41); detectAACProfile does not skip
  GASpecificConfig (C42).
* Probe reports no AVC configuration and no picture size for encrypted video, though
  it looks for the avcC box in encv (C56).
* mp4tool probe panics on a track whose last sample has no duration, and prints an
  error instead of JSON when there is no mvhd box or a time scale is 0 (C57).
* mp4tool divide panics on a fragment without trun box, on an mdat, moof or mfra box
  inside moov, and on an mdat box before the fragments if a track has ID 2^32-1. Two
  tracks of the same kind overwrite each other, with a result that depends on the
  order of a Go map (C58). A fragment without duration makes BANDWIDTH depend on how
  the processor converts an infinity; a time scale of 0 puts +Inf or NaN in the
  playlist (C61).
* A counted QuickTime handler name of 255 bytes is misread (C47).
* Rewriting a file truncates a counted handler name at its first NUL, turns a
  QuickTime name that begins with its own length into another one, and drops the
  upper bits of a descriptor size of 2^28 or more (C62).
* Stringify prints the Version of dOps and of a numbered item as 0 (C48), and
  DEL for language letters of value 31.
* hvcC: wrong widths of numTemporalLayers and temporalIdNested (C50).
* sgpd: roll distances are read up to the end of the box, whatever entry_count says (C50).
* mp4tool dump -a (or -full) and psshdump allocate what the header of a box
  declares: files of 16 and 56 bytes make them panic (C55).
* mp4tool edit drops stray bytes at the end of QuickTime containers (C49_stray). With
  `-drop ftyp` the rest of a QuickTime file is read differently (C64).
* mp4tool edit with one file as INPUT and OUTPUT empties it and reports success, and
  `-base_media_decode_time 18446744073709551615` does nothing (C67).
* mp4tool extract ignores the error of SeekToStart: when it fails, bytes that are
  not the box are printed and the command succeeds (C70).
* mp4tool edit on a full disk can return success: Marshal drops the error of a list
  element, and EndBox overwrites a header that is already there. The file it has
  written cannot be read (C71).
* mp4tool divide ignores the errors of most calls that write its playlists: on a full
  disk it can return success and leave a playlist without `#EXT-X-ENDLIST` (C72).
* mp4tool dump and psshdump do not look at the errors of fmt.Println and fmt.Printf: on
  a full disk they print nothing and return success (C73).

## 5. Tests of the theorems

`seeded/LOG.jsonl` records wrong programs: an edit of the model like a realistic
bug, made in a copy outside this directory, and the theorems that no longer prove.
A theorem counts as failed if its proof, or one it depends on, breaks.
