(** The payload of the box types, transcribed from the specifications: the
    syntax of each class, with the field names of this package.  A row gives the
    box types, the Go struct that stands for them, and the table.

    Where a type is registered with different structs for different places in
    the file (cprt, gnre, name), each has its row. *)
From Verif Require Import Base Schema Registry SpecIso.
Local Open Scope string_scope.
Local Open Scope list_scope.
Local Open Scope N_scope.

Definition row := (list btype * string * table)%type.
Definition one (t name : string) (T : table) : row := ([bt t], name, T).
Definition apple (t : string) : btype := N2b 169 :: bt t.

(** *** ISO/IEC 14496-12: file structure *)
(** a box that only holds other boxes, or nothing *)
Definition containers : list row :=
  [ one "moov" "Moov" []; one "trak" "Trak" []; one "edts" "Edts" []; one "mdia" "Mdia" [];
    one "minf" "Minf" []; one "dinf" "Dinf" []; one "stbl" "Stbl" []; one "mvex" "Mvex" [];
    one "moof" "Moof" []; one "traf" "Traf" []; one "mfra" "Mfra" []; one "udta" "Udta" [];
    one "sinf" "Sinf" []; one "schi" "Schi" []; one "wave" "Wave" []; one "ilst" "Ilst" [];
    one "vttc" "VTTCueBox" []; one "vtte" "VTTEmptyCueBox" [];
    ([bt "----"; bt "aART"; bt "akID"; bt "apID"; bt "atID"; bt "cmID"; bt "cnID"; bt "covr"; bt "cpil";
      bt "cprt"; bt "desc"; bt "disk"; bt "egid"; bt "geID"; bt "gnre"; bt "pcst"; bt "pgap"; bt "plID";
      bt "purd"; bt "purl"; bt "rtng"; bt "sfID"; bt "soaa"; bt "soal"; bt "soar"; bt "soco"; bt "sonm";
      bt "sosn"; bt "stik"; bt "tmpo"; bt "trkn"; bt "tven"; bt "tves"; bt "tvnn"; bt "tvsh"; bt "tvsn";
      apple "ART"; apple "alb"; apple "cmt"; apple "com"; apple "day"; apple "gen"; apple "grp";
      apple "nam"; apple "too"; apple "wrt"], "IlstMetaContainer", []) ].

Definition fourcc : form := Times 4 (u 8).
(** 4.3 ftyp, 8.16.2 styp *)
Definition brands : table :=
  [ is "MajorBrand" fourcc; is "MinorVersion" (u 32);
    is "CompatibleBrands" (ToTheEnd (Group false [is "CompatibleBrand" fourcc])) ].
(** 8.1.1 mdat, 8.1.2 free and skip *)
Definition raw : table := [ is "Data" (ToTheEnd (u 8)) ].
Definition file_boxes : list row :=
  [ one "ftyp" "Ftyp" brands; one "styp" "Styp" brands;
    one "mdat" "Mdat" raw; one "free" "Free" raw; one "skip" "Skip" raw ].

(** *** ISO/IEC 14496-12: movie, track and media headers *)
Definition times : table :=
  [ v0 "CreationTimeV0" (u 32); v0 "ModificationTimeV0" (u 32);
    v1 "CreationTimeV1" (u 64); v1 "ModificationTimeV1" (u 64) ].
Definition duration : table := [ v0 "DurationV0" (u 32); v1 "DurationV1" (u 64) ].
Definition matrix : mcond * string * form := is "Matrix" (Times 9 (i 32)).
(** 8.2.2 *)
Definition mvhd : table :=
  FullBoxHeader :: times ++ is "Timescale" (u 32) :: duration ++
  [ is "Rate" (i 32); is "Volume" (i 16); is "Reserved" (i 16); is "Reserved2" (Times 2 (u 32));
    matrix; is "PreDefined" (Times 6 (i 32)); is "NextTrackID" (u 32) ].
(** 8.3.2 *)
Definition tkhd : table :=
  FullBoxHeader :: times ++ [ is "TrackID" (u 32); is "Reserved0" (u 32) ] ++ duration ++
  [ is "Reserved1" (Times 2 (u 32)); is "Layer" (i 16); is "AlternateGroup" (i 16); is "Volume" (i 16);
    is "Reserved2" (u 16); matrix; is "Width" (u 32); is "Height" (u 32) ].
(** 8.4.2: bit(1) pad, unsigned int(5)[3] language *)
Definition mdhd : table :=
  FullBoxHeader :: times ++ is "Timescale" (u 32) :: duration ++
  [ is "Pad" flag1; is "Language" (Times 3 (u 5)); is "PreDefined" (u 16) ].
(** 8.4.3 *)
Definition hdlr : table :=
  [ FullBoxHeader; is "PreDefined" (u 32); is "HandlerType" fourcc; is "Reserved" (Times 3 (u 32));
    is "Name" ZString ].
(** 8.4.5.2, 8.4.5.3 *)
Definition vmhd : table :=
  [ FullBoxHeader; is "Graphicsmode" (u 16); is "Opcolor" (Times 3 (u 16)) ].
Definition smhd : table := [ FullBoxHeader; is "Balance" (i 16); is "Reserved" (u 16) ].
(** 8.6.6 *)
Definition elst : table :=
  [ FullBoxHeader; is "EntryCount" (u 32);
    is "Entries" (Several (MField "EntryCount") (Group false
      [ v0 "SegmentDurationV0" (u 32); v0 "MediaTimeV0" (i 32);
        v1 "SegmentDurationV1" (u 64); v1 "MediaTimeV1" (i 64);
        is "MediaRateInteger" (i 16); is "MediaRateFraction" (i 16) ])) ].
(** 8.7.2: the strings are absent when the flag "self contained" is set *)
Definition self_contained : mcond := CFlag 1.
Definition url : table := [ FullBoxHeader; when (CNot self_contained) "Location" ZString ].
Definition urn : table :=
  [ FullBoxHeader; when (CNot self_contained) "Name" ZString; when (CNot self_contained) "Location" ZString ].
Definition counted : table := [ FullBoxHeader; is "EntryCount" (u 32) ].
Definition header_boxes : list row :=
  [ one "mvhd" "Mvhd" mvhd; one "tkhd" "Tkhd" tkhd; one "mdhd" "Mdhd" mdhd; one "hdlr" "Hdlr" hdlr;
    one "vmhd" "Vmhd" vmhd; one "smhd" "Smhd" smhd; one "elst" "Elst" elst;
    one "url " "Url" url; one "urn " "Urn" urn; one "dref" "Dref" counted; one "stsd" "Stsd" counted;
    one "meta" "Meta" [FullBoxHeader] ].

(** *** ISO/IEC 14496-12: sample tables *)
Definition entries (l : table) : mcond * string * form :=
  is "Entries" (Several (MField "EntryCount") (Group false l)).
(** 8.6.1.2 *)
Definition stts : table :=
  [ FullBoxHeader; is "EntryCount" (u 32); entries [ is "SampleCount" (u 32); is "SampleDelta" (u 32) ] ].
(** 8.6.1.3 *)
Definition ctts : table :=
  [ FullBoxHeader; is "EntryCount" (u 32);
    entries [ is "SampleCount" (u 32); v0 "SampleOffsetV0" (u 32); v1 "SampleOffsetV1" (i 32) ] ].
(** 8.6.1.4: version 0 signed int(32), otherwise signed int(64) *)
Definition cslg : table :=
  let later := CNot (CVersion 0) in
  [ FullBoxHeader;
    v0 "CompositionToDTSShiftV0" (i 32); v0 "LeastDecodeToDisplayDeltaV0" (i 32);
    v0 "GreatestDecodeToDisplayDeltaV0" (i 32); v0 "CompositionStartTimeV0" (i 32);
    v0 "CompositionEndTimeV0" (i 32);
    when later "CompositionToDTSShiftV1" (i 64); when later "LeastDecodeToDisplayDeltaV1" (i 64);
    when later "GreatestDecodeToDisplayDeltaV1" (i 64); when later "CompositionStartTimeV1" (i 64);
    when later "CompositionEndTimeV1" (i 64) ].
(** 8.6.2 *)
Definition stss : table :=
  [ FullBoxHeader; is "EntryCount" (u 32); is "SampleNumber" (Several (MField "EntryCount") (u 32)) ].
(** 8.6.4 *)
Definition sdtp : table :=
  [ FullBoxHeader; is "Samples" (ToTheEnd (Group false
      [ is "IsLeading" (u 2); is "SampleDependsOn" (u 2); is "SampleIsDependedOn" (u 2);
        is "SampleHasRedundancy" (u 2) ])) ].
(** 8.7.3: entry sizes only when there is no constant size *)
Definition stsz : table :=
  [ FullBoxHeader; is "SampleSize" (u 32); is "SampleCount" (u 32);
    is "EntrySize" (Several (MIf (CFieldIs "SampleSize" 0) (MField "SampleCount") (MConst 0)) (u 32)) ].
(** 8.7.4 *)
Definition stsc : table :=
  [ FullBoxHeader; is "EntryCount" (u 32);
    entries [ is "FirstChunk" (u 32); is "SamplesPerChunk" (u 32); is "SampleDescriptionIndex" (u 32) ] ].
(** 8.7.5 *)
Definition offsets (size : N) : table :=
  [ FullBoxHeader; is "EntryCount" (u 32); is "ChunkOffset" (Several (MField "EntryCount") (u size)) ].
(** 8.7.8, 8.7.9: the type is given when the flag 1 is set *)
Definition aux : table :=
  [ when (CFlag 1) "AuxInfoType" fourcc; when (CFlag 1) "AuxInfoTypeParameter" (u 32) ].
Definition saiz : table :=
  FullBoxHeader :: aux ++
  [ is "DefaultSampleInfoSize" (u 8); is "SampleCount" (u 32);
    when (CFieldIs "DefaultSampleInfoSize" 0) "SampleInfoSize" (Several (MField "SampleCount") (u 8)) ].
Definition saio : table :=
  FullBoxHeader :: aux ++
  [ is "EntryCount" (u 32); v0 "OffsetV0" (Several (MField "EntryCount") (u 32));
    when (CNot (CVersion 0)) "OffsetV1" (Several (MField "EntryCount") (u 64)) ].
(** 8.9.2 *)
Definition sbgp : table :=
  [ FullBoxHeader; is "GroupingType" (u 32); v1 "GroupingTypeParameter" (u 32); is "EntryCount" (u 32);
    entries [ is "SampleCount" (u 32); is "GroupDescriptionIndex" (u 32) ] ].
Definition sample_boxes : list row :=
  [ one "stts" "Stts" stts; one "ctts" "Ctts" ctts; one "cslg" "Cslg" cslg; one "stss" "Stss" stss;
    one "sdtp" "Sdtp" sdtp; one "stsz" "Stsz" stsz; one "stsc" "Stsc" stsc;
    one "stco" "Stco" (offsets 32); one "co64" "Co64" (offsets 64);
    one "saiz" "Saiz" saiz; one "saio" "Saio" saio; one "sbgp" "Sbgp" sbgp ].

(** *** ISO/IEC 14496-12: sample entries and what is in them *)
Definition SampleEntry : form := Group true [ is "Reserved" (Times 6 (u 8)); is "DataReferenceIndex" (u 16) ].
(** 12.1.3 *)
Definition visual : table :=
  [ is "SampleEntry" SampleEntry; is "PreDefined" (u 16); is "Reserved" (u 16);
    is "PreDefined2" (Times 3 (u 32)); is "Width" (u 16); is "Height" (u 16);
    is "Horizresolution" (u 32); is "Vertresolution" (u 32); is "Reserved2" (u 32);
    is "FrameCount" (u 16); is "Compressorname" (Times 32 (u 8)); is "Depth" (u 16); is "PreDefined3" (i 16) ].
(** 12.2.3, with the QuickTime sound descriptions: 16 more bytes in version 1, 36
    in version 2; below a wave box only uninterpreted bytes *)
Definition audio : table :=
  let iso := CNot (CAnd CQt CWave) in
  [ when iso "SampleEntry" SampleEntry; when iso "EntryVersion" (u 16); when iso "Reserved" (Times 3 (u 16));
    when iso "ChannelCount" (u 16); when iso "SampleSize" (u 16); when iso "PreDefined" (u 16);
    when iso "Reserved2" (u 16); when iso "SampleRate" (u 32);
    when (CAnd CQt (COr CWave (COr (CFieldIs "EntryVersion" 1) (CFieldIs "EntryVersion" 2)))) "QuickTimeData"
      (Several (MIf CQt (MIf CWave (MConst LengthUnlimited)
                          (MIf (CFieldIs "EntryVersion" 1) (MConst 16)
                            (MIf (CFieldIs "EntryVersion" 2) (MConst 36) (MConst 0)))) (MConst 0)) (u 8)) ].
(** 12.5.3, 12.6.3 *)
Definition stpp : table :=
  [ is "SampleEntry" SampleEntry; is "Namespace" ZString; is "SchemaLocation" ZString;
    is "AuxiliaryMIMETypes" ZString ].
Definition sbtt : table := [ is "SampleEntry" SampleEntry; is "ContentEncoding" ZString; is "MIMEFormat" ZString ].
(** 8.5.2 btrt, 12.1.4 pasp, 12.1.5 colr *)
Definition btrt : table := [ is "BufferSizeDB" (u 32); is "MaxBitrate" (u 32); is "AvgBitrate" (u 32) ].
Definition pasp : table := [ is "HSpacing" (u 32); is "VSpacing" (u 32) ].
Definition colr : table :=
  let nclx := CFieldS "ColourType" "nclx" in
  let icc := COr (CFieldS "ColourType" "rICC") (CFieldS "ColourType" "prof") in
  [ is "ColourType" fourcc;
    when nclx "ColourPrimaries" (u 16); when nclx "TransferCharacteristics" (u 16);
    when nclx "MatrixCoefficients" (u 16); when nclx "FullRangeFlag" flag1; when nclx "Reserved" (u 7);
    when (CAnd (CNot nclx) icc) "Profile" (ToTheEnd (u 8));
    when (CAnd (CNot nclx) (CNot icc)) "Unknown" (ToTheEnd (u 8)) ].
(** QuickTime: field handling *)
Definition fiel : table := [ is "FieldCount" (u 8); is "FieldOrdering" (u 8) ].
Definition entry_boxes : list row :=
  [ ([bt "avc1"; bt "encv"; bt "hev1"; bt "hvc1"; bt "mp4v"; bt "av01"; bt "vp08"; bt "vp09"],
     "VisualSampleEntry", visual);
    ([bt "mp4a"; bt "enca"; bt "ac-3"; bt "ipcm"; bt "fpcm"; bt "Opus"], "AudioSampleEntry", audio);
    one "stpp" "XMLSubtitleSampleEntry" stpp; one "sbtt" "TextSubtitleSampleEntry" sbtt;
    one "btrt" "Btrt" btrt; one "pasp" "PixelAspectRatioBox" pasp; one "colr" "Colr" colr;
    one "fiel" "Fiel" fiel ].

(** *** ISO/IEC 14496-12: fragments and segments *)
(** 8.8.2, 8.8.3 *)
Definition mehd : table := [ FullBoxHeader; v0 "FragmentDurationV0" (u 32); v1 "FragmentDurationV1" (u 64) ].
Definition trex : table :=
  [ FullBoxHeader; is "TrackID" (u 32); is "DefaultSampleDescriptionIndex" (u 32);
    is "DefaultSampleDuration" (u 32); is "DefaultSampleSize" (u 32); is "DefaultSampleFlags" (u 32) ].
Definition trep : table := [ FullBoxHeader; is "TrackID" (u 32) ].
Definition mfhd : table := [ FullBoxHeader; is "SequenceNumber" (u 32) ].
(** 8.8.7: a field is there when its flag is set *)
Definition tfhd : table :=
  [ FullBoxHeader; is "TrackID" (u 32);
    when (CFlag 0x000001) "BaseDataOffset" (u 64); when (CFlag 0x000002) "SampleDescriptionIndex" (u 32);
    when (CFlag 0x000008) "DefaultSampleDuration" (u 32); when (CFlag 0x000010) "DefaultSampleSize" (u 32);
    when (CFlag 0x000020) "DefaultSampleFlags" (u 32) ].
(** 8.8.8 *)
Definition trun : table :=
  [ FullBoxHeader; is "SampleCount" (u 32);
    when (CFlag 0x000001) "DataOffset" (i 32); when (CFlag 0x000004) "FirstSampleFlags" (u 32);
    is "Entries" (Several (MField "SampleCount") (Group false
      [ when (CFlag 0x000100) "SampleDuration" (u 32);
        when (CFlag 0x000200) "SampleSize" (u 32);
        when (CFlag 0x000400) "SampleFlags" (u 32);
        when (CAnd (CVersion 0) (CFlag 0x000800)) "SampleCompositionTimeOffsetV0" (u 32);
        when (CAnd (CNot (CVersion 0)) (CFlag 0x000800)) "SampleCompositionTimeOffsetV1" (i 32) ])) ].
(** 8.8.10: the numbers of an entry have (length_size + 1) bytes *)
Definition tfra : table :=
  let bytes name := UInt (MMul (MAdd (MField name) (MConst 1)) (MConst 8)) in
  [ FullBoxHeader; is "TrackID" (u 32); is "Reserved" (u 26); is "LengthSizeOfTrafNum" (u 2);
    is "LengthSizeOfTrunNum" (u 2); is "LengthSizeOfSampleNum" (u 2); is "NumberOfEntry" (u 32);
    is "Entries" (Several (MField "NumberOfEntry") (Group false
      [ v0 "TimeV0" (u 32); v0 "MoofOffsetV0" (u 32); v1 "TimeV1" (u 64); v1 "MoofOffsetV1" (u 64);
        is "TrafNumber" (bytes "LengthSizeOfTrafNum"); is "TrunNumber" (bytes "LengthSizeOfTrunNum");
        is "SampleNumber" (bytes "LengthSizeOfSampleNum") ])) ].
Definition mfro : table := [ FullBoxHeader; is "Size" (u 32) ].
(** 8.8.12 *)
Definition tfdt : table :=
  [ FullBoxHeader; v0 "BaseMediaDecodeTimeV0" (u 32); v1 "BaseMediaDecodeTimeV1" (u 64) ].
(** 8.16.3 *)
Definition sidx : table :=
  let later := CNot (CVersion 0) in
  [ FullBoxHeader; is "ReferenceID" (u 32); is "Timescale" (u 32);
    v0 "EarliestPresentationTimeV0" (u 32); v0 "FirstOffsetV0" (u 32);
    when later "EarliestPresentationTimeV1" (u 64); when later "FirstOffsetV1" (u 64);
    is "Reserved" (u 16); is "ReferenceCount" (u 16);
    is "References" (Several (MField "ReferenceCount") (Group false
      [ is "ReferenceType" flag1; is "ReferencedSize" (u 31); is "SubsegmentDuration" (u 32);
        is "StartsWithSAP" flag1; is "SAPType" (u 3); is "SAPDeltaTime" (u 28) ])) ].
(** 23009-1 5.10.3.3: in version 0 the strings come first *)
Definition emsg : table :=
  let later := CNot (CVersion 0) in
  [ FullBoxHeader; v0 "SchemeIdUri" ZString; v0 "Value" ZString;
    is "Timescale" (u 32); v0 "PresentationTimeDelta" (u 32); v1 "PresentationTime" (u 64);
    is "EventDuration" (u 32); is "Id" (u 32);
    when later "SchemeIdUri" ZString; when later "Value" ZString;
    is "MessageData" (ToTheEnd (u 8)) ].
(** 8.9.3 (edition of 2015).  The entries are described in 10.1 (roll, prol), 10.3
    (alst), 10.4 (rap) and 10.5 (tele); each is preceded by its length when the
    version is 1 and there is no default length. *)
Definition roll_groups : mcond := COr (CFieldS "GroupingType" "roll") (CFieldS "GroupingType" "prol").
Definition lengths_given : mcond := CAnd (CVersion 1) (CFieldIs "DefaultLength" 0).
Definition sgpd : table :=
  let alst := CFieldS "GroupingType" "alst" in
  let rap := CFieldS "GroupingType" "rap " in
  let tele := CFieldS "GroupingType" "tele" in
  let plain c := CAnd c (CNot lengths_given) in
  let withL c := CAnd c lengths_given in
  let entries e := Several (MField "EntryCount") e in
  let alternative := [ is "RollCount" (u 16); is "FirstOutputSample" (u 16);
                       is "SampleOffset" (Several (MField "RollCount") (u 32));
                       is "Opts" (ToTheEnd (Group false [ is "NumOutputSamples" (u 16); is "NumTotalSamples" (u 16) ])) ] in
  let visual := [ is "NumLeadingSamplesKnown" flag1; is "NumLeadingSamples" (u 7) ] in
  let temporal := [ is "LevelIndependentlyDecodable" flag1; is "Reserved" (u 7) ] in
  let length := is "DescriptionLength" (u 32) in
  [ FullBoxHeader; is "GroupingType" fourcc; v1 "DefaultLength" (u 32);
    when (CVersion 2) "DefaultSampleDescriptionIndex" (u 32); is "EntryCount" (u 32);
    when (plain roll_groups) "RollDistances" (entries (i 16));
    when (withL roll_groups) "RollDistancesL" (entries (Group false [ length; is "RollDistance" (i 16) ]));
    when (plain alst) "AlternativeStartupEntries" (entries (Group true alternative));
    when (withL alst) "AlternativeStartupEntriesL"
      (entries (Group true [ length; is "AlternativeStartupEntry" (Group true alternative) ]));
    when (plain rap) "VisualRandomAccessEntries" (entries (Group false visual));
    when (withL rap) "VisualRandomAccessEntriesL"
      (entries (Group false [ length; is "VisualRandomAccessEntry" (Group false visual) ]));
    when (plain tele) "TemporalLevelEntries" (entries (Group false temporal));
    when (withL tele) "TemporalLevelEntriesL"
      (entries (Group false [ length; is "TemporalLevelEntry" (Group false temporal) ]));
    when (CAnd (CAnd (CAnd (CNot roll_groups) (CNot alst)) (CNot rap)) (CNot tele)) "Unsupported" (ToTheEnd (u 8)) ].
Definition fragment_boxes : list row :=
  [ one "mehd" "Mehd" mehd; one "trex" "Trex" trex; one "trep" "Trep" trep; one "mfhd" "Mfhd" mfhd;
    one "tfhd" "Tfhd" tfhd; one "trun" "Trun" trun; one "tfra" "Tfra" tfra; one "mfro" "Mfro" mfro;
    one "tfdt" "Tfdt" tfdt; one "sidx" "Sidx" sidx; one "emsg" "Emsg" emsg; one "sgpd" "Sgpd" sgpd ].

(** *** Protection: 14496-12 8.12, 23001-7 *)
Definition frma : table := [ is "DataFormat" fourcc ].
Definition schm : table :=
  [ FullBoxHeader; is "SchemeType" fourcc; is "SchemeVersion" (u 32);
    when (CFlag 1) "SchemeUri" (ToTheEnd (u 8)) ].
Definition pssh : table :=
  [ FullBoxHeader; is "SystemID" (Times 16 (u 8));
    when (CNot (CVersion 0)) "KIDCount" (u 32);
    when (CNot (CVersion 0)) "KIDs" (Several (MField "KIDCount") (Group false [is "KID" (Times 16 (u 8))]));
    is "DataSize" (i 32); is "Data" (Several (MField "DataSize") (u 8)) ].
Definition tenc : table :=
  let constant_iv := CAnd (CFieldIs "DefaultIsProtected" 1) (CFieldIs "DefaultPerSampleIVSize" 0) in
  [ FullBoxHeader; is "Reserved" (u 8); is "DefaultCryptByteBlock" (u 4); is "DefaultSkipByteBlock" (u 4);
    is "DefaultIsProtected" (u 8); is "DefaultPerSampleIVSize" (u 8); is "DefaultKID" (Times 16 (u 8));
    when constant_iv "DefaultConstantIVSize" (u 8);
    when constant_iv "DefaultConstantIV" (Several (MField "DefaultConstantIVSize") (u 8)) ].
Definition protection_boxes : list row :=
  [ one "frma" "Frma" frma; one "schm" "Schm" schm; one "pssh" "Pssh" pssh; one "tenc" "Tenc" tenc ].

(** *** Codec configuration *)
(** 14496-15 5.3.3.1.2; the chroma fields only in the high profiles *)
Definition ParameterSets (count : string) : form :=
  Several (MField count) (Group true [ is "Length" (u 16); is "NALUnit" (Several (MField "Length") (u 8)) ]).
Definition avcC : table :=
  let high := CFieldB "HighProfileFieldsEnabled" in
  [ is "ConfigurationVersion" (u 8); is "Profile" (u 8); is "ProfileCompatibility" (u 8); is "Level" (u 8);
    is "Reserved" (u 6); is "LengthSizeMinusOne" (u 2); is "Reserved2" (u 3);
    is "NumOfSequenceParameterSets" (u 5);
    is "SequenceParameterSets" (ParameterSets "NumOfSequenceParameterSets");
    is "NumOfPictureParameterSets" (u 8);
    is "PictureParameterSets" (ParameterSets "NumOfPictureParameterSets");
    is "HighProfileFieldsEnabled" Absent;
    when high "Reserved3" (u 6); when high "ChromaFormat" (u 2);
    when high "Reserved4" (u 5); when high "BitDepthLumaMinus8" (u 3);
    when high "Reserved5" (u 5); when high "BitDepthChromaMinus8" (u 3);
    when high "NumOfSequenceParameterSetExt" (u 8);
    when high "SequenceParameterSetsExt" (ParameterSets "NumOfSequenceParameterSetExt") ].
(** 14496-15 8.3.3.1.2: numTemporalLayers has 3 bits, temporalIdNested 1 *)
Definition hvcC : table :=
  [ is "ConfigurationVersion" (u 8); is "GeneralProfileSpace" (u 2); is "GeneralTierFlag" flag1;
    is "GeneralProfileIdc" (u 5); is "GeneralProfileCompatibility" (Times 32 flag1);
    is "GeneralConstraintIndicator" (Times 6 (u 8)); is "GeneralLevelIdc" (u 8);
    is "Reserved1" (u 4); is "MinSpatialSegmentationIdc" (u 12); is "Reserved2" (u 6);
    is "ParallelismType" (u 2); is "Reserved3" (u 6); is "ChromaFormatIdc" (u 2);
    is "Reserved4" (u 5); is "BitDepthLumaMinus8" (u 3); is "Reserved5" (u 5); is "BitDepthChromaMinus8" (u 3);
    is "AvgFrameRate" (u 16); is "ConstantFrameRate" (u 2); is "NumTemporalLayers" (u 3);
    is "TemporalIdNested" (u 1); is "LengthSizeMinusOne" (u 2); is "NumOfNaluArrays" (u 8);
    is "NaluArrays" (Several (MField "NumOfNaluArrays") (Group true
      [ is "Completeness" flag1; is "Reserved" flag1; is "NaluType" (u 6); is "NumNalus" (u 16);
        is "Nalus" (Several (MField "NumNalus") (Group true
          [ is "Length" (u 16); is "NALUnit" (Several (MField "Length") (u 8)) ])) ])) ].
(** ETSI TS 102 366 F.4 *)
Definition dac3 : table :=
  [ is "Fscod" (u 2); is "Bsid" (u 5); is "Bsmod" (u 3); is "Acmod" (u 3); is "LfeOn" (u 1);
    is "BitRateCode" (u 5); is "Reserved" (u 5) ].
(** AV1 codec ISO media file format binding 2.3.3 *)
Definition av1C : table :=
  [ is "Marker" (u 1); is "Version" (u 7); is "SeqProfile" (u 3); is "SeqLevelIdx0" (u 5); is "SeqTier0" (u 1);
    is "HighBitdepth" (u 1); is "TwelveBit" (u 1); is "Monochrome" (u 1); is "ChromaSubsamplingX" (u 1);
    is "ChromaSubsamplingY" (u 1); is "ChromaSamplePosition" (u 2); is "Reserved" (u 3);
    is "InitialPresentationDelayPresent" (u 1); is "InitialPresentationDelayMinusOne" (u 4);
    is "ConfigOBUs" (ToTheEnd (u 8)) ].
(** VP codec ISO media file format binding *)
Definition vpcC : table :=
  [ FullBoxHeader; is "Profile" (u 8); is "Level" (u 8); is "BitDepth" (u 4); is "ChromaSubsampling" (u 3);
    is "VideoFullRangeFlag" (u 1); is "ColourPrimaries" (u 8); is "TransferCharacteristics" (u 8);
    is "MatrixCoefficients" (u 8); is "CodecInitializationDataSize" (u 16);
    is "CodecInitializationData" (Several (MField "CodecInitializationDataSize") (u 8)) ].
(** encapsulation of Opus in ISOBMFF 4.3.2 *)
Definition dOps : table :=
  let mapped := CNot (CFieldIs "ChannelMappingFamily" 0) in
  [ is "Version" (u 8); is "OutputChannelCount" (u 8); is "PreSkip" (u 16); is "InputSampleRate" (u 32);
    is "OutputGain" (i 16); is "ChannelMappingFamily" (u 8);
    when mapped "StreamCount" (u 8); when mapped "CoupledCount" (u 8);
    when mapped "ChannelMapping" (Several (MField "OutputChannelCount") (u 8)) ].
(** 23003-5 *)
Definition pcmC : table := [ FullBoxHeader; is "FormatFlags" (u 8); is "PCMSampleSize" (u 8) ].
(** 14496-1 7.2.6.5, 7.2.6.6; 14496-14 5.6.  The first byte is the tag, the size
    is expandable; the descriptors in a descriptor follow it in the list. *)
Definition esds : table :=
  let es := CFieldZ "Tag" 3 in
  let config := CFieldZ "Tag" 4 in
  [ FullBoxHeader;
    is "Descriptors" (ToTheEnd (Group true
      [ is "Tag" (i 8); is "Size" Expandable;
        when es "ESDescriptor" (Present (Group true
          [ is "ESID" (u 16); is "StreamDependenceFlag" flag1; is "UrlFlag" flag1; is "OcrStreamFlag" flag1;
            is "StreamPriority" (i 5);
            when (CFieldB "StreamDependenceFlag") "DependsOnESID" (u 16);
            when (CFieldB "UrlFlag") "URLLength" (u 8);
            when (CFieldB "UrlFlag") "URLString" (Several (MField "URLLength") (u 8));
            when (CFieldB "OcrStreamFlag") "OCRESID" (u 16) ]));
        when (CAnd (CNot es) config) "DecoderConfigDescriptor" (Present (Group true
          [ is "ObjectTypeIndication" (u 8); is "StreamType" (i 6); is "UpStream" flag1; is "Reserved" flag1;
            is "BufferSizeDB" (u 24); is "MaxBitrate" (u 32); is "AvgBitrate" (u 32) ]));
        when (CAnd (CNot es) (CNot config)) "Data" (Several (MField "Size") (u 8)) ])) ].
Definition codec_boxes : list row :=
  [ one "avcC" "AVCDecoderConfiguration" avcC; one "dac3" "Dac3" dac3; one "av1C" "Av1C" av1C;
    one "vpcC" "VpcC" vpcC; one "dOps" "DOps" dOps; one "pcmC" "PcmC" pcmC; one "esds" "Esds" esds ].

(** *** Metadata: QuickTime, iTunes, 3GPP; WebVTT: 14496-30 *)
Definition udta_string : table :=   (* 3GPP TS 26.244 8.2 *)
  [ FullBoxHeader; is "Pad" flag1; is "Language" (Times 3 (u 5)); is "Data" (ToTheEnd (u 8)) ].
Definition data : table := [ is "DataType" (u 32); is "DataLang" (u 32); is "Data" (ToTheEnd (u 8)) ].
Definition keys : table :=
  [ FullBoxHeader; is "EntryCount" (i 32);
    is "Entries" (Several (MField "EntryCount") (Group true
      [ is "KeySize" (i 32); is "KeyNamespace" (Several (MConst 4) (u 8));
        is "KeyValue" (Several (MSub (MField "KeySize") (MConst 8)) (u 8)) ])) ].
Definition text (name : string) : table := [ is name RestString ].
Definition metadata_boxes : list row :=
  [ ([bt "titl"; bt "dscp"; bt "cprt"; bt "perf"; bt "auth"; bt "gnre"], "Udta3GppString", udta_string);
    one "data" "Data" data; ([bt "mean"; bt "name"], "StringData", raw); one "keys" "Keys" keys;
    one "vttC" "WebVTTConfigurationBox" (text "Config");
    one "vlab" "WebVTTSourceLabelBox" (text "SourceLabel");
    one "wvtt" "WVTTSampleEntry" [ is "SampleEntry" SampleEntry ];
    one "vsid" "CueSourceIDBox" [ is "SourceId" (u 32) ];
    one "ctim" "CueTimeBox" (text "CueCurrentTime"); one "iden" "CueIDBox" (text "CueId");
    one "sttg" "CueSettingsBox" (text "Settings"); one "payl" "CuePayloadBox" (text "CueText");
    one "vtta" "VTTAdditionalTextBox" (text "CueAdditionalText") ].

(** All rows but that of hvcC, where the package deviates. *)
Definition standard_tables : list row :=
  containers ++ file_boxes ++ header_boxes ++ sample_boxes ++ entry_boxes ++ fragment_boxes ++
  protection_boxes ++ codec_boxes ++ metadata_boxes.
