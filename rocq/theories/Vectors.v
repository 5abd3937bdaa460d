(** The payloads of the Go unit tests: test name, box type, context, payload,
    expected Stringify text.  Generated by tools/vectors.py from
    /repo/box_types_*_test.go. *)
From Verif Require Import Base Schema Registry.
Local Open Scope string_scope.
Local Open Scope list_scope.
Local Open Scope N_scope.

Record vector : Set := mkvec {
  vc_name : string; vc_type : btype; vc_ctx : context; vc_bin : string; vc_str : string }.
Definition vectors : list vector := [
  mkvec "3gpp: udta 3gpp string" (hex "7469746c") (mkctx false 0 false false false false true)
    "0000000015c753494e47"
    "Version=0 Flags=0x000000 Language=""eng"" Data=""SING""";
  mkvec "av1: Av1C" (hex "61763143") (mkctx false 0 false false false false false)
    "8141cc000800000042a7bfe4600d0040"
    "SeqProfile=0x2 SeqLevelIdx0=0x1 SeqTier0=0x1 HighBitdepth=0x1 TwelveBit=0x0 Monochrome=0x0 ChromaSubsamplingX=0x1 ChromaSubsamplingY=0x1 ChromaSamplePosition=0x0 InitialPresentationDelayPresent=0x0 InitialPresentationDelayMinusOne=0x0 ConfigOBUs=[0x8, 0x0, 0x0, 0x0, 0x42, 0xa7, 0xbf, 0xe4, 0x60, 0xd, 0x0, 0x40]";
  mkvec "etsi_ts_102_366: dac3" (hex "64616333") (mkctx false 0 false false false false false)
    "103ce0"
    "Fscod=0x0 Bsid=0x8 Bsmod=0x0 Acmod=0x7 LfeOn=0x1 BitRateCode=0x7";
  mkvec "iso14496_12: btrt" (hex "62747274") (mkctx false 0 false false false false false)
    "123456783456789a56789abc"
    "BufferSizeDB=305419896 MaxBitrate=878082202 AvgBitrate=1450744508";
  mkvec "iso14496_12: co64" (hex "636f3634") (mkctx false 0 false false false false false)
    "00000000000000020123456789abcdef89abcdef01234567"
    "Version=0 Flags=0x000000 EntryCount=2 ChunkOffset=[81985529216486895, 9920249030613615975]";
  mkvec "iso14496_12: colr: nclx" (hex "636f6c72") (mkctx false 0 false false false false false)
    "6e636c78012323454567e7"
    "ColourType=""nclx"" ColourPrimaries=291 TransferCharacteristics=9029 MatrixCoefficients=17767 FullRangeFlag=true Reserved=0x67";
  mkvec "iso14496_12: colr: rICC" (hex "636f6c72") (mkctx false 0 false false false false false)
    "7249434312345678ab"
    "ColourType=""rICC"" Profile=[0x12, 0x34, 0x56, 0x78, 0xab]";
  mkvec "iso14496_12: colr: nclc" (hex "636f6c72") (mkctx false 0 false false false false false)
    "6e636c63012345"
    "ColourType=""nclc"" Unknown=[0x1, 0x23, 0x45]";
  mkvec "iso14496_12: cslg: version 0" (hex "63736c67") (mkctx false 0 false false false false false)
    "0000000012345678edcba98812345678edcba98812345678"
    "Version=0 Flags=0x000000 CompositionToDTSShiftV0=305419896 LeastDecodeToDisplayDeltaV0=-305419896 GreatestDecodeToDisplayDeltaV0=305419896 CompositionStartTimeV0=-305419896 CompositionEndTimeV0=305419896";
  mkvec "iso14496_12: ctts: version 0" (hex "63747473") (mkctx false 0 false false false false false)
    "0000000000000002012345671234567889abcdef789abcde"
    "Version=0 Flags=0x000000 EntryCount=2 Entries=[{SampleCount=19088743 SampleOffsetV0=305419896}, {SampleCount=2309737967 SampleOffsetV0=2023406814}]";
  mkvec "iso14496_12: ctts: version 1" (hex "63747473") (mkctx false 0 false false false false false)
    "0100000000000002012345671234567889abcdef87654322"
    "Version=1 Flags=0x000000 EntryCount=2 Entries=[{SampleCount=19088743 SampleOffsetV1=305419896}, {SampleCount=2309737967 SampleOffsetV1=-2023406814}]";
  mkvec "iso14496_12: dinf" (hex "64696e66") (mkctx false 0 false false false false false)
    ""
    "";
  mkvec "iso14496_12: dref" (hex "64726566") (mkctx false 0 false false false false false)
    "0000000012345678"
    "Version=0 Flags=0x000000 EntryCount=305419896";
  mkvec "iso14496_12: edts" (hex "65647473") (mkctx false 0 false false false false false)
    ""
    "";
  mkvec "iso14496_12: elst: version 0" (hex "656c7374") (mkctx false 0 false false false false false)
    "00000000000000020100000a0100000b010c010d0200000a0200000b020c020d"
    "Version=0 Flags=0x000000 EntryCount=2 Entries=[{SegmentDurationV0=16777226 MediaTimeV0=16777227 MediaRateInteger=268}, {SegmentDurationV0=33554442 MediaTimeV0=33554443 MediaRateInteger=524}]";
  mkvec "iso14496_12: elst: version 1" (hex "656c7374") (mkctx false 0 false false false false false)
    "0100000000000002010000000000000a010000000000000b010c010d020000000000000a020000000000000b020c020d"
    "Version=1 Flags=0x000000 EntryCount=2 Entries=[{SegmentDurationV1=72057594037927946 MediaTimeV1=72057594037927947 MediaRateInteger=268}, {SegmentDurationV1=144115188075855882 MediaTimeV1=144115188075855883 MediaRateInteger=524}]";
  mkvec "iso14496_12: emsg: version 0" (hex "656d7367") (mkctx false 0 false false false false false)
    "0000000075726e3a7465737400666f6f00000003e80000007b00000bb80000abcd6162656d61"
    "Version=0 Flags=0x000000 SchemeIdUri=""urn:test"" Value=""foo"" Timescale=1000 PresentationTimeDelta=123 EventDuration=3000 Id=43981 MessageData=""abema""";
  mkvec "iso14496_12: emsg: version 1" (hex "656d7367") (mkctx false 0 false false false false false)
    "01000000000003e8000000000000007b00000bb80000abcd75726e3a7465737400666f6f006162656d61"
    "Version=1 Flags=0x000000 SchemeIdUri=""urn:test"" Value=""foo"" Timescale=1000 PresentationTime=123 EventDuration=3000 Id=43981 MessageData=""abema""";
  mkvec "iso14496_12: fiel" (hex "6669656c") (mkctx false 0 false false false false false)
    "e970"
    "FieldCount=0xe9 FieldOrdering=0x70";
  mkvec "iso14496_12: free" (hex "66726565") (mkctx false 0 false false false false false)
    "123456"
    "Data=[0x12, 0x34, 0x56]";
  mkvec "iso14496_12: skip" (hex "736b6970") (mkctx false 0 false false false false false)
    "123456"
    "Data=[0x12, 0x34, 0x56]";
  mkvec "iso14496_12: frma" (hex "66726d61") (mkctx false 0 false false false false false)
    "74657374"
    "DataFormat=""test""";
  mkvec "iso14496_12: ftyp" (hex "66747970") (mkctx false 0 false false false false false)
    "6162656d123456786162636465666768"
    "MajorBrand=""abem"" MinorVersion=305419896 CompatibleBrands=[{CompatibleBrand=""abcd""}, {CompatibleBrand=""efgh""}]";
  mkvec "iso14496_12: hdlr" (hex "68646c72") (mkctx false 0 false false false false false)
    "00000000123456786162656d0000000000000000000000004162656d6100"
    "Version=0 Flags=0x000000 PreDefined=305419896 HandlerType=""abem"" Name=""Abema""";
  mkvec "iso14496_12: hvcC" (hex "68766343") (mkctx false 0 false false false false false)
    "01016000000090000000000078e000fcfdf8f800000f04200001001840010c01ffff016000000300900000030000030078999809210001002a060101016000000300900000030000030078a003c08010e596666924cae010000003001000000301e08022000100074401c172b46240270001000b4e0105ffffffa62ca2de09"
    "ConfigurationVersion=0x1 GeneralProfileSpace=0x0 GeneralTierFlag=false GeneralProfileIdc=0x1 GeneralProfileCompatibility=[false, true, true, false, false, false, false, false, false, false, false, false, false, false, false, false, false, false, false, false, false, false, false, false, false, false, false, false, false, false, false, false] GeneralConstraintIndicator=[0x90, 0x0, 0x0, 0x0, 0x0, 0x0] GeneralLevelIdc=0x78 MinSpatialSegmentationIdc=0 ParallelismType=0x0 ChromaFormatIdc=0x1 BitDepthLumaMinus8=0x0 BitDepthChromaMinus8=0x0 AvgFrameRate=0 ConstantFrameRate=0x0 NumTemporalLayers=0x0 TemporalIdNested=0x3 LengthSizeMinusOne=0x3 NumOfNaluArrays=0x4 NaluArrays=[{Completeness=false Reserved=false NaluType=0x20 NumNalus=1 Nalus=[{Length=24 NALUnit=[0x40, 0x1, 0xc, 0x1, 0xff, 0xff, 0x1, 0x60, 0x0, 0x0, 0x3, 0x0, 0x90, 0x0, 0x0, 0x3, 0x0, 0x0, 0x3, 0x0, 0x78, 0x99, 0x98, 0x9]}]}, {Completeness=false Reserved=false NaluType=0x21 NumNalus=1 Nalus=[{Length=42 NALUnit=[0x6, 0x1, 0x1, 0x1, 0x60, 0x0, 0x0, 0x3, 0x0, 0x90, 0x0, 0x0, 0x3, 0x0, 0x0, 0x3, 0x0, 0x78, 0xa0, 0x3, 0xc0, 0x80, 0x10, 0xe5, 0x96, 0x66, 0x69, 0x24, 0xca, 0xe0, 0x10, 0x0, 0x0, 0x3, 0x0, 0x10, 0x0, 0x0, 0x3, 0x1, 0xe0, 0x80]}]}, {Completeness=false Reserved=false NaluType=0x22 NumNalus=1 Nalus=[{Length=7 NALUnit=[0x44, 0x1, 0xc1, 0x72, 0xb4, 0x62, 0x40]}]}, {Completeness=false Reserved=false NaluType=0x27 NumNalus=1 Nalus=[{Length=11 NALUnit=[0x4e, 0x1, 0x5, 0xff, 0xff, 0xff, 0xa6, 0x2c, 0xa2, 0xde, 0x9]}]}]";
  mkvec "iso14496_12: mdat" (hex "6d646174") (mkctx false 0 false false false false false)
    "112233"
    "Data=[0x11, 0x22, 0x33]";
  mkvec "iso14496_12: mdhd: version 0" (hex "6d646864") (mkctx false 0 false false false false false)
    "0000000012345678234567890102030402030405aa0e0000"
    "Version=0 Flags=0x000000 CreationTimeV0=305419896 ModificationTimeV0=591751049 Timescale=16909060 DurationV0=33752069 Language=""jpn"" PreDefined=0";
  mkvec "iso14496_12: mdhd: version 1" (hex "6d646864") (mkctx false 0 false false false false false)
    "01000000123456789abcdef023456789abcdef01010203040203040506070809aa0e0000"
    "Version=1 Flags=0x000000 CreationTimeV1=1311768467463790320 ModificationTimeV1=2541551405711093505 Timescale=16909060 DurationV1=144964032628459529 Language=""jpn"" PreDefined=0";
  mkvec "iso14496_12: mdia" (hex "6d646961") (mkctx false 0 false false false false false)
    ""
    "";
  mkvec "iso14496_12: mehd: version 0" (hex "6d656864") (mkctx false 0 false false false false false)
    "0000000001234567"
    "Version=0 Flags=0x000000 FragmentDurationV0=19088743";
  mkvec "iso14496_12: mehd: version 1" (hex "6d656864") (mkctx false 0 false false false false false)
    "010000000123456789abcdef"
    "Version=1 Flags=0x000000 FragmentDurationV1=81985529216486895";
  mkvec "iso14496_12: meta" (hex "6d657461") (mkctx false 0 false false false false false)
    "00000000"
    "Version=0 Flags=0x000000";
  mkvec "iso14496_12: mfhd" (hex "6d666864") (mkctx false 0 false false false false false)
    "0000000012345678"
    "Version=0 Flags=0x000000 SequenceNumber=305419896";
  mkvec "iso14496_12: mfra" (hex "6d667261") (mkctx false 0 false false false false false)
    ""
    "";
  mkvec "iso14496_12: mfro" (hex "6d66726f") (mkctx false 0 false false false false false)
    "0000000012345678"
    "Version=0 Flags=0x000000 Size=305419896";
  mkvec "iso14496_12: minf" (hex "6d696e66") (mkctx false 0 false false false false false)
    ""
    "";
  mkvec "iso14496_12: moof" (hex "6d6f6f66") (mkctx false 0 false false false false false)
    ""
    "";
  mkvec "iso14496_12: moov" (hex "6d6f6f76") (mkctx false 0 false false false false false)
    ""
    "";
  mkvec "iso14496_12: mvex" (hex "6d766578") (mkctx false 0 false false false false false)
    ""
    "";
  mkvec "iso14496_12: mvhd: version 0" (hex "6d766864") (mkctx false 0 false false false false false)
    "000000000123456723456789456789ab6789abcdfedcba99012300000000000000000000000000000000000000000000000000000000000000000000000000000000000000000000000000000000000000000000000000000000000000000000abcdef01"
    "Version=0 Flags=0x000000 CreationTimeV0=19088743 ModificationTimeV0=591751049 Timescale=1164413355 DurationV0=1737075661 Rate=-291.27110 Volume=291 Matrix=[0x0, 0x0, 0x0, 0x0, 0x0, 0x0, 0x0, 0x0, 0x0] PreDefined=[0, 0, 0, 0, 0, 0] NextTrackID=2882400001";
  mkvec "iso14496_12: mvhd: version 1" (hex "6d766864") (mkctx false 0 false false false false false)
    "010000000123456789abcdef23456789abcdef0189abcdef456789abcdef0123fedcba99012300000000000000000000000000000000000000000000000000000000000000000000000000000000000000000000000000000000000000000000000000000000000000000000abcdef01"
    "Version=1 Flags=0x000000 CreationTimeV1=81985529216486895 ModificationTimeV1=2541551405711093505 Timescale=2309737967 DurationV1=5001117282205630755 Rate=-291.27110 Volume=291 Matrix=[0x0, 0x0, 0x0, 0x0, 0x0, 0x0, 0x0, 0x0, 0x0] PreDefined=[0, 0, 0, 0, 0, 0] NextTrackID=2882400001";
  mkvec "iso14496_12: saio: version 0: no aux info type" (hex "7361696f") (mkctx false 0 false false false false false)
    "00000000000000030123456723456789456789ab"
    "Version=0 Flags=0x000000 EntryCount=3 OffsetV0=[19088743, 591751049, 1164413355]";
  mkvec "iso14496_12: saio: version 0: with aux info type" (hex "7361696f") (mkctx false 0 false false false false false)
    "000000017465737489abcdef000000030123456723456789456789ab"
    "Version=0 Flags=0x000001 AuxInfoType=""test"" AuxInfoTypeParameter=0x89abcdef EntryCount=3 OffsetV0=[19088743, 591751049, 1164413355]";
  mkvec "iso14496_12: saio: version 1: no aux info type" (hex "7361696f") (mkctx false 0 false false false false false)
    "01000000000000020123456789abcdef0123456789abcdef"
    "Version=1 Flags=0x000000 EntryCount=2 OffsetV1=[81985529216486895, 81985529216486895]";
  mkvec "iso14496_12: saiz: no aux info type; with default size" (hex "7361697a") (mkctx false 0 false false false false false)
    "000000000101234567"
    "Version=0 Flags=0x000000 DefaultSampleInfoSize=1 SampleCount=19088743";
  mkvec "iso14496_12: saiz: no aux info type; no default size" (hex "7361697a") (mkctx false 0 false false false false false)
    "000000000000000003010203"
    "Version=0 Flags=0x000000 DefaultSampleInfoSize=0 SampleCount=3 SampleInfoSize=[1, 2, 3]";
  mkvec "iso14496_12: saiz: with aux info type; with default size" (hex "7361697a") (mkctx false 0 false false false false false)
    "000000017465737489abcdef0101234567"
    "Version=0 Flags=0x000001 AuxInfoType=""test"" AuxInfoTypeParameter=0x89abcdef DefaultSampleInfoSize=1 SampleCount=19088743";
  mkvec "iso14496_12: VisualSampleEntry" (hex "61766331") (mkctx false 0 false false false false false)
    "000000000000123401010000010000010100000201000003010201030100000401000005010000060104086162656d610074760000000000000000000000000000000000000000000000010503e9"
    "DataReferenceIndex=4660 PreDefined=257 PreDefined2=[16777217, 16777218, 16777219] Width=258 Height=259 Horizresolution=16777220 Vertresolution=16777221 FrameCount=260 Compressorname=""abema.tv"" Depth=261 PreDefined3=1001";
  mkvec "iso14496_12: AudioSampleEntry" (hex "656e6361") (mkctx false 0 false false false false false)
    "00000000000012340123000000000000234545676789000001234567"
    "DataReferenceIndex=4660 EntryVersion=291 ChannelCount=9029 SampleSize=17767 PreDefined=26505 SampleRate=291.27110";
  mkvec "iso14496_12: AudioSampleEntry" (hex "656e6361") (mkctx false 0 false false false false false)
    "00000000000012340123000000000000234545676789000001234567"
    "DataReferenceIndex=4660 EntryVersion=291 ChannelCount=9029 SampleSize=17767 PreDefined=26505 SampleRate=291.27110";
  mkvec "iso14496_12: AudioSampleEntry (QuickTime v0)" (hex "656e6361") (mkctx true 0 false false false false false)
    "00000000000012340000000000000000234545676789000001234567"
    "DataReferenceIndex=4660 EntryVersion=0 ChannelCount=9029 SampleSize=17767 PreDefined=26505 SampleRate=291.27110";
  mkvec "iso14496_12: AudioSampleEntry (QuickTime v1)" (hex "656e6361") (mkctx true 0 false false false false false)
    "0000000000001234000100000000000023454567678900000123456700112233445566778899aabbccddeeff"
    "DataReferenceIndex=4660 EntryVersion=1 ChannelCount=9029 SampleSize=17767 PreDefined=26505 SampleRate=291.27110 QuickTimeData=[0x0, 0x11, 0x22, 0x33, 0x44, 0x55, 0x66, 0x77, 0x88, 0x99, 0xaa, 0xbb, 0xcc, 0xdd, 0xee, 0xff]";
  mkvec "iso14496_12: AudioSampleEntry (QuickTime v2)" (hex "656e6361") (mkctx true 0 false false false false false)
    "0000000000001234000200000000000023454567678900000123456700112233445566778899aabbccddeeff00112233445566778899aabbccddeeff00112233"
    "DataReferenceIndex=4660 EntryVersion=2 ChannelCount=9029 SampleSize=17767 PreDefined=26505 SampleRate=291.27110 QuickTimeData=[0x0, 0x11, 0x22, 0x33, 0x44, 0x55, 0x66, 0x77, 0x88, 0x99, 0xaa, 0xbb, 0xcc, 0xdd, 0xee, 0xff, 0x0, 0x11, 0x22, 0x33, 0x44, 0x55, 0x66, 0x77, 0x88, 0x99, 0xaa, 0xbb, 0xcc, 0xdd, 0xee, 0xff, 0x0, 0x11, 0x22, 0x33]";
  mkvec "iso14496_12: AVCDecoderConfiguration main profile" (hex "61766343") (mkctx false 0 false false false false false)
    "124d401ffee2000212340003123456020002abcd0003abcdef"
    "ConfigurationVersion=0x12 Profile=0x4d ProfileCompatibility=0x40 Level=0x1f LengthSizeMinusOne=0x2 NumOfSequenceParameterSets=0x2 SequenceParameterSets=[{Length=2 NALUnit=[0x12, 0x34]}, {Length=3 NALUnit=[0x12, 0x34, 0x56]}] NumOfPictureParameterSets=0x2 PictureParameterSets=[{Length=2 NALUnit=[0xab, 0xcd]}, {Length=3 NALUnit=[0xab, 0xcd, 0xef]}]";
  mkvec "iso14496_12: AVCDecoderConfiguration high profile old spec" (hex "61766343") (mkctx false 0 false false false false false)
    "12640028fee2000212340003123456020002abcd0003abcdef"
    "ConfigurationVersion=0x12 Profile=0x64 ProfileCompatibility=0x0 Level=0x28 LengthSizeMinusOne=0x2 NumOfSequenceParameterSets=0x2 SequenceParameterSets=[{Length=2 NALUnit=[0x12, 0x34]}, {Length=3 NALUnit=[0x12, 0x34, 0x56]}] NumOfPictureParameterSets=0x2 PictureParameterSets=[{Length=2 NALUnit=[0xab, 0xcd]}, {Length=3 NALUnit=[0xab, 0xcd, 0xef]}]";
  mkvec "iso14496_12: AVCDecoderConfiguration high profile new spec" (hex "61766343") (mkctx false 0 false false false false false)
    "12640028fee2000212340003123456020002abcd0003abcdeffdfafb02000212340003123456"
    "ConfigurationVersion=0x12 Profile=0x64 ProfileCompatibility=0x0 Level=0x28 LengthSizeMinusOne=0x2 NumOfSequenceParameterSets=0x2 SequenceParameterSets=[{Length=2 NALUnit=[0x12, 0x34]}, {Length=3 NALUnit=[0x12, 0x34, 0x56]}] NumOfPictureParameterSets=0x2 PictureParameterSets=[{Length=2 NALUnit=[0xab, 0xcd]}, {Length=3 NALUnit=[0xab, 0xcd, 0xef]}] ChromaFormat=0x1 BitDepthLumaMinus8=0x2 BitDepthChromaMinus8=0x3 NumOfSequenceParameterSetExt=0x2 SequenceParameterSetsExt=[{Length=2 NALUnit=[0x12, 0x34]}, {Length=3 NALUnit=[0x12, 0x34, 0x56]}]";
  mkvec "iso14496_12: PixelAspectRatioBox" (hex "70617370") (mkctx false 0 false false false false false)
    "0123456723456789"
    "HSpacing=19088743 VSpacing=591751049";
  mkvec "iso14496_12: XMLSubtitleSampleEntry" (hex "73747070") (mkctx false 0 false false false false false)
    "0000000000001234687474703a2f2f666f6f2e6f72672f62617220687474703a2f2f62617a2e6f72672f71757800687474703a2f2f717575782e6f72672f636f726765007878782f79797900"
    "DataReferenceIndex=4660 Namespace=""http://foo.org/bar http://baz.org/qux"" SchemaLocation=""http://quux.org/corge"" AuxiliaryMIMETypes=""xxx/yyy""";
  mkvec "iso14496_12: TextSubtitleSampleEntry" (hex "73627474") (mkctx false 0 false false false false false)
    "0000000000001234666f6f006261722f62617a00"
    "DataReferenceIndex=4660 ContentEncoding=""foo"" MIMEFormat=""bar/baz""";
  mkvec "iso14496_12: sbgp: version 0" (hex "73626770") (mkctx false 0 false false false false false)
    "000000000123456700000002234567893456789a456789ab56789abc"
    "Version=0 Flags=0x000000 GroupingType=19088743 EntryCount=2 Entries=[{SampleCount=591751049 GroupDescriptionIndex=878082202}, {SampleCount=1164413355 GroupDescriptionIndex=1450744508}]";
  mkvec "iso14496_12: sbgp: version 1" (hex "73626770") (mkctx false 0 false false false false false)
    "010000000123456789abcdef00000002234567893456789a456789ab56789abc"
    "Version=1 Flags=0x000000 GroupingType=19088743 GroupingTypeParameter=2309737967 EntryCount=2 Entries=[{SampleCount=591751049 GroupDescriptionIndex=878082202}, {SampleCount=1164413355 GroupDescriptionIndex=1450744508}]";
  mkvec "iso14496_12: schi" (hex "73636869") (mkctx false 0 false false false false false)
    ""
    "";
  mkvec "iso14496_12: schm: no scheme uri" (hex "7363686d") (mkctx false 0 false false false false false)
    "000000007465737412345678"
    "Version=0 Flags=0x000000 SchemeType=""test"" SchemeVersion=0x12345678";
  mkvec "iso14496_12: schm: with scheme uri" (hex "7363686d") (mkctx false 0 false false false false false)
    "000000017465737412345678666f6f3a2f2f6261722f62617a"
    "Version=0 Flags=0x000001 SchemeType=""test"" SchemeVersion=0x12345678 SchemeUri=""foo://bar/baz""";
  mkvec "iso14496_12: sdtp" (hex "73647470") (mkctx false 0 false false false false false)
    "00000000001be4"
    "Version=0 Flags=0x000000 Samples=[{IsLeading=0x0 SampleDependsOn=0x0 SampleIsDependedOn=0x0 SampleHasRedundancy=0x0}, {IsLeading=0x0 SampleDependsOn=0x1 SampleIsDependedOn=0x2 SampleHasRedundancy=0x3}, {IsLeading=0x3 SampleDependsOn=0x2 SampleIsDependedOn=0x1 SampleHasRedundancy=0x0}]";
  mkvec "iso14496_12: sgpd: version 1 roll" (hex "73677064") (mkctx false 0 false false false false false)
    "01000000726f6c6c000000020000000211112222"
    "Version=1 Flags=0x000000 GroupingType=""roll"" DefaultLength=2 EntryCount=2 RollDistances=[4369, 8738]";
  mkvec "iso14496_12: sgpd: version 1 prol" (hex "73677064") (mkctx false 0 false false false false false)
    "0100000070726f6c000000020000000211112222"
    "Version=1 Flags=0x000000 GroupingType=""prol"" DefaultLength=2 EntryCount=2 RollDistances=[4369, 8738]";
  mkvec "iso14496_12: sgpd: version 1 alst no-opts" (hex "73677064") (mkctx false 0 false false false false false)
    "01000000616c73740000000c00000002000201230123456789abcdef00024567456789abcdef0123"
    "Version=1 Flags=0x000000 GroupingType=""alst"" DefaultLength=12 EntryCount=2 AlternativeStartupEntries=[{RollCount=2 FirstOutputSample=291 SampleOffset=[19088743, 2309737967] Opts=[]}, {RollCount=2 FirstOutputSample=17767 SampleOffset=[1164413355, 3454992675] Opts=[]}]";
  mkvec "iso14496_12: sgpd: version 1 alst default-length" (hex "73677064") (mkctx false 0 false false false false false)
    "01000000616c73740000001400000002000201230123456789abcdef0123456789abcdef00024567456789abcdef01230123456789abcdef"
    "Version=1 Flags=0x000000 GroupingType=""alst"" DefaultLength=20 EntryCount=2 AlternativeStartupEntries=[{RollCount=2 FirstOutputSample=291 SampleOffset=[19088743, 2309737967] Opts=[{NumOutputSamples=291 NumTotalSamples=17767}, {NumOutputSamples=35243 NumTotalSamples=52719}]}, {RollCount=2 FirstOutputSample=17767 SampleOffset=[1164413355, 3454992675] Opts=[{NumOutputSamples=291 NumTotalSamples=17767}, {NumOutputSamples=35243 NumTotalSamples=52719}]}]";
  mkvec "iso14496_12: sgpd: version 1 alst no-default-length" (hex "73677064") (mkctx false 0 false false false false false)
    "01000000616c7374000000000000000200000010000201230123456789abcdef012345670000001400024567456789abcdef01230123456789abcdef"
    "Version=1 Flags=0x000000 GroupingType=""alst"" DefaultLength=0 EntryCount=2 AlternativeStartupEntriesL=[{DescriptionLength=16 RollCount=2 FirstOutputSample=291 SampleOffset=[19088743, 2309737967] Opts=[{NumOutputSamples=291 NumTotalSamples=17767}]}, {DescriptionLength=20 RollCount=2 FirstOutputSample=17767 SampleOffset=[1164413355, 3454992675] Opts=[{NumOutputSamples=291 NumTotalSamples=17767}, {NumOutputSamples=35243 NumTotalSamples=52719}]}]";
  mkvec "iso14496_12: sgpd: version 1 rap" (hex "73677064") (mkctx false 0 false false false false false)
    "01000000726170200000000100000002a71a"
    "Version=1 Flags=0x000000 GroupingType=""rap "" DefaultLength=1 EntryCount=2 VisualRandomAccessEntries=[{NumLeadingSamplesKnown=true NumLeadingSamples=0x27}, {NumLeadingSamplesKnown=false NumLeadingSamples=0x1a}]";
  mkvec "iso14496_12: sgpd: version 1 tele" (hex "73677064") (mkctx false 0 false false false false false)
    "0100000074656c6500000001000000028000"
    "Version=1 Flags=0x000000 GroupingType=""tele"" DefaultLength=1 EntryCount=2 TemporalLevelEntries=[{LevelIndependentlyDecodable=true}, {LevelIndependentlyDecodable=false}]";
  mkvec "iso14496_12: sgpd: version 2 roll" (hex "73677064") (mkctx false 0 false false false false false)
    "02000000726f6c6c000000050000000211112222"
    "Version=2 Flags=0x000000 GroupingType=""roll"" DefaultSampleDescriptionIndex=5 EntryCount=2 RollDistances=[4369, 8738]";
  mkvec "iso14496_12: sidx: version=0" (hex "73696478") (mkctx false 0 false false false false false)
    "000000000123456723456789456789ab6789abcd000000020123456723456789e9abcdef812345672345678959abcdef"
    "Version=0 Flags=0x000000 ReferenceID=19088743 Timescale=591751049 EarliestPresentationTimeV0=1164413355 FirstOffsetV0=1737075661 ReferenceCount=2 References=[{ReferenceType=false ReferencedSize=19088743 SubsegmentDuration=591751049 StartsWithSAP=true SAPType=6 SAPDeltaTime=162254319}, {ReferenceType=true ReferencedSize=19088743 SubsegmentDuration=591751049 StartsWithSAP=false SAPType=5 SAPDeltaTime=162254319}]";
  mkvec "iso14496_12: sidx: version=1" (hex "73696478") (mkctx false 0 false false false false false)
    "0100000001234567234567890123456789abcdef23456789abcdef01000000020123456723456789e9abcdef812345672345678959abcdef"
    "Version=1 Flags=0x000000 ReferenceID=19088743 Timescale=591751049 EarliestPresentationTimeV1=81985529216486895 FirstOffsetV1=2541551405711093505 ReferenceCount=2 References=[{ReferenceType=false ReferencedSize=19088743 SubsegmentDuration=591751049 StartsWithSAP=true SAPType=6 SAPDeltaTime=162254319}, {ReferenceType=true ReferencedSize=19088743 SubsegmentDuration=591751049 StartsWithSAP=false SAPType=5 SAPDeltaTime=162254319}]";
  mkvec "iso14496_12: sinf" (hex "73696e66") (mkctx false 0 false false false false false)
    ""
    "";
  mkvec "iso14496_12: smhd" (hex "736d6864") (mkctx false 0 false false false false false)
    "0000000001230000"
    "Version=0 Flags=0x000000 Balance=1.137";
  mkvec "iso14496_12: stbl" (hex "7374626c") (mkctx false 0 false false false false false)
    ""
    "";
  mkvec "iso14496_12: stco" (hex "7374636f") (mkctx false 0 false false false false false)
    "00000000000000020123456789abcdef"
    "Version=0 Flags=0x000000 EntryCount=2 ChunkOffset=[19088743, 2309737967]";
  mkvec "iso14496_12: stsc" (hex "73747363") (mkctx false 0 false false false false false)
    "00000000000000020123456723456789456789ab6789abcd89abcdefabcdef01"
    "Version=0 Flags=0x000000 EntryCount=2 Entries=[{FirstChunk=19088743 SamplesPerChunk=591751049 SampleDescriptionIndex=1164413355}, {FirstChunk=1737075661 SamplesPerChunk=2309737967 SampleDescriptionIndex=2882400001}]";
  mkvec "iso14496_12: stsd" (hex "73747364") (mkctx false 0 false false false false false)
    "0000000001234567"
    "Version=0 Flags=0x000000 EntryCount=19088743";
  mkvec "iso14496_12: stss" (hex "73747373") (mkctx false 0 false false false false false)
    "00000000000000020123456789abcdef"
    "Version=0 Flags=0x000000 EntryCount=2 SampleNumber=[19088743, 2309737967]";
  mkvec "iso14496_12: stsz: common sample size" (hex "7374737a") (mkctx false 0 false false false false false)
    "000000000123456700000002"
    "Version=0 Flags=0x000000 SampleSize=19088743 SampleCount=2 EntrySize=[]";
  mkvec "iso14496_12: stsz: sample size array" (hex "7374737a") (mkctx false 0 false false false false false)
    "0000000000000000000000020123456723456789"
    "Version=0 Flags=0x000000 SampleSize=0 SampleCount=2 EntrySize=[19088743, 591751049]";
  mkvec "iso14496_12: stts" (hex "73747473") (mkctx false 0 false false false false false)
    "00000000000000020123456723456789456789ab6789abcd"
    "Version=0 Flags=0x000000 EntryCount=2 Entries=[{SampleCount=19088743 SampleDelta=591751049}, {SampleCount=1164413355 SampleDelta=1737075661}]";
  mkvec "iso14496_12: styp" (hex "73747970") (mkctx false 0 false false false false false)
    "6162656d123456786162636465666768"
    "MajorBrand=""abem"" MinorVersion=305419896 CompatibleBrands=[{CompatibleBrand=""abcd""}, {CompatibleBrand=""efgh""}]";
  mkvec "iso14496_12: tfdt: version 0" (hex "74666474") (mkctx false 0 false false false false false)
    "0000000001234567"
    "Version=0 Flags=0x000000 BaseMediaDecodeTimeV0=19088743";
  mkvec "iso14496_12: tfdt: version 1" (hex "74666474") (mkctx false 0 false false false false false)
    "010000000123456789abcdef"
    "Version=1 Flags=0x000000 BaseMediaDecodeTimeV1=81985529216486895";
  mkvec "iso14496_12: tfhd: no flags" (hex "74666864") (mkctx false 0 false false false false false)
    "0000000008404649"
    "Version=0 Flags=0x000000 TrackID=138430025";
  mkvec "iso14496_12: tfhd: base data offset & default sample duration" (hex "74666864") (mkctx false 0 false false false false false)
    "00000009084046490123456789abcdef23456789"
    "Version=0 Flags=0x000009 TrackID=138430025 BaseDataOffset=81985529216486895 DefaultSampleDuration=591751049";
  mkvec "iso14496_12: tfra: version 0" (hex "74667261") (mkctx false 0 false false false false false)
    "00000000111111110000001b00000002222222223333333344445555556666666677777777888888889999aaaaaabbbbbbbb"
    "Version=0 Flags=0x000000 TrackID=286331153 LengthSizeOfTrafNum=0x1 LengthSizeOfTrunNum=0x2 LengthSizeOfSampleNum=0x3 NumberOfEntry=2 Entries=[{TimeV0=572662306 MoofOffsetV0=858993459 TrafNumber=17476 TrunNumber=5592405 SampleNumber=1717986918}, {TimeV0=2004318071 MoofOffsetV0=2290649224 TrafNumber=39321 TrunNumber=11184810 SampleNumber=3149642683}]";
  mkvec "iso14496_12: tfra: version 1" (hex "74667261") (mkctx false 0 false false false false false)
    "01000000111111110000001b0000000222222222222222223333333333333333444455555566666666777777777777777788888888888888889999aaaaaabbbbbbbb"
    "Version=1 Flags=0x000000 TrackID=286331153 LengthSizeOfTrafNum=0x1 LengthSizeOfTrunNum=0x2 LengthSizeOfSampleNum=0x3 NumberOfEntry=2 Entries=[{TimeV1=2459565876494606882 MoofOffsetV1=3689348814741910323 TrafNumber=17476 TrunNumber=5592405 SampleNumber=1717986918}, {TimeV1=8608480567731124087 MoofOffsetV1=9838263505978427528 TrafNumber=39321 TrunNumber=11184810 SampleNumber=3149642683}]";
  mkvec "iso14496_12: tkhd version 0" (hex "746b6864") (mkctx false 0 false false false false false)
    "000000000123456712345678234567893456789a456789ab00000000000000005ba0a460010000000001000000000000000000000000000000010000000000000000000000000000400000000780000004380000"
    "Version=0 Flags=0x000000 CreationTimeV0=19088743 ModificationTimeV0=305419896 TrackID=591751049 DurationV0=1164413355 Layer=23456 AlternateGroup=-23456 Volume=256 Matrix=[0x10000, 0x0, 0x0, 0x0, 0x10000, 0x0, 0x0, 0x0, 0x40000000] Width=1920 Height=1080";
  mkvec "iso14496_12: tkhd version 1" (hex "746b6864") (mkctx false 0 false false false false false)
    "010000000123456789abcdef123456789abcdef0234567893456789a456789abcdef012300000000000000005ba0a460010000000001000000000000000000000000000000010000000000000000000000000000400000000780000004380000"
    "Version=1 Flags=0x000000 CreationTimeV1=81985529216486895 ModificationTimeV1=1311768467463790320 TrackID=591751049 DurationV1=5001117282205630755 Layer=23456 AlternateGroup=-23456 Volume=256 Matrix=[0x10000, 0x0, 0x0, 0x0, 0x10000, 0x0, 0x0, 0x0, 0x40000000] Width=1920 Height=1080";
  mkvec "iso14496_12: traf" (hex "74726166") (mkctx false 0 false false false false false)
    ""
    "";
  mkvec "iso14496_12: trak" (hex "7472616b") (mkctx false 0 false false false false false)
    ""
    "";
  mkvec "iso14496_12: trep" (hex "74726570") (mkctx false 0 false false false false false)
    "0000000001234567"
    "Version=0 Flags=0x000000 TrackID=19088743";
  mkvec "iso14496_12: trex" (hex "74726578") (mkctx false 0 false false false false false)
    "000000000123456723456789456789ab6789abcd89abcdef"
    "Version=0 Flags=0x000000 TrackID=19088743 DefaultSampleDescriptionIndex=591751049 DefaultSampleDuration=1164413355 DefaultSampleSize=1737075661 DefaultSampleFlags=0x89abcdef";
  mkvec "iso14496_12: trun: version=0 flag=0x101" (hex "7472756e") (mkctx false 0 false false false false false)
    "000001010000000300000032000000640000006500000066"
    "Version=0 Flags=0x000101 SampleCount=3 DataOffset=50 Entries=[{SampleDuration=100}, {SampleDuration=101}, {SampleDuration=102}]";
  mkvec "iso14496_12: trun: version=0 flag=0x204" (hex "7472756e") (mkctx false 0 false false false false false)
    "000002040000000302468ace000000640000006500000066"
    "Version=0 Flags=0x000204 SampleCount=3 FirstSampleFlags=0x2468ace Entries=[{SampleSize=100}, {SampleSize=101}, {SampleSize=102}]";
  mkvec "iso14496_12: trun: version=0 flag=0xc00" (hex "7472756e") (mkctx false 0 false false false false false)
    "00000c000000000300000064000000c800000065000000c900000066000000ca"
    "Version=0 Flags=0x000c00 SampleCount=3 Entries=[{SampleFlags=0x64 SampleCompositionTimeOffsetV0=200}, {SampleFlags=0x65 SampleCompositionTimeOffsetV0=201}, {SampleFlags=0x66 SampleCompositionTimeOffsetV0=202}]";
  mkvec "iso14496_12: trun: version=1 flag=0x800" (hex "7472756e") (mkctx false 0 false false false false false)
    "0100080000000003000000c8000000c9ffffff36"
    "Version=1 Flags=0x000800 SampleCount=3 Entries=[{SampleCompositionTimeOffsetV1=200}, {SampleCompositionTimeOffsetV1=201}, {SampleCompositionTimeOffsetV1=-202}]";
  mkvec "iso14496_12: udta" (hex "75647461") (mkctx false 0 false false false false false)
    ""
    "";
  mkvec "iso14496_12: vmhd" (hex "766d6864") (mkctx false 0 false false false false false)
    "000000000123234545676789"
    "Version=0 Flags=0x000000 Graphicsmode=291 Opcolor=[9029, 17767, 26505]";
  mkvec "iso14496_14: esds" (hex "65736473") (mkctx false 0 false false false false false)
    "0000000003898d8a671234a32345345603898d8a671234430b687474703a2f2f686f676504898d8a6712561234561234567823456789058080800311223306808080051122334455"
    "Version=0 Flags=0x000000 Descriptors=[{Tag=ESDescr Size=19088743 ESID=4660 StreamDependenceFlag=true UrlFlag=false OcrStreamFlag=true StreamPriority=3 DependsOnESID=9029 OCRESID=13398}, {Tag=ESDescr Size=19088743 ESID=4660 StreamDependenceFlag=false UrlFlag=true OcrStreamFlag=false StreamPriority=3 URLLength=0xb URLString=""http://hoge""}, {Tag=DecoderConfigDescr Size=19088743 ObjectTypeIndication=0x12 StreamType=21 UpStream=true Reserved=false BufferSizeDB=1193046 MaxBitrate=305419896 AvgBitrate=591751049}, {Tag=DecSpecificInfo Size=3 Data=[0x11, 0x22, 0x33]}, {Tag=SLConfigDescr Size=5 Data=[0x11, 0x22, 0x33, 0x44, 0x55]}]";
  mkvec "iso14496_30: vttC" (hex "76747443") (mkctx false 0 false false false false false)
    "5745425654540a"
    "Config=""WEBVTT.""";
  mkvec "iso14496_30: vlab" (hex "766c6162") (mkctx false 0 false false false false false)
    "536f75726365"
    "SourceLabel=""Source""";
  mkvec "iso14496_30: wvtt" (hex "77767474") (mkctx false 0 false false false false false)
    "0000000000001234"
    "DataReferenceIndex=4660";
  mkvec "iso14496_30: vsid" (hex "76736964") (mkctx false 0 false false false false false)
    "00000000"
    "SourceId=0";
  mkvec "iso14496_30: ctim" (hex "6374696d") (mkctx false 0 false false false false false)
    "30303a30303a30302e303030"
    "CueCurrentTime=""00:00:00.000""";
  mkvec "iso14496_30: iden" (hex "6964656e") (mkctx false 0 false false false false false)
    "6578616d706c655f6964"
    "CueId=""example_id""";
  mkvec "iso14496_30: sttg" (hex "73747467") (mkctx false 0 false false false false false)
    "6c696e653d30"
    "Settings=""line=0""";
  mkvec "iso14496_30: payl" (hex "7061796c") (mkctx false 0 false false false false false)
    "73616d706c65"
    "CueText=""sample""";
  mkvec "iso14496_30: vtta" (hex "76747461") (mkctx false 0 false false false false false)
    "74657374"
    "CueAdditionalText=""test""";
  mkvec "iso23001_5: pcmC" (hex "70636d43") (mkctx false 0 false false false false false)
    "000000000120"
    "Version=0 Flags=0x000000 FormatFlags=0x1 PCMSampleSize=0x20";
  mkvec "iso23001_7: pssh: version 0: no KIDs" (hex "70737368") (mkctx false 0 false false false false false)
    "000000000102030405060708090a0b0c0d0e0f10000000052122232425"
    "Version=0 Flags=0x000000 SystemID=01020304-0506-0708-090a-0b0c0d0e0f10 DataSize=5 Data=[0x21, 0x22, 0x23, 0x24, 0x25]";
  mkvec "iso23001_7: pssh: version 1: with KIDs" (hex "70737368") (mkctx false 0 false false false false false)
    "010000000102030405060708090a0b0c0d0e0f10000000021112131415161718191a1b1c1d1e1f102122232425262728292a2b2c2d2e2f20000000052122232425"
    "Version=1 Flags=0x000000 SystemID=01020304-0506-0708-090a-0b0c0d0e0f10 KIDCount=2 KIDs=[11121314-1516-1718-191a-1b1c1d1e1f10, 21222324-2526-2728-292a-2b2c2d2e2f20] DataSize=5 Data=[0x21, 0x22, 0x23, 0x24, 0x25]";
  mkvec "iso23001_7: tenc: DefaultIsProtected=1 DefaultPerSampleIVSize=0" (hex "74656e63") (mkctx false 0 false false false false false)
    "0100000000ab01000123456789abcdef0123456789abcdef0401234567"
    "Version=1 Flags=0x000000 Reserved=0 DefaultCryptByteBlock=10 DefaultSkipByteBlock=11 DefaultIsProtected=1 DefaultPerSampleIVSize=0 DefaultKID=01234567-89ab-cdef-0123-456789abcdef DefaultConstantIVSize=4 DefaultConstantIV=[0x1, 0x23, 0x45, 0x67]";
  mkvec "iso23001_7: tenc: DefaultIsProtected=0 DefaultPerSampleIVSize=0" (hex "74656e63") (mkctx false 0 false false false false false)
    "0100000000ab00000123456789abcdef0123456789abcdef"
    "Version=1 Flags=0x000000 Reserved=0 DefaultCryptByteBlock=10 DefaultSkipByteBlock=11 DefaultIsProtected=0 DefaultPerSampleIVSize=0 DefaultKID=01234567-89ab-cdef-0123-456789abcdef";
  mkvec "iso23001_7: tenc: DefaultIsProtected=1 DefaultPerSampleIVSize=1" (hex "74656e63") (mkctx false 0 false false false false false)
    "0100000000ab01010123456789abcdef0123456789abcdef"
    "Version=1 Flags=0x000000 Reserved=0 DefaultCryptByteBlock=10 DefaultSkipByteBlock=11 DefaultIsProtected=1 DefaultPerSampleIVSize=1 DefaultKID=01234567-89ab-cdef-0123-456789abcdef";
  mkvec "metadata: ilst" (hex "696c7374") (mkctx false 0 false false false false false)
    ""
    "";
  mkvec "metadata: ilst meta container" (hex "2d2d2d2d") (mkctx false 0 false true false false false)
    ""
    "";
  mkvec "metadata: ilst data (binary)" (hex "64617461") (mkctx false 0 false false true false false)
    "0000000012345678666f6f"
    "DataType=BINARY DataLang=305419896 Data=[0x66, 0x6f, 0x6f]";
  mkvec "metadata: ilst data (utf8)" (hex "64617461") (mkctx false 0 false false true false false)
    "0000000112345678666f6f"
    "DataType=UTF8 DataLang=305419896 Data=""foo""";
  mkvec "metadata: ilst data (utf8 escaped)" (hex "64617461") (mkctx false 0 false false true false false)
    "000000011234567800666f6f"
    "DataType=UTF8 DataLang=305419896 Data="".foo""";
  mkvec "metadata: ilst data (utf16)" (hex "64617461") (mkctx false 0 false false true false false)
    "0000000212345678666f6f"
    "DataType=UTF16 DataLang=305419896 Data=[0x66, 0x6f, 0x6f]";
  mkvec "metadata: ilst data (mac string)" (hex "64617461") (mkctx false 0 false false true false false)
    "0000000312345678666f6f"
    "DataType=MAC_STR DataLang=305419896 Data=[0x66, 0x6f, 0x6f]";
  mkvec "metadata: ilst data (jpsg)" (hex "64617461") (mkctx false 0 false false true false false)
    "0000000e12345678666f6f"
    "DataType=JPEG DataLang=305419896 Data=[0x66, 0x6f, 0x6f]";
  mkvec "metadata: ilst data (int)" (hex "64617461") (mkctx false 0 false false true false false)
    "0000001512345678666f6f"
    "DataType=INT DataLang=305419896 Data=[0x66, 0x6f, 0x6f]";
  mkvec "metadata: ilst data (float32)" (hex "64617461") (mkctx false 0 false false true false false)
    "0000001612345678666f6f"
    "DataType=FLOAT32 DataLang=305419896 Data=[0x66, 0x6f, 0x6f]";
  mkvec "metadata: ilst data (float64)" (hex "64617461") (mkctx false 0 false false true false false)
    "0000001712345678666f6f"
    "DataType=FLOAT64 DataLang=305419896 Data=[0x66, 0x6f, 0x6f]";
  mkvec "metadata: ilst data (string)" (hex "6d65616e") (mkctx false 0 false false false true false)
    "00666f6f"
    "Data="".foo""";
  mkvec "metadata: ilst numbered item" (hex "00000001") (mkctx false 1 false true false false false)
    "00300000646174610000000012345678666f6f"
    "Version=0 Flags=0x000000 ItemName=""data"" Data={DataType=BINARY DataLang=305419896 Data=[0x66, 0x6f, 0x6f]}";
  mkvec "metadata: keys" (hex "6b657973") (mkctx false 0 false false false false false)
    "00000000000000020000001b6d647461636f6d2e616e64726f69642e76657273696f6e000000196d647461636f6d2e616e64726f69642e6d6f64656c"
    "Version=0 Flags=0x000000 EntryCount=2 Entries=[{KeySize=27 KeyNamespace=""mdta"" KeyValue=""com.android.version""}, {KeySize=25 KeyNamespace=""mdta"" KeyValue=""com.android.model""}]";
  mkvec "opus: dOps" (hex "644f7073") (mkctx false 0 false false false false false)
    "000201380000bb8000000201010102"
    "Version=0 OutputChannelCount=0x2 PreSkip=312 InputSampleRate=48000 OutputGain=0 ChannelMappingFamily=0x2 StreamCount=0x1 CoupledCount=0x1 ChannelMapping=[0x1, 0x2]";
  mkvec "vp: vpcC" (hex "76706343") (mkctx false 0 false false false false false)
    "010000000132a700010a0003050403"
    "Version=1 Flags=0x000000 Profile=0x1 Level=0x32 BitDepth=0xa ChromaSubsampling=0x3 VideoFullRangeFlag=0x1 ColourPrimaries=0x0 TransferCharacteristics=0x1 MatrixCoefficients=0xa CodecInitializationDataSize=3 CodecInitializationData=[0x5, 0x4, 0x3]"
].
(* not covered: box_types_iso14496_30_test.go vttc: no bin *)
(* not covered: box_types_iso14496_30_test.go vtte: no bin *)
