(** Box specific methods GetFieldSize, GetFieldLength, IsOptFieldEnabled of the
    box types, transcribed case by case.  The receiver's struct name and the
    field name select the case; where the Go method falls through to its last
    statement the entry is that statement (a panic, 0 or false). *)
From Verif Require Import Base Schema.
Local Open Scope string_scope.
Local Open Scope list_scope.
Local Open Scope N_scope.

Definition str_in (s : string) (l : list string) : bool := existsb (String.eqb s) l.

(** GetFieldSize.  box.go:38-41 is the default (panic). *)
Definition m_size (sname fname : string) : mexp :=
  (* box_types_iso14496_12.go:346-365 *)
  if String.eqb sname "Elst" then
    if String.eqb fname "Entries" then
      MIf (CVersion 0) (MConst 96) (MIf (CVersion 1) (MConst 160) MPanic)
    else MPanic
  (* box_types_iso14496_12.go:1610-1616 *)
  else if String.eqb sname "Sgpd" then
    if String.eqb fname "AlternativeStartupEntries" then MMul32 (MField "DefaultLength") (MConst 8)
    else MConst 0
  (* box_types_iso14496_12.go:1675-1681 *)
  else if String.eqb sname "AlternativeStartupEntryL" then
    if String.eqb fname "AlternativeStartupEntry" then MMul32 (MField "DescriptionLength") (MConst 8)
    else MConst 0
  (* box_types_iso14496_12.go:2119-2146 *)
  else if String.eqb sname "Tfra" then
    let traf := MMul (MAdd (MField "LengthSizeOfTrafNum") (MConst 1)) (MConst 8) in
    let trun := MMul (MAdd (MField "LengthSizeOfTrunNum") (MConst 1)) (MConst 8) in
    let smpl := MMul (MAdd (MField "LengthSizeOfSampleNum") (MConst 1)) (MConst 8) in
    if String.eqb fname "TrafNumber" then traf
    else if String.eqb fname "TrunNumber" then trun
    else if String.eqb fname "SampleNumber" then smpl
    else if String.eqb fname "Entries" then
      MIf (CVersion 0) (MAdd (MAdd (MAdd (MConst 64) traf) trun) smpl)
        (MIf (CVersion 1) (MAdd (MAdd (MAdd (MConst 128) traf) trun) smpl) MPanic)
    else MPanic
  (* box_types_iso14496_12.go:2390-2411 *)
  else if String.eqb sname "Trun" then
    if String.eqb fname "Entries" then
      MAdd (MAdd (MAdd (MIf (CFlag 256) (MConst 32) (MConst 0))
                       (MIf (CFlag 512) (MConst 32) (MConst 0)))
                 (MIf (CFlag 1024) (MConst 32) (MConst 0)))
           (MIf (CFlag 2048) (MConst 32) (MConst 0))
    else MPanic
  else MPanic.

(** GetFieldLength.  box.go:43-46 is the default (panic). *)
Definition m_len (sname fname : string) : mexp :=
  let one (field count : string) (dflt : mexp) :=
    if String.eqb fname field then MField count else dflt in
  (* box_types_iso14496_12.go:53-59 *)
  if String.eqb sname "Co64" then one "ChunkOffset" "EntryCount" MPanic
  (* :215-221 *)
  else if String.eqb sname "Ctts" then one "Entries" "EntryCount" MPanic
  (* :368-374 *)
  else if String.eqb sname "Elst" then one "Entries" "EntryCount" MPanic
  (* :683-689 *)
  else if String.eqb sname "HEVCNalu" then one "NALUnit" "Length" (MConst 0)
  (* :700-706 *)
  else if String.eqb sname "HEVCNaluArray" then one "Nalus" "NumNalus" (MConst 0)
  (* :740-746 *)
  else if String.eqb sname "HvcC" then one "NaluArrays" "NumOfNaluArrays" (MConst 0)
  (* :1143-1149 *)
  else if String.eqb sname "Saio" then
    if str_in fname ["OffsetV0"; "OffsetV1"] then MField "EntryCount" else MPanic
  (* :1191-1197 *)
  else if String.eqb sname "Saiz" then one "SampleInfoSize" "SampleCount" MPanic
  (* :1288-1299 *)
  else if String.eqb sname "AudioSampleEntry" then
    if String.eqb fname "QuickTimeData" then
      MIf CQt
        (MIf CWave (MConst LengthUnlimited)
          (MIf (CFieldIs "EntryVersion" 1) (MConst 16)
            (MIf (CFieldIs "EntryVersion" 2) (MConst 36) (MConst 0))))
        (MConst 0)
    else MConst 0
  (* :1352-1362 *)
  else if String.eqb sname "AVCDecoderConfiguration" then
    if String.eqb fname "SequenceParameterSets" then MField "NumOfSequenceParameterSets"
    else if String.eqb fname "PictureParameterSets" then MField "NumOfPictureParameterSets"
    else if String.eqb fname "SequenceParameterSetsExt" then MField "NumOfSequenceParameterSetExt"
    else MConst 0
  (* :1411-1417 *)
  else if String.eqb sname "AVCParameterSet" then one "NALUnit" "Length" (MConst 0)
  (* :1471-1477 *)
  else if String.eqb sname "Sbgp" then one "Entries" "EntryCount" MPanic
  (* :1618-1627 *)
  else if String.eqb sname "Sgpd" then
    if str_in fname ["RollDistances"; "RollDistancesL"; "AlternativeStartupEntries";
                     "AlternativeStartupEntriesL"; "VisualRandomAccessEntries";
                     "VisualRandomAccessEntriesL"; "TemporalLevelEntries";
                     "TemporalLevelEntriesL"] then MField "EntryCount"
    else MConst 0
  (* :1667-1673 *)
  else if String.eqb sname "AlternativeStartupEntry" then one "SampleOffset" "RollCount" (MConst 0)
  (* promoted from AlternativeStartupEntry: the receiver is the embedded struct;
     AlternativeStartupEntryL itself has no dynamic length field *)
  else if String.eqb sname "AlternativeStartupEntryL" then MConst 0
  (* :1717-1723 *)
  else if String.eqb sname "Sidx" then one "References" "ReferenceCount" MPanic
  (* :1840-1846 *)
  else if String.eqb sname "Stco" then one "ChunkOffset" "EntryCount" MPanic
  (* :1875-1881 *)
  else if String.eqb sname "Stsc" then one "Entries" "EntryCount" MPanic
  (* :1922-1928 *)
  else if String.eqb sname "Stss" then one "SampleNumber" "EntryCount" MPanic
  (* :1952-1961 *)
  else if String.eqb sname "Stsz" then
    if String.eqb fname "EntrySize" then
      MIf (CFieldIs "SampleSize" 0) (MField "SampleCount") (MConst 0)
    else MPanic
  (* :1989-1995 *)
  else if String.eqb sname "Stts" then one "Entries" "EntryCount" MPanic
  (* :2149-2155 *)
  else if String.eqb sname "Tfra" then one "Entries" "NumberOfEntry" MPanic
  (* :2413-2419 *)
  else if String.eqb sname "Trun" then one "Entries" "SampleCount" MPanic
  (* box_types_iso14496_14.go:43-49 *)
  else if String.eqb sname "Descriptor" then one "Data" "Size" MPanic
  (* box_types_iso14496_14.go:96-102 *)
  else if String.eqb sname "ESDescriptor" then one "URLString" "URLLength" MPanic
  (* box_types_iso23001_7.go:33-41 *)
  else if String.eqb sname "Pssh" then
    if String.eqb fname "KIDs" then MField "KIDCount"
    else if String.eqb fname "Data" then MField "DataSize"
    else MPanic
  (* box_types_iso23001_7.go:97-103 *)
  else if String.eqb sname "Tenc" then one "DefaultConstantIV" "DefaultConstantIVSize" MPanic
  (* box_types_metadata.go:219-225 *)
  else if String.eqb sname "Keys" then one "Entries" "EntryCount" MPanic
  (* box_types_metadata.go:239-246 *)
  else if String.eqb sname "Key" then
    if String.eqb fname "KeyValue" then MSub (MField "KeySize") (MConst 8) else MPanic
  (* box_types_opus.go:48-54 *)
  else if String.eqb sname "DOps" then one "ChannelMapping" "OutputChannelCount" (MConst 0)
  (* box_types_vp.go:47-53 *)
  else if String.eqb sname "VpcC" then
    one "CodecInitializationData" "CodecInitializationDataSize" (MConst 0)
  else MPanic.

(** IsOptFieldEnabled.  box.go:48-51 is the default (false). *)
Definition m_opt (sname fname : string) : mcond :=
  (* box_types_iso14496_12.go:81-100 *)
  if String.eqb sname "Colr" then
    let nclx := CFieldS "ColourType" "nclx" in
    let icc := COr (CFieldS "ColourType" "rICC") (CFieldS "ColourType" "prof") in
    if str_in fname ["ColourType"; "ColourPrimaries"; "TransferCharacteristics";
                     "MatrixCoefficients"; "FullRangeFlag"; "Reserved"] then nclx
    else if String.eqb fname "Profile" then CAnd (CNot nclx) icc
    else if String.eqb fname "Unknown" then CAnd (CNot nclx) (CNot icc)
    else CFalse
  (* :1183-1189 *)
  else if String.eqb sname "Saiz" then
    if String.eqb fname "SampleInfoSize" then CFieldIs "DefaultSampleInfoSize" 0 else CFalse
  (* :1278-1286 *)
  else if String.eqb sname "AudioSampleEntry" then
    if String.eqb fname "QuickTimeData" then
      CAnd CQt (COr CWave (COr (CFieldIs "EntryVersion" 1) (CFieldIs "EntryVersion" 2)))
    else CNot (CAnd CQt CWave)
  (* :1364-1377 *)
  else if String.eqb sname "AVCDecoderConfiguration" then
    if str_in fname ["Reserved3"; "ChromaFormat"; "Reserved4"; "BitDepthLumaMinus8"; "Reserved5";
                     "BitDepthChromaMinus8"; "NumOfSequenceParameterSetExt";
                     "SequenceParameterSetsExt"]
    then CFieldB "HighProfileFieldsEnabled" else CFalse
  (* :1629-1661 *)
  else if String.eqb sname "Sgpd" then
    let noDefaultLength := CAnd (CVersion 1) (CFieldIs "DefaultLength" 0) in
    let roll := COr (CFieldS "GroupingType" "roll") (CFieldS "GroupingType" "prol") in
    let alst := CFieldS "GroupingType" "alst" in
    let rap := CFieldS "GroupingType" "rap " in
    let tele := CFieldS "GroupingType" "tele" in
    if String.eqb fname "RollDistances" then CAnd roll (CNot noDefaultLength)
    else if String.eqb fname "RollDistancesL" then CAnd roll noDefaultLength
    else if String.eqb fname "AlternativeStartupEntries" then CAnd alst (CNot noDefaultLength)
    else if String.eqb fname "AlternativeStartupEntriesL" then CAnd alst noDefaultLength
    else if String.eqb fname "VisualRandomAccessEntries" then CAnd rap (CNot noDefaultLength)
    else if String.eqb fname "VisualRandomAccessEntriesL" then CAnd rap noDefaultLength
    else if String.eqb fname "TemporalLevelEntries" then CAnd tele (CNot noDefaultLength)
    else if String.eqb fname "TemporalLevelEntriesL" then CAnd tele noDefaultLength
    else if String.eqb fname "Unsupported" then
      CAnd (CAnd (CAnd (CNot roll) (CNot alst)) (CNot rap)) (CNot tele)
    else CFalse
  (* box_types_iso14496_14.go:51-60 *)
  else if String.eqb sname "Descriptor" then
    let es := CFieldZ "Tag" 3 in
    let dc := CFieldZ "Tag" 4 in
    if String.eqb fname "ESDescriptor" then es
    else if String.eqb fname "DecoderConfigDescriptor" then CAnd (CNot es) dc
    else if String.eqb fname "Data" then CAnd (CNot es) (CNot dc)
    else CFalse
  (* box_types_iso14496_14.go:104-115 *)
  else if String.eqb sname "ESDescriptor" then
    if String.eqb fname "DependsOnESID" then CFieldB "StreamDependenceFlag"
    else if str_in fname ["URLLength"; "URLString"] then CFieldB "UrlFlag"
    else if String.eqb fname "OCRESID" then CFieldB "OcrStreamFlag"
    else CFalse
  (* box_types_iso23001_7.go:89-95 *)
  else if String.eqb sname "Tenc" then
    if str_in fname ["DefaultConstantIVSize"; "DefaultConstantIV"] then
      CAnd (CFieldIs "DefaultIsProtected" 1) (CFieldIs "DefaultPerSampleIVSize" 0)
    else CFalse
  (* box_types_opus.go:40-46 *)
  else if String.eqb sname "DOps" then
    if str_in fname ["StreamCount"; "CoupledCount"; "ChannelMapping"] then
      CNot (CFieldIs "ChannelMappingFamily" 0)
    else CFalse
  else CFalse.

(** ** resolveFieldInstance and isTargetField: field.go:258-305.
    [cname]/[cenv]: the custom field object in force: the struct itself when it
    implements the interface, else the whole box. *)
Definition resolve_size (cname : string) (cenv : menv) (f : finfo) : option N :=
  if f_sizeDyn f then meval cenv (m_size cname (f_name f)) else Some (f_size f).
Definition resolve_len (cname : string) (cenv : menv) (f : finfo) : option N :=
  if f_lenDyn f then meval cenv (m_len cname (f_name f)) else Some (f_length f).

Definition is_target (ver flags : N) (cname : string) (cenv : menv) (f : finfo) : bool :=
  negb (negb (ver =? anyVersion) &&
        ((negb (f_version f =? anyVersion) && negb (ver =? f_version f)) ||
         (negb (f_nVersion f =? anyVersion) && (ver =? f_nVersion f))))
  && negb (negb (f_optFlag f =? 0) && (N.land flags (f_optFlag f) =? 0))
  && negb (negb (f_nOptFlag f =? 0) && negb (N.land flags (f_nOptFlag f) =? 0))
  && negb (f_optDyn f && negb (ceval cenv (m_opt cname (f_name f)))).

(** Field hooks.  Only three box types override OnReadField/OnWriteField. *)
Inductive hook : Set :=
| HNone
| HEmsgSkip            (* emsg SchemeIdUri, Value: box_types_iso14496_12.go:424-426, 448-450 *)
| HEmsgData            (* emsg MessageData: :427-437, 451-459 *)
| HHdlrName            (* hdlr Name: :626-673 *)
| HAvcHigh.            (* avcC HighProfileFieldsEnabled: :1379-1404 *)
Definition hook_of (sname fname : string) : hook :=
  if String.eqb sname "Emsg" then
    if str_in fname ["SchemeIdUri"; "Value"] then HEmsgSkip
    else if String.eqb fname "MessageData" then HEmsgData else HNone
  else if String.eqb sname "Hdlr" then
    if String.eqb fname "Name" then HHdlrName else HNone
  else if String.eqb sname "AVCDecoderConfiguration" then
    if String.eqb fname "HighProfileFieldsEnabled" then HAvcHigh else HNone
  else HNone.
