(** Generated by tools/gen_structs.py from the Go sources: struct types with
    their tags, and the box registrations in initialisation order. *)
From Verif Require Import Base Schema.
Local Open Scope string_scope.
Local Open Scope list_scope.
Local Open Scope N_scope.

(* box.go:35-36 *)
Definition t_BaseCustomFieldObject : gty := GStruct "BaseCustomFieldObject" (
  GNil).

(* box.go:108-110 *)
Definition t_Box : gty := GStruct "Box" (
  GCons true "BaseCustomFieldObject" (t_BaseCustomFieldObject) None (
  GNil)).

(* box.go:144-148 *)
Definition t_FullBox : gty := GStruct "FullBox" (
  GCons true "BaseCustomFieldObject" (t_BaseCustomFieldObject) None (
  GCons false "Version" (GUint 8) (Some "0,size=8") (
  GCons false "Flags" (GArray 3 (GUint 8)) (Some "1,size=8") (
  GNil)))).

(* anytype.go:8-11 *)
Definition t_AnyTypeBox : gty := GStruct "AnyTypeBox" (
  GCons true "Box" (t_Box) None (
  GCons false "Type" (GArray 4 (GUint 8)) None (
  GNil))).

(* box_types_3gpp.go:18-24 *)
Definition t_Udta3GppString : gty := GStruct "Udta3GppString" (
  GCons true "AnyTypeBox" (t_AnyTypeBox) None (
  GCons true "FullBox" (t_FullBox) (Some "0,extend") (
  GCons false "Pad" (GBool) (Some "1,size=1,hidden") (
  GCons false "Language" (GArray 3 (GUint 8)) (Some "2,size=5,iso639-2") (
  GCons false "Data" (GSlice (GUint 8)) (Some "3,size=8,string") (
  GNil)))))).

(* box_types_av1.go:23-40 *)
Definition t_Av1C : gty := GStruct "Av1C" (
  GCons true "Box" (t_Box) None (
  GCons false "Marker" (GUint 8) (Some "0,size=1,const=1") (
  GCons false "Version" (GUint 8) (Some "1,size=7,const=1") (
  GCons false "SeqProfile" (GUint 8) (Some "2,size=3") (
  GCons false "SeqLevelIdx0" (GUint 8) (Some "3,size=5") (
  GCons false "SeqTier0" (GUint 8) (Some "4,size=1") (
  GCons false "HighBitdepth" (GUint 8) (Some "5,size=1") (
  GCons false "TwelveBit" (GUint 8) (Some "6,size=1") (
  GCons false "Monochrome" (GUint 8) (Some "7,size=1") (
  GCons false "ChromaSubsamplingX" (GUint 8) (Some "8,size=1") (
  GCons false "ChromaSubsamplingY" (GUint 8) (Some "9,size=1") (
  GCons false "ChromaSamplePosition" (GUint 8) (Some "10,size=2") (
  GCons false "Reserved" (GUint 8) (Some "11,size=3,const=0") (
  GCons false "InitialPresentationDelayPresent" (GUint 8) (Some "12,size=1") (
  GCons false "InitialPresentationDelayMinusOne" (GUint 8) (Some "13,size=4") (
  GCons false "ConfigOBUs" (GSlice (GUint 8)) (Some "14,size=8") (
  GNil))))))))))))))))).

(* box_types_etsi_ts_102_366.go:23-32 *)
Definition t_Dac3 : gty := GStruct "Dac3" (
  GCons true "Box" (t_Box) None (
  GCons false "Fscod" (GUint 8) (Some "0,size=2") (
  GCons false "Bsid" (GUint 8) (Some "1,size=5") (
  GCons false "Bsmod" (GUint 8) (Some "2,size=3") (
  GCons false "Acmod" (GUint 8) (Some "3,size=3") (
  GCons false "LfeOn" (GUint 8) (Some "4,size=1") (
  GCons false "BitRateCode" (GUint 8) (Some "5,size=5") (
  GCons false "Reserved" (GUint 8) (Some "6,size=5,const=0") (
  GNil))))))))).

(* box_types_iso14496_12.go:21-26 *)
Definition t_Btrt : gty := GStruct "Btrt" (
  GCons true "Box" (t_Box) None (
  GCons false "BufferSizeDB" (GUint 32) (Some "0,size=32") (
  GCons false "MaxBitrate" (GUint 32) (Some "1,size=32") (
  GCons false "AvgBitrate" (GUint 32) (Some "2,size=32") (
  GNil))))).

(* box_types_iso14496_12.go:41-45 *)
Definition t_Co64 : gty := GStruct "Co64" (
  GCons true "FullBox" (t_FullBox) (Some "0,extend") (
  GCons false "EntryCount" (GUint 32) (Some "1,size=32") (
  GCons false "ChunkOffset" (GSlice (GUint 64)) (Some "2,size=64,len=dynamic") (
  GNil)))).

(* box_types_iso14496_12.go:69-79 *)
Definition t_Colr : gty := GStruct "Colr" (
  GCons true "Box" (t_Box) None (
  GCons false "ColourType" (GArray 4 (GUint 8)) (Some "0,size=8,string") (
  GCons false "ColourPrimaries" (GUint 16) (Some "1,size=16,opt=dynamic") (
  GCons false "TransferCharacteristics" (GUint 16) (Some "2,size=16,opt=dynamic") (
  GCons false "MatrixCoefficients" (GUint 16) (Some "3,size=16,opt=dynamic") (
  GCons false "FullRangeFlag" (GBool) (Some "4,size=1,opt=dynamic") (
  GCons false "Reserved" (GUint 8) (Some "5,size=7,opt=dynamic") (
  GCons false "Profile" (GSlice (GUint 8)) (Some "6,size=8,opt=dynamic") (
  GCons false "Unknown" (GSlice (GUint 8)) (Some "7,size=8,opt=dynamic") (
  GNil)))))))))).

(* box_types_iso14496_12.go:115-127 *)
Definition t_Cslg : gty := GStruct "Cslg" (
  GCons true "FullBox" (t_FullBox) (Some "0,extend") (
  GCons false "CompositionToDTSShiftV0" (GInt 32) (Some "1,size=32,ver=0") (
  GCons false "LeastDecodeToDisplayDeltaV0" (GInt 32) (Some "2,size=32,ver=0") (
  GCons false "GreatestDecodeToDisplayDeltaV0" (GInt 32) (Some "3,size=32,ver=0") (
  GCons false "CompositionStartTimeV0" (GInt 32) (Some "4,size=32,ver=0") (
  GCons false "CompositionEndTimeV0" (GInt 32) (Some "5,size=32,ver=0") (
  GCons false "CompositionToDTSShiftV1" (GInt 64) (Some "6,size=64,nver=0") (
  GCons false "LeastDecodeToDisplayDeltaV1" (GInt 64) (Some "7,size=64,nver=0") (
  GCons false "GreatestDecodeToDisplayDeltaV1" (GInt 64) (Some "8,size=64,nver=0") (
  GCons false "CompositionStartTimeV1" (GInt 64) (Some "9,size=64,nver=0") (
  GCons false "CompositionEndTimeV1" (GInt 64) (Some "10,size=64,nver=0") (
  GNil)))))))))))).

(* box_types_iso14496_12.go:203-207 *)
Definition t_CttsEntry : gty := GStruct "CttsEntry" (
  GCons false "SampleCount" (GUint 32) (Some "0,size=32") (
  GCons false "SampleOffsetV0" (GUint 32) (Some "1,size=32,ver=0") (
  GCons false "SampleOffsetV1" (GInt 32) (Some "2,size=32,ver=1") (
  GNil)))).

(* box_types_iso14496_12.go:197-201 *)
Definition t_Ctts : gty := GStruct "Ctts" (
  GCons true "FullBox" (t_FullBox) (Some "0,extend") (
  GCons false "EntryCount" (GUint 32) (Some "1,size=32") (
  GCons false "Entries" (GSlice (t_CttsEntry)) (Some "2,len=dynamic,size=64") (
  GNil)))).

(* box_types_iso14496_12.go:243-245 *)
Definition t_Dinf : gty := GStruct "Dinf" (
  GCons true "Box" (t_Box) None (
  GNil)).

(* box_types_iso14496_12.go:265-268 *)
Definition t_Dref : gty := GStruct "Dref" (
  GCons true "FullBox" (t_FullBox) (Some "0,extend") (
  GCons false "EntryCount" (GUint 32) (Some "1,size=32") (
  GNil))).

(* box_types_iso14496_12.go:275-278 *)
Definition t_Url : gty := GStruct "Url" (
  GCons true "FullBox" (t_FullBox) (Some "0,extend") (
  GCons false "Location" (GString) (Some "1,string,nopt=0x000001") (
  GNil))).

(* box_types_iso14496_12.go:286-290 *)
Definition t_Urn : gty := GStruct "Urn" (
  GCons true "FullBox" (t_FullBox) (Some "0,extend") (
  GCons false "Name" (GString) (Some "1,string,nopt=0x000001") (
  GCons false "Location" (GString) (Some "2,string,nopt=0x000001") (
  GNil)))).

(* box_types_iso14496_12.go:307-309 *)
Definition t_Edts : gty := GStruct "Edts" (
  GCons true "Box" (t_Box) None (
  GNil)).

(* box_types_iso14496_12.go:331-338 *)
Definition t_ElstEntry : gty := GStruct "ElstEntry" (
  GCons false "SegmentDurationV0" (GUint 32) (Some "0,size=32,ver=0") (
  GCons false "MediaTimeV0" (GInt 32) (Some "1,size=32,ver=0") (
  GCons false "SegmentDurationV1" (GUint 64) (Some "2,size=64,ver=1") (
  GCons false "MediaTimeV1" (GInt 64) (Some "3,size=64,ver=1") (
  GCons false "MediaRateInteger" (GInt 16) (Some "4,size=16") (
  GCons false "MediaRateFraction" (GInt 16) (Some "5,size=16,const=0") (
  GNil))))))).

(* box_types_iso14496_12.go:325-329 *)
Definition t_Elst : gty := GStruct "Elst" (
  GCons true "FullBox" (t_FullBox) (Some "0,extend") (
  GCons false "EntryCount" (GUint 32) (Some "1,size=32") (
  GCons false "Entries" (GSlice (t_ElstEntry)) (Some "2,len=dynamic,size=dynamic") (
  GNil)))).

(* box_types_iso14496_12.go:407-417 *)
Definition t_Emsg : gty := GStruct "Emsg" (
  GCons true "FullBox" (t_FullBox) (Some "0,extend") (
  GCons false "SchemeIdUri" (GString) (Some "1,string") (
  GCons false "Value" (GString) (Some "2,string") (
  GCons false "Timescale" (GUint 32) (Some "3,size=32") (
  GCons false "PresentationTimeDelta" (GUint 32) (Some "4,size=32,ver=0") (
  GCons false "PresentationTime" (GUint 64) (Some "5,size=64,ver=1") (
  GCons false "EventDuration" (GUint 32) (Some "6,size=32") (
  GCons false "Id" (GUint 32) (Some "7,size=32") (
  GCons false "MessageData" (GSlice (GUint 8)) (Some "8,size=8,string") (
  GNil)))))))))).

(* box_types_iso14496_12.go:478-482 *)
Definition t_Fiel : gty := GStruct "Fiel" (
  GCons true "Box" (t_Box) None (
  GCons false "FieldCount" (GUint 8) (Some "0,size=8") (
  GCons false "FieldOrdering" (GUint 8) (Some "1,size=8") (
  GNil)))).

(* box_types_iso14496_12.go:498-501 *)
Definition t_FreeSpace : gty := GStruct "FreeSpace" (
  GCons true "Box" (t_Box) None (
  GCons false "Data" (GSlice (GUint 8)) (Some "0,size=8") (
  GNil))).

(* box_types_iso14496_12.go:503-503 *)
Definition t_Free : gty := GStruct "Free" (
  GCons true "Box" (t_Box) None (
  GCons false "Data" (GSlice (GUint 8)) (Some "0,size=8") (
  GNil))).

(* box_types_iso14496_12.go:509-509 *)
Definition t_Skip : gty := GStruct "Skip" (
  GCons true "Box" (t_Box) None (
  GCons false "Data" (GSlice (GUint 8)) (Some "0,size=8") (
  GNil))).

(* box_types_iso14496_12.go:524-527 *)
Definition t_Frma : gty := GStruct "Frma" (
  GCons true "Box" (t_Box) None (
  GCons false "DataFormat" (GArray 4 (GUint 8)) (Some "0,size=8,string") (
  GNil))).

(* box_types_iso14496_12.go:564-566 *)
Definition t_CompatibleBrandElem : gty := GStruct "CompatibleBrandElem" (
  GCons false "CompatibleBrand" (GArray 4 (GUint 8)) (Some "0,size=8,string") (
  GNil)).

(* box_types_iso14496_12.go:557-562 *)
Definition t_Ftyp : gty := GStruct "Ftyp" (
  GCons true "Box" (t_Box) None (
  GCons false "MajorBrand" (GArray 4 (GUint 8)) (Some "0,size=8,string") (
  GCons false "MinorVersion" (GUint 32) (Some "1,size=32") (
  GCons false "CompatibleBrands" (GSlice (t_CompatibleBrandElem)) (Some "2,size=32") (
  GNil))))).

(* box_types_iso14496_12.go:610-619 *)
Definition t_Hdlr : gty := GStruct "Hdlr" (
  GCons true "FullBox" (t_FullBox) (Some "0,extend") (
  GCons false "PreDefined" (GUint 32) (Some "1,size=32") (
  GCons false "HandlerType" (GArray 4 (GUint 8)) (Some "2,size=8,string") (
  GCons false "Reserved" (GArray 3 (GUint 32)) (Some "3,size=32,const=0") (
  GCons false "Name" (GString) (Some "4,string") (
  GNil)))))).

(* box_types_iso14496_12.go:677-681 *)
Definition t_HEVCNalu : gty := GStruct "HEVCNalu" (
  GCons true "BaseCustomFieldObject" (t_BaseCustomFieldObject) None (
  GCons false "Length" (GUint 16) (Some "0,size=16") (
  GCons false "NALUnit" (GSlice (GUint 8)) (Some "1,size=8,len=dynamic") (
  GNil)))).

(* box_types_iso14496_12.go:691-698 *)
Definition t_HEVCNaluArray : gty := GStruct "HEVCNaluArray" (
  GCons true "BaseCustomFieldObject" (t_BaseCustomFieldObject) None (
  GCons false "Completeness" (GBool) (Some "0,size=1") (
  GCons false "Reserved" (GBool) (Some "1,size=1") (
  GCons false "NaluType" (GUint 8) (Some "2,size=6") (
  GCons false "NumNalus" (GUint 16) (Some "3,size=16") (
  GCons false "Nalus" (GSlice (t_HEVCNalu)) (Some "4,len=dynamic") (
  GNil))))))).

(* box_types_iso14496_12.go:708-734 *)
Definition t_HvcC : gty := GStruct "HvcC" (
  GCons true "Box" (t_Box) None (
  GCons false "ConfigurationVersion" (GUint 8) (Some "0,size=8") (
  GCons false "GeneralProfileSpace" (GUint 8) (Some "1,size=2") (
  GCons false "GeneralTierFlag" (GBool) (Some "2,size=1") (
  GCons false "GeneralProfileIdc" (GUint 8) (Some "3,size=5") (
  GCons false "GeneralProfileCompatibility" (GArray 32 (GBool)) (Some "4,size=1") (
  GCons false "GeneralConstraintIndicator" (GArray 6 (GUint 8)) (Some "5,size=8") (
  GCons false "GeneralLevelIdc" (GUint 8) (Some "6,size=8") (
  GCons false "Reserved1" (GUint 8) (Some "7,size=4,const=15") (
  GCons false "MinSpatialSegmentationIdc" (GUint 16) (Some "8,size=12") (
  GCons false "Reserved2" (GUint 8) (Some "9,size=6,const=63") (
  GCons false "ParallelismType" (GUint 8) (Some "10,size=2") (
  GCons false "Reserved3" (GUint 8) (Some "11,size=6,const=63") (
  GCons false "ChromaFormatIdc" (GUint 8) (Some "12,size=2") (
  GCons false "Reserved4" (GUint 8) (Some "13,size=5,const=31") (
  GCons false "BitDepthLumaMinus8" (GUint 8) (Some "14,size=3") (
  GCons false "Reserved5" (GUint 8) (Some "15,size=5,const=31") (
  GCons false "BitDepthChromaMinus8" (GUint 8) (Some "16,size=3") (
  GCons false "AvgFrameRate" (GUint 16) (Some "17,size=16") (
  GCons false "ConstantFrameRate" (GUint 8) (Some "18,size=2") (
  GCons false "NumTemporalLayers" (GUint 8) (Some "19,size=2") (
  GCons false "TemporalIdNested" (GUint 8) (Some "20,size=2") (
  GCons false "LengthSizeMinusOne" (GUint 8) (Some "21,size=2") (
  GCons false "NumOfNaluArrays" (GUint 8) (Some "22,size=8") (
  GCons false "NaluArrays" (GSlice (t_HEVCNaluArray)) (Some "23,len=dynamic") (
  GNil)))))))))))))))))))))))))).

(* box_types_iso14496_12.go:757-760 *)
Definition t_Mdat : gty := GStruct "Mdat" (
  GCons true "Box" (t_Box) None (
  GCons false "Data" (GSlice (GUint 8)) (Some "0,size=8") (
  GNil))).

(* box_types_iso14496_12.go:776-789 *)
Definition t_Mdhd : gty := GStruct "Mdhd" (
  GCons true "FullBox" (t_FullBox) (Some "0,extend") (
  GCons false "CreationTimeV0" (GUint 32) (Some "1,size=32,ver=0") (
  GCons false "ModificationTimeV0" (GUint 32) (Some "2,size=32,ver=0") (
  GCons false "CreationTimeV1" (GUint 64) (Some "3,size=64,ver=1") (
  GCons false "ModificationTimeV1" (GUint 64) (Some "4,size=64,ver=1") (
  GCons false "Timescale" (GUint 32) (Some "5,size=32") (
  GCons false "DurationV0" (GUint 32) (Some "6,size=32,ver=0") (
  GCons false "DurationV1" (GUint 64) (Some "7,size=64,ver=1") (
  GCons false "Pad" (GBool) (Some "8,size=1,hidden") (
  GCons false "Language" (GArray 3 (GUint 8)) (Some "9,size=5,iso639-2") (
  GCons false "PreDefined" (GUint 16) (Some "10,size=16") (
  GNil)))))))))))).

(* box_types_iso14496_12.go:838-840 *)
Definition t_Mdia : gty := GStruct "Mdia" (
  GCons true "Box" (t_Box) None (
  GNil)).

(* box_types_iso14496_12.go:856-860 *)
Definition t_Mehd : gty := GStruct "Mehd" (
  GCons true "FullBox" (t_FullBox) (Some "0,extend") (
  GCons false "FragmentDurationV0" (GUint 32) (Some "1,size=32,ver=0") (
  GCons false "FragmentDurationV1" (GUint 64) (Some "2,size=64,ver=1") (
  GNil)))).

(* box_types_iso14496_12.go:887-889 *)
Definition t_Meta : gty := GStruct "Meta" (
  GCons true "FullBox" (t_FullBox) (Some "0,extend") (
  GNil)).

(* box_types_iso14496_12.go:922-925 *)
Definition t_Mfhd : gty := GStruct "Mfhd" (
  GCons true "FullBox" (t_FullBox) (Some "0,extend") (
  GCons false "SequenceNumber" (GUint 32) (Some "1,size=32") (
  GNil))).

(* box_types_iso14496_12.go:941-943 *)
Definition t_Mfra : gty := GStruct "Mfra" (
  GCons true "Box" (t_Box) None (
  GNil)).

(* box_types_iso14496_12.go:959-962 *)
Definition t_Mfro : gty := GStruct "Mfro" (
  GCons true "FullBox" (t_FullBox) (Some "0,extend") (
  GCons false "Size" (GUint 32) (Some "1,size=32") (
  GNil))).

(* box_types_iso14496_12.go:978-980 *)
Definition t_Minf : gty := GStruct "Minf" (
  GCons true "Box" (t_Box) None (
  GNil)).

(* box_types_iso14496_12.go:996-998 *)
Definition t_Moof : gty := GStruct "Moof" (
  GCons true "Box" (t_Box) None (
  GNil)).

(* box_types_iso14496_12.go:1014-1016 *)
Definition t_Moov : gty := GStruct "Moov" (
  GCons true "Box" (t_Box) None (
  GNil)).

(* box_types_iso14496_12.go:1032-1034 *)
Definition t_Mvex : gty := GStruct "Mvex" (
  GCons true "Box" (t_Box) None (
  GNil)).

(* box_types_iso14496_12.go:1050-1066 *)
Definition t_Mvhd : gty := GStruct "Mvhd" (
  GCons true "FullBox" (t_FullBox) (Some "0,extend") (
  GCons false "CreationTimeV0" (GUint 32) (Some "1,size=32,ver=0") (
  GCons false "ModificationTimeV0" (GUint 32) (Some "2,size=32,ver=0") (
  GCons false "CreationTimeV1" (GUint 64) (Some "3,size=64,ver=1") (
  GCons false "ModificationTimeV1" (GUint 64) (Some "4,size=64,ver=1") (
  GCons false "Timescale" (GUint 32) (Some "5,size=32") (
  GCons false "DurationV0" (GUint 32) (Some "6,size=32,ver=0") (
  GCons false "DurationV1" (GUint 64) (Some "7,size=64,ver=1") (
  GCons false "Rate" (GInt 32) (Some "8,size=32") (
  GCons false "Volume" (GInt 16) (Some "9,size=16") (
  GCons false "Reserved" (GInt 16) (Some "10,size=16,const=0") (
  GCons false "Reserved2" (GArray 2 (GUint 32)) (Some "11,size=32,const=0") (
  GCons false "Matrix" (GArray 9 (GInt 32)) (Some "12,size=32,hex") (
  GCons false "PreDefined" (GArray 6 (GInt 32)) (Some "13,size=32") (
  GCons false "NextTrackID" (GUint 32) (Some "14,size=32") (
  GNil)))))))))))))))).

(* box_types_iso14496_12.go:1134-1141 *)
Definition t_Saio : gty := GStruct "Saio" (
  GCons true "FullBox" (t_FullBox) (Some "0,extend") (
  GCons false "AuxInfoType" (GArray 4 (GUint 8)) (Some "1,size=8,opt=0x000001,string") (
  GCons false "AuxInfoTypeParameter" (GUint 32) (Some "2,size=32,opt=0x000001,hex") (
  GCons false "EntryCount" (GUint 32) (Some "3,size=32") (
  GCons false "OffsetV0" (GSlice (GUint 32)) (Some "4,size=32,ver=0,len=dynamic") (
  GCons false "OffsetV1" (GSlice (GUint 64)) (Some "5,size=64,nver=0,len=dynamic") (
  GNil))))))).

(* box_types_iso14496_12.go:1174-1181 *)
Definition t_Saiz : gty := GStruct "Saiz" (
  GCons true "FullBox" (t_FullBox) (Some "0,extend") (
  GCons false "AuxInfoType" (GArray 4 (GUint 8)) (Some "1,size=8,opt=0x000001,string") (
  GCons false "AuxInfoTypeParameter" (GUint 32) (Some "2,size=32,opt=0x000001,hex") (
  GCons false "DefaultSampleInfoSize" (GUint 8) (Some "3,size=8,dec") (
  GCons false "SampleCount" (GUint 32) (Some "4,size=32") (
  GCons false "SampleInfoSize" (GSlice (GUint 8)) (Some "5,size=8,opt=dynamic,len=dynamic,dec") (
  GNil))))))).

(* box_types_iso14496_12.go:1231-1235 *)
Definition t_SampleEntry : gty := GStruct "SampleEntry" (
  GCons true "AnyTypeBox" (t_AnyTypeBox) None (
  GCons false "Reserved" (GArray 6 (GUint 8)) (Some "0,size=8,const=0") (
  GCons false "DataReferenceIndex" (GUint 16) (Some "1,size=16") (
  GNil)))).

(* box_types_iso14496_12.go:1237-1251 *)
Definition t_VisualSampleEntry : gty := GStruct "VisualSampleEntry" (
  GCons true "SampleEntry" (t_SampleEntry) (Some "0,extend") (
  GCons false "PreDefined" (GUint 16) (Some "1,size=16") (
  GCons false "Reserved" (GUint 16) (Some "2,size=16,const=0") (
  GCons false "PreDefined2" (GArray 3 (GUint 32)) (Some "3,size=32") (
  GCons false "Width" (GUint 16) (Some "4,size=16") (
  GCons false "Height" (GUint 16) (Some "5,size=16") (
  GCons false "Horizresolution" (GUint 32) (Some "6,size=32") (
  GCons false "Vertresolution" (GUint 32) (Some "7,size=32") (
  GCons false "Reserved2" (GUint 32) (Some "8,size=32,const=0") (
  GCons false "FrameCount" (GUint 16) (Some "9,size=16") (
  GCons false "Compressorname" (GArray 32 (GUint 8)) (Some "10,size=8") (
  GCons false "Depth" (GUint 16) (Some "11,size=16") (
  GCons false "PreDefined3" (GInt 16) (Some "12,size=16") (
  GNil)))))))))))))).

(* box_types_iso14496_12.go:1266-1276 *)
Definition t_AudioSampleEntry : gty := GStruct "AudioSampleEntry" (
  GCons true "SampleEntry" (t_SampleEntry) (Some "0,extend,opt=dynamic") (
  GCons false "EntryVersion" (GUint 16) (Some "1,size=16,opt=dynamic") (
  GCons false "Reserved" (GArray 3 (GUint 16)) (Some "2,size=16,opt=dynamic,const=0") (
  GCons false "ChannelCount" (GUint 16) (Some "3,size=16,opt=dynamic") (
  GCons false "SampleSize" (GUint 16) (Some "4,size=16,opt=dynamic") (
  GCons false "PreDefined" (GUint 16) (Some "5,size=16,opt=dynamic") (
  GCons false "Reserved2" (GUint 16) (Some "6,size=16,opt=dynamic,const=0") (
  GCons false "SampleRate" (GUint 32) (Some "7,size=32,opt=dynamic") (
  GCons false "QuickTimeData" (GSlice (GUint 8)) (Some "8,size=8,opt=dynamic,len=dynamic") (
  GNil)))))))))).

(* box_types_iso14496_12.go:1405-1409 *)
Definition t_AVCParameterSet : gty := GStruct "AVCParameterSet" (
  GCons true "BaseCustomFieldObject" (t_BaseCustomFieldObject) None (
  GCons false "Length" (GUint 16) (Some "0,size=16") (
  GCons false "NALUnit" (GSlice (GUint 8)) (Some "1,size=8,len=dynamic") (
  GNil)))).

(* box_types_iso14496_12.go:1328-1350 *)
Definition t_AVCDecoderConfiguration : gty := GStruct "AVCDecoderConfiguration" (
  GCons true "AnyTypeBox" (t_AnyTypeBox) None (
  GCons false "ConfigurationVersion" (GUint 8) (Some "0,size=8") (
  GCons false "Profile" (GUint 8) (Some "1,size=8") (
  GCons false "ProfileCompatibility" (GUint 8) (Some "2,size=8") (
  GCons false "Level" (GUint 8) (Some "3,size=8") (
  GCons false "Reserved" (GUint 8) (Some "4,size=6,const=63") (
  GCons false "LengthSizeMinusOne" (GUint 8) (Some "5,size=2") (
  GCons false "Reserved2" (GUint 8) (Some "6,size=3,const=7") (
  GCons false "NumOfSequenceParameterSets" (GUint 8) (Some "7,size=5") (
  GCons false "SequenceParameterSets" (GSlice (t_AVCParameterSet)) (Some "8,len=dynamic") (
  GCons false "NumOfPictureParameterSets" (GUint 8) (Some "9,size=8") (
  GCons false "PictureParameterSets" (GSlice (t_AVCParameterSet)) (Some "10,len=dynamic") (
  GCons false "HighProfileFieldsEnabled" (GBool) (Some "11,hidden") (
  GCons false "Reserved3" (GUint 8) (Some "12,size=6,opt=dynamic,const=63") (
  GCons false "ChromaFormat" (GUint 8) (Some "13,size=2,opt=dynamic") (
  GCons false "Reserved4" (GUint 8) (Some "14,size=5,opt=dynamic,const=31") (
  GCons false "BitDepthLumaMinus8" (GUint 8) (Some "15,size=3,opt=dynamic") (
  GCons false "Reserved5" (GUint 8) (Some "16,size=5,opt=dynamic,const=31") (
  GCons false "BitDepthChromaMinus8" (GUint 8) (Some "17,size=3,opt=dynamic") (
  GCons false "NumOfSequenceParameterSetExt" (GUint 8) (Some "18,size=8,opt=dynamic") (
  GCons false "SequenceParameterSetsExt" (GSlice (t_AVCParameterSet)) (Some "19,len=dynamic,opt=dynamic") (
  GNil)))))))))))))))))))))).

(* box_types_iso14496_12.go:1419-1423 *)
Definition t_PixelAspectRatioBox : gty := GStruct "PixelAspectRatioBox" (
  GCons true "AnyTypeBox" (t_AnyTypeBox) None (
  GCons false "HSpacing" (GUint 32) (Some "0,size=32") (
  GCons false "VSpacing" (GUint 32) (Some "1,size=32") (
  GNil)))).

(* box_types_iso14496_12.go:1425-1430 *)
Definition t_XMLSubtitleSampleEntry : gty := GStruct "XMLSubtitleSampleEntry" (
  GCons true "SampleEntry" (t_SampleEntry) (Some "0,extend") (
  GCons false "Namespace" (GString) (Some "1,string") (
  GCons false "SchemaLocation" (GString) (Some "2,string") (
  GCons false "AuxiliaryMIMETypes" (GString) (Some "3,string") (
  GNil))))).

(* box_types_iso14496_12.go:1444-1448 *)
Definition t_TextSubtitleSampleEntry : gty := GStruct "TextSubtitleSampleEntry" (
  GCons true "SampleEntry" (t_SampleEntry) (Some "0,extend") (
  GCons false "ContentEncoding" (GString) (Some "1,string") (
  GCons false "MIMEFormat" (GString) (Some "2,string") (
  GNil)))).

(* box_types_iso14496_12.go:1466-1469 *)
Definition t_SbgpEntry : gty := GStruct "SbgpEntry" (
  GCons false "SampleCount" (GUint 32) (Some "0,size=32") (
  GCons false "GroupDescriptionIndex" (GUint 32) (Some "1,size=32") (
  GNil))).

(* box_types_iso14496_12.go:1458-1464 *)
Definition t_Sbgp : gty := GStruct "Sbgp" (
  GCons true "FullBox" (t_FullBox) (Some "0,extend") (
  GCons false "GroupingType" (GUint 32) (Some "1,size=32") (
  GCons false "GroupingTypeParameter" (GUint 32) (Some "2,size=32,ver=1") (
  GCons false "EntryCount" (GUint 32) (Some "3,size=32") (
  GCons false "Entries" (GSlice (t_SbgpEntry)) (Some "4,len=dynamic,size=64") (
  GNil)))))).

(* box_types_iso14496_12.go:1491-1493 *)
Definition t_Schi : gty := GStruct "Schi" (
  GCons true "Box" (t_Box) None (
  GNil)).

(* box_types_iso14496_12.go:1507-1512 *)
Definition t_Schm : gty := GStruct "Schm" (
  GCons true "FullBox" (t_FullBox) (Some "0,extend") (
  GCons false "SchemeType" (GArray 4 (GUint 8)) (Some "1,size=8,string") (
  GCons false "SchemeVersion" (GUint 32) (Some "2,size=32,hex") (
  GCons false "SchemeUri" (GSlice (GUint 8)) (Some "3,size=8,opt=0x000001,string") (
  GNil))))).

(* box_types_iso14496_12.go:1531-1536 *)
Definition t_SdtpSampleElem : gty := GStruct "SdtpSampleElem" (
  GCons false "IsLeading" (GUint 8) (Some "0,size=2") (
  GCons false "SampleDependsOn" (GUint 8) (Some "1,size=2") (
  GCons false "SampleIsDependedOn" (GUint 8) (Some "2,size=2") (
  GCons false "SampleHasRedundancy" (GUint 8) (Some "3,size=2") (
  GNil))))).

(* box_types_iso14496_12.go:1526-1529 *)
Definition t_Sdtp : gty := GStruct "Sdtp" (
  GCons true "FullBox" (t_FullBox) (Some "0,extend") (
  GCons false "Samples" (GSlice (t_SdtpSampleElem)) (Some "1,size=8") (
  GNil))).

(* box_types_iso14496_12.go:1567-1570 *)
Definition t_RollDistanceWithLength : gty := GStruct "RollDistanceWithLength" (
  GCons false "DescriptionLength" (GUint 32) (Some "0,size=32") (
  GCons false "RollDistance" (GInt 16) (Some "1,size=16") (
  GNil))).

(* box_types_iso14496_12.go:1585-1588 *)
Definition t_AlternativeStartupEntryOpt : gty := GStruct "AlternativeStartupEntryOpt" (
  GCons false "NumOutputSamples" (GUint 16) (Some "0,size=16") (
  GCons false "NumTotalSamples" (GUint 16) (Some "1,size=16") (
  GNil))).

(* box_types_iso14496_12.go:1572-1578 *)
Definition t_AlternativeStartupEntry : gty := GStruct "AlternativeStartupEntry" (
  GCons true "BaseCustomFieldObject" (t_BaseCustomFieldObject) None (
  GCons false "RollCount" (GUint 16) (Some "0,size=16") (
  GCons false "FirstOutputSample" (GUint 16) (Some "1,size=16") (
  GCons false "SampleOffset" (GSlice (GUint 32)) (Some "2,size=32,len=dynamic") (
  GCons false "Opts" (GSlice (t_AlternativeStartupEntryOpt)) (Some "3,size=32") (
  GNil)))))).

(* box_types_iso14496_12.go:1580-1583 *)
Definition t_AlternativeStartupEntryL : gty := GStruct "AlternativeStartupEntryL" (
  GCons false "DescriptionLength" (GUint 32) (Some "0,size=32") (
  GCons true "AlternativeStartupEntry" (t_AlternativeStartupEntry) (Some "1,extend,size=dynamic") (
  GNil))).

(* box_types_iso14496_12.go:1590-1593 *)
Definition t_VisualRandomAccessEntry : gty := GStruct "VisualRandomAccessEntry" (
  GCons false "NumLeadingSamplesKnown" (GBool) (Some "0,size=1") (
  GCons false "NumLeadingSamples" (GUint 8) (Some "1,size=7") (
  GNil))).

(* box_types_iso14496_12.go:1595-1598 *)
Definition t_VisualRandomAccessEntryL : gty := GStruct "VisualRandomAccessEntryL" (
  GCons false "DescriptionLength" (GUint 32) (Some "0,size=32") (
  GCons true "VisualRandomAccessEntry" (t_VisualRandomAccessEntry) (Some "1,extend") (
  GNil))).

(* box_types_iso14496_12.go:1600-1603 *)
Definition t_TemporalLevelEntry : gty := GStruct "TemporalLevelEntry" (
  GCons false "LevelIndependentlyDecodable" (GBool) (Some "0,size=1") (
  GCons false "Reserved" (GUint 8) (Some "1,size=7,const=0") (
  GNil))).

(* box_types_iso14496_12.go:1605-1608 *)
Definition t_TemporalLevelEntryL : gty := GStruct "TemporalLevelEntryL" (
  GCons false "DescriptionLength" (GUint 32) (Some "0,size=32") (
  GCons true "TemporalLevelEntry" (t_TemporalLevelEntry) (Some "1,extend") (
  GNil))).

(* box_types_iso14496_12.go:1550-1565 *)
Definition t_Sgpd : gty := GStruct "Sgpd" (
  GCons true "FullBox" (t_FullBox) (Some "0,extend") (
  GCons false "GroupingType" (GArray 4 (GUint 8)) (Some "1,size=8,string") (
  GCons false "DefaultLength" (GUint 32) (Some "2,size=32,ver=1") (
  GCons false "DefaultSampleDescriptionIndex" (GUint 32) (Some "3,size=32,ver=2") (
  GCons false "EntryCount" (GUint 32) (Some "4,size=32") (
  GCons false "RollDistances" (GSlice (GInt 16)) (Some "5,size=16,opt=dynamic") (
  GCons false "RollDistancesL" (GSlice (t_RollDistanceWithLength)) (Some "6,size=16,opt=dynamic") (
  GCons false "AlternativeStartupEntries" (GSlice (t_AlternativeStartupEntry)) (Some "7,size=dynamic,len=dynamic,opt=dynamic") (
  GCons false "AlternativeStartupEntriesL" (GSlice (t_AlternativeStartupEntryL)) (Some "8,len=dynamic,opt=dynamic") (
  GCons false "VisualRandomAccessEntries" (GSlice (t_VisualRandomAccessEntry)) (Some "9,len=dynamic,opt=dynamic") (
  GCons false "VisualRandomAccessEntriesL" (GSlice (t_VisualRandomAccessEntryL)) (Some "10,len=dynamic,opt=dynamic") (
  GCons false "TemporalLevelEntries" (GSlice (t_TemporalLevelEntry)) (Some "11,len=dynamic,opt=dynamic") (
  GCons false "TemporalLevelEntriesL" (GSlice (t_TemporalLevelEntryL)) (Some "12,len=dynamic,opt=dynamic") (
  GCons false "Unsupported" (GSlice (GUint 8)) (Some "13,size=8,opt=dynamic") (
  GNil))))))))))))))).

(* box_types_iso14496_12.go:1704-1711 *)
Definition t_SidxReference : gty := GStruct "SidxReference" (
  GCons false "ReferenceType" (GBool) (Some "0,size=1") (
  GCons false "ReferencedSize" (GUint 32) (Some "1,size=31") (
  GCons false "SubsegmentDuration" (GUint 32) (Some "2,size=32") (
  GCons false "StartsWithSAP" (GBool) (Some "3,size=1") (
  GCons false "SAPType" (GUint 32) (Some "4,size=3") (
  GCons false "SAPDeltaTime" (GUint 32) (Some "5,size=28") (
  GNil))))))).

(* box_types_iso14496_12.go:1691-1702 *)
Definition t_Sidx : gty := GStruct "Sidx" (
  GCons true "FullBox" (t_FullBox) (Some "0,extend") (
  GCons false "ReferenceID" (GUint 32) (Some "1,size=32") (
  GCons false "Timescale" (GUint 32) (Some "2,size=32") (
  GCons false "EarliestPresentationTimeV0" (GUint 32) (Some "3,size=32,ver=0") (
  GCons false "FirstOffsetV0" (GUint 32) (Some "4,size=32,ver=0") (
  GCons false "EarliestPresentationTimeV1" (GUint 64) (Some "5,size=64,nver=0") (
  GCons false "FirstOffsetV1" (GUint 64) (Some "6,size=64,nver=0") (
  GCons false "Reserved" (GUint 16) (Some "7,size=16,const=0") (
  GCons false "ReferenceCount" (GUint 16) (Some "8,size=16") (
  GCons false "References" (GSlice (t_SidxReference)) (Some "9,size=96,len=dynamic") (
  GNil))))))))))).

(* box_types_iso14496_12.go:1755-1757 *)
Definition t_Sinf : gty := GStruct "Sinf" (
  GCons true "Box" (t_Box) None (
  GNil)).

(* box_types_iso14496_12.go:1771-1775 *)
Definition t_Smhd : gty := GStruct "Smhd" (
  GCons true "FullBox" (t_FullBox) (Some "0,extend") (
  GCons false "Balance" (GInt 16) (Some "1,size=16") (
  GCons false "Reserved" (GUint 16) (Some "2,size=16,const=0") (
  GNil)))).

(* box_types_iso14496_12.go:1810-1812 *)
Definition t_Stbl : gty := GStruct "Stbl" (
  GCons true "Box" (t_Box) None (
  GNil)).

(* box_types_iso14496_12.go:1828-1832 *)
Definition t_Stco : gty := GStruct "Stco" (
  GCons true "FullBox" (t_FullBox) (Some "0,extend") (
  GCons false "EntryCount" (GUint 32) (Some "1,size=32") (
  GCons false "ChunkOffset" (GSlice (GUint 32)) (Some "2,size=32,len=dynamic") (
  GNil)))).

(* box_types_iso14496_12.go:1863-1867 *)
Definition t_StscEntry : gty := GStruct "StscEntry" (
  GCons false "FirstChunk" (GUint 32) (Some "0,size=32") (
  GCons false "SamplesPerChunk" (GUint 32) (Some "1,size=32") (
  GCons false "SampleDescriptionIndex" (GUint 32) (Some "2,size=32") (
  GNil)))).

(* box_types_iso14496_12.go:1857-1861 *)
Definition t_Stsc : gty := GStruct "Stsc" (
  GCons true "FullBox" (t_FullBox) (Some "0,extend") (
  GCons false "EntryCount" (GUint 32) (Some "1,size=32") (
  GCons false "Entries" (GSlice (t_StscEntry)) (Some "2,len=dynamic,size=96") (
  GNil)))).

(* box_types_iso14496_12.go:1892-1895 *)
Definition t_Stsd : gty := GStruct "Stsd" (
  GCons true "FullBox" (t_FullBox) (Some "0,extend") (
  GCons false "EntryCount" (GUint 32) (Some "1,size=32") (
  GNil))).

(* box_types_iso14496_12.go:1910-1914 *)
Definition t_Stss : gty := GStruct "Stss" (
  GCons true "FullBox" (t_FullBox) (Some "0,extend") (
  GCons false "EntryCount" (GUint 32) (Some "1,size=32") (
  GCons false "SampleNumber" (GSlice (GUint 32)) (Some "2,len=dynamic,size=32") (
  GNil)))).

(* box_types_iso14496_12.go:1939-1944 *)
Definition t_Stsz : gty := GStruct "Stsz" (
  GCons true "FullBox" (t_FullBox) (Some "0,extend") (
  GCons false "SampleSize" (GUint 32) (Some "1,size=32") (
  GCons false "SampleCount" (GUint 32) (Some "2,size=32") (
  GCons false "EntrySize" (GSlice (GUint 32)) (Some "3,size=32,len=dynamic") (
  GNil))))).

(* box_types_iso14496_12.go:1978-1981 *)
Definition t_SttsEntry : gty := GStruct "SttsEntry" (
  GCons false "SampleCount" (GUint 32) (Some "0,size=32") (
  GCons false "SampleDelta" (GUint 32) (Some "1,size=32") (
  GNil))).

(* box_types_iso14496_12.go:1972-1976 *)
Definition t_Stts : gty := GStruct "Stts" (
  GCons true "FullBox" (t_FullBox) (Some "0,extend") (
  GCons false "EntryCount" (GUint 32) (Some "1,size=32") (
  GCons false "Entries" (GSlice (t_SttsEntry)) (Some "2,len=dynamic,size=64") (
  GNil)))).

(* box_types_iso14496_12.go:2005-2010 *)
Definition t_Styp : gty := GStruct "Styp" (
  GCons true "Box" (t_Box) None (
  GCons false "MajorBrand" (GArray 4 (GUint 8)) (Some "0,size=8,string") (
  GCons false "MinorVersion" (GUint 32) (Some "1,size=32") (
  GCons false "CompatibleBrands" (GSlice (t_CompatibleBrandElem)) (Some "2,size=32") (
  GNil))))).

(* box_types_iso14496_12.go:2025-2029 *)
Definition t_Tfdt : gty := GStruct "Tfdt" (
  GCons true "FullBox" (t_FullBox) (Some "0,extend") (
  GCons false "BaseMediaDecodeTimeV0" (GUint 32) (Some "1,size=32,ver=0") (
  GCons false "BaseMediaDecodeTimeV1" (GUint 64) (Some "2,size=64,ver=1") (
  GNil)))).

(* box_types_iso14496_12.go:2056-2066 *)
Definition t_Tfhd : gty := GStruct "Tfhd" (
  GCons true "FullBox" (t_FullBox) (Some "0,extend") (
  GCons false "TrackID" (GUint 32) (Some "1,size=32") (
  GCons false "BaseDataOffset" (GUint 64) (Some "2,size=64,opt=0x000001") (
  GCons false "SampleDescriptionIndex" (GUint 32) (Some "3,size=32,opt=0x000002") (
  GCons false "DefaultSampleDuration" (GUint 32) (Some "4,size=32,opt=0x000008") (
  GCons false "DefaultSampleSize" (GUint 32) (Some "5,size=32,opt=0x000010") (
  GCons false "DefaultSampleFlags" (GUint 32) (Some "6,size=32,opt=0x000020,hex") (
  GNil)))))))).

(* box_types_iso14496_12.go:2103-2111 *)
Definition t_TfraEntry : gty := GStruct "TfraEntry" (
  GCons false "TimeV0" (GUint 32) (Some "0,size=32,ver=0") (
  GCons false "MoofOffsetV0" (GUint 32) (Some "1,size=32,ver=0") (
  GCons false "TimeV1" (GUint 64) (Some "2,size=64,ver=1") (
  GCons false "MoofOffsetV1" (GUint 64) (Some "3,size=64,ver=1") (
  GCons false "TrafNumber" (GUint 32) (Some "4,size=dynamic") (
  GCons false "TrunNumber" (GUint 32) (Some "5,size=dynamic") (
  GCons false "SampleNumber" (GUint 32) (Some "6,size=dynamic") (
  GNil)))))))).

(* box_types_iso14496_12.go:2092-2101 *)
Definition t_Tfra : gty := GStruct "Tfra" (
  GCons true "FullBox" (t_FullBox) (Some "0,extend") (
  GCons false "TrackID" (GUint 32) (Some "1,size=32") (
  GCons false "Reserved" (GUint 32) (Some "2,size=26,const=0") (
  GCons false "LengthSizeOfTrafNum" (GUint 8) (Some "3,size=2") (
  GCons false "LengthSizeOfTrunNum" (GUint 8) (Some "4,size=2") (
  GCons false "LengthSizeOfSampleNum" (GUint 8) (Some "5,size=2") (
  GCons false "NumberOfEntry" (GUint 32) (Some "6,size=32") (
  GCons false "Entries" (GSlice (t_TfraEntry)) (Some "7,len=dynamic,size=dynamic") (
  GNil))))))))).

(* box_types_iso14496_12.go:2188-2207 *)
Definition t_Tkhd : gty := GStruct "Tkhd" (
  GCons true "FullBox" (t_FullBox) (Some "0,extend") (
  GCons false "CreationTimeV0" (GUint 32) (Some "1,size=32,ver=0") (
  GCons false "ModificationTimeV0" (GUint 32) (Some "2,size=32,ver=0") (
  GCons false "CreationTimeV1" (GUint 64) (Some "3,size=64,ver=1") (
  GCons false "ModificationTimeV1" (GUint 64) (Some "4,size=64,ver=1") (
  GCons false "TrackID" (GUint 32) (Some "5,size=32") (
  GCons false "Reserved0" (GUint 32) (Some "6,size=32,const=0") (
  GCons false "DurationV0" (GUint 32) (Some "7,size=32,ver=0") (
  GCons false "DurationV1" (GUint 64) (Some "8,size=64,ver=1") (
  GCons false "Reserved1" (GArray 2 (GUint 32)) (Some "9,size=32,const=0") (
  GCons false "Layer" (GInt 16) (Some "10,size=16") (
  GCons false "AlternateGroup" (GInt 16) (Some "11,size=16") (
  GCons false "Volume" (GInt 16) (Some "12,size=16") (
  GCons false "Reserved2" (GUint 16) (Some "13,size=16,const=0") (
  GCons false "Matrix" (GArray 9 (GInt 32)) (Some "14,size=32,hex") (
  GCons false "Width" (GUint 32) (Some "15,size=32") (
  GCons false "Height" (GUint 32) (Some "16,size=32") (
  GNil)))))))))))))))))).

(* box_types_iso14496_12.go:2288-2290 *)
Definition t_Traf : gty := GStruct "Traf" (
  GCons true "Box" (t_Box) None (
  GNil)).

(* box_types_iso14496_12.go:2306-2308 *)
Definition t_Trak : gty := GStruct "Trak" (
  GCons true "Box" (t_Box) None (
  GNil)).

(* box_types_iso14496_12.go:2324-2327 *)
Definition t_Trep : gty := GStruct "Trep" (
  GCons true "FullBox" (t_FullBox) (Some "0,extend") (
  GCons false "TrackID" (GUint 32) (Some "1,size=32") (
  GNil))).

(* box_types_iso14496_12.go:2343-2350 *)
Definition t_Trex : gty := GStruct "Trex" (
  GCons true "FullBox" (t_FullBox) (Some "0,extend") (
  GCons false "TrackID" (GUint 32) (Some "1,size=32") (
  GCons false "DefaultSampleDescriptionIndex" (GUint 32) (Some "2,size=32") (
  GCons false "DefaultSampleDuration" (GUint 32) (Some "3,size=32") (
  GCons false "DefaultSampleSize" (GUint 32) (Some "4,size=32") (
  GCons false "DefaultSampleFlags" (GUint 32) (Some "5,size=32,hex") (
  GNil))))))).

(* box_types_iso14496_12.go:2376-2382 *)
Definition t_TrunEntry : gty := GStruct "TrunEntry" (
  GCons false "SampleDuration" (GUint 32) (Some "0,size=32,opt=0x000100") (
  GCons false "SampleSize" (GUint 32) (Some "1,size=32,opt=0x000200") (
  GCons false "SampleFlags" (GUint 32) (Some "2,size=32,opt=0x000400,hex") (
  GCons false "SampleCompositionTimeOffsetV0" (GUint 32) (Some "3,size=32,opt=0x000800,ver=0") (
  GCons false "SampleCompositionTimeOffsetV1" (GInt 32) (Some "4,size=32,opt=0x000800,nver=0") (
  GNil)))))).

(* box_types_iso14496_12.go:2366-2374 *)
Definition t_Trun : gty := GStruct "Trun" (
  GCons true "FullBox" (t_FullBox) (Some "0,extend") (
  GCons false "SampleCount" (GUint 32) (Some "1,size=32") (
  GCons false "DataOffset" (GInt 32) (Some "2,size=32,opt=0x000001") (
  GCons false "FirstSampleFlags" (GUint 32) (Some "3,size=32,opt=0x000004,hex") (
  GCons false "Entries" (GSlice (t_TrunEntry)) (Some "4,len=dynamic,size=dynamic") (
  GNil)))))).

(* box_types_iso14496_12.go:2441-2443 *)
Definition t_Udta : gty := GStruct "Udta" (
  GCons true "Box" (t_Box) None (
  GNil)).

(* box_types_iso14496_12.go:2463-2467 *)
Definition t_Vmhd : gty := GStruct "Vmhd" (
  GCons true "FullBox" (t_FullBox) (Some "0,extend") (
  GCons false "Graphicsmode" (GUint 16) (Some "1,size=16") (
  GCons false "Opcolor" (GArray 3 (GUint 16)) (Some "2,size=16") (
  GNil)))).

(* box_types_iso14496_12.go:2483-2485 *)
Definition t_Wave : gty := GStruct "Wave" (
  GCons true "Box" (t_Box) None (
  GNil)).

(* box_types_iso14496_14.go:83-94 *)
Definition t_ESDescriptor : gty := GStruct "ESDescriptor" (
  GCons true "BaseCustomFieldObject" (t_BaseCustomFieldObject) None (
  GCons false "ESID" (GUint 16) (Some "0,size=16") (
  GCons false "StreamDependenceFlag" (GBool) (Some "1,size=1") (
  GCons false "UrlFlag" (GBool) (Some "2,size=1") (
  GCons false "OcrStreamFlag" (GBool) (Some "3,size=1") (
  GCons false "StreamPriority" (GInt 8) (Some "4,size=5") (
  GCons false "DependsOnESID" (GUint 16) (Some "5,size=16,opt=dynamic") (
  GCons false "URLLength" (GUint 8) (Some "6,size=8,opt=dynamic") (
  GCons false "URLString" (GSlice (GUint 8)) (Some "7,size=8,len=dynamic,opt=dynamic,string") (
  GCons false "OCRESID" (GUint 16) (Some "8,size=16,opt=dynamic") (
  GNil))))))))))).

(* box_types_iso14496_14.go:117-126 *)
Definition t_DecoderConfigDescriptor : gty := GStruct "DecoderConfigDescriptor" (
  GCons true "BaseCustomFieldObject" (t_BaseCustomFieldObject) None (
  GCons false "ObjectTypeIndication" (GUint 8) (Some "0,size=8") (
  GCons false "StreamType" (GInt 8) (Some "1,size=6") (
  GCons false "UpStream" (GBool) (Some "2,size=1") (
  GCons false "Reserved" (GBool) (Some "3,size=1") (
  GCons false "BufferSizeDB" (GUint 32) (Some "4,size=24") (
  GCons false "MaxBitrate" (GUint 32) (Some "5,size=32") (
  GCons false "AvgBitrate" (GUint 32) (Some "6,size=32") (
  GNil))))))))).

(* box_types_iso14496_14.go:33-40 *)
Definition t_Descriptor : gty := GStruct "Descriptor" (
  GCons true "BaseCustomFieldObject" (t_BaseCustomFieldObject) None (
  GCons false "Tag" (GInt 8) (Some "0,size=8") (
  GCons false "Size" (GUint 32) (Some "1,varint") (
  GCons false "ESDescriptor" (GPtr (t_ESDescriptor)) (Some "2,extend,opt=dynamic") (
  GCons false "DecoderConfigDescriptor" (GPtr (t_DecoderConfigDescriptor)) (Some "3,extend,opt=dynamic") (
  GCons false "Data" (GSlice (GUint 8)) (Some "4,size=8,opt=dynamic,len=dynamic") (
  GNil))))))).

(* box_types_iso14496_14.go:23-26 *)
Definition t_Esds : gty := GStruct "Esds" (
  GCons true "FullBox" (t_FullBox) (Some "0,extend") (
  GCons false "Descriptors" (GSlice (t_Descriptor)) (Some "1,array") (
  GNil))).

(* box_types_iso14496_30.go:15-18 *)
Definition t_WebVTTConfigurationBox : gty := GStruct "WebVTTConfigurationBox" (
  GCons true "Box" (t_Box) None (
  GCons false "Config" (GString) (Some "0,boxstring") (
  GNil))).

(* box_types_iso14496_30.go:24-27 *)
Definition t_WebVTTSourceLabelBox : gty := GStruct "WebVTTSourceLabelBox" (
  GCons true "Box" (t_Box) None (
  GCons false "SourceLabel" (GString) (Some "0,boxstring") (
  GNil))).

(* box_types_iso14496_30.go:33-35 *)
Definition t_WVTTSampleEntry : gty := GStruct "WVTTSampleEntry" (
  GCons true "SampleEntry" (t_SampleEntry) (Some "0,extend") (
  GNil)).

(* box_types_iso14496_30.go:59-61 *)
Definition t_VTTCueBox : gty := GStruct "VTTCueBox" (
  GCons true "Box" (t_Box) None (
  GNil)).

(* box_types_iso14496_30.go:67-70 *)
Definition t_CueSourceIDBox : gty := GStruct "CueSourceIDBox" (
  GCons true "Box" (t_Box) None (
  GCons false "SourceId" (GUint 32) (Some "0,size=32") (
  GNil))).

(* box_types_iso14496_30.go:76-79 *)
Definition t_CueTimeBox : gty := GStruct "CueTimeBox" (
  GCons true "Box" (t_Box) None (
  GCons false "CueCurrentTime" (GString) (Some "0,boxstring") (
  GNil))).

(* box_types_iso14496_30.go:85-88 *)
Definition t_CueIDBox : gty := GStruct "CueIDBox" (
  GCons true "Box" (t_Box) None (
  GCons false "CueId" (GString) (Some "0,boxstring") (
  GNil))).

(* box_types_iso14496_30.go:94-97 *)
Definition t_CueSettingsBox : gty := GStruct "CueSettingsBox" (
  GCons true "Box" (t_Box) None (
  GCons false "Settings" (GString) (Some "0,boxstring") (
  GNil))).

(* box_types_iso14496_30.go:103-106 *)
Definition t_CuePayloadBox : gty := GStruct "CuePayloadBox" (
  GCons true "Box" (t_Box) None (
  GCons false "CueText" (GString) (Some "0,boxstring") (
  GNil))).

(* box_types_iso14496_30.go:112-114 *)
Definition t_VTTEmptyCueBox : gty := GStruct "VTTEmptyCueBox" (
  GCons true "Box" (t_Box) None (
  GNil)).

(* box_types_iso14496_30.go:120-123 *)
Definition t_VTTAdditionalTextBox : gty := GStruct "VTTAdditionalTextBox" (
  GCons true "Box" (t_Box) None (
  GCons false "CueAdditionalText" (GString) (Some "0,boxstring") (
  GNil))).

(* box_types_iso23001_5.go:27-31 *)
Definition t_PcmC : gty := GStruct "PcmC" (
  GCons true "FullBox" (t_FullBox) (Some "0,extend") (
  GCons false "FormatFlags" (GUint 8) (Some "1,size=8") (
  GCons false "PCMSampleSize" (GUint 8) (Some "1,size=8") (
  GNil)))).

(* box_types_iso23001_7.go:28-30 *)
Definition t_PsshKID : gty := GStruct "PsshKID" (
  GCons false "KID" (GArray 16 (GUint 8)) (Some "0,size=8,uuid") (
  GNil)).

(* box_types_iso23001_7.go:19-26 *)
Definition t_Pssh : gty := GStruct "Pssh" (
  GCons true "FullBox" (t_FullBox) (Some "0,extend") (
  GCons false "SystemID" (GArray 16 (GUint 8)) (Some "1,size=8,uuid") (
  GCons false "KIDCount" (GUint 32) (Some "2,size=32,nver=0") (
  GCons false "KIDs" (GSlice (t_PsshKID)) (Some "3,nver=0,len=dynamic,size=128") (
  GCons false "DataSize" (GInt 32) (Some "4,size=32") (
  GCons false "Data" (GSlice (GUint 8)) (Some "5,size=8,len=dynamic") (
  GNil))))))).

(* box_types_iso23001_7.go:77-87 *)
Definition t_Tenc : gty := GStruct "Tenc" (
  GCons true "FullBox" (t_FullBox) (Some "0,extend") (
  GCons false "Reserved" (GUint 8) (Some "1,size=8,dec") (
  GCons false "DefaultCryptByteBlock" (GUint 8) (Some "2,size=4,dec") (
  GCons false "DefaultSkipByteBlock" (GUint 8) (Some "3,size=4,dec") (
  GCons false "DefaultIsProtected" (GUint 8) (Some "4,size=8,dec") (
  GCons false "DefaultPerSampleIVSize" (GUint 8) (Some "5,size=8,dec") (
  GCons false "DefaultKID" (GArray 16 (GUint 8)) (Some "6,size=8,uuid") (
  GCons false "DefaultConstantIVSize" (GUint 8) (Some "7,size=8,opt=dynamic,dec") (
  GCons false "DefaultConstantIV" (GSlice (GUint 8)) (Some "8,size=8,opt=dynamic,len=dynamic") (
  GNil)))))))))).

(* box_types_metadata.go:82-84 *)
Definition t_Ilst : gty := GStruct "Ilst" (
  GCons true "Box" (t_Box) None (
  GNil)).

(* box_types_metadata.go:91-93 *)
Definition t_IlstMetaContainer : gty := GStruct "IlstMetaContainer" (
  GCons true "AnyTypeBox" (t_AnyTypeBox) None (
  GNil)).

(* box_types_metadata.go:112-117 *)
Definition t_Data : gty := GStruct "Data" (
  GCons true "Box" (t_Box) None (
  GCons false "DataType" (GUint 32) (Some "0,size=32") (
  GCons false "DataLang" (GUint 32) (Some "1,size=32") (
  GCons false "Data" (GSlice (GUint 8)) (Some "2,size=8") (
  GNil))))).

(* box_types_metadata.go:159-162 *)
Definition t_StringData : gty := GStruct "StringData" (
  GCons true "AnyTypeBox" (t_AnyTypeBox) None (
  GCons false "Data" (GSlice (GUint 8)) (Some "0,size=8") (
  GNil))).

(* box_types_metadata.go:176-182 *)
Definition t_Item : gty := GStruct "Item" (
  GCons true "AnyTypeBox" (t_AnyTypeBox) None (
  GCons false "Version" (GUint 8) (Some "0,size=8") (
  GCons false "Flags" (GArray 3 (GUint 8)) (Some "1,size=8") (
  GCons false "ItemName" (GSlice (GUint 8)) (Some "2,size=8,len=4") (
  GCons false "Data" (t_Data) (Some "3") (
  GNil)))))).

(* box_types_metadata.go:231-236 *)
Definition t_Key : gty := GStruct "Key" (
  GCons true "BaseCustomFieldObject" (t_BaseCustomFieldObject) None (
  GCons false "KeySize" (GInt 32) (Some "0,size=32") (
  GCons false "KeyNamespace" (GSlice (GUint 8)) (Some "1,size=8,len=4") (
  GCons false "KeyValue" (GSlice (GUint 8)) (Some "2,size=8,len=dynamic") (
  GNil))))).

(* box_types_metadata.go:207-211 *)
Definition t_Keys : gty := GStruct "Keys" (
  GCons true "FullBox" (t_FullBox) (Some "0,extend") (
  GCons false "EntryCount" (GInt 32) (Some "1,size=32") (
  GCons false "Entries" (GSlice (t_Key)) (Some "2,len=dynamic") (
  GNil)))).

(* box_types_opus.go:23-34 *)
Definition t_DOps : gty := GStruct "DOps" (
  GCons true "Box" (t_Box) None (
  GCons false "Version" (GUint 8) (Some "0,size=8") (
  GCons false "OutputChannelCount" (GUint 8) (Some "1,size=8") (
  GCons false "PreSkip" (GUint 16) (Some "2,size=16") (
  GCons false "InputSampleRate" (GUint 32) (Some "3,size=32") (
  GCons false "OutputGain" (GInt 16) (Some "4,size=16") (
  GCons false "ChannelMappingFamily" (GUint 8) (Some "5,size=8") (
  GCons false "StreamCount" (GUint 8) (Some "6,opt=dynamic,size=8") (
  GCons false "CoupledCount" (GUint 8) (Some "7,opt=dynamic,size=8") (
  GCons false "ChannelMapping" (GSlice (GUint 8)) (Some "8,opt=dynamic,size=8,len=dynamic") (
  GNil))))))))))).

(* box_types_vp.go:29-41 *)
Definition t_VpcC : gty := GStruct "VpcC" (
  GCons true "FullBox" (t_FullBox) (Some "0,extend") (
  GCons false "Profile" (GUint 8) (Some "1,size=8") (
  GCons false "Level" (GUint 8) (Some "2,size=8") (
  GCons false "BitDepth" (GUint 8) (Some "3,size=4") (
  GCons false "ChromaSubsampling" (GUint 8) (Some "4,size=3") (
  GCons false "VideoFullRangeFlag" (GUint 8) (Some "5,size=1") (
  GCons false "ColourPrimaries" (GUint 8) (Some "6,size=8") (
  GCons false "TransferCharacteristics" (GUint 8) (Some "7,size=8") (
  GCons false "MatrixCoefficients" (GUint 8) (Some "8,size=8") (
  GCons false "CodecInitializationDataSize" (GUint 16) (Some "9,size=16") (
  GCons false "CodecInitializationData" (GSlice (GUint 8)) (Some "10,size=8,len=dynamic") (
  GNil)))))))))))).

(** A registration: AddBoxDef and friends, mp4.go:73-105.  [rg_any] marks struct
    types that carry their box type in a field (AnyTypeBox). *)
Inductive pred : Set := PAlways | PUnderUdta | PIlstMetaContainer | PUnderIlstMeta | PUnderIlstFree.
Record regdef : Set := mkreg { rg_type : list byte; rg_ty : gty; rg_any : bool; rg_pred : pred; rg_versions : list N }.
Definition bt_str (s : string) : list byte := bytes_of_string s.
Definition bt_copy (s : string) : list byte := N2b 169 :: bytes_of_string s.

(* var udta3GppMetaBoxTypes *)
Definition udta3GppMetaBoxTypes : list (list byte) := [
  bt_str "titl";
  bt_str "dscp";
  bt_str "cprt";
  bt_str "perf";
  bt_str "auth";
  bt_str "gnre"].

(* var ilstMetaBoxTypes *)
Definition ilstMetaBoxTypes : list (list byte) := [
  bt_str "----";
  bt_str "aART";
  bt_str "akID";
  bt_str "apID";
  bt_str "atID";
  bt_str "cmID";
  bt_str "cnID";
  bt_str "covr";
  bt_str "cpil";
  bt_str "cprt";
  bt_str "desc";
  bt_str "disk";
  bt_str "egid";
  bt_str "geID";
  bt_str "gnre";
  bt_str "pcst";
  bt_str "pgap";
  bt_str "plID";
  bt_str "purd";
  bt_str "purl";
  bt_str "rtng";
  bt_str "sfID";
  bt_str "soaa";
  bt_str "soal";
  bt_str "soar";
  bt_str "soco";
  bt_str "sonm";
  bt_str "sosn";
  bt_str "stik";
  bt_str "tmpo";
  bt_str "trkn";
  bt_str "tven";
  bt_str "tves";
  bt_str "tvnn";
  bt_str "tvsh";
  bt_str "tvsn";
  bt_copy "ART";
  bt_copy "alb";
  bt_copy "cmt";
  bt_copy "com";
  bt_copy "day";
  bt_copy "gen";
  bt_copy "grp";
  bt_copy "nam";
  bt_copy "too";
  bt_copy "wrt"].

Definition registrations : list regdef := [
  (* box_types_3gpp.go:14 *) mkreg (bt_str "titl") t_Udta3GppString true PUnderUdta [0];
  (* box_types_3gpp.go:14 *) mkreg (bt_str "dscp") t_Udta3GppString true PUnderUdta [0];
  (* box_types_3gpp.go:14 *) mkreg (bt_str "cprt") t_Udta3GppString true PUnderUdta [0];
  (* box_types_3gpp.go:14 *) mkreg (bt_str "perf") t_Udta3GppString true PUnderUdta [0];
  (* box_types_3gpp.go:14 *) mkreg (bt_str "auth") t_Udta3GppString true PUnderUdta [0];
  (* box_types_3gpp.go:14 *) mkreg (bt_str "gnre") t_Udta3GppString true PUnderUdta [0];
  (* box_types_av1.go:10 *) mkreg (bt_str "av01") t_VisualSampleEntry true PAlways [];
  (* box_types_av1.go:20 *) mkreg (bt_str "av1C") t_Av1C false PAlways [];
  (* box_types_etsi_ts_102_366.go:10 *) mkreg (bt_str "ac-3") t_AudioSampleEntry true PAlways [];
  (* box_types_etsi_ts_102_366.go:20 *) mkreg (bt_str "dac3") t_Dac3 false PAlways [];
  (* box_types_iso14496_12.go:18 *) mkreg (bt_str "btrt") t_Btrt false PAlways [0];
  (* box_types_iso14496_12.go:38 *) mkreg (bt_str "co64") t_Co64 false PAlways [0];
  (* box_types_iso14496_12.go:66 *) mkreg (bt_str "colr") t_Colr false PAlways [];
  (* box_types_iso14496_12.go:112 *) mkreg (bt_str "cslg") t_Cslg false PAlways [0;1];
  (* box_types_iso14496_12.go:194 *) mkreg (bt_str "ctts") t_Ctts false PAlways [0;1];
  (* box_types_iso14496_12.go:239 *) mkreg (bt_str "dinf") t_Dinf false PAlways [];
  (* box_types_iso14496_12.go:259 *) mkreg (bt_str "dref") t_Dref false PAlways [0];
  (* box_types_iso14496_12.go:260 *) mkreg (bt_str "url ") t_Url false PAlways [0];
  (* box_types_iso14496_12.go:261 *) mkreg (bt_str "urn ") t_Urn false PAlways [0];
  (* box_types_iso14496_12.go:303 *) mkreg (bt_str "edts") t_Edts false PAlways [];
  (* box_types_iso14496_12.go:321 *) mkreg (bt_str "elst") t_Elst false PAlways [0;1];
  (* box_types_iso14496_12.go:403 *) mkreg (bt_str "emsg") t_Emsg false PAlways [0;1];
  (* box_types_iso14496_12.go:475 *) mkreg (bt_str "fiel") t_Fiel false PAlways [];
  (* box_types_iso14496_12.go:494 *) mkreg (bt_str "free") t_Free false PAlways [];
  (* box_types_iso14496_12.go:495 *) mkreg (bt_str "skip") t_Skip false PAlways [];
  (* box_types_iso14496_12.go:520 *) mkreg (bt_str "frma") t_Frma false PAlways [];
  (* box_types_iso14496_12.go:539 *) mkreg (bt_str "ftyp") t_Ftyp false PAlways [];
  (* box_types_iso14496_12.go:606 *) mkreg (bt_str "hdlr") t_Hdlr false PAlways [0];
  (* box_types_iso14496_12.go:674 *) mkreg (bt_str "hvcC") t_HvcC false PAlways [];
  (* box_types_iso14496_12.go:753 *) mkreg (bt_str "mdat") t_Mdat false PAlways [];
  (* box_types_iso14496_12.go:772 *) mkreg (bt_str "mdhd") t_Mdhd false PAlways [0;1];
  (* box_types_iso14496_12.go:834 *) mkreg (bt_str "mdia") t_Mdia false PAlways [];
  (* box_types_iso14496_12.go:852 *) mkreg (bt_str "mehd") t_Mehd false PAlways [0;1];
  (* box_types_iso14496_12.go:883 *) mkreg (bt_str "meta") t_Meta false PAlways [0];
  (* box_types_iso14496_12.go:918 *) mkreg (bt_str "mfhd") t_Mfhd false PAlways [0];
  (* box_types_iso14496_12.go:937 *) mkreg (bt_str "mfra") t_Mfra false PAlways [];
  (* box_types_iso14496_12.go:955 *) mkreg (bt_str "mfro") t_Mfro false PAlways [0];
  (* box_types_iso14496_12.go:974 *) mkreg (bt_str "minf") t_Minf false PAlways [];
  (* box_types_iso14496_12.go:992 *) mkreg (bt_str "moof") t_Moof false PAlways [];
  (* box_types_iso14496_12.go:1010 *) mkreg (bt_str "moov") t_Moov false PAlways [];
  (* box_types_iso14496_12.go:1028 *) mkreg (bt_str "mvex") t_Mvex false PAlways [];
  (* box_types_iso14496_12.go:1046 *) mkreg (bt_str "mvhd") t_Mvhd false PAlways [0;1];
  (* box_types_iso14496_12.go:1131 *) mkreg (bt_str "saio") t_Saio false PAlways [0;1];
  (* box_types_iso14496_12.go:1171 *) mkreg (bt_str "saiz") t_Saiz false PAlways [0];
  (* box_types_iso14496_12.go:1218 *) mkreg (bt_str "mp4v") t_VisualSampleEntry true PAlways [];
  (* box_types_iso14496_12.go:1219 *) mkreg (bt_str "avc1") t_VisualSampleEntry true PAlways [];
  (* box_types_iso14496_12.go:1220 *) mkreg (bt_str "encv") t_VisualSampleEntry true PAlways [];
  (* box_types_iso14496_12.go:1221 *) mkreg (bt_str "hev1") t_VisualSampleEntry true PAlways [];
  (* box_types_iso14496_12.go:1222 *) mkreg (bt_str "hvc1") t_VisualSampleEntry true PAlways [];
  (* box_types_iso14496_12.go:1223 *) mkreg (bt_str "mp4a") t_AudioSampleEntry true PAlways [];
  (* box_types_iso14496_12.go:1224 *) mkreg (bt_str "enca") t_AudioSampleEntry true PAlways [];
  (* box_types_iso14496_12.go:1225 *) mkreg (bt_str "avcC") t_AVCDecoderConfiguration true PAlways [];
  (* box_types_iso14496_12.go:1226 *) mkreg (bt_str "pasp") t_PixelAspectRatioBox true PAlways [];
  (* box_types_iso14496_12.go:1227 *) mkreg (bt_str "stpp") t_XMLSubtitleSampleEntry true PAlways [];
  (* box_types_iso14496_12.go:1228 *) mkreg (bt_str "sbtt") t_TextSubtitleSampleEntry true PAlways [];
  (* box_types_iso14496_12.go:1455 *) mkreg (bt_str "sbgp") t_Sbgp false PAlways [0;1];
  (* box_types_iso14496_12.go:1488 *) mkreg (bt_str "schi") t_Schi false PAlways [];
  (* box_types_iso14496_12.go:1504 *) mkreg (bt_str "schm") t_Schm false PAlways [0];
  (* box_types_iso14496_12.go:1523 *) mkreg (bt_str "sdtp") t_Sdtp false PAlways [0];
  (* box_types_iso14496_12.go:1547 *) mkreg (bt_str "sgpd") t_Sgpd false PAlways [1;2];
  (* box_types_iso14496_12.go:1688 *) mkreg (bt_str "sidx") t_Sidx false PAlways [0;1];
  (* box_types_iso14496_12.go:1752 *) mkreg (bt_str "sinf") t_Sinf false PAlways [];
  (* box_types_iso14496_12.go:1768 *) mkreg (bt_str "smhd") t_Smhd false PAlways [0];
  (* box_types_iso14496_12.go:1806 *) mkreg (bt_str "stbl") t_Stbl false PAlways [];
  (* box_types_iso14496_12.go:1824 *) mkreg (bt_str "stco") t_Stco false PAlways [0];
  (* box_types_iso14496_12.go:1853 *) mkreg (bt_str "stsc") t_Stsc false PAlways [0];
  (* box_types_iso14496_12.go:1888 *) mkreg (bt_str "stsd") t_Stsd false PAlways [0];
  (* box_types_iso14496_12.go:1907 *) mkreg (bt_str "stss") t_Stss false PAlways [0];
  (* box_types_iso14496_12.go:1935 *) mkreg (bt_str "stsz") t_Stsz false PAlways [0];
  (* box_types_iso14496_12.go:1968 *) mkreg (bt_str "stts") t_Stts false PAlways [0];
  (* box_types_iso14496_12.go:2002 *) mkreg (bt_str "styp") t_Styp false PAlways [];
  (* box_types_iso14496_12.go:2021 *) mkreg (bt_str "tfdt") t_Tfdt false PAlways [0;1];
  (* box_types_iso14496_12.go:2052 *) mkreg (bt_str "tfhd") t_Tfhd false PAlways [0];
  (* box_types_iso14496_12.go:2088 *) mkreg (bt_str "tfra") t_Tfra false PAlways [0;1];
  (* box_types_iso14496_12.go:2184 *) mkreg (bt_str "tkhd") t_Tkhd false PAlways [0;1];
  (* box_types_iso14496_12.go:2284 *) mkreg (bt_str "traf") t_Traf false PAlways [];
  (* box_types_iso14496_12.go:2302 *) mkreg (bt_str "trak") t_Trak false PAlways [];
  (* box_types_iso14496_12.go:2320 *) mkreg (bt_str "trep") t_Trep false PAlways [0];
  (* box_types_iso14496_12.go:2339 *) mkreg (bt_str "trex") t_Trex false PAlways [0];
  (* box_types_iso14496_12.go:2362 *) mkreg (bt_str "trun") t_Trun false PAlways [0;1];
  (* box_types_iso14496_12.go:2437 *) mkreg (bt_str "udta") t_Udta false PAlways [];
  (* box_types_iso14496_12.go:2459 *) mkreg (bt_str "vmhd") t_Vmhd false PAlways [0];
  (* box_types_iso14496_12.go:2479 *) mkreg (bt_str "wave") t_Wave false PAlways [];
  (* box_types_iso14496_14.go:12 *) mkreg (bt_str "esds") t_Esds false PAlways [0];
  (* box_types_iso14496_30.go:10 *) mkreg (bt_str "vttC") t_WebVTTConfigurationBox false PAlways [];
  (* box_types_iso14496_30.go:11 *) mkreg (bt_str "vlab") t_WebVTTSourceLabelBox false PAlways [];
  (* box_types_iso14496_30.go:12 *) mkreg (bt_str "wvtt") t_WVTTSampleEntry true PAlways [];
  (* box_types_iso14496_30.go:49 *) mkreg (bt_str "vttc") t_VTTCueBox false PAlways [];
  (* box_types_iso14496_30.go:50 *) mkreg (bt_str "vsid") t_CueSourceIDBox false PAlways [];
  (* box_types_iso14496_30.go:51 *) mkreg (bt_str "ctim") t_CueTimeBox false PAlways [];
  (* box_types_iso14496_30.go:52 *) mkreg (bt_str "iden") t_CueIDBox false PAlways [];
  (* box_types_iso14496_30.go:53 *) mkreg (bt_str "sttg") t_CueSettingsBox false PAlways [];
  (* box_types_iso14496_30.go:54 *) mkreg (bt_str "payl") t_CuePayloadBox false PAlways [];
  (* box_types_iso14496_30.go:55 *) mkreg (bt_str "vtte") t_VTTEmptyCueBox false PAlways [];
  (* box_types_iso14496_30.go:56 *) mkreg (bt_str "vtta") t_VTTAdditionalTextBox false PAlways [];
  (* box_types_iso23001_5.go:8 *) mkreg (bt_str "ipcm") t_AudioSampleEntry true PAlways [];
  (* box_types_iso23001_5.go:16 *) mkreg (bt_str "fpcm") t_AudioSampleEntry true PAlways [];
  (* box_types_iso23001_5.go:24 *) mkreg (bt_str "pcmC") t_PcmC false PAlways [0;1];
  (* box_types_iso23001_7.go:15 *) mkreg (bt_str "pssh") t_Pssh false PAlways [0;1];
  (* box_types_iso23001_7.go:73 *) mkreg (bt_str "tenc") t_Tenc false PAlways [0;1];
  (* box_types_metadata.go:73 *) mkreg (bt_str "ilst") t_Ilst false PAlways [];
  (* box_types_metadata.go:74 *) mkreg (bt_str "data") t_Data false PUnderIlstMeta [];
  (* box_types_metadata.go:76 *) mkreg (bt_str "----") t_IlstMetaContainer true PIlstMetaContainer [];
  (* box_types_metadata.go:76 *) mkreg (bt_str "aART") t_IlstMetaContainer true PIlstMetaContainer [];
  (* box_types_metadata.go:76 *) mkreg (bt_str "akID") t_IlstMetaContainer true PIlstMetaContainer [];
  (* box_types_metadata.go:76 *) mkreg (bt_str "apID") t_IlstMetaContainer true PIlstMetaContainer [];
  (* box_types_metadata.go:76 *) mkreg (bt_str "atID") t_IlstMetaContainer true PIlstMetaContainer [];
  (* box_types_metadata.go:76 *) mkreg (bt_str "cmID") t_IlstMetaContainer true PIlstMetaContainer [];
  (* box_types_metadata.go:76 *) mkreg (bt_str "cnID") t_IlstMetaContainer true PIlstMetaContainer [];
  (* box_types_metadata.go:76 *) mkreg (bt_str "covr") t_IlstMetaContainer true PIlstMetaContainer [];
  (* box_types_metadata.go:76 *) mkreg (bt_str "cpil") t_IlstMetaContainer true PIlstMetaContainer [];
  (* box_types_metadata.go:76 *) mkreg (bt_str "cprt") t_IlstMetaContainer true PIlstMetaContainer [];
  (* box_types_metadata.go:76 *) mkreg (bt_str "desc") t_IlstMetaContainer true PIlstMetaContainer [];
  (* box_types_metadata.go:76 *) mkreg (bt_str "disk") t_IlstMetaContainer true PIlstMetaContainer [];
  (* box_types_metadata.go:76 *) mkreg (bt_str "egid") t_IlstMetaContainer true PIlstMetaContainer [];
  (* box_types_metadata.go:76 *) mkreg (bt_str "geID") t_IlstMetaContainer true PIlstMetaContainer [];
  (* box_types_metadata.go:76 *) mkreg (bt_str "gnre") t_IlstMetaContainer true PIlstMetaContainer [];
  (* box_types_metadata.go:76 *) mkreg (bt_str "pcst") t_IlstMetaContainer true PIlstMetaContainer [];
  (* box_types_metadata.go:76 *) mkreg (bt_str "pgap") t_IlstMetaContainer true PIlstMetaContainer [];
  (* box_types_metadata.go:76 *) mkreg (bt_str "plID") t_IlstMetaContainer true PIlstMetaContainer [];
  (* box_types_metadata.go:76 *) mkreg (bt_str "purd") t_IlstMetaContainer true PIlstMetaContainer [];
  (* box_types_metadata.go:76 *) mkreg (bt_str "purl") t_IlstMetaContainer true PIlstMetaContainer [];
  (* box_types_metadata.go:76 *) mkreg (bt_str "rtng") t_IlstMetaContainer true PIlstMetaContainer [];
  (* box_types_metadata.go:76 *) mkreg (bt_str "sfID") t_IlstMetaContainer true PIlstMetaContainer [];
  (* box_types_metadata.go:76 *) mkreg (bt_str "soaa") t_IlstMetaContainer true PIlstMetaContainer [];
  (* box_types_metadata.go:76 *) mkreg (bt_str "soal") t_IlstMetaContainer true PIlstMetaContainer [];
  (* box_types_metadata.go:76 *) mkreg (bt_str "soar") t_IlstMetaContainer true PIlstMetaContainer [];
  (* box_types_metadata.go:76 *) mkreg (bt_str "soco") t_IlstMetaContainer true PIlstMetaContainer [];
  (* box_types_metadata.go:76 *) mkreg (bt_str "sonm") t_IlstMetaContainer true PIlstMetaContainer [];
  (* box_types_metadata.go:76 *) mkreg (bt_str "sosn") t_IlstMetaContainer true PIlstMetaContainer [];
  (* box_types_metadata.go:76 *) mkreg (bt_str "stik") t_IlstMetaContainer true PIlstMetaContainer [];
  (* box_types_metadata.go:76 *) mkreg (bt_str "tmpo") t_IlstMetaContainer true PIlstMetaContainer [];
  (* box_types_metadata.go:76 *) mkreg (bt_str "trkn") t_IlstMetaContainer true PIlstMetaContainer [];
  (* box_types_metadata.go:76 *) mkreg (bt_str "tven") t_IlstMetaContainer true PIlstMetaContainer [];
  (* box_types_metadata.go:76 *) mkreg (bt_str "tves") t_IlstMetaContainer true PIlstMetaContainer [];
  (* box_types_metadata.go:76 *) mkreg (bt_str "tvnn") t_IlstMetaContainer true PIlstMetaContainer [];
  (* box_types_metadata.go:76 *) mkreg (bt_str "tvsh") t_IlstMetaContainer true PIlstMetaContainer [];
  (* box_types_metadata.go:76 *) mkreg (bt_str "tvsn") t_IlstMetaContainer true PIlstMetaContainer [];
  (* box_types_metadata.go:76 *) mkreg (bt_copy "ART") t_IlstMetaContainer true PIlstMetaContainer [];
  (* box_types_metadata.go:76 *) mkreg (bt_copy "alb") t_IlstMetaContainer true PIlstMetaContainer [];
  (* box_types_metadata.go:76 *) mkreg (bt_copy "cmt") t_IlstMetaContainer true PIlstMetaContainer [];
  (* box_types_metadata.go:76 *) mkreg (bt_copy "com") t_IlstMetaContainer true PIlstMetaContainer [];
  (* box_types_metadata.go:76 *) mkreg (bt_copy "day") t_IlstMetaContainer true PIlstMetaContainer [];
  (* box_types_metadata.go:76 *) mkreg (bt_copy "gen") t_IlstMetaContainer true PIlstMetaContainer [];
  (* box_types_metadata.go:76 *) mkreg (bt_copy "grp") t_IlstMetaContainer true PIlstMetaContainer [];
  (* box_types_metadata.go:76 *) mkreg (bt_copy "nam") t_IlstMetaContainer true PIlstMetaContainer [];
  (* box_types_metadata.go:76 *) mkreg (bt_copy "too") t_IlstMetaContainer true PIlstMetaContainer [];
  (* box_types_metadata.go:76 *) mkreg (bt_copy "wrt") t_IlstMetaContainer true PIlstMetaContainer [];
  (* box_types_metadata.go:78 *) mkreg (bt_str "mean") t_StringData true PUnderIlstFree [];
  (* box_types_metadata.go:79 *) mkreg (bt_str "name") t_StringData true PUnderIlstFree [];
  (* box_types_metadata.go:200 *) mkreg (bt_str "keys") t_Keys false PAlways [];
  (* box_types_opus.go:10 *) mkreg (bt_str "Opus") t_AudioSampleEntry true PAlways [];
  (* box_types_opus.go:20 *) mkreg (bt_str "dOps") t_DOps false PAlways [];
  (* box_types_vp.go:10 *) mkreg (bt_str "vp08") t_VisualSampleEntry true PAlways [];
  (* box_types_vp.go:18 *) mkreg (bt_str "vp09") t_VisualSampleEntry true PAlways [];
  (* box_types_vp.go:26 *) mkreg (bt_str "vpcC") t_VpcC false PAlways []
].
