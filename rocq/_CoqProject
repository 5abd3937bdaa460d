-Q theories Verif
theories/Base.v
theories/BitIO.v
theories/Schema.v
theories/Structs.v
theories/Methods.v
theories/Registry.v
theories/Marshal.v
theories/Unmarshal.v
theories/BoxInfo.v
theories/ReadTree.v
theories/Extract.v
theories/Writer.v
theories/BaseProofs.v
theories/BitIOProofs.v
theories/SpecBitIO.v
theories/BitIOFacts.v
theories/PropBitIO.v
theories/SpecHeader.v
theories/HeaderProofs.v
theories/PropHeader.v
theories/PropHeaderExact.v
theories/SpecCodec.v
theories/MarshalProofs.v
theories/MarshalCount.v
theories/PropMarshal.v
theories/Decode.v
theories/UnmarshalProofs.v
theories/DecodeFacts.v
theories/VersionFacts.v
theories/PropUnmarshal.v
theories/SpecRoundTrip.v
theories/Causal.v
theories/RoundTripBase.v
theories/RoundTripProofs.v
theories/RoundTripMeta.v
theories/Vectors.v
theories/PropRoundTrip.v
theories/Shape.v
theories/SpecLossless.v
theories/Lossless.v
theories/PropLossless.v
theories/SpecTotal.v
theories/Total.v
theories/PropTotal.v
theories/SpecSize.v
theories/SizeProofs.v
theories/PropSize.v
theories/PropAnyCount.v
theories/SpecShort.v
theories/PropShort.v
theories/PropFaults.v
theories/SgpdFacts.v
theories/PropSgpd.v
theories/SpecTree.v
theories/TreeProofs.v
theories/PropTree.v
theories/Flow.v
theories/SpecTrace.v
theories/TraceProofs.v
theories/PropTrace.v
theories/PropFlow.v
theories/PropCut.v
theories/SpecExtract.v
theories/PropExtract.v
theories/PropExtractPayload.v
theories/SpecWriter.v
theories/WriterProofs.v
theories/PropWriter.v
theories/PropWriterSafe.v
theories/SpecFields.v
theories/PropFields.v
theories/Text.v
theories/PropBoxType.v
theories/PropLookup.v
theories/BoxMethods.v
theories/PropBoxMethods.v
theories/SpecIso.v
theories/IsoProofs.v
theories/SpecTables.v
theories/PropTables.v
theories/Floats.v
theories/SpecFloats.v
theories/FloatFacts.v
theories/FloatRound.v
theories/FloatOps.v
theories/Accessors.v
theories/SpecAccessors.v
theories/LocateFacts.v
theories/AccessorProofs.v
theories/PropAccessors.v
theories/PropFixed.v
theories/Probe.v
theories/SpecProbe.v
theories/ProbeProofs.v
theories/ProbeFound.v
theories/PropProbe.v
theories/PropBitrate.v
theories/PropIdr.v
theories/PropAac.v
theories/Edit.v
theories/SpecEdit.v
theories/EditProofs.v
theories/EditTime.v
theories/PropEdit.v
theories/PropHdlr.v
theories/GoText.v
theories/Stringify.v
theories/SpecStringify.v
theories/RepoVectors.v
theories/Typed.v
theories/StringifyProofs.v
theories/StringifyText.v
theories/PropStringify.v
theories/PropOwnVersion.v
theories/PropSafe.v
theories/Tool.v
theories/SpecTool.v
theories/ToolProofs.v
theories/PropTool.v
theories/PropPssh.v
theories/SpecReport.v
theories/PropReport.v
theories/ProbeTool.v
theories/SpecProbeTool.v
theories/NumText.v
theories/PropProbeTool.v
theories/Divide.v
theories/DivideFloats.v
theories/SpecDivide.v
theories/DivideProofs.v
theories/DivideWalk.v
theories/DivideTree.v
theories/DivideRuns.v
theories/PropDivide.v
theories/SpecPlaylist.v
theories/PropPlaylist.v
theories/PropDivideRuns.v
theories/Stream.v
theories/PropStream.v
theories/AnyReader.v
theories/AnyReaderProofs.v
theories/PropAnyReader.v
theories/PropSeek.v
theories/AnyReaderWeak.v
theories/PropNeverWrong.v
theories/SpecReuse.v
theories/ReuseFacts.v
theories/PropReuse.v
theories/SpecReencode.v
theories/Truncate.v
theories/Reencode.v
theories/ReencodeBoxes.v
theories/PropReencode.v
theories/Extend.v
theories/SpecEditAgain.v
theories/EditAgain.v
theories/PropEditAgain.v
theories/SpecEditAny.v
theories/EditAny.v
theories/PropEditAny.v
theories/EditAnyTwice.v
theories/PropEditAnyTwice.v
theories/PropTablesRead.v
theories/SpecIdr.v
theories/PropIdrAny.v
theories/Failing.v
theories/SpecFailing.v
theories/FailingProofs.v
theories/PropFailing.v
theories/PropSeekFails.v
theories/DriftProofs.v
theories/PropSeekDump.v
theories/ToolReader.v
theories/ToolReaderProofs.v
theories/PropToolReader.v
theories/Cli.v
theories/SpecCli.v
theories/CliProofs.v
theories/PropCli.v
theories/PropCommands.v
theories/EditSafeProofs.v
theories/PropEditSafe.v
theories/EditFaults.v
theories/SpecEditFaults.v
theories/EditFaultsProofs.v
theories/PropEditFaults.v
theories/DivideReader.v
theories/DivideReaderProofs.v
theories/PropDivideReader.v
theories/SpecDivideFaults.v
theories/DivideFaults.v
theories/DivideFaultsProofs.v
theories/PropDivideFaults.v
theories/WriterFaults.v
theories/PropWriterFaults.v
theories/FaultsExactProofs.v
theories/PropFaultsExact.v
theories/PropShortExact.v
theories/PropConstantSize.v
theories/StdoutFaults.v
theories/SpecStdoutFaults.v
theories/StdoutFaultsProofs.v
theories/PropStdoutFaults.v
