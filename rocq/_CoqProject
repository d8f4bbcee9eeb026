-Q theories Verif

theories/Base.v
theories/Pretty.v
theories/PyVal.v
theories/Checksums.v
theories/Headers.v
theories/Args.v
theories/FileIO.v
theories/Objects.v
theories/Log.v
theories/ObjectsSpec.v
theories/Append.v
theories/Spec.v
theories/BaseLemmas.v
theories/PrettyProofs.v
theories/HeaderProofs.v
theories/ObjectsProofs.v
theories/ReprSpec.v
theories/ReprProofs.v
theories/IOProofs.v
theories/WfProofs.v
theories/PackProofs.v
theories/SmallProofs.v
theories/PropsHeader.v
theories/BytesProofs.v
theories/Json.v
theories/Toy.v
theories/MetaProofs.v
theories/PropsPack.v
theories/AppendProofs.v
theories/Archive.v
theories/Repack.v
theories/Overlap.v
theories/Torn.v
theories/ArchiveProofs.v
theories/CrashProofs.v
theories/AppendSim.v
theories/HistoryProofs.v
theories/ResignProofs.v
theories/ChecksumProofs.v
theories/CrcSpec.v
theories/CrcProofs.v
theories/Damage.v
theories/DamageProofs.v
theories/DamageBound.v
theories/OverlapProofs.v
theories/TornProofs.v
theories/LiveProofs.v
theories/Unprotected.v
theories/UnprotectedProofs.v
theories/RepackProofs.v
theories/SpaceProofs.v
theories/PropsAppend.v
theories/PropsDamage.v
theories/PropsOverlap.v
theories/PropsTorn.v
theories/Files.v
theories/Cli.v
theories/OptionProofs.v
theories/FilesProofs.v
theories/CliProofs.v
theories/PropsFiles.v
theories/PropsOption.v
theories/MemoryIO.v
theories/NumpyIO.v
theories/PyLit.v
theories/NumpySpec.v
theories/NumpyProofs.v
theories/NumpyUnpack.v
theories/NumpyMeta.v
theories/NumpyAppend.v
theories/MemoryProofs.v
theories/ToyNumpy.v
theories/PropsNumpy.v
theories/PropsUnprotected.v
theories/PropsObjects.v
theories/PropsRepack.v
theories/PropsSpace.v
theories/PropsPretty.v
theories/Report.v
theories/ReportSpec.v
theories/ReportProofs.v
theories/ReportInj.v
theories/ReportToy.v
theories/PropsReport.v
theories/ExcSpec.v
theories/ExcProofs.v
theories/ExcPack.v
theories/PropsExc.v
theories/Parser.v
theories/ParserSpec.v
theories/ParserProofs.v
theories/ParserMain.v
theories/PropsParser.v
theories/Embed.v
theories/EmbedProofs.v
theories/PropsEmbed.v
theories/Mix.v
theories/MixProofs.v
theories/PropsMix.v
theories/Reuse.v
theories/ReuseSpec.v
theories/ReuseProofs.v
theories/PropsReuse.v
theories/NumpySink.v
theories/ExcNumpy.v
theories/EdgeProofs.v
theories/PropsEdge.v
theories/Stream.v
theories/StreamProofs.v
theories/PropsStream.v
theories/Fault.v
theories/FaultProofs.v
theories/DiskProofs.v
theories/FaultCases.v
theories/PropsFault.v
theories/RepoTests.v
theories/Dynamic.v
theories/DynSpec.v
theories/DynProofs.v
theories/DynPackProofs.v
theories/DynIntProofs.v
theories/DynTwin.v
theories/PropsDyn.v
theories/Burst.v
theories/BurstProofs.v
theories/PropsBurst.v
theories/Verbose.v
theories/VerbSpec.v
theories/VerbProofs.v
theories/RatioProofs.v
theories/VerbArchive.v
theories/PropsVerb.v
theories/Argparse.v
theories/ArgSpec.v
theories/ArgProofs.v
theories/ArgOptions.v
theories/ArgLoop.v
theories/ArgMain.v
theories/ArgRefuse.v
theories/ArgSame.v
theories/PropsArg.v
theories/EqSpec.v
theories/RoundProofs.v
theories/FloatProofs.v
theories/EqProofs.v
theories/EqMain.v
theories/PropsEq.v
theories/FormatSpec.v
theories/FormatProofs.v
theories/PropsFormat.v
theories/Compare.v
theories/CompareProofs.v
theories/PropsCompare.v
theories/Stir.v
theories/StirProofs.v
theories/PropsStir.v
theories/ReadSpec.v
theories/ReadProofs.v
theories/PropsRead.v
theories/ReviseSpec.v
theories/ReviseProofs.v
theories/PropsRevise.v
theories/WriteSpec.v
theories/WriteProofs.v
theories/PropsWrite.v
theories/CmdSpec.v
theories/CmdProofs.v
theories/PropsCmd.v
theories/ArraySpec.v
theories/ArrayProofs.v
theories/PropsArray.v
theories/Itself.v
theories/ItselfProofs.v
theories/PropsItself.v
theories/Churn.v
theories/ChurnProofs.v
theories/PropsChurn.v
theories/Chatter.v
theories/ChatSpec.v
theories/ChatProofs.v
theories/PropsChat.v
theories/Opening.v
theories/OpeningSpec.v
theories/OpeningProofs.v
theories/PropsOpening.v
theories/Closing.v
theories/ClosingSpec.v
theories/ClosingProofs.v
theories/PropsClosing.v
