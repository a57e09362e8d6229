-Q theories Verif

theories/Base.v
theories/Formats.v
theories/Signatures.v
theories/IO.v
theories/Find.v
theories/Utf8.v
theories/Readers.v
theories/Lib.v
theories/Conf.v
theories/Conformance.v
theories/BaseProofs.v
theories/Spec.v
theories/FindProofs.v
theories/Mem.v
theories/IOProofs.v
theories/Static.v
theories/Documented.v
theories/FormatsProofs.v
theories/ReaderStatic.v
theories/Lawful.v
theories/LibProofs.v
theories/Ideal.v
theories/SigProofs.v
theories/SigSparse.v
theories/SpecSig.v
theories/SpecText.v
theories/CoreProofs.v
theories/Utf8Proofs.v
theories/TextProofs.v
theories/SpecScan.v
theories/ScanProofs.v
theories/SpecBin.v
theories/BinProofs.v
theories/Exec.v
theories/SpecExe.v
theories/ExeProofs.v
theories/SpecId3.v
theories/Id3Proofs.v
theories/SpecMp4.v
theories/Mp4Proofs.v
theories/SpecEbml.v
theories/EbmlProofs.v
theories/SpecApi.v
theories/Glue.v
theories/MaxProofs.v
theories/SpecMedia.v
theories/MediaProofs.v
theories/SpecZip.v
theories/ZipProofs.v
theories/PropertiesSig.v
theories/PropertiesApi.v
theories/PropertiesApi2.v
theories/PropertiesText.v
theories/PropertiesBin.v
theories/PropertiesMedia.v
theories/PropertiesZip.v
theories/SpecMeta.v
theories/MetaProofs.v
theories/PropertiesMeta.v
theories/SpecIo.v
theories/Cost.v
theories/ReaderCost.v
theories/CallProofs.v
theories/Alloc.v
theories/AllocProofs.v
theories/PropertiesIo.v
theories/Reach.v
theories/PropertiesReach.v
theories/Lefi.v
theories/SpecLefi.v
theories/PropertiesLefi.v
theories/PropertiesFallback.v
theories/Checked.v
theories/Width.v
theories/PropertiesBuilds.v
theories/PropertiesZip2.v
theories/PropertiesFile.v
theories/PropertiesText2.v
theories/PropertiesStream.v
theories/SpecWalk.v
theories/WalkProofs.v
theories/WalkEbml.v
theories/WalkId3.v
theories/WalkZip.v
theories/PropertiesWalk.v
theories/SpecMagic.v
theories/PropertiesMagic.v
theories/PropertiesMagic2.v
theories/AppendProofs.v
theories/PropertiesAppend.v
theories/SpecReadme.v
theories/PropertiesReadme.v
theories/PropertiesRepeat.v
theories/AnyReader.v
theories/SpecAny.v
theories/AnyProofs.v
theories/AnyHom.v
theories/PropertiesAny.v
theories/SpecDetect.v
theories/PropertiesDetect.v
theories/PropertiesDetect2.v
theories/PropertiesChecks.v
theories/Cargo.v
theories/SpecCargo.v
theories/PropertiesCargo.v
theories/AnyReturn.v
theories/PropertiesReturn.v
theories/SpecVolume.v
theories/AnyVolume.v
theories/PropertiesVolume.v
theories/SpecPackage.v
theories/PropertiesPackage.v
theories/SpecIana.v
theories/PropertiesIana.v
theories/SpecBom.v
theories/PropertiesBom.v
theories/SpecXml.v
theories/PropertiesXml.v
theories/FindCost.v
theories/SpecCost.v
theories/PropertiesCost.v
theories/SpecFamily.v
theories/PropertiesFamily.v
theories/Derive.v
theories/SpecNames.v
theories/PropertiesNames.v
theories/SigCost.v
theories/PropertiesCost2.v
theories/FaultProofs.v
theories/PropertiesFault.v
theories/Source.v
theories/Rust.v
theories/Macro.v
theories/RustEval.v
theories/SpecMacro.v
theories/MacroProofs.v
theories/MacroStages.v
theories/PropertiesMacro.v
theories/Toml.v
theories/PropertiesToml.v
theories/RustAst.v
theories/RustSem.v
theories/LibSem.v
theories/SourceProofs.v
theories/SourceReaders.v
theories/SourceCfb.v
theories/SourceRm.v
theories/SourceAsf.v
theories/SourceMp4.v
theories/SourceEbml.v
theories/SourceTxt.v
theories/SourceId3.v
theories/SourcePdf.v
theories/SourceZip.v
theories/SourceDispatch.v
theories/SourceFind.v
theories/SpecSource.v
theories/SpecLibText.v
theories/PropertiesSource.v
theories/PropertiesLibText.v
