-Q theories Verif
theories/Base.v
theories/BaseFacts.v
theories/UtilsModel.v
theories/SpecUtils.v
theories/UtilsFacts.v
theories/SectionModel.v
theories/SpecSection.v
theories/SectionFacts.v
theories/PeModel.v
theories/SpecPe.v
theories/PeFacts.v
theories/PeEditFacts.v
theories/Samples.v
theories/LoadModel.v
theories/SpecLoad.v
theories/LoadFacts.v
theories/SamplesLoad.v
theories/ChecksumModel.v
theories/SpecChecksum.v
theories/LoadExec.v
theories/ChecksumFacts.v
theories/RebuildModel.v
theories/SpecRebuild.v
theories/RebuildFacts.v
theories/ReloadFacts.v
theories/ReloadMain.v
theories/ReloadImage.v
theories/ReloadDone.v
theories/CreateFacts.v
theories/SamplesRebuild.v
theories/DirModel.v
theories/SpecDir.v
theories/DirFacts.v
theories/StoreFacts.v
theories/RelocModel.v
theories/SpecReloc.v
theories/RelocFacts.v
theories/SamplesDir.v
theories/RebaseFacts.v
theories/SamplesRead.v
theories/ReadersModel.v
theories/SpecReaders.v
theories/ReadersFacts.v
theories/ResDataModel.v
theories/SpecResData.v
theories/ResDataFacts.v
theories/EntropyModel.v
theories/SpecEntropy.v
theories/EntropyFacts.v
theories/PropUtils.v
theories/PropSection.v
theories/PropPe.v
theories/PropPeEdit.v
theories/PropLoad.v
theories/PropChecksum.v
theories/PropRebuild.v
theories/BoundModel.v
theories/SpecBound.v
theories/BoundFacts.v
theories/ExportModel.v
theories/SpecExport.v
theories/ExportFacts.v
theories/ImportModel.v
theories/SpecImport.v
theories/ImportFacts.v
theories/PropReloc.v
theories/PropReaders.v
theories/PropResData.v
theories/PropEntropy.v
theories/PropBound.v
theories/PropExport.v
theories/PropImport.v
theories/ConfigModel.v
theories/SpecConfig.v
theories/ConfigFacts.v
theories/PropConfig.v
theories/TlsModel.v
theories/SpecTls.v
theories/TlsFacts.v
theories/TlsRound.v
theories/TlsGrow.v
theories/PropTls.v
theories/ResModel.v
theories/SpecRes.v
theories/ResFacts.v
theories/ResTree.v
theories/ResWrite.v
theories/ResRound.v
theories/PropRes.v
theories/ManagerModel.v
theories/SpecManager.v
theories/ManagerFacts.v
theories/PropManager.v
theories/VerModel.v
theories/SpecVer.v
theories/VerFacts.v
theories/VerRound.v
theories/VerRead.v
theories/SpecVerFormat.v
theories/VerFormat.v
theories/SpecVerAny.v
theories/VerAny.v
theories/PropVer.v
theories/VerEditModel.v
theories/SpecVerEdit.v
theories/VerEditFacts.v
theories/VerEditMore.v
theories/PropVerEdit.v
theories/IconModel.v
theories/SpecIcon.v
theories/IconFacts.v
theories/IconRound.v
theories/IconAdd.v
theories/IconMore.v
theories/IconSafe.v
theories/IconSamples.v
theories/PropIcon.v
theories/DebugModel.v
theories/SpecDebug.v
theories/DebugFacts.v
theories/DebugMore.v
theories/DebugDir.v
theories/DebugTable.v
theories/DebugLoad.v
theories/DebugSamples.v
theories/PropDebug.v
theories/OwnModel.v
theories/SpecOwn.v
theories/OwnFacts.v
theories/OwnDebug.v
theories/OwnImage.v
theories/PropOwn.v
theories/LoadedRead.v
theories/PropLoaded.v
theories/SpecExact.v
theories/ExactFacts.v
theories/SpecExactTables.v
theories/ExactTables.v
theories/ExactExports.v
theories/PropExact.v
theories/DotnetModel.v
theories/SpecDotnet.v
theories/DotnetFacts.v
theories/PropDotnet.v
theories/OwnTreeModel.v
theories/SpecOwnTree.v
theories/OwnTreeFacts.v
theories/OwnTreePaths.v
theories/OwnTreeSteps.v
theories/OwnTreePush.v
theories/OwnTreeRun.v
theories/PropOwnTree.v
theories/HeaderModel.v
theories/SpecHeader.v
theories/HeaderFacts.v
theories/PropHeader.v
theories/SpecOverlay.v
theories/OverlayFacts.v
theories/PropOverlay.v
theories/SpecKeep.v
theories/KeepFacts.v
theories/KeepRead.v
theories/KeepDone.v
theories/KeepRealign.v
theories/KeepEdit.v
theories/SamplesKeep.v
theories/PropKeep.v
theories/SpecHistory.v
theories/HistoryFacts.v
theories/SamplesHistory.v
theories/PropHistory.v
theories/TypedModel.v
theories/SpecTyped.v
theories/TypedFacts.v
theories/SamplesTyped.v
theories/PropTyped.v
theories/SpecExactRes.v
theories/ExactRes.v
theories/PropExactRes.v
theories/FailModel.v
theories/FailFacts.v
theories/SpecFail.v
theories/FailSafe.v
theories/FailStrong.v
theories/FailConfig.v
theories/FailTls.v
theories/FailRebase.v
theories/PropFail.v
theories/AddrModel.v
theories/SpecAddr.v
theories/AddrFacts.v
theories/PropAddr.v
theories/SpecRaw.v
theories/KeepRaw.v
theories/SamplesRaw.v
theories/PropRaw.v
theories/FailImportModel.v
theories/SpecFailImport.v
theories/FailImport.v
theories/FailImport2.v
theories/PropFailImport.v
theories/KeepTls.v
theories/PropKeepTls.v
theories/SpecRewrite.v
theories/RewriteBase.v
theories/RewriteTables.v
theories/RewriteRound.v
theories/PropRewrite.v
theories/SpecKeepDebug.v
theories/KeepDebug.v
theories/SamplesDebugKeep.v
theories/PropKeepDebug.v
theories/SpecOwnDir.v
theories/OwnDir.v
theories/PropOwnDir.v
theories/SpecVerFile.v
theories/VerFile.v
theories/PropVerFile.v
theories/WriteAgain.v
theories/PropWriteAgain.v
