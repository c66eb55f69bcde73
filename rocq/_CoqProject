-Q theories Verif
theories/GoBase.v
theories/GoLemmas.v
theories/DiskModel.v
theories/DiskSpec.v
theories/DiskProofs.v
theories/DiskOpenProofs.v
theories/DiskOpenSpec.v
theories/DiskExProofs.v
theories/TightProofs.v
theories/PropertiesDisk.v
theories/TypesModel.v
theories/SupermonModel.v
theories/SupermonSpec.v
theories/SupermonTableSpec.v
theories/SupermonProofs.v
theories/SupermonSymProofs.v
theories/SupermonTabProofs.v
theories/SupermonLinkProofs.v
theories/SupermonNameProofs.v
theories/SupermonStoreSpec.v
theories/SupermonOpProofs.v
theories/SupermonNamedProofs.v
theories/SupermonFinalProofs.v
theories/SupermonStmtProofs.v
theories/SupermonReadableProofs.v
theories/SupermonBreakSpec.v
theories/SupermonBreakProofs.v
theories/SupermonRewriteProofs.v
theories/PropertiesSupermon.v
theories/CodecLemmas.v
theories/Dos3Model.v
theories/Dos3Spec.v
theories/Dos3CodecProofs.v
theories/Dos3Proofs.v
theories/Dos3StmtProofs.v
theories/PropertiesDos3.v
theories/ProdosModel.v
theories/ProdosSpec.v
theories/ProdosCodecProofs.v
theories/ProdosBitmapProofs.v
theories/ProdosProofs.v
theories/ProdosStmtProofs.v
theories/ProdosTwinProofs.v
theories/PropertiesProdos.v
theories/BasicModel.v
theories/BasicSpec.v
theories/BasicProofs.v
theories/BasicStmtProofs.v
theories/PropertiesBasic.v
theories/ErrorsModel.v
theories/TypesSpec.v
theories/TypesProofs.v
theories/PropertiesTypes.v
theories/CmdModel.v
theories/CmdSpec.v
theories/CmdProofs.v
theories/CmdStmtProofs.v
theories/PropertiesCmd.v
theories/SdSpec.v
theories/SdProofs.v
theories/SdStmtProofs.v
theories/PropertiesSd.v
theories/NakedCmdSpec.v
theories/NakedCmdProofs.v
theories/NakedOpenProofs.v
theories/NakedExProofs.v
theories/PlaceModel.v
theories/PlaceSpec.v
theories/PlaceProofs.v
theories/PropertiesPlace.v
theories/DetectSpec.v
theories/DetectProofs.v
theories/NakedNameProofs.v
theories/PrintProofs.v
theories/KeywordSpec.v
theories/KeywordProofs.v
theories/PropertiesDetect.v
theories/MainModel.v
theories/MainSpec.v
theories/MainProofs.v
theories/FiletypesProofs.v
theories/PropertiesMain.v
theories/BootSpec.v
theories/BootProofs.v
theories/BootStmtProofs.v
theories/PropertiesBoot.v
theories/ListSpec.v
theories/ListProofs.v
theories/ListTwinProofs.v
theories/PropertiesList.v
theories/OpenFuelProofs.v
theories/NakedSeenProofs.v
theories/PropertiesNaked.v
theories/AfterProofs.v
theories/AfterRmProofs.v
theories/ReorderProofs.v
theories/AfterExProofs.v
theories/PropertiesAfter.v
theories/CrashSpec.v
theories/CrashProofs.v
theories/CrashExProofs.v
theories/PropertiesCrash.v
theories/SupermonChainSpec.v
theories/SupermonChainProofs.v
theories/SupermonChainExProofs.v
theories/PropertiesChain.v
theories/SessionSpec.v
theories/MarkProofs.v
theories/SessionProofs.v
theories/SessionExProofs.v
theories/PropertiesSession.v
theories/PipeSpec.v
theories/PipeProofs.v
theories/PipeExProofs.v
theories/PropertiesPipe.v
theories/NamesSpec.v
theories/NamesProofs.v
theories/NamesExProofs.v
theories/PropertiesNames.v
theories/FlagsSpec.v
theories/FlagsProofs.v
theories/PropertiesFlags.v
theories/ConcModel.v
theories/ConcSpec.v
theories/ConcProofs.v
theories/ConcExProofs.v
theories/ConcEndProofs.v
theories/LawsSpec.v
theories/LawsProofs.v
theories/LawsExProofs.v
theories/ConcReadProofs.v
theories/PropertiesConc.v
theories/PropertiesLaws.v
theories/RepeatSpec.v
theories/RepeatProofs.v
theories/PropertiesRepeat.v
theories/TableRmProofs.v
theories/TableRmExProofs.v
theories/EmptyPutProofs.v
theories/RmForceProofs.v
theories/BoundSpec.v
theories/BoundProofs.v
theories/BoundExProofs.v
theories/AfterRmAnyProofs.v
theories/AfterPutAnyProofs.v
theories/AfterPutAnyExProofs.v
theories/ListingSpec.v
theories/ListingProofs.v
theories/PropertiesListing.v
theories/StatusSpec.v
theories/StatusProofs.v
theories/StatusExProofs.v
theories/PropertiesStatus.v
theories/VolumeSpec.v
theories/VolumeProofs.v
theories/VolumeExProofs.v
theories/PropertiesVolume.v
theories/ImageSpec.v
theories/ImageProofs.v
theories/ImageExProofs.v
theories/PropertiesImage.v
theories/RestSpec.v
theories/RestProofs.v
theories/RestExProofs.v
theories/PropertiesRest.v
theories/VisitModel.v
theories/VisitProofs.v
theories/VisitEachProofs.v
theories/PropertiesVisit.v
theories/AgainSpec.v
theories/AgainProofs.v
theories/AgainExProofs.v
theories/PropertiesAgain.v
theories/ChangesSpec.v
theories/ChangesTabProofs.v
theories/ChangesProofs.v
theories/ChangesExProofs.v
theories/PropertiesChanges.v
theories/SettledProofs.v
theories/SettledExProofs.v
theories/PropertiesSettled.v
theories/BatchSpec.v
theories/BatchProofs.v
theories/BatchExProofs.v
theories/PropertiesBatch.v
theories/SpellSpec.v
theories/SpellProofs.v
theories/SpellCmdProofs.v
theories/SpellExProofs.v
theories/PropertiesSpell.v
theories/ShelfSpec.v
theories/ShelfProofs.v
theories/ShelfExProofs.v
theories/PropertiesShelf.v
theories/NamedBatchSpec.v
theories/NamedBatchProofs.v
theories/NamedBatchExProofs.v
theories/PropertiesNamedBatch.v
theories/RoomSpec.v
theories/RoomProofs.v
theories/RoomExProofs.v
theories/PropertiesRoom.v
theories/HelloSpec.v
theories/HelloProofs.v
theories/HelloExProofs.v
theories/PropertiesHello.v
theories/CycleSpec.v
theories/CycleProofs.v
theories/CycleExProofs.v
theories/PropertiesCycle.v
theories/LocalSpec.v
theories/LocalProdosProofs.v
theories/LocalProofs.v
theories/LocalExProofs.v
theories/PropertiesLocal.v
theories/TwinSpec.v
theories/TwinProofs.v
theories/TwinCmdProofs.v
theories/TwinExProofs.v
theories/PropertiesTwin.v
theories/BackupSpec.v
theories/BackupProofs.v
theories/BackupExProofs.v
theories/PropertiesBackup.v
theories/SdSeenSpec.v
theories/SdSeenProofs.v
theories/SdSeenExProofs.v
theories/SdMapSpec.v
theories/SdMapProofs.v
theories/PropertiesSdSeen.v
theories/HoldSpec.v
theories/HoldProofs.v
theories/HoldCmdProofs.v
theories/HoldExProofs.v
theories/HoldApartProofs.v
theories/HoldCopyProofs.v
theories/PropertiesHold.v
theories/UndoSpec.v
theories/UndoProofs.v
theories/UndoExProofs.v
theories/PropertiesUndo.v
theories/RelocSpec.v
theories/RelocProofs.v
theories/RelocExProofs.v
theories/PropertiesReloc.v
theories/TreeSpec.v
theories/TreeProofs.v
theories/TreeExProofs.v
theories/PropertiesTree.v
theories/PipelineSpec.v
theories/PipelineProofs.v
theories/PipelineExProofs.v
theories/PropertiesPipeline.v
