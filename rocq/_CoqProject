-Q theories Verif
theories/Base.v
theories/SystemModel.v
theories/SystemSpec.v
theories/SystemProofs.v
theories/SystemProps.v
theories/PermModel.v
theories/PermSpec.v
theories/PermProofs.v
theories/PermProps.v
theories/OperatorsModel.v
theories/OperatorsSpec.v
theories/OperatorsProofs.v
theories/OperatorsBuild.v
theories/OperatorsProps.v
theories/SymmetryModel.v
theories/SymmetrySpec.v
theories/SymmetryProofs.v
theories/SymmetryProps.v
theories/RSum.v
theories/DiisModel.v
theories/DiisSpec.v
theories/DiisProofs.v
theories/DiisProps.v
theories/SolverModel.v
theories/SolverSpec.v
theories/SolverProofs.v
theories/SolverProps.v
theories/PspaceModel.v
theories/PspaceSpec.v
theories/PspaceProofs.v
theories/PspaceProps.v
theories/ScatterModel.v
theories/ScatterSpec.v
theories/ScatterProofs.v
theories/ScatterZero.v
theories/ScatterProps.v
theories/SortModel.v
theories/SortSpec.v
theories/SortProofs.v
theories/TableModel.v
theories/TableSpec.v
theories/TableProofs.v
theories/SortProps.v
theories/OperatorsShape.v
theories/SelectModel.v
theories/SelectSpec.v
theories/SelectProofs.v
theories/SelectProps.v
theories/BufferSpec.v
theories/BufferProofs.v
theories/QspaceModel.v
theories/QspaceSpec.v
theories/QspaceProofs.v
theories/BufferProps.v
theories/ReorderModel.v
theories/ReorderSpec.v
theories/ReorderProofs.v
theories/ReorderProps.v
theories/CombinModel.v
theories/CombinSpec.v
theories/CombinProps.v
theories/DavidsonModel.v
theories/DavidsonSpec.v
theories/DavidsonProofs.v
theories/DavidsonProps.v
theories/BlockProps.v
theories/CholeskyModel.v
theories/CholeskySpec.v
theories/CholeskyProofs.v
theories/McdProofs.v
theories/CholeskyProps.v
theories/IntFilesModel.v
theories/IntFilesSpec.v
theories/IntFilesProofs.v
theories/IntFilesProps.v
theories/IntegralsModel.v
theories/IntegralsSpec.v
theories/IntegralsProofs.v
theories/IntegralsProps.v
theories/ExtrapModel.v
theories/ExtrapProps.v
theories/TensorAlg.v
theories/TensorObjs.v
theories/TensorSpec.v
theories/EomModel.v
theories/EomReify.v
theories/EomProps.v
theories/TensorDeriv.v
theories/CcsdModel.v
theories/LoopModel.v
theories/CcsdUpdate.v
theories/LoopProofs.v
theories/LeftModel.v
theories/IntsFix.v
theories/CcsdReify.v
theories/CcsdProps.v
theories/TensorClosed.v
theories/RdmModel.v
theories/RdmReify.v
theories/RdmProps.v
theories/RdmStore.v
theories/EnergyModel.v
theories/EnergyProofs.v
theories/EnergyProps.v
theories/DriverModel.v
theories/DriverProps.v
theories/AdaptModel.v
theories/AdaptProps.v
theories/CipsiModel.v
theories/CipsiSpec.v
theories/CipsiProofs.v
theories/CipsiQmc.v
theories/CipsiProps.v
theories/HilbertModel.v
theories/HilbertSpec.v
theories/HilbertRules.v
theories/HilbertProofs.v
theories/HilbertPhase.v
theories/HilbertProps.v
theories/SpinSqModel.v
theories/SpinSqSpec.v
theories/SpinSqProofs.v
theories/SpinSqProps.v
theories/AmpFileModel.v
theories/AmpFileSpec.v
theories/AmpFileProofs.v
theories/AmpFileProps.v
theories/GuessModel.v
theories/GuessSpec.v
theories/GuessProofs.v
theories/GuessProps.v
theories/ClusterModel.v
theories/ClusterSpec.v
theories/ClusterAlg.v
theories/ClusterForm.v
theories/ClusterLog.v
theories/ClusterProofs.v
theories/ClusterProps.v
theories/RhfModel.v
theories/RhfReify.v
theories/RhfUpdate.v
theories/RhfProps.v
theories/ParseModel.v
theories/ParseSpec.v
theories/ParsePhase.v
theories/ParseInsert.v
theories/ParseProofs.v
theories/ParseFinal.v
theories/ParseProps.v
theories/FockSpec.v
theories/FockCar.v
theories/FockWick.v
theories/FockArrays.v
theories/FockCcSpec.v
theories/FockTerms.v
theories/FockHam.v
theories/FockExp.v
theories/FockLevel.v
theories/FockCheck.v
theories/FockState.v
theories/FockProj.v
theories/FockProps.v
theories/FockNear.v
theories/FockEom.v
theories/FockEomProj.v
theories/FockEomProps.v
theories/FockFlip.v
theories/FockSectorSpec.v
theories/FockSector.v
theories/FockSectorTools.v
theories/FockSpaces.v
theories/SectorModel.v
theories/SectorIpLeft.v
theories/SectorEaLeft.v
theories/SectorIpReify.v
theories/SectorEaReify.v
theories/SectorSfReify.v
theories/SectorDipReify.v
theories/SectorDea2Reify.v
theories/SectorDeaReify.v
theories/SectorTeaReify.v
theories/SectorIpFock.v
theories/SectorEaFock.v
theories/SectorSfFock.v
theories/SectorDipFock.v
theories/SectorDea2Fock.v
theories/SectorDeaFock.v
theories/SectorTeaFock.v
theories/SectorProps.v
theories/SectorCases.v
theories/FockFast.v
theories/RankSpec.v
theories/FockCount.v
theories/FockDress.v
theories/FockShift.v
theories/FockSector3.v
theories/FockTools3.v
theories/Sector3Model.v
theories/Sector3Spec.v
theories/SectorIptReify.v
theories/SectorEatReify.v
theories/SectorDipqReify.v
theories/SectorDeaqReify.v
theories/SectorSftReify.v
theories/FockSpaces3.v
theories/SectorIptFock.v
theories/SectorEatFock.v
theories/SectorDipqFock.v
theories/SectorDeaqFock.v
theories/HbarDress.v
theories/HbarSpec.v
theories/HbarBlocks.v
theories/Sector3Skel.v
theories/QEval.v
theories/Sector3Cases.v
theories/Sector3Props.v
theories/SpinFlip3Fixed.v
theories/SectorSfxReify.v
theories/SectorSfxFock.v
theories/SectorSfxSkel.v
theories/SpinFlip3Props.v
theories/CcsdtModel.v
theories/CcsdtReify.v
theories/CcsdtUpdate.v
theories/SdtSpec.v
theories/SdtFlat.v
theories/SdtFock.v
theories/SdtDress.v
theories/SdtState.v
theories/SdtLoops.v
theories/CcsdtProps.v
theories/CrccModel.v
theories/CrccReify.v
theories/CrccSpec.v
theories/CrccFock.v
theories/CrccHbar.v
theories/CrccPoly.v
theories/CrccDiag.v
theories/CrccKet.v
theories/CrccTrans.v
theories/CrccBra.v
theories/CrccLoop.v
theories/CrccProps.v
theories/CrccRhf.v
theories/CrccClosed.v
theories/PtModel.v
theories/PtSpec.v
theories/PtFock.v
theories/PtLeft.v
theories/PtRhf.v
theories/PtProps.v
theories/CreomModel.v
theories/CreomDir.v
theories/CreomBlocks.v
theories/CreomChain.v
theories/CreomDeriv.v
theories/CreomFock.v
theories/CreomSpec.v
theories/CreomTri.v
theories/CreomProps.v
theories/CholLoops.v
theories/CholModel.v
theories/CholReify.v
theories/CholCheck.v
theories/CholUpdate.v
theories/CholProofs.v
theories/CholProps.v
theories/CholEomModel.v
theories/CholHbarReify.v
theories/CholEomReify.v
theories/CholEomSpec.v
theories/CholHbarProofs.v
theories/CholEomProofs.v
theories/CholEomProps.v
theories/EomsdtModel.v
theories/EomsdtNorm.v
theories/EomsdtReify.v
theories/EomsdtSpec.v
theories/EomsdtProofs.v
theories/EomsdtFock.v
theories/EomsdtProps.v
theories/Cc2Model.v
theories/Cc2Reify.v
theories/Cc2Update.v
theories/Cc2Spec.v
theories/Cc2Proofs.v
theories/Cc2Fock.v
theories/Cc2Props.v
theories/MbptModel.v
theories/MbptSpec.v
theories/MbptProofs.v
theories/MbptAlg.v
theories/MbptFock.v
theories/MbptProps.v
theories/Left3Model.v
theories/SectorIptLeft.v
theories/SectorEatLeft.v
theories/Left3Props.v
theories/LeftSdtModel.v
theories/LeftSdtReify.v
theories/LeftSdtProps.v
theories/LeftSdtUpdate.v
theories/LeftSdtLoops.v
theories/LeftSdtIter.v
theories/SdtClosedModel.v
theories/SdtClosedReify.v
theories/SdtClosedUpdate.v
theories/SdtClosedProofs.v
theories/SdtClosedProps.v
