-Q theories Verif
theories/PyBase.v
theories/Num.v
theories/WcxfModel.v
theories/WcxfProofs.v
theories/WcxfProps.v
theories/WilsonModel.v
theories/WilsonProofs.v
theories/OptionProofs.v
theories/WilsonProps.v
theories/Lin.v
theories/SymModel.v
theories/SymTables.v
theories/SymClass.v
theories/SymSpec.v
theories/SymProofs.v
theories/SymCheck.v
theories/SymFacts.v
theories/SymProps.v
theories/EftModel.v
theories/EftSpec.v
theories/EftProofs.v
theories/EftLabels.v
theories/EftProps.v
theories/EftRound.v
theories/EftRound2.v
theories/EftInit.v
theories/BasisProps.v
theories/JmsModel.v
theories/JmsSpec.v
theories/JmsProofs.v
theories/JmsArrays.v
theories/JmsProps.v
theories/NpModel.v
theories/NpProofs.v
theories/BetaModel.v
theories/BetaProg.v
theories/BetaNorm.v
theories/BetaSpec.v
theories/BetaSound.v
theories/BetaCov.v
theories/BetaFacts.v
theories/BetaProofs.v
theories/BetaDeg.v
theories/BetaDefect.v
theories/BetaSM.v
theories/BetaProps.v
theories/BetaSym.v
theories/BetaSymProps.v
theories/RealC.v
theories/RgeModel.v
theories/RgeProofs.v
theories/RgeSolve.v
theories/RgeProps.v
theories/RotModel.v
theories/RotProofs.v
theories/RotProps.v
theories/UpProofs.v
theories/UpProps.v
theories/HiggsModel.v
theories/HiggsProofs.v
theories/HiggsProps.v
theories/SmparModel.v
theories/PotentialProps.v
theories/SmparProofs.v
theories/SmparProps.v
theories/QcdModel.v
theories/QcdProps.v
theories/RegModel.v
theories/RegProps.v
theories/PlotModel.v
theories/PlotProps.v
theories/AdmData.v
theories/WetModel.v
theories/WetSpec.v
theories/WetMat.v
theories/WetPow.v
theories/WetProofs.v
theories/WetSector.v
theories/WetEvol.v
theories/WetRge.v
theories/WetRun.v
theories/WetLaws.v
theories/WetUnmix.v
theories/WetThms.v
theories/WetCompose.v
theories/WetDemo.v
theories/WetUnique.v
theories/WetProps.v
theories/WetFlavProps.v
theories/TrLang.v
theories/TrData.v
theories/TrBlocks.v
theories/TrModel.v
theories/TrNorm.v
theories/TrFast.v
theories/TrSpec.v
theories/TrProofs.v
theories/TrValues.v
theories/TrRound.v
theories/TrMore.v
theories/TrKit.v
theories/TrWC.v
theories/TrSect.v
theories/TrSectors.v
theories/TrProps.v
theories/TrSectProps.v
theories/TreeProg.v
theories/TreeModel.v
theories/TreeElem.v
theories/TreeSpec.v
theories/TreeProofs.v
theories/TreeValue.v
theories/TreeHerm.v
theories/TreeRot.v
theories/TreeZero.v
theories/TreeEw.v
theories/TreeMatch.v
theories/TreeProps.v
theories/DsixData.v
theories/DsixModel.v
theories/DsixProofs.v
theories/DsixRound.v
theories/DsixSym.v
theories/DsixLoad.v
theories/DsixIO.v
theories/DsixProps.v
theories/SimData.v
theories/SimModel.v
theories/SimPolar.v
theories/SimSpec.v
theories/SimProofs.v
theories/SimRead.v
theories/SimProps.v
theories/MassModel.v
theories/MassProps.v
theories/EosModel.v
theories/EosProps.v
theories/SmeftModel.v
theories/SmeftProofs.v
theories/SmeftProps.v
theories/SmeftInit.v
theories/SmeftSmProps.v
theories/SmeftRunProps.v
theories/LoopSyntax.v
theories/LoopData.v
theories/LoopModel.v
theories/LoopSpec.v
theories/LoopProofs.v
theories/LoopPhase.v
theories/LoopDim.v
theories/LoopSym.v
theories/LoopReal.v
theories/TreePhase.v
theories/LoopMatch.v
theories/LoopProps.v
theories/FermiSpec.v
theories/FermiNorm.v
theories/FermiTab.v
theories/FermiRen.v
theories/FermiProofs.v
theories/FermiProps.v
theories/ParSpec.v
theories/ParData.v
theories/ParMat.v
theories/ParProofs.v
theories/ParUniq.v
theories/ParRun.v
theories/ParProps.v
theories/GammaSpec.v
theories/GammaTab.v
theories/GammaProofs.v
theories/GammaOps.v
theories/GammaCanon.v
theories/GammaSect.v
theories/GammaRef.v
theories/GammaRun.v
theories/GammaBnvSpec.v
theories/GammaBnv.v
theories/GammaBnvSect.v
theories/GammaProps.v
theories/CliModel.v
theories/CliSpec.v
theories/CliProofs.v
theories/CliProps.v
