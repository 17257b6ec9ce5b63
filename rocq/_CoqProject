-Q theories Verif
theories/Float.v
theories/Base.v
theories/ColumnData.v
theories/TabulatedData.v
theories/BlockWithLocators.v
theories/Angular.v
theories/AngularBlock.v
theories/DistributionData.v
theories/EnergyLaws.v
theories/EnergyAngle.v
theories/SimpleLaws.v
theories/Remake.v
theories/PropLemmasBasic.v
theories/EnergyDist.v
theories/MultiDist.v
theories/FrameBlock.v
theories/EnergyBlocks.v
theories/DlwBlock.v
theories/Truncated.v
theories/PropsBasic.v
theories/PropsDist.v
theories/PropsEnergy.v
theories/ReactionNumbers.v
theories/NuBlock.v
theories/PropsBlocks.v
theories/ElectronBlocks.v
theories/AtomicBlocks.v
theories/PropsAtomic.v
theories/TableData.v
theories/DosimetryTable.v
theories/PropsTables.v
theories/SZA.v
theories/PropsSZA.v
theories/FloatOrder.v
theories/ContinuousTable.v
theories/ContinuousCheck.v
theories/ContinuousLayout.v
theories/ContinuousData.v
theories/ContinuousBlocks.v
theories/ContinuousRead.v
theories/ContinuousValues.v
theories/CeFromValues.v
theories/PropsContinuous.v
theories/ThermalBlocks.v
theories/ThermalTable.v
theories/PropsThermal.v
theories/PhotoatomicTable.v
theories/PhotoatomicRead.v
theories/PhotoatomicData.v
theories/PhotoatomicValues.v
theories/PropsPhotoatomic.v
theories/Decimal.v
theories/DecimalFacts.v
theories/DecimalRound.v
theories/DecimalStable.v
theories/DecimalExact.v
theories/Text.v
theories/TextFacts.v
theories/TableText.v
theories/TableTextFacts.v
theories/TableTextSpec.v
theories/TableTextProofs.v
theories/PropsText.v
theories/Words.v
theories/Xsdir.v
theories/XsdirSpec.v
theories/XsdirFacts.v
theories/XsdirProofs.v
theories/XsdirDirProofs.v
theories/PropsXsdir.v
theories/Ownership.v
theories/OwnershipSpec.v
theories/OwnershipProofs.v
theories/OwnershipAce.v
theories/OwnershipMade.v
theories/PropsOwnership.v
theories/PhotonuclearTable.v
theories/PhotonuclearRead.v
theories/PhotonuclearValues.v
theories/PropsPhotonuclear.v
theories/CutOff.v
theories/CutOffDist.v
theories/CutOffAngular.v
theories/CutOffBlocks.v
theories/PropsCutOff.v
theories/PropsHeaders.v
theories/Indexed.v
theories/PropsIndexed.v
theories/Modes.v
theories/PropsModes.v
theories/PropsLossless.v
theories/Accepted.v
theories/PropsAccepted.v
theories/Reassemble.v
theories/ReassembleAtomic.v
theories/ReassembleNuclear.v
theories/PropsReassemble.v
theories/Moved.v
theories/PropsMoved.v
theories/Agree.v
theories/PropsAgree.v
theories/Lengths.v
theories/PropsLengths.v
theories/PropsSaved.v
theories/Decide.v
theories/PropsDecide.v
theories/DecideMore.v
theories/PropsDecideMore.v
theories/DecideBlocks.v
theories/PropsDecideBlocks.v
theories/DecideThermal.v
theories/PropsDecideTables.v
theories/PropsDecideThermal.v
theories/PropsDecideNu.v
theories/PropsDecideAtomic.v
theories/DecideEnergy.v
theories/PropsDecideEnergy.v
theories/PropsDecideContinuous.v
theories/PropsDecidePhotonuclear.v
theories/PropsDecideProbability.v
theories/PropsDecidePrecursors.v
theories/PropsDecideFrames.v
theories/PropsDecideWords.v
