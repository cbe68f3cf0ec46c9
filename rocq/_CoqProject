-Q theories Verif
theories/Common.v
theories/BufferModel.v
theories/BufferSpec.v
theories/BufferProofs.v
theories/BufferProperties.v
theories/ArrayLemmas.v
theories/FdeqModel.v
theories/FdeqSpec.v
theories/FdeqProofs.v
theories/FdeqProperties.v
theories/OrderSpec.v
theories/FpqModel.v
theories/FpqSpec.v
theories/FpqProofs.v
theories/FpqProperties.v
theories/TickModel.v
theories/FpqCostModel.v
theories/FpqCostSpec.v
theories/FpqCost.v
theories/FpqCostProperties.v
theories/FhmModel.v
theories/FhmSpec.v
theories/FhmProofs.v
theories/FhmMapProofs.v
theories/FhmProperties.v
theories/LinkHeap.v
theories/PathLemmas.v
theories/SllModel.v
theories/SllSpec.v
theories/SllProofs.v
theories/SllProperties.v
theories/DllModel.v
theories/DllSpec.v
theories/DllProofs.v
theories/DllProperties.v
theories/PqModel.v
theories/PqSpec.v
theories/PqCostModel.v
theories/PqCostErase.v
theories/PqPotential.v
theories/PqCostSpec.v
theories/PqProofs.v
theories/PqProperties.v
theories/PqCost.v
theories/PqCostProperties.v
theories/TreeModel.v
theories/CostModel.v
theories/CostErase.v
theories/TreeProofs.v
theories/SplayCost.v
theories/CostSpec.v
theories/CostBounds.v
theories/WalkCost.v
theories/MapOps.v
theories/MapSpec.v
theories/MapProofs.v
theories/MapCases.v
theories/OmModel.v
theories/OmCostModel.v
theories/OmCostErase.v
theories/OmProofs.v
theories/OmCalls.v
theories/OmCost.v
theories/OmWalkCost.v
theories/CostProperties.v
theories/OmProperties.v
theories/Counting.v
theories/WavlModel.v
theories/WavlProofs.v
theories/WavlRank.v
theories/WavlRemove.v
theories/WavlNode.v
theories/WavlFrame.v
theories/RomModel.v
theories/RomProofs.v
theories/RomCalls.v
theories/RomProperties.v
theories/SplayModel.v
theories/SplayCostModel.v
theories/SplayProofs.v
theories/FlatOps.v
theories/FlatSpec.v
theories/FlatModel.v
theories/FrmModel.v
theories/FlatProofs.v
theories/FlatCalls.v
theories/FlatCases.v
theories/FrmProofs.v
theories/FrmHistories.v
theories/FrmProperties.v
theories/FomModel.v
theories/FomProofs.v
theories/FomHistories.v
theories/FomProperties.v
theories/OmmOps.v
theories/OmmModel.v
theories/OmmSpec.v
theories/OmmProofs.v
theories/OmmRings.v
theories/OmmGroups.v
theories/OmmWalk.v
theories/OmmCalls.v
theories/OmmHistories.v
theories/OmmCases.v
theories/OmmProperties.v
theories/ValidSpec.v
theories/TreeValid.v
theories/OmValid.v
theories/RomValid.v
theories/FlatValid.v
theories/OmmValid.v
theories/ValidProperties.v
theories/FhmValid.v
theories/HashValidProperties.v
theories/ListValid.v
theories/QueueValid.v
theories/PqValid.v
theories/ListValidProperties.v
theories/WavlCostModel.v
theories/WavlCostErase.v
theories/WavlCost.v
theories/RomWalkCost.v
theories/FlatWalkCost.v
theories/FrmWalkCost.v
theories/WavlCostProperties.v
theories/FlatCostSpec.v
theories/FomCostModel.v
theories/FomCostErase.v
theories/FomCost.v
theories/FomWalkCost.v
theories/FomCostProperties.v
theories/OmmCostModel.v
theories/OmmCostErase.v
theories/OmmCostSpec.v
theories/OmmCostBounds.v
theories/OmmCost.v
theories/OmmEndsSpec.v
theories/OmmEndsCost.v
theories/OmmEndsDear.v
theories/OmmEndsCases.v
theories/OmmCostProperties.v
theories/OmmEndsProperties.v
theories/WordModel.v
theories/WordSpec.v
theories/WordProofs.v
theories/WordSame.v
theories/WordCases.v
theories/WordProperties.v
theories/FdeqCostModel.v
theories/FdeqCostSpec.v
theories/FdeqCost.v
theories/FdeqCostProperties.v
theories/FhmCostModel.v
theories/FhmCostSpec.v
theories/FhmCost.v
theories/FhmCostProperties.v
theories/GrowModel.v
theories/GrowSpec.v
theories/Grow.v
theories/GrowMaps.v
theories/GrowProperties.v
theories/SvModel.v
theories/SvSpec.v
theories/SvFactor.v
theories/SvTwoWay.v
theories/SvSearch.v
theories/SvFind.v
theories/SvSearchProperties.v
theories/SvCompare.v
theories/SvCompareProperties.v
theories/SvSets.v
theories/SvSetProperties.v
theories/SvTokens.v
theories/SvRtokens.v
theories/SvTokenProperties.v
theories/SvCostModel.v
theories/SvCost.v
theories/SvCostProperties.v
theories/SvWalkModel.v
theories/SvWalk.v
theories/SvWalkProperties.v
theories/OmmWalkCost.v
theories/OmmWalkProperties.v
theories/TypesModel.v
theories/TypesProperties.v
