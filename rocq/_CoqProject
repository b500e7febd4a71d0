-Q theories Verif
theories/ArrayFelt.v
theories/BlkProofs.v
theories/CharP.v
theories/CmpProofs.v
theories/CodecModel.v
theories/ConvModel.v
theories/EdBytes.v
theories/EdCurve.v
theories/EdFast.v
theories/EdModel.v
theories/EdProofs.v
theories/EdSpec.v
theories/EdVerify.v
theories/ElementModel.v
theories/EthItems.v
theories/EthModel.v
theories/EthProofs.v
theories/EthSound.v
theories/EthSpec.v
theories/FeField.v
theories/FeModel.v
theories/FeProofs.v
theories/Field.v
theories/FieldLemmas.v
theories/FieldZ.v
theories/FinalExp.v
theories/G2Group.v
theories/G2Model.v
theories/G2Spec.v
theories/GenMul.v
theories/GenOrder.v
theories/GoUtilModel.v
theories/GoUtilProofs.v
theories/H2CModel.v
theories/H2CSpec.v
theories/H2FProofs.v
theories/H2GComp.v
theories/H2GEx.v
theories/H2GMono.v
theories/H2GProofs.v
theories/HeaderModel.v
theories/HexProofs.v
theories/HostModel.v
theories/IndexModel.v
theories/IsoProofs.v
theories/JacProofs.v
theories/KeccakModel.v
theories/KeccakNibbles.v
theories/KeccakPad.v
theories/KeccakPadModel.v
theories/KeccakProofs.v
theories/KeccakSpec.v
theories/KeccakSponge.v
theories/KeccakWords.v
theories/LimbsModel.v
theories/LimbsProofs.v
theories/MerkleModel.v
theories/MillerProofs.v
theories/MillerWitness.v
theories/MimcModel.v
theories/ModNorm.v
theories/MptAbsence.v
theories/MptComplete.v
theories/MptModel.v
theories/MptNoBranch.v
theories/MptPathComplete.v
theories/MptPathComplete2.v
theories/MptPathProofs.v
theories/MptPathSound.v
theories/MptProofs.v
theories/MptSpec.v
theories/MptStorage.v
theories/MptTrie.v
theories/MptZero.v
theories/OrderRBls.v
theories/PairingModel.v
theories/PairingSpec.v
theories/Prime25519.v
theories/PrimeBls.v
theories/PrimeL25519.v
theories/PrimeTheory.v
theories/ProofModel.v
theories/Props_Blk.v
theories/Props_Codec.v
theories/Props_Ed.v
theories/Props_Element.v
theories/Props_Eth.v
theories/Props_EthAbsence.v
theories/Props_EthCases.v
theories/Props_EthComplete.v
theories/Props_Fe.v
theories/Props_G2.v
theories/Props_H2F.v
theories/Props_H2G.v
theories/Props_Header.v
theories/Props_Hex.v
theories/Props_Host.v
theories/Props_Index.v
theories/Props_Keccak.v
theories/Props_Limbs.v
theories/Props_Merkle.v
theories/Props_Mimc.v
theories/Props_Mpt.v
theories/Props_MptCases.v
theories/Props_MptComplete.v
theories/Props_MptKeccak.v
theories/Props_MptPathComplete.v
theories/Props_Pairing.v
theories/Props_Proof.v
theories/Props_Pt.v
theories/Props_QueryId.v
theories/Props_RlpArray.v
theories/Props_RlpUtil.v
theories/Props_Sc.v
theories/Props_Sgn.v
theories/Props_Sha.v
theories/Props_Sswu.v
theories/Props_Tower.v
theories/Props_Tx.v
theories/Props_TxLeaf.v
theories/Props_TxProof.v
theories/Props_Utils.v
theories/PsiProofs.v
theories/PtBytes.v
theories/PtModel.v
theories/PtMult.v
theories/PtProofs.v
theories/PtTables.v
theories/RlpArrayProofs.v
theories/RlpArraySound.v
theories/RlpBridge.v
theories/RlpEnc.v
theories/RlpModel.v
theories/RlpNestComplete.v
theories/RlpNestProofs.v
theories/RlpNestSound.v
theories/RlpNumProofs.v
theories/RlpPrefixProofs.v
theories/RlpSpec.v
theories/RlpUtilModel.v
theories/RlpUtilProofs.v
theories/ScModel.v
theories/ScNaf.v
theories/ScProofs.v
theories/ScalarProofs.v
theories/ShaBlock.v
theories/ShaFast.v
theories/ShaModel.v
theories/ShaSpec.v
theories/ShaStream.v
theories/ShaWords.v
theories/SliceModel.v
theories/SswuEx.v
theories/SswuMap.v
theories/SswuProofs.v
theories/SswuSpec.v
theories/TowerCyc.v
theories/TowerField.v
theories/TowerFrob.v
theories/TowerModel.v
theories/TowerPow.v
theories/TowerRing.v
theories/TowerSpec.v
theories/TxLeafModel.v
theories/TxModel.v
theories/WGroup.v
theories/WSpec.v
