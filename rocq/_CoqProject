-Q theories Verif
theories/AccumulatorModel.v
theories/AccumulatorProofs.v
theories/AccumulatorProps.v
theories/AesSivModel.v
theories/AesSivProofs.v
theories/AesSivProps.v
theories/AesSivSpec.v
theories/AlgBase.v
theories/BbsBlindProps.v
theories/BbsModel.v
theories/BbsPokProps.v
theories/BbsProps.v
theories/BinFieldModel.v
theories/BinFieldProofs.v
theories/BinFieldProps.v
theories/BlsFp.v
theories/BlsFpProofs.v
theories/BlsFpProps.v
theories/BlsG1Cert.v
theories/BlsG1Chain.v
theories/BlsG2Cert.v
theories/BlsG2Chain.v
theories/BlsGroupProps.v
theories/BlsModel.v
theories/BlsProps.v
theories/BlsRep.v
theories/BlsThreshProps.v
theories/BpBatchProps.v
theories/BpIppProps.v
theories/BpModel.v
theories/BpProofs.v
theories/BpRangeProofs.v
theories/BpRangeProps.v
theories/BpRangeSpec.v
theories/BpRobustProps.v
theories/BpVerifyProps.v
theories/ByteVec.v
theories/BytesModel.v
theories/BytesProofs.v
theories/CodecModel.v
theories/CodecProofs.v
theories/CodecProps.v
theories/CodecSpec.v
theories/CredentialModel.v
theories/CredentialProofs.v
theories/CredentialProps.v
theories/CredentialSpec.v
theories/CurveModel.v
theories/CurveOrder.v
theories/CurveProofs.v
theories/CurveProps.v
theories/CurveSpec.v
theories/DidModel.v
theories/DidProofs.v
theories/DidProps.v
theories/DidPubkeyModel.v
theories/DidPubkeyProps.v
theories/DidPubkeySpec.v
theories/DidSpec.v
theories/DklsKeyModel.v
theories/DklsKeyProps.v
theories/DklsSignModel.v
theories/DklsSignProps.v
theories/EcAlg.v
theories/EcField.v
theories/EcProofs.v
theories/EcSpec.v
theories/EncodeModel.v
theories/EncodeProofs.v
theories/EncodeProps.v
theories/EncodeSpec.v
theories/FieldModel.v
theories/FieldProps.v
theories/FilterModel.v
theories/FilterProofs.v
theories/FilterProps.v
theories/FilterSpec.v
theories/FrostDkgModel.v
theories/FrostDkgProofs.v
theories/FrostDkgProps.v
theories/FrostDkgSpec.v
theories/FrostSignModel.v
theories/FrostSignProofs.v
theories/FrostSignProps.v
theories/G1Cert.v
theories/G1Phi.v
theories/G2Cert.v
theories/G2Clear.v
theories/G2Model.v
theories/G2Psi.v
theories/GenChain.v
theories/GennaroModel.v
theories/GennaroProofs.v
theories/GennaroProps.v
theories/GennaroPropsAdv.v
theories/HashModel.v
theories/HashProofs.v
theories/HashProps.v
theories/HashSpec.v
theories/IdentifierModel.v
theories/IdentifierProofs.v
theories/IdentifierProps.v
theories/IdentifierSpec.v
theories/KosModel.v
theories/KosProofs.v
theories/KosProps.v
theories/Lagrange.v
theories/LimbBase.v
theories/LimbBls.v
theories/LimbBlsProofs.v
theories/LimbBlsProofs2.v
theories/LimbFiat.v
theories/LimbField.v
theories/LimbK256Fp.v
theories/LimbK256FpProofs.v
theories/LimbK256Fq.v
theories/LimbK256FqProofs.v
theories/LimbP256Fp.v
theories/LimbP256FpProofs.v
theories/LimbP256Fq.v
theories/LimbP256FqProofs.v
theories/LimbPastaFp.v
theories/LimbPastaFpProofs.v
theories/LimbPastaFq.v
theories/LimbPastaFqProofs.v
theories/LimbPoints.v
theories/LimbProofs.v
theories/LimbSpec.v
theories/MillerSpec.v
theories/MinaBitsModel.v
theories/MinaBitsProofs.v
theories/MinaBitsProps.v
theories/MinaBitsSpec.v
theories/MinaInstance.v
theories/MinaModel.v
theories/MinaMoreProofs.v
theories/MinaProofs.v
theories/MinaProps.v
theories/MinaSignProofs.v
theories/MinaSpec.v
theories/MinaSponge.v
theories/MinaTxnProofs.v
theories/MultiplyModel.v
theories/MultiplyProofs.v
theories/MultiplyProps.v
theories/NativeArithProofs.v
theories/NativeChains.v
theories/NativeField.v
theories/NativeFieldProofs.v
theories/NativeInstances.v
theories/NativePowProofs.v
theories/NativeProps.v
theories/NativeRoots.v
theories/PaillierArith.v
theories/PaillierModel.v
theories/PaillierProofs.v
theories/PaillierProps.v
theories/PairingBase.v
theories/PallasCert.v
theories/PallasChain.v
theories/PastaField.v
theories/PastaFieldProofs.v
theories/PastaProps.v
theories/PippengerModel.v
theories/PippengerProps.v
theories/Pockl.v
theories/PointModel.v
theories/PointMulProofs.v
theories/PointProofs.v
theories/PointProps.v
theories/PointSpec.v
theories/PrimeBls.v
theories/PrimeBlsP.v
theories/PrimeK256.v
theories/PrimeP256.v
theories/PrimePasta.v
theories/ScalarCodec.v
theories/SchnorrModel.v
theories/SchnorrProps.v
theories/ShamirModel.v
theories/ShamirProofs.v
theories/ShamirProofs2.v
theories/ShamirProps.v
theories/ShamirSpec.v
theories/SharingV1Model.v
theories/SharingV1Proofs.v
theories/SharingV1Props.v
theories/SharingV1Spec.v
theories/SimplestOtModel.v
theories/SimplestOtProofs.v
theories/SimplestOtProps.v
theories/StepperModel.v
theories/StepperProofs.v
theories/StepperProps.v
theories/StepperSpec.v
theories/Ted25519Model.v
theories/Ted25519Proofs.v
theories/Ted25519Props.v
theories/TowerAlg.v
theories/TowerBls.v
theories/TowerField.v
theories/TowerFinal.v
theories/TowerFrob.v
theories/TowerGt.v
theories/TowerInst.v
theories/TowerMiller.v
theories/TowerModel.v
theories/TowerPair.v
theories/TowerProps.v
theories/TowerSpec.v
theories/TowerSqrt.v
theories/TowerStep.v
theories/VRing.v
theories/ZCong.v
theories/ZFermat.v
theories/ZcashCoord.v
theories/ZcashModel.v
theories/ZcashProofs.v
theories/ZcashProps.v
theories/ZcashSpec.v
theories/ZpField.v
