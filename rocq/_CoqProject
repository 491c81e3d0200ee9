-Q theories Verif
theories/Fermat.v
theories/Primes.v
theories/Base.v
theories/ListAux.v
theories/Field.v
theories/Zq.v
theories/Limb.v
theories/LimbSpec.v
theories/LimbProofs.v
theories/LimbMont.v
theories/LimbInt.v
theories/LimbInst.v
theories/LimbApi.v
theories/PropsScalar.v
theories/Vec.v
theories/MathModel.v
theories/PolyModel.v
theories/PolySpec.v
theories/PolyProofs.v
theories/PolyImp.v
theories/MathProofs.v
theories/PolyApi.v
theories/PropsPoly.v
theories/R1csModel.v
theories/R1csSpec.v
theories/R1csProofs.v
theories/R1csMore.v
theories/R1csApi.v
theories/R1csShape.v
theories/PropsR1cs.v
theories/CommitModel.v
theories/SigmaModel.v
theories/CommitSpec.v
theories/CommitProofs.v
theories/SigmaProofs.v
theories/BulletProofs.v
theories/LogProofs.v
theories/SigmaApi.v
theories/BindSpec.v
theories/BindProofs.v
theories/PropsCommit.v
theories/SumModel.v
theories/SumSpec.v
theories/SumProofs.v
theories/SumComplete.v
theories/SumZk.v
theories/SumApi.v
theories/PropsSum.v
theories/NizkModel.v
theories/NizkProofs.v
theories/NizkSpec.v
theories/NizkApi.v
theories/PropsNizk.v
theories/CurveSpec.v
theories/CurveAlg.v
theories/CurveProofs.v
theories/Secp.v
theories/SecpOrder.v
theories/CircModel.v
theories/CircSpec.v
theories/CircProofs.v
theories/CircBits.v
theories/CircMul.v
theories/CircApi.v
theories/CircTable.v
theories/CircEx.v
theories/PropsCirc.v
theories/PosConst.v
theories/PosModel.v
theories/PosSpec.v
theories/PosProofs.v
theories/PosApi.v
theories/KecModel.v
theories/KecSpec.v
theories/KecProofs.v
theories/KecApi.v
theories/KecEx.v
theories/PropsPos.v
theories/PropsKec.v
theories/ProdModel.v
theories/ProdSpec.v
theories/ProdProofs.v
theories/ProdBatch.v
theories/ProdSound.v
theories/ProdSoundB.v
theories/ProdApi.v
theories/PropsProd.v
theories/SecpCofactor.v
theories/TsModel.v
theories/TsSpec.v
theories/TsProofs.v
theories/TsEff.v
theories/TsEx.v
theories/PropsTs.v
theories/ReadModel.v
theories/ReadSpec.v
theories/ReadProofs.v
theories/ReadApi.v
theories/PropsRead.v
theories/BinModel.v
theories/BinSpec.v
theories/BinProofs.v
theories/BinShape.v
theories/BinApi.v
theories/WasmModel.v
theories/WasmSpec.v
theories/WasmProofs.v
theories/WasmApi.v
theories/WasmEx.v
theories/PropsWasm.v
theories/PropsBin.v
theories/SparModel.v
theories/SparSpec.v
theories/SparMem.v
theories/SparOpen.v
theories/SparNet.v
theories/SparTab.v
theories/SparProofs.v
theories/SparSound.v
theories/SparApi.v
theories/SparClaims.v
theories/SparAccept.v
theories/PropsSpar.v
theories/SnarkModel.v
theories/SnarkSpec.v
theories/SnarkApi.v
theories/SnarkBindSpec.v
theories/SnarkBind.v
theories/PropsSnark.v
theories/Secq.v
theories/SecqOrder.v
theories/SecqCofactor.v
theories/HashModel.v
theories/HashSpec.v
theories/HashField.v
theories/HashIso.v
theories/HashSwu.v
theories/HashParam.v
theories/HashApi.v
theories/PropsHash.v
theories/SecqModel.v
theories/SecqSpec.v
theories/SecqApi.v
theories/PropsSecq.v
theories/TreeModel.v
theories/TreeSpec.v
theories/TreeApi.v
theories/PropsTree.v
theories/EvalSpec.v
theories/EvalProofs.v
theories/EvalApi.v
theories/PropsEval.v
theories/UtilModel.v
theories/UtilApi.v
theories/PropsUtil.v
theories/AgmSpec.v
theories/AgmRare.v
theories/AgmZk.v
theories/AgmLp.v
theories/AgmProofs.v
theories/AgmApi.v
theories/EqSpec.v
theories/EqProofs.v
theories/EqApi.v
theories/FreeSpec.v
theories/FreeProofs.v
theories/FreeApi.v
theories/PropsAgm.v
theories/Roots.v
theories/ExSmall.v
theories/BinFits.v
theories/ZkSpec.v
theories/ZkProofs.v
theories/ZkLog.v
theories/ZkSum.v
theories/ZkNizk.v
theories/ZkApi.v
theories/ZkCount.v
theories/PropsZk.v
