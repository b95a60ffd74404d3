-Q theories Verif
theories/Prelude.v
theories/FieldZ.v
theories/Circuit.v
theories/Context.v
theories/Spec.v
theories/Pocklington.v
theories/Primes.v
theories/Moduli.v
theories/BaseChip.v
theories/Logic.v
theories/ModArith.v
theories/Prims.v
theories/Checker.v
theories/BaseProofs.v
theories/NativeMain.v
theories/PropsNative.v
theories/RangeInfo.v
theories/RangeChip.v
theories/IntegerChip.v
theories/SpecInt.v
theories/InfoProofs.v
theories/IntArith.v
theories/RangeProofs.v
theories/IntInv.v
theories/IntSound.v
theories/IntComplete.v
theories/IntBridge.v
theories/Prime311.v
theories/SpecProg.v
theories/IntProg.v
theories/IntProgProofs.v
theories/Fields.v
theories/IntEval.v
theories/IntCases.v
theories/IntMain.v
theories/PropsInt.v
theories/EccChip.v
theories/SpecEcc.v
theories/IntRes.v
theories/FieldSatz.v
theories/Curve.v
theories/EccArith.v
theories/EccProofs.v
theories/EccHonest.v
theories/FastCheck.v
theories/EccBridge.v
theories/EccEncode.v
theories/EccRuns.v
theories/EccMain.v
theories/PropsEcc.v
theories/CurveGroup.v
theories/SpecMsm.v
theories/PointSum.v
theories/ScalarChip.v
theories/Msm.v
theories/ScalarProofs.v
theories/ParWindows.v
theories/MsmProofs.v
theories/MsmSound.v
theories/MsmTop.v
theories/BnOrder.v
theories/MsmRuns.v
theories/MsmMain.v
theories/PropsMsm.v
theories/SpecSelect.v
theories/SelectProofs.v
theories/SelectMsm.v
theories/NoCache.v
theories/CacheLog.v
theories/SpecCalls.v
theories/SelectMain.v
theories/PropsSelect.v
theories/Synth.v
theories/SpecHeights.v
theories/Heights.v
theories/Progs.v
theories/SynthMain.v
theories/PropsSynth.v
theories/SpecRecorder.v
theories/SpecSched.v
theories/Sched.v
theories/SchedMain.v
theories/PropsSched.v
theories/SpecShape.v
theories/Shape.v
theories/ShapeMain.v
theories/PropsShape.v
theories/KeccakChip.v
theories/SpecKeccak.v
theories/SpecKeccakState.v
theories/KeccakPure.v
theories/KeccakProofs.v
theories/KeccakInst.v
theories/KeccakShape.v
theories/KeccakMain.v
theories/PropsKeccak.v
theories/PairingConsts.v
theories/Fq12Chip.v
theories/PairingChip.v
theories/SpecTower.v
theories/TowerRing.v
theories/Frobenius.v
theories/Cyclotomic.v
theories/TowerProofs.v
theories/TowerInst.v
theories/PairingHints.v
theories/PairingFacts.v
theories/PairingExp.v
theories/SpecPairing.v
theories/PairingProofs.v
theories/TowerField.v
theories/SpecTowerRep.v
theories/TowerBridge.v
theories/TowerMain.v
theories/PropsTower.v
theories/SpecAte.v
theories/PairingCurve.v
theories/PairingAte.v
theories/SpecPairingRep.v
theories/PairingBridge.v
theories/AteExample.v
theories/PairingMain.v
theories/PropsPairing.v
theories/SpecShapePairing.v
theories/ShapePairing.v
theories/ProgsMore.v
theories/NoCacheMore.v
theories/ProgAppends.v
theories/ShapeMoreMain.v
theories/PropsShapeMore.v
theories/HonestLogic.v
theories/HonestMsm.v
theories/HonestSel.v
theories/HonestScalar.v
theories/HonestTop.v
theories/HonestMain.v
theories/PropsHonest.v
theories/Halo2.v
theories/Configure.v
theories/ConfigProofs.v
theories/Tags.v
theories/ConfigMain.v
theories/PropsConfig.v
theories/SpecHandles.v
theories/Handles.v
theories/HandGadgets.v
theories/HandMore.v
theories/HandMain.v
theories/PropsHandles.v
theories/SpecNoSelect.v
theories/NoSelect.v
theories/NoSelGadgets.v
theories/NoSelMore.v
theories/NoSelMain.v
theories/PropsNoSelect.v
theories/SpecCost.v
theories/Cost.v
theories/SpecSchedule.v
theories/TotalLogic.v
theories/TotalMsm.v
theories/TotalSel.v
theories/TotalTop.v
theories/ExpSchedule.v
theories/TotalMain.v
theories/PropsTotal.v
theories/Forge.v
theories/ForgeDec.v
theories/ForgeRun.v
theories/ForgeMsm.v
theories/ForgeMain.v
theories/ForgeShare.v
theories/ForgeShareMain.v
theories/PropsForge.v
theories/ForgeSel.v
theories/ForgeSelMain.v
theories/ForgeHash.v
theories/ForgeHashMain.v
theories/ReadMain.v
theories/PropsRead.v
theories/SpecPointProg.v
theories/PointProg.v
theories/PointProgMain.v
theories/PropsPointProg.v
theories/SpecEnd.v
theories/EndToEnd.v
theories/EndMain.v
theories/PropsEnd.v
theories/PairEnd.v
theories/PairEndMain.v
theories/PairEndCase.v
theories/PairEndCases.v
theories/PropsPairEnd.v
theories/Ratio.v
theories/RatioMain.v
theories/PropsRatio.v
theories/IntEndMain.v
theories/PropsIntEnd.v
