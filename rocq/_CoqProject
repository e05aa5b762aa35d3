-Q theories Verif
theories/Base.v
theories/Fld.v
theories/Loops.v
theories/Poly.v
theories/Model_Utils.v
theories/Proof_Utils.v
theories/Model_FFT.v
theories/Spec.v
theories/Proof_FFT.v
theories/Fastmul.v
theories/Fermat.v
theories/Tables.v
theories/Zr.v
theories/ZrTables.v
theories/Proof_FFTFr.v
theories/Model_Das.v
theories/Proof_Das.v
theories/Proof_DasFr.v
theories/Model_Mcl.v
theories/Spec_Mcl.v
theories/Proof_Mcl.v
theories/Proof_MclFr.v
theories/Model_Poly.v
theories/Proof_Poly1.v
theories/Proof_Poly2.v
theories/Proof_PolyFr.v
theories/Model_ZeroPoly.v
theories/Proof_Zero1.v
theories/Proof_Zero2.v
theories/Proof_Zero3.v
theories/Proof_Zero4.v
theories/Spec_More.v
theories/Model_Recovery.v
theories/Proof_Recovery.v
theories/Proof_RecoveryFr.v
theories/Model_KZG.v
theories/Spec_KZG.v
theories/Proof_KZG.v
theories/Proof_KZGFr.v
theories/Model_FK20.v
theories/Proof_FK20.v
theories/Proof_FK20Fr.v
theories/Model_Scalar.v
theories/Spec_Scalar.v
theories/Proof_Scalar.v
theories/Proof_Scalar2.v
theories/Proof_Scalar3.v
theories/Proof_Scalar4.v
theories/Proof_Scalar5.v
theories/Conc.v
theories/Proof_Conc.v
theories/Model_Par.v
theories/Proof_Par.v
theories/Proof_Par2.v
theories/Model_MclPoly.v
theories/Proof_MclPoly.v
theories/Proof_MclPolyFr.v
theories/Model_MclZero.v
theories/Proof_MclZero.v
theories/Proof_MclZeroFr.v
theories/Model_MclKZG.v
theories/Spec_MclKZG.v
theories/Proof_MclKZG.v
theories/Proof_MclFK20.v
theories/Proof_MclKZGFr.v
theories/Model_Zk.v
theories/Model_ZkZero.v
theories/Proof_Zk.v
theories/Proof_ZkZero.v
theories/Proof_ZkFr.v
theories/Proof_MinMax.v
theories/Properties_Utils.v
theories/Properties_FFT.v
theories/Properties_Das.v
theories/Properties_Poly.v
theories/Properties_Zero.v
theories/Properties_Recovery.v
theories/Properties_KZG.v
theories/Properties_FK20.v
theories/Properties_Scalar.v
theories/Properties_Par.v
theories/Properties_Mcl.v
theories/Properties_MclPoly.v
theories/Properties_MclZero.v
theories/Properties_MclKZG.v
theories/Properties_Zk.v
theories/Properties_ZkZero.v
theories/Model_ZkMsm.v
theories/Proof_ZkMsm.v
theories/Proof_ZkMsmFr.v
theories/Model_ZkKZG.v
theories/Spec_ZkKZG.v
theories/Proof_ZkKZG.v
theories/Model_ZkFK20.v
theories/Proof_ZkFK20.v
theories/Properties_ZkMsm.v
theories/Properties_ZkKZG.v
theories/Properties_ZkFK20.v
theories/Model_Ark.v
theories/Model_ArkZero.v
theories/Spec_Ark.v
theories/Proof_Ark.v
theories/Proof_ArkZero.v
theories/Proof_ArkFr.v
theories/Properties_Ark.v
theories/Properties_ArkZero.v
theories/Model_ArkKZG.v
theories/Model_ArkFK20.v
theories/Model_ArkScalar.v
theories/Spec_ArkKZG.v
theories/Spec_ArkScalar.v
theories/Proof_ArkKZG.v
theories/Proof_ArkFK20.v
theories/Proof_ArkScalar.v
theories/Properties_ArkKZG.v
theories/Properties_ArkFK20.v
theories/Zp.v
theories/Model_Fp.v
theories/Spec_Fp.v
theories/Proof_Fp.v
theories/Proof_FpRep.v
theories/Proof_FpTop.v
theories/Properties_Fp.v
theories/Spec_Curve.v
theories/Proof_Curve.v
theories/Group.v
theories/Model_Curve.v
theories/Model_G1.v
theories/Spec_CurveCode.v
theories/Proof_CurveCode.v
theories/Proof_CurveMul.v
theories/Proof_Endo.v
theories/Proof_G1Base.v
theories/Proof_GLV.v
theories/Proof_Recode.v
theories/Proof_G1Mul.v
theories/Proof_Chain.v
theories/Cert_G1.v
theories/Proof_G1Gen.v
theories/Proof_G1Sub.v
theories/Proof_G1Total.v
theories/Spec_G1.v
theories/Proof_G1Thm.v
theories/Proof_G1Enc.v
theories/Proof_G1Mod.v
theories/Proof_G1Top.v
theories/Properties_G1.v
theories/Power.v
theories/Tower.v
theories/Ext.v
theories/Model_Fp2.v
theories/Model_Fp12.v
theories/Spec_Ext.v
theories/Proof_Fp2.v
theories/Proof_Fp6.v
theories/Proof_Fp12.v
theories/Proof_Cyclo.v
theories/Proof_ExtTop.v
theories/Proof_ExtCases.v
theories/Properties_Ext.v
theories/Model_G2.v
theories/Spec_G2.v
theories/Proof_G2Base.v
theories/Proof_G2Enc.v
theories/Proof_Twist.v
theories/Proof_Chain2.v
theories/Cert_G2.v
theories/Proof_G2Psi.v
theories/Proof_G2Top.v
theories/Proof_G2Cases.v
theories/Properties_G2.v
theories/Spec_Pair.v
theories/Model_Pair.v
theories/Proof_FinalExp.v
theories/Proof_Gt.v
theories/Proof_Lines.v
theories/Proof_Side.v
theories/Proof_Bilin.v
theories/Proof_PairSides.v
theories/Proof_Steps.v
theories/Proof_Miller.v
theories/Proof_Drivers.v
theories/Proof_Ladder.v
theories/Proof_G2Sub.v
theories/Proof_PairTop.v
theories/Proof_PairCases.v
theories/Properties_Pair.v
theories/Digits.v
theories/Proof_DigTower.v
theories/Proof_Generator.v
theories/Proof_GenValue.v
theories/Proof_Concrete.v
theories/Model_ZkWords.v
theories/Proof_Rel.v
theories/Spec_ZkWords.v
theories/Proof_ZkWords.v
theories/Proof_ZkWordsTop.v
theories/Properties_Concrete.v
theories/Properties_ZkWords.v
theories/Model_ZkConv.v
theories/Spec_ZkConv.v
theories/Proof_ZkConv.v
theories/Properties_ZkConv.v
theories/Spec_MclCalls.v
theories/Proof_Tight.v
theories/Properties_Tight.v
theories/Model_ParBackends.v
theories/Proof_ParBackends.v
theories/Spec_ParTables.v
theories/Proof_ParTables.v
theories/Proof_ParRace.v
theories/Proof_ParRaceFr.v
theories/Properties_ParBackends.v
theories/Properties_ParTables.v
theories/Proof_Subgroups.v
theories/Cert_Cofactor.v
theories/Proof_Cofactor.v
theories/Prime448.v
theories/Cert_Cofactor2.v
theories/Proof_PsiLin.v
theories/Proof_Cofactor2.v
theories/Spec_Cofactor.v
theories/Proof_CofactorTop.v
theories/Properties_Cofactor.v
theories/Model_Random.v
theories/Spec_Random.v
theories/Proof_RandomGen.v
theories/Proof_Random.v
theories/Proof_RandomEven.v
theories/Properties_Random.v
theories/Proof_RandWords.v
theories/Model_Points.v
theories/Spec_Points.v
theories/Proof_PointsGen.v
theories/Proof_Points.v
theories/Properties_Points.v
theories/Model_ZkWordsFK.v
theories/Spec_ZkWordsFK.v
theories/Proof_ZkFKRel.v
theories/Proof_ZkWordsFK.v
theories/Properties_ZkWordsFK.v
theories/Model_Ckzg.v
theories/Spec_Ckzg.v
theories/Proof_Ckzg.v
theories/Proof_CkzgBad.v
theories/Properties_Ckzg.v
theories/Model_CkzgCalls.v
theories/Spec_CkzgCalls.v
theories/Proof_CkzgCalls.v
theories/Properties_CkzgCalls.v
theories/Model_Scalars.v
theories/Spec_Scalars.v
theories/Proof_Scalars.v
theories/Properties_Scalars.v
theories/Spec_Agree.v
theories/Proof_Agree.v
theories/Proof_AgreeKZG.v
theories/Proof_AgreeEdges.v
theories/Proof_AgreeEx.v
theories/Properties_Agree.v
theories/Generator.v
theories/Model_PrimeField.v
theories/Model_Show.v
theories/Spec_Show.v
theories/Proof_PrimeField.v
theories/Proof_Show.v
theories/Properties_PrimeField.v
theories/Model_Defaults.v
theories/Spec_Defaults.v
theories/Proof_Defaults.v
theories/Properties_Defaults.v
theories/Model_MclCurve.v
theories/Proof_MclCurve.v
theories/Properties_MclCurve.v
theories/Proof_RevLimited.v
theories/Model_Pippenger.v
theories/Proof_Pippenger.v
theories/Properties_Pippenger.v
theories/Proof_Rest.v
theories/Properties_Rest.v
theories/Proof_MclUtils.v
theories/Properties_MclUtils.v
