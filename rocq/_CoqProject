-Q theories Verif
theories/Params.v
theories/Go.v
theories/Curve.v
theories/Api.v
theories/FrOps.v
theories/Lib.v
theories/Steps.v
theories/Agg.v
theories/SpecKinds.v
theories/P_Legacy.v
theories/SpecShape.v
theories/P_Shape.v
theories/NumThy.v
theories/FField.v
theories/P_Fr.v
theories/SpecText.v
theories/P_Str.v
theories/SpecRegex.v
theories/P_Regex.v
theories/FpField.v
theories/P_Curve.v
theories/P_FrEx.v
theories/Prop_Fr.v
theories/Prop_Str.v
theories/SpecCurve.v
theories/P_Group.v
theories/P_OrderCert.v
theories/P_Order.v
theories/P_GroupSpec.v
theories/SpecRuns.v
theories/P_Msm.v
theories/P_MsmEx.v
theories/SpecHash.v
theories/P_Hash.v
theories/P_Trans.v
theories/P_HashEx.v
theories/Prop_Hash.v
theories/Prop_Trans.v
theories/SpecMisc.v
theories/P_LinComb.v
theories/P_Misc.v
theories/P_Kyc.v
theories/P_Flow.v
theories/P_MiscEx.v
theories/P_Restate.v
theories/Prop_Curve.v
theories/Prop_Group.v
theories/P_Twist.v
theories/Prop_Misc.v
theories/SpecVerify.v
theories/SpecPoly.v
theories/SpecRows.v
theories/SpecPlonk.v
theories/P_Dom.v
theories/P_Step.v
theories/P_Exec.v
theories/P_Eval.v
theories/P_Verify.v
theories/P_VSpec.v
theories/P_Acc.v
theories/P_Pipe.v
theories/P_Comp.v
theories/P_Accept.v
theories/P_Honest.v
theories/P_StepsEx.v
theories/P_Complete.v
theories/P_PipeOk.v
theories/P_Final.v
theories/P_Shplonk.v
theories/P_Poly.v
theories/P_Open.v
theories/P_Rows.v
theories/P_Snark.v
theories/P_Circuit.v
theories/P_Perm.v
theories/P_Plonk.v
theories/P_Compl.v
theories/P_Statement.v
theories/P_PlonkEx.v
theories/P_Limb.v
theories/P_RunEx.v
theories/P_CircuitEx.v
theories/Prop_Steps.v
theories/Prop_Pipe.v
theories/Prop_Shplonk.v
theories/Prop_Plonk.v
theories/SpecKeys.v
theories/P_Keys.v
theories/Prop_Keys.v
theories/P_Mont.v
theories/P_Jac.v
theories/P_Refl.v
theories/SpecSha.v
theories/SpecSample.v
theories/P_SampleEx.v
theories/Prop_Sample.v
theories/SpecPairing.v
theories/P_Tower.v
theories/P_Pairing.v
theories/SpecTamper.v
theories/P_PairEx.v
theories/P_TamperEx.v
theories/SpecTests.v
theories/P_Tests.v
theories/Prop_Tests.v
theories/SpecTwist.v
theories/P_Weier.v
theories/P_Tw.v
theories/P_TwCert.v
theories/P_TwEx.v
theories/P_TwFin.v
theories/Prop_Twist.v
theories/Prop_Tate.v
theories/SpecRecord.v
theories/P_RecordEx.v
theories/P_Record2Ex.v
theories/P_Record3Ex.v
theories/Prop_Record.v
theories/P_Byte.v
theories/Prop_Byte.v
theories/P_Unique.v
theories/P_UniqueEx.v
theories/Prop_Unique.v
theories/SpecEcdsa.v
theories/SpecKycTest.v
theories/P_Secp.v
theories/P_SecpEx.v
theories/P_KycTest.v
theories/Prop_KycTest.v
theories/NumPow.v
theories/NumCert.v
theories/P_Mid.v
theories/SpecExact.v
theories/P_Exact.v
theories/P_EvalMod.v
theories/Prop_Exact.v
theories/SpecAll.v
theories/P_All.v
theories/P_AllEx.v
theories/Prop_All.v
theories/SpecBind.v
theories/P_Bind.v
theories/P_BindEx.v
theories/Prop_Bind.v
theories/P_Surplus.v
theories/P_SurplusEx.v
theories/Prop_Surplus.v
theories/SecpCert.v
theories/P_SecpNum.v
theories/SpecForge.v
theories/P_Forge.v
theories/P_ForgeEx.v
theories/Prop_Forge.v
theories/P_SecpOrd.v
theories/P_SecpGroup.v
theories/SpecMalle.v
theories/P_Malle.v
theories/P_MalleEx.v
theories/Prop_Malle.v
theories/PairCirc.v
theories/SpecPublic.v
theories/P_Public.v
theories/P_PublicEx.v
theories/Prop_Public.v
