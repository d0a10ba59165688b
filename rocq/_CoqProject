-Q theories Verif
theories/AbsOps.v
theories/AlgM.v
theories/AtanMain.v
theories/AtanOuter.v
theories/AtanReal.v
theories/AtanThms.v
theories/BaseConst.v
theories/Check.v
theories/ConstM.v
theories/ConstMore.v
theories/ConstProofs.v
theories/ConstSpec.v
theories/DAddProofs.v
theories/DDivProofs.v
theories/DMulProofs.v
theories/DWAdd.v
theories/DisplayCases.v
theories/DisplayDigits.v
theories/DisplayLog.v
theories/DisplayM.v
theories/DisplayMore.v
theories/DisplayNum.v
theories/DisplayParse.v
theories/DisplayProofs.v
theories/DisplaySpec.v
theories/DisplayText.v
theories/DisplayThms.v
theories/DisplayWit.v
theories/DivTiny.v
theories/DoubleM.v
theories/EFT.v
theories/Exact.v
theories/ExactProofs.v
theories/ExpProofs.v
theories/ExpThms.v
theories/ExprProofs.v
theories/ExprSpec.v
theories/ExtractProofs.v
theories/F64.v
theories/F64Facts.v
theories/FoldProofs.v
theories/FoldSpec.v
theories/FoldThms.v
theories/FractProofs.v
theories/FromProofs.v
theories/HypInv.v
theories/HypMore.v
theories/HypProofs.v
theories/HypThms.v
theories/IntOrder.v
theories/IntProofs.v
theories/InvPairs.v
theories/InvPairs2.v
theories/InvPairs3.v
theories/LawProofs.v
theories/LawThms.v
theories/LdexpProofs.v
theories/LibNear.v
theories/LnThms.v
theories/LogLib.v
theories/MulAny.v
theories/NoFma.v
theories/NrootProofs.v
theories/OrderProofs.v
theories/P_Arith.v
theories/P_Atan.v
theories/P_Const.v
theories/P_Display.v
theories/P_Exp.v
theories/P_Expr.v
theories/P_Fold.v
theories/P_Hyper.v
theories/P_Ints.v
theories/P_InvPairs.v
theories/P_Laws.v
theories/P_Ln.v
theories/P_Nroot.v
theories/P_Order.v
theories/P_Parse.v
theories/P_Pow.v
theories/P_QExp.v
theories/P_QExpr.v
theories/P_QHyper.v
theories/P_QLn.v
theories/P_QSpecial.v
theories/P_QTrig.v
theories/P_Quad.v
theories/P_Rem.v
theories/P_Round.v
theories/P_Special.v
theories/P_Sqrt.v
theories/P_Sum.v
theories/P_Trans.v
theories/P_Trig.v
theories/ParseEquiv.v
theories/ParseM.v
theories/ParseNum.v
theories/ParseProofs.v
theories/ParseSpec.v
theories/ParseThms.v
theories/PowProofs.v
theories/PowThms.v
theories/Prim.v
theories/Printer.v
theories/QAccThms.v
theories/QAddAcc.v
theories/QAddComm.v
theories/QAddHead.v
theories/QAddThms.v
theories/QExactProofs.v
theories/QExpProofs.v
theories/QExpThms.v
theories/QExprProofs.v
theories/QExprSpec.v
theories/QFallAcc.v
theories/QFallThms.v
theories/QGeoAcc.v
theories/QGeoMul.v
theories/QGeoSqr.v
theories/QHypThms.v
theories/QLDiv.v
theories/QLOps.v
theories/QLRoot.v
theories/QLSq.v
theories/QLSqrt.v
theories/QLnThms.v
theories/QLogSpec.v
theories/QLogThms.v
theories/QLoose.v
theories/QMulAcc.v
theories/QMulFine.v
theories/QMulThms.v
theories/QParse.v
theories/QPowProofs.v
theories/QRoundProofs.v
theories/QSinhThms.v
theories/QSpecMore.v
theories/QSqrAcc.v
theories/QSumProofs.v
theories/QTrigBig.v
theories/QTrigLoop.v
theories/QTrigMain.v
theories/QTrigOps.v
theories/QTrigSmall.v
theories/QTrigTab.v
theories/QTrigThms.v
theories/QuadM.v
theories/QuadSpec.v
theories/QuadWit.v
theories/RN.v
theories/RelOps.v
theories/RemProofs.v
theories/RemThms.v
theories/RoundProofs.v
theories/RoundThms.v
theories/Sim.v
theories/SinLoop.v
theories/SinReduce.v
theories/SinSeries.v
theories/SinThms.v
theories/SingleProofs.v
theories/SinhTiny.v
theories/Spec.v
theories/SpecialProofs.v
theories/SqrtProofs.v
theories/SymProofs.v
theories/TableProofs.v
theories/TableQuad.v
theories/TransM.v
theories/TransMore.v
theories/TransProofs.v
theories/TransThms.v
theories/TrigProofs.v
theories/Witness.v
