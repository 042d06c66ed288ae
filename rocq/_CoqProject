-Q theories Verif
theories/Base.v
theories/Digit.v
theories/Slice.v
theories/Mul.v
theories/Div.v
theories/UBig.v
theories/Text.v
theories/Forms.v
theories/Bench.v
theories/Traits.v
theories/Panics.v
theories/RepoTests.v
theories/UnitTests.v
theories/UBigTests.v
theories/Spec.v
theories/SpecDiv.v
theories/SpecHist.v
theories/SpecRoom.v
theories/SpecFib.v
theories/SpecParse.v
theories/SpecDec.v
theories/SpecMul.v
theories/Hoare.v
theories/DigitOK.v
theories/ListLemmas.v
theories/Gives.v
theories/Ends.v
theories/Builds.v
theories/FormsProof.v
theories/SliceProof.v
theories/MulProof.v
theories/WorkSize.v
theories/BufProof.v
theories/KaratsubaProof.v
theories/ToomProof.v
theories/ToomMain.v
theories/MulTopProof.v
theories/UBigProof.v
theories/PowProof.v
theories/DivProof.v
theories/DivWide.v
theories/DivPairProof.v
theories/DivLongProof.v
theories/DivTopProof.v
theories/DivSize.v
theories/DivBzProof.v
theories/TypedProof.v
theories/TextProof.v
theories/Cases.v
theories/ClaimsDigit.v
theories/ClaimsBasic.v
theories/ClaimsMul.v
theories/KaraExact.v
theories/ClaimsKara.v
theories/EndsLow.v
theories/EndsTyped.v
theories/ClaimsText.v
theories/ClaimsDiv.v
theories/ClaimsDivBig.v
theories/Witness.v
theories/Keeps.v
theories/KeepsDiv.v
theories/DivTie.v
theories/DivBzTie.v
theories/DivBzOpen.v
theories/DivDebug.v
theories/Depth.v
theories/DivScale.v
theories/SubExact.v
theories/ParseExact.v
theories/Laws.v
theories/TextLaws.v
theories/DecExact.v
theories/Hist.v
theories/HistProof.v
theories/Room.v
theories/RoomMul.v
theories/RoomDiv.v
theories/FibProof.v
theories/SpecFibStop.v
theories/FibExact.v
theories/BenchProof.v
theories/TraitsProof.v
theories/Prop_Basic.v
theories/Prop_Add.v
theories/Prop_Sub.v
theories/Prop_DigitArg.v
theories/Prop_Shift.v
theories/Prop_Kernel.v
theories/Prop_Mul.v
theories/SpecToom.v
theories/ToomLen.v
theories/ToomExact.v
theories/ToomJam.v
theories/ToomSquare.v
theories/ClaimsToom.v
theories/PowExact.v
theories/TwoTypes.v
theories/Prop_Kara.v
theories/Prop_SquareBig.v
theories/Prop_Toom.v
theories/Prop_PowExact.v
theories/Prop_Text.v
theories/Prop_Div.v
theories/Prop_DivBig.v
theories/Prop_DivExact.v
theories/Prop_DivBigExact.v
theories/Prop_DivBigDecimal.v
theories/Prop_DivDebug.v
theories/Prop_Depth.v
theories/Prop_DivScale.v
theories/Prop_Hist.v
theories/Prop_Forms.v
theories/Prop_End.v
theories/Prop_Room.v
theories/Prop_Builds.v
theories/Prop_Bench.v
theories/SliceClaims.v
theories/OffsetProof.v
theories/Sizes.v
theories/Prop_Slice.v
theories/Prop_Sizes.v
theories/SpecWork.v
theories/WorkExact.v
theories/WorkBound.v
theories/Prop_Work.v
theories/BufSquare.v
theories/Prop_Buffers.v
theories/SpecCount.v
theories/CountProof.v
theories/PowCount.v
theories/DivPad.v
theories/DivLift.v
theories/CountRun.v
theories/Prop_Count.v
theories/Prop_Laws.v
theories/SpecBz.v
theories/DivBzJam.v
theories/ClaimsBz.v
theories/Prop_DivBz.v
theories/DecJam.v
theories/ErrProof.v
theories/Prop_Err.v
theories/Prop_DivPad.v
theories/LeadZero.v
theories/Prop_LeadZero.v
theories/Order.v
theories/SpecOrder.v
theories/OrderProof.v
theories/Prop_Order.v
theories/Calc.v
theories/SpecCalc.v
theories/CalcProof.v
theories/Prop_Calc.v
theories/Expr.v
theories/SpecExpr.v
theories/ExprProof.v
theories/Prop_Expr.v
theories/ConvProof.v
theories/Prop_Conv.v
theories/DigitText.v
theories/Prop_DigitText.v
theories/SpecTally.v
theories/TallyProof.v
theories/Prop_Tally.v
theories/SpecSum.v
theories/SumProof.v
theories/Prop_Sum.v
theories/SpecTrim.v
theories/TrimProof.v
theories/Prop_Trim.v
theories/PanicsProof.v
theories/Prop_Panics.v
theories/SpecBlame.v
theories/BlameProof.v
theories/Prop_Blame.v
