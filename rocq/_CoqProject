-Q theories Verif
theories/GoBase.v
theories/BigFloat.v
theories/GoFmt.v
theories/Binary16.v
theories/Binary128.v
theories/Float80x86.v
theories/Bfloat.v
theories/Float128ppc.v
theories/Itoa.v
theories/Decimal.v
theories/ExtFloat.v
theories/Ftoa.v
theories/FloatPkg.v
theories/Spec.v
theories/BitFacts.v
theories/RoundFacts.v
theories/IeeeFacts.v
theories/BigFacts.v
theories/BigFacts2.v
theories/BigFacts3.v
theories/FmtFacts.v
theories/PkgFacts.v
theories/Facts16.v
theories/Claims16.v
theories/Prop_Binary16.v
theories/Facts128.v
theories/Claims128.v
theories/Prop_Binary128.v
theories/Facts80.v
theories/Claims80.v
theories/Prop_Float80x86.v
theories/FactsBf.v
theories/ClaimsBf.v
theories/Prop_Bfloat.v
theories/FactsPpc.v
theories/ClaimsPpc.v
theories/Prop_Float128ppc.v
theories/Pointers.v
theories/ClaimsPtr.v
theories/Prop_Pointers.v
theories/SpecText.v
theories/ItoaFacts.v
theories/ClaimsItoa.v
theories/Prop_Itoa.v
theories/SpecDec.v
theories/DecFacts.v
theories/DecFacts2.v
theories/ClaimsDec.v
theories/Prop_Decimal.v
theories/ExtFacts.v
theories/SpecFtoa.v
theories/ExtFixed.v
theories/ExtShort.v
theories/FloatMid.v
theories/ExtBounds.v
theories/ExtAssign.v
theories/ClaimsExt.v
theories/Prop_ExtFloat.v
theories/SpecFmt.v
theories/FtoaText.v
theories/FtoaFixed.v
theories/FtoaShort.v
theories/FtoaAll.v
theories/ClaimsFtoa.v
theories/Prop_Ftoa.v
theories/PkgText.v
theories/PkgExact.v
theories/ClaimsFloat.v
theories/Prop_Float.v
theories/RepoTests.v
theories/AllBig.v
theories/Prop_NewFromBig.v
theories/Host.v
theories/Prop_Host.v
theories/ClaimsFtoa2.v
theories/GapTable.v
theories/ExactGap.v
theories/ClaimsFloat2.v
theories/Prop_FtoaMore.v
theories/SpecOrder.v
theories/ClaimsMore.v
theories/ClaimsMono.v
theories/ClaimsHalf.v
theories/GenTests.v
theories/GenText.v
theories/ClaimsGen.v
theories/ExMore.v
theories/Prop_More.v
theories/Prop_Gen.v
theories/SpecSign.v
theories/SignFacts.v
theories/ClaimsSign.v
theories/ClaimsNeg.v
theories/ClaimsChain.v
theories/ClaimsRep.v
theories/ClaimsSignFmt.v
theories/ClaimsSignFmt2.v
theories/ClaimsWidth.v
theories/ExSign.v
theories/Prop_Sign.v
theories/Prop_Rep.v
theories/DecimalArr.v
theories/SpecArr.v
theories/ArrFacts.v
theories/ArrShift.v
theories/ArrLeft.v
theories/ArrOps.v
theories/ExtArr.v
theories/FtoaArr.v
theories/ExtArrFacts.v
theories/FtoaArrFacts.v
theories/ClaimsArr.v
theories/Prop_Arrays.v
theories/ClaimsPpc2.v
theories/ClaimsTrip.v
theories/ClaimsOrder.v
theories/ClaimsRead.v
theories/ClaimsDec2.v
theories/Prop_Trip.v
theories/SpecGo.v
theories/GenLines.v
theories/GenDump.v
theories/ClaimsTrip2.v
theories/ClaimsLines.v
theories/ClaimsText.v
theories/ClaimsDump.v
theories/Prop_Lines.v
theories/ClaimsLen.v
theories/RereadFacts.v
theories/RereadScan.v
theories/ClaimsReread.v
theories/Prop_Reread.v
theories/SpecTwice.v
theories/ClaimsErr.v
theories/ClaimsTwice.v
theories/Prop_Err.v
theories/Slices.v
theories/SpecSlice.v
theories/SliceFacts.v
theories/ClaimsSlice.v
theories/ClaimsAlloc.v
theories/ClaimsLenF.v
theories/ClaimsAlloc2.v
theories/ClaimsLenG.v
theories/Prop_Len.v
theories/Prop_LenF.v
theories/Prop_Slices.v
theories/Pointers2.v
theories/PtrFacts2.v
theories/Calls.v
theories/ClaimsCalls.v
theories/Prop_Calls.v
theories/ClaimsNeg2.v
theories/Prop_Neg.v
theories/ClaimsSame.v
theories/Prop_Same.v
theories/ClaimsSameF.v
theories/Prop_SameF.v
theories/ClaimsMono2.v
theories/Prop_Mono2.v
theories/ClaimsAcc.v
theories/Prop_Acc.v
theories/ClaimsNear.v
theories/Prop_Near.v
theories/ClaimsKeep.v
theories/Prop_Keep.v
theories/ClaimsKeep2.v
theories/Prop_Keep2.v
theories/ClaimsMany.v
theories/Prop_Many.v
theories/ClaimsEqual.v
theories/Prop_Equal.v
theories/SpecLex.v
theories/ClaimsInts.v
theories/Prop_Ints.v
theories/ClaimsDecInt.v
theories/Prop_DecInt.v
theories/ClaimsLetters.v
theories/Prop_Letters.v
theories/ClaimsShift2.v
theories/Prop_Shift.v
theories/SpecHalf.v
theories/ClaimsReround.v
theories/Prop_Reround.v
