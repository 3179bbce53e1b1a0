-Q theories Verif
theories/Rust.v
theories/Tables.v
theories/Model_Base.v
theories/Model_Cmp.v
theories/Model_Order.v
theories/Model_Round.v
theories/Model_Decimal.v
theories/Model_Arith.v
theories/Model_Serde.v
theories/Tests.v
theories/DiffTests.v
theories/Spec.v
theories/Lib.v
theories/Cmp.v
theories/AddSub.v
theories/Sign.v
theories/AddTo.v
theories/Witness.v
theories/AddSubQ.v
theories/Basics.v
theories/Prop_Compare.v
theories/Prop_AddSub.v
theories/QLib.v
theories/Round.v
theories/RoundTo.v
theories/RoundQ.v
theories/Prop_Round.v
theories/Conv.v
theories/Prop_Conv.v
theories/Digits.v
theories/Print.v
theories/Prop_Print.v
theories/Scan.v
theories/Parse.v
theories/ParseMain.v
theories/ParseThms.v
theories/Prop_Parse.v
theories/Mul.v
theories/MulAbs.v
theories/MulQ.v
theories/MulLaws.v
theories/Prop_Mul.v
theories/Agree.v
theories/Term.v
theories/DivBasics.v
theories/Prop_Build.v
theories/Div.v
theories/Div2.v
theories/Div3.v
theories/Div4.v
theories/Div5.v
theories/DivQ.v
theories/Spec_Div.v
theories/Spec_Lead.v
theories/Spec_History.v
theories/DivG.v
theories/DivG2.v
theories/DivFit.v
theories/Prop_Div.v
theories/Rem.v
theories/Rem2.v
theories/Rem3.v
theories/Rem4.v
theories/Spec_Rem.v
theories/RemFull.v
theories/Rem5.v
theories/Agree2.v
theories/RemG.v
theories/Prop_Rem.v
theories/Robust.v
theories/Robust2.v
theories/Robust3.v
theories/DivP.v
theories/DivP2.v
theories/Prop_Robust.v
theories/ParseAny.v
theories/Sound.v
theories/Spec_Flip.v
theories/Flip.v
theories/Prop_Flip.v
theories/History.v
theories/Prop_History.v
theories/Prop_Sound.v
theories/Laws.v
theories/Prop_Laws.v
theories/Prop_Laws2.v
theories/Prop_Laws3.v
theories/Laws4.v
theories/Prop_Laws4.v
theories/Prop_Exact.v
theories/Prop_Integers.v
theories/Prop_Exact2.v
theories/Prop_Term.v
theories/Prop_Order.v
theories/Prop_Lead.v
theories/Rem6.v
theories/Rem7.v
theories/Prop_Near.v
theories/Prop_Limits.v
theories/Prop_Everyday.v
theories/Prop_AnyString.v
theories/Prop_Long.v
theories/Spec_Request.v
theories/DivReq.v
theories/Prop_Request.v
theories/Spec_Long.v
theories/LongParse.v
theories/Prop_Every.v
theories/RemDebug.v
theories/Spec_Machine.v
theories/Prop_RemIff.v
theories/Spec_Guess.v
theories/DivDebug.v
theories/Prop_DivDebug.v
theories/DivLast.v
theories/DivSafe.v
theories/DivSafe2.v
theories/DivSafe3.v
theories/Prop_Safe.v
theories/Prop_SafeLaws.v
theories/Prop_SafeEnd.v
theories/Prop_SafeInts.v
theories/Model_Error.v
theories/Prop_Errors.v
theories/Spec_Calls.v
theories/Prop_Calls.v
theories/Spec_Ledger.v
theories/Prop_Ledger.v
theories/Spec_Typed.v
theories/Prop_Typed.v
theories/Spec_Average.v
theories/Prop_Average.v
theories/Spec_Compound.v
theories/Prop_Compound.v
theories/Spec_Split.v
theories/Prop_Split.v
theories/Spec_Convert.v
theories/Prop_Convert.v
theories/Spec_Tidy.v
theories/Prop_Tidy.v
theories/Spec_Receipt.v
theories/Prop_Receipt.v
