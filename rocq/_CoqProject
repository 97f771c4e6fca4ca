-Q theories Verif
theories/Py.v
theories/Num.v
theories/UnitsData.v
theories/UnitsStruct.v
theories/Units.v
theories/Conformance.v
theories/NumFacts.v
theories/Spec.v
theories/StructFacts.v
theories/CombineFacts.v
theories/CancelFacts.v
theories/ExpandFacts.v
theories/SpecFacts.v
theories/PrefixFacts.v
theories/SimplifyFacts.v
theories/OpFacts.v
theories/NamesFacts.v
theories/ClosureFacts.v
theories/FactorFacts.v
theories/PrefixSpec.v
theories/PrefixExact.v
theories/PassSpec.v
theories/PassFacts.v
theories/LawFacts.v
theories/WitnessFacts.v
theories/PropFacts.v
theories/Properties_Structure.v
theories/OpPropFacts.v
theories/OpSpec.v
theories/OpExactFacts.v
theories/Expr.v
theories/ExprFacts.v
theories/ExprSpec.v
theories/ExprExact.v
theories/ExprCases.v
theories/ExprRefuted.v
theories/Properties_Operators.v
theories/TextSpec.v
theories/StripFacts.v
theories/TextFacts.v
theories/ParseFacts.v
theories/ShowFacts.v
theories/TextPropFacts.v
theories/UnitBlankSpec.v
theories/UnitBlankFacts.v
theories/Properties_Text.v
theories/ConvSpec.v
theories/ConvFacts.v
theories/ConvLaws.v
theories/ConvDims.v
theories/ConvTotal.v
theories/ConvCases.v
theories/UnitConvSpec.v
theories/UnitConvFacts.v
theories/UnitConvMore.v
theories/RegisterFacts.v
theories/UnitErrSpec.v
theories/UnitConvExact.v
theories/RegisterExact.v
theories/ReadSpec.v
theories/ReadFacts.v
theories/RefuseSpec.v
theories/RefuseFacts.v
theories/RegistrySpec.v
theories/RegistryNames.v
theories/Properties_Convert.v
theories/Solve.v
theories/SolveSpec.v
theories/SolveFacts.v
theories/SolveExact.v
theories/Properties_Solve.v
theories/Formulas.v
theories/FormulaSpec.v
theories/SemFacts.v
theories/SymFacts.v
theories/SweepFacts.v
theories/SimFacts.v
theories/ConductionFacts.v
theories/TransportFacts.v
theories/DimlessFacts.v
theories/ParamFacts.v
theories/ThermoFacts.v
theories/LogMeanExact.v
theories/SafetyFacts.v
theories/PrefixedFacts.v
theories/BackFacts.v
theories/ArrheniusSpec.v
theories/ArrheniusExact.v
theories/ArrheniusNone.v
theories/Properties_Formulas.v
theories/WaterData.v
theories/Water.v
theories/WaterSpec.v
theories/WaterFacts.v
theories/WaterFloat.v
theories/WaterFloatSpec.v
theories/WaterFloatFacts.v
theories/Properties_Water.v
theories/Eos.v
theories/EosSpec.v
theories/EosFacts.v
theories/EosExact.v
theories/EosFoundSpec.v
theories/EosLiquid.v
theories/EosMonotone.v
theories/Properties_Eos.v
theories/Balance.v
theories/BalanceSpec.v
theories/BalanceFacts.v
theories/NestedFacts.v
theories/EmptyFacts.v
theories/FracFacts.v
theories/FracTies.v
theories/ReactionFacts.v
theories/Properties_Balance.v
theories/Heap.v
theories/HeapSpec.v
theories/HeapFacts.v
theories/HeapPipe.v
theories/HeapOps.v
theories/HeapProps.v
theories/HeapShare.v
theories/HeapOwner.v
theories/Properties_Heap.v
theories/ProbeFacts.v
theories/Correlations.v
theories/TransferSpec.v
theories/DenoteFacts.v
theories/CoefficientFacts.v
theories/GroupFacts.v
theories/PulseFacts.v
theories/Properties_Transfer.v
theories/UnlikeFacts.v
theories/ExchangeSpec.v
theories/DiffusivityFacts.v
theories/ExchangeFacts.v
theories/ReactorFacts.v
theories/Properties_Exchange.v
theories/KineticsSpec.v
theories/KineticsFacts.v
theories/KineticsErr.v
theories/Properties_Kinetics.v
theories/Rounding.v
theories/RoundSpec.v
theories/RoundFacts.v
theories/RoundErr.v
theories/RoundCases.v
theories/SumSpec.v
theories/SumErr.v
theories/SumCases.v
theories/B64Spec.v
theories/B64Full.v
theories/SumRange.v
theories/SumRangeFacts.v
theories/SumRangeCases.v
theories/Properties_Rounding.v
theories/FloatExp.v
theories/FloatRound.v
theories/FloatFacts.v
theories/FloatSimplify.v
theories/FloatSpec.v
theories/FloatOps.v
theories/FloatConvert.v
theories/FloatCases.v
theories/Properties_Float.v
theories/Range.v
theories/RangeSpec.v
theories/B64Facts.v
theories/RangeFacts.v
theories/RangeCases.v
theories/RangeTemp.v
theories/Properties_Range.v
theories/SystemFacts.v
theories/Properties_System.v
theories/Print.v
theories/PrintSpec.v
theories/B64Round.v
theories/PrintFacts.v
theories/PrintTextFacts.v
theories/PrintCases.v
theories/LayoutFacts.v
theories/ExpoTextFacts.v
theories/RedisplayFacts.v
theories/Properties_Print.v
theories/Utility.v
theories/UtilitySpec.v
theories/UtilityFacts.v
theories/HashFacts.v
theories/Properties_Utility.v
theories/EosFloatSpec.v
theories/EosFloat.v
theories/EosFloatLiquid.v
theories/EosFloatCalls.v
theories/EosFloatCases.v
theories/EosFloatAlpha.v
theories/EosFloatSoave.v
theories/EosFloatPeng.v
theories/EosFloatPengVapor.v
theories/EosFloatHalves.v
theories/EosFloatGas.v
theories/Properties_EosFloat.v
theories/Constants.v
theories/ConstSpec.v
theories/ConstFacts.v
theories/Properties_Constants.v
theories/Func.v
theories/FuncSpec.v
theories/FuncErr.v
theories/FuncFacts.v
theories/FuncBounds.v
theories/FuncDecay.v
theories/FuncMean.v
theories/FuncCases.v
theories/FuncCount.v
theories/FuncPulse.v
theories/FuncPulseCases.v
theories/Properties_Func.v
theories/FuncCalls.v
theories/FuncCallFacts.v
theories/FuncLocal.v
theories/Properties_Calls.v
theories/KindSpec.v
theories/KindFacts.v
theories/KindCases.v
theories/Properties_Kinds.v
theories/CoefSpec.v
theories/CoefFacts.v
theories/BlankFacts.v
theories/Properties_Coef.v
theories/OrderSpec.v
theories/OrderFacts.v
theories/Properties_Order.v
theories/RewriteSpec.v
theories/RewriteFacts.v
theories/Properties_Rewrite.v
theories/SpellSpec.v
theories/SpellFacts.v
theories/Properties_Spell.v
theories/TagFacts.v
theories/DistribSpec.v
theories/DistribFacts.v
theories/Properties_Distrib.v
theories/AlikeSpec.v
theories/AlikeFacts.v
theories/Properties_Alike.v
theories/StaticSpec.v
theories/StaticFacts.v
theories/Properties_Static.v
theories/FullerFacts.v
theories/Properties_Fuller.v
theories/CommuteFacts.v
theories/Properties_Commute.v
theories/SignSpec.v
theories/SignFacts.v
theories/Properties_Sign.v
theories/OwnFacts.v
theories/Properties_Own.v
theories/MixedFacts.v
theories/Properties_Mixed.v
theories/OwnFloat.v
theories/TotalSpec.v
theories/TotalFacts.v
theories/Properties_Total.v
