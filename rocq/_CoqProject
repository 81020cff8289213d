-Q theories Verif
theories/Base.v
theories/BaseLemmas.v
theories/ScanModel.v
theories/CharconvModel.v
theories/CharconvSpec.v
theories/CharconvProofs.v
theories/CharconvProofs2.v
theories/CharconvProofs3.v
theories/CharconvProofs4.v
theories/CharconvProofs5.v
theories/CharconvProps.v
theories/SubstrModel.v
theories/SubstrSpec.v
theories/SubstrProofs.v
theories/SubstrProofs2.v
theories/SubstrProofs3.v
theories/SubstrProofs4.v
theories/SubstrProofs5.v
theories/SubstrProofs6.v
theories/SubstrProofs7.v
theories/SubstrProofs8.v
theories/SubstrProps.v
theories/SpanNumModel.v
theories/SpanNumSpec.v
theories/SpanNumProofs.v
theories/SpanNumProofs2.v
theories/SpanNumProofs3.v
theories/SpanNumProofs4.v
theories/SpanNumProofs5.v
theories/SpanNumProofs6.v
theories/SpanNumProps.v
theories/Base64Model.v
theories/Base64Spec.v
theories/Base64Proofs.v
theories/Base64Proofs2.v
theories/Base64Proofs3.v
theories/Base64Props.v
theories/FormatModel.v
theories/FormatSpec.v
theories/FormatProofs.v
theories/FormatProofs2.v
theories/FormatProofs3.v
theories/FormatProofs4.v
theories/FormatProps.v
theories/DumpModel.v
theories/DumpSpec.v
theories/DumpProofs.v
theories/DumpProofs2.v
theories/DumpProofs3.v
theories/DumpProofs4.v
theories/DumpProps.v
theories/MemUtilModel.v
theories/MemUtilSpec.v
theories/MemUtilProofs.v
theories/MemUtilProofs2.v
theories/MemUtilProps.v
theories/SpanModel.v
theories/SpanSpec.v
theories/SpanProofs.v
theories/SpanProps.v
theories/MemResModel.v
theories/MemResSpec.v
theories/MemResProofs.v
theories/MemResProofs2.v
theories/MemResProps.v
theories/AllocModel.v
theories/AllocSpec.v
theories/AllocProofs.v
theories/AllocProps.v
theories/CtorModel.v
theories/CtorSpec.v
theories/CtorProofs.v
theories/CtorProofs2.v
theories/CtorProps.v
theories/HashModel.v
theories/HashSpec.v
theories/HashProofs.v
theories/HashProps.v
theories/RngModel.v
theories/RngSpec.v
theories/RngProofs.v
theories/RngProofs2.v
theories/RngPeriod.v
theories/RngProps.v
theories/EnumModel.v
theories/EnumSpec.v
theories/EnumProofs.v
theories/EnumProofs2.v
theories/EnumProofs3.v
theories/EnumProps.v
theories/SubstrModel2.v
theories/SubstrProofs9.v
theories/SubstrProps2.v
theories/InteropModel.v
theories/InteropSpec.v
theories/InteropProofs.v
theories/InteropProps.v
theories/InplaceModel.v
theories/InplaceSpec.v
theories/InplaceProofs.v
theories/InplaceProps.v
theories/ErrorModel.v
theories/ErrorSpec.v
theories/ErrorProofs.v
theories/ErrorProps.v
theories/FloatTable.v
theories/FloatModel.v
theories/FloatSpec.v
theories/FloatProofs1.v
theories/FloatProofs2.v
theories/FloatProofs3.v
theories/FloatProofs4.v
theories/FloatProofs5.v
theories/FloatProofs6.v
theories/FloatProofs7.v
theories/FloatProofs8.v
theories/FloatProofs9.v
theories/FloatProofs10.v
theories/FloatProofs11.v
theories/FloatProofs12.v
theories/FloatProofs13.v
theories/FloatProofs14.v
theories/FloatProofs15.v
theories/FloatProofs16.v
theories/FloatProofs17.v
theories/FloatProofs18.v
theories/FloatProps.v
theories/RealModel.v
theories/RealSpec.v
theories/RealProofs.v
theories/RealProofs2.v
theories/RealProofs3.v
theories/RealProofs4.v
theories/RealProofs5.v
theories/RealProps.v
theories/TypesModel.v
theories/TypesSpec.v
theories/TypesProofs.v
theories/TypesProps.v
theories/ReadModel.v
theories/ReadSpec.v
theories/ReadProofs.v
theories/ReadProps.v
theories/TightModel.v
theories/TightSpec.v
theories/TightProofs.v
theories/TightProofs2.v
theories/TightProps.v
theories/ProviderModel.v
theories/ProviderSpec.v
theories/ProviderProofs.v
theories/ProviderProps.v
theories/Span2Model.v
theories/Span2Props.v
theories/ScanfModel.v
theories/ScanfSpec.v
theories/ScanfProofs.v
theories/ScanfProofs2.v
theories/ScanfProofs3.v
theories/ScanfProps.v
theories/StdModel.v
theories/StdSpec.v
theories/StdProofs.v
theories/StdProps.v
theories/CtorExcModel.v
theories/CtorExcSpec.v
theories/CtorExcProofs.v
theories/CtorExcProps.v
theories/CtorCountModel.v
theories/CtorCountProps.v
theories/Limb32Model.v
theories/Limb32Proofs1.v
theories/Limb32Proofs2.v
theories/Limb32Proofs3.v
theories/Limb32Proofs4.v
theories/Limb32Props.v
theories/FfIntModel.v
theories/FfIntSpec.v
theories/FfIntProofs.v
theories/FfIntProofs2.v
theories/FfIntProps.v
theories/FfOptModel.v
theories/FfOptSpec.v
theories/FfOptProofs.v
theories/FfOptProofs2.v
theories/FfOptProofs3.v
theories/FfOptProofs4.v
theories/FfOptProofs5.v
theories/FfOptProps.v
theories/PolyModel.v
theories/PolySpec.v
theories/PolyProofs.v
theories/PolyProps.v
theories/NullModel.v
theories/NullSpec.v
theories/NullProofs.v
theories/NullProofs2.v
theories/NullProofs3.v
theories/NullProps.v
theories/FfWideModel.v
theories/FfWideSpec.v
theories/FfWideProofs.v
theories/FfWideProofs2.v
theories/FfWideProofs3.v
theories/FfWideProofs4.v
theories/FfWideProofs5.v
theories/FfWideProofs6.v
theories/FfWideProps.v
theories/HookModel.v
theories/HookSpec.v
theories/HookProofs.v
theories/HookProps.v
theories/FfCfgModel.v
theories/FfCfgSpec.v
theories/FfCfgProofs.v
theories/FfCfgProofs2.v
theories/FfCfgProps.v
theories/PpModel.v
theories/PpText.v
theories/PpSpec.v
theories/PpProofs.v
theories/PpProofs2.v
theories/PpProofs3.v
theories/PpProofs4.v
theories/PpProofs5.v
theories/PpProofs6.v
theories/PpProps.v
theories/MacroText.v
theories/MacroModel.v
theories/MacroSpec.v
theories/MacroSpec2.v
theories/MacroProofs.v
theories/MacroProofs2.v
theories/MacroProofs3.v
theories/MacroProofs4.v
theories/MacroProofs5.v
theories/MacroProofs6.v
theories/MacroProofs7.v
theories/MacroProofs8.v
theories/MacroProps.v
