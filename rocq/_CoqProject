-Q theories Verif

theories/Base.v
theories/Regex.v
theories/RegexProofs.v
theories/Registry.v
theories/PyNum.v
theories/NumModel.v
theories/NumSpec.v
theories/NumProofs.v
theories/NumMatchProofs.v
theories/NumProps.v
theories/DateModel.v
theories/DateSpec.v
theories/DateProofs.v
theories/DateMatchProofs.v
theories/DateNameProofs.v
theories/DateNumProofs.v
theories/DateEraProofs.v
theories/DateProps.v
theories/TextModel.v
theories/TextSpec.v
theories/TextProofs.v
theories/TextProps.v
theories/NetModel.v
theories/NetSpec.v
theories/NetProofs.v
theories/NetLinkProofs.v
theories/NetCombineProofs.v
theories/CombineOpenProofs.v
theories/NetProps.v
theories/NetRootProps.v
theories/ArcNameProps.v
theories/QNameModel.v
theories/QNameSpec.v
theories/QNameProofs.v
theories/NsProofs.v
theories/QNameProps.v
theories/NamesProps.v
theories/ErrBase.v
theories/ErrTable.v
theories/ErrModel.v
theories/ErrSpec.v
theories/ErrProps.v
theories/CtxModel.v
theories/CtxSpec.v
theories/CtxProofs.v
theories/CtxParseProofs.v
theories/CtxExactProofs.v
theories/CtxProps.v
theories/ShownProps.v
theories/CtxReportSpec.v
theories/CtxReportProofs.v
theories/CtxOpenProofs.v
theories/CtxReportProps.v
theories/CalcModel.v
theories/CalcSpec.v
theories/CalcProofs.v
theories/CalcProps.v
theories/LangModel.v
theories/LangSpec.v
theories/LangProofs.v
theories/LangProps.v
theories/DtsModel.v
theories/DtsSpec.v
theories/DtsRefs.v
theories/DtsProofs.v
theories/DtsLoad.v
theories/DtsProps.v
theories/AddressProps.v
theories/ConceptModel.v
theories/ConceptSpec.v
theories/ConceptProofs.v
theories/ConceptLoad.v
theories/ConceptOpen.v
theories/ConceptProps.v
theories/SearchProps.v
theories/TableModel.v
theories/TableSpec.v
theories/TableProofs.v
theories/TableProps.v
theories/TableOpenProps.v
theories/CompModel.v
theories/CompSpec.v
theories/CompProofs.v
theories/CompProps.v
theories/EdgarModel.v
theories/EdgarSpec.v
theories/EdgarProofs.v
theories/EdgarProps.v
theories/ValueModel.v
theories/ValueProps.v
theories/FootModel.v
theories/FootSpec.v
theories/FootProofs.v
theories/FootProps.v
theories/InlineModel.v
theories/InlineSpec.v
theories/InlineProofs.v
theories/InlineStepProofs.v
theories/InlineReportSpec.v
theories/InlineReportProofs.v
theories/InlineHeadSpec.v
theories/InlineHeadProofs.v
theories/InlineDocProofs.v
theories/InlineOpenProofs.v
theories/InlineProps.v
theories/NumberProps.v
theories/InlineHeadProps.v
theories/InlineOpenProps.v
theories/InlineReportProps.v
theories/RuleModel.v
theories/RuleSpec.v
theories/RuleProofs.v
theories/RuleNodeProofs.v
theories/RuleLinkProofs.v
theories/RuleProps.v
theories/PrintModel.v
theories/PrintSpec.v
theories/PrintProofs.v
theories/PrintFactProofs.v
theories/PrintProps.v
theories/OpenModel.v
theories/OpenSpec.v
theories/OpenProofs.v
theories/OpenProps.v
theories/ReferProps.v
theories/LinkModel.v
theories/LinkSpec.v
theories/LinkProofs.v
theories/LinkLoopProofs.v
theories/LinkOrderProofs.v
theories/LinkNetProofs.v
theories/LinkDocProofs.v
theories/LinkSameProofs.v
theories/LinkLabelProofs.v
theories/LinkReportProofs.v
theories/LinkOpenProofs.v
theories/LinkProps.v
theories/LinkReadSpec.v
theories/LinkCombineProofs.v
theories/LinkReadProofs.v
theories/FilingModel.v
theories/FilingSpec.v
theories/FilingProofs.v
theories/FilingNetProofs.v
theories/LinkFrame.v
theories/FilingStages.v
theories/FilingProps.v
theories/FilingOpenSpec.v
theories/FilingOpenProofs.v
theories/FilingOpenProps.v
theories/InlineFrame.v
theories/InlineFilingModel.v
theories/InlineFilingSpec.v
theories/InlineFilingProofs.v
theories/InlineFootProofs.v
theories/InlineInsideProofs.v
theories/InlineContProofs.v
theories/InlineSameProofs.v
theories/InlineFilingProps.v
theories/InlineSameProps.v
theories/FootOpenSpec.v
theories/FootOpenProofs.v
theories/FootOpenProps.v
theories/InlineFilingOpenSpec.v
theories/InlineFilingOpenProofs.v
theories/InlineFilingOpenProps.v
theories/OrderSpec.v
theories/OrderProofs.v
theories/OrderProps.v
theories/InlineOrderSpec.v
theories/InlineOrderProofs.v
theories/InlineOrderProps.v
theories/InlineOrderOpenProps.v
theories/CacheSpec.v
theories/CacheProofs.v
theories/OpenFilingModel.v
theories/CacheProps.v
theories/SessionModel.v
theories/SessionSpec.v
theories/SessionProofs.v
theories/SessionProps.v
theories/OpenFilingSpec.v
theories/OpenFilingProps.v
theories/PPrintModel.v
theories/PPrintSpec.v
theories/PPrintProps.v
theories/FindProps.v
theories/EqModel.v
theories/EqSpec.v
theories/EqProps.v
theories/ArcRoleProps.v
theories/FilingCalcProps.v
theories/NodeAttrProps.v
theories/ArcFilingProps.v
theories/AspectFilingProps.v
theories/InlineNetProps.v
theories/InstanceProps.v
theories/NodePointsProps.v
theories/RootFilingProps.v
