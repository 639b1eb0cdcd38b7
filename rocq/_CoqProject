-Q theories Verif
theories/Base.v
theories/Regex.v
theories/LinkModel.v
theories/RegexProofs.v
theories/LinkSpec.v
theories/LinkProofs.v
theories/PropsLink.v
theories/Types.v
theories/TypesFacts.v
theories/Consts.v
theories/Version.v
theories/ConvertModel.v
theories/ConvertSpec.v
theories/ConvertProofs.v
theories/ConvertReach.v
theories/ConvertReachProofs.v
theories/ConvertPropProofs.v
theories/ExampleBom.v
theories/ConvertStep.v
theories/PropsConvert.v
theories/PropsStep.v
theories/VersionProofs.v
theories/PropsVersion.v
theories/Proj.v
theories/Within.v
theories/SchemaTables.v
theories/WithinFacts.v
theories/Gaps.v
theories/Stable.v
theories/WithinProofs.v
theories/StableProofs.v
theories/PropsWithin.v
theories/Univ.v
theories/TypeTable.v
theories/Reify.v
theories/Wt.v
theories/ReifyBase.v
theories/ReifyFacts.v
theories/GobModel.v
theories/GobSpec.v
theories/GobProofs.v
theories/PropsCopy.v
theories/Numbers.v
theories/NumbersProofs.v
theories/Utf8.v
theories/Utf8Proofs.v
theories/JsonModel.v
theories/JsonBack.v
theories/JsonProofs.v
theories/JsonHooks.v
theories/JsonHookPatent.v
theories/JsonRound.v
theories/JsonSpec.v
theories/JsonLossless.v
theories/JsonErrors.v
theories/JsonBlame.v
theories/JsonVersions.v
theories/JsonDecode.v
theories/JsonDecodeExact.v
theories/JsonClean.v
theories/JsonOut.v
theories/JsonBom.v
theories/JsonAgain.v
theories/JsonChoices.v
theories/HeapModel.v
theories/HeapSpec.v
theories/HeapLogic.v
theories/HeapFields.v
theories/HeapProofs.v
theories/HeapConvert.v
theories/HeapTools.v
theories/HeapBom.v
theories/HeapRun.v
theories/PropsHeap.v
theories/JsonText.v
theories/JsonTextProofs.v
theories/JsonTextRound.v
theories/JsonTextBom.v
theories/JsonTextFuel.v
theories/JsonIO.v
theories/JsonTextMore.v
theories/PropsJson.v
theories/PropsText.v
theories/XmlModel.v
theories/XmlBack.v
theories/XmlTable.v
theories/XmlSpec.v
theories/XmlValues.v
theories/XmlProofs.v
theories/XmlPairs.v
theories/XmlStructs.v
theories/XmlSelf.v
theories/XmlHooks.v
theories/XmlLists.v
theories/XmlEvidence.v
theories/XmlRound.v
theories/XmlNeat.v
theories/XmlNs.v
theories/JsonTyped.v
theories/Reuse.v
theories/SameOutcome.v
theories/SameXml.v
theories/PropsReuse.v
theories/XmlTop.v
theories/XmlLimit.v
theories/XmlDeep.v
theories/XmlLossless.v
theories/XmlLossProofs.v
theories/XmlLossBom.v
theories/XmlDeps.v
theories/PropsXml.v
theories/XmlOffence.v
theories/XmlErrors.v
theories/XmlVersions.v
theories/XmlPaths.v
theories/XmlChoices.v
theories/PropsXmlChoices.v
theories/XmlText.v
theories/XmlTextProofs.v
theories/XmlWritten.v
theories/XmlTextMore.v
theories/XmlIO.v
theories/PropsXmlText.v
theories/GoTests.v
theories/JsonGrammar.v
theories/JsonGrammarProofs.v
theories/PropsGrammar.v
theories/XmlGrammar.v
theories/XmlAlike.v
theories/XmlGrammarProofs.v
theories/PropsXmlGrammar.v
theories/SchemaSpec.v
theories/Schemas.v
theories/SchemaProofs.v
theories/PropsSchema.v
theories/SchemaKeep.v
theories/PropsKept.v
theories/SaidSpec.v
theories/JsonSaid.v
theories/PropsSaid.v
theories/ShapeSpec.v
theories/JsonShape.v
theories/JsonNulls.v
theories/PropsShape.v
theories/XsdSpec.v
theories/Xsd.v
theories/XmlShape.v
theories/PropsXsd.v
theories/OrderSpec.v
theories/XsdOrder.v
theories/XmlOrder.v
theories/PropsOrder.v
theories/SiteSpec.v
theories/SiteProofs.v
theories/PropsSites.v
theories/PropsWords.v
theories/PropsNeeded.v
