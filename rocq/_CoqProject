-Q theories Verif
theories/PyBase.v
theories/PyDict.v
theories/Trie.v
theories/Cplx.v
theories/Registry.v
theories/Known.v
theories/P_Registry.v
theories/Bases.v
theories/BasesFacts.v
theories/P_Bases.v
theories/Import.v
theories/P_Import.v
theories/Wc.v
theories/Dump.v
theories/DumpInit.v
theories/WetN.v
theories/P_Classes.v
theories/Tensor.v
theories/SmeftSyntax.v
theories/SmeftTab.v
theories/SmeftSymm.v
theories/SmeftSpec.v
theories/SmeftSymmFacts.v
theories/Params.v
theories/Smeft.v
theories/SmeftNames.v
theories/SmeftRot.v
theories/SmeftWarsaw.v
theories/SmeftMass.v
theories/SmeftIll.v
theories/SmeftReg.v
theories/SmeftFields.v
theories/P_Smeft.v
theories/Tex.v
theories/Qcd.v
theories/QcdRg.v
theories/Eos.v
theories/Cli.v
theories/SmeftSimSyntax.v
theories/SmeftSimTab.v
theories/SmeftSim.v
theories/P_SmeftSim.v
theories/SmeftSimText.v
theories/Sci.v
theories/SmeftSimPrint.v
theories/P_Card.v
theories/P_Print.v
theories/P_Tools.v
theories/WetExpr.v
theories/WetStr.v
theories/WetTab.v
theories/Wet.v
theories/WetJms.v
theories/WetNames.v
theories/WetNf.v
theories/WetSpec.v
theories/WetChk.v
theories/WetThm.v
theories/WetVals.v
theories/WetList.v
theories/WetAux.v
theories/P_Wet.v
theories/FkTab.v
theories/FlavorKit.v
theories/WetParams.v
theories/P_WetMore.v
theories/MatchOps.v
theories/MatchTab.v
theories/Match.v
theories/MatchFacts.v
theories/MatchSpec.v
theories/MatchRot.v
theories/MatchThm.v
theories/MatchSm.v
theories/MatchLin.v
theories/MatchWarsaw.v
theories/MatchGf.v
theories/MatchWet.v
theories/Package.v
theories/PackWet.v
theories/MatchEx.v
theories/MatchUser.v
theories/P_Match.v
theories/MatchExch.v
theories/MatchMix.v
theories/MatchVal.v
theories/P_MatchVal.v
theories/Dirac.v
theories/LagrBases.v
theories/LagrRefl.v
theories/LagrJms.v
theories/LagrSym.v
theories/LagrChk.v
theories/LagrThm.v
theories/LagrEx.v
theories/P_Lagr.v
theories/Dipole.v
theories/DipThm.v
theories/P_Dipole.v
theories/EosOps.v
theories/EosFour.v
theories/P_Eos4.v
theories/PackMatch.v
theories/PackEx.v
theories/P_Package.v
theories/Markdown.v
theories/P_Markdown.v
theories/Tool.v
theories/ToolConv.v
theories/P_Tool.v
theories/P_ToolConv.v
theories/Args.v
theories/ArgsFacts.v
theories/ArgsForms.v
theories/ArgsThm.v
theories/ArgsAny.v
theories/P_Args.v
theories/P_ArgsWords.v
theories/P_ArgsConv.v
theories/LoadBasis.v
theories/LoadBasisThm.v
theories/P_Validate.v
theories/Session.v
theories/P_Session.v
theories/JsonText.v
theories/JsonFacts.v
theories/JsonMore.v
theories/JsonSpec.v
theories/JsonGrammar.v
theories/P_Json.v
theories/Order.v
theories/OrderSession.v
theories/OrderPackage.v
theories/OrderInst.v
theories/OrderSort.v
theories/P_Order.v
theories/P_Kinds.v
theories/P_Alias.v
theories/Round.v
theories/RoundErr.v
theories/RoundWet.v
theories/RoundArith.v
theories/P_Round.v
theories/P_Sens.v
theories/RoundDip.v
theories/P_RoundDip.v
theories/RoundFk.v
theories/P_RoundFk.v
theories/Repr.v
theories/P_Repr.v
theories/DumpOrder.v
theories/P_DumpOrder.v
theories/OrderImport.v
theories/P_ImportSession.v
theories/P_CardNumbers.v
theories/P_Ckm.v
theories/P_MarkdownText.v
