-Q theories Verif
theories/Base.v
theories/Ident.v
theories/Spec.v
theories/IdentProofs.v
theories/HeaderProofs.v
theories/PropertiesHeader.v
theories/View.v
theories/ViewProofs.v
theories/PropertiesView.v
theories/PropertiesViewExact.v
theories/PropertiesContExact.v
theories/PropertiesOidExact.v
theories/RealExact.v
theories/PropertiesRealExact.v
theories/Prims.v
theories/PrimProofs.v
theories/IntProofs.v
theories/PropertiesInt.v
theories/ContProofs.v
theories/PropertiesCont.v
theories/Oid.v
theories/OidProofs.v
theories/PropertiesOid.v
theories/RealModel.v
theories/RealProofs.v
theories/RealExponents.v
theories/PropertiesReal.v
theories/Schema.v
theories/SchemaSpec.v
theories/SchemaProofs.v
theories/SchemaDecode.v
theories/SchemaRound.v
theories/SchemaSet.v
theories/DecodeSpec.v
theories/DecodeExact.v
theories/PropertiesDecode.v
theories/SchemaMore.v
theories/PropertiesSchema.v
theories/Time.v
theories/PropertiesTime.v
theories/Compiler.v
theories/CompilerSpec.v
theories/CompilerProofs.v
theories/CompilerNames.v
theories/CompilerTree.v
theories/TreeSpec.v
theories/Dynamic.v
theories/DynamicSpec.v
theories/DynamicProofs.v
theories/DynamicSteps.v
theories/PropertiesDynamic.v
theories/PropertiesTree.v
theories/PropertiesResolve.v
theories/ModuleProofs.v
theories/ComponentsProofs.v
theories/ReorderProofs.v
theories/NamesSpec.v
theories/PropertiesNames.v
theories/PassesProofs.v
theories/PassParams.v
theories/PassNest.v
theories/PassClass.v
theories/PassClassNames.v
theories/PropertiesPasses.v
theories/PropertiesClasses.v
theories/CompilerPasses.v
theories/PassesSpec.v
theories/CompilerEnum.v
theories/EnumSpec.v
theories/PropertiesEnum.v
theories/PropertiesCompiler.v
theories/RecTypes.v
theories/RecSpec.v
theories/RecProofs.v
theories/PropertiesRec.v
theories/Lexer.v
theories/LexerTable.v
theories/LexerSpec.v
theories/LexerProofs.v
theories/LexerFacts.v
theories/LexerFile.v
theories/LexerColumns.v
theories/LexerLexemes.v
theories/PropertiesLexer.v
theories/Parser.v
theories/ParserTree.v
theories/ParserTable.v
theories/ParserGrammar.v
theories/ParserActions.v
theories/LRSpec.v
theories/LRProofs.v
theories/ParserFile.v
theories/ParserSubset.v
theories/ParserCert.v
theories/ParserValid.v
theories/LRComplete.v
theories/ParserComplete.v
theories/ParserFileProofs.v
theories/ParserSource.v
theories/ParserPhrases.v
theories/ParserRules.v
theories/ParserSourceProofs.v
theories/ParserText.v
theories/ParserTextProofs.v
theories/ParserFirst.v
theories/ParserInject.v
theories/ParserFrame.v
theories/ParserNames.v
theories/ParserAnon.v
theories/Elab.v
theories/Frontend.v
theories/FrontOrder.v
theories/FrontNest.v
theories/FrontPasses.v
theories/FrontStays.v
theories/CppValues.v
theories/ConstSpec.v
theories/AcceptSpec.v
theories/CppSpec.v
theories/HeaderSpec.v
theories/RealText.v
theories/RealTextProofs.v
theories/Header.v
theories/HeaderIds.v
theories/HeaderSound.v
theories/HeaderCreate.v
theories/HeaderRun.v
theories/HeaderCheck.v
theories/FrontAccept.v
theories/FrontText.v
theories/WriteOutSpec.v
theories/WriteOut.v
theories/IncludeSpec.v
theories/Include.v
theories/ClassSpec.v
theories/Declass.v
theories/PropertiesFront.v
theories/ElabSpec.v
theories/ElabProofs.v
theories/PropertiesParser.v
theories/ParserWrite.v
theories/PropertiesText.v
theories/Print.v
theories/PrintSpec.v
theories/PrintJson.v
theories/ValueSpec.v
theories/EqualProofs.v
theories/PrintProofs.v
theories/ValuePrintProofs.v
theories/PropertiesPrint.v
theories/RealValueProofs.v
theories/PropertiesValue.v
theories/ExpressSpec.v
theories/ExpressNames.v
theories/ExpressCreate.v
theories/ExpressRun.v
theories/ExpressCheck.v
theories/PropertiesCpp.v
theories/PropertiesWriteOut.v
theories/PropertiesInclude.v
theories/PropertiesField.v
theories/ConstProofs.v
theories/PropertiesConst.v
theories/MentionSpec.v
theories/MentionProofs.v
theories/PropertiesMention.v
theories/AnyType.v
theories/PropertiesAny.v
theories/PropertiesSafety.v
theories/RealEq.v
theories/RealEqProofs.v
theories/PropertiesRealEq.v
theories/RealDecimal.v
theories/DecimalSpec.v
theories/RealDecimalProofs.v
theories/PropertiesRealDecimal.v
theories/VariantTypes.v
theories/VariantTypesSpec.v
theories/VariantTypesProofs.v
theories/PropertiesVariantTypes.v
theories/RealPrint.v
theories/RealPrintSpec.v
theories/RealPrintProofs.v
theories/PropertiesRealPrint.v
