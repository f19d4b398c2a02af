-Q theories Verif
theories/Base.v
theories/M_Builder.v
theories/M_Bytes.v
theories/M_CharCategory.v
theories/M_Close.v
theories/M_Command.v
theories/M_Debug.v
theories/M_DicBuilder.v
theories/M_DicReader.v
theories/M_Front.v
theories/M_InputPlugins.v
theories/M_InputText.v
theories/M_Lattice.v
theories/M_LexiconSet.v
theories/M_Main.v
theories/M_Morphemes.v
theories/M_NumericParser.v
theories/M_Oov.v
theories/M_PathRewrite.v
theories/M_Progress.v
theories/M_Resource.v
theories/M_Resources.v
theories/M_Setup.v
theories/M_Shipped.v
theories/M_Threads.v
theories/M_Tokenize.v
theories/M_Tokenizer.v
theories/P_Accept.v
theories/P_Accessors.v
theories/P_Agree.v
theories/P_AsShipped.v
theories/P_Builder.v
theories/P_Bytes.v
theories/P_CharCategory.v
theories/P_Close.v
theories/P_Command.v
theories/P_Config.v
theories/P_Debug.v
theories/P_DicFile.v
theories/P_DicFormat.v
theories/P_DicGrammar.v
theories/P_DicLexicon.v
theories/P_DicOpen.v
theories/P_DicSource.v
theories/P_DicToy.v
theories/P_DicWrite.v
theories/P_FileBytes.v
theories/P_History.v
theories/P_InputText.v
theories/P_Join.v
theories/P_JoinNum.v
theories/P_Lattice.v
theories/P_LexiconSet.v
theories/P_Live.v
theories/P_Made.v
theories/P_Main.v
theories/P_Morphemes.v
theories/P_Numeric.v
theories/P_NumericComma.v
theories/P_NumericReading.v
theories/P_Oov.v
theories/P_Path.v
theories/P_Plugins.v
theories/P_Progress.v
theories/P_Resource.v
theories/P_Rewrite.v
theories/P_RewriteNum.v
theories/P_RewriteTerm.v
theories/P_RewriteTile.v
theories/P_RewriteValue.v
theories/P_SameCats.v
theories/P_Setup.v
theories/P_System.v
theories/P_Tokenizer.v
theories/P_Tool.v
theories/P_Total.v
theories/P_Units.v
theories/P_Usual.v
theories/P_Words.v
theories/Prop_Accept.v
theories/Prop_AsShipped.v
theories/Prop_AutoCost.v
theories/Prop_Barred.v
theories/Prop_Best.v
theories/Prop_CharCategory.v
theories/Prop_Close.v
theories/Prop_Command.v
theories/Prop_Csv.v
theories/Prop_Cut.v
theories/Prop_Debug.v
theories/Prop_Format.v
theories/Prop_Front.v
theories/Prop_Inhibit.v
theories/Prop_Items.v
theories/Prop_Join.v
theories/Prop_Lattice.v
theories/Prop_Lexicon.v
theories/Prop_Live.v
theories/Prop_Logged.v
theories/Prop_Made.v
theories/Prop_Main.v
theories/Prop_Many.v
theories/Prop_Morphemes.v
theories/Prop_Normal.v
theories/Prop_Numeric.v
theories/Prop_Oov.v
theories/Prop_Plugins.v
theories/Prop_Price.v
theories/Prop_Progress.v
theories/Prop_Raise.v
theories/Prop_Resource.v
theories/Prop_Rewrite.v
theories/Prop_Shipped.v
theories/Prop_Source.v
theories/Prop_Span.v
theories/Prop_System.v
theories/Prop_Text.v
theories/Prop_Tokenize.v
theories/Prop_Tokenizer.v
theories/Prop_Tool.v
theories/Prop_Total.v
theories/Prop_Units.v
theories/Prop_Unused.v
theories/Prop_Usual.v
theories/Prop_Where.v
theories/Prop_WordId.v
theories/Prop_WordInfo.v
theories/S_Accept.v
theories/S_Close.v
theories/S_Command.v
theories/S_Debug.v
theories/S_Join.v
theories/S_Lattice.v
theories/S_Main.v
theories/S_Numeric.v
theories/S_Plugins.v
theories/S_Progress.v
theories/S_Resource.v
theories/S_Rewrite.v
theories/S_Source.v
theories/S_Text.v
theories/S_Tool.v
theories/S_Units.v
theories/S_Usual.v
theories/T_Files.v
theories/T_Numeric.v
theories/T_System.v
theories/T_Units.v
theories/Utf8.v
