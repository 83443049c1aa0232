-Q theories Verif
theories/Base.v
theories/BaseFacts.v
theories/Model_Unicode.v
theories/Model_Bxs.v
theories/Spec_Str.v
theories/Proof_Str.v
theories/Proof_Bxs.v
theories/Proof_BxsOps.v
theories/Proof_BxsMore.v
theories/Proof_Shows.v
theories/Prop_Str.v
theories/Model_Shape.v
theories/Model_Generate.v
theories/Spec_Design.v
theories/Proof_Precalc.v
theories/Proof_Match.v
theories/Proof_Sides.v
theories/Spec_Box.v
theories/Proof_Generate.v
theories/Proof_Rows.v
theories/Proof_Draw.v
theories/Proof_Print.v
theories/Demo.v
theories/Prop_Box.v
theories/Model_Input.v
theories/Spec_Input.v
theories/Proof_Input.v
theories/Prop_Input.v
theories/Model_Detect.v
theories/Model_Remove.v
theories/Spec_Remove.v
theories/Proof_Term.v
theories/Proof_Hmm.v
theories/Proof_Horiz.v
theories/Proof_Open.v
theories/Proof_Recog.v
theories/Proof_Found.v
theories/Proof_Body.v
theories/Prop_Remove.v
theories/Prop_Body.v
theories/Spec_Detect.v
theories/Proof_Detect.v
theories/Prop_Detect.v
theories/Model_Main.v
theories/Prop_Subst.v
theories/Prop_Whole.v
theories/Model_Regex.v
theories/Model_Query.v
theories/Spec_Query.v
theories/Proof_Query.v
theories/Prop_Query.v
theories/Model_Cmdline.v
theories/Spec_Cmdline.v
theories/Proof_Cmdline.v
theories/Prop_Cmdline.v
theories/Spec_Options.v
theories/Proof_Options.v
theories/Prop_Options.v
theories/Model_Discovery.v
theories/Spec_Discovery.v
theories/Prop_Discovery.v
theories/Model_Parser.v
theories/Spec_Parser.v
theories/Proof_Parser.v
theories/Proof_Parser2.v
theories/Proof_Parser3.v
theories/Proof_Complete.v
theories/Proof_Tags.v
theories/Prop_Parser.v
theories/Model_Cld.v
theories/Spec_Comment.v
theories/Proof_Comment.v
theories/Prop_Cld.v
theories/Model_Lexer.v
theories/Spec_Lexer.v
theories/Prop_Lexer.v
theories/Model_Mend.v
theories/Prop_Mend.v
theories/Spec_Round.v
theories/Proof_Round.v
theories/Prop_Round.v
theories/Spec_Closed.v
theories/Proof_Closed.v
theories/Proof_Closed2.v
theories/Prop_Closed.v
theories/Prop_Auto.v
theories/Spec_Score.v
theories/Proof_Score.v
theories/Prop_Score.v
theories/Model_Scan.v
theories/Spec_Config.v
theories/Proof_Scan.v
theories/Spec_Grammar.v
theories/Proof_Config.v
theories/Proof_Recover.v
theories/Proof_ScanMore.v
theories/Proof_Grammar.v
theories/Proof_Isolated.v
theories/Prop_Config.v
theories/Shipped.v
theories/Proof_Built.v
theories/Proof_Decide.v
theories/Proof_Beyond.v
theories/Proof_Fast.v
theories/Proof_Chosen.v
theories/Proof_Shipped.v
theories/Prop_Shipped.v
theories/Spec_Layout.v
theories/Proof_Layout.v
theories/Prop_Layout.v
theories/Spec_File.v
theories/Proof_File.v
theories/Prop_File.v
theories/Model_List.v
theories/Model_Program.v
theories/Spec_Safe.v
theories/Proof_Safe.v
theories/Proof_SafeText.v
theories/Prop_Safe.v
theories/Spec_Program.v
theories/Prop_Program.v
theories/Spec_List.v
theories/Proof_List.v
theories/Proof_ListBack.v
theories/Proof_ListAll.v
theories/Proof_ListLoaded.v
theories/Proof_ListText.v
theories/Prop_List.v
theories/Model_Regulex.v
theories/Spec_Regulex.v
theories/Prop_Regulex.v
theories/Model_Logging.v
theories/Spec_Logging.v
theories/Prop_Logging.v
theories/Spec_Undo.v
theories/Proof_Undo.v
theories/Prop_Undo.v
theories/Prop_UndoMain.v
theories/Spec_Adhoc.v
theories/Prop_Adhoc.v
theories/Spec_Pipe.v
theories/Proof_Pipe.v
theories/Prop_Pipe.v
theories/Prop_PipeMain.v
theories/Spec_Ask.v
theories/Prop_Ask.v
theories/Spec_Default.v
theories/Prop_Default.v
theories/Spec_All.v
theories/Prop_All.v
theories/Prop_Detected.v
