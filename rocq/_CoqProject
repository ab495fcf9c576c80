-Q theories Verif
theories/M_Base.v
theories/M_Utf8.v
theories/M_Anahash.v
theories/S_Anahash.v
theories/M_Iter.v
theories/P_Primes.v
theories/P_Anahash.v
theories/S_Iter.v
theories/P_Iter.v
theories/P_Recurse.v
theories/M_Distance.v
theories/S_Distance.v
theories/P_Base.v
theories/P_Align.v
theories/P_Distance.v
theories/P_Distance2.v
theories/M_Float.v
theories/M_Types.v
theories/M_Model.v
theories/S_Model.v
theories/P_Model.v
theories/P_Vocab.v
theories/P_Index.v
theories/P_Links.v
theories/P_Lm.v
theories/M_Confusable.v
theories/M_Search.v
theories/S_Search.v
theories/P_Nearest.v
theories/P_Float.v
theories/P_Score.v
theories/P_Damerau.v
theories/P_Gather.v
theories/P_Rank.v
theories/P_Find.v
theories/P_Lookup.v
theories/P_Results.v
theories/S_Float.v
theories/P_Limit.v
theories/P_Inv.v
theories/P_Extra.v
theories/P_Accuracy.v
theories/P_Utf8.v
theories/M_ConfList.v
theories/S_Confusable.v
theories/P_Confusable.v
theories/M_Values.v
theories/S_Values.v
theories/P_Values.v
theories/M_Text.v
theories/S_Text.v
theories/P_Text.v
theories/M_Rules.v
theories/S_Rules.v
theories/P_Rules.v
theories/P_Parse.v
theories/M_Matches.v
theories/S_Matches.v
theories/M_Learn.v
theories/S_Learn.v
theories/P_Learn.v
theories/P_Matches.v
theories/P_Order.v
theories/P_Nonan.v
theories/P_Share.v
theories/P_Lattice.v
theories/P_Sequence.v
theories/P_Solver.v
theories/C_Anahash.v
theories/C_Iter.v
theories/C_Distance.v
theories/C_Model.v
theories/C_Search.v
theories/C_Find.v
theories/C_Values.v
theories/C_Confusable.v
theories/C_Text.v
theories/C_Rules.v
theories/C_Matches.v
theories/C_Learn.v
theories/M_Cli.v
theories/M_Par.v
theories/S_Cli.v
theories/P_Cli.v
theories/P_Json.v
theories/P_JsonOut.v
theories/P_JsonRead.v
theories/P_CliOut.v
theories/C_Cli.v
theories/M_Main.v
theories/S_Main.v
theories/P_Files.v
theories/P_Main.v
theories/P_Convert.v
theories/C_Main.v
theories/S_Lookup.v
theories/P_LookupAll.v
theories/C_Lookup.v
theories/M_Options.v
theories/M_Program.v
theories/S_Options.v
theories/S_Program.v
theories/P_Start.v
theories/P_Query.v
theories/P_Options.v
theories/P_Program.v
theories/C_Options.v
theories/C_Program.v
theories/S_SearchAll.v
theories/P_SearchAll.v
theories/C_SearchAll.v
theories/S_RuleFile.v
theories/P_RuleFile.v
theories/S_SearchRun.v
theories/P_SearchRun.v
theories/C_SearchRun.v
theories/C_RuleFile.v
theories/M_Python.v
theories/S_Python.v
theories/S_Session.v
theories/S_Offsets.v
theories/P_Session.v
theories/P_Objects.v
theories/P_Contains.v
theories/P_Offsets.v
theories/S_Number.v
theories/P_PyNum.v
theories/P_Python.v
theories/P_PyDict.v
theories/P_PyAttr.v
theories/C_Python.v
theories/C_Session.v
theories/C_Contains.v
theories/C_Offsets.v
theories/S_Cover.v
theories/P_Cover.v
theories/P_CoverCase.v
theories/P_CoverLm.v
theories/C_Cover.v
theories/S_Transitions.v
theories/P_Count.v
theories/P_Transitions.v
theories/C_Transitions.v
theories/S_Agree.v
theories/P_Agree.v
theories/P_AgreeRun.v
theories/P_Defaults.v
theories/C_Agree.v
theories/S_LearnRun.v
theories/P_LearnRun.v
theories/C_LearnRun.v
theories/C_LearnVia.v
theories/C_Reload.v
theories/S_Modes.v
theories/C_Modes.v
theories/M_Reverse.v
theories/S_Reverse.v
theories/C_Reverse.v
theories/S_LearnMore.v
theories/P_LearnMore.v
theories/C_LearnMore.v
theories/M_Multi.v
theories/S_Multi.v
theories/P_Multi.v
theories/C_Multi.v
theories/S_LearnShow.v
theories/P_LearnShow.v
theories/P_LearnJson.v
theories/C_LearnShow.v
theories/C_Apart.v
