-Q theories Verif
theories/Base.v
theories/Types.v
theories/M_ConvString.v
theories/S_ConvString.v
theories/P_ConvString.v
theories/P_ConvString2.v
theories/P_ConvString3.v
theories/D_Aliases.v
theories/P_Aliases.v
theories/S_Resolve.v
theories/P_Resolve.v
theories/T_ConvString.v
theories/M_Store.v
theories/S_Store.v
theories/P_Store.v
theories/T_Store.v
theories/D_Maps.v
theories/M_Hex.v
theories/S_Hex.v
theories/P_Hex.v
theories/T_Hex.v
theories/M_Engine.v
theories/S_Engine.v
theories/P_Trans.v
theories/P_Engine1.v
theories/P_Engine2.v
theories/P_Engine3.v
theories/P_Engine4.v
theories/P_Engine5.v
theories/P_Engine6.v
theories/M_Output.v
theories/S_Session.v
theories/P_Output.v
theories/P_Output2.v
theories/P_Output3.v
theories/P_Session.v
theories/S_Dict.v
theories/S_Table.v
theories/S_Convert.v
theories/P_Dict.v
theories/P_Convert.v
theories/P_Session2.v
theories/P_Session3.v
theories/P_Output4.v
theories/T_Output.v
theories/P_Reinit.v
theories/P_PrevPhase.v
theories/P_Reinit2.v
theories/P_Pass.v
theories/M_Mktable.v
theories/S_Source.v
theories/P_Mktable.v
theories/P_Mktable2.v
theories/P_Mktable3.v
theories/P_Mktable4.v
theories/S_Segment.v
theories/P_Segment.v
theories/S_Streams.v
theories/P_Session4.v
theories/P_Source.v
theories/T_Table.v
theories/P_Shape.v
theories/M_Create.v
theories/P_Create.v
theories/T_Engine.v
theories/P_EngineEx.v
theories/T_Engine2.v
theories/T_Output2.v
theories/P_Safe.v
theories/P_Safe2.v
theories/T_Safe.v
theories/M_Callback.v
theories/P_Callback.v
theories/P_CbSession.v
theories/S_Unicode.v
theories/M_UTF8.v
theories/P_UTF8.v
theories/P_UTF8b.v
theories/M_UTF16.v
theories/P_UTF16.v
theories/M_Modules.v
theories/P_Ascii.v
theories/P_Charset.v
theories/P_Unicode.v
theories/S_Transcode.v
theories/T_Unicode.v
theories/D_Ranges.v
theories/M_Bsearch.v
theories/S_Ranges.v
theories/P_Bsearch.v
theories/M_Filter.v
theories/P_Filter.v
theories/T_Filter.v
theories/M_GB18030.v
theories/S_GB18030.v
theories/P_GB18030.v
theories/T_GB18030.v
theories/M_Star.v
theories/M_Inter.v
theories/S_Inter.v
theories/P_Inter.v
theories/T_Inter.v
theories/M_Tool.v
theories/S_Tool.v
theories/P_Tool.v
theories/T_Tool.v
theories/M_Cwd.v
theories/T_Cwd.v
theories/M_Arena.v
theories/T_Arena.v
theories/M_Layout.v
theories/P_Layout.v
theories/P_Layout2.v
theories/P_Layout3.v
theories/P_Layout4.v
theories/T_Layout.v
theories/M_UDA.v
theories/M_Escape.v
theories/S_Rest.v
theories/P_Pair.v
theories/S_UDA.v
theories/P_UDA.v
theories/T_UDA.v
theories/P_Prefix.v
theories/S_Escape.v
theories/P_Escape.v
theories/P_Escape2.v
theories/T_Escape.v
theories/M_Norm.v
theories/M_Nfc.v
theories/S_Norm.v
theories/P_Norm.v
theories/T_Norm.v
theories/M_Rail.v
theories/P_Rail.v
theories/T_Rail.v
theories/M_Raw.v
theories/P_Raw.v
theories/M_Ebcdic.v
theories/S_Ebcdic.v
theories/P_Ebcdic.v
theories/P_Ebcdic2.v
theories/T_Ebcdic.v
theories/M_Notation.v
theories/S_Notation.v
theories/P_Notation.v
theories/T_Notation.v
theories/P_Tri.v
theories/T_Replace.v
theories/M_Stars.v
theories/S_Flow.v
theories/P_Flow.v
theories/P_Flow2.v
theories/P_Flow3.v
theories/P_Flow4.v
theories/P_Flow5.v
theories/T_Flow.v
theories/T_Flow2.v
theories/M_Fallback.v
theories/S_Fallback.v
theories/P_Fallback.v
theories/T_Fallback.v
theories/P_Machine.v
theories/M_Shift.v
theories/P_Shift.v
theories/P_Flow6.v
theories/T_Shift.v
theories/P_Byte.v
theories/M_Jis.v
theories/S_Jis.v
theories/T_Jis.v
theories/M_Strings.v
theories/S_Strings.v
theories/T_Strings.v
theories/M_Defrag.v
theories/S_Defrag.v
theories/T_Defrag.v
theories/P_Weak.v
theories/M_Stage.v
theories/S_Stage.v
theories/P_Stage.v
theories/T_Stage.v
theories/S_Nfc.v
theories/P_Nfc.v
theories/P_Nfc2.v
theories/D_Nf.v
theories/T_Nfc.v
theories/P_Count.v
theories/P_Count2.v
theories/M_Count.v
theories/S_Count.v
theories/P_Count3.v
theories/P_Count4.v
theories/M_SolveAlias.v
theories/S_SolveAlias.v
theories/P_SolveAlias.v
theories/T_Count.v
theories/T_SolveAlias.v
theories/T_Ucs2.v
theories/M_List.v
theories/S_List.v
theories/P_List.v
theories/T_List.v
theories/M_Writers.v
theories/S_Writers.v
theories/T_Writers.v
theories/M_Complete.v
theories/S_Complete.v
theories/T_Complete.v
theories/D_Bonus.v
theories/M_Bonus.v
theories/S_Bonus.v
theories/P_Bonus.v
theories/T_Bonus.v
theories/T_Escape2.v
theories/M_Train.v
theories/S_Train.v
theories/T_Train.v
theories/D_Charsets.v
theories/S_Pages.v
theories/S_Charsets.v
theories/M_Charsets.v
theories/T_Charsets.v
theories/T_Charsets2.v
