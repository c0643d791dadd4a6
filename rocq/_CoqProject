-Q theories Verif
theories/Base.v
theories/M_Node4D.v
theories/S_Node4D.v
theories/P_Node4D.v
theories/T_Node4D.v
theories/M_Pat.v
theories/S_Pat.v
theories/P_Pat.v
theories/T_Pat.v
theories/M_Str.v
theories/S_Str.v
theories/P_Str.v
theories/T_Str.v
theories/M_Mem.v
theories/S_Mem.v
theories/P_Mem.v
theories/T_Mem.v
theories/M_Fs.v
theories/P_Fs.v
theories/M_Cfg.v
theories/M_Pkt.v
theories/S_Pkt.v
theories/P_Pkt.v
theories/T_Pkt.v
theories/M_Crc.v
theories/P_Crc.v
theories/M_Dupe.v
theories/S_Dupe.v
theories/P_Dupe.v
theories/T_Dupe.v
theories/M_Echo.v
theories/S_Echo.v
theories/P_Echo.v
theories/T_Echo.v
theories/M_Expr.v
theories/S_Expr.v
theories/P_Expr.v
theories/T_Expr.v
theories/M_Filter.v
theories/S_Filter.v
theories/P_Filter.v
theories/T_Filter.v
theories/M_Net.v
theories/S_Net.v
theories/P_Net.v
theories/T_Net.v
theories/M_Out.v
theories/S_Out.v
theories/P_Out.v
theories/T_Out.v
theories/M_Toss.v
theories/M_Upd.v
theories/S_Toss.v
theories/P_Toss.v
theories/P_Arch.v
theories/P_Run.v
theories/T_Toss.v
theories/S_Loop.v
theories/T_Loop.v
theories/M_JamCrc.v
theories/S_Crc.v
theories/T_Crc.v
theories/M_List.v
theories/S_List.v
theories/P_List.v
theories/T_List.v
theories/T_Order.v
theories/M_Packer.v
theories/S_Packer.v
theories/T_Packer.v
theories/M_Stats.v
theories/S_Stats.v
theories/T_Stats.v
theories/M_Jam.v
theories/S_Jam.v
theories/P_Jam.v
theories/T_Jam.v
theories/M_JamMaint.v
theories/S_JamMaint.v
theories/P_JamMaint.v
theories/T_JamMaint.v
theories/M_Link.v
theories/S_Link.v
theories/P_Link.v
theories/T_Link.v
theories/M_Areafix.v
theories/S_Areafix.v
theories/P_Areafix.v
theories/T_Areafix.v
theories/M_Msg.v
theories/S_Msg.v
theories/P_Msg.v
theories/P_MsgText.v
theories/P_MsgScan.v
theories/T_Msg.v
theories/M_MsgMaint.v
theories/S_MsgMaint.v
theories/P_MsgMaint.v
theories/T_MsgMaint.v
theories/M_JamMb.v
theories/S_JamMb.v
theories/P_JamMb.v
theories/T_JamMb.v
theories/M_Nl.v
theories/S_Nl.v
theories/T_Nl.v
theories/S_Upd.v
theories/P_UpdTok.v
theories/P_UpdBlk.v
theories/P_UpdNode.v
theories/P_UpdArea.v
theories/P_UpdCls.v
theories/P_UpdSim.v
theories/T_Upd.v
theories/S_JamBack.v
theories/P_JamBack.v
theories/P_JamImp.v
theories/T_JamBack.v
theories/M_LastRead.v
theories/S_LastRead.v
theories/P_LastRead.v
theories/T_LastRead.v
theories/M_Args.v
theories/S_Args.v
theories/P_Args.v
theories/T_Args.v
theories/M_Main.v
theories/S_Main.v
theories/P_Main.v
theories/T_Main.v
theories/M_Date.v
theories/S_Date.v
theories/P_Date.v
theories/T_Date.v
theories/M_Base.v
theories/S_Base.v
theories/P_Base.v
theories/T_Base.v
theories/M_Scan.v
theories/S_Scan.v
theories/P_Scan.v
theories/T_Scan.v
theories/M_V7.v
theories/S_V7.v
theories/P_V7.v
theories/T_V7.v
theories/M_Write.v
theories/S_Write.v
theories/P_Write.v
theories/T_Write.v
theories/M_Export.v
theories/S_Export.v
theories/P_Export.v
theories/T_Export.v
theories/M_AfList.v
theories/S_AfList.v
theories/P_AfList.v
theories/T_AfList.v
theories/M_ListOut.v
theories/S_ListOut.v
theories/P_ListOut.v
theories/T_ListOut.v
theories/M_GetNode.v
theories/S_GetNode.v
theories/P_GetNode.v
theories/T_GetNode.v
theories/M_StatRep.v
theories/S_StatRep.v
theories/P_StatRep.v
theories/T_StatRep.v
theories/M_CfgChk.v
theories/S_CfgChk.v
theories/T_CfgChk.v
theories/M_Rfc.v
theories/S_Rfc.v
theories/T_Rfc.v
theories/M_Maint.v
theories/S_Maint.v
theories/P_Maint.v
theories/T_Maint.v
theories/M_Settings.v
theories/S_Settings.v
theories/P_Settings.v
theories/P_Settings2.v
theories/P_Settings3.v
theories/T_Settings.v
theories/M_AddArea.v
theories/S_AddArea.v
theories/P_AddArea.v
theories/T_AddArea.v
theories/M_Attach.v
theories/S_Attach.v
theories/P_Attach.v
theories/T_Attach.v
theories/M_Cmd.v
theories/S_Cmd.v
theories/P_Cmd.v
theories/T_Cmd.v
theories/M_Info.v
theories/S_Info.v
theories/T_Info.v
theories/M_Log.v
theories/S_Log.v
theories/T_Log.v
theories/M_AfText.v
theories/S_AfText.v
theories/T_AfText.v
