-Q theories Verif
theories/Base.v
theories/M_Const.v
theories/M_Disk.v
theories/M_Tree.v
theories/M_Raw.v
theories/M_Setup.v
theories/L_Wp.v
theories/L_Raw.v
theories/S_Wire.v
theories/S_Disk.v
theories/L_Wire.v
theories/L_Req.v
theories/L_Plain.v
theories/L_Session.v
theories/L_Setup.v
theories/L_PlainS.v
theories/L_Gen.v
theories/L_Frame.v
theories/L_Props.v
theories/S_Tree.v
theories/L_Tree.v
theories/S_Cow.v
theories/L_Cow.v
theories/L_CowS.v
theories/L_CowP.v
theories/L_CowU.v
theories/S_Crash.v
theories/L_Crash.v
theories/L_Dur.v
theories/L_DurS.v
theories/X_Demo.v
theories/P_Plain.v
theories/P_Tree.v
theories/P_Cow.v
theories/P_Dur.v
theories/M_Io.v
theories/S_Io.v
theories/L_Io.v
theories/M_Ring.v
theories/S_Ring.v
theories/L_Ring.v
theories/L_Proxy.v
theories/M_Acl.v
theories/S_Acl.v
theories/L_Acl.v
theories/L_AclFile.v
theories/P_Io.v
theories/P_Ring.v
theories/P_Acl.v
theories/M_Nego.v
theories/S_Nego.v
theories/L_Nego.v
theories/L_NegoTls.v
theories/L_NegoServe.v
theories/L_NegoLoop.v
theories/L_NegoOpt.v
theories/P_Nego.v
theories/M_Par.v
theories/L_Par.v
theories/S_Par.v
theories/S_Run.v
theories/L_Msg.v
theories/L_LogMsg.v
theories/L_Sched.v
theories/L_SchedC.v
theories/L_SchedL.v
theories/L_SchedF.v
theories/L_Sent.v
theories/L_ParP.v
theories/P_Par.v
theories/S_Byte.v
theories/L_Byte.v
theories/L_Fin.v
theories/L_ByteS.v
theories/P_Byte.v
theories/M_Multi.v
theories/S_Multi.v
theories/L_Got.v
theories/M_Conf.v
theories/M_Root.v
theories/S_Root.v
theories/S_Conf.v
theories/L_Conf.v
theories/L_Root.v
theories/P_Root.v
theories/M_Log.v
theories/S_Log.v
theories/L_Log.v
theories/L_LogP.v
theories/P_Log.v
theories/M_Client.v
theories/S_Client.v
theories/L_Client.v
theories/L_ClientGo.v
theories/L_ClientP.v
theories/P_Client.v
theories/S_Inter.v
theories/L_Inter.v
theories/L_InterP.v
theories/P_Inter.v
theories/M_Virt.v
theories/S_Virt.v
theories/L_Virt.v
theories/L_VirtP.v
theories/P_Virt.v
theories/M_Tab.v
theories/S_Tab.v
theories/L_Tab.v
theories/L_TabP.v
theories/P_Tab.v
theories/M_Wait.v
theories/S_Wait.v
theories/L_Wait.v
theories/L_WaitS.v
theories/L_WaitR.v
theories/L_WaitP.v
theories/P_Wait.v
theories/L_Multi.v
theories/L_FlushC.v
theories/L_One.v
theories/L_FlushM.v
theories/P_Multi.v
theories/M_Main.v
theories/S_Main.v
theories/L_Main.v
theories/L_Main2.v
theories/L_Main3.v
theories/L_Main4.v
theories/P_Main.v
theories/M_Dev.v
theories/S_Dev.v
theories/L_Dev.v
theories/L_Dev2.v
theories/P_Dev.v
theories/M_Hook.v
theories/S_Hook.v
theories/L_Hook.v
theories/P_Hook.v
theories/M_Fds.v
theories/S_Fds.v
theories/L_Fds.v
theories/P_Fds.v
theories/M_TreeMulti.v
theories/S_TreeMulti.v
theories/L_TreeMulti.v
theories/L_TreeAny.v
theories/P_TreeMulti.v
theories/M_Tls.v
theories/S_Tls.v
theories/L_Tls.v
theories/P_Tls.v
theories/M_Sig.v
theories/S_Sig.v
theories/L_Sig.v
theories/P_Sig.v
theories/M_Stat.v
theories/S_Stat.v
theories/L_Stat.v
theories/P_Stat.v
theories/M_Play.v
theories/S_Play.v
theories/L_Play.v
theories/P_Play.v
theories/P_LogTree.v
theories/S_Leak.v
theories/L_Rel.v
theories/L_RelP.v
theories/L_FrameP.v
theories/L_Own.v
theories/P_Own.v
theories/P_Leak.v
theories/S_Num.v
theories/L_Num.v
theories/P_Num.v
theories/M_Conn.v
theories/S_Conn.v
theories/L_Opens.v
theories/L_Conn.v
theories/P_Conn.v
theories/M_Crowd.v
theories/S_Crowd.v
theories/L_FrameT.v
theories/L_Crowd.v
theories/P_Crowd.v
theories/M_TreeName.v
theories/S_TreeName.v
theories/L_TreeName.v
theories/P_TreeName.v
theories/M_Err.v
theories/S_Err.v
theories/L_Err.v
theories/P_Err.v
theories/M_WaitMulti.v
theories/S_WaitMulti.v
theories/L_WaitMulti.v
theories/P_WaitMulti.v
theories/M_TreeSync.v
theories/S_TreeSync.v
theories/L_TreeSync.v
theories/P_TreeSync.v
theories/M_TreeFail.v
theories/S_TreeFail.v
theories/L_TreeFail.v
theories/L_TreePage.v
theories/P_TreeFail.v
theories/L_LogCow.v
theories/P_LogCow.v
theories/M_DumpText.v
theories/S_DumpText.v
theories/L_DumpText.v
theories/P_DumpText.v
theories/M_PlayText.v
theories/S_PlayText.v
theories/L_PlayText.v
theories/P_PlayText.v
theories/S_PlayWhy.v
theories/L_PlayWhy.v
theories/P_PlayWhy.v
theories/M_Huge.v
theories/S_Huge.v
theories/L_Huge.v
theories/P_Huge.v
theories/M_Size.v
theories/S_Size.v
theories/P_Size.v
theories/P_Suite.v
theories/M_LogShare.v
theories/S_LogShare.v
theories/L_LogShare.v
theories/P_LogShare.v
theories/M_LogReq.v
theories/P_LogReq.v
theories/M_Pipe.v
theories/S_Pipe.v
theories/L_Pipe.v
theories/P_Pipe.v
