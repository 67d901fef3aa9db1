-Q theories Verif
theories/M_Base.v
theories/M_MultiMap.v
theories/M_Settings.v
theories/M_Reader.v
theories/M_Body.v
theories/M_Message.v
theories/M_Serve.v
theories/F_Base.v
theories/S_Stream.v
theories/S_MultiMap.v
theories/F_MultiMap.v
theories/F_MultiMapP.v
theories/F_Slots.v
theories/P_MultiMap.v
theories/F_Reader.v
theories/F_Flat.v
theories/S_Wire.v
theories/F_Head.v
theories/F_Accept.v
theories/F_HeadP.v
theories/F_HeadT.v
theories/S_Accept.v
theories/F_HeadA.v
theories/S_Examples.v
theories/F_HeadEx.v
theories/P_Head.v
theories/S_Body.v
theories/F_Body.v
theories/F_Chunk.v
theories/S_Conn.v
theories/F_Req.v
theories/F_Conn.v
theories/F_Extend.v
theories/F_Hello.v
theories/S_Resp.v
theories/F_Serialize.v
theories/F_Round.v
theories/F_Served.v
theories/F_History.v
theories/F_Decoded.v
theories/F_End.v
theories/F_Deletes.v
theories/F_Written.v
theories/S_Got.v
theories/F_Got.v
theories/F_Unamb.v
theories/P_End.v
theories/P_Body.v
theories/P_Conn.v
theories/P_Resp.v
theories/M_Units.v
theories/S_Units.v
theories/F_Units.v
theories/P_Units.v
theories/S_Config.v
theories/F_Settings.v
theories/P_Settings.v
theories/M_Paths.v
theories/S_Paths.v
theories/F_Paths.v
theories/M_LogConfig.v
theories/S_Text.v
theories/F_Text.v
theories/P_Text.v
theories/M_Config.v
theories/M_Item.v
theories/M_Consumer.v
theories/S_Log.v
theories/F_LogConfig.v
theories/S_Config2.v
theories/F_Config.v
theories/F_Consumer.v
theories/F_LogStart.v
theories/F_Item.v
theories/P_Config.v
theories/F_LogFiles.v
theories/S_LogPlace.v
theories/F_LogPlace.v
theories/P_Logging.v
theories/S_Json.v
theories/F_Render.v
theories/P_Render.v
theories/M_Calendar.v
theories/M_Luxon.v
theories/S_Luxon.v
theories/S_Calendar.v
theories/F_Calendar.v
theories/F_Luxon.v
theories/M_Files.v
theories/S_Files.v
theories/F_Files.v
theories/F_Rotation.v
theories/F_Due.v
theories/P_Files.v
theories/M_Dispatch.v
theories/S_Dispatch.v
theories/F_Dispatch.v
theories/P_Dispatch.v
theories/M_Main.v
theories/S_Main.v
theories/F_Main.v
theories/P_Main.v
theories/M_PerCore.v
theories/S_PerCore.v
theories/F_PerCore.v
theories/P_PerCore.v
theories/S_Ws.v
theories/F_Ws.v
theories/P_Ws.v
theories/M_Multi.v
theories/S_Multi.v
theories/F_Multi.v
theories/P_Multi.v
theories/S_Load.v
theories/F_Load.v
theories/M_Program.v
theories/P_Load.v
theories/M_Toml.v
theories/S_Toml.v
theories/F_Toml.v
theories/F_Toml2.v
theories/P_Toml.v
theories/M_Net.v
theories/S_Net.v
theories/F_Net.v
theories/P_Net.v
theories/M_Trace.v
theories/S_Trace.v
theories/F_Trace.v
theories/P_Trace.v
theories/S_Ends.v
theories/F_Ends.v
theories/P_Ends.v
theories/M_Coders.v
theories/S_Coders.v
theories/F_Coders.v
theories/P_Coders.v
theories/S_Http.v
theories/F_Http.v
theories/P_Http.v
theories/M_Strftime.v
theories/S_Strftime.v
theories/F_Strftime.v
theories/P_Calendar.v
theories/M_System.v
theories/S_System.v
theories/F_System.v
theories/P_System.v
theories/M_Listen.v
theories/S_Listen.v
theories/F_Listen.v
theories/P_Listen.v
theories/M_Console.v
theories/S_Console.v
theories/F_Console.v
theories/P_Console.v
theories/S_Lines.v
theories/F_Lines.v
theories/P_Lines.v
theories/M_Handshake.v
theories/S_Handshake.v
theories/F_Handshake.v
theories/P_Handshake.v
theories/M_Workdir.v
theories/S_Workdir.v
theories/F_Workdir.v
theories/P_Workdir.v
theories/S_Backlog.v
theories/F_Backlog.v
theories/P_Backlog.v
theories/M_Threads.v
theories/P_Threads.v
theories/S_LogDir.v
theories/P_LogDir.v
theories/S_Linger.v
theories/F_Linger.v
theories/P_Linger.v
theories/F_Growth.v
theories/P_Growth.v
theories/S_Upgrade.v
theories/F_Upgrade.v
theories/P_Upgrade.v
theories/S_Restart.v
theories/F_Restart.v
theories/P_Restart.v
theories/S_Arrange.v
theories/F_Arrange.v
theories/P_Arrange.v
theories/S_Spelling.v
theories/F_Spelling.v
theories/P_Spelling.v
theories/S_FieldOrder.v
theories/F_FieldOrder.v
theories/P_FieldOrder.v
