-Q theories Verif
theories/Base.v
theories/Codes.v
theories/Mss.v
theories/MssSpec.v
theories/MssProofs.v
theories/Props_Mss.v
theories/Frag.v
theories/FragSpec.v
theories/FragProofs.v
theories/ReasmProofs.v
theories/ReasmTable.v
theories/FragHistory.v
theories/Props_Frag.v
theories/Ctx.v
theories/Config.v
theories/Names.v
theories/Props_Names.v
theories/Props_Ctx.v
theories/Wire.v
theories/WireSpec.v
theories/WireProofs.v
theories/ConnState.v
theories/Conn.v
theories/ConnSpec.v
theories/HistSpec.v
theories/ConnSteps.v
theories/Hist.v
theories/ConnWp.v
theories/ConnWpTac.v
theories/ConnWpCore.v
theories/ConnWpPm.v
theories/ConnWpMsg.v
theories/ConnWpFlow.v
theories/ConnWpApi.v
theories/Frame.v
theories/Scenario.v
theories/Hist2.v
theories/Props_Auth.v
theories/Props_State.v
theories/Props_Safe.v
theories/MsgSpec.v
theories/Reaction.v
theories/Props_Msg.v
theories/CallSpec.v
theories/Seq.v
theories/SeqInside.v
theories/SeqOutside.v
theories/SeqReasm.v
theories/SeqMtu.v
theories/SeqApi.v
theories/Props_Data.v
theories/SeqLoop.v
theories/SeqPing.v
theories/Props_Size.v
theories/Props_Ping.v
theories/Props_Pmtu.v
theories/FrameLoop.v
theories/SeqWire.v
theories/Props_Wire.v
theories/SetProofs.v
theories/CredSpec.v
theories/Props_Set.v
theories/CredProofs.v
theories/CredServer.v
theories/Props_Cred.v
theories/Props_Connect.v
theories/ConfSpec.v
theories/ConfServer.v
theories/ConfClient.v
theories/Props_Conf.v
theories/PlugSpec.v
theories/SeqPlug.v
theories/Props_Plug.v
theories/ReadSpec.v
theories/Props_Read.v
theories/SessSpec.v
theories/Props_Session.v
theories/FatalSpec.v
theories/Props_Fatal.v
theories/Threads.v
theories/Props_Threads.v
theories/Props_Alone.v
theories/PmSpec.v
theories/SeqPm.v
theories/PmProofs.v
theories/Props_Search.v
theories/ReactServer.v
theories/Props_Server.v
theories/Heap.v
theories/HeapSpec.v
theories/HeapProofs.v
theories/HeapLife.v
theories/Props_Heap.v
theories/TimerSpec.v
theories/TimerProofs.v
theories/Props_Timer.v
theories/TlsSpec.v
theories/Props_Tls.v
theories/Start.v
theories/StartSpec.v
theories/Props_Start.v
theories/Client.v
theories/Props_Client.v
theories/TunnelSpec.v
theories/Honest.v
theories/TunnelProofs.v
theories/Props_Tunnel.v
theories/SslSpec.v
theories/Props_Ssl.v
theories/Props_Nudge.v
theories/Local.v
theories/LocalSpec.v
theories/Props_Local.v
theories/Stats.v
theories/StatsSpec.v
theories/StatsProofs.v
theories/Props_Stats.v
theories/Props_Root.v
theories/AgainSpec.v
theories/Props_Again.v
theories/Props_Retime.v
theories/QuerySpec.v
theories/Props_Query.v
theories/Getters.v
theories/Settings.v
theories/SettingsSpec.v
theories/Props_Settings.v
theories/AgreeSpec.v
theories/Props_Agree.v
theories/Alloc.v
theories/AllocSpec.v
theories/Props_Alloc.v
theories/MoveSpec.v
theories/Props_Move.v
theories/LoginSpec.v
theories/Props_Login.v
theories/RekeySpec.v
theories/Props_Rekey.v
theories/Props_Support.v
theories/DeepSpec.v
theories/Props_Deep.v
theories/Props_Creds.v
theories/Props_Heard.v
theories/Props_Keep.v
theories/DenySpec.v
theories/Props_Deny.v
theories/ReplySpec.v
theories/Props_Reply.v
