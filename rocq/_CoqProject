-Q theories Verif
theories/M_Base.v
theories/L_Base.v
theories/M_Status.v
theories/M_Method.v
theories/M_Proto.v
theories/M_Uri.v
theories/M_KeyValue.v
theories/M_Query.v
theories/M_Request.v
theories/M_Parser.v
theories/S_Head.v
theories/S_Parser.v
theories/S_Limits.v
theories/S_Tokens.v
theories/L_Uri.v
theories/L_Parser.v
theories/L_Head.v
theories/L_Safe.v
theories/L_Tokens.v
theories/L_ParserProps.v
theories/P_Uri.v
theories/P_Parser.v
theories/S_KeyValue.v
theories/L_KeyValue.v
theories/M_KvHeap.v
theories/L_KvHeap.v
theories/P_KeyValue.v
theories/S_Query.v
theories/L_Query.v
theories/L_Query2.v
theories/P_Query.v
theories/M_Escape.v
theories/M_Address.v
theories/M_HeaderValue.v
theories/M_Coding.v
theories/M_Config.v
theories/M_CookieJar.v
theories/S_Values.v
theories/L_Values.v
theories/L_Tables.v
theories/P_Tables.v
theories/P_Values.v
theories/M_Client.v
theories/M_Body.v
theories/S_Body.v
theories/S_Chunk.v
theories/L_Body.v
theories/L_Body2.v
theories/L_Body3.v
theories/L_Chunk.v
theories/L_BodyProps.v
theories/P_Body.v
theories/M_Response.v
theories/M_Serializer.v
theories/M_Middleware.v
theories/S_Response.v
theories/L_Response.v
theories/L_Response2.v
theories/L_Response3.v
theories/L_Attach.v
theories/L_ResponseProps.v
theories/P_Response.v
theories/M_Suit.v
theories/S_Conn.v
theories/L_Conn.v
theories/L_Conn2.v
theories/L_Conn3.v
theories/L_ConnProps.v
theories/P_Conn.v
theories/M_Path.v
theories/M_Radix.v
theories/M_Router.v
theories/S_Routes.v
theories/S_Router.v
theories/L_Radix.v
theories/L_Radix2.v
theories/L_Path.v
theories/L_Router.v
theories/L_Router2.v
theories/L_Router3.v
theories/L_Router4.v
theories/L_Router5.v
theories/L_Router6.v
theories/L_RouterEx.v
theories/P_Routes.v
theories/L_Router7.v
theories/P_Router.v
theories/M_Static.v
theories/S_Static.v
theories/L_Static.v
theories/P_Static.v
theories/M_Virtual.v
theories/S_Virtual.v
theories/L_Virtual.v
theories/P_Virtual.v
theories/M_App.v
theories/S_App.v
theories/L_App.v
theories/P_App.v
theories/M_Server.v
theories/S_Server.v
theories/L_Server.v
theories/L_Server2.v
theories/P_Server.v
theories/M_Bundled.v
theories/S_Bundled.v
theories/L_Bundled.v
theories/P_Bundled.v
theories/L_ConnEnd.v
theories/P_ConnEnd.v
theories/S_Builder.v
theories/L_Builder.v
theories/P_Builder.v
theories/S_Split.v
theories/L_Split.v
theories/L_Refuse.v
theories/P_Split.v
theories/L_Over.v
theories/P_Over.v
theories/S_Serve.v
theories/L_Serve.v
theories/L_ServeEx.v
theories/P_Serve.v
theories/M_Tools.v
theories/S_Tools.v
theories/L_Tools.v
theories/L_ToolsEx.v
theories/P_Tools.v
theories/S_Iso.v
theories/L_Iso.v
theories/P_Iso.v
theories/S_Cut.v
theories/L_Cut.v
theories/P_Cut.v
theories/M_Json.v
theories/S_Json.v
theories/L_Json.v
theories/P_Json.v
theories/M_Mem.v
theories/S_Mem.v
theories/L_Mem.v
theories/M_MemSuit.v
theories/S_MemSuit.v
theories/L_MemSuit.v
theories/P_Mem.v
theories/S_Verdict.v
theories/L_Verdict.v
theories/L_VerdictConn.v
theories/P_Verdict.v
theories/M_Https.v
theories/S_Https.v
theories/L_Https.v
theories/L_Https2.v
theories/P_Https.v
theories/M_ServeHttp1.v
theories/M_Dummy.v
theories/S_ServeHttp1.v
theories/L_ServeHttp1.v
theories/P_ServeHttp1.v
theories/S_Fail.v
theories/L_Fail.v
theories/P_Fail.v
theories/S_VirtualServe.v
theories/L_VirtualServe.v
theories/P_VirtualServe.v
theories/S_Upgrade.v
theories/L_Upgrade.v
theories/S_UpgradeServe.v
theories/P_Upgrade.v
theories/M_Words.v
theories/S_Words.v
theories/L_Words.v
theories/P_Words.v
theories/M_Resource.v
theories/S_Resource.v
theories/L_Resource.v
theories/P_Resource.v
theories/M_Errors.v
theories/S_Errors.v
theories/L_Errors.v
theories/P_Errors.v
theories/M_Examples.v
theories/S_Examples.v
theories/L_Examples.v
theories/L_Examples2.v
theories/P_Examples.v
theories/S_Exact.v
theories/S_ToolParse.v
theories/L_Exact.v
theories/L_ToolParse.v
theories/P_Exact.v
theories/S_Files.v
theories/L_Files.v
theories/L_Files2.v
theories/P_Files.v
theories/L_Loose.v
theories/S_Exact2.v
theories/L_Exact2.v
theories/L_Exact3.v
theories/P_Exact2.v
theories/M_Life.v
theories/S_Life.v
theories/L_Life.v
theories/P_Life.v
theories/M_Many.v
theories/S_Many.v
theories/L_Many.v
theories/P_Many.v
theories/M_RespMem.v
theories/S_RespMem.v
theories/L_RespMem.v
theories/P_RespMem.v
theories/M_Started.v
theories/S_Started.v
theories/L_Started.v
theories/P_Started.v
theories/M_Modes.v
theories/S_Modes.v
theories/L_Modes.v
theories/P_Modes.v
theories/S_Templates.v
theories/L_Templates.v
theories/S_Whose.v
theories/L_Exact4.v
theories/P_Exact3.v
theories/M_Descr.v
theories/S_Descr.v
theories/L_Descr.v
theories/P_Descr.v
theories/M_Timed.v
theories/S_Timed.v
theories/L_Timed.v
theories/P_Timed.v
theories/M_Overlap.v
theories/S_Overlap.v
theories/L_Overlap.v
theories/P_Overlap.v
theories/S_Arrive.v
theories/L_Arrive.v
theories/L_Arrive2.v
theories/L_Arrive3.v
theories/L_Arrive4.v
theories/L_Arrive5.v
theories/L_Arrive6.v
theories/L_Arrive7.v
theories/P_Arrive.v
theories/L_ArriveConn.v
theories/P_ArriveConn.v
theories/S_Dump.v
theories/L_Dump.v
theories/P_Dump.v
theories/S_Talk.v
theories/L_Talk.v
theories/L_Talk2.v
theories/L_Talk3.v
theories/L_Talk4.v
theories/P_Talk.v
theories/S_Dirs.v
theories/L_Dirs.v
theories/P_Dirs.v
theories/S_Missing.v
theories/L_Missing.v
theories/L_Missing2.v
theories/L_Talk5.v
theories/S_Sync.v
theories/L_Sync.v
theories/P_Sync.v
theories/S_Ends.v
theories/L_Ends.v
theories/P_Ends.v
theories/S_Broken.v
theories/L_Broken.v
theories/L_Broken2.v
theories/L_Serve2.v
theories/M_Time.v
theories/S_Agent.v
theories/L_Time.v
theories/L_Time2.v
theories/L_Time3.v
theories/L_Agent.v
theories/L_Agent2.v
theories/L_AgentEx.v
theories/P_Agent.v
theories/L_KvHeap2.v
theories/L_Time4.v
theories/S_Hears.v
theories/L_Hears.v
theories/L_HearsEx.v
theories/P_Hears.v
theories/L_Framed.v
theories/L_Hears2.v
theories/L_ChunkExact.v
theories/L_CookieExact.v
theories/L_ErrExact.v
theories/L_Mutators.v
theories/L_Static2.v
theories/L_Static3.v
theories/L_StatusLine.v
theories/L_Tables2.v
theories/L_Time5.v
theories/P_Mutators.v
theories/S_Line.v
theories/S_Mutators.v
theories/S_Static2.v
theories/S_Crash.v
theories/L_Crash.v
theories/L_Crash2.v
theories/P_Crash.v
theories/S_Stale.v
theories/L_Stale.v
theories/P_Stale.v
theories/S_Mutated.v
theories/L_Mutated.v
theories/P_Mutated.v
theories/S_Unversioned.v
theories/S_Guarded.v
theories/L_Guarded.v
theories/P_Guarded.v
theories/S_MutTalk.v
theories/L_MutTalk.v
theories/P_MutTalk.v
theories/S_Takeover.v
theories/L_Takeover.v
theories/L_Takeover2.v
theories/S_Takeover2.v
theories/L_Takeover3.v
theories/P_Takeover.v
theories/S_Tree.v
theories/P_Tree.v
theories/S_TakeTalk.v
theories/L_TakeTalk.v
theories/P_TakeTalk.v
theories/L_Again.v
theories/P_Again.v
theories/S_Dummy.v
theories/P_Dummy.v
theories/P_AnyRoutes.v
theories/S_Frail.v
theories/L_Frail.v
theories/P_Frail.v
theories/P_Options.v
theories/S_Recovered.v
theories/L_Recovered.v
theories/P_Recovered.v
theories/S_Around.v
theories/L_Around.v
theories/L_Around2.v
theories/P_Around.v
theories/P_Combined.v
