-Q theories Verif

theories/Base.v
theories/Buffer.v
theories/BufferProofs.v
theories/Properties_Buffer.v
theories/H2Frame.v
theories/H2FrameProofs.v
theories/Properties_H2Frame.v
theories/RbTree.v
theories/RbTreeProofs.v
theories/Properties_RbTree.v
theories/Bllist.v
theories/BllistProofs.v
theories/Alloc.v
theories/AllocProofs.v
theories/Properties_Alloc.v
theories/Machine.v
theories/CStr.v
theories/Names.v
theories/Status.v
theories/Mime.v
theories/NamesProofs.v
theories/Properties_Names.v
theories/AcceptEnc.v
theories/AcceptEncProofs.v
theories/Properties_AcceptEnc.v
theories/AcceptCL.v
theories/AcceptCLProofs.v
theories/Properties_AcceptCL.v
theories/AcceptMime.v
theories/AcceptMimeProofs.v
theories/Properties_AcceptMime.v
theories/HpackSpec.v
theories/Hpack.v
theories/HpackProofs.v
theories/Properties_Hpack.v
theories/Reqline.v
theories/ReqlineSpec.v
theories/ReqlineProofs.v
theories/Properties_Reqline.v
theories/CNum.v
theories/Header.v
theories/HeaderProofs.v
theories/Properties_Header.v
theories/Route.v
theories/RouteProofs.v
theories/Properties_Route.v
theories/EventTime.v
theories/EventTimeProofs.v
theories/Properties_EventTime.v
theories/Conf.v
theories/ConfProofs.v
theories/Properties_Conf.v
theories/Mount.v
theories/MountProofs.v
theories/Properties_Mount.v
theories/Cache.v
theories/CacheProofs.v
theories/Properties_Cache.v
theories/Log.v
theories/LogProofs.v
theories/Properties_Log.v
theories/H2Conn.v
theories/H2ConnProofs.v
theories/H2ConnLaws.v
theories/Properties_H2Conn.v
theories/H2Frag.v
theories/H2FragProofs.v
theories/Properties_H2Frag.v
theories/ReqFlow.v
theories/ReqFlowProofs.v
theories/ReqFlowLaws.v
theories/Properties_ReqFlow.v
theories/Encode.v
theories/EncodeProofs.v
theories/Properties_Encode.v
theories/Response.v
theories/ResponseProofs.v
theories/Properties_Response.v
theories/Master.v
theories/MasterProofs.v
theories/Properties_Master.v
theories/Multipart.v
theories/MultipartProofs.v
theories/Properties_Multipart.v
theories/PyBridge.v
theories/PyBridgeProofs.v
theories/Properties_PyBridge.v
theories/PyRoute.v
theories/PyRouteProofs.v
theories/Properties_PyRoute.v
theories/PyParse.v
theories/PyParseProofs.v
theories/Properties_PyParse.v
theories/Server.v
theories/ServerProofs.v
theories/Properties_Server.v
theories/H2Req.v
theories/H2ReqProofs.v
theories/H2ReqLaws.v
theories/Properties_H2Req.v
theories/Properties_Coded.v
theories/H2Write.v
theories/H2WriteProofs.v
theories/H2Resp.v
theories/H2RespProofs.v
theories/Properties_H2Write.v
theories/Properties_H2Resp.v
theories/Connect.v
theories/ConnectProofs.v
theories/Properties_Connect.v
theories/AccessLog.v
theories/AccessLogProofs.v
theories/Properties_AccessLog.v
theories/Watch.v
theories/WatchProofs.v
theories/WatchMoreProofs.v
theories/Properties_Watch.v
theories/HeaderNul.v
theories/Properties_HeaderNul.v
theories/CmdLine.v
theories/CmdLineProofs.v
theories/Properties_CmdLine.v
theories/H2Ack.v
theories/H2AckProofs.v
theories/Properties_H2Ack.v
theories/Daemon.v
theories/DaemonProofs.v
theories/Properties_Daemon.v
theories/H2Start.v
theories/H2StartProofs.v
theories/H2GoawayProofs.v
theories/Properties_H2Start.v
theories/H2Prio.v
theories/H2PrioProofs.v
theories/Properties_H2Prio.v
theories/Listen.v
theories/ListenProofs.v
theories/Properties_Listen.v
theories/LogInit.v
theories/LogInitProofs.v
theories/Properties_LogInit.v
theories/WorkerStart.v
theories/WorkerStartProofs.v
theories/Properties_WorkerStart.v
theories/Redirect.v
theories/RedirectProofs.v
theories/Properties_Redirect.v
theories/AppReload.v
theories/AppReloadProofs.v
theories/Properties_AppReload.v
theories/ErrLog.v
theories/ErrLogProofs.v
theories/Properties_ErrLog.v
theories/WorkerSig.v
theories/WorkerSigProofs.v
theories/Properties_WorkerSig.v
theories/SendFile.v
theories/SendFileProofs.v
theories/Properties_SendFile.v
theories/SigRestore.v
theories/SigRestoreProofs.v
theories/Properties_SigRestore.v
