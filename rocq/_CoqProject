-Q theories Verif
theories/M_KBase.v
theories/S_KBase.v
theories/L_KBase.v
theories/L_KBase2.v
theories/P_KPrim.v
theories/M_KIo.v
theories/S_KIo.v
theories/L_KIo.v
theories/P_KIo.v
theories/M_KFields.v
theories/S_KFields.v
theories/L_KFields.v
theories/P_KFields.v
theories/M_KRecords.v
theories/L_KLoc.v
theories/S_KRecords.v
theories/L_KRecords.v
theories/L_KBatch.v
theories/P_KRecords.v
theories/M_KSchema.v
theories/M_KSchemas.v
theories/M_KMsg.v
theories/S_KSchema.v
theories/L_KSchema.v
theories/L_KSize.v
theories/L_KSchLoc.v
theories/S_KMsg.v
theories/L_KMsg.v
theories/L_KDone.v
theories/P_KSchema.v
theories/M_GoMap.v
theories/M_Ads.v
theories/L_GoMap.v
theories/S_Ads.v
theories/L_Ads.v
theories/L_AdsClient.v
theories/P_Ads.v
theories/M_AdsRoute.v
theories/S_AdsRoute.v
theories/P_AdsRoute.v
theories/M_AdsLb.v
theories/L_AdsLb.v
theories/P_AdsStats.v
theories/P_AdsLb.v
theories/L_Float.v
theories/L_Float2.v
theories/L_Float3.v
theories/L_Float4.v
theories/L_Float5.v
theories/L_Float6.v
theories/P_AdsLbF.v
theories/P_AdsLbF2.v
theories/P_AdsLbF3.v
theories/M_AdsWatch.v
theories/P_AdsWatch.v
theories/M_Pool.v
theories/P_Pool.v
theories/M_Registry.v
theories/P_Registry.v
theories/M_Tunnel.v
theories/P_Tunnel.v
theories/P_TunnelConn.v
theories/M_Net.v
theories/P_Net.v
theories/M_GoStr.v
theories/L_GoStr.v
theories/M_Matcher.v
theories/P_Matcher.v
theories/M_Verify.v
theories/P_Verify.v
theories/M_Dotn.v
theories/P_Dotn.v
theories/M_WasmTcp.v
theories/P_WasmTcp.v
theories/M_WasmMap.v
theories/P_WasmMap.v
theories/M_WasmPlugin.v
theories/P_WasmPlugin.v
theories/M_WasmMetrics.v
theories/P_WasmMetrics.v
theories/M_Identity.v
theories/P_Identity.v
theories/M_Ca.v
theories/P_Ca.v
theories/M_AdsProps.v
theories/S_AdsProps.v
theories/P_AdsProps.v
theories/M_Dial.v
theories/P_Dial.v
theories/M_Serve.v
theories/P_Serve.v
theories/M_Endpoints.v
theories/P_Endpoints.v
theories/P_KTight.v
theories/M_PiiFilter.v
theories/S_PiiFilter.v
theories/L_PiiFilter.v
theories/P_PiiFilter.v
theories/M_WgToken.v
theories/P_WgToken.v
theories/M_HeimdallSrv.v
theories/P_HeimdallSrv.v
theories/M_PodMutator.v
theories/P_PodMutator.v
theories/P_Ads2.v
theories/P_AdsLb2.v
theories/P_AdsWatch2.v
theories/P_AdsWatch3.v
theories/P_Tunnel2.v
theories/M_TlsWrap.v
theories/P_TlsWrap.v
theories/P_KTight2.v
theories/P_Tight3.v
theories/P_Ads3.v
theories/M_Regex.v
theories/S_Regex.v
theories/L_Regex.v
theories/M_Pii.v
theories/P_Pii.v
theories/M_StatTags.v
theories/P_StatTags.v
theories/M_Integration.v
theories/P_Integration.v
theories/P_Tight4.v
theories/M_WasmHttp.v
theories/P_WasmHttp.v
theories/P_WasmHttp2.v
theories/P_WasmHttp3.v
theories/P_WasmHttp4.v
theories/L_Lang.v
theories/S_PiiKinds.v
theories/P_PiiKinds.v
theories/P_StatTags2.v
theories/P_Tight5.v
theories/M_EnvoyProps.v
theories/P_EnvoyProps.v
theories/P_EnvoyProps2.v
theories/P_EnvoyProps3.v
theories/P_EnvoyProps4.v
theories/P_EnvoyProps5.v
theories/P_EnvoyProps6.v
theories/M_Proxy.v
theories/P_Proxy.v
theories/M_ConnState.v
theories/P_ConnState.v
theories/M_GrpcCall.v
theories/P_GrpcCall.v
theories/M_JavaNio.v
theories/P_JavaNio.v
theories/P_JavaNio2.v
theories/M_TunnelCtl.v
theories/P_TunnelCtl.v
theories/M_KGzip.v
theories/P_KGzip.v
theories/M_PyBind.v
theories/P_PyBind.v
theories/M_IstioCfg.v
theories/P_IstioCfg.v
theories/M_CaClient.v
theories/P_CaClient.v
theories/M_PeerNode.v
theories/P_PeerNode.v
theories/M_Ticker.v
theories/P_Ticker.v
theories/M_BifrostClient.v
theories/P_BifrostClient.v
theories/M_Certifier.v
theories/P_Certifier.v
theories/M_Context.v
theories/P_Context.v
theories/M_KGen.v
theories/M_KSpecs.v
theories/P_KGen.v
theories/M_KRune.v
theories/P_KRune.v
theories/M_AdsShares.v
theories/P_AdsShares.v
theories/P_KGen2.v
theories/P_Tight15.v
theories/M_DataSource.v
theories/P_DataSource.v
theories/M_Pusher.v
theories/P_Pusher.v
theories/M_AdsConn.v
theories/P_AdsConn.v
theories/P_Tight16.v
theories/M_Run.v
theories/P_Run.v
theories/P_Tight17.v
theories/P_Tight18.v
theories/M_PortMap.v
theories/P_PortMap.v
theories/P_Tight19.v
theories/P_Tight20.v
theories/M_DotnConc.v
theories/P_DotnConc.v
