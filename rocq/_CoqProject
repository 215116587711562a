-Q theories Verif
theories/Align_Model.v
theories/Align_Proofs.v
theories/Alloc_Model.v
theories/ArpPkt_Cex.v
theories/ArpPkt_Model.v
theories/ArpPkt_Proofs.v
theories/ArpPkt_Spec.v
theories/Atoi_Model.v
theories/Atoi_Proofs.v
theories/Atoi_Spec.v
theories/Base.v
theories/Checksum_Model.v
theories/Checksum_Proofs.v
theories/Checksum_Spec.v
theories/Cli_Cex.v
theories/Cli_Comp.v
theories/Cli_Means.v
theories/Cli_Model.v
theories/Cli_More.v
theories/Cli_Proofs.v
theories/Cli_Search.v
theories/Cli_Spec.v
theories/Comm_Model.v
theories/Comm_Proofs.v
theories/Comm_Spec.v
theories/Dhcp6Send_Cex.v
theories/Dhcp6Send_Model.v
theories/Dhcp6Send_Msg.v
theories/Dhcp6Send_Opts.v
theories/Dhcp6Send_Proofs.v
theories/Dhcp6Send_Run.v
theories/Dhcp6Send_Spec.v
theories/Dhcp6_Cex.v
theories/Dhcp6_Ia.v
theories/Dhcp6_Model.v
theories/Dhcp6_More.v
theories/Dhcp6_Msg.v
theories/Dhcp6_Proofs.v
theories/Dhcp6_Spec.v
theories/DhcpClient_Model.v
theories/DhcpClient_Proofs.v
theories/DhcpClient_Spec.v
theories/DhcpMain_Cex.v
theories/DhcpMain_If.v
theories/DhcpMain_Model.v
theories/DhcpMain_Proofs.v
theories/DhcpMain_Run.v
theories/DhcpMain_Spec.v
theories/DhcpOpt_Model.v
theories/DhcpOpt_Proofs.v
theories/DhcpOpt_Spec.v
theories/DhcpRaw_Model.v
theories/DhcpRaw_Proofs.v
theories/DhcpRaw_Spec.v
theories/DhcpRenew_Proofs.v
theories/DhcpRenew_Spec.v
theories/DhcpServer_Model.v
theories/DhcpServer_More.v
theories/DhcpServer_Proofs.v
theories/DhcpServer_Send.v
theories/DhcpServer_Spec.v
theories/DhcpTalk_Lease.v
theories/DhcpTalk_Model.v
theories/DhcpTalk_Proofs.v
theories/DhcpTalk_Read.v
theories/DhcpTalk_Spec.v
theories/DhcpVal_Model.v
theories/DhcpVal_Proofs.v
theories/DhcpVal_Spec.v
theories/Dlist_Model.v
theories/Dlist_Proofs.v
theories/Dlist_Spec.v
theories/Groups_Model.v
theories/Groups_Proofs.v
theories/Groups_Spec.v
theories/Host_Model.v
theories/Host_Proofs.v
theories/Host_Spec.v
theories/Htable_Bits.v
theories/Htable_Model.v
theories/Htable_Proofs.v
theories/Htable_Spec.v
theories/Htable_Term.v
theories/IpRun_Model.v
theories/IpRun_Proofs.v
theories/IpRun_Spec.v
theories/Ipv4ll_Model.v
theories/Ipv4ll_Proofs.v
theories/Ipv4ll_Spec.v
theories/LinkLocal_Model.v
theories/LinkLocal_Proofs.v
theories/LinkLocal_Spec.v
theories/Link_Cex.v
theories/Link_Model.v
theories/Link_Names.v
theories/Link_Proofs.v
theories/Link_Spec.v
theories/Log_Model.v
theories/Log_Proofs.v
theories/Log_Spec.v
theories/Map_Model.v
theories/Map_Proofs.v
theories/Map_Spec.v
theories/Match_Model.v
theories/Match_Proofs.v
theories/Match_Spec.v
theories/Mirror_Client.v
theories/Mirror_Model.v
theories/Mirror_More.v
theories/Mirror_Proofs.v
theories/Mirror_Spec.v
theories/Mkdir_Cex.v
theories/Mkdir_Model.v
theories/Mkdir_Proofs.v
theories/Mkdir_Run.v
theories/Mkdir_Sound.v
theories/Mkdir_Spec.v
theories/P_Align.v
theories/P_ArpPkt.v
theories/P_Atoi.v
theories/P_Checksum.v
theories/P_Cli.v
theories/P_Comm.v
theories/P_Dhcp6.v
theories/P_Dhcp6Send.v
theories/P_DhcpClient.v
theories/P_DhcpMain.v
theories/P_DhcpOpt.v
theories/P_DhcpRaw.v
theories/P_DhcpRenew.v
theories/P_DhcpServer.v
theories/P_DhcpTalk.v
theories/P_DhcpVal.v
theories/P_Dlist.v
theories/P_Groups.v
theories/P_Host.v
theories/P_Htable.v
theories/P_IpRun.v
theories/P_Ipv4ll.v
theories/P_Link.v
theories/P_LinkLocal.v
theories/P_Log.v
theories/P_Map.v
theories/P_Match.v
theories/P_Mirror.v
theories/P_Mkdir.v
theories/P_Paths.v
theories/P_PeerSig.v
theories/P_Prov.v
theories/P_Qstr.v
theories/P_Ratelimit.v
theories/P_Reap.v
theories/P_Ref.v
theories/P_Ring.v
theories/P_RtspBus.v
theories/P_RtspMsg.v
theories/P_RtspParser.v
theories/P_RtspRaw.v
theories/P_RtspRead.v
theories/P_RtspWire.v
theories/P_Settings.v
theories/P_Setup.v
theories/P_Sink.v
theories/P_SinkConn.v
theories/P_SinkCtl.v
theories/P_Spawn.v
theories/P_Split.v
theories/P_SrvLife.v
theories/P_Super.v
theories/P_Uibc.v
theories/P_UibcMain.v
theories/P_Wfd.v
theories/P_Wifid.v
theories/P_Wire.v
theories/P_WpasBus.v
theories/P_WpasMsg.v
theories/P_WpasSock.v
theories/Paths_Cex.v
theories/Paths_Model.v
theories/Paths_Proofs.v
theories/Paths_Spec.v
theories/PeerSig_Model.v
theories/PeerSig_Proofs.v
theories/PeerSig_Spec.v
theories/Prov_Cex.v
theories/Prov_Model.v
theories/Prov_Proofs.v
theories/Prov_Run.v
theories/Prov_Sound.v
theories/Prov_Spec.v
theories/Prov_Watch.v
theories/Qstr_Mem.v
theories/Qstr_Model.v
theories/Qstr_Proofs.v
theories/Ratelimit_Model.v
theories/Ratelimit_Proofs.v
theories/Ratelimit_Spec.v
theories/Reap_Model.v
theories/Reap_Proofs.v
theories/Reap_Spec.v
theories/Ref_Model.v
theories/Ref_Proofs.v
theories/Ref_Spec.v
theories/Ring_Model.v
theories/Ring_Proofs.v
theories/Ring_Sim.v
theories/Ring_Spec.v
theories/RtspBuilt_Proofs.v
theories/RtspBus_Model.v
theories/RtspBus_Proofs.v
theories/RtspBus_Spec.v
theories/RtspMsg_Model.v
theories/RtspMsg_Proofs.v
theories/RtspMsg_Spec.v
theories/RtspParser_Frame.v
theories/RtspParser_Model.v
theories/RtspParser_Proofs.v
theories/RtspParser_Spec.v
theories/RtspRaw_Proofs.v
theories/RtspRead_Cex.v
theories/RtspRead_Model.v
theories/RtspRead_Proofs.v
theories/RtspRead_Spec.v
theories/RtspRecv_Proofs.v
theories/RtspSafe_Proofs.v
theories/RtspSeal_Proofs.v
theories/RtspSend_Proofs.v
theories/RtspText_Proofs.v
theories/RtspWire_Proofs.v
theories/RtspWire_Spec.v
theories/Settings_Cex.v
theories/Settings_Model.v
theories/Settings_Num.v
theories/Settings_Player.v
theories/Settings_Proofs.v
theories/Settings_Spec.v
theories/Setup_Model.v
theories/Setup_Proofs.v
theories/Setup_Spec.v
theories/SinkConn_Model.v
theories/SinkConn_Proofs.v
theories/SinkConn_Spec.v
theories/SinkCtl_Model.v
theories/SinkCtl_More.v
theories/SinkCtl_Players.v
theories/SinkCtl_Proofs.v
theories/SinkCtl_Scans.v
theories/SinkCtl_Spec.v
theories/SinkCtl_Steady.v
theories/Sink_Cases.v
theories/Sink_Model.v
theories/Sink_Proofs.v
theories/Sink_Refuted.v
theories/Sink_Spec.v
theories/Spawn_Cex.v
theories/Spawn_Model.v
theories/Spawn_Proofs.v
theories/Spawn_Spec.v
theories/Split_Model.v
theories/Split_Proofs.v
theories/Split_Spec.v
theories/SrvLife_Cex.v
theories/SrvLife_Model.v
theories/SrvLife_Proofs.v
theories/SrvLife_Spec.v
theories/Super_Ends.v
theories/Super_Model.v
theories/Super_More.v
theories/Super_Proofs.v
theories/Super_Rate.v
theories/Super_Spec.v
theories/Text.v
theories/Text_Proofs.v
theories/UibcMain_Cex.v
theories/UibcMain_Model.v
theories/UibcMain_Player.v
theories/UibcMain_Proofs.v
theories/UibcMain_Spec.v
theories/Uibc_Model.v
theories/Uibc_Proofs.v
theories/Uibc_Spec.v
theories/Wfd_Model.v
theories/Wfd_Proofs.v
theories/Wfd_Spec.v
theories/Wifid_Model.v
theories/Wifid_Proofs.v
theories/Wifid_Spec.v
theories/Wire_Cex.v
theories/Wire_Model.v
theories/Wire_Proofs.v
theories/Wire_Spec.v
theories/Wire_Text.v
theories/WpasBus_Model.v
theories/WpasBus_Proofs.v
theories/WpasBus_Spec.v
theories/WpasMsg_Model.v
theories/WpasMsg_Proofs.v
theories/WpasMsg_Spec.v
theories/WpasSock_Model.v
theories/WpasSock_More.v
theories/WpasSock_Proofs.v
theories/WpasSock_Spec.v
