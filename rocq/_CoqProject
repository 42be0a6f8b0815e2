-Q theories Verif
theories/Base.v
theories/Fifo.v
theories/FifoProofs.v
theories/FifoPush.v
theories/FifoMore.v
theories/FifoSpec.v
theories/FifoHist.v
theories/FifoProps.v
theories/Seq.v
theories/SeqProps.v
theories/Queue.v
theories/QueueProofs.v
theories/QueueProps.v
theories/Timers.v
theories/TimersProofs.v
theories/TimersProps.v
theories/Checksum.v
theories/ChecksumProps.v
theories/Bits.v
theories/Route.v
theories/RouteProps.v
theories/AddrText.v
theories/AddrTextProps.v
theories/ReplaySpec.v
theories/EspReplay.v
theories/EspReplayProps.v
theories/WgCounter.v
theories/WgCounterProps.v
theories/ByteOrder.v
theories/WgAllowedIps.v
theories/WgAllowedIpsProps.v
theories/ListUtil.v
theories/Arp.v
theories/ArpProps.v
theories/HttpUrl.v
theories/HttpUrlProps.v
theories/Loopback.v
theories/LoopbackProps.v
theories/Mtu.v
theories/MtuProps.v
theories/Vlan.v
theories/VlanProps.v
theories/DnsSpec.v
theories/Dns.v
theories/DnsNameProps.v
theories/DnsProps.v
theories/DnsEndProps.v
theories/TcpOptSpec.v
theories/TcpOpts.v
theories/TcpOptsProps.v
theories/TcpRecv.v
theories/TcpSack.v
theories/TcpRecvProofs.v
theories/TcpRecvInv.v
theories/TcpRecvSafe.v
theories/TcpRecvProps.v
theories/Rto.v
theories/RtoProps.v
theories/TcpSend.v
theories/TcpSendProofs.v
theories/TcpSendProps.v
theories/TcpSendTimer.v
theories/TcpState.v
theories/TcpStateSpec.v
theories/TcpStateProofs.v
theories/TcpStateProps.v
theories/DhcpOptSpec.v
theories/DhcpOpt.v
theories/DhcpOptProofs.v
theories/DhcpOptProps.v
theories/Dhcp.v
theories/DhcpSpec.v
theories/DhcpProofs.v
theories/DhcpMsgProofs.v
theories/DhcpStepProofs.v
theories/DhcpProps.v
theories/Forward.v
theories/ForwardSpec.v
theories/ForwardProofs.v
theories/ForwardStep.v
theories/ForwardHist.v
theories/ForwardProps.v
theories/EapTls.v
theories/EapTlsProps.v
theories/Eapol.v
theories/EapolProps.v
theories/Supplicant.v
theories/SupplicantSpec.v
theories/SupplicantProofs.v
theories/SupplicantInv.v
theories/SupplicantHist.v
theories/SupplicantTrack.v
theories/SupplicantProps.v
theories/SupplicantTime.v
theories/SupplicantExamples.v
theories/TftpCodec.v
theories/TftpCodecSpec.v
theories/TftpCodecProofs.v
theories/TftpCodecParse.v
theories/TftpCodecProps.v
theories/Tftp.v
theories/TftpSpec.v
theories/TftpClient.v
theories/TftpProps.v
theories/TftpServerSpec.v
theories/TftpServer.v
theories/TftpServerInv.v
theories/TftpUpload.v
theories/TftpServerProps.v
theories/TftpTotal.v
theories/TftpExamples.v
theories/Udp.v
theories/UdpFifo.v
theories/UdpSpec.v
theories/UdpFrames.v
theories/UdpInv.v
theories/UdpOps.v
theories/UdpFlush.v
theories/UdpSafe.v
theories/UdpMcast.v
theories/UdpTotal.v
theories/UdpMember.v
theories/UdpTable.v
theories/UdpHist.v
theories/UdpProps.v
theories/UdpExamples.v
theories/HttpReq.v
theories/HttpReqSpec.v
theories/HttpReqProofs.v
theories/HttpReqParse.v
theories/HttpReqProps.v
theories/TcpEnd.v
theories/TcpEndProps.v
theories/TcpEndLive.v
theories/WgDevice.v
theories/WgDeviceInv.v
theories/WgDeviceRun.v
theories/WgDeviceKeys.v
theories/WgToy.v
theories/WgDeviceProps.v
theories/WgStaging.v
theories/WgConf.v
theories/WgHandshake.v
theories/WgAgree.v
theories/WgHello.v
theories/WgLoad.v
theories/WgCookieTrip.v
theories/WgHome.v
theories/Esp.v
theories/EspSpec.v
theories/EspWire.v
theories/EspProofs.v
theories/EspTrip.v
theories/EspProps.v
theories/EspAuth.v
theories/EspOnce.v
theories/EspNonce.v
theories/EspSafe.v
theories/EspToy.v
theories/Raw.v
theories/RawSpec.v
theories/RawInv.v
theories/RawSend.v
theories/RawFlush.v
theories/RawStep.v
theories/RawHist.v
theories/RawProps.v
theories/RawExamples.v
