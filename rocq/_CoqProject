-Q theories Verif
theories/AutoClient.v
theories/Backend.v
theories/BackendProofs.v
theories/CastProofs.v
theories/Cli.v
theories/CliProofs.v
theories/ClientProofs.v
theories/Conv.v
theories/ConvLemmas.v
theories/DeviceApi.v
theories/Files.v
theories/FilesProofs.v
theories/Heap.v
theories/HeapProofs.v
theories/Ip.v
theories/IpProofs.v
theories/Json.v
theories/JsonProofs.v
theories/Merge.v
theories/MergeFinal.v
theories/MergeKeep.v
theories/MergeListProofs.v
theories/MergeProofs.v
theories/NumLemmas.v
theories/OpenVpnConv.v
theories/OpenWisp.v
theories/OpenWrt.v
theories/OwApi.v
theories/OwArchive.v
theories/OwProofs.v
theories/OwRepeat.v
theories/OwScripts.v
theories/OwrtConv.v
theories/OwrtInterfaces.v
theories/OwrtKeep.v
theories/OwrtWireless.v
theories/Props_Backend.v
theories/Props_Cast.v
theories/Props_Cli.v
theories/Props_Client.v
theories/Props_Device.v
theories/Props_Files.v
theories/Props_Heap.v
theories/Props_Merge.v
theories/Props_OpenWisp.v
theories/Props_Uci.v
theories/Props_Vars.v
theories/Props_Vpn.v
theories/Props_Wireless.v
theories/Props_ZeroTier.v
theories/Props_ZtTemplate.v
theories/PyBase.v
theories/PyLemmas.v
theories/RtAddress.v
theories/RtBack.v
theories/RtBridged.v
theories/RtDefault.v
theories/RtDevice.v
theories/RtEnc.v
theories/RtGeneric.v
theories/RtIfBack.v
theories/RtIfDev.v
theories/RtIfFwd.v
theories/RtIfOk.v
theories/RtIfOwn.v
theories/RtIfStage.v
theories/RtIfWifi.v
theories/RtInterface.v
theories/RtNetwork.v
theories/RtObjects.v
theories/RtProto.v
theories/RtRadio.v
theories/RtStage.v
theories/RtStages.v
theories/RtSwitch.v
theories/RtSystem.v
theories/RtTrip.v
theories/RtTunnel.v
theories/RtTunnelStage.v
theories/RtWifi.v
theories/RtWifiBack.v
theories/RtWifiStage.v
theories/RtZeroTier.v
theories/RtZtFiles.v
theories/ShapeProofs.v
theories/SortLemmas.v
theories/SpecCast.v
theories/SpecCli.v
theories/SpecClient.v
theories/SpecConv.v
theories/SpecDevice.v
theories/SpecEncryption.v
theories/SpecFiles.v
theories/SpecHeap.v
theories/SpecMerge.v
theories/SpecOpenWisp.v
theories/SpecShapes.v
theories/SpecTrip.v
theories/SpecTunnel.v
theories/SpecUci.v
theories/SpecUciMore.v
theories/SpecVars.v
theories/SpecVpn.v
theories/SpecWg.v
theories/SpecWhole.v
theories/SpecWireless.v
theories/SpecZeroTier.v
theories/SpecZt.v
theories/StrLemmas.v
theories/Timezones.v
theories/TypeCast.v
theories/Uci.v
theories/UciMore.v
theories/UciParseProofs.v
theories/UciProofs.v
theories/UciRoundTrip.v
theories/Vars.v
theories/VarsMore.v
theories/VarsProofs.v
theories/VpnApi.v
theories/VpnArchive.v
theories/VpnProofs.v
theories/VpnText.v
theories/WgArchive.v
theories/WgProofs.v
theories/ZtApi.v
theories/ZtBackend.v
theories/ZtProofs.v
