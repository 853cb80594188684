-Q theories Verif
theories/Base.v
theories/NetIP.v
theories/IpNet.v
theories/Spec.v
theories/IpNetProofs.v
theories/SplitProofs.v
theories/IpNetProofs2.v
theories/PropsIpNet.v
theories/Inf.v
theories/NetText.v
theories/Date.v
theories/Ipdb.v
theories/Bits.v
theories/TrieProofs.v
theories/SpecIpdb.v
theories/WriterProofs.v
theories/ReaderProofs.v
theories/OpenProofs.v
theories/PackProofs.v
theories/PropsIpdb.v
theories/Export.v
theories/SpecExport.v
theories/ExportProofs.v
theories/BuildProofs.v
theories/DumpProofs.v
theories/PropsExport.v
theories/PropsDump.v
theories/Tables.v
theories/Operate.v
theories/SpecOperate.v
theories/OperateProofs.v
theories/OperateProofs2.v
theories/MergeProofs.v
theories/PropsOperate.v
theories/PropsOperate2.v
theories/PropsOperate3.v
theories/MergeProofs2.v
theories/PropsMerge.v
theories/NetTextProofs.v
theories/Plain.v
theories/SpecText.v
theories/PlainProofs.v
theories/PropsPlain.v
theories/Memip.v
theories/SpecMemip.v
theories/MemipProofs.v
theories/PropsMemip.v
theories/AwDecode.v
theories/SpecAw.v
theories/AwDecodeProofs.v
theories/PropsAwDecode.v
theories/AwTree.v
theories/SpecAwTree.v
theories/AwTreeProofs.v
theories/AwIterProofs.v
theories/PropsAwTree.v
theories/PropsAwQuery.v
theories/PropsAwOpen.v
theories/Facade.v
theories/PropsFacade.v
theories/PropsFacade2.v
theories/PropsFacade3.v
theories/Foreign.v
theories/ForeignProofs.v
theories/SpecForeign.v
theories/PropsForeign.v
theories/PropsForeign2.v
theories/Json.v
theories/JsonProofs.v
theories/PropsJson.v
theories/SpecJson.v
theories/PropsJson2.v
theories/Server.v
theories/PropsServer.v
theories/IpNetStr.v
theories/PropsIpNet2.v
theories/ConvertProofs.v
theories/ConvertProofs2.v
theories/FastOpen.v
theories/PropsConvert.v
theories/PropsFile.v
theories/PropsConvert2.v
theories/Convert.v
theories/PropsConvert3.v
theories/PropsConvert4.v
theories/PropsConvert5.v
theories/PropsCases.v
theories/PropsConvert6.v
theories/PropsTight.v
theories/ForeignApi.v
theories/PropsVersion.v
theories/Alias.v
theories/PropsAlias.v
theories/Cmd.v
theories/PropsCmd.v
theories/PropsConvert7.v
theories/PropsConvert8.v
theories/Conc.v
theories/PropsConc.v
theories/Writes.v
theories/PropsWrites.v
theories/Share.v
theories/PropsShare.v
theories/PropsConvert9.v
theories/PropsTight2.v
theories/PropsTight3.v
theories/AwCost.v
theories/PropsAwCost.v
theories/PropsJson3.v
theories/PropsServer2.v
theories/PropsTight4.v
theories/PropsConvert10.v
theories/PropsTight5.v
theories/ForeignFile.v
theories/PropsForeign3.v
theories/PropsTight6.v
theories/ForeignCmd.v
theories/PropsForeign4.v
theories/Flags.v
theories/PropsFlags.v
theories/UpstreamTests.v
theories/PropsForeign5.v
theories/PropsJson4.v
theories/Reserve.v
theories/PropsReserve.v
