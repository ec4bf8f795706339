(** Generated by tools/gencmd.py from /repo/linux/hci/cmd/cmd_gen.go: the table of HCI commands and return parameters.
    Every entry carries the lines of the Go struct it was read from. *)
Require Import Verif.Base.
Require Export String.
Export List ListNotations.

(** Go types of struct fields: [uintN]/[intN] of the given width in bytes, [[n]byte], and any slice. *)
Inductive ftype := FUint (w : nat) | FInt (w : nat) | FArr (n : nat) | FSlice.
Record cmddesc := mkCmd {
  cd_name : string;        (* the Go type *)
  cd_op : Z;               (* OpCode() *)
  cd_len : Z;              (* Len() *)
  cd_fields : list (string * ftype);  (* the struct's fields, in order *)
  cd_marshals : bool }.    (* has a Marshal method, i.e. can be given to Send *)
Record rpdesc := mkRP { rd_name : string; rd_fields : list (string * ftype) }.

(** The commands. *)
Definition cmd_table : list cmddesc := [
  mkCmd "Disconnect" (1 * 1024 + 6)%Z (3)%Z [("ConnectionHandle", FUint 2); ("Reason", FUint 1)] true; (* cmd_gen.go:4-7, OpCode 0x01<<10|0x0006 *)
  mkCmd "ReadRemoteVersionInformation" (1 * 1024 + 29)%Z (2)%Z [("ConnectionHandle", FUint 2)] true; (* cmd_gen.go:25-27, OpCode 0x01<<10|0x001D *)
  mkCmd "WriteDefaultLinkPolicySettings" (2 * 1024 + 13)%Z (2)%Z [("DefaultLinkPolicySettings", FUint 2)] true; (* cmd_gen.go:45-47, OpCode 0x02<<10|0x000D *)
  mkCmd "SetEventMask" (3 * 1024 + 1)%Z (8)%Z [("EventMask", FUint 8)] true; (* cmd_gen.go:75-77, OpCode 0x03<<10|0x0001 *)
  mkCmd "Reset" (3 * 1024 + 3)%Z (0)%Z [] true; (* cmd_gen.go:105-106, OpCode 0x03<<10|0x003 *)
  mkCmd "WritePageTimeout" (3 * 1024 + 24)%Z (2)%Z [("PageTimeout", FUint 2)] true; (* cmd_gen.go:134-136, OpCode 0x03<<10|0x0018 *)
  mkCmd "WriteClassOfDevice" (3 * 1024 + 36)%Z (3)%Z [("ClassOfDevice", FArr 3)] true; (* cmd_gen.go:164-166, OpCode 0x03<<10|0x0024 *)
  mkCmd "ReadTransmitPowerLevel" (3 * 1024 + 45)%Z (3)%Z [("ConnectionHandle", FUint 2); ("Type", FUint 1)] true; (* cmd_gen.go:194-197, OpCode 0x03<<10|0x002D *)
  mkCmd "HostBufferSize" (3 * 1024 + 51)%Z (7)%Z [("HostACLDataPacketLength", FUint 2); ("HostSynchronousDataPacketLength", FUint 1); ("HostTotalNumACLDataPackets", FUint 2); ("HostTotalNumSynchronousDataPackets", FUint 2)] true; (* cmd_gen.go:226-231, OpCode 0x03<<10|0x0033 *)
  mkCmd "HostNumberOfCompletedPackets" (3 * 1024 + 53)%Z (-1)%Z [("NumberOfHandles", FUint 1); ("ConnectionHandle", FSlice); ("HostNumOfCompletedPackets", FSlice)] false; (* cmd_gen.go:259-263, OpCode 0x03<<10|0x0035 *)
  mkCmd "SetEventMaskPage2" (3 * 1024 + 99)%Z (8)%Z [("EventMaskPage2", FUint 8)] true; (* cmd_gen.go:276-278, OpCode 0x03<<10|0x0063 *)
  mkCmd "WriteLEHostSupport" (3 * 1024 + 109)%Z (2)%Z [("LESupportedHost", FUint 1); ("SimultaneousLEHost", FUint 1)] true; (* cmd_gen.go:306-309, OpCode 0x03<<10|0x006D *)
  mkCmd "ReadAuthenticatedPayloadTimeout" (3 * 1024 + 123)%Z (2)%Z [("ConnectionHandle", FUint 2)] true; (* cmd_gen.go:337-339, OpCode 0x03<<10|0x007B *)
  mkCmd "WriteAuthenticatedPayloadTimeout" (1 * 1024 + 124)%Z (4)%Z [("ConnectionHandle", FUint 2); ("AuthenticatedPayloadTimeout", FUint 2)] true; (* cmd_gen.go:369-372, OpCode 0x01<<10|0x007C *)
  mkCmd "ReadLocalVersionInformation" (4 * 1024 + 1)%Z (0)%Z [] true; (* cmd_gen.go:401-402, OpCode 0x04<<10|0x0001 *)
  mkCmd "ReadLocalSupportedCommands" (4 * 1024 + 2)%Z (0)%Z [] true; (* cmd_gen.go:435-436, OpCode 0x04<<10|0x0002 *)
  mkCmd "ReadLocalSupportedFeatures" (4 * 1024 + 3)%Z (0)%Z [] true; (* cmd_gen.go:465-466, OpCode 0x04<<10|0x0003 *)
  mkCmd "ReadBufferSize" (4 * 1024 + 5)%Z (0)%Z [] true; (* cmd_gen.go:495-496, OpCode 0x04<<10|0x0005 *)
  mkCmd "ReadBDADDR" (4 * 1024 + 9)%Z (0)%Z [] true; (* cmd_gen.go:528-529, OpCode 0x04<<10|0x0009 *)
  mkCmd "ReadRSSI" (5 * 1024 + 5)%Z (2)%Z [("Handle", FUint 2)] true; (* cmd_gen.go:558-560, OpCode 0x05<<10|0x0005 *)
  mkCmd "LESetEventMask" (8 * 1024 + 1)%Z (8)%Z [("LEEventMask", FUint 8)] true; (* cmd_gen.go:590-592, OpCode 0x08<<10|0x0001 *)
  mkCmd "LEReadBufferSize" (8 * 1024 + 2)%Z (0)%Z [] true; (* cmd_gen.go:620-621, OpCode 0x08<<10|0x0002 *)
  mkCmd "LEReadLocalSupportedFeatures" (8 * 1024 + 3)%Z (0)%Z [] true; (* cmd_gen.go:651-652, OpCode 0x08<<10|0x0003 *)
  mkCmd "LESetRandomAddress" (8 * 1024 + 5)%Z (6)%Z [("RandomAddress", FArr 6)] true; (* cmd_gen.go:681-683, OpCode 0x08<<10|0x0005 *)
  mkCmd "LESetAdvertisingParameters" (8 * 1024 + 6)%Z (15)%Z [("AdvertisingIntervalMin", FUint 2); ("AdvertisingIntervalMax", FUint 2); ("AdvertisingType", FUint 1); ("OwnAddressType", FUint 1); ("DirectAddressType", FUint 1); ("DirectAddress", FArr 6); ("AdvertisingChannelMap", FUint 1); ("AdvertisingFilterPolicy", FUint 1)] true; (* cmd_gen.go:711-720, OpCode 0x08<<10|0x0006 *)
  mkCmd "LEReadAdvertisingChannelTxPower" (8 * 1024 + 7)%Z (0)%Z [] true; (* cmd_gen.go:748-749, OpCode 0x08<<10|0x0007 *)
  mkCmd "LESetAdvertisingData" (8 * 1024 + 8)%Z (32)%Z [("AdvertisingDataLength", FUint 1); ("AdvertisingData", FArr 31)] true; (* cmd_gen.go:778-781, OpCode 0x08<<10|0x0008 *)
  mkCmd "LESetScanResponseData" (8 * 1024 + 9)%Z (32)%Z [("ScanResponseDataLength", FUint 1); ("ScanResponseData", FArr 31)] true; (* cmd_gen.go:811-814, OpCode 0x08<<10|0x0009 *)
  mkCmd "LESetAdvertiseEnable" (8 * 1024 + 10)%Z (1)%Z [("AdvertisingEnable", FUint 1)] true; (* cmd_gen.go:842-844, OpCode 0x08<<10|0x000A *)
  mkCmd "LESetScanParameters" (8 * 1024 + 11)%Z (7)%Z [("LEScanType", FUint 1); ("LEScanInterval", FUint 2); ("LEScanWindow", FUint 2); ("OwnAddressType", FUint 1); ("ScanningFilterPolicy", FUint 1)] true; (* cmd_gen.go:872-878, OpCode 0x08<<10|0x000B *)
  mkCmd "LESetScanEnable" (8 * 1024 + 12)%Z (2)%Z [("LEScanEnable", FUint 1); ("FilterDuplicates", FUint 1)] true; (* cmd_gen.go:906-909, OpCode 0x08<<10|0x000C *)
  mkCmd "LECreateConnection" (8 * 1024 + 13)%Z (25)%Z [("LEScanInterval", FUint 2); ("LEScanWindow", FUint 2); ("InitiatorFilterPolicy", FUint 1); ("PeerAddressType", FUint 1); ("PeerAddress", FArr 6); ("OwnAddressType", FUint 1); ("ConnIntervalMin", FUint 2); ("ConnIntervalMax", FUint 2); ("ConnLatency", FUint 2); ("SupervisionTimeout", FUint 2); ("MinimumCELength", FUint 2); ("MaximumCELength", FUint 2)] true; (* cmd_gen.go:937-950, OpCode 0x08<<10|0x000D *)
  mkCmd "LECreateConnectionCancel" (8 * 1024 + 14)%Z (0)%Z [] true; (* cmd_gen.go:968-969, OpCode 0x08<<10|0x000E *)
  mkCmd "LEReadWhiteListSize" (8 * 1024 + 15)%Z (0)%Z [] true; (* cmd_gen.go:997-998, OpCode 0x08<<10|0x000F *)
  mkCmd "LEClearWhiteList" (8 * 1024 + 16)%Z (0)%Z [] true; (* cmd_gen.go:1027-1028, OpCode 0x08<<10|0x0010 *)
  mkCmd "LEAddDeviceToWhiteList" (8 * 1024 + 17)%Z (7)%Z [("AddressType", FUint 1); ("Address", FArr 6)] true; (* cmd_gen.go:1056-1059, OpCode 0x08<<10|0x0011 *)
  mkCmd "LERemoveDeviceFromWhiteList" (8 * 1024 + 18)%Z (7)%Z [("AddressType", FUint 1); ("Address", FArr 6)] true; (* cmd_gen.go:1087-1090, OpCode 0x08<<10|0x0012 *)
  mkCmd "LEConnectionUpdate" (8 * 1024 + 19)%Z (14)%Z [("ConnectionHandle", FUint 2); ("ConnIntervalMin", FUint 2); ("ConnIntervalMax", FUint 2); ("ConnLatency", FUint 2); ("SupervisionTimeout", FUint 2); ("MinimumCELength", FUint 2); ("MaximumCELength", FUint 2)] true; (* cmd_gen.go:1118-1126, OpCode 0x08<<10|0x0013 *)
  mkCmd "LESetHostChannelClassification" (8 * 1024 + 20)%Z (5)%Z [("ChannelMap", FArr 5)] true; (* cmd_gen.go:1144-1146, OpCode 0x08<<10|0x0014 *)
  mkCmd "LEReadChannelMap" (8 * 1024 + 21)%Z (2)%Z [("ConnectionHandle", FUint 2)] true; (* cmd_gen.go:1174-1176, OpCode 0x08<<10|0x0015 *)
  mkCmd "LEReadRemoteUsedFeatures" (8 * 1024 + 22)%Z (2)%Z [("ConnectionHandle", FUint 2)] true; (* cmd_gen.go:1206-1208, OpCode 0x08<<10|0x0016 *)
  mkCmd "LEEncrypt" (8 * 1024 + 23)%Z (32)%Z [("Key", FArr 16); ("PlaintextData", FArr 16)] true; (* cmd_gen.go:1226-1229, OpCode 0x08<<10|0x0017 *)
  mkCmd "LERand" (8 * 1024 + 24)%Z (0)%Z [] true; (* cmd_gen.go:1258-1259, OpCode 0x08<<10|0x0018 *)
  mkCmd "LEStartEncryption" (8 * 1024 + 25)%Z (28)%Z [("ConnectionHandle", FUint 2); ("RandomNumber", FUint 8); ("EncryptedDiversifier", FUint 2); ("LongTermKey", FArr 16)] true; (* cmd_gen.go:1288-1293, OpCode 0x08<<10|0x0019 *)
  mkCmd "LELongTermKeyRequestReply" (8 * 1024 + 26)%Z (18)%Z [("ConnectionHandle", FUint 2); ("LongTermKey", FArr 16)] true; (* cmd_gen.go:1311-1314, OpCode 0x08<<10|0x001A *)
  mkCmd "LELongTermKeyRequestNegativeReply" (8 * 1024 + 27)%Z (2)%Z [("ConnectionHandle", FUint 2)] true; (* cmd_gen.go:1343-1345, OpCode 0x08<<10|0x001B *)
  mkCmd "LEReadSupportedStates" (8 * 1024 + 28)%Z (0)%Z [] true; (* cmd_gen.go:1374-1375, OpCode 0x08<<10|0x001C *)
  mkCmd "LEReceiverTest" (8 * 1024 + 29)%Z (1)%Z [("RXChannel", FUint 1)] true; (* cmd_gen.go:1404-1406, OpCode 0x08<<10|0x001D *)
  mkCmd "LETransmitterTest" (8 * 1024 + 30)%Z (3)%Z [("TXChannel", FUint 1); ("LengthOfTestData", FUint 1); ("PacketPayload", FUint 1)] true; (* cmd_gen.go:1434-1438, OpCode 0x08<<10|0x001E *)
  mkCmd "LETestEnd" (8 * 1024 + 31)%Z (0)%Z [] true; (* cmd_gen.go:1466-1467, OpCode 0x08<<10|0x001F *)
  mkCmd "LERemoteConnectionParameterRequestReply" (8 * 1024 + 32)%Z (14)%Z [("ConnectionHandle", FUint 2); ("IntervalMin", FUint 2); ("IntervalMax", FUint 2); ("Latency", FUint 2); ("Timeout", FUint 2); ("MinimumCELength", FUint 2); ("MaximumCELength", FUint 2)] true; (* cmd_gen.go:1496-1504, OpCode 0x08<<10|0x0020 *)
  mkCmd "LERemoteConnectionParameterRequestNegativeReply" (8 * 1024 + 33)%Z (3)%Z [("ConnectionHandle", FUint 2); ("Reason", FUint 1)] true; (* cmd_gen.go:1533-1536, OpCode 0x08<<10|0x0021 *)
  mkCmd "LEWriteSuggestedDefaultDataLength" (8 * 1024 + 36)%Z (4)%Z [("SuggestedMaxTxOctets", FUint 2); ("SuggestedMaxTxTime", FUint 2)] true (* cmd_gen.go:1565-1568, OpCode 0x08<<10|0x0024 *)
]%string.

(** The return parameters. *)
Definition rp_table : list rpdesc := [
  mkRP "WriteDefaultLinkPolicySettingsRP" [("Status", FUint 1)]; (* cmd_gen.go:65-67 *)
  mkRP "SetEventMaskRP" [("Status", FUint 1)]; (* cmd_gen.go:95-97 *)
  mkRP "ResetRP" [("Status", FUint 1)]; (* cmd_gen.go:124-126 *)
  mkRP "WritePageTimeoutRP" [("Status", FUint 1)]; (* cmd_gen.go:154-156 *)
  mkRP "WriteClassOfDeviceRP" [("Status", FUint 1)]; (* cmd_gen.go:184-186 *)
  mkRP "ReadTransmitPowerLevelRP" [("Status", FUint 1); ("ConnectionHandle", FUint 2)]; (* cmd_gen.go:215-218 *)
  mkRP "HostBufferSizeRP" [("Status", FUint 1)]; (* cmd_gen.go:249-251 *)
  mkRP "SetEventMaskPage2RP" [("Status", FUint 1)]; (* cmd_gen.go:296-298 *)
  mkRP "WriteLEHostSupportRP" [("Status", FUint 1)]; (* cmd_gen.go:327-329 *)
  mkRP "ReadAuthenticatedPayloadTimeoutRP" [("Status", FUint 1); ("ConnectionHandle", FUint 2); ("AuthenticatedPayloadTimeout", FUint 2)]; (* cmd_gen.go:357-361 *)
  mkRP "WriteAuthenticatedPayloadTimeoutRP" [("Status", FUint 1); ("ConnectionHandle", FUint 2)]; (* cmd_gen.go:390-393 *)
  mkRP "ReadLocalVersionInformationRP" [("Status", FUint 1); ("HCIVersion", FUint 1); ("HCIRevision", FUint 2); ("LMPPAMVersion", FUint 1); ("ManufacturerName", FUint 2); ("LMPPAMSubversion", FUint 2)]; (* cmd_gen.go:420-427 *)
  mkRP "ReadLocalSupportedCommandsRP" [("Status", FUint 1); ("Supporteds", FUint 8)]; (* cmd_gen.go:454-457 *)
  mkRP "ReadLocalSupportedFeaturesRP" [("Status", FUint 1); ("LMPFeatures", FUint 8)]; (* cmd_gen.go:484-487 *)
  mkRP "ReadBufferSizeRP" [("Status", FUint 1); ("HCACLDataPacketLength", FUint 2); ("HCSynchronousDataPacketLength", FUint 1); ("HCTotalNumACLDataPackets", FUint 2); ("HCTotalNumSynchronousDataPackets", FUint 2)]; (* cmd_gen.go:514-520 *)
  mkRP "ReadBDADDRRP" [("Status", FUint 1); ("BDADDR", FArr 6)]; (* cmd_gen.go:547-550 *)
  mkRP "ReadRSSIRP" [("Status", FUint 1); ("ConnectionHandle", FUint 2); ("RSSI", FInt 1)]; (* cmd_gen.go:578-582 *)
  mkRP "LESetEventMaskRP" [("Status", FUint 1)]; (* cmd_gen.go:610-612 *)
  mkRP "LEReadBufferSizeRP" [("Status", FUint 1); ("HCLEDataPacketLength", FUint 2); ("HCTotalNumLEDataPackets", FUint 1)]; (* cmd_gen.go:639-643 *)
  mkRP "LEReadLocalSupportedFeaturesRP" [("Status", FUint 1); ("LEFeatures", FUint 8)]; (* cmd_gen.go:670-673 *)
  mkRP "LESetRandomAddressRP" [("Status", FUint 1)]; (* cmd_gen.go:701-703 *)
  mkRP "LESetAdvertisingParametersRP" [("Status", FUint 1)]; (* cmd_gen.go:738-740 *)
  mkRP "LEReadAdvertisingChannelTxPowerRP" [("Status", FUint 1); ("TransmitPowerLevel", FUint 1)]; (* cmd_gen.go:767-770 *)
  mkRP "LESetAdvertisingDataRP" [("Status", FUint 1); ("HCLEDataPacketLength", FUint 2); ("HCTotalNumLEDataPackets", FUint 1)]; (* cmd_gen.go:799-803 *)
  mkRP "LESetScanResponseDataRP" [("Status", FUint 1)]; (* cmd_gen.go:832-834 *)
  mkRP "LESetAdvertiseEnableRP" [("Status", FUint 1)]; (* cmd_gen.go:862-864 *)
  mkRP "LESetScanParametersRP" [("Status", FUint 1)]; (* cmd_gen.go:896-898 *)
  mkRP "LESetScanEnableRP" [("Status", FUint 1)]; (* cmd_gen.go:927-929 *)
  mkRP "LECreateConnectionCancelRP" [("Status", FUint 1)]; (* cmd_gen.go:987-989 *)
  mkRP "LEReadWhiteListSizeRP" [("Status", FUint 1); ("WhiteListSize", FUint 1)]; (* cmd_gen.go:1016-1019 *)
  mkRP "LEClearWhiteListRP" [("Status", FUint 1)]; (* cmd_gen.go:1046-1048 *)
  mkRP "LEAddDeviceToWhiteListRP" [("Status", FUint 1)]; (* cmd_gen.go:1077-1079 *)
  mkRP "LERemoveDeviceFromWhiteListRP" [("Status", FUint 1)]; (* cmd_gen.go:1108-1110 *)
  mkRP "LESetHostChannelClassificationRP" [("Status", FUint 1)]; (* cmd_gen.go:1164-1166 *)
  mkRP "LEReadChannelMapRP" [("Status", FUint 1); ("ConnectionHandle", FUint 2); ("ChannelMap", FArr 5)]; (* cmd_gen.go:1194-1198 *)
  mkRP "LEEncryptRP" [("Status", FUint 1); ("EncryptedData", FArr 16)]; (* cmd_gen.go:1247-1250 *)
  mkRP "LERandRP" [("Status", FUint 1); ("RandomNumber", FUint 8)]; (* cmd_gen.go:1277-1280 *)
  mkRP "LELongTermKeyRequestReplyRP" [("Status", FUint 1); ("ConnectionHandle", FUint 2)]; (* cmd_gen.go:1332-1335 *)
  mkRP "LELongTermKeyRequestNegativeReplyRP" [("Status", FUint 1); ("ConnectionHandle", FUint 2)]; (* cmd_gen.go:1363-1366 *)
  mkRP "LEReadSupportedStatesRP" [("Status", FUint 1); ("LEStates", FUint 8)]; (* cmd_gen.go:1393-1396 *)
  mkRP "LEReceiverTestRP" [("Status", FUint 1)]; (* cmd_gen.go:1424-1426 *)
  mkRP "LETransmitterTestRP" [("Status", FUint 1)]; (* cmd_gen.go:1456-1458 *)
  mkRP "LETestEndRP" [("Status", FUint 1); ("NumberOfPackats", FUint 2)]; (* cmd_gen.go:1485-1488 *)
  mkRP "LERemoteConnectionParameterRequestReplyRP" [("Status", FUint 1); ("ConnectionHandle", FUint 2)]; (* cmd_gen.go:1522-1525 *)
  mkRP "LERemoteConnectionParameterRequestNegativeReplyRP" [("Status", FUint 1); ("ConnectionHandle", FUint 2)]; (* cmd_gen.go:1554-1557 *)
  mkRP "LEWriteSuggestedDefaultDataLengthRP" [("Status", FUint 1)] (* cmd_gen.go:1586-1588 *)
]%string.
