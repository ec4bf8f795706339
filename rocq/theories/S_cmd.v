(** Specification of C38: the HCI commands of the Bluetooth Core Specification (Vol 4 Part E, 7.1-7.8), written from the
    specification, not from the code: opcode group, opcode command field, and the parameters in order with their widths in
    bytes.  Parameter names are spelled as in the Go API.  "Num w" is a w-byte little-endian number (an address, key or
    bit field is the number with its least significant octet first), "Signed w" a two's complement one. *)
Require Import Verif.Base.
Require Export String.
Export List ListNotations.

Inductive pkind := Num (w : nat) | Signed (w : nat).
Definition width (k : pkind) : nat := match k with Num w => w | Signed w => w end.
Record scmd := mkSCmd { sc_name : string; sc_ogf : Z; sc_ocf : Z; sc_params : list (string * pkind) }.
Record srp := mkSRP { sr_name : string; sr_params : list (string * pkind) }.

(** Command parameters. *)
Definition spec_commands : list scmd := [
  mkSCmd "Disconnect" 1 6 [("ConnectionHandle", Num 2); ("Reason", Num 1)];
  mkSCmd "ReadRemoteVersionInformation" 1 29 [("ConnectionHandle", Num 2)];
  mkSCmd "WriteDefaultLinkPolicySettings" 2 15 [("DefaultLinkPolicySettings", Num 2)];
  mkSCmd "SetEventMask" 3 1 [("EventMask", Num 8)];
  mkSCmd "Reset" 3 3 [];
  mkSCmd "WritePageTimeout" 3 24 [("PageTimeout", Num 2)];
  mkSCmd "WriteClassOfDevice" 3 36 [("ClassOfDevice", Num 3)];
  mkSCmd "ReadTransmitPowerLevel" 3 45 [("ConnectionHandle", Num 2); ("Type", Num 1)];
  mkSCmd "HostBufferSize" 3 51 [("HostACLDataPacketLength", Num 2); ("HostSynchronousDataPacketLength", Num 1); ("HostTotalNumACLDataPackets", Num 2); ("HostTotalNumSynchronousDataPackets", Num 2)];
  mkSCmd "SetEventMaskPage2" 3 99 [("EventMaskPage2", Num 8)];
  mkSCmd "WriteLEHostSupport" 3 109 [("LESupportedHost", Num 1); ("SimultaneousLEHost", Num 1)];
  mkSCmd "ReadAuthenticatedPayloadTimeout" 3 123 [("ConnectionHandle", Num 2)];
  mkSCmd "WriteAuthenticatedPayloadTimeout" 3 124 [("ConnectionHandle", Num 2); ("AuthenticatedPayloadTimeout", Num 2)];
  mkSCmd "ReadLocalVersionInformation" 4 1 [];
  mkSCmd "ReadLocalSupportedCommands" 4 2 [];
  mkSCmd "ReadLocalSupportedFeatures" 4 3 [];
  mkSCmd "ReadBufferSize" 4 5 [];
  mkSCmd "ReadBDADDR" 4 9 [];
  mkSCmd "ReadRSSI" 5 5 [("Handle", Num 2)];
  mkSCmd "LESetEventMask" 8 1 [("LEEventMask", Num 8)];
  mkSCmd "LEReadBufferSize" 8 2 [];
  mkSCmd "LEReadLocalSupportedFeatures" 8 3 [];
  mkSCmd "LESetRandomAddress" 8 5 [("RandomAddress", Num 6)];
  mkSCmd "LESetAdvertisingParameters" 8 6 [("AdvertisingIntervalMin", Num 2); ("AdvertisingIntervalMax", Num 2); ("AdvertisingType", Num 1); ("OwnAddressType", Num 1); ("DirectAddressType", Num 1); ("DirectAddress", Num 6); ("AdvertisingChannelMap", Num 1); ("AdvertisingFilterPolicy", Num 1)];
  mkSCmd "LEReadAdvertisingChannelTxPower" 8 7 [];
  mkSCmd "LESetAdvertisingData" 8 8 [("AdvertisingDataLength", Num 1); ("AdvertisingData", Num 31)];
  mkSCmd "LESetScanResponseData" 8 9 [("ScanResponseDataLength", Num 1); ("ScanResponseData", Num 31)];
  mkSCmd "LESetAdvertiseEnable" 8 10 [("AdvertisingEnable", Num 1)];
  mkSCmd "LESetScanParameters" 8 11 [("LEScanType", Num 1); ("LEScanInterval", Num 2); ("LEScanWindow", Num 2); ("OwnAddressType", Num 1); ("ScanningFilterPolicy", Num 1)];
  mkSCmd "LESetScanEnable" 8 12 [("LEScanEnable", Num 1); ("FilterDuplicates", Num 1)];
  mkSCmd "LECreateConnection" 8 13 [("LEScanInterval", Num 2); ("LEScanWindow", Num 2); ("InitiatorFilterPolicy", Num 1); ("PeerAddressType", Num 1); ("PeerAddress", Num 6); ("OwnAddressType", Num 1); ("ConnIntervalMin", Num 2); ("ConnIntervalMax", Num 2); ("ConnLatency", Num 2); ("SupervisionTimeout", Num 2); ("MinimumCELength", Num 2); ("MaximumCELength", Num 2)];
  mkSCmd "LECreateConnectionCancel" 8 14 [];
  mkSCmd "LEReadWhiteListSize" 8 15 [];
  mkSCmd "LEClearWhiteList" 8 16 [];
  mkSCmd "LEAddDeviceToWhiteList" 8 17 [("AddressType", Num 1); ("Address", Num 6)];
  mkSCmd "LERemoveDeviceFromWhiteList" 8 18 [("AddressType", Num 1); ("Address", Num 6)];
  mkSCmd "LEConnectionUpdate" 8 19 [("ConnectionHandle", Num 2); ("ConnIntervalMin", Num 2); ("ConnIntervalMax", Num 2); ("ConnLatency", Num 2); ("SupervisionTimeout", Num 2); ("MinimumCELength", Num 2); ("MaximumCELength", Num 2)];
  mkSCmd "LESetHostChannelClassification" 8 20 [("ChannelMap", Num 5)];
  mkSCmd "LEReadChannelMap" 8 21 [("ConnectionHandle", Num 2)];
  mkSCmd "LEReadRemoteUsedFeatures" 8 22 [("ConnectionHandle", Num 2)];
  mkSCmd "LEEncrypt" 8 23 [("Key", Num 16); ("PlaintextData", Num 16)];
  mkSCmd "LERand" 8 24 [];
  mkSCmd "LEStartEncryption" 8 25 [("ConnectionHandle", Num 2); ("RandomNumber", Num 8); ("EncryptedDiversifier", Num 2); ("LongTermKey", Num 16)];
  mkSCmd "LELongTermKeyRequestReply" 8 26 [("ConnectionHandle", Num 2); ("LongTermKey", Num 16)];
  mkSCmd "LELongTermKeyRequestNegativeReply" 8 27 [("ConnectionHandle", Num 2)];
  mkSCmd "LEReadSupportedStates" 8 28 [];
  mkSCmd "LEReceiverTest" 8 29 [("RXChannel", Num 1)];
  mkSCmd "LETransmitterTest" 8 30 [("TXChannel", Num 1); ("LengthOfTestData", Num 1); ("PacketPayload", Num 1)];
  mkSCmd "LETestEnd" 8 31 [];
  mkSCmd "LERemoteConnectionParameterRequestReply" 8 32 [("ConnectionHandle", Num 2); ("IntervalMin", Num 2); ("IntervalMax", Num 2); ("Latency", Num 2); ("Timeout", Num 2); ("MinimumCELength", Num 2); ("MaximumCELength", Num 2)];
  mkSCmd "LERemoteConnectionParameterRequestNegativeReply" 8 33 [("ConnectionHandle", Num 2); ("Reason", Num 1)];
  mkSCmd "LEWriteSuggestedDefaultDataLength" 8 36 [("SuggestedMaxTxOctets", Num 2); ("SuggestedMaxTxTime", Num 2)]
]%string.

(** Return parameters of the Command Complete event. *)
Definition spec_returns : list srp := [
  mkSRP "WriteDefaultLinkPolicySettingsRP" [("Status", Num 1)];
  mkSRP "SetEventMaskRP" [("Status", Num 1)];
  mkSRP "ResetRP" [("Status", Num 1)];
  mkSRP "WritePageTimeoutRP" [("Status", Num 1)];
  mkSRP "WriteClassOfDeviceRP" [("Status", Num 1)];
  mkSRP "ReadTransmitPowerLevelRP" [("Status", Num 1); ("ConnectionHandle", Num 2); ("TransmitPowerLevel", Signed 1)];
  mkSRP "HostBufferSizeRP" [("Status", Num 1)];
  mkSRP "SetEventMaskPage2RP" [("Status", Num 1)];
  mkSRP "WriteLEHostSupportRP" [("Status", Num 1)];
  mkSRP "ReadAuthenticatedPayloadTimeoutRP" [("Status", Num 1); ("ConnectionHandle", Num 2); ("AuthenticatedPayloadTimeout", Num 2)];
  mkSRP "WriteAuthenticatedPayloadTimeoutRP" [("Status", Num 1); ("ConnectionHandle", Num 2)];
  mkSRP "ReadLocalVersionInformationRP" [("Status", Num 1); ("HCIVersion", Num 1); ("HCIRevision", Num 2); ("LMPPAMVersion", Num 1); ("ManufacturerName", Num 2); ("LMPPAMSubversion", Num 2)];
  mkSRP "ReadLocalSupportedCommandsRP" [("Status", Num 1); ("Supporteds", Num 64)];
  mkSRP "ReadLocalSupportedFeaturesRP" [("Status", Num 1); ("LMPFeatures", Num 8)];
  mkSRP "ReadBufferSizeRP" [("Status", Num 1); ("HCACLDataPacketLength", Num 2); ("HCSynchronousDataPacketLength", Num 1); ("HCTotalNumACLDataPackets", Num 2); ("HCTotalNumSynchronousDataPackets", Num 2)];
  mkSRP "ReadBDADDRRP" [("Status", Num 1); ("BDADDR", Num 6)];
  mkSRP "ReadRSSIRP" [("Status", Num 1); ("ConnectionHandle", Num 2); ("RSSI", Signed 1)];
  mkSRP "LESetEventMaskRP" [("Status", Num 1)];
  mkSRP "LEReadBufferSizeRP" [("Status", Num 1); ("HCLEDataPacketLength", Num 2); ("HCTotalNumLEDataPackets", Num 1)];
  mkSRP "LEReadLocalSupportedFeaturesRP" [("Status", Num 1); ("LEFeatures", Num 8)];
  mkSRP "LESetRandomAddressRP" [("Status", Num 1)];
  mkSRP "LESetAdvertisingParametersRP" [("Status", Num 1)];
  mkSRP "LEReadAdvertisingChannelTxPowerRP" [("Status", Num 1); ("TransmitPowerLevel", Signed 1)];
  mkSRP "LESetAdvertisingDataRP" [("Status", Num 1)];
  mkSRP "LESetScanResponseDataRP" [("Status", Num 1)];
  mkSRP "LESetAdvertiseEnableRP" [("Status", Num 1)];
  mkSRP "LESetScanParametersRP" [("Status", Num 1)];
  mkSRP "LESetScanEnableRP" [("Status", Num 1)];
  mkSRP "LECreateConnectionCancelRP" [("Status", Num 1)];
  mkSRP "LEReadWhiteListSizeRP" [("Status", Num 1); ("WhiteListSize", Num 1)];
  mkSRP "LEClearWhiteListRP" [("Status", Num 1)];
  mkSRP "LEAddDeviceToWhiteListRP" [("Status", Num 1)];
  mkSRP "LERemoveDeviceFromWhiteListRP" [("Status", Num 1)];
  mkSRP "LESetHostChannelClassificationRP" [("Status", Num 1)];
  mkSRP "LEReadChannelMapRP" [("Status", Num 1); ("ConnectionHandle", Num 2); ("ChannelMap", Num 5)];
  mkSRP "LEEncryptRP" [("Status", Num 1); ("EncryptedData", Num 16)];
  mkSRP "LERandRP" [("Status", Num 1); ("RandomNumber", Num 8)];
  mkSRP "LELongTermKeyRequestReplyRP" [("Status", Num 1); ("ConnectionHandle", Num 2)];
  mkSRP "LELongTermKeyRequestNegativeReplyRP" [("Status", Num 1); ("ConnectionHandle", Num 2)];
  mkSRP "LEReadSupportedStatesRP" [("Status", Num 1); ("LEStates", Num 8)];
  mkSRP "LEReceiverTestRP" [("Status", Num 1)];
  mkSRP "LETransmitterTestRP" [("Status", Num 1)];
  mkSRP "LETestEndRP" [("Status", Num 1); ("NumberOfPackats", Num 2)];
  mkSRP "LERemoteConnectionParameterRequestReplyRP" [("Status", Num 1); ("ConnectionHandle", Num 2)];
  mkSRP "LERemoteConnectionParameterRequestNegativeReplyRP" [("Status", Num 1); ("ConnectionHandle", Num 2)];
  mkSRP "LEWriteSuggestedDefaultDataLengthRP" [("Status", Num 1)]
]%string.

(** The parameters' values, one integer per name. *)
Definition spec_body (ps : list (string * pkind)) (v : string -> Z) : bytes :=
  flat_map (fun p => le_bytes (width (snd p)) (v (fst p))) ps.
Definition total (ps : list (string * pkind)) : nat := list_sum (map (fun p => width (snd p)) ps).

(** The packet on the transport: packet indicator 0x01, opcode (6 bits of OGF over 10 bits of OCF, low octet first),
    parameter total length, the parameters. *)
Definition spec_packet (c : scmd) (v : string -> Z) : bytes :=
  [1; sc_ocf c mod 256; 4 * sc_ogf c + sc_ocf c / 256; Z.of_nat (total (sc_params c))] ++ spec_body (sc_params c) v.

(** [v] gives every parameter a value that fits it. *)
Definition fits (ps : list (string * pkind)) (v : string -> Z) : Prop :=
  Forall (fun p => match snd p with
                   | Num w => 0 <= v (fst p) < 256 ^ Z.of_nat w
                   | Signed w => - 256 ^ Z.of_nat w <= 2 * v (fst p) < 256 ^ Z.of_nat w
                   end) ps.
