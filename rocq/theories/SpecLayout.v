(** The wire layout of the commands, written down as a table of its own: python name of the class, command class number, command
    number, and the fields after these two bytes in order.  Uses nothing of Registry.v and Codec.v. *)
From Coq Require Import String ZArith List Bool.
From Verif Require Import Py Schema SpecBits SpecWire.
Import ListNotations.
Open Scope list_scope.
Open Scope string_scope.
Open Scope list_scope.
Open Scope Z_scope.

Inductive fld :=
| U (x : string) (n : nat)      (* a number of n bits, most significant bit first *)
| F (x : string)                (* one bit *)
| X (n : nat)                   (* n reserved bits *)
| K (x : string)                (* a key of 16 bytes *)
| A (x : string)                (* an IPv6 address *)
| R (x : string)                (* all remaining bytes *)
| M (x : string)                (* the members of an association group *)
| C (x : string)                (* a command *)
| H (x : string).               (* Z/IP header extension: none is sent *)
Record layout := mkL { l_name : string; l_cls : Z; l_cmd : Z; l_flds : list fld }.

Definition byte_ x := U x 8.
Definition word x := U x 16.
(** answers of the network management classes: sequence number and status *)
Definition status_ := [byte_ "seqNo"; byte_ "status"].
Definition node_status := [byte_ "seqNo"; byte_ "status"; byte_ "nodeID"].
Definition node_req := [byte_ "seqNo"; byte_ "nodeID"].
Definition layouts : list layout :=
  [ mkL "ApplicationStatus.ApplicationBusy" 0x22 0x01 [byte_ "status"; byte_ "waitTime"]
  ; mkL "Association.Set" 0x85 0x01 [byte_ "groupingIdentifier"; M "nodes"]
  ; mkL "Association.Get" 0x85 0x02 [byte_ "groupingIdentifier"]
  ; mkL "Association.Report" 0x85 0x03 [byte_ "groupingIdentifier"; byte_ "maxNodesSupported"; byte_ "reportsToFollow"; M "nodes"]
  ; mkL "Association.GroupingsGet" 0x85 0x05 []
  ; mkL "Association.GroupingsReport" 0x85 0x06 [byte_ "supportedGroupings"]
  ; mkL "AssociationGrpInfo.GroupNameGet" 0x59 0x01 [byte_ "groupingIdentifier"]
  ; mkL "AssociationGrpInfo.GroupInfoGet" 0x59 0x03 [F "refreshCache"; F "listMode"; X 6; byte_ "groupingIdentifier"]
  ; mkL "AssociationGrpInfo.GroupCommandListGet" 0x59 0x05 [F "allowCache"; X 7; byte_ "groupingIdentifier"]
  ; mkL "Basic.Set" 0x20 0x01 [byte_ "value"]
  ; mkL "Basic.Get" 0x20 0x02 []
  ; mkL "Basic.Report" 0x20 0x03 [byte_ "value"]
  ; mkL "Battery.Get" 0x80 0x02 []
  ; mkL "Battery.Report" 0x80 0x03 [byte_ "batteryLevel"]
  ; mkL "Configuration.Get" 0x70 0x05 [byte_ "parameterNumber"]
  ; mkL "Configuration.BulkGet" 0x70 0x08 [word "parameterOffset"; byte_ "numberOfParameters"]
  ; mkL "Configuration.BulkReport" 0x70 0x09 [word "parameterOffset"; byte_ "numberOfParameters"; byte_ "reportsToFollow"; F "default"; F "handshake"; X 3; U "size" 3; R "parameter"]
  ; mkL "Indicator.Set" 0x87 0x01 [byte_ "value"]
  ; mkL "Indicator.Get" 0x87 0x02 []
  ; mkL "Indicator.Report" 0x87 0x03 [byte_ "value"]
  ; mkL "Mailbox.ConfigurationGet" 0x69 0x01 []
  ; mkL "Mailbox.ConfigurationSet" 0x69 0x02 [X 5; U "mode" 3; A "forwardingDestinationIPv6Address"; word "udpPortNumber"]
  ; mkL "Mailbox.ConfigurationReport" 0x69 0x03 [X 3; U "supportedModes" 2; U "mode" 3; word "mailboxCapacity"; A "forwardingDestinationIPv6Address"; word "udpPortNumber"]
  ; mkL "Mailbox.Queue" 0x69 0x04 [X 4; F "last"; U "operation" 3; byte_ "queueHandle"; R "mailboxEntry"]
  ; mkL "Mailbox.WakeupNotification" 0x69 0x05 [byte_ "queueHandle"]
  ; mkL "Mailbox.QueueFlush" 0x69 0x07 [byte_ "queueHandle"]
  ; mkL "ManufacturerSpecific.Get" 0x72 0x04 []
  ; mkL "ManufacturerSpecific.Report" 0x72 0x05 [word "manufacturerID"; word "productTypeID"; word "productID"]
  ; mkL "Meter.Get" 0x32 0x01 [U "rateType" 2; U "scale" 3; X 3; byte_ "scale2"]
  ; mkL "Meter.SupportedGet" 0x32 0x03 []
  ; mkL "Meter.SupportedReport" 0x32 0x04 [F "meterReset"; U "rateType" 2; U "meterType" 5; F "moreScaleTypes"; U "scaleSupported" 7; byte_ "nbrScaleSupportedBytesToFollow"; R "scaleSupportedByteN"]
  ; mkL "Meter.Reset" 0x32 0x05 []
  ; mkL "MultiChannelAssociation.MultiChannelSet" 0x8E 0x01 [byte_ "groupingIdentifier"; M "nodes"]
  ; mkL "MultiChannelAssociation.MultiChannelGet" 0x8E 0x02 [byte_ "groupingIdentifier"]
  ; mkL "MultiChannelAssociation.MultiChannelReport" 0x8E 0x03 [byte_ "groupingIdentifier"; byte_ "maxNodesSupported"; byte_ "reportsToFollow"; M "nodes"]
  ; mkL "NetworkManagementInclusion.NodeAdd" 0x34 0x01 [byte_ "seqNo"; X 8; byte_ "mode"; byte_ "txOptions"]
  ; mkL "NetworkManagementInclusion.NodeRemove" 0x34 0x03 [byte_ "seqNo"; X 8; byte_ "mode"]
  ; mkL "NetworkManagementInclusion.NodeRemoveStatus" 0x34 0x04 node_status
  ; mkL "NetworkManagementInclusion.FailedNodeRemove" 0x34 0x07 node_req
  ; mkL "NetworkManagementInclusion.FailedNodeRemoveStatus" 0x34 0x08 node_status
  ; mkL "NetworkManagementInclusion.FailedNodeReplace" 0x34 0x09 [byte_ "seqNo"; byte_ "nodeID"; byte_ "txOptions"; byte_ "mode"]
  ; mkL "NetworkManagementInclusion.FailedNodeReplaceStatus" 0x34 0x0A node_status
  ; mkL "NetworkManagementInclusion.NodeNeightborUpdateRequest" 0x34 0x0B node_req
  ; mkL "NetworkManagementInclusion.NodeNeightborUpdateStatus" 0x34 0x0C status_
  ; mkL "NetworkManagementInclusion.ReturnRouteAssign" 0x34 0x0D [byte_ "seqNo"; byte_ "sourceNodeID"; byte_ "destinationNodeID"]
  ; mkL "NetworkManagementInclusion.ReturnRouteAssignComplete" 0x34 0x0E status_
  ; mkL "NetworkManagementInclusion.ReturnRouteDelete" 0x34 0x0F node_req
  ; mkL "NetworkManagementInclusion.ReturnRouteDeleteComplete" 0x34 0x10 status_
  ; mkL "NetworkManagementInclusion.NodeAddKeysReport" 0x34 0x11 [byte_ "seqNo"; X 7; F "requestCSA"; byte_ "requestedKeys"]
  ; mkL "NetworkManagementInclusion.NodeAddKeysSet" 0x34 0x12 [byte_ "seqNo"; X 6; F "grantCSA"; F "accept"; byte_ "grantedKeys"]
  ; mkL "NetworkManagementInclusion.NodeAddDSKReport" 0x34 0x13 [byte_ "seqNo"; X 4; U "inputDSKLength" 4; K "dsk"]
  ; mkL "NetworkManagementInclusion.NodeAddDSKSet" 0x34 0x14 [byte_ "seqNo"; F "accept"; X 3; U "inputDSKLength" 4; K "dsk"]
  ; mkL "NetworkManagementInclusion.SmartStartJoinStartedReport" 0x34 0x15 [byte_ "seqNo"; K "dsk"]
  ; mkL "NetworkManagementInclusion.IncludedNIFReport" 0x34 0x19 [byte_ "seqNo"; K "dsk"]
  ; mkL "NetworkManagementProxy.NodeListGet" 0x52 0x01 [byte_ "seqNo"]
  ; mkL "NetworkManagementProxy.NodeInfoCachedGet" 0x52 0x03 [byte_ "seqNo"; X 4; U "maxAge" 4; byte_ "nodeID"]
  ; mkL "NetworkManagementProxy.NodeInfoCachedReport" 0x52 0x04 [byte_ "seqNo"; U "status" 4; U "age" 4; F "listening"; X 7; F "optFunc"; X 7; X 8;
      byte_ "basicDeviceClass"; byte_ "genericDeviceClass"; byte_ "specificDeviceClass"; R "commandClass"]
  ; mkL "NetworkManagementProxy.MultiChannelEndPointGet" 0x52 0x05 node_req
  ; mkL "NetworkManagementProxy.MultiChannelEndPointReport" 0x52 0x06 [byte_ "seqNo"; byte_ "nodeID"; X 8; X 1; U "individualEndPoints" 7; X 1; U "aggregatedEndPoints" 7]
  ; mkL "NetworkManagementProxy.MultiChannelCapabilityGet" 0x52 0x07 [byte_ "seqNo"; byte_ "nodeID"; X 1; U "endPoint" 7]
  ; mkL "NetworkManagementProxy.MultiChannelCapabilityReport" 0x52 0x08 [byte_ "seqNo"; byte_ "nodeID"; byte_ "commandClassLength"; X 1; U "endPoint" 7;
      byte_ "genericDeviceClass"; byte_ "specificDeviceClass"; R "commandClass"]
  ; mkL "NetworkManagementProxy.FailedNodeListGet" 0x52 0x0B [byte_ "seqNo"]
  ; mkL "NodeProvisioning.Set" 0x78 0x01 [byte_ "seqNo"; K "dsk"; R "metaDataExtension"]
  ; mkL "NodeProvisioning.ListIterationGet" 0x78 0x03 [byte_ "seqNo"; byte_ "remainingCounter"]
  ; mkL "SensorMultilevel.SupportedGetSensor" 0x31 0x01 []
  ; mkL "SensorMultilevel.SupportedGetScale" 0x31 0x03 [byte_ "sensorType"]
  ; mkL "SensorMultilevel.Get" 0x31 0x04 [byte_ "sensorType"; X 3; U "scale" 2; X 3]
  ; mkL "SensorMultilevel.SupportedScaleReport" 0x31 0x06 [byte_ "sensorType"; X 4; U "scaleBitMask" 4]
  ; mkL "Supervision.Get" 0x6C 0x01 [F "statusUpdates"; X 1; U "sessionID" 6; C "command"]
  ; mkL "Supervision.Report" 0x6C 0x02 [F "moreStatusUpdates"; F "wakeUpRequest"; U "sessionID" 6; byte_ "status"; byte_ "duration"]
  ; mkL "SwitchBinary.Set" 0x25 0x01 [byte_ "value"]
  ; mkL "SwitchBinary.Get" 0x25 0x02 []
  ; mkL "SwitchBinary.Report" 0x25 0x03 [byte_ "value"]
  ; mkL "Version.VersionGet" 0x86 0x11 []
  ; mkL "Version.VersionReport" 0x86 0x12 [byte_ "zwaveLibraryType"; byte_ "zwaveProtocolVersion"; byte_ "zwaveProtocolSubVersion"; byte_ "applicationVersion"; byte_ "applicationSubVersion"]
  ; mkL "Version.VersionCommandClassGet" 0x86 0x13 [byte_ "requestedCommandClass"]
  ; mkL "Version.VersionCommandClassReport" 0x86 0x14 [byte_ "requestedCommandClass"; byte_ "commandClassVersion"]
  ; mkL "Zip.ZipPacket" 0x23 0x02 [F "ackRequest"; F "ackResponse"; F "nackResponse"; F "nackWaiting"; F "nackQueueFull"; F "nackOptionError"; X 2;
      F "headerExtIncluded"; F "zwCmdIncluded"; F "moreInformation"; F "secureOrigin"; X 4; byte_ "seqNo"; X 1; U "sourceEP" 7; X 1; U "destEP" 7; H "headerExtension"; C "command"]
  ; mkL "Zip.ZipKeepAlive" 0x23 0x03 [F "ackRequest"; F "ackResponse"; X 6]
  ; mkL "ZipGateway.GatewayModeSet" 0x5F 0x01 [byte_ "mode"]
  ; mkL "ZipGateway.GatewayModeGet" 0x5F 0x02 []
  ; mkL "ZipGateway.GatewayModeReport" 0x5F 0x03 [byte_ "mode"]
  ; mkL "ZipGateway.GatewayPeerSet" 0x5F 0x04 [byte_ "peerProfile"; A "ipv6"; word "port"; X 2; U "peerNameLength" 6]
  ; mkL "ZipGateway.UnsolicitedDestinationSet" 0x5F 0x08 [A "unsolicitedIPv6Destination"; word "port"]
  ; mkL "ZipGateway.ApplicationNodeInfoSet" 0x5F 0x0B [R "commandClasses"]
  ; mkL "ZipND.ZipNodeAdvertisement" 0x58 0x01 [X 5; F "local"; U "validity" 2; byte_ "nodeId"; A "ipv6"; U "homeId" 32]
  ; mkL "ZipND.ZipInvNodeSolicitation" 0x58 0x04 [X 4; F "local"; X 3; byte_ "nodeId"]
  ; mkL "ZwavePlusInfo.Get" 0x5E 0x01 []
  ; mkL "ZwavePlusInfo.Report" 0x5E 0x02 [byte_ "zwavePlusVersion"; byte_ "roleType"; byte_ "nodeType"; word "installerIconType"; word "userIconType"] ].

(** Contents of the fields *)
Inductive content :=
| Num (z : Z) | Bit (b : bool) | Raw (bs : list Z) | Addr (z : Z) | Members (l : list (Z * option Z)) | Cmd (m : val).
(** [lays reserved fs vs b]: the fields [fs] with contents [vs] are the bits [b], reserved bits being as [reserved] says *)
Inductive lays (reserved : list bool -> Prop) : list fld -> list (string * content) -> list bool -> Prop :=
| L_nil : lays reserved [] [] []
| L_num x n z fs vs b : 0 <= z < 2 ^ Z.of_nat n -> lays reserved fs vs b -> lays reserved (U x n :: fs) ((x, Num z) :: vs) (nbits n z ++ b)
| L_bit x f fs vs b : lays reserved fs vs b -> lays reserved (F x :: fs) ((x, Bit f) :: vs) (f :: b)
| L_res n c fs vs b : length c = n -> reserved c -> lays reserved fs vs b -> lays reserved (X n :: fs) vs (c ++ b)
| L_key x bs fs vs b : bytes_ok bs -> length bs = 16%nat -> lays reserved fs vs b -> lays reserved (K x :: fs) ((x, Raw bs) :: vs) (bits_of bs ++ b)
| L_addr x z fs vs b : 0 <= z < 2 ^ 128 -> lays reserved fs vs b -> lays reserved (A x :: fs) ((x, Addr z) :: vs) (nbits 128 z ++ b)
| L_rest x bs : bytes_ok bs -> lays reserved [R x] [(x, Raw bs)] (bits_of bs)
| L_members x l : members_ok l -> lays reserved [M x] [(x, Members l)] (bits_of (member_bytes l))
| L_cmd x m b : encodes m b -> lays reserved [C x] [(x, Cmd m)] b
| L_hdr x fs vs b : lays reserved fs vs b -> lays reserved (H x :: fs) vs b.
(** reserved bits are sent as zero and may be received as anything *)
Definition zeros (c : list bool) : Prop := Forall (fun x => x = false) c.
Definition anything (c : list bool) : Prop := True.

(** the python argument that stands for a content *)
Inductive gives : content -> val -> Prop :=
| G_num z : gives (Num z) (VInt z)
| G_bit f : gives (Bit f) (VBool f)
| G_raw bs : gives (Raw bs) (VPBytes bs)
| G_addr z : gives (Addr z) (VIPv6 z)
| G_members l vs : Forall2 member_arg l vs -> gives (Members l) (VList vs)
| G_cmd m : gives (Cmd m) m.
(** the keyword arguments [kw] are those for [vs], and no others *)
Definition keywords (vs : list (string * content)) (kw : adict) : Prop :=
  (forall x v, In (x, v) vs -> exists w, aget x kw = Some w /\ gives v w) /\
  (forall x w, aget x kw = Some w -> exists v, In (x, v) vs).
(** the python value of an attribute that was received *)
Definition shows (v : content) (w : val) : Prop :=
  match v, w with
  | Num z, (VI false _ z' | VU _ z' | VB _ z') => z' = z
  | Bit f, VF z => z = Z.b2z f
  | Raw bs, (VBytes bs' | VDsk bs') => bs' = bs
  | Addr z, VIPv6 z' => z' = z
  | _, _ => False
  end.
(** layouts without members and commands: what they look like when received is the subject of C09-C14, C18 *)
Definition plain (l : layout) : bool := forallb (fun f => match f with M _ | C _ | H _ => false | _ => true end) (l_flds l).
