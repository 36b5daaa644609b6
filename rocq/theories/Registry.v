(** All message classes registered by pyzwave/commandclass (one definition per class, in
    import order of pyzwave/commandclass/__init__.py l.78-101) as data.

    [mkA name type parse-hook compose-hook] is one entry of the class' [attributes] tuple.
    Simplifications, for all of them: [enum_t(E, base)] (types.py l.275-291) is represented by its base
    type (the enum only affects [__repr__]); [HomeID] by [uint32_t]; nested enum classes are not listed. *)
From Coq Require Import ZArith List String.
From Verif Require Import Schema.
Import ListNotations.
Open Scope string_scope.
Open Scope Z_scope.

(** pyzwave/commandclass/AssociationGrpInfo.py l.108-117: attributes of class GroupInfoGroupType (not a message). *)
Definition sub_AssociationGrpInfo_GroupInfoGroupType : list attr :=
  [ mkA "groupingIdentifier" (TInt false 1) None None
     ; mkA "mode" (TInt false 1) None None
     ; mkA "profile" (TInt false 2) None None
     ; mkA "-" (TRes 8) None None
     ; mkA "eventCode" (TInt false 2) None None ].

(** pyzwave/commandclass/Zip.py l.59-81: attributes of class IMELastWorkingRoute (not a message). *)
Definition sub_Zip_IMELastWorkingRoute : list attr :=
  [ mkA "repeater1" (TInt false 1) None None
     ; mkA "repeater2" (TInt false 1) None None
     ; mkA "repeater3" (TInt false 1) None None
     ; mkA "repeater4" (TInt false 1) None None
     ; mkA "speed" (TInt false 1) None None ].

(** pyzwave/commandclass/Zip.py l.127-134: attributes of class ZIPPacketOptionEncapsulationFormatInfo (not a message). *)
Definition sub_Zip_ZIPPacketOptionEncapsulationFormatInfo : list attr :=
  [ mkA "security2SecurityClass" (TBits 8) None None
     ; mkA "-" (TRes 7) None None
     ; mkA "crc16" (TFlag) None None ].

(** pyzwave/commandclass/Zip.py l.151-180: attributes of class ZIPPacketOption (not a message). *)
Definition sub_Zip_ZIPPacketOption : list attr :=
  [ mkA "critical" (TFlag) None None
     ; mkA "optionType" (TUb 7) None None
     ; mkA "optionData" (TOptData) (Some HOptData) None ].

(** pyzwave/commandclass/ApplicationStatus.py l.23-29 *)
Definition m_ApplicationStatus_ApplicationBusy : schema := mkS "ApplicationStatus.ApplicationBusy" "APPLICATION_BUSY" 34 1
  [ mkA "status" (TInt false 1) None None
     ; mkA "waitTime" (TInt false 1) None None ].

(** pyzwave/commandclass/Association.py l.192-198 *)
Definition m_Association_Get : schema := mkS "Association.Get" "GET" 133 2
  [ mkA "groupingIdentifier" (TInt false 1) None None ].

(** pyzwave/commandclass/Association.py l.201-212 *)
Definition m_Association_Report : schema := mkS "Association.Report" "REPORT" 133 3
  [ mkA "groupingIdentifier" (TInt false 1) None None
     ; mkA "maxNodesSupported" (TInt false 1) None None
     ; mkA "reportsToFollow" (TInt false 1) None None
     ; mkA "nodes" (TNodes) None None ].

(** pyzwave/commandclass/Association.py l.215-224 *)
Definition m_Association_Set : schema := mkS "Association.Set" "SET" 133 1
  [ mkA "groupingIdentifier" (TInt false 1) None None
     ; mkA "nodes" (TNodes) None None ].

(** pyzwave/commandclass/Association.py l.227-231 *)
Definition m_Association_GroupingsGet : schema := mkS "Association.GroupingsGet" "GROUPINGS_GET" 133 5
  [].

(** pyzwave/commandclass/Association.py l.234-240 *)
Definition m_Association_GroupingsReport : schema := mkS "Association.GroupingsReport" "GROUPINGS_REPORT" 133 6
  [ mkA "supportedGroupings" (TInt false 1) None None ].

(** pyzwave/commandclass/AssociationGrpInfo.py l.51-63 *)
Definition m_AssociationGrpInfo_GroupCommandListGet : schema := mkS "AssociationGrpInfo.GroupCommandListGet" "GROUP_COMMAND_LIST_GET" 89 5
  [ mkA "allowCache" (TFlag) None None
     ; mkA "-" (TRes 7) None None
     ; mkA "groupingIdentifier" (TInt false 1) None None ].

(** pyzwave/commandclass/AssociationGrpInfo.py l.66-92 *)
Definition m_AssociationGrpInfo_GroupCommandListReport : schema := mkS "AssociationGrpInfo.GroupCommandListReport" "GROUP_COMMAND_LIST_REPORT" 89 6
  [ mkA "groupingIdentifier" (TInt false 1) None None
     ; mkA "commandClass" (TList) (Some HAgiCmdList) None ].

(** pyzwave/commandclass/AssociationGrpInfo.py l.95-105 *)
Definition m_AssociationGrpInfo_GroupInfoGet : schema := mkS "AssociationGrpInfo.GroupInfoGet" "GROUP_INFO_GET" 89 3
  [ mkA "refreshCache" (TFlag) None None
     ; mkA "listMode" (TFlag) None None
     ; mkA "-" (TRes 6) None None
     ; mkA "groupingIdentifier" (TInt false 1) None None ].

(** pyzwave/commandclass/AssociationGrpInfo.py l.120-140 *)
Definition m_AssociationGrpInfo_GroupInfoReport : schema := mkS "AssociationGrpInfo.GroupInfoReport" "GROUP_INFO_REPORT" 89 4
  [ mkA "listMode" (TFlag) None None
     ; mkA "dynamicInfo" (TFlag) None None
     ; mkA "groupCount" (TBits 6) None None
     ; mkA "groups" (TList) (Some HAgiGroups) None ].

(** pyzwave/commandclass/AssociationGrpInfo.py l.143-148 *)
Definition m_AssociationGrpInfo_GroupNameGet : schema := mkS "AssociationGrpInfo.GroupNameGet" "GROUP_NAME_GET" 89 1
  [ mkA "groupingIdentifier" (TInt false 1) None None ].

(** pyzwave/commandclass/AssociationGrpInfo.py l.151-160 *)
Definition m_AssociationGrpInfo_GroupNameReport : schema := mkS "AssociationGrpInfo.GroupNameReport" "GROUP_NAME_REPORT" 89 2
  [ mkA "groupingIdentifier" (TInt false 1) None None
     ; mkA "name" (TStrT) None None ].

(** pyzwave/commandclass/Basic.py l.13-17 *)
Definition m_Basic_Get : schema := mkS "Basic.Get" "GET" 32 2
  [].

(** pyzwave/commandclass/Basic.py l.20-26 *)
Definition m_Basic_Report : schema := mkS "Basic.Report" "REPORT" 32 3
  [ mkA "value" (TInt false 1) None None ].

(** pyzwave/commandclass/Basic.py l.29-35 *)
Definition m_Basic_Set : schema := mkS "Basic.Set" "SET" 32 1
  [ mkA "value" (TInt false 1) None None ].

(** pyzwave/commandclass/Battery.py l.12-16 *)
Definition m_Battery_Get : schema := mkS "Battery.Get" "GET" 128 2
  [].

(** pyzwave/commandclass/Battery.py l.19-25 *)
Definition m_Battery_Report : schema := mkS "Battery.Report" "REPORT" 128 3
  [ mkA "batteryLevel" (TInt false 1) None None ].

(** pyzwave/commandclass/Configuration.py l.41-46 *)
Definition m_Configuration_BulkGet : schema := mkS "Configuration.BulkGet" "BULK_GET" 112 8
  [ mkA "parameterOffset" (TInt false 2) None None
     ; mkA "numberOfParameters" (TInt false 1) None None ].

(** pyzwave/commandclass/Configuration.py l.49-63 *)
Definition m_Configuration_BulkReport : schema := mkS "Configuration.BulkReport" "BULK_REPORT" 112 9
  [ mkA "parameterOffset" (TInt false 2) None None
     ; mkA "numberOfParameters" (TInt false 1) None None
     ; mkA "reportsToFollow" (TInt false 1) None None
     ; mkA "default" (TFlag) None None
     ; mkA "handshake" (TFlag) None None
     ; mkA "-" (TRes 3) None None
     ; mkA "size" (TUb 3) None None
     ; mkA "parameter" (TBytes) None None ].

(** pyzwave/commandclass/Configuration.py l.66-71 *)
Definition m_Configuration_Get : schema := mkS "Configuration.Get" "GET" 112 5
  [ mkA "parameterNumber" (TInt false 1) None None ].

(** pyzwave/commandclass/Configuration.py l.74-89 *)
Definition m_Configuration_Report : schema := mkS "Configuration.Report" "REPORT" 112 6
  [ mkA "parameterNumber" (TInt false 1) None None
     ; mkA "-" (TRes 5) None None
     ; mkA "size" (TUb 3) None None
     ; mkA "value" (TPyInt) (Some HCfgValue) None ].

(** pyzwave/commandclass/Configuration.py l.92-108 *)
Definition m_Configuration_Set : schema := mkS "Configuration.Set" "SET" 112 4
  [ mkA "parameterNumber" (TInt false 1) None None
     ; mkA "default" (TFlag) None None
     ; mkA "-" (TRes 4) None None
     ; mkA "size" (TUb 3) None None
     ; mkA "value" (TPyInt) None (Some HCfgSetValue) ].

(** pyzwave/commandclass/Indicator.py l.13-17 *)
Definition m_Indicator_Get : schema := mkS "Indicator.Get" "GET" 135 2
  [].

(** pyzwave/commandclass/Indicator.py l.20-26 *)
Definition m_Indicator_Report : schema := mkS "Indicator.Report" "REPORT" 135 3
  [ mkA "value" (TInt false 1) None None ].

(** pyzwave/commandclass/Indicator.py l.29-35 *)
Definition m_Indicator_Set : schema := mkS "Indicator.Set" "SET" 135 1
  [ mkA "value" (TInt false 1) None None ].

(** pyzwave/commandclass/Mailbox.py l.41-45 *)
Definition m_Mailbox_ConfigurationGet : schema := mkS "Mailbox.ConfigurationGet" "CONFIGURATION_GET" 105 1
  [].

(** pyzwave/commandclass/Mailbox.py l.48-60 *)
Definition m_Mailbox_ConfigurationReport : schema := mkS "Mailbox.ConfigurationReport" "CONFIGURATION_REPORT" 105 3
  [ mkA "-" (TRes 3) None None
     ; mkA "supportedModes" (TBits 2) None None
     ; mkA "mode" (TUb 3) None None
     ; mkA "mailboxCapacity" (TInt false 2) None None
     ; mkA "forwardingDestinationIPv6Address" (TIPv6) None None
     ; mkA "udpPortNumber" (TInt false 2) None None ].

(** pyzwave/commandclass/Mailbox.py l.63-79 *)
Definition m_Mailbox_NodeFailing : schema := mkS "Mailbox.NodeFailing" "NODE_FAILING" 105 6
  [ mkA "queueHandle" (TInt false 1) (Some HNodeFailing) None ].

(** pyzwave/commandclass/Mailbox.py l.82-104 *)
Definition m_Mailbox_Queue : schema := mkS "Mailbox.Queue" "QUEUE" 105 4
  [ mkA "-" (TRes 4) None None
     ; mkA "last" (TFlag) None None
     ; mkA "operation" (TUb 3) None None
     ; mkA "queueHandle" (TInt false 1) None None
     ; mkA "mailboxEntry" (TBytes) None None ].

(** pyzwave/commandclass/Mailbox.py l.107-112 *)
Definition m_Mailbox_QueueFlush : schema := mkS "Mailbox.QueueFlush" "QUEUE_FLUSH" 105 7
  [ mkA "queueHandle" (TInt false 1) None None ].

(** pyzwave/commandclass/Mailbox.py l.115-125 *)
Definition m_Mailbox_ConfigurationSet : schema := mkS "Mailbox.ConfigurationSet" "CONFIGURATION_SET" 105 2
  [ mkA "-" (TRes 5) None None
     ; mkA "mode" (TUb 3) None None
     ; mkA "forwardingDestinationIPv6Address" (TIPv6) None None
     ; mkA "udpPortNumber" (TInt false 2) None None ].

(** pyzwave/commandclass/Mailbox.py l.128-133 *)
Definition m_Mailbox_WakeupNotification : schema := mkS "Mailbox.WakeupNotification" "WAKEUP_NOTIFICATION" 105 5
  [ mkA "queueHandle" (TInt false 1) None None ].

(** pyzwave/commandclass/ManufacturerSpecific.py l.30-34 *)
Definition m_ManufacturerSpecific_Get : schema := mkS "ManufacturerSpecific.Get" "GET" 114 4
  [].

(** pyzwave/commandclass/ManufacturerSpecific.py l.37-47 *)
Definition m_ManufacturerSpecific_Report : schema := mkS "ManufacturerSpecific.Report" "REPORT" 114 5
  [ mkA "manufacturerID" (TInt false 2) None None
     ; mkA "productTypeID" (TInt false 2) None None
     ; mkA "productID" (TInt false 2) None None ].

(** pyzwave/commandclass/Meter.py l.65-76 *)
Definition m_Meter_Get : schema := mkS "Meter.Get" "GET" 50 1
  [ mkA "rateType" (TBits 2) None None
     ; mkA "scale" (TBits 3) None None
     ; mkA "-" (TRes 3) None None
     ; mkA "scale2" (TInt false 1) None None ].

(** pyzwave/commandclass/Meter.py l.79-101 *)
Definition m_Meter_Report : schema := mkS "Meter.Report" "REPORT" 50 2
  [ mkA "scale2" (TFlag) None None
     ; mkA "rateType" (TBits 2) None None
     ; mkA "meterType" (TBits 5) None None
     ; mkA "meterValue" (TFloat) None None
     ; mkA "deltaTime" (TInt false 2) None None ].

(** pyzwave/commandclass/Meter.py l.104-108 *)
Definition m_Meter_Reset : schema := mkS "Meter.Reset" "RESET" 50 5
  [].

(** pyzwave/commandclass/Meter.py l.111-115 *)
Definition m_Meter_SupportedGet : schema := mkS "Meter.SupportedGet" "SUPPORTED_GET" 50 3
  [].

(** pyzwave/commandclass/Meter.py l.118-132 *)
Definition m_Meter_SupportedReport : schema := mkS "Meter.SupportedReport" "SUPPORTED_REPORT" 50 4
  [ mkA "meterReset" (TFlag) None None
     ; mkA "rateType" (TBits 2) None None
     ; mkA "meterType" (TBits 5) None None
     ; mkA "moreScaleTypes" (TFlag) None None
     ; mkA "scaleSupported" (TUb 7) None None
     ; mkA "nbrScaleSupportedBytesToFollow" (TInt false 1) None None
     ; mkA "scaleSupportedByteN" (TBytes) None None ].

(** pyzwave/commandclass/MultiChannelAssociation.py l.16-25 *)
Definition m_MultiChannelAssociation_MultiChannelGet : schema := mkS "MultiChannelAssociation.MultiChannelGet" "MULTICHANNEL_GET" 142 2
  [ mkA "groupingIdentifier" (TInt false 1) None None ].

(** pyzwave/commandclass/MultiChannelAssociation.py l.28-37 *)
Definition m_MultiChannelAssociation_MultiChannelReport : schema := mkS "MultiChannelAssociation.MultiChannelReport" "MULTICHANNEL_REPORT" 142 3
  [ mkA "groupingIdentifier" (TInt false 1) None None
     ; mkA "maxNodesSupported" (TInt false 1) None None
     ; mkA "reportsToFollow" (TInt false 1) None None
     ; mkA "nodes" (TNodes) None None ].

(** pyzwave/commandclass/MultiChannelAssociation.py l.40-49 *)
Definition m_MultiChannelAssociation_MultiChannelSet : schema := mkS "MultiChannelAssociation.MultiChannelSet" "MULTICHANNEL_SET" 142 1
  [ mkA "groupingIdentifier" (TInt false 1) None None
     ; mkA "nodes" (TNodes) None None ].

(** pyzwave/commandclass/NetworkManagementInclusion.py l.44-53 *)
Definition m_NetworkManagementInclusion_FailedNodeRemove : schema := mkS "NetworkManagementInclusion.FailedNodeRemove" "FAILED_NODE_REMOVE" 52 7
  [ mkA "seqNo" (TInt false 1) None None
     ; mkA "nodeID" (TInt false 1) None None ].

(** pyzwave/commandclass/NetworkManagementInclusion.py l.56-73 *)
Definition m_NetworkManagementInclusion_FailedNodeRemoveStatus : schema := mkS "NetworkManagementInclusion.FailedNodeRemoveStatus" "FAILED_NODE_REMOVE_STATUS" 52 8
  [ mkA "seqNo" (TInt false 1) None None
     ; mkA "status" (TInt false 1) None None
     ; mkA "nodeID" (TInt false 1) None None ].

(** pyzwave/commandclass/NetworkManagementInclusion.py l.76-87 *)
Definition m_NetworkManagementInclusion_FailedNodeReplace : schema := mkS "NetworkManagementInclusion.FailedNodeReplace" "FAILED_NODE_REPLACE" 52 9
  [ mkA "seqNo" (TInt false 1) None None
     ; mkA "nodeID" (TInt false 1) None None
     ; mkA "txOptions" (TInt false 1) None None
     ; mkA "mode" (TInt false 1) None None ].

(** pyzwave/commandclass/NetworkManagementInclusion.py l.90-104 *)
Definition m_NetworkManagementInclusion_FailedNodeReplaceStatus : schema := mkS "NetworkManagementInclusion.FailedNodeReplaceStatus" "FAILED_NODE_REPLACE_STATUS" 52 10
  [ mkA "seqNo" (TInt false 1) None None
     ; mkA "status" (TInt false 1) None None
     ; mkA "nodeID" (TInt false 1) None None ].

(** pyzwave/commandclass/NetworkManagementInclusion.py l.107-116 *)
Definition m_NetworkManagementInclusion_IncludedNIFReport : schema := mkS "NetworkManagementInclusion.IncludedNIFReport" "INCLUDED_NIF_REPORT" 52 25
  [ mkA "seqNo" (TInt false 1) None None
     ; mkA "dsk" (TDsk) None None ].

(** pyzwave/commandclass/NetworkManagementInclusion.py l.119-137 *)
Definition m_NetworkManagementInclusion_NodeAdd : schema := mkS "NetworkManagementInclusion.NodeAdd" "NODE_ADD" 52 1
  [ mkA "seqNo" (TInt false 1) None None
     ; mkA "-" (TRes 8) None None
     ; mkA "mode" (TInt false 1) None None
     ; mkA "txOptions" (TInt false 1) None None ].

(** pyzwave/commandclass/NetworkManagementInclusion.py l.140-151 *)
Definition m_NetworkManagementInclusion_NodeAddDSKReport : schema := mkS "NetworkManagementInclusion.NodeAddDSKReport" "NODE_ADD_DSK_REPORT" 52 19
  [ mkA "seqNo" (TInt false 1) None None
     ; mkA "-" (TRes 4) None None
     ; mkA "inputDSKLength" (TUb 4) None None
     ; mkA "dsk" (TDsk) None None ].

(** pyzwave/commandclass/NetworkManagementInclusion.py l.154-166 *)
Definition m_NetworkManagementInclusion_NodeAddDSKSet : schema := mkS "NetworkManagementInclusion.NodeAddDSKSet" "NODE_ADD_DSK_SET" 52 20
  [ mkA "seqNo" (TInt false 1) None None
     ; mkA "accept" (TFlag) None None
     ; mkA "-" (TRes 3) None None
     ; mkA "inputDSKLength" (TUb 4) None None
     ; mkA "dsk" (TDsk) None None ].

(** pyzwave/commandclass/NetworkManagementInclusion.py l.178-189 *)
Definition m_NetworkManagementInclusion_NodeAddKeysReport : schema := mkS "NetworkManagementInclusion.NodeAddKeysReport" "NODE_ADD_KEYS_REPORT" 52 17
  [ mkA "seqNo" (TInt false 1) None None
     ; mkA "-" (TRes 7) None None
     ; mkA "requestCSA" (TFlag) None None
     ; mkA "requestedKeys" (TInt false 1) None None ].

(** pyzwave/commandclass/NetworkManagementInclusion.py l.192-204 *)
Definition m_NetworkManagementInclusion_NodeAddKeysSet : schema := mkS "NetworkManagementInclusion.NodeAddKeysSet" "NODE_ADD_KEYS_SET" 52 18
  [ mkA "seqNo" (TInt false 1) None None
     ; mkA "-" (TRes 6) None None
     ; mkA "grantCSA" (TFlag) None None
     ; mkA "accept" (TFlag) None None
     ; mkA "grantedKeys" (TInt false 1) None None ].

(** pyzwave/commandclass/NetworkManagementInclusion.py l.207-246 *)
Definition m_NetworkManagementInclusion_NodeAddStatus : schema := mkS "NetworkManagementInclusion.NodeAddStatus" "NODE_ADD_STATUS" 52 2
  [ mkA "seqNo" (TInt false 1) None None
     ; mkA "status" (TInt false 1) None None
     ; mkA "-" (TRes 8) None None
     ; mkA "newNodeID" (TInt false 1) None None
     ; mkA "nodeInfoLength" (TInt false 1) None None
     ; mkA "listening" (TFlag) None None
     ; mkA "zwaveProtocolSpecific" (TRes 7) None None
     ; mkA "optFunc" (TFlag) None None
     ; mkA "zwaveProtocolSpecific" (TRes 7) None None
     ; mkA "basicDeviceClass" (TInt false 1) None None
     ; mkA "genericDeviceClass" (TInt false 1) None None
     ; mkA "specificDeviceClass" (TInt false 1) None None
     ; mkA "commandClass" (TList) (Some HNodeAddCC) None ].

(** pyzwave/commandclass/NetworkManagementInclusion.py l.249-262 *)
Definition m_NetworkManagementInclusion_NodeNeightborUpdateRequest : schema := mkS "NetworkManagementInclusion.NodeNeightborUpdateRequest" "NODE_NEIGHBOR_UPDATE_REQUEST" 52 11
  [ mkA "seqNo" (TInt false 1) None None
     ; mkA "nodeID" (TInt false 1) None None ].

(** pyzwave/commandclass/NetworkManagementInclusion.py l.265-278 *)
Definition m_NetworkManagementInclusion_NodeNeightborUpdateStatus : schema := mkS "NetworkManagementInclusion.NodeNeightborUpdateStatus" "NODE_NEIGHBOR_UPDATE_STATUS" 52 12
  [ mkA "seqNo" (TInt false 1) None None
     ; mkA "status" (TInt false 1) None None ].

(** pyzwave/commandclass/NetworkManagementInclusion.py l.281-297 *)
Definition m_NetworkManagementInclusion_NodeRemove : schema := mkS "NetworkManagementInclusion.NodeRemove" "NODE_REMOVE" 52 3
  [ mkA "seqNo" (TInt false 1) None None
     ; mkA "-" (TRes 8) None None
     ; mkA "mode" (TInt false 1) None None ].

(** pyzwave/commandclass/NetworkManagementInclusion.py l.300-316 *)
Definition m_NetworkManagementInclusion_NodeRemoveStatus : schema := mkS "NetworkManagementInclusion.NodeRemoveStatus" "NODE_REMOVE_STATUS" 52 4
  [ mkA "seqNo" (TInt false 1) None None
     ; mkA "status" (TInt false 1) None None
     ; mkA "nodeID" (TInt false 1) None None ].

(** pyzwave/commandclass/NetworkManagementInclusion.py l.319-329 *)
Definition m_NetworkManagementInclusion_ReturnRouteAssign : schema := mkS "NetworkManagementInclusion.ReturnRouteAssign" "RETURN_ROUTE_ASSIGN" 52 13
  [ mkA "seqNo" (TInt false 1) None None
     ; mkA "sourceNodeID" (TInt false 1) None None
     ; mkA "destinationNodeID" (TInt false 1) None None ].

(** pyzwave/commandclass/NetworkManagementInclusion.py l.332-345 *)
Definition m_NetworkManagementInclusion_ReturnRouteAssignComplete : schema := mkS "NetworkManagementInclusion.ReturnRouteAssignComplete" "RETURN_ROUTE_ASSIGN_COMPLETE" 52 14
  [ mkA "seqNo" (TInt false 1) None None
     ; mkA "status" (TInt false 1) None None ].

(** pyzwave/commandclass/NetworkManagementInclusion.py l.348-357 *)
Definition m_NetworkManagementInclusion_ReturnRouteDelete : schema := mkS "NetworkManagementInclusion.ReturnRouteDelete" "RETURN_ROUTE_DELETE" 52 15
  [ mkA "seqNo" (TInt false 1) None None
     ; mkA "nodeID" (TInt false 1) None None ].

(** pyzwave/commandclass/NetworkManagementInclusion.py l.360-373 *)
Definition m_NetworkManagementInclusion_ReturnRouteDeleteComplete : schema := mkS "NetworkManagementInclusion.ReturnRouteDeleteComplete" "RETURN_ROUTE_DELETE_COMPLETE" 52 16
  [ mkA "seqNo" (TInt false 1) None None
     ; mkA "status" (TInt false 1) None None ].

(** pyzwave/commandclass/NetworkManagementInclusion.py l.376-391 *)
Definition m_NetworkManagementInclusion_SmartStartJoinStartedReport : schema := mkS "NetworkManagementInclusion.SmartStartJoinStartedReport" "SMART_START_JOIN_STARTED_REPORT" 52 21
  [ mkA "seqNo" (TInt false 1) None None
     ; mkA "dsk" (TDsk) None None ].

(** pyzwave/commandclass/NetworkManagementProxy.py l.48-54 *)
Definition m_NetworkManagementProxy_FailedNodeListGet : schema := mkS "NetworkManagementProxy.FailedNodeListGet" "COMMAND_FAILED_NODE_LIST_GET" 82 11
  [ mkA "seqNo" (TInt false 1) None None ].

(** pyzwave/commandclass/NetworkManagementProxy.py l.57-68 *)
Definition m_NetworkManagementProxy_FailedNodeListReport : schema := mkS "NetworkManagementProxy.FailedNodeListReport" "COMMAND_FAILED_NODE_LIST_REPORT" 82 12
  [ mkA "seqNo" (TInt false 1) None None
     ; mkA "failedNodeList" (TNodeList) None None ].

(** pyzwave/commandclass/NetworkManagementProxy.py l.71-85 *)
Definition m_NetworkManagementProxy_MultiChannelCapabilityGet : schema := mkS "NetworkManagementProxy.MultiChannelCapabilityGet" "NM_MULTI_CHANNEL_CAPABILITY_GET" 82 7
  [ mkA "seqNo" (TInt false 1) None None
     ; mkA "nodeID" (TInt false 1) None None
     ; mkA "-" (TRes 1) None None
     ; mkA "endPoint" (TUb 7) None None ].

(** pyzwave/commandclass/NetworkManagementProxy.py l.88-108 *)
Definition m_NetworkManagementProxy_MultiChannelCapabilityReport : schema := mkS "NetworkManagementProxy.MultiChannelCapabilityReport" "NM_MULTI_CHANNEL_CAPABILITY_REPORT" 82 8
  [ mkA "seqNo" (TInt false 1) None None
     ; mkA "nodeID" (TInt false 1) None None
     ; mkA "commandClassLength" (TInt false 1) None None
     ; mkA "-" (TRes 1) None None
     ; mkA "endPoint" (TUb 7) None None
     ; mkA "genericDeviceClass" (TInt false 1) None None
     ; mkA "specificDeviceClass" (TInt false 1) None None
     ; mkA "commandClass" (TBytes) None None ].

(** pyzwave/commandclass/NetworkManagementProxy.py l.111-123 *)
Definition m_NetworkManagementProxy_MultiChannelEndPointGet : schema := mkS "NetworkManagementProxy.MultiChannelEndPointGet" "NM_MULTI_CHANNEL_END_POINT_GET" 82 5
  [ mkA "seqNo" (TInt false 1) None None
     ; mkA "nodeID" (TInt false 1) None None ].

(** pyzwave/commandclass/NetworkManagementProxy.py l.126-143 *)
Definition m_NetworkManagementProxy_MultiChannelEndPointReport : schema := mkS "NetworkManagementProxy.MultiChannelEndPointReport" "NM_MULTI_CHANNEL_END_POINT_REPORT" 82 6
  [ mkA "seqNo" (TInt false 1) None None
     ; mkA "nodeID" (TInt false 1) None None
     ; mkA "-" (TRes 8) None None
     ; mkA "-" (TRes 1) None None
     ; mkA "individualEndPoints" (TUb 7) None None
     ; mkA "-" (TRes 1) None None
     ; mkA "aggregatedEndPoints" (TUb 7) None None ].

(** pyzwave/commandclass/NetworkManagementProxy.py l.146-157 *)
Definition m_NetworkManagementProxy_NodeInfoCachedGet : schema := mkS "NetworkManagementProxy.NodeInfoCachedGet" "NODE_INFO_CACHED_GET" 82 3
  [ mkA "seqNo" (TInt false 1) None None
     ; mkA "-" (TRes 4) None None
     ; mkA "maxAge" (TBits 4) None None
     ; mkA "nodeID" (TInt false 1) None None ].

(** pyzwave/commandclass/NetworkManagementProxy.py l.160-186 *)
Definition m_NetworkManagementProxy_NodeInfoCachedReport : schema := mkS "NetworkManagementProxy.NodeInfoCachedReport" "NODE_INFO_CACHED_REPORT" 82 4
  [ mkA "seqNo" (TInt false 1) None None
     ; mkA "status" (TUb 4) None None
     ; mkA "age" (TUb 4) None None
     ; mkA "listening" (TFlag) None None
     ; mkA "zwaveProtocolSpecific" (TRes 7) None None
     ; mkA "optFunc" (TFlag) None None
     ; mkA "zwaveProtocolSpecific" (TRes 7) None None
     ; mkA "-" (TRes 8) None None
     ; mkA "basicDeviceClass" (TInt false 1) None None
     ; mkA "genericDeviceClass" (TInt false 1) None None
     ; mkA "specificDeviceClass" (TInt false 1) None None
     ; mkA "commandClass" (TBytes) None None ].

(** pyzwave/commandclass/NetworkManagementProxy.py l.189-195 *)
Definition m_NetworkManagementProxy_NodeListGet : schema := mkS "NetworkManagementProxy.NodeListGet" "NODE_LIST_GET" 82 1
  [ mkA "seqNo" (TInt false 1) None None ].

(** pyzwave/commandclass/NetworkManagementProxy.py l.198-209 *)
Definition m_NetworkManagementProxy_NodeListReport : schema := mkS "NetworkManagementProxy.NodeListReport" "NODE_LIST_REPORT" 82 2
  [ mkA "seqNo" (TInt false 1) None None
     ; mkA "status" (TInt false 1) None None
     ; mkA "nodeListControllerId" (TInt false 1) None None
     ; mkA "nodes" (TNodeList) None None ].

(** pyzwave/commandclass/NodeProvisioning.py l.46-52 *)
Definition m_NodeProvisioning_Set : schema := mkS "NodeProvisioning.Set" "NODE_PROVISIONING_SET" 120 1
  [ mkA "seqNo" (TInt false 1) None None
     ; mkA "dsk" (TDsk) None None
     ; mkA "metaDataExtension" (TBytes) None None ].

(** pyzwave/commandclass/NodeProvisioning.py l.55-67 *)
Definition m_NodeProvisioning_ListIterationGet : schema := mkS "NodeProvisioning.ListIterationGet" "LIST_ITERATION_GET" 120 3
  [ mkA "seqNo" (TInt false 1) None None
     ; mkA "remainingCounter" (TInt false 1) None None ].

(** pyzwave/commandclass/NodeProvisioning.py l.70-93 *)
Definition m_NodeProvisioning_ListIterationReport : schema := mkS "NodeProvisioning.ListIterationReport" "LIST_ITERATION_REPORT" 120 4
  [ mkA "seqNo" (TInt false 1) None None
     ; mkA "remainingCount" (TInt false 1) None None
     ; mkA "-" (TRes 3) None None
     ; mkA "dskLengthN" (TUb 5) None None
     ; mkA "dsk" (TDsk) (Some HIterDsk) None
     ; mkA "metaDataExtension" (TMeta) None None ].

(** pyzwave/commandclass/SensorMultilevel.py l.69-80 *)
Definition m_SensorMultilevel_Get : schema := mkS "SensorMultilevel.Get" "GET" 49 4
  [ mkA "sensorType" (TInt false 1) None None
     ; mkA "-" (TRes 3) None None
     ; mkA "scale" (TBits 2) None None
     ; mkA "-" (TRes 3) None None ].

(** pyzwave/commandclass/SensorMultilevel.py l.83-92 *)
Definition m_SensorMultilevel_Report : schema := mkS "SensorMultilevel.Report" "REPORT" 49 5
  [ mkA "sensorType" (TInt false 1) None None
     ; mkA "sensorValue" (TFloat) None None ].

(** pyzwave/commandclass/SensorMultilevel.py l.95-104 *)
Definition m_SensorMultilevel_SupportedGetScale : schema := mkS "SensorMultilevel.SupportedGetScale" "SUPPORTED_GET_SCALE" 49 3
  [ mkA "sensorType" (TInt false 1) None None ].

(** pyzwave/commandclass/SensorMultilevel.py l.107-117 *)
Definition m_SensorMultilevel_SupportedGetSensor : schema := mkS "SensorMultilevel.SupportedGetSensor" "SUPPORTED_GET_SENSOR" 49 1
  [].

(** pyzwave/commandclass/SensorMultilevel.py l.120-135 *)
Definition m_SensorMultilevel_SupportedScaleReport : schema := mkS "SensorMultilevel.SupportedScaleReport" "SUPPORTED_SCALE_REPORT" 49 6
  [ mkA "sensorType" (TInt false 1) None None
     ; mkA "-" (TRes 4) None None
     ; mkA "scaleBitMask" (TBits 4) None None ].

(** pyzwave/commandclass/SensorMultilevel.py l.138-149 *)
Definition m_SensorMultilevel_SupportedSensorReport : schema := mkS "SensorMultilevel.SupportedSensorReport" "SUPPORTED_SENSOR_REPORT" 49 2
  [ mkA "bitMask" (TSensors) None None ].

(** pyzwave/commandclass/Supervision.py l.13-30 *)
Definition m_Supervision_Get : schema := mkS "Supervision.Get" "SUPERVISION_GET" 108 1
  [ mkA "statusUpdates" (TFlag) None None
     ; mkA "-" (TRes 1) None None
     ; mkA "sessionID" (TBits 6) None None
     ; mkA "command" (TMsg) (Some HSupCommand) None ].

(** pyzwave/commandclass/Supervision.py l.33-45 *)
Definition m_Supervision_Report : schema := mkS "Supervision.Report" "SUPERVISION_REPORT" 108 2
  [ mkA "moreStatusUpdates" (TFlag) None None
     ; mkA "wakeUpRequest" (TFlag) None None
     ; mkA "sessionID" (TBits 6) None None
     ; mkA "status" (TInt false 1) None None
     ; mkA "duration" (TInt false 1) None None ].

(** pyzwave/commandclass/SwitchBinary.py l.14-18 *)
Definition m_SwitchBinary_Get : schema := mkS "SwitchBinary.Get" "GET" 37 2
  [].

(** pyzwave/commandclass/SwitchBinary.py l.21-27 *)
Definition m_SwitchBinary_Report : schema := mkS "SwitchBinary.Report" "REPORT" 37 3
  [ mkA "value" (TInt false 1) None None ].

(** pyzwave/commandclass/SwitchBinary.py l.30-36 *)
Definition m_SwitchBinary_Set : schema := mkS "SwitchBinary.Set" "SET" 37 1
  [ mkA "value" (TInt false 1) None None ].

(** pyzwave/commandclass/Version.py l.37-41 *)
Definition m_Version_VersionGet : schema := mkS "Version.VersionGet" "VERSION_GET" 134 17
  [].

(** pyzwave/commandclass/Version.py l.44-56 *)
Definition m_Version_VersionReport : schema := mkS "Version.VersionReport" "VERSION_REPORT" 134 18
  [ mkA "zwaveLibraryType" (TInt false 1) None None
     ; mkA "zwaveProtocolVersion" (TInt false 1) None None
     ; mkA "zwaveProtocolSubVersion" (TInt false 1) None None
     ; mkA "applicationVersion" (TInt false 1) None None
     ; mkA "applicationSubVersion" (TInt false 1) None None ].

(** pyzwave/commandclass/Version.py l.59-64 *)
Definition m_Version_VersionCommandClassGet : schema := mkS "Version.VersionCommandClassGet" "VERSION_COMMAND_CLASS_GET" 134 19
  [ mkA "requestedCommandClass" (TInt false 1) None None ].

(** pyzwave/commandclass/Version.py l.67-76 *)
Definition m_Version_VersionCommandClassReport : schema := mkS "Version.VersionCommandClassReport" "VERSION_COMMAND_CLASS_REPORT" 134 20
  [ mkA "requestedCommandClass" (TInt false 1) None None
     ; mkA "commandClassVersion" (TInt false 1) None None ].

(** pyzwave/commandclass/Zip.py l.211-223 *)
Definition m_Zip_ZipKeepAlive : schema := mkS "Zip.ZipKeepAlive" "ZIP_KEEP_ALIVE" 35 3
  [ mkA "ackRequest" (TFlag) None None
     ; mkA "ackResponse" (TFlag) None None
     ; mkA "_" (TRes 6) None None ].

(** pyzwave/commandclass/Zip.py l.226-289 *)
Definition m_Zip_ZipPacket : schema := mkS "Zip.ZipPacket" "ZIP_PACKET" 35 2
  [ mkA "ackRequest" (TFlag) None None
     ; mkA "ackResponse" (TFlag) None None
     ; mkA "nackResponse" (TFlag) None None
     ; mkA "nackWaiting" (TFlag) None None
     ; mkA "nackQueueFull" (TFlag) None None
     ; mkA "nackOptionError" (TFlag) None None
     ; mkA "_" (TRes 2) None None
     ; mkA "headerExtIncluded" (TFlag) None None
     ; mkA "zwCmdIncluded" (TFlag) None None
     ; mkA "moreInformation" (TFlag) None None
     ; mkA "secureOrigin" (TFlag) None None
     ; mkA "_" (TRes 4) None None
     ; mkA "seqNo" (TInt false 1) None None
     ; mkA "-" (TRes 1) None None
     ; mkA "sourceEP" (TUb 7) None None
     ; mkA "-" (TRes 1) None None
     ; mkA "destEP" (TUb 7) None None
     ; mkA "headerExtension" (THdr) (Some HHeaderExt) None
     ; mkA "command" (TMsg) None None ].

(** pyzwave/commandclass/ZipGateway.py l.24-31 *)
Definition m_ZipGateway_ApplicationNodeInfoSet : schema := mkS "ZipGateway.ApplicationNodeInfoSet" "COMMAND_APPLICATION_NODE_INFO_SET" 95 11
  [ mkA "commandClasses" (TBytes) None None ].

(** pyzwave/commandclass/ZipGateway.py l.34-40 *)
Definition m_ZipGateway_GatewayModeGet : schema := mkS "ZipGateway.GatewayModeGet" "GATEWAY_MODE_GET" 95 2
  [].

(** pyzwave/commandclass/ZipGateway.py l.43-50 *)
Definition m_ZipGateway_GatewayModeReport : schema := mkS "ZipGateway.GatewayModeReport" "GATEWAY_MODE_REPORT" 95 3
  [ mkA "mode" (TInt false 1) None None ].

(** pyzwave/commandclass/ZipGateway.py l.53-60 *)
Definition m_ZipGateway_GatewayModeSet : schema := mkS "ZipGateway.GatewayModeSet" "GATEWAY_MODE_SET" 95 1
  [ mkA "mode" (TInt false 1) None None ].

(** pyzwave/commandclass/ZipGateway.py l.63-76 *)
Definition m_ZipGateway_GatewayPeerSet : schema := mkS "ZipGateway.GatewayPeerSet" "GATEWAY_PEER_SET" 95 4
  [ mkA "peerProfile" (TInt false 1) None None
     ; mkA "ipv6" (TIPv6) None None
     ; mkA "port" (TInt false 2) None None
     ; mkA "-" (TRes 2) None None
     ; mkA "peerNameLength" (TBits 6) None None ].

(** pyzwave/commandclass/ZipGateway.py l.79-89 *)
Definition m_ZipGateway_UnsolicitedDestinationSet : schema := mkS "ZipGateway.UnsolicitedDestinationSet" "UNSOLICITED_DESTINATION_SET" 95 8
  [ mkA "unsolicitedIPv6Destination" (TIPv6) None None
     ; mkA "port" (TInt false 2) None None ].

(** pyzwave/commandclass/ZipND.py l.20-32 *)
Definition m_ZipND_ZipInvNodeSolicitation : schema := mkS "ZipND.ZipInvNodeSolicitation" "ZIP_INV_NODE_SOLICITATION" 88 4
  [ mkA "-" (TRes 4) None None
     ; mkA "local" (TFlag) None None
     ; mkA "-" (TRes 3) None None
     ; mkA "nodeId" (TInt false 1) None None ].

(** pyzwave/commandclass/ZipND.py l.35-50 *)
Definition m_ZipND_ZipNodeAdvertisement : schema := mkS "ZipND.ZipNodeAdvertisement" "ZIP_NODE_ADVERTISEMENT" 88 1
  [ mkA "-" (TRes 5) None None
     ; mkA "local" (TFlag) None None
     ; mkA "validity" (TBits 2) None None
     ; mkA "nodeId" (TInt false 1) None None
     ; mkA "ipv6" (TIPv6) None None
     ; mkA "homeId" (TInt false 4) None None ].

(** pyzwave/commandclass/ZwavePlusInfo.py l.34-38 *)
Definition m_ZwavePlusInfo_Get : schema := mkS "ZwavePlusInfo.Get" "GET" 94 1
  [].

(** pyzwave/commandclass/ZwavePlusInfo.py l.41-53 *)
Definition m_ZwavePlusInfo_Report : schema := mkS "ZwavePlusInfo.Report" "REPORT" 94 2
  [ mkA "zwavePlusVersion" (TInt false 1) None None
     ; mkA "roleType" (TInt false 1) None None
     ; mkA "nodeType" (TInt false 1) None None
     ; mkA "installerIconType" (TInt false 2) None None
     ; mkA "userIconType" (TInt false 2) None None ].

(** pyzwave/commandclass/__init__.py l.9-25, 47: the message registry.  [ZWaveMessage] is a dict keyed by
    hid; the list keeps registration order and lookup takes the *last* registration of a hid. *)
Definition registry : list schema :=
  [ m_ApplicationStatus_ApplicationBusy
  ; m_Association_Get
  ; m_Association_Report
  ; m_Association_Set
  ; m_Association_GroupingsGet
  ; m_Association_GroupingsReport
  ; m_AssociationGrpInfo_GroupCommandListGet
  ; m_AssociationGrpInfo_GroupCommandListReport
  ; m_AssociationGrpInfo_GroupInfoGet
  ; m_AssociationGrpInfo_GroupInfoReport
  ; m_AssociationGrpInfo_GroupNameGet
  ; m_AssociationGrpInfo_GroupNameReport
  ; m_Basic_Get
  ; m_Basic_Report
  ; m_Basic_Set
  ; m_Battery_Get
  ; m_Battery_Report
  ; m_Configuration_BulkGet
  ; m_Configuration_BulkReport
  ; m_Configuration_Get
  ; m_Configuration_Report
  ; m_Configuration_Set
  ; m_Indicator_Get
  ; m_Indicator_Report
  ; m_Indicator_Set
  ; m_Mailbox_ConfigurationGet
  ; m_Mailbox_ConfigurationReport
  ; m_Mailbox_NodeFailing
  ; m_Mailbox_Queue
  ; m_Mailbox_QueueFlush
  ; m_Mailbox_ConfigurationSet
  ; m_Mailbox_WakeupNotification
  ; m_ManufacturerSpecific_Get
  ; m_ManufacturerSpecific_Report
  ; m_Meter_Get
  ; m_Meter_Report
  ; m_Meter_Reset
  ; m_Meter_SupportedGet
  ; m_Meter_SupportedReport
  ; m_MultiChannelAssociation_MultiChannelGet
  ; m_MultiChannelAssociation_MultiChannelReport
  ; m_MultiChannelAssociation_MultiChannelSet
  ; m_NetworkManagementInclusion_FailedNodeRemove
  ; m_NetworkManagementInclusion_FailedNodeRemoveStatus
  ; m_NetworkManagementInclusion_FailedNodeReplace
  ; m_NetworkManagementInclusion_FailedNodeReplaceStatus
  ; m_NetworkManagementInclusion_IncludedNIFReport
  ; m_NetworkManagementInclusion_NodeAdd
  ; m_NetworkManagementInclusion_NodeAddDSKReport
  ; m_NetworkManagementInclusion_NodeAddDSKSet
  ; m_NetworkManagementInclusion_NodeAddKeysReport
  ; m_NetworkManagementInclusion_NodeAddKeysSet
  ; m_NetworkManagementInclusion_NodeAddStatus
  ; m_NetworkManagementInclusion_NodeNeightborUpdateRequest
  ; m_NetworkManagementInclusion_NodeNeightborUpdateStatus
  ; m_NetworkManagementInclusion_NodeRemove
  ; m_NetworkManagementInclusion_NodeRemoveStatus
  ; m_NetworkManagementInclusion_ReturnRouteAssign
  ; m_NetworkManagementInclusion_ReturnRouteAssignComplete
  ; m_NetworkManagementInclusion_ReturnRouteDelete
  ; m_NetworkManagementInclusion_ReturnRouteDeleteComplete
  ; m_NetworkManagementInclusion_SmartStartJoinStartedReport
  ; m_NetworkManagementProxy_FailedNodeListGet
  ; m_NetworkManagementProxy_FailedNodeListReport
  ; m_NetworkManagementProxy_MultiChannelCapabilityGet
  ; m_NetworkManagementProxy_MultiChannelCapabilityReport
  ; m_NetworkManagementProxy_MultiChannelEndPointGet
  ; m_NetworkManagementProxy_MultiChannelEndPointReport
  ; m_NetworkManagementProxy_NodeInfoCachedGet
  ; m_NetworkManagementProxy_NodeInfoCachedReport
  ; m_NetworkManagementProxy_NodeListGet
  ; m_NetworkManagementProxy_NodeListReport
  ; m_NodeProvisioning_Set
  ; m_NodeProvisioning_ListIterationGet
  ; m_NodeProvisioning_ListIterationReport
  ; m_SensorMultilevel_Get
  ; m_SensorMultilevel_Report
  ; m_SensorMultilevel_SupportedGetScale
  ; m_SensorMultilevel_SupportedGetSensor
  ; m_SensorMultilevel_SupportedScaleReport
  ; m_SensorMultilevel_SupportedSensorReport
  ; m_Supervision_Get
  ; m_Supervision_Report
  ; m_SwitchBinary_Get
  ; m_SwitchBinary_Report
  ; m_SwitchBinary_Set
  ; m_Version_VersionGet
  ; m_Version_VersionReport
  ; m_Version_VersionCommandClassGet
  ; m_Version_VersionCommandClassReport
  ; m_Zip_ZipKeepAlive
  ; m_Zip_ZipPacket
  ; m_ZipGateway_ApplicationNodeInfoSet
  ; m_ZipGateway_GatewayModeGet
  ; m_ZipGateway_GatewayModeReport
  ; m_ZipGateway_GatewayModeSet
  ; m_ZipGateway_GatewayPeerSet
  ; m_ZipGateway_UnsolicitedDestinationSet
  ; m_ZipND_ZipInvNodeSolicitation
  ; m_ZipND_ZipNodeAdvertisement
  ; m_ZwavePlusInfo_Get
  ; m_ZwavePlusInfo_Report ].
