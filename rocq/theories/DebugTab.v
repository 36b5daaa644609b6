(** Names used by [__repr__] (types.py l.281-289, message.py l.64-70): the enums, which attribute has which, and the command
    classes, as data.  An enum is its python name, whether it is an IntFlag, and its members. *)
From Coq Require Import ZArith List String.
Import ListNotations.
Open Scope string_scope.
Open Scope Z_scope.

Record enum := mkE { e_name : string; e_flag : bool; e_members : list (Z * string) }.

(** pyzwave/commandclass/ApplicationStatus.py l.15-20 *)
Definition e_ApplicationStatus_Status : enum := mkE "Status" false [(0, "TRY_AGAIN_LATER"); (1, "TRY_AGAIN_IN_WAIT_TIME_SECONDS"); (2, "REQUEST_QUEUED_EXECUTED_LATER")].

(** pyzwave/commandclass/Configuration.py l.30-35 *)
Definition e_Configuration_Size : enum := mkE "Size" false [(1, "SIZE_8_BIT"); (2, "SIZE_16_BIT"); (4, "SIZE_32_BIT")].

(** pyzwave/commandclass/Mailbox.py l.30-35 *)
Definition e_Mailbox_Mode : enum := mkE "Mode" true [(0, "DISABLE_MAILBOX"); (1, "ENABLE_MAILBOX_SERVICE"); (2, "ENABLE_MAILBOX_PROXY_FORWARDING")].

(** pyzwave/commandclass/Mailbox.py l.86-95 *)
Definition e_Mailbox_Queue_Operation : enum := mkE "Operation" false [(0, "PUSH"); (1, "POP"); (2, "WAITING"); (3, "PING"); (4, "ACK"); (5, "NACK"); (6, "QUEUE_FULL")].

(** pyzwave/commandclass/Meter.py l.53-59 *)
Definition e_Meter_RateType : enum := mkE "RateType" false [(0, "UNSPECIFIED"); (1, "IMPORT"); (2, "EXPORT"); (3, "BOTH_IMPORT_AND_EXPORT")].

(** pyzwave/commandclass/Meter.py l.27-34 *)
Definition e_Meter_MeterType : enum := mkE "MeterType" false [(1, "ELECTRIC_METER"); (2, "GAS_METER"); (3, "WATER_METER"); (4, "HEATING_METER"); (5, "COOLING_METER")].

(** pyzwave/commandclass/NetworkManagementInclusion.py l.62-67 *)
Definition e_NetworkManagementInclusion_FailedNodeRemoveStatus_Status : enum := mkE "Status" false [(0, "NOT_FOUND"); (1, "DONE"); (2, "REMOVE_FAIL")].

(** pyzwave/commandclass/NetworkManagementInclusion.py l.125-130 *)
Definition e_NetworkManagementInclusion_NodeAdd_Mode : enum := mkE "Mode" false [(1, "ANY"); (5, "STOP"); (7, "ANY_S2")].

(** pyzwave/commandclass/NetworkManagementInclusion.py l.169-175 *)
Definition e_NetworkManagementInclusion_Keys : enum := mkE "Keys" true [(1, "UNAUTHENTICATED_SECURITY_CLASS"); (2, "AUTHENTICATED_SECURITY_CLASS"); (4, "ACCESS_CONTROL_SECURITY_CLASS"); (128, "SECURITY_0_NETWORK_KEY")].

(** pyzwave/commandclass/NetworkManagementInclusion.py l.211-219 *)
Definition e_NetworkManagementInclusion_NodeAddStatus_Status : enum := mkE "Status" false [(2, "NODE_FOUND"); (3, "ADD_SLAVE"); (5, "PROTOCOL_DONE"); (6, "DONE"); (7, "FAILED"); (9, "SECURITY_FAILED")].

(** pyzwave/commandclass/NetworkManagementInclusion.py l.287-291 *)
Definition e_NetworkManagementInclusion_NodeRemove_Mode : enum := mkE "Mode" false [(1, "ANY"); (5, "STOP")].

(** pyzwave/commandclass/NetworkManagementInclusion.py l.306-310 *)
Definition e_NetworkManagementInclusion_NodeRemoveStatus_Status : enum := mkE "Status" false [(6, "DONE"); (7, "FAILED")].

(** pyzwave/commandclass/NetworkManagementProxy.py l.166-171 *)
Definition e_NetworkManagementProxy_NodeInfoCachedReport_Status : enum := mkE "Status" false [(0, "OK"); (1, "NOT_RESPONDING"); (2, "UNKNOWN")].

(** pyzwave/commandclass/SensorMultilevel.py l.26-46 *)
Definition e_SensorMultilevel_SensorType : enum := mkE "SensorType" false [(1, "TEMPERATURE"); (2, "GENERAL_PURPOSE"); (3, "LUMINANCE"); (4, "POWER"); (5, "HUMIDITY"); (6, "VELOCITY"); (9, "BAROMETRIC_PRESSURE"); (11, "DEW_POINT"); (12, "RAIN_RATE"); (14, "WEIGHT"); (15, "VOLTAGE"); (17, "CO2"); (19, "VOLUME"); (27, "UV"); (30, "LOUDNESS"); (31, "MOISTURE"); (35, "PM25"); (40, "CO")].

(** pyzwave/commandclass/Zip.py l.62-67 *)
Definition e_Zip_IMELastWorkingRoute_Speed : enum := mkE "Speed" false [(1, "SPEED_9_6_KBIT_S"); (2, "SPEED_40_KBIT_S"); (3, "SPEED_100_KBIT_S")].

(** pyzwave/commandclass/Zip.py l.141-148 *)
Definition e_Zip_ZIPPacketOptionType : enum := mkE "ZIPPacketOptionType" false [(1, "EXPECTED_DELAY"); (2, "MAINTENANCE_GET"); (3, "MAINTENANCE_REPORT"); (4, "ENCAPSULATION_FORMAT_INFORMATION"); (5, "ZWAVE_MULTICAST_ADDRESSING")].

(** pyzwave/commandclass/Zip.py l.32-43 *)
Definition e_Zip_IMEType : enum := mkE "IMEType" false [(0, "ROUTE_CHANGED"); (1, "TRANSMISION_TIME"); (2, "LAST_WORKING_ROUTE"); (3, "RSSI"); (4, "ACK_CHANNEL"); (5, "TRANSMIT_CHANNEL"); (6, "ROUTING_SCHEME"); (7, "ROUTING_ATTEMPTS"); (8, "LAST_FAILED_LINK")].

(** pyzwave/commandclass/NodeProvisioning.py l.16-28 *)
Definition e_NodeProvisioning_MetadataExtensionType : enum := mkE "MetadataExtensionType" false [(0, "PRODUCT_TYPE"); (1, "PRODUCT_ID"); (2, "MAX_INCLUSION_REQUEST_INTERVAL"); (3, "UUID16"); (50, "NAME"); (51, "LOCATION"); (52, "SMART_START_INCLUSION_SETTING"); (53, "ADVANCED_JOINING"); (54, "BOOTSTRAPPING_MODE"); (55, "NETWORK_STATUS")].

(** the attributes declared with [enum_t(E, base)], by class and name *)
Definition enums : list (string * string * enum) :=
  [ ("ApplicationStatus.ApplicationBusy", "status", e_ApplicationStatus_Status)
  ; ("Configuration.BulkReport", "size", e_Configuration_Size)
  ; ("Configuration.Report", "size", e_Configuration_Size)
  ; ("Configuration.Set", "size", e_Configuration_Size)
  ; ("Mailbox.ConfigurationReport", "mode", e_Mailbox_Mode)
  ; ("Mailbox.Queue", "operation", e_Mailbox_Queue_Operation)
  ; ("Mailbox.ConfigurationSet", "mode", e_Mailbox_Mode)
  ; ("Meter.Get", "rateType", e_Meter_RateType)
  ; ("Meter.Report", "rateType", e_Meter_RateType)
  ; ("Meter.Report", "meterType", e_Meter_MeterType)
  ; ("Meter.SupportedReport", "rateType", e_Meter_RateType)
  ; ("Meter.SupportedReport", "meterType", e_Meter_MeterType)
  ; ("NetworkManagementInclusion.FailedNodeRemoveStatus", "status", e_NetworkManagementInclusion_FailedNodeRemoveStatus_Status)
  ; ("NetworkManagementInclusion.NodeAdd", "mode", e_NetworkManagementInclusion_NodeAdd_Mode)
  ; ("NetworkManagementInclusion.NodeAddKeysReport", "requestedKeys", e_NetworkManagementInclusion_Keys)
  ; ("NetworkManagementInclusion.NodeAddKeysSet", "grantedKeys", e_NetworkManagementInclusion_Keys)
  ; ("NetworkManagementInclusion.NodeAddStatus", "status", e_NetworkManagementInclusion_NodeAddStatus_Status)
  ; ("NetworkManagementInclusion.NodeRemove", "mode", e_NetworkManagementInclusion_NodeRemove_Mode)
  ; ("NetworkManagementInclusion.NodeRemoveStatus", "status", e_NetworkManagementInclusion_NodeRemoveStatus_Status)
  ; ("NetworkManagementProxy.NodeInfoCachedReport", "status", e_NetworkManagementProxy_NodeInfoCachedReport_Status)
  ; ("SensorMultilevel.Get", "sensorType", e_SensorMultilevel_SensorType)
  ; ("SensorMultilevel.Report", "sensorType", e_SensorMultilevel_SensorType)
  ; ("SensorMultilevel.SupportedGetScale", "sensorType", e_SensorMultilevel_SensorType)
  ; ("SensorMultilevel.SupportedScaleReport", "sensorType", e_SensorMultilevel_SensorType)
  ; ("Zip.IMELastWorkingRoute", "speed", e_Zip_IMELastWorkingRoute_Speed)
  ; ("Zip.ZIPPacketOption", "optionType", e_Zip_ZIPPacketOptionType) ].

(** pyzwave/commandclass/__init__.py l.41, l.69-74 registerCmdClass, called by each module *)
Definition cmd_classes : list (Z * string) :=
  [ (34, "APPLICATION_STATUS")
  ; (133, "ASSOCIATION")
  ; (89, "ASSOCIATION_GRP_INFO")
  ; (32, "BASIC")
  ; (128, "BATTERY")
  ; (112, "CONFIGURATION")
  ; (135, "INDICATOR")
  ; (105, "MAILBOX")
  ; (114, "MANUFACTURER_SPECIFIC")
  ; (50, "METER")
  ; (52, "NETWORK_MANAGEMENT_INCLUSION")
  ; (82, "NETWORK_MANAGEMENT_PROXY")
  ; (120, "NODE_PROVISIONING")
  ; (49, "SENSOR_MULTILEVEL")
  ; (108, "SUPERVISION")
  ; (37, "SWITCH_BINARY")
  ; (134, "VERSION")
  ; (35, "ZIP")
  ; (95, "ZIP_GATEWAY")
  ; (88, "ZIP_ND")
  ; (94, "ZWAVEPLUS_INFO") ].
