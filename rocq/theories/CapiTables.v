(* Tables of the C API: the identifiers of the structs, the fields of the structs
   with the types they have, and the conversions between C structs and C++
   structs, statement by statement in the order of the source.  Written by
   tools/capi_extract.py from the text of the sources cited. *)
From Coq Require Import String Ascii List ZArith Bool.
From Verif Require Import CapiModel CapiSpec.
Import ListNotations.
Open Scope string_scope. Open Scope Z_scope. Open Scope list_scope.

(* include/silkit/capi/InterfaceIdentifiers.h 68-347: service, data type, version of each struct *)
Definition id_CanFrame : sid := {| si_service := 1; si_type := 1; si_version := 1 |}.
Definition id_CanFrameTransmitEvent : sid := {| si_service := 1; si_type := 2; si_version := 2 |}.
Definition id_CanFrameEvent : sid := {| si_service := 1; si_type := 3; si_version := 1 |}.
Definition id_CanStateChangeEvent : sid := {| si_service := 1; si_type := 4; si_version := 1 |}.
Definition id_CanErrorStateChangeEvent : sid := {| si_service := 1; si_type := 5; si_version := 1 |}.
Definition id_EthernetFrameEvent : sid := {| si_service := 2; si_type := 1; si_version := 1 |}.
Definition id_EthernetFrameTransmitEvent : sid := {| si_service := 2; si_type := 2; si_version := 1 |}.
Definition id_EthernetStateChangeEvent : sid := {| si_service := 2; si_type := 3; si_version := 1 |}.
Definition id_EthernetBitrateChangeEvent : sid := {| si_service := 2; si_type := 4; si_version := 1 |}.
Definition id_EthernetFrame : sid := {| si_service := 2; si_type := 5; si_version := 1 |}.
Definition id_FlexrayFrameEvent : sid := {| si_service := 3; si_type := 1; si_version := 1 |}.
Definition id_FlexrayFrameTransmitEvent : sid := {| si_service := 3; si_type := 2; si_version := 1 |}.
Definition id_FlexraySymbolEvent : sid := {| si_service := 3; si_type := 3; si_version := 1 |}.
Definition id_FlexraySymbolTransmitEvent : sid := {| si_service := 3; si_type := 5; si_version := 1 |}.
Definition id_FlexrayCycleStartEvent : sid := {| si_service := 3; si_type := 6; si_version := 1 |}.
Definition id_FlexrayPocStatusEvent : sid := {| si_service := 3; si_type := 7; si_version := 1 |}.
Definition id_FlexrayWakeupEvent : sid := {| si_service := 3; si_type := 8; si_version := 1 |}.
Definition id_FlexrayControllerConfig : sid := {| si_service := 3; si_type := 9; si_version := 1 |}.
Definition id_FlexrayClusterParameters : sid := {| si_service := 3; si_type := 10; si_version := 1 |}.
Definition id_FlexrayNodeParameters : sid := {| si_service := 3; si_type := 11; si_version := 2 |}.
Definition id_FlexrayHostCommand : sid := {| si_service := 3; si_type := 12; si_version := 1 |}.
Definition id_FlexrayHeader : sid := {| si_service := 3; si_type := 13; si_version := 1 |}.
Definition id_FlexrayFrame : sid := {| si_service := 3; si_type := 14; si_version := 1 |}.
Definition id_FlexrayTxBufferConfig : sid := {| si_service := 3; si_type := 15; si_version := 1 |}.
Definition id_FlexrayTxBufferUpdate : sid := {| si_service := 3; si_type := 16; si_version := 1 |}.
Definition id_LinFrame : sid := {| si_service := 4; si_type := 1; si_version := 1 |}.
Definition id_LinFrameResponse : sid := {| si_service := 4; si_type := 2; si_version := 1 |}.
Definition id_LinControllerConfig : sid := {| si_service := 4; si_type := 3; si_version := 1 |}.
Definition id_LinFrameStatusEvent : sid := {| si_service := 4; si_type := 4; si_version := 1 |}.
Definition id_LinGoToSleepEvent : sid := {| si_service := 4; si_type := 5; si_version := 1 |}.
Definition id_LinWakeupEvent : sid := {| si_service := 4; si_type := 6; si_version := 1 |}.
Definition id_LinSlaveConfigurationEvent : sid := {| si_service := 4; si_type := 7; si_version := 1 |}.
Definition id_LinSlaveConfiguration : sid := {| si_service := 4; si_type := 8; si_version := 1 |}.
Definition id_LinControllerDynamicConfig : sid := {| si_service := 4; si_type := 9; si_version := 1 |}.
Definition id_LinFrameHeaderEvent : sid := {| si_service := 4; si_type := 10; si_version := 1 |}.
Definition id_LinSendFrameHeaderRequest : sid := {| si_service := 4; si_type := 11; si_version := 1 |}.
Definition id_DataMessageEvent : sid := {| si_service := 5; si_type := 1; si_version := 1 |}.
Definition id_DataSpec : sid := {| si_service := 5; si_type := 2; si_version := 1 |}.
Definition id_RpcCallEvent : sid := {| si_service := 6; si_type := 1; si_version := 1 |}.
Definition id_RpcCallResultEvent : sid := {| si_service := 6; si_type := 2; si_version := 1 |}.
Definition id_RpcSpec : sid := {| si_service := 6; si_type := 3; si_version := 1 |}.
Definition id_ParticipantStatus : sid := {| si_service := 7; si_type := 1; si_version := 1 |}.
Definition id_LifecycleConfiguration : sid := {| si_service := 7; si_type := 2; si_version := 1 |}.
Definition id_WorkflowConfiguration : sid := {| si_service := 7; si_type := 3; si_version := 3 |}.
Definition id_ParticipantConnectionInformation : sid := {| si_service := 7; si_type := 4; si_version := 1 |}.
Definition id_EventReceivers : sid := {| si_service := 8; si_type := 1; si_version := 1 |}.
Definition id_SimulatedNetworkFunctions : sid := {| si_service := 8; si_type := 2; si_version := 1 |}.
Definition id_SimulatedCanControllerFunctions : sid := {| si_service := 8; si_type := 3; si_version := 1 |}.
Definition id_SimulatedFlexRayControllerFunctions : sid := {| si_service := 8; si_type := 4; si_version := 1 |}.
Definition id_SimulatedEthernetControllerFunctions : sid := {| si_service := 8; si_type := 5; si_version := 1 |}.
Definition id_SimulatedLinControllerFunctions : sid := {| si_service := 8; si_type := 6; si_version := 1 |}.
Definition id_NetSim_CanConfigureBaudrate : sid := {| si_service := 8; si_type := 7; si_version := 1 |}.
Definition id_NetSim_CanControllerMode : sid := {| si_service := 8; si_type := 8; si_version := 1 |}.
Definition id_NetSim_CanFrameRequest : sid := {| si_service := 8; si_type := 9; si_version := 1 |}.
Definition id_NetSim_FlexrayControllerConfig : sid := {| si_service := 8; si_type := 10; si_version := 1 |}.
Definition id_NetSim_FlexrayHostCommand : sid := {| si_service := 8; si_type := 11; si_version := 1 |}.
Definition id_NetSim_FlexrayTxBufferConfigUpdate : sid := {| si_service := 8; si_type := 12; si_version := 1 |}.
Definition id_NetSim_FlexrayTxBufferUpdate : sid := {| si_service := 8; si_type := 13; si_version := 1 |}.
Definition id_NetSim_EthernetFrameRequest : sid := {| si_service := 8; si_type := 14; si_version := 1 |}.
Definition id_NetSim_EthernetControllerMode : sid := {| si_service := 8; si_type := 15; si_version := 1 |}.
Definition id_NetSim_LinFrameRequest : sid := {| si_service := 8; si_type := 16; si_version := 1 |}.
Definition id_NetSim_LinFrameHeaderRequest : sid := {| si_service := 8; si_type := 17; si_version := 1 |}.
Definition id_NetSim_LinWakeupPulse : sid := {| si_service := 8; si_type := 18; si_version := 1 |}.
Definition id_NetSim_LinControllerConfig : sid := {| si_service := 8; si_type := 19; si_version := 1 |}.
Definition id_NetSim_LinFrameResponseUpdate : sid := {| si_service := 8; si_type := 20; si_version := 1 |}.
Definition id_NetSim_LinControllerStatusUpdate : sid := {| si_service := 8; si_type := 21; si_version := 1 |}.
Definition all_ids : list (string * sid) :=
  [("SilKit_CanFrame", id_CanFrame);
   ("SilKit_CanFrameTransmitEvent", id_CanFrameTransmitEvent);
   ("SilKit_CanFrameEvent", id_CanFrameEvent);
   ("SilKit_CanStateChangeEvent", id_CanStateChangeEvent);
   ("SilKit_CanErrorStateChangeEvent", id_CanErrorStateChangeEvent);
   ("SilKit_EthernetFrameEvent", id_EthernetFrameEvent);
   ("SilKit_EthernetFrameTransmitEvent", id_EthernetFrameTransmitEvent);
   ("SilKit_EthernetStateChangeEvent", id_EthernetStateChangeEvent);
   ("SilKit_EthernetBitrateChangeEvent", id_EthernetBitrateChangeEvent);
   ("SilKit_EthernetFrame", id_EthernetFrame);
   ("SilKit_FlexrayFrameEvent", id_FlexrayFrameEvent);
   ("SilKit_FlexrayFrameTransmitEvent", id_FlexrayFrameTransmitEvent);
   ("SilKit_FlexraySymbolEvent", id_FlexraySymbolEvent);
   ("SilKit_FlexraySymbolTransmitEvent", id_FlexraySymbolTransmitEvent);
   ("SilKit_FlexrayCycleStartEvent", id_FlexrayCycleStartEvent);
   ("SilKit_FlexrayPocStatusEvent", id_FlexrayPocStatusEvent);
   ("SilKit_FlexrayWakeupEvent", id_FlexrayWakeupEvent);
   ("SilKit_FlexrayControllerConfig", id_FlexrayControllerConfig);
   ("SilKit_FlexrayClusterParameters", id_FlexrayClusterParameters);
   ("SilKit_FlexrayNodeParameters", id_FlexrayNodeParameters);
   ("SilKit_FlexrayHostCommand", id_FlexrayHostCommand);
   ("SilKit_FlexrayHeader", id_FlexrayHeader);
   ("SilKit_FlexrayFrame", id_FlexrayFrame);
   ("SilKit_FlexrayTxBufferConfig", id_FlexrayTxBufferConfig);
   ("SilKit_FlexrayTxBufferUpdate", id_FlexrayTxBufferUpdate);
   ("SilKit_LinFrame", id_LinFrame);
   ("SilKit_LinFrameResponse", id_LinFrameResponse);
   ("SilKit_LinControllerConfig", id_LinControllerConfig);
   ("SilKit_LinFrameStatusEvent", id_LinFrameStatusEvent);
   ("SilKit_LinGoToSleepEvent", id_LinGoToSleepEvent);
   ("SilKit_LinWakeupEvent", id_LinWakeupEvent);
   ("SilKit_Experimental_LinSlaveConfigurationEvent", id_LinSlaveConfigurationEvent);
   ("SilKit_Experimental_LinSlaveConfiguration", id_LinSlaveConfiguration);
   ("SilKit_Experimental_LinControllerDynamicConfig", id_LinControllerDynamicConfig);
   ("SilKit_Experimental_LinFrameHeaderEvent", id_LinFrameHeaderEvent);
   ("SilKit_LinSendFrameHeaderRequest", id_LinSendFrameHeaderRequest);
   ("SilKit_DataMessageEvent", id_DataMessageEvent);
   ("SilKit_DataSpec", id_DataSpec);
   ("SilKit_RpcCallEvent", id_RpcCallEvent);
   ("SilKit_RpcCallResultEvent", id_RpcCallResultEvent);
   ("SilKit_RpcSpec", id_RpcSpec);
   ("SilKit_ParticipantStatus", id_ParticipantStatus);
   ("SilKit_LifecycleConfiguration", id_LifecycleConfiguration);
   ("SilKit_WorkflowConfiguration", id_WorkflowConfiguration);
   ("SilKit_ParticipantConnectionInformation", id_ParticipantConnectionInformation);
   ("SilKit_Experimental_EventReceivers", id_EventReceivers);
   ("SilKit_Experimental_SimulatedNetworkFunctions", id_SimulatedNetworkFunctions);
   ("SilKit_Experimental_SimulatedCanControllerFunctions", id_SimulatedCanControllerFunctions);
   ("SilKit_Experimental_SimulatedFlexRayControllerFunctions", id_SimulatedFlexRayControllerFunctions);
   ("SilKit_Experimental_SimulatedEthernetControllerFunctions", id_SimulatedEthernetControllerFunctions);
   ("SilKit_Experimental_SimulatedLinControllerFunctions", id_SimulatedLinControllerFunctions);
   ("SilKit_Experimental_NetSim_CanConfigureBaudrate", id_NetSim_CanConfigureBaudrate);
   ("SilKit_Experimental_NetSim_CanControllerMode", id_NetSim_CanControllerMode);
   ("SilKit_Experimental_NetSim_CanFrameRequest", id_NetSim_CanFrameRequest);
   ("SilKit_Experimental_NetSim_FlexrayControllerConfig", id_NetSim_FlexrayControllerConfig);
   ("SilKit_Experimental_NetSim_FlexrayHostCommand", id_NetSim_FlexrayHostCommand);
   ("SilKit_Experimental_NetSim_FlexrayTxBufferConfigUpdate", id_NetSim_FlexrayTxBufferConfigUpdate);
   ("SilKit_Experimental_NetSim_FlexrayTxBufferUpdate", id_NetSim_FlexrayTxBufferUpdate);
   ("SilKit_Experimental_NetSim_EthernetFrameRequest", id_NetSim_EthernetFrameRequest);
   ("SilKit_Experimental_NetSim_EthernetControllerMode", id_NetSim_EthernetControllerMode);
   ("SilKit_Experimental_NetSim_LinFrameRequest", id_NetSim_LinFrameRequest);
   ("SilKit_Experimental_NetSim_LinFrameHeaderRequest", id_NetSim_LinFrameHeaderRequest);
   ("SilKit_Experimental_NetSim_LinWakeupPulse", id_NetSim_LinWakeupPulse);
   ("SilKit_Experimental_NetSim_LinControllerConfig", id_NetSim_LinControllerConfig);
   ("SilKit_Experimental_NetSim_LinFrameResponseUpdate", id_NetSim_LinFrameResponseUpdate);
   ("SilKit_Experimental_NetSim_LinControllerStatusUpdate", id_NetSim_LinControllerStatusUpdate)].

(* SilKit/include/silkit/services/can/CanDatatypes.hpp 37-50; the structs held by it, or pointed to, are part of it *)
Definition X_CanFrame : layout :=
  [("canId", U32);
   ("flags", U32);
   ("dlc", U16);
   ("sdt", U8);
   ("vcid", U8);
   ("af", U32);
   ("dataField", TBytes)].
(* SilKit/include/silkit/capi/Can.h 29-40; the structs held by it, or pointed to, are part of it *)
Definition C_CanFrame : layout :=
  [("structHeader", U64);
   ("id", U32);
   ("flags", U32);
   ("dlc", U16);
   ("sdt", U8);
   ("vcid", U8);
   ("af", U32);
   ("data", TBytes)].
(* SilKit/include/silkit/detail/impl/services/can/CanController.hpp 142-148 *)
Definition cv_can_frame_out : conv :=
  {| cv_dst := C_CanFrame;
     cv_init := [("structHeader", VI (struct_id id_CanFrame))] ++ zeroed C_CanFrame;
     cv_body :=
      [(Always, Asg "id" [] "canId");
       (Always, Asg "flags" [] "flags");
       (Always, Asg "dlc" [] "dlc");
       (Always, Asg "sdt" [] "sdt");
       (Always, Asg "vcid" [] "vcid");
       (Always, Asg "af" [] "af");
       (Always, Cpy "data" "dataField")] |}.
(* SilKit/source/capi/CapiCan.cpp 229-235 *)
Definition cv_can_frame_in : conv :=
  {| cv_dst := X_CanFrame;
     cv_init := zeroed X_CanFrame;
     cv_body :=
      [(Always, Asg "canId" [] "id");
       (Always, Asg "flags" [] "flags");
       (Always, Asg "dlc" [] "dlc");
       (Always, Asg "sdt" [] "sdt");
       (Always, Asg "vcid" [] "vcid");
       (Always, Asg "af" [] "af");
       (Always, Cpy "dataField" "data")] |}.
(* SilKit/include/silkit/services/ethernet/EthernetDatatypes.hpp 28-31; the structs held by it, or pointed to, are part of it *)
Definition X_EthernetFrame : layout :=
  [("raw", TBytes)].
(* SilKit/include/silkit/capi/Ethernet.h 71-75; the structs held by it, or pointed to, are part of it *)
Definition C_EthernetFrame : layout :=
  [("structHeader", U64);
   ("raw", TBytes)].
(* SilKit/include/silkit/detail/impl/services/ethernet/EthernetController.hpp 275 *)
Definition cv_eth_frame_out : conv :=
  {| cv_dst := C_EthernetFrame;
     cv_init := [("structHeader", VI (struct_id id_EthernetFrame))] ++ zeroed C_EthernetFrame;
     cv_body :=
      [(Always, Cpy "raw" "raw")] |}.
(* SilKit/source/capi/CapiEthernet.cpp 239 *)
Definition cv_eth_frame_in : conv :=
  {| cv_dst := X_EthernetFrame;
     cv_init := spans X_EthernetFrame;
     cv_body :=
      [(Always, Cpy "raw" "raw")] |}.
(* SilKit/include/silkit/services/lin/LinDatatypes.hpp 63-69; the structs held by it, or pointed to, are part of it *)
Definition X_LinFrame : layout :=
  [("id", U8);
   ("checksumModel", U8);
   ("dataLength", U8);
   ("data", TArr8)].
(* SilKit/include/silkit/capi/Lin.h 157-164; the structs held by it, or pointed to, are part of it *)
Definition C_LinFrame : layout :=
  [("structHeader", U64);
   ("id", U8);
   ("checksumModel", U8);
   ("dataLength", U8);
   ("data", TArr8)].
(* SilKit/include/silkit/detail/impl/services/lin/LinController.hpp 495-499 *)
Definition cv_lin_frame_out : conv :=
  {| cv_dst := C_LinFrame;
     cv_init := [("structHeader", VI (struct_id id_LinFrame))] ++ zeroed C_LinFrame;
     cv_body :=
      [(Always, Asg "id" [] "id");
       (Always, Asg "checksumModel" [U8] "checksumModel");
       (Always, Asg "dataLength" [] "dataLength");
       (Always, Cpy "data" "data")] |}.
(* SilKit/source/capi/CapiLin.cpp 21-24 *)
Definition cv_lin_frame_in : conv :=
  {| cv_dst := X_LinFrame;
     cv_init := zeroed X_LinFrame;
     cv_body :=
      [(Always, Asg "id" [U8] "id");
       (Always, Asg "checksumModel" [U8] "checksumModel");
       (Always, Asg "dataLength" [U8] "dataLength");
       (Always, Cpy "data" "data")] |}.
(* SilKit/include/silkit/services/lin/LinDatatypes.hpp 114-124; the structs held by it, or pointed to, are part of it *)
Definition X_LinFrameResponse : layout :=
  [("responseMode", U8);
   ("frame.id", U8);
   ("frame.checksumModel", U8);
   ("frame.dataLength", U8);
   ("frame.data", TArr8)].
(* SilKit/include/silkit/capi/Lin.h 203-216; the structs held by it, or pointed to, are part of it *)
Definition C_LinFrameResponse : layout :=
  [("structHeader", U64);
   ("responseMode", U8);
   ("frame.structHeader", U64);
   ("frame.id", U8);
   ("frame.checksumModel", U8);
   ("frame.dataLength", U8);
   ("frame.data", TArr8)].
(* SilKit/include/silkit/detail/impl/services/lin/LinController.hpp 213-218 *)
Definition cv_lin_response_out : conv :=
  {| cv_dst := C_LinFrameResponse;
     cv_init := [("structHeader", VI (struct_id id_LinFrameResponse)); ("frame.structHeader", VI (struct_id id_LinFrame))] ++ zeroed C_LinFrameResponse;
     cv_body :=
      [(Always, Asg "frame.id" [] "frame.id");
       (Always, Asg "frame.checksumModel" [U8] "frame.checksumModel");
       (Always, Asg "frame.dataLength" [] "frame.dataLength");
       (Always, Cpy "frame.data" "frame.data");
       (Always, Asg "responseMode" [U8] "responseMode")] |}.
(* SilKit/source/capi/CapiLin.cpp 122-123 *)
Definition cv_lin_response_in : conv :=
  {| cv_dst := X_LinFrameResponse;
     cv_init := zeroed X_LinFrameResponse;
     cv_body :=
      [(Always, Asg "frame.id" [U8] "frame.id");
       (Always, Asg "frame.checksumModel" [U8] "frame.checksumModel");
       (Always, Asg "frame.dataLength" [U8] "frame.dataLength");
       (Always, Cpy "frame.data" "frame.data");
       (Always, Asg "responseMode" [U8] "responseMode")] |}.
(* SilKit/include/silkit/detail/impl/services/lin/LinController.hpp 150-159 *)
Definition cv_lin_init_response_out : conv :=
  {| cv_dst := C_LinFrameResponse;
     cv_init := [("structHeader", VI (struct_id id_LinFrameResponse)); ("frame.structHeader", VI (struct_id id_LinFrame))] ++ zeroed C_LinFrameResponse;
     cv_body :=
      [(Always, Asg "frame.id" [] "frame.id");
       (Always, Asg "frame.checksumModel" [U8] "frame.checksumModel");
       (Always, Asg "frame.dataLength" [] "frame.dataLength");
       (Always, Cpy "frame.data" "frame.data");
       (Always, Asg "responseMode" [U8] "responseMode")] |}.
(* SilKit/source/capi/CapiLin.cpp 29-31 *)
Definition cv_lin_init_response_in : conv :=
  {| cv_dst := X_LinFrameResponse;
     cv_init := zeroed X_LinFrameResponse;
     cv_body :=
      [(Always, Asg "frame.id" [U8] "frame.id");
       (Always, Asg "frame.checksumModel" [U8] "frame.checksumModel");
       (Always, Asg "frame.dataLength" [U8] "frame.dataLength");
       (Always, Cpy "frame.data" "frame.data");
       (Always, Asg "responseMode" [U8] "responseMode")] |}.
(* SilKit/include/silkit/services/lin/LinDatatypes.hpp 236-250; the structs held by it, or pointed to, are part of it *)
Definition X_LinControllerConfig : layout :=
  [("controllerMode", U8);
   ("baudRate", U32)].
(* SilKit/include/silkit/capi/Lin.h 222-234; the structs held by it, or pointed to, are part of it *)
Definition C_LinControllerConfig : layout :=
  [("structHeader", U64);
   ("controllerMode", U8);
   ("baudRate", U32);
   ("numFrameResponses", U64)].
(* SilKit/include/silkit/detail/impl/services/lin/LinController.hpp 164-168 *)
Definition cv_lin_config_out : conv :=
  {| cv_dst := C_LinControllerConfig;
     cv_init := [("structHeader", VI (struct_id id_LinControllerConfig))] ++ zeroed C_LinControllerConfig;
     cv_body :=
      [(Always, Asg "controllerMode" [U8] "controllerMode");
       (Always, Asg "baudRate" [] "baudRate")] |}.
(* SilKit/source/capi/CapiLin.cpp 47-48 *)
Definition cv_lin_config_in : conv :=
  {| cv_dst := X_LinControllerConfig;
     cv_init := zeroed X_LinControllerConfig;
     cv_body :=
      [(Always, Asg "baudRate" [U32] "baudRate");
       (Always, Asg "controllerMode" [U8] "controllerMode")] |}.
(* SilKit/include/silkit/experimental/services/lin/LinDatatypesExtensions.hpp 45-52; the structs held by it, or pointed to, are part of it *)
Definition X_LinControllerDynamicConfig : layout :=
  [("controllerMode", U8);
   ("baudRate", U32)].
(* SilKit/include/silkit/capi/Lin.h 240-248; the structs held by it, or pointed to, are part of it *)
Definition C_LinControllerDynamicConfig : layout :=
  [("structHeader", U64);
   ("controllerMode", U8);
   ("baudRate", U32)].
(* SilKit/include/silkit/detail/impl/services/lin/LinController.hpp 434-436 *)
Definition cv_lin_dynamic_out : conv :=
  {| cv_dst := C_LinControllerDynamicConfig;
     cv_init := [("structHeader", VI (struct_id id_LinControllerDynamicConfig))] ++ zeroed C_LinControllerDynamicConfig;
     cv_body :=
      [(Always, Asg "controllerMode" [U8] "controllerMode");
       (Always, Asg "baudRate" [] "baudRate")] |}.
(* SilKit/source/capi/CapiLin.cpp 55-56 *)
Definition cv_lin_dynamic_in : conv :=
  {| cv_dst := X_LinControllerDynamicConfig;
     cv_init := zeroed X_LinControllerDynamicConfig;
     cv_body :=
      [(Always, Asg "baudRate" [U32] "baudRate");
       (Always, Asg "controllerMode" [U8] "controllerMode")] |}.
(* SilKit/include/silkit/services/flexray/FlexrayDatatypes.hpp 46-125; the structs held by it, or pointed to, are part of it *)
Definition X_FlexrayClusterParameters : layout :=
  [("gColdstartAttempts", U8);
   ("gCycleCountMax", U8);
   ("gdActionPointOffset", U16);
   ("gdDynamicSlotIdlePhase", U16);
   ("gdMiniSlot", U16);
   ("gdMiniSlotActionPointOffset", U16);
   ("gdStaticSlot", U16);
   ("gdSymbolWindow", U16);
   ("gdSymbolWindowActionPointOffset", U16);
   ("gdTSSTransmitter", U16);
   ("gdWakeupTxActive", U16);
   ("gdWakeupTxIdle", U16);
   ("gListenNoise", U8);
   ("gMacroPerCycle", U16);
   ("gMaxWithoutClockCorrectionFatal", U8);
   ("gMaxWithoutClockCorrectionPassive", U8);
   ("gNumberOfMiniSlots", U16);
   ("gNumberOfStaticSlots", U16);
   ("gPayloadLengthStatic", U16);
   ("gSyncFrameIDCountMax", U8)].
(* SilKit/include/silkit/capi/Flexray.h 43-125; the structs held by it, or pointed to, are part of it *)
Definition C_FlexrayClusterParameters : layout :=
  [("structHeader", U64);
   ("gColdstartAttempts", U8);
   ("gCycleCountMax", U8);
   ("gdActionPointOffset", U16);
   ("gdDynamicSlotIdlePhase", U16);
   ("gdMiniSlot", U16);
   ("gdMiniSlotActionPointOffset", U16);
   ("gdStaticSlot", U16);
   ("gdSymbolWindow", U16);
   ("gdSymbolWindowActionPointOffset", U16);
   ("gdTSSTransmitter", U16);
   ("gdWakeupTxActive", U16);
   ("gdWakeupTxIdle", U16);
   ("gListenNoise", U8);
   ("gMacroPerCycle", U16);
   ("gMaxWithoutClockCorrectionFatal", U8);
   ("gMaxWithoutClockCorrectionPassive", U8);
   ("gNumberOfMiniSlots", U16);
   ("gNumberOfStaticSlots", U16);
   ("gPayloadLengthStatic", U16);
   ("gSyncFrameIDCountMax", U8)].
(* SilKit/include/silkit/detail/impl/services/flexray/FlexrayController.hpp 517-540 *)
Definition cv_flx_cluster_out : conv :=
  {| cv_dst := C_FlexrayClusterParameters;
     cv_init := [("structHeader", VI (struct_id id_FlexrayClusterParameters))] ++ zeroed C_FlexrayClusterParameters;
     cv_body :=
      [(Always, Asg "gColdstartAttempts" [] "gColdstartAttempts");
       (Always, Asg "gCycleCountMax" [] "gCycleCountMax");
       (Always, Asg "gdActionPointOffset" [] "gdActionPointOffset");
       (Always, Asg "gdDynamicSlotIdlePhase" [] "gdDynamicSlotIdlePhase");
       (Always, Asg "gdMiniSlot" [] "gdMiniSlot");
       (Always, Asg "gdMiniSlotActionPointOffset" [] "gdMiniSlotActionPointOffset");
       (Always, Asg "gdStaticSlot" [] "gdStaticSlot");
       (Always, Asg "gdSymbolWindow" [] "gdSymbolWindow");
       (Always, Asg "gdSymbolWindowActionPointOffset" [] "gdSymbolWindowActionPointOffset");
       (Always, Asg "gdTSSTransmitter" [] "gdTSSTransmitter");
       (Always, Asg "gdWakeupTxActive" [] "gdWakeupTxActive");
       (Always, Asg "gdWakeupTxIdle" [] "gdWakeupTxIdle");
       (Always, Asg "gListenNoise" [] "gListenNoise");
       (Always, Asg "gMacroPerCycle" [] "gMacroPerCycle");
       (Always, Asg "gMaxWithoutClockCorrectionFatal" [] "gMaxWithoutClockCorrectionFatal");
       (Always, Asg "gMaxWithoutClockCorrectionPassive" [] "gMaxWithoutClockCorrectionPassive");
       (Always, Asg "gNumberOfMiniSlots" [] "gNumberOfMiniSlots");
       (Always, Asg "gNumberOfStaticSlots" [] "gNumberOfStaticSlots");
       (Always, Asg "gPayloadLengthStatic" [] "gPayloadLengthStatic");
       (Always, Asg "gSyncFrameIDCountMax" [] "gSyncFrameIDCountMax")] |}.
(* SilKit/source/capi/CapiFlexray.cpp 32-51 *)
Definition cv_flx_cluster_in : conv :=
  {| cv_dst := X_FlexrayClusterParameters;
     cv_init := spans X_FlexrayClusterParameters;
     cv_body :=
      [(Always, Asg "gColdstartAttempts" [] "gColdstartAttempts");
       (Always, Asg "gCycleCountMax" [] "gCycleCountMax");
       (Always, Asg "gdActionPointOffset" [] "gdActionPointOffset");
       (Always, Asg "gdDynamicSlotIdlePhase" [] "gdDynamicSlotIdlePhase");
       (Always, Asg "gdMiniSlot" [] "gdMiniSlot");
       (Always, Asg "gdMiniSlotActionPointOffset" [] "gdMiniSlotActionPointOffset");
       (Always, Asg "gdStaticSlot" [] "gdStaticSlot");
       (Always, Asg "gdSymbolWindow" [] "gdSymbolWindow");
       (Always, Asg "gdSymbolWindowActionPointOffset" [] "gdSymbolWindowActionPointOffset");
       (Always, Asg "gdTSSTransmitter" [] "gdTSSTransmitter");
       (Always, Asg "gdWakeupTxActive" [] "gdWakeupTxActive");
       (Always, Asg "gdWakeupTxIdle" [] "gdWakeupTxIdle");
       (Always, Asg "gListenNoise" [] "gListenNoise");
       (Always, Asg "gMacroPerCycle" [] "gMacroPerCycle");
       (Always, Asg "gMaxWithoutClockCorrectionFatal" [] "gMaxWithoutClockCorrectionFatal");
       (Always, Asg "gMaxWithoutClockCorrectionPassive" [] "gMaxWithoutClockCorrectionPassive");
       (Always, Asg "gNumberOfMiniSlots" [] "gNumberOfMiniSlots");
       (Always, Asg "gNumberOfStaticSlots" [] "gNumberOfStaticSlots");
       (Always, Asg "gPayloadLengthStatic" [] "gPayloadLengthStatic");
       (Always, Asg "gSyncFrameIDCountMax" [] "gSyncFrameIDCountMax")] |}.
(* SilKit/include/silkit/services/flexray/FlexrayDatatypes.hpp 132-243; the structs held by it, or pointed to, are part of it *)
Definition X_FlexrayNodeParameters : layout :=
  [("pAllowHaltDueToClock", U8);
   ("pAllowPassiveToActive", U8);
   ("pChannels", U32);
   ("pClusterDriftDamping", U8);
   ("pdAcceptedStartupRange", I32);
   ("pdListenTimeout", I32);
   ("pKeySlotId", U16);
   ("pKeySlotOnlyEnabled", U8);
   ("pKeySlotUsedForStartup", U8);
   ("pKeySlotUsedForSync", U8);
   ("pLatestTx", U16);
   ("pMacroInitialOffsetA", U8);
   ("pMacroInitialOffsetB", U8);
   ("pMicroInitialOffsetA", I32);
   ("pMicroInitialOffsetB", I32);
   ("pMicroPerCycle", I32);
   ("pOffsetCorrectionOut", I32);
   ("pOffsetCorrectionStart", U16);
   ("pRateCorrectionOut", I32);
   ("pWakeupChannel", U32);
   ("pWakeupPattern", U8);
   ("pdMicrotick", U32);
   ("pSamplesPerMicrotick", U8);
   ("pSecondKeySlotId", U16);
   ("pTwoKeySlotMode", U8)].
(* SilKit/include/silkit/capi/Flexray.h 133-248; the structs held by it, or pointed to, are part of it *)
Definition C_FlexrayNodeParameters : layout :=
  [("structHeader", U64);
   ("pAllowHaltDueToClock", U8);
   ("pAllowPassiveToActive", U8);
   ("pChannels", U32);
   ("pClusterDriftDamping", U8);
   ("pdAcceptedStartupRange", I32);
   ("pdListenTimeout", I32);
   ("pKeySlotId", U16);
   ("pKeySlotOnlyEnabled", U8);
   ("pKeySlotUsedForStartup", U8);
   ("pKeySlotUsedForSync", U8);
   ("pLatestTx", U16);
   ("pMacroInitialOffsetA", U8);
   ("pMacroInitialOffsetB", U8);
   ("pMicroInitialOffsetA", I32);
   ("pMicroInitialOffsetB", I32);
   ("pMicroPerCycle", I32);
   ("pOffsetCorrectionOut", I32);
   ("pOffsetCorrectionStart", U16);
   ("pRateCorrectionOut", I32);
   ("pWakeupChannel", U32);
   ("pWakeupPattern", U8);
   ("pdMicrotick", U32);
   ("pSamplesPerMicrotick", U8);
   ("pSecondKeySlotId", U16);
   ("pTwoKeySlotMode", U8)].
(* SilKit/include/silkit/detail/impl/services/flexray/FlexrayController.hpp 546-571 *)
Definition cv_flx_node_out : conv :=
  {| cv_dst := C_FlexrayNodeParameters;
     cv_init := [("structHeader", VI (struct_id id_FlexrayNodeParameters))] ++ zeroed C_FlexrayNodeParameters;
     cv_body :=
      [(Always, Asg "pAllowHaltDueToClock" [] "pAllowHaltDueToClock");
       (Always, Asg "pAllowPassiveToActive" [] "pAllowPassiveToActive");
       (Always, Asg "pChannels" [U32] "pChannels");
       (Always, Asg "pClusterDriftDamping" [] "pClusterDriftDamping");
       (Always, Asg "pdAcceptedStartupRange" [] "pdAcceptedStartupRange");
       (Always, Asg "pdListenTimeout" [] "pdListenTimeout");
       (Always, Asg "pKeySlotId" [] "pKeySlotId");
       (Always, Asg "pKeySlotOnlyEnabled" [] "pKeySlotOnlyEnabled");
       (Always, Asg "pKeySlotUsedForStartup" [] "pKeySlotUsedForStartup");
       (Always, Asg "pKeySlotUsedForSync" [] "pKeySlotUsedForSync");
       (Always, Asg "pLatestTx" [] "pLatestTx");
       (Always, Asg "pMacroInitialOffsetA" [] "pMacroInitialOffsetA");
       (Always, Asg "pMacroInitialOffsetB" [] "pMacroInitialOffsetB");
       (Always, Asg "pMicroInitialOffsetA" [] "pMicroInitialOffsetA");
       (Always, Asg "pMicroInitialOffsetB" [] "pMicroInitialOffsetB");
       (Always, Asg "pMicroPerCycle" [] "pMicroPerCycle");
       (Always, Asg "pOffsetCorrectionOut" [] "pOffsetCorrectionOut");
       (Always, Asg "pOffsetCorrectionStart" [] "pOffsetCorrectionStart");
       (Always, Asg "pRateCorrectionOut" [] "pRateCorrectionOut");
       (Always, Asg "pWakeupChannel" [U32] "pWakeupChannel");
       (Always, Asg "pWakeupPattern" [] "pWakeupPattern");
       (Always, Asg "pdMicrotick" [U32] "pdMicrotick");
       (Always, Asg "pSamplesPerMicrotick" [] "pSamplesPerMicrotick");
       (Always, Asg "pTwoKeySlotMode" [] "pTwoKeySlotMode");
       (Always, Asg "pSecondKeySlotId" [] "pSecondKeySlotId")] |}.
(* SilKit/source/capi/CapiFlexray.cpp 57-90 *)
Definition cv_flx_node_in : conv :=
  {| cv_dst := X_FlexrayNodeParameters;
     cv_init := spans X_FlexrayNodeParameters;
     cv_body :=
      [(VerIn "structHeader" [1; 2], Asg "pAllowHaltDueToClock" [] "pAllowHaltDueToClock");
       (VerIn "structHeader" [1; 2], Asg "pAllowPassiveToActive" [] "pAllowPassiveToActive");
       (VerIn "structHeader" [1; 2], Asg "pChannels" [U32] "pChannels");
       (VerIn "structHeader" [1; 2], Asg "pClusterDriftDamping" [] "pClusterDriftDamping");
       (VerIn "structHeader" [1; 2], Asg "pdAcceptedStartupRange" [] "pdAcceptedStartupRange");
       (VerIn "structHeader" [1; 2], Asg "pdListenTimeout" [] "pdListenTimeout");
       (VerIn "structHeader" [1; 2], Asg "pKeySlotId" [] "pKeySlotId");
       (VerIn "structHeader" [1; 2], Asg "pKeySlotOnlyEnabled" [] "pKeySlotOnlyEnabled");
       (VerIn "structHeader" [1; 2], Asg "pKeySlotUsedForStartup" [] "pKeySlotUsedForStartup");
       (VerIn "structHeader" [1; 2], Asg "pKeySlotUsedForSync" [] "pKeySlotUsedForSync");
       (VerIn "structHeader" [1; 2], Asg "pLatestTx" [] "pLatestTx");
       (VerIn "structHeader" [1; 2], Asg "pMacroInitialOffsetA" [] "pMacroInitialOffsetA");
       (VerIn "structHeader" [1; 2], Asg "pMacroInitialOffsetB" [] "pMacroInitialOffsetB");
       (VerIn "structHeader" [1; 2], Asg "pMicroInitialOffsetA" [] "pMicroInitialOffsetA");
       (VerIn "structHeader" [1; 2], Asg "pMicroInitialOffsetB" [] "pMicroInitialOffsetB");
       (VerIn "structHeader" [1; 2], Asg "pMicroPerCycle" [] "pMicroPerCycle");
       (VerIn "structHeader" [1; 2], Asg "pOffsetCorrectionOut" [] "pOffsetCorrectionOut");
       (VerIn "structHeader" [1; 2], Asg "pOffsetCorrectionStart" [] "pOffsetCorrectionStart");
       (VerIn "structHeader" [1; 2], Asg "pRateCorrectionOut" [] "pRateCorrectionOut");
       (VerIn "structHeader" [1; 2], Asg "pWakeupChannel" [U32] "pWakeupChannel");
       (VerIn "structHeader" [1; 2], Asg "pWakeupPattern" [] "pWakeupPattern");
       (VerIn "structHeader" [1; 2], Asg "pdMicrotick" [U32] "pdMicrotick");
       (VerIn "structHeader" [1; 2], Asg "pSamplesPerMicrotick" [] "pSamplesPerMicrotick");
       (VerIn "structHeader" [2], Asg "pTwoKeySlotMode" [] "pTwoKeySlotMode");
       (VerIn "structHeader" [2], Asg "pSecondKeySlotId" [] "pSecondKeySlotId")] |}.
(* SilKit/include/silkit/services/flexray/FlexrayDatatypes.hpp 253-275; the structs held by it, or pointed to, are part of it *)
Definition X_FlexrayTxBufferConfig : layout :=
  [("channels", U32);
   ("slotId", U16);
   ("offset", U8);
   ("repetition", U8);
   ("hasPayloadPreambleIndicator", TBool);
   ("headerCrc", U16);
   ("transmissionMode", U8)].
(* SilKit/include/silkit/capi/Flexray.h 257-282; the structs held by it, or pointed to, are part of it *)
Definition C_FlexrayTxBufferConfig : layout :=
  [("structHeader", U64);
   ("channels", U32);
   ("slotId", U16);
   ("offset", U8);
   ("repetition", U8);
   ("hasPayloadPreambleIndicator", CBool);
   ("headerCrc", U16);
   ("transmissionMode", U8)].
(* SilKit/include/silkit/detail/impl/services/flexray/FlexrayController.hpp 577-585 *)
Definition cv_flx_buffer_out : conv :=
  {| cv_dst := C_FlexrayTxBufferConfig;
     cv_init := [("structHeader", VI (struct_id id_FlexrayTxBufferConfig))] ++ zeroed C_FlexrayTxBufferConfig;
     cv_body :=
      [(Always, Asg "channels" [U32] "channels");
       (Always, Asg "slotId" [] "slotId");
       (Always, Asg "offset" [] "offset");
       (Always, Asg "repetition" [] "repetition");
       (Always, Asg "hasPayloadPreambleIndicator" [] "hasPayloadPreambleIndicator");
       (Always, Asg "headerCrc" [] "headerCrc");
       (Always, Asg "transmissionMode" [U8] "transmissionMode")] |}.
(* SilKit/source/capi/CapiFlexray.cpp 20-26 *)
Definition cv_flx_buffer_in : conv :=
  {| cv_dst := X_FlexrayTxBufferConfig;
     cv_init := zeroed X_FlexrayTxBufferConfig;
     cv_body :=
      [(Always, Asg "channels" [U32] "channels");
       (Always, Asg "slotId" [] "slotId");
       (Always, Asg "offset" [] "offset");
       (Always, Asg "repetition" [] "repetition");
       (Always, AsgTrue "hasPayloadPreambleIndicator" "hasPayloadPreambleIndicator");
       (Always, Asg "headerCrc" [] "headerCrc");
       (Always, Asg "transmissionMode" [U8] "transmissionMode")] |}.
(* SilKit/include/silkit/services/flexray/FlexrayDatatypes.hpp 290-300; the structs held by it, or pointed to, are part of it *)
Definition X_FlexrayTxBufferUpdate : layout :=
  [("txBufferIndex", U16);
   ("payloadDataValid", TBool);
   ("payload", TBytes)].
(* SilKit/include/silkit/capi/Flexray.h 302-315; the structs held by it, or pointed to, are part of it *)
Definition C_FlexrayTxBufferUpdate : layout :=
  [("structHeader", U64);
   ("txBufferIndex", U16);
   ("payloadDataValid", CBool);
   ("payload", TBytes)].
(* SilKit/include/silkit/detail/impl/services/flexray/FlexrayController.hpp 591-594 *)
Definition cv_flx_update_out : conv :=
  {| cv_dst := C_FlexrayTxBufferUpdate;
     cv_init := [("structHeader", VI (struct_id id_FlexrayTxBufferUpdate))] ++ zeroed C_FlexrayTxBufferUpdate;
     cv_body :=
      [(Always, Asg "txBufferIndex" [] "txBufferIndex");
       (Always, Asg "payloadDataValid" [] "payloadDataValid");
       (Always, Cpy "payload" "payload")] |}.
(* SilKit/source/capi/CapiFlexray.cpp 180-190 *)
Definition cv_flx_update_in : conv :=
  {| cv_dst := X_FlexrayTxBufferUpdate;
     cv_init := spans X_FlexrayTxBufferUpdate;
     cv_body :=
      [(Always, ChkBool "payloadDataValid");
       (Always, Asg "txBufferIndex" [] "txBufferIndex");
       (Always, AsgTrue "payloadDataValid" "payloadDataValid");
       (NonZeroS "payloadDataValid", ChkPtr "payload");
       (NonZeroS "payloadDataValid", Cpy "payload" "payload")] |}.
(* SilKit/include/silkit/services/can/CanDatatypes.hpp 54-60; the structs held by it, or pointed to, are part of it *)
Definition X_CanFrameEvent : layout :=
  [("timestamp", I64);
   ("direction", U8);
   ("userContext", TPtr);
   ("frame.canId", U32);
   ("frame.flags", U32);
   ("frame.dlc", U16);
   ("frame.sdt", U8);
   ("frame.vcid", U8);
   ("frame.af", U32);
   ("frame.dataField", TBytes)].
(* SilKit/include/silkit/capi/Can.h 43-50; the structs held by it, or pointed to, are part of it *)
Definition C_CanFrameEvent : layout :=
  [("structHeader", U64);
   ("timestamp", U64);
   ("direction", U8);
   ("userContext", TPtr);
   ("frame.structHeader", U64);
   ("frame.id", U32);
   ("frame.flags", U32);
   ("frame.dlc", U16);
   ("frame.sdt", U8);
   ("frame.vcid", U8);
   ("frame.af", U32);
   ("frame.data", TBytes)].
(* SilKit/source/capi/CapiCan.cpp 49-63 *)
Definition cv_can_frame_event_out : conv :=
  {| cv_dst := C_CanFrameEvent;
     cv_init := [("structHeader", VI (struct_id id_CanFrameEvent)); ("frame.structHeader", VI (struct_id id_CanFrame))] ++ zeroed C_CanFrameEvent;
     cv_body :=
      [(Always, Asg "frame.id" [] "frame.canId");
       (Always, Asg "frame.flags" [] "frame.flags");
       (Always, Asg "frame.dlc" [] "frame.dlc");
       (Always, Asg "frame.sdt" [] "frame.sdt");
       (Always, Asg "frame.vcid" [] "frame.vcid");
       (Always, Asg "frame.af" [] "frame.af");
       (Always, Cpy "frame.data" "frame.dataField");
       (Always, Asg "timestamp" [] "timestamp");
       (Always, Asg "direction" [U8] "direction");
       (Always, Asg "userContext" [] "userContext")] |}.
(* SilKit/include/silkit/detail/impl/services/can/CanController.hpp 161-170 *)
Definition cv_can_frame_event_in : conv :=
  {| cv_dst := X_CanFrameEvent;
     cv_init := zeroed X_CanFrameEvent;
     cv_body :=
      [(Always, Asg "timestamp" [I64] "timestamp");
       (Always, Asg "frame.canId" [] "frame.id");
       (Always, Asg "frame.flags" [] "frame.flags");
       (Always, Asg "frame.dlc" [] "frame.dlc");
       (Always, Asg "frame.sdt" [] "frame.sdt");
       (Always, Asg "frame.vcid" [] "frame.vcid");
       (Always, Asg "frame.af" [] "frame.af");
       (Always, Cpy "frame.dataField" "frame.data");
       (Always, Asg "direction" [U8] "direction");
       (Always, Asg "userContext" [] "userContext")] |}.
(* SilKit/include/silkit/services/can/CanDatatypes.hpp 123-129; the structs held by it, or pointed to, are part of it *)
Definition X_CanFrameTransmitEvent : layout :=
  [("canId", U32);
   ("timestamp", I64);
   ("status", I32);
   ("userContext", TPtr)].
(* SilKit/include/silkit/capi/Can.h 80-94; the structs held by it, or pointed to, are part of it *)
Definition C_CanFrameTransmitEvent : layout :=
  [("structHeader", U64);
   ("userContext", TPtr);
   ("timestamp", U64);
   ("status", I32);
   ("canId", U32)].
(* SilKit/source/capi/CapiCan.cpp 102-106 *)
Definition cv_can_transmit_event_out : conv :=
  {| cv_dst := C_CanFrameTransmitEvent;
     cv_init := [("structHeader", VI (struct_id id_CanFrameTransmitEvent))] ++ zeroed C_CanFrameTransmitEvent;
     cv_body :=
      [(Always, Asg "userContext" [] "userContext");
       (Always, Asg "timestamp" [] "timestamp");
       (Always, Asg "status" [I32] "status");
       (Always, Asg "canId" [] "canId")] |}.
(* SilKit/include/silkit/detail/impl/services/can/CanController.hpp 284-291 *)
Definition cv_can_transmit_event_in : conv :=
  {| cv_dst := X_CanFrameTransmitEvent;
     cv_init := zeroed X_CanFrameTransmitEvent;
     cv_body :=
      [(Always, Asg "userContext" [] "userContext");
       (Always, Asg "timestamp" [I64] "timestamp");
       (Always, Asg "status" [I32] "status");
       (VerGe "structHeader" 2, Asg "canId" [] "canId")] |}.
(* SilKit/include/silkit/services/can/CanDatatypes.hpp 133-137; the structs held by it, or pointed to, are part of it *)
Definition X_CanStateChangeEvent : layout :=
  [("timestamp", I64);
   ("state", I32)].
(* SilKit/include/silkit/capi/Can.h 115-120; the structs held by it, or pointed to, are part of it *)
Definition C_CanStateChangeEvent : layout :=
  [("structHeader", U64);
   ("timestamp", U64);
   ("state", I32)].
(* SilKit/source/capi/CapiCan.cpp 142-144 *)
Definition cv_can_state_event_out : conv :=
  {| cv_dst := C_CanStateChangeEvent;
     cv_init := [("structHeader", VI (struct_id id_CanStateChangeEvent))] ++ zeroed C_CanStateChangeEvent;
     cv_body :=
      [(Always, Asg "timestamp" [] "timestamp");
       (Always, Asg "state" [I32] "state")] |}.
(* SilKit/include/silkit/detail/impl/services/can/CanController.hpp 207-208 *)
Definition cv_can_state_event_in : conv :=
  {| cv_dst := X_CanStateChangeEvent;
     cv_init := zeroed X_CanStateChangeEvent;
     cv_body :=
      [(Always, Asg "timestamp" [I64] "timestamp");
       (Always, Asg "state" [I32] "state")] |}.
(* SilKit/include/silkit/services/can/CanDatatypes.hpp 141-145; the structs held by it, or pointed to, are part of it *)
Definition X_CanErrorStateChangeEvent : layout :=
  [("timestamp", I64);
   ("errorState", I32)].
(* SilKit/include/silkit/capi/Can.h 145-150; the structs held by it, or pointed to, are part of it *)
Definition C_CanErrorStateChangeEvent : layout :=
  [("structHeader", U64);
   ("timestamp", U64);
   ("errorState", I32)].
(* SilKit/source/capi/CapiCan.cpp 180-182 *)
Definition cv_can_error_event_out : conv :=
  {| cv_dst := C_CanErrorStateChangeEvent;
     cv_init := [("structHeader", VI (struct_id id_CanErrorStateChangeEvent))] ++ zeroed C_CanErrorStateChangeEvent;
     cv_body :=
      [(Always, Asg "timestamp" [] "timestamp");
       (Always, Asg "errorState" [I32] "errorState")] |}.
(* SilKit/include/silkit/detail/impl/services/can/CanController.hpp 245-246 *)
Definition cv_can_error_event_in : conv :=
  {| cv_dst := X_CanErrorStateChangeEvent;
     cv_init := zeroed X_CanErrorStateChangeEvent;
     cv_body :=
      [(Always, Asg "timestamp" [I64] "timestamp");
       (Always, Asg "errorState" [I32] "errorState")] |}.
(* SilKit/include/silkit/services/ethernet/EthernetDatatypes.hpp 34-40; the structs held by it, or pointed to, are part of it *)
Definition X_EthernetFrameEvent : layout :=
  [("timestamp", I64);
   ("direction", U8);
   ("userContext", TPtr);
   ("frame.raw", TBytes)].
(* SilKit/include/silkit/capi/Ethernet.h 78-85; the structs held by it, or pointed to, are part of it *)
Definition C_EthernetFrameEvent : layout :=
  [("structHeader", U64);
   ("timestamp", U64);
   ("direction", U8);
   ("userContext", TPtr);
   ("ethernetFrame.structHeader", U64);
   ("ethernetFrame.raw", TBytes)].
(* SilKit/source/capi/CapiEthernet.cpp 75-85 *)
Definition cv_eth_frame_event_out : conv :=
  {| cv_dst := C_EthernetFrameEvent;
     cv_init := [("structHeader", VI (struct_id id_EthernetFrameEvent)); ("ethernetFrame.structHeader", VI (struct_id id_EthernetFrame))] ++ zeroed C_EthernetFrameEvent;
     cv_body :=
      [(Always, CpyE "ethernetFrame.raw" "frame.raw");
       (Always, Asg "timestamp" [] "timestamp");
       (Always, Asg "direction" [U8] "direction");
       (Always, Asg "userContext" [] "userContext")] |}.
(* SilKit/include/silkit/detail/impl/services/ethernet/EthernetController.hpp 120-123 *)
Definition cv_eth_frame_event_in : conv :=
  {| cv_dst := X_EthernetFrameEvent;
     cv_init := zeroed X_EthernetFrameEvent;
     cv_body :=
      [(Always, Asg "timestamp" [I64] "timestamp");
       (Always, Cpy "frame.raw" "ethernetFrame.raw");
       (Always, Asg "direction" [U8] "direction");
       (Always, Asg "userContext" [] "userContext")] |}.
(* SilKit/include/silkit/services/ethernet/EthernetDatatypes.hpp 64-69; the structs held by it, or pointed to, are part of it *)
Definition X_EthernetFrameTransmitEvent : layout :=
  [("timestamp", I64);
   ("status", U32);
   ("userContext", TPtr)].
(* SilKit/include/silkit/capi/Ethernet.h 87-93; the structs held by it, or pointed to, are part of it *)
Definition C_EthernetFrameTransmitEvent : layout :=
  [("structHeader", U64);
   ("userContext", TPtr);
   ("timestamp", U64);
   ("status", U32)].
(* SilKit/source/capi/CapiEthernet.cpp 125-128 *)
Definition cv_eth_transmit_event_out : conv :=
  {| cv_dst := C_EthernetFrameTransmitEvent;
     cv_init := [("structHeader", VI (struct_id id_EthernetFrameTransmitEvent))] ++ zeroed C_EthernetFrameTransmitEvent;
     cv_body :=
      [(Always, Asg "status" [U32] "status");
       (Always, Asg "timestamp" [] "timestamp");
       (Always, Asg "userContext" [] "userContext")] |}.
(* SilKit/include/silkit/detail/impl/services/ethernet/EthernetController.hpp 162-164 *)
Definition cv_eth_transmit_event_in : conv :=
  {| cv_dst := X_EthernetFrameTransmitEvent;
     cv_init := zeroed X_EthernetFrameTransmitEvent;
     cv_body :=
      [(Always, Asg "timestamp" [I64] "timestamp");
       (Always, Asg "status" [U32] "status");
       (Always, Asg "userContext" [] "userContext")] |}.
(* SilKit/include/silkit/services/ethernet/EthernetDatatypes.hpp 83-87; the structs held by it, or pointed to, are part of it *)
Definition X_EthernetStateChangeEvent : layout :=
  [("timestamp", I64);
   ("state", U32)].
(* SilKit/include/silkit/capi/Ethernet.h 54-59; the structs held by it, or pointed to, are part of it *)
Definition C_EthernetStateChangeEvent : layout :=
  [("structHeader", U64);
   ("timestamp", U64);
   ("state", U32)].
(* SilKit/source/capi/CapiEthernet.cpp 164-166 *)
Definition cv_eth_state_event_out : conv :=
  {| cv_dst := C_EthernetStateChangeEvent;
     cv_init := [("structHeader", VI (struct_id id_EthernetStateChangeEvent))] ++ zeroed C_EthernetStateChangeEvent;
     cv_body :=
      [(Always, Asg "timestamp" [] "timestamp");
       (Always, Asg "state" [U32] "state")] |}.
(* SilKit/include/silkit/detail/impl/services/ethernet/EthernetController.hpp 202-203 *)
Definition cv_eth_state_event_in : conv :=
  {| cv_dst := X_EthernetStateChangeEvent;
     cv_init := zeroed X_EthernetStateChangeEvent;
     cv_body :=
      [(Always, Asg "timestamp" [I64] "timestamp");
       (Always, Asg "state" [U32] "state")] |}.
(* SilKit/include/silkit/services/ethernet/EthernetDatatypes.hpp 90-94; the structs held by it, or pointed to, are part of it *)
Definition X_EthernetBitrateChangeEvent : layout :=
  [("timestamp", I64);
   ("bitrate", U32)].
(* SilKit/include/silkit/capi/Ethernet.h 63-68; the structs held by it, or pointed to, are part of it *)
Definition C_EthernetBitrateChangeEvent : layout :=
  [("structHeader", U64);
   ("timestamp", U64);
   ("bitrate", U32)].
(* SilKit/source/capi/CapiEthernet.cpp 203-205 *)
Definition cv_eth_bitrate_event_out : conv :=
  {| cv_dst := C_EthernetBitrateChangeEvent;
     cv_init := [("structHeader", VI (struct_id id_EthernetBitrateChangeEvent))] ++ zeroed C_EthernetBitrateChangeEvent;
     cv_body :=
      [(Always, Asg "timestamp" [] "timestamp");
       (Always, Asg "bitrate" [U32] "bitrate")] |}.
(* SilKit/include/silkit/detail/impl/services/ethernet/EthernetController.hpp 240-241 *)
Definition cv_eth_bitrate_event_in : conv :=
  {| cv_dst := X_EthernetBitrateChangeEvent;
     cv_init := zeroed X_EthernetBitrateChangeEvent;
     cv_body :=
      [(Always, Asg "timestamp" [I64] "timestamp");
       (Always, Asg "bitrate" [U32] "bitrate")] |}.
(* SilKit/include/silkit/services/lin/LinDatatypes.hpp 275-280; the structs held by it, or pointed to, are part of it *)
Definition X_LinFrameStatusEvent : layout :=
  [("timestamp", I64);
   ("status", U8);
   ("frame.id", U8);
   ("frame.checksumModel", U8);
   ("frame.dataLength", U8);
   ("frame.data", TArr8)].
(* SilKit/include/silkit/capi/Lin.h 168-174; the structs held by it, or pointed to, are part of it *)
Definition C_LinFrameStatusEvent : layout :=
  [("structHeader", U64);
   ("timestamp", U64);
   ("status", U8);
   ("frame.structHeader", U64);
   ("frame.id", U8);
   ("frame.checksumModel", U8);
   ("frame.dataLength", U8);
   ("frame.data", TArr8)].
(* SilKit/source/capi/CapiLin.cpp 269-278 *)
Definition cv_lin_status_event_out : conv :=
  {| cv_dst := C_LinFrameStatusEvent;
     cv_init := map snd (filter (fun x => negb (fst x)) (map (fun e => (prefix "frame." (fst e), e)) ([("structHeader", VI (struct_id id_LinFrameStatusEvent))] ++ zeroed C_LinFrameStatusEvent)));
     cv_body :=
      [(Always, Asg "frame.id" [U8] "frame.id");
       (Always, Asg "frame.checksumModel" [U8] "frame.checksumModel");
       (Always, Asg "frame.dataLength" [U8] "frame.dataLength");
       (Always, Cpy "frame.data" "frame.data");
       (Always, Asg "timestamp" [U64] "timestamp");
       (Always, Asg "status" [U8] "status")] |}.
(* SilKit/include/silkit/detail/impl/services/lin/LinController.hpp 255-261 *)
Definition cv_lin_status_event_in : conv :=
  {| cv_dst := X_LinFrameStatusEvent;
     cv_init := zeroed X_LinFrameStatusEvent;
     cv_body :=
      [(Always, Asg "timestamp" [I64] "timestamp");
       (Always, Asg "frame.id" [] "frame.id");
       (Always, Asg "frame.checksumModel" [U8] "frame.checksumModel");
       (Always, Asg "frame.dataLength" [] "frame.dataLength");
       (Always, Cpy "frame.data" "frame.data");
       (Always, Asg "status" [U8] "status")] |}.
(* SilKit/include/silkit/services/lin/LinDatatypes.hpp 290-293; the structs held by it, or pointed to, are part of it *)
Definition X_LinGoToSleepEvent : layout :=
  [("timestamp", I64)].
(* SilKit/include/silkit/capi/Lin.h 187-191; the structs held by it, or pointed to, are part of it *)
Definition C_LinGoToSleepEvent : layout :=
  [("structHeader", U64);
   ("timestamp", U64)].
(* SilKit/source/capi/CapiLin.cpp 314-315 *)
Definition cv_lin_sleep_event_out : conv :=
  {| cv_dst := C_LinGoToSleepEvent;
     cv_init := [("structHeader", VI (struct_id id_LinGoToSleepEvent))] ++ zeroed C_LinGoToSleepEvent;
     cv_body :=
      [(Always, Asg "timestamp" [U64] "timestamp")] |}.
(* SilKit/include/silkit/detail/impl/services/lin/LinController.hpp 298 *)
Definition cv_lin_sleep_event_in : conv :=
  {| cv_dst := X_LinGoToSleepEvent;
     cv_init := zeroed X_LinGoToSleepEvent;
     cv_body :=
      [(Always, Asg "timestamp" [I64] "timestamp")] |}.
(* SilKit/include/silkit/services/lin/LinDatatypes.hpp 283-287; the structs held by it, or pointed to, are part of it *)
Definition X_LinWakeupEvent : layout :=
  [("timestamp", I64);
   ("direction", U8)].
(* SilKit/include/silkit/capi/Lin.h 178-183; the structs held by it, or pointed to, are part of it *)
Definition C_LinWakeupEvent : layout :=
  [("structHeader", U64);
   ("timestamp", U64);
   ("direction", U8)].
(* SilKit/source/capi/CapiLin.cpp 349-351 *)
Definition cv_lin_wakeup_event_out : conv :=
  {| cv_dst := C_LinWakeupEvent;
     cv_init := [("structHeader", VI (struct_id id_LinWakeupEvent))] ++ zeroed C_LinWakeupEvent;
     cv_body :=
      [(Always, Asg "timestamp" [U64] "timestamp");
       (Always, Asg "direction" [U8] "direction")] |}.
(* SilKit/include/silkit/detail/impl/services/lin/LinController.hpp 335-336 *)
Definition cv_lin_wakeup_event_in : conv :=
  {| cv_dst := X_LinWakeupEvent;
     cv_init := zeroed X_LinWakeupEvent;
     cv_body :=
      [(Always, Asg "timestamp" [I64] "timestamp");
       (Always, Asg "direction" [U8] "direction")] |}.
(* SilKit/include/silkit/experimental/services/lin/LinDatatypesExtensions.hpp 23-26; the structs held by it, or pointed to, are part of it *)
Definition X_LinSlaveConfigurationEvent : layout :=
  [("timestamp", I64)].
(* SilKit/include/silkit/capi/Lin.h 195-199; the structs held by it, or pointed to, are part of it *)
Definition C_LinSlaveConfigurationEvent : layout :=
  [("structHeader", U64);
   ("timestamp", U64)].
(* SilKit/source/capi/CapiLin.cpp 388-389 *)
Definition cv_lin_slave_event_out : conv :=
  {| cv_dst := C_LinSlaveConfigurationEvent;
     cv_init := [("structHeader", VI (struct_id id_LinSlaveConfigurationEvent))] ++ zeroed C_LinSlaveConfigurationEvent;
     cv_body :=
      [(Always, Asg "timestamp" [U64] "timestamp")] |}.
(* SilKit/include/silkit/detail/impl/services/lin/LinController.hpp 376 *)
Definition cv_lin_slave_event_in : conv :=
  {| cv_dst := X_LinSlaveConfigurationEvent;
     cv_init := zeroed X_LinSlaveConfigurationEvent;
     cv_body :=
      [(Always, Asg "timestamp" [I64] "timestamp")] |}.
(* SilKit/include/silkit/experimental/services/lin/LinDatatypesExtensions.hpp 55-59; the structs held by it, or pointed to, are part of it *)
Definition X_LinFrameHeaderEvent : layout :=
  [("timestamp", I64);
   ("id", U8)].
(* SilKit/include/silkit/capi/Lin.h 264-269; the structs held by it, or pointed to, are part of it *)
Definition C_LinFrameHeaderEvent : layout :=
  [("structHeader", U64);
   ("timestamp", U64);
   ("id", U8)].
(* SilKit/source/capi/CapiLin.cpp 440-442 *)
Definition cv_lin_header_event_out : conv :=
  {| cv_dst := C_LinFrameHeaderEvent;
     cv_init := [("structHeader", VI (struct_id id_LinWakeupEvent))] ++ zeroed C_LinFrameHeaderEvent;
     cv_body :=
      [(Always, Asg "timestamp" [U64] "timestamp");
       (Always, Asg "id" [U8] "id")] |}.
(* SilKit/include/silkit/detail/impl/services/lin/LinController.hpp 450-451 *)
Definition cv_lin_header_event_in : conv :=
  {| cv_dst := X_LinFrameHeaderEvent;
     cv_init := zeroed X_LinFrameHeaderEvent;
     cv_body :=
      [(Always, Asg "timestamp" [I64] "timestamp");
       (Always, Asg "id" [U8] "id")] |}.
(* SilKit/include/silkit/services/flexray/FlexrayDatatypes.hpp 338-343; the structs held by it, or pointed to, are part of it *)
Definition X_FlexrayFrameEvent : layout :=
  [("timestamp", I64);
   ("channel", U32);
   ("frame.payload", TBytes);
   ("frame.header.flags", U8);
   ("frame.header.frameId", U16);
   ("frame.header.payloadLength", U8);
   ("frame.header.headerCrc", U16);
   ("frame.header.cycleCount", U8)].
(* SilKit/include/silkit/capi/Flexray.h 361-367; the structs held by it, or pointed to, are part of it *)
Definition C_FlexrayFrameEvent : layout :=
  [("structHeader", U64);
   ("timestamp", U64);
   ("channel", U32);
   ("frame.structHeader", U64);
   ("frame.payload", TBytes);
   ("frame.header.structHeader", U64);
   ("frame.header.flags", U8);
   ("frame.header.frameId", U16);
   ("frame.header.payloadLength", U8);
   ("frame.header.headerCrc", U16);
   ("frame.header.cycleCount", U8)].
(* SilKit/source/capi/CapiFlexray.cpp 250-266 *)
Definition cv_flx_frame_event_out : conv :=
  {| cv_dst := C_FlexrayFrameEvent;
     cv_init := [("structHeader", VI (struct_id id_FlexrayFrameEvent)); ("frame.structHeader", VI (struct_id id_FlexrayFrame)); ("frame.header.structHeader", VI (struct_id id_FlexrayHeader))] ++ zeroed C_FlexrayFrameEvent;
     cv_body :=
      [(Always, Asg "frame.header.cycleCount" [] "frame.header.cycleCount");
       (Always, Asg "frame.header.frameId" [] "frame.header.frameId");
       (Always, Asg "frame.header.flags" [] "frame.header.flags");
       (Always, Asg "frame.header.headerCrc" [] "frame.header.headerCrc");
       (Always, Asg "frame.header.payloadLength" [] "frame.header.payloadLength");
       (Always, CpyN "frame.payload" "frame.payload");
       (Always, Asg "timestamp" [] "timestamp");
       (Always, Asg "channel" [U32] "channel")] |}.
(* SilKit/include/silkit/detail/impl/services/flexray/FlexrayController.hpp 237-240 *)
Definition cv_flx_frame_event_in : conv :=
  {| cv_dst := X_FlexrayFrameEvent;
     cv_init := zeroed X_FlexrayFrameEvent;
     cv_body :=
      [(Always, Asg "timestamp" [I64] "timestamp");
       (Always, Asg "channel" [U32] "channel");
       (Always, Asg "frame.header.cycleCount" [] "frame.header.cycleCount");
       (Always, Asg "frame.header.flags" [] "frame.header.flags");
       (Always, Asg "frame.header.frameId" [] "frame.header.frameId");
       (Always, Asg "frame.header.headerCrc" [] "frame.header.headerCrc");
       (Always, Asg "frame.header.payloadLength" [] "frame.header.payloadLength");
       (Always, Cpy "frame.payload" "frame.payload")] |}.
(* SilKit/include/silkit/services/flexray/FlexrayDatatypes.hpp 348-354; the structs held by it, or pointed to, are part of it *)
Definition X_FlexrayFrameTransmitEvent : layout :=
  [("timestamp", I64);
   ("txBufferIndex", U16);
   ("channel", U32);
   ("frame.payload", TBytes);
   ("frame.header.flags", U8);
   ("frame.header.frameId", U16);
   ("frame.header.payloadLength", U8);
   ("frame.header.headerCrc", U16);
   ("frame.header.cycleCount", U8)].
(* SilKit/include/silkit/capi/Flexray.h 373-380; the structs held by it, or pointed to, are part of it *)
Definition C_FlexrayFrameTransmitEvent : layout :=
  [("structHeader", U64);
   ("timestamp", U64);
   ("txBufferIndex", U16);
   ("channel", U32);
   ("frame.structHeader", U64);
   ("frame.payload", TBytes);
   ("frame.header.structHeader", U64);
   ("frame.header.flags", U8);
   ("frame.header.frameId", U16);
   ("frame.header.payloadLength", U8);
   ("frame.header.headerCrc", U16);
   ("frame.header.cycleCount", U8)].
(* SilKit/source/capi/CapiFlexray.cpp 305-322 *)
Definition cv_flx_transmit_event_out : conv :=
  {| cv_dst := C_FlexrayFrameTransmitEvent;
     cv_init := [("structHeader", VI (struct_id id_FlexrayFrameEvent)); ("frame.structHeader", VI (struct_id id_FlexrayFrame)); ("frame.header.structHeader", VI (struct_id id_FlexrayHeader))] ++ zeroed C_FlexrayFrameTransmitEvent;
     cv_body :=
      [(Always, Asg "frame.header.cycleCount" [] "frame.header.cycleCount");
       (Always, Asg "frame.header.frameId" [] "frame.header.frameId");
       (Always, Asg "frame.header.flags" [] "frame.header.flags");
       (Always, Asg "frame.header.headerCrc" [] "frame.header.headerCrc");
       (Always, Asg "frame.header.payloadLength" [] "frame.header.payloadLength");
       (Always, CpyN "frame.payload" "frame.payload");
       (Always, Asg "timestamp" [] "timestamp");
       (Always, Asg "txBufferIndex" [] "txBufferIndex");
       (Always, Asg "channel" [U32] "channel")] |}.
(* SilKit/include/silkit/detail/impl/services/flexray/FlexrayController.hpp 277-281 *)
Definition cv_flx_transmit_event_in : conv :=
  {| cv_dst := X_FlexrayFrameTransmitEvent;
     cv_init := zeroed X_FlexrayFrameTransmitEvent;
     cv_body :=
      [(Always, Asg "timestamp" [I64] "timestamp");
       (Always, Asg "channel" [U32] "channel");
       (Always, Asg "frame.header.cycleCount" [] "frame.header.cycleCount");
       (Always, Asg "frame.header.flags" [] "frame.header.flags");
       (Always, Asg "frame.header.frameId" [] "frame.header.frameId");
       (Always, Asg "frame.header.headerCrc" [] "frame.header.headerCrc");
       (Always, Asg "frame.header.payloadLength" [] "frame.header.payloadLength");
       (Always, Cpy "frame.payload" "frame.payload");
       (Always, Asg "txBufferIndex" [] "txBufferIndex")] |}.
(* SilKit/include/silkit/services/flexray/FlexrayDatatypes.hpp 370-375; the structs held by it, or pointed to, are part of it *)
Definition X_FlexrayWakeupEvent : layout :=
  [("timestamp", I64);
   ("channel", U32);
   ("pattern", U8)].
(* SilKit/include/silkit/capi/Flexray.h 397-403; the structs held by it, or pointed to, are part of it *)
Definition C_FlexrayWakeupEvent : layout :=
  [("structHeader", U64);
   ("timestamp", U64);
   ("channel", U32);
   ("pattern", U8)].
(* SilKit/source/capi/CapiFlexray.cpp 358-362 *)
Definition cv_flx_wakeup_event_out : conv :=
  {| cv_dst := C_FlexrayWakeupEvent;
     cv_init := [("structHeader", VI (struct_id id_FlexrayWakeupEvent))] ++ zeroed C_FlexrayWakeupEvent;
     cv_body :=
      [(Always, Asg "timestamp" [] "timestamp");
       (Always, Asg "channel" [U32] "channel");
       (Always, Asg "pattern" [U8] "pattern")] |}.
(* SilKit/include/silkit/detail/impl/services/flexray/FlexrayController.hpp 318-320 *)
Definition cv_flx_wakeup_event_in : conv :=
  {| cv_dst := X_FlexrayWakeupEvent;
     cv_init := zeroed X_FlexrayWakeupEvent;
     cv_body :=
      [(Always, Asg "timestamp" [I64] "timestamp");
       (Always, Asg "channel" [U32] "channel");
       (Always, Asg "pattern" [U8] "pattern")] |}.
(* SilKit/include/silkit/services/flexray/FlexrayDatatypes.hpp 487-501; the structs held by it, or pointed to, are part of it *)
Definition X_FlexrayPocStatusEvent : layout :=
  [("timestamp", I64);
   ("state", U8);
   ("chiHaltRequest", TBool);
   ("coldstartNoise", TBool);
   ("freeze", TBool);
   ("chiReadyRequest", TBool);
   ("errorMode", U8);
   ("slotMode", U8);
   ("startupState", U8);
   ("wakeupStatus", U8)].
(* SilKit/include/silkit/capi/Flexray.h 498-518; the structs held by it, or pointed to, are part of it *)
Definition C_FlexrayPocStatusEvent : layout :=
  [("structHeader", U64);
   ("timestamp", U64);
   ("state", U8);
   ("chiHaltRequest", CBool);
   ("coldstartNoise", CBool);
   ("freeze", CBool);
   ("chiReadyRequest", CBool);
   ("errorMode", U8);
   ("slotMode", U8);
   ("startupState", U8);
   ("wakeupStatus", U8)].
(* SilKit/source/capi/CapiFlexray.cpp 398-408 *)
Definition cv_flx_poc_event_out : conv :=
  {| cv_dst := C_FlexrayPocStatusEvent;
     cv_init := [("structHeader", VI (struct_id id_FlexrayPocStatusEvent))] ++ zeroed C_FlexrayPocStatusEvent;
     cv_body :=
      [(Always, Asg "timestamp" [] "timestamp");
       (Always, Asg "state" [U8] "state");
       (Always, Asg "chiHaltRequest" [] "chiHaltRequest");
       (Always, Asg "coldstartNoise" [] "coldstartNoise");
       (Always, Asg "freeze" [] "freeze");
       (Always, Asg "chiReadyRequest" [] "chiReadyRequest");
       (Always, Asg "errorMode" [U8] "errorMode");
       (Always, Asg "slotMode" [U8] "slotMode");
       (Always, Asg "startupState" [U8] "startupState");
       (Always, Asg "wakeupStatus" [U8] "wakeupStatus")] |}.
(* SilKit/include/silkit/detail/impl/services/flexray/FlexrayController.hpp 357-366 *)
Definition cv_flx_poc_event_in : conv :=
  {| cv_dst := X_FlexrayPocStatusEvent;
     cv_init := zeroed X_FlexrayPocStatusEvent;
     cv_body :=
      [(Always, Asg "timestamp" [I64] "timestamp");
       (Always, Asg "state" [U8] "state");
       (Always, Asg "chiHaltRequest" [] "chiHaltRequest");
       (Always, Asg "chiReadyRequest" [] "chiReadyRequest");
       (Always, Asg "coldstartNoise" [] "coldstartNoise");
       (Always, Asg "errorMode" [U8] "errorMode");
       (Always, Asg "freeze" [] "freeze");
       (Always, Asg "slotMode" [U8] "slotMode");
       (Always, Asg "startupState" [U8] "startupState");
       (Always, Asg "wakeupStatus" [U8] "wakeupStatus")] |}.
(* SilKit/include/silkit/services/flexray/FlexrayDatatypes.hpp 370-375; the structs held by it, or pointed to, are part of it *)
Definition X_FlexraySymbolEvent : layout :=
  [("timestamp", I64);
   ("channel", U32);
   ("pattern", U8)].
(* SilKit/include/silkit/capi/Flexray.h 397-403; the structs held by it, or pointed to, are part of it *)
Definition C_FlexraySymbolEvent : layout :=
  [("structHeader", U64);
   ("timestamp", U64);
   ("channel", U32);
   ("pattern", U8)].
(* SilKit/source/capi/CapiFlexray.cpp 444-447 *)
Definition cv_flx_symbol_event_out : conv :=
  {| cv_dst := C_FlexraySymbolEvent;
     cv_init := [("structHeader", VI (struct_id id_FlexraySymbolEvent))] ++ zeroed C_FlexraySymbolEvent;
     cv_body :=
      [(Always, Asg "timestamp" [] "timestamp");
       (Always, Asg "channel" [U32] "channel");
       (Always, Asg "pattern" [U8] "pattern")] |}.
(* SilKit/include/silkit/detail/impl/services/flexray/FlexrayController.hpp 403-405 *)
Definition cv_flx_symbol_event_in : conv :=
  {| cv_dst := X_FlexraySymbolEvent;
     cv_init := zeroed X_FlexraySymbolEvent;
     cv_body :=
      [(Always, Asg "timestamp" [I64] "timestamp");
       (Always, Asg "channel" [U32] "channel");
       (Always, Asg "pattern" [U8] "pattern")] |}.
(* SilKit/include/silkit/services/flexray/FlexrayDatatypes.hpp 370-375; the structs held by it, or pointed to, are part of it *)
Definition X_FlexraySymbolTransmitEvent : layout :=
  [("timestamp", I64);
   ("channel", U32);
   ("pattern", U8)].
(* SilKit/include/silkit/capi/Flexray.h 397-403; the structs held by it, or pointed to, are part of it *)
Definition C_FlexraySymbolTransmitEvent : layout :=
  [("structHeader", U64);
   ("timestamp", U64);
   ("channel", U32);
   ("pattern", U8)].
(* SilKit/source/capi/CapiFlexray.cpp 482-485 *)
Definition cv_flx_symbol_transmit_event_out : conv :=
  {| cv_dst := C_FlexraySymbolTransmitEvent;
     cv_init := [("structHeader", VI (struct_id id_FlexraySymbolTransmitEvent))] ++ zeroed C_FlexraySymbolTransmitEvent;
     cv_body :=
      [(Always, Asg "timestamp" [] "timestamp");
       (Always, Asg "channel" [U32] "channel");
       (Always, Asg "pattern" [U8] "pattern")] |}.
(* SilKit/include/silkit/detail/impl/services/flexray/FlexrayController.hpp 442-444 *)
Definition cv_flx_symbol_transmit_event_in : conv :=
  {| cv_dst := X_FlexraySymbolTransmitEvent;
     cv_init := zeroed X_FlexraySymbolTransmitEvent;
     cv_body :=
      [(Always, Asg "timestamp" [I64] "timestamp");
       (Always, Asg "channel" [U32] "channel");
       (Always, Asg "pattern" [U8] "pattern")] |}.
(* SilKit/include/silkit/services/flexray/FlexrayDatatypes.hpp 398-402; the structs held by it, or pointed to, are part of it *)
Definition X_FlexrayCycleStartEvent : layout :=
  [("timestamp", I64);
   ("cycleCounter", U8)].
(* SilKit/include/silkit/capi/Flexray.h 411-416; the structs held by it, or pointed to, are part of it *)
Definition C_FlexrayCycleStartEvent : layout :=
  [("structHeader", U64);
   ("timestamp", U64);
   ("cycleCounter", U8)].
(* SilKit/source/capi/CapiFlexray.cpp 521-523 *)
Definition cv_flx_cycle_event_out : conv :=
  {| cv_dst := C_FlexrayCycleStartEvent;
     cv_init := [("structHeader", VI (struct_id id_FlexrayCycleStartEvent))] ++ zeroed C_FlexrayCycleStartEvent;
     cv_body :=
      [(Always, Asg "timestamp" [] "timestamp");
       (Always, Asg "cycleCounter" [] "cycleCounter")] |}.
(* SilKit/include/silkit/detail/impl/services/flexray/FlexrayController.hpp 481-482 *)
Definition cv_flx_cycle_event_in : conv :=
  {| cv_dst := X_FlexrayCycleStartEvent;
     cv_init := zeroed X_FlexrayCycleStartEvent;
     cv_body :=
      [(Always, Asg "timestamp" [I64] "timestamp");
       (Always, Asg "cycleCounter" [] "cycleCounter")] |}.
(* SilKit/include/silkit/experimental/netsim/NetworkSimulatorDatatypes.hpp 38-42; the structs held by it, or pointed to, are part of it *)
Definition X_NetSim_CanFrameRequest : layout :=
  [("userContext", TPtr);
   ("frame.canId", U32);
   ("frame.flags", U32);
   ("frame.dlc", U16);
   ("frame.sdt", U8);
   ("frame.vcid", U8);
   ("frame.af", U32);
   ("frame.dataField", TBytes)].
(* SilKit/include/silkit/capi/NetworkSimulator.h 58-63; the structs held by it, or pointed to, are part of it *)
Definition C_NetSim_CanFrameRequest : layout :=
  [("structHeader", U64);
   ("userContext", TPtr);
   ("frame.structHeader", U64);
   ("frame.id", U32);
   ("frame.flags", U32);
   ("frame.dlc", U16);
   ("frame.sdt", U8);
   ("frame.vcid", U8);
   ("frame.af", U32);
   ("frame.data", TBytes)].
(* SilKit/include/silkit/detail/impl/HourglassConversions.hpp 93-98 *)
Definition cv_req_can_frame_request_out : conv :=
  {| cv_dst := C_NetSim_CanFrameRequest;
     cv_init := [("structHeader", VI (struct_id id_NetSim_CanFrameRequest)); ("frame.structHeader", VI (struct_id id_CanFrame))] ++ zeroed C_NetSim_CanFrameRequest;
     cv_body :=
      [(Always, Asg "userContext" [] "userContext");
       (Always, Asg "frame.id" [] "frame.canId");
       (Always, Asg "frame.flags" [] "frame.flags");
       (Always, Asg "frame.dlc" [] "frame.dlc");
       (Always, Asg "frame.sdt" [] "frame.sdt");
       (Always, Asg "frame.vcid" [] "frame.vcid");
       (Always, Asg "frame.af" [] "frame.af");
       (Always, Cpy "frame.data" "frame.dataField")] |}.
(* SilKit/include/silkit/detail/impl/HourglassConversions.hpp 499-504 *)
Definition cv_req_can_frame_request_in : conv :=
  {| cv_dst := X_NetSim_CanFrameRequest;
     cv_init := zeroed X_NetSim_CanFrameRequest;
     cv_body :=
      [(Always, Asg "userContext" [] "userContext");
       (Always, Asg "frame.canId" [] "frame.id");
       (Always, Asg "frame.flags" [] "frame.flags");
       (Always, Asg "frame.dlc" [] "frame.dlc");
       (Always, Asg "frame.sdt" [] "frame.sdt");
       (Always, Asg "frame.vcid" [] "frame.vcid");
       (Always, Asg "frame.af" [] "frame.af");
       (Always, Cpy "frame.dataField" "frame.data")] |}.
(* SilKit/include/silkit/experimental/netsim/NetworkSimulatorDatatypes.hpp 43-50; the structs held by it, or pointed to, are part of it *)
Definition X_NetSim_CanConfigureBaudrate : layout :=
  [("baudRate", U32);
   ("fdBaudRate", U32);
   ("xlBaudRate", U32)].
(* SilKit/include/silkit/capi/NetworkSimulator.h 66-72; the structs held by it, or pointed to, are part of it *)
Definition C_NetSim_CanConfigureBaudrate : layout :=
  [("structHeader", U64);
   ("rate", U32);
   ("fdRate", U32);
   ("xlRate", U32)].
(* SilKit/include/silkit/detail/impl/HourglassConversions.hpp 85-91 *)
Definition cv_req_can_configure_baudrate_out : conv :=
  {| cv_dst := C_NetSim_CanConfigureBaudrate;
     cv_init := [("structHeader", VI (struct_id id_NetSim_CanConfigureBaudrate))] ++ zeroed C_NetSim_CanConfigureBaudrate;
     cv_body :=
      [(Always, Asg "rate" [] "baudRate");
       (Always, Asg "fdRate" [] "fdBaudRate");
       (Always, Asg "xlRate" [] "xlBaudRate")] |}.
(* SilKit/include/silkit/detail/impl/HourglassConversions.hpp 506-512 *)
Definition cv_req_can_configure_baudrate_in : conv :=
  {| cv_dst := X_NetSim_CanConfigureBaudrate;
     cv_init := zeroed X_NetSim_CanConfigureBaudrate;
     cv_body :=
      [(Always, Asg "baudRate" [] "rate");
       (Always, Asg "fdBaudRate" [] "fdRate");
       (Always, Asg "xlBaudRate" [] "xlRate")] |}.
(* SilKit/include/silkit/experimental/netsim/NetworkSimulatorDatatypes.hpp 51-56; the structs held by it, or pointed to, are part of it *)
Definition X_NetSim_CanControllerMode : layout :=
  [("canControllerModeFlags", I32);
   ("state", I32)].
(* SilKit/include/silkit/capi/NetworkSimulator.h 85-90; the structs held by it, or pointed to, are part of it *)
Definition C_NetSim_CanControllerMode : layout :=
  [("structHeader", U64);
   ("canControllerModeFlags", I32);
   ("state", I32)].
(* SilKit/include/silkit/detail/impl/HourglassConversions.hpp 78-83 *)
Definition cv_req_can_controller_mode_out : conv :=
  {| cv_dst := C_NetSim_CanControllerMode;
     cv_init := [("structHeader", VI (struct_id id_NetSim_CanControllerMode))] ++ zeroed C_NetSim_CanControllerMode;
     cv_body :=
      [(Always, Asg "state" [I32] "state");
       (Always, Asg "canControllerModeFlags" [] "canControllerModeFlags")] |}.
(* SilKit/include/silkit/detail/impl/HourglassConversions.hpp 514-519 *)
Definition cv_req_can_controller_mode_in : conv :=
  {| cv_dst := X_NetSim_CanControllerMode;
     cv_init := zeroed X_NetSim_CanControllerMode;
     cv_body :=
      [(Always, Asg "state" [I32] "state");
       (Always, Asg "canControllerModeFlags" [] "canControllerModeFlags")] |}.
(* SilKit/include/silkit/experimental/netsim/NetworkSimulatorDatatypes.hpp 109-112; the structs held by it, or pointed to, are part of it *)
Definition X_NetSim_FlexrayHostCommand : layout :=
  [("command", U8)].
(* SilKit/include/silkit/capi/NetworkSimulator.h 105-109; the structs held by it, or pointed to, are part of it *)
Definition C_NetSim_FlexrayHostCommand : layout :=
  [("structHeader", U64);
   ("chiCommand", U8)].
(* SilKit/include/silkit/detail/impl/HourglassConversions.hpp 244-248 *)
Definition cv_req_flexray_host_command_out : conv :=
  {| cv_dst := C_NetSim_FlexrayHostCommand;
     cv_init := [("structHeader", VI (struct_id id_NetSim_FlexrayHostCommand))] ++ zeroed C_NetSim_FlexrayHostCommand;
     cv_body :=
      [(Always, Asg "chiCommand" [U8] "command")] |}.
(* SilKit/include/silkit/detail/impl/HourglassConversions.hpp 664-668 *)
Definition cv_req_flexray_host_command_in : conv :=
  {| cv_dst := X_NetSim_FlexrayHostCommand;
     cv_init := zeroed X_NetSim_FlexrayHostCommand;
     cv_body :=
      [(Always, Asg "command" [U8] "chiCommand")] |}.
(* SilKit/include/silkit/experimental/netsim/NetworkSimulatorDatatypes.hpp 80-86; the structs held by it, or pointed to, are part of it *)
Definition X_NetSim_FlexrayTxBufferConfigUpdate : layout :=
  [("txBufferIndex", U16);
   ("txBufferConfig.channels", U32);
   ("txBufferConfig.slotId", U16);
   ("txBufferConfig.offset", U8);
   ("txBufferConfig.repetition", U8);
   ("txBufferConfig.hasPayloadPreambleIndicator", TBool);
   ("txBufferConfig.headerCrc", U16);
   ("txBufferConfig.transmissionMode", U8)].
(* SilKit/include/silkit/capi/NetworkSimulator.h 126-131; the structs held by it, or pointed to, are part of it *)
Definition C_NetSim_FlexrayTxBufferConfigUpdate : layout :=
  [("structHeader", U64);
   ("txBufferIdx", U16);
   ("txBufferConfig.structHeader", U64);
   ("txBufferConfig.channels", U32);
   ("txBufferConfig.slotId", U16);
   ("txBufferConfig.offset", U8);
   ("txBufferConfig.repetition", U8);
   ("txBufferConfig.hasPayloadPreambleIndicator", CBool);
   ("txBufferConfig.headerCrc", U16);
   ("txBufferConfig.transmissionMode", U8)].
(* SilKit/include/silkit/detail/impl/HourglassConversions.hpp 264-269 *)
Definition cv_req_flexray_tx_buffer_config_update_out : conv :=
  {| cv_dst := C_NetSim_FlexrayTxBufferConfigUpdate;
     cv_init := [("structHeader", VI (struct_id id_NetSim_FlexrayTxBufferConfigUpdate)); ("txBufferConfig.structHeader", VI (struct_id id_FlexrayTxBufferConfig))] ++ zeroed C_NetSim_FlexrayTxBufferConfigUpdate;
     cv_body :=
      [(Always, Asg "txBufferIdx" [] "txBufferIndex");
       (Always, Asg "txBufferConfig.channels" [U32] "txBufferConfig.channels");
       (Always, Asg "txBufferConfig.slotId" [] "txBufferConfig.slotId");
       (Always, Asg "txBufferConfig.offset" [] "txBufferConfig.offset");
       (Always, Asg "txBufferConfig.repetition" [] "txBufferConfig.repetition");
       (Always, Asg "txBufferConfig.hasPayloadPreambleIndicator" [] "txBufferConfig.hasPayloadPreambleIndicator");
       (Always, Asg "txBufferConfig.headerCrc" [] "txBufferConfig.headerCrc");
       (Always, Asg "txBufferConfig.transmissionMode" [U8] "txBufferConfig.transmissionMode")] |}.
(* SilKit/include/silkit/detail/impl/HourglassConversions.hpp 684-689 *)
Definition cv_req_flexray_tx_buffer_config_update_in : conv :=
  {| cv_dst := X_NetSim_FlexrayTxBufferConfigUpdate;
     cv_init := zeroed X_NetSim_FlexrayTxBufferConfigUpdate;
     cv_body :=
      [(Always, Asg "txBufferIndex" [] "txBufferIdx");
       (Always, Asg "txBufferConfig.channels" [U32] "txBufferConfig.channels");
       (Always, Asg "txBufferConfig.slotId" [] "txBufferConfig.slotId");
       (Always, Asg "txBufferConfig.offset" [] "txBufferConfig.offset");
       (Always, Asg "txBufferConfig.repetition" [] "txBufferConfig.repetition");
       (Always, AsgTrue "txBufferConfig.hasPayloadPreambleIndicator" "txBufferConfig.hasPayloadPreambleIndicator");
       (Always, Asg "txBufferConfig.headerCrc" [] "txBufferConfig.headerCrc");
       (Always, Asg "txBufferConfig.transmissionMode" [U8] "txBufferConfig.transmissionMode")] |}.
(* SilKit/include/silkit/experimental/netsim/NetworkSimulatorDatatypes.hpp 67-77; the structs held by it, or pointed to, are part of it *)
Definition X_NetSim_FlexrayTxBufferUpdate : layout :=
  [("txBufferIndex", U16);
   ("payloadDataValid", TBool);
   ("payload", TBytes)].
(* SilKit/include/silkit/capi/NetworkSimulator.h 135-145; the structs held by it, or pointed to, are part of it *)
Definition C_NetSim_FlexrayTxBufferUpdate : layout :=
  [("structHeader", U64);
   ("txBufferIndex", U16);
   ("payloadDataValid", CBool);
   ("payload", TBytes)].
(* SilKit/include/silkit/detail/impl/HourglassConversions.hpp 271-277 *)
Definition cv_req_flexray_tx_buffer_update_out : conv :=
  {| cv_dst := C_NetSim_FlexrayTxBufferUpdate;
     cv_init := [("structHeader", VI (struct_id id_NetSim_FlexrayTxBufferUpdate))] ++ zeroed C_NetSim_FlexrayTxBufferUpdate;
     cv_body :=
      [(Always, Asg "txBufferIndex" [] "txBufferIndex");
       (Always, Asg "payloadDataValid" [] "payloadDataValid");
       (Always, Cpy "payload" "payload")] |}.
(* SilKit/include/silkit/detail/impl/HourglassConversions.hpp 691-700 *)
Definition cv_req_flexray_tx_buffer_update_in : conv :=
  {| cv_dst := X_NetSim_FlexrayTxBufferUpdate;
     cv_init := zeroed X_NetSim_FlexrayTxBufferUpdate;
     cv_body :=
      [(Always, Asg "txBufferIndex" [] "txBufferIndex");
       (Always, AsgTrue "payloadDataValid" "payloadDataValid");
       (NonZeroS "payloadDataValid", Cpy "payload" "payload")] |}.
(* SilKit/include/silkit/experimental/netsim/NetworkSimulatorDatatypes.hpp 89-97; the structs held by it, or pointed to, are part of it *)
Definition X_NetSim_FlexrayControllerConfig : layout :=
  [("clusterParams.gColdstartAttempts", U8);
   ("clusterParams.gCycleCountMax", U8);
   ("clusterParams.gdActionPointOffset", U16);
   ("clusterParams.gdDynamicSlotIdlePhase", U16);
   ("clusterParams.gdMiniSlot", U16);
   ("clusterParams.gdMiniSlotActionPointOffset", U16);
   ("clusterParams.gdStaticSlot", U16);
   ("clusterParams.gdSymbolWindow", U16);
   ("clusterParams.gdSymbolWindowActionPointOffset", U16);
   ("clusterParams.gdTSSTransmitter", U16);
   ("clusterParams.gdWakeupTxActive", U16);
   ("clusterParams.gdWakeupTxIdle", U16);
   ("clusterParams.gListenNoise", U8);
   ("clusterParams.gMacroPerCycle", U16);
   ("clusterParams.gMaxWithoutClockCorrectionFatal", U8);
   ("clusterParams.gMaxWithoutClockCorrectionPassive", U8);
   ("clusterParams.gNumberOfMiniSlots", U16);
   ("clusterParams.gNumberOfStaticSlots", U16);
   ("clusterParams.gPayloadLengthStatic", U16);
   ("clusterParams.gSyncFrameIDCountMax", U8);
   ("nodeParams.pAllowHaltDueToClock", U8);
   ("nodeParams.pAllowPassiveToActive", U8);
   ("nodeParams.pChannels", U32);
   ("nodeParams.pClusterDriftDamping", U8);
   ("nodeParams.pdAcceptedStartupRange", I32);
   ("nodeParams.pdListenTimeout", I32);
   ("nodeParams.pKeySlotId", U16);
   ("nodeParams.pKeySlotOnlyEnabled", U8);
   ("nodeParams.pKeySlotUsedForStartup", U8);
   ("nodeParams.pKeySlotUsedForSync", U8);
   ("nodeParams.pLatestTx", U16);
   ("nodeParams.pMacroInitialOffsetA", U8);
   ("nodeParams.pMacroInitialOffsetB", U8);
   ("nodeParams.pMicroInitialOffsetA", I32);
   ("nodeParams.pMicroInitialOffsetB", I32);
   ("nodeParams.pMicroPerCycle", I32);
   ("nodeParams.pOffsetCorrectionOut", I32);
   ("nodeParams.pOffsetCorrectionStart", U16);
   ("nodeParams.pRateCorrectionOut", I32);
   ("nodeParams.pWakeupChannel", U32);
   ("nodeParams.pWakeupPattern", U8);
   ("nodeParams.pdMicrotick", U32);
   ("nodeParams.pSamplesPerMicrotick", U8);
   ("nodeParams.pSecondKeySlotId", U16);
   ("nodeParams.pTwoKeySlotMode", U8)].
(* SilKit/include/silkit/capi/NetworkSimulator.h 112-123; the structs held by it, or pointed to, are part of it *)
Definition C_NetSim_FlexrayControllerConfig : layout :=
  [("structHeader", U64);
   ("numBufferConfigs", U32);
   ("clusterParams.structHeader", U64);
   ("clusterParams.gColdstartAttempts", U8);
   ("clusterParams.gCycleCountMax", U8);
   ("clusterParams.gdActionPointOffset", U16);
   ("clusterParams.gdDynamicSlotIdlePhase", U16);
   ("clusterParams.gdMiniSlot", U16);
   ("clusterParams.gdMiniSlotActionPointOffset", U16);
   ("clusterParams.gdStaticSlot", U16);
   ("clusterParams.gdSymbolWindow", U16);
   ("clusterParams.gdSymbolWindowActionPointOffset", U16);
   ("clusterParams.gdTSSTransmitter", U16);
   ("clusterParams.gdWakeupTxActive", U16);
   ("clusterParams.gdWakeupTxIdle", U16);
   ("clusterParams.gListenNoise", U8);
   ("clusterParams.gMacroPerCycle", U16);
   ("clusterParams.gMaxWithoutClockCorrectionFatal", U8);
   ("clusterParams.gMaxWithoutClockCorrectionPassive", U8);
   ("clusterParams.gNumberOfMiniSlots", U16);
   ("clusterParams.gNumberOfStaticSlots", U16);
   ("clusterParams.gPayloadLengthStatic", U16);
   ("clusterParams.gSyncFrameIDCountMax", U8);
   ("nodeParams.structHeader", U64);
   ("nodeParams.pAllowHaltDueToClock", U8);
   ("nodeParams.pAllowPassiveToActive", U8);
   ("nodeParams.pChannels", U32);
   ("nodeParams.pClusterDriftDamping", U8);
   ("nodeParams.pdAcceptedStartupRange", I32);
   ("nodeParams.pdListenTimeout", I32);
   ("nodeParams.pKeySlotId", U16);
   ("nodeParams.pKeySlotOnlyEnabled", U8);
   ("nodeParams.pKeySlotUsedForStartup", U8);
   ("nodeParams.pKeySlotUsedForSync", U8);
   ("nodeParams.pLatestTx", U16);
   ("nodeParams.pMacroInitialOffsetA", U8);
   ("nodeParams.pMacroInitialOffsetB", U8);
   ("nodeParams.pMicroInitialOffsetA", I32);
   ("nodeParams.pMicroInitialOffsetB", I32);
   ("nodeParams.pMicroPerCycle", I32);
   ("nodeParams.pOffsetCorrectionOut", I32);
   ("nodeParams.pOffsetCorrectionStart", U16);
   ("nodeParams.pRateCorrectionOut", I32);
   ("nodeParams.pWakeupChannel", U32);
   ("nodeParams.pWakeupPattern", U8);
   ("nodeParams.pdMicrotick", U32);
   ("nodeParams.pSamplesPerMicrotick", U8);
   ("nodeParams.pSecondKeySlotId", U16);
   ("nodeParams.pTwoKeySlotMode", U8)].
(* SilKit/include/silkit/detail/impl/HourglassConversions.hpp 250-262 *)
Definition cv_req_flexray_controller_config_out : conv :=
  {| cv_dst := C_NetSim_FlexrayControllerConfig;
     cv_init := [("structHeader", VI (struct_id id_NetSim_FlexrayControllerConfig)); ("clusterParams.structHeader", VI (struct_id id_FlexrayClusterParameters)); ("nodeParams.structHeader", VI (struct_id id_FlexrayNodeParameters))] ++ zeroed C_NetSim_FlexrayControllerConfig;
     cv_body :=
      [(Always, Asg "clusterParams.gColdstartAttempts" [] "clusterParams.gColdstartAttempts");
       (Always, Asg "clusterParams.gCycleCountMax" [] "clusterParams.gCycleCountMax");
       (Always, Asg "clusterParams.gdActionPointOffset" [] "clusterParams.gdActionPointOffset");
       (Always, Asg "clusterParams.gdDynamicSlotIdlePhase" [] "clusterParams.gdDynamicSlotIdlePhase");
       (Always, Asg "clusterParams.gdMiniSlot" [] "clusterParams.gdMiniSlot");
       (Always, Asg "clusterParams.gdMiniSlotActionPointOffset" [] "clusterParams.gdMiniSlotActionPointOffset");
       (Always, Asg "clusterParams.gdStaticSlot" [] "clusterParams.gdStaticSlot");
       (Always, Asg "clusterParams.gdSymbolWindow" [] "clusterParams.gdSymbolWindow");
       (Always, Asg "clusterParams.gdSymbolWindowActionPointOffset" [] "clusterParams.gdSymbolWindowActionPointOffset");
       (Always, Asg "clusterParams.gdTSSTransmitter" [] "clusterParams.gdTSSTransmitter");
       (Always, Asg "clusterParams.gdWakeupTxActive" [] "clusterParams.gdWakeupTxActive");
       (Always, Asg "clusterParams.gdWakeupTxIdle" [] "clusterParams.gdWakeupTxIdle");
       (Always, Asg "clusterParams.gListenNoise" [] "clusterParams.gListenNoise");
       (Always, Asg "clusterParams.gMacroPerCycle" [] "clusterParams.gMacroPerCycle");
       (Always, Asg "clusterParams.gMaxWithoutClockCorrectionFatal" [] "clusterParams.gMaxWithoutClockCorrectionFatal");
       (Always, Asg "clusterParams.gMaxWithoutClockCorrectionPassive" [] "clusterParams.gMaxWithoutClockCorrectionPassive");
       (Always, Asg "clusterParams.gNumberOfMiniSlots" [] "clusterParams.gNumberOfMiniSlots");
       (Always, Asg "clusterParams.gNumberOfStaticSlots" [] "clusterParams.gNumberOfStaticSlots");
       (Always, Asg "clusterParams.gPayloadLengthStatic" [] "clusterParams.gPayloadLengthStatic");
       (Always, Asg "clusterParams.gSyncFrameIDCountMax" [] "clusterParams.gSyncFrameIDCountMax");
       (Always, Asg "nodeParams.pAllowHaltDueToClock" [] "nodeParams.pAllowHaltDueToClock");
       (Always, Asg "nodeParams.pAllowPassiveToActive" [] "nodeParams.pAllowPassiveToActive");
       (Always, Asg "nodeParams.pChannels" [U32] "nodeParams.pChannels");
       (Always, Asg "nodeParams.pClusterDriftDamping" [] "nodeParams.pClusterDriftDamping");
       (Always, Asg "nodeParams.pdAcceptedStartupRange" [] "nodeParams.pdAcceptedStartupRange");
       (Always, Asg "nodeParams.pdListenTimeout" [] "nodeParams.pdListenTimeout");
       (Always, Asg "nodeParams.pKeySlotId" [] "nodeParams.pKeySlotId");
       (Always, Asg "nodeParams.pKeySlotOnlyEnabled" [] "nodeParams.pKeySlotOnlyEnabled");
       (Always, Asg "nodeParams.pKeySlotUsedForStartup" [] "nodeParams.pKeySlotUsedForStartup");
       (Always, Asg "nodeParams.pKeySlotUsedForSync" [] "nodeParams.pKeySlotUsedForSync");
       (Always, Asg "nodeParams.pLatestTx" [] "nodeParams.pLatestTx");
       (Always, Asg "nodeParams.pMacroInitialOffsetA" [] "nodeParams.pMacroInitialOffsetA");
       (Always, Asg "nodeParams.pMacroInitialOffsetB" [] "nodeParams.pMacroInitialOffsetB");
       (Always, Asg "nodeParams.pMicroInitialOffsetA" [] "nodeParams.pMicroInitialOffsetA");
       (Always, Asg "nodeParams.pMicroInitialOffsetB" [] "nodeParams.pMicroInitialOffsetB");
       (Always, Asg "nodeParams.pMicroPerCycle" [] "nodeParams.pMicroPerCycle");
       (Always, Asg "nodeParams.pOffsetCorrectionOut" [] "nodeParams.pOffsetCorrectionOut");
       (Always, Asg "nodeParams.pOffsetCorrectionStart" [] "nodeParams.pOffsetCorrectionStart");
       (Always, Asg "nodeParams.pRateCorrectionOut" [] "nodeParams.pRateCorrectionOut");
       (Always, Asg "nodeParams.pWakeupChannel" [U32] "nodeParams.pWakeupChannel");
       (Always, Asg "nodeParams.pWakeupPattern" [] "nodeParams.pWakeupPattern");
       (Always, Asg "nodeParams.pdMicrotick" [U32] "nodeParams.pdMicrotick");
       (Always, Asg "nodeParams.pSamplesPerMicrotick" [] "nodeParams.pSamplesPerMicrotick");
       (Always, Asg "nodeParams.pTwoKeySlotMode" [] "nodeParams.pTwoKeySlotMode");
       (Always, Asg "nodeParams.pSecondKeySlotId" [] "nodeParams.pSecondKeySlotId")] |}.
(* SilKit/include/silkit/detail/impl/HourglassConversions.hpp 670-682 *)
Definition cv_req_flexray_controller_config_in : conv :=
  {| cv_dst := X_NetSim_FlexrayControllerConfig;
     cv_init := zeroed X_NetSim_FlexrayControllerConfig;
     cv_body :=
      [(Always, Asg "clusterParams.gColdstartAttempts" [] "clusterParams.gColdstartAttempts");
       (Always, Asg "clusterParams.gCycleCountMax" [] "clusterParams.gCycleCountMax");
       (Always, Asg "clusterParams.gdActionPointOffset" [] "clusterParams.gdActionPointOffset");
       (Always, Asg "clusterParams.gdDynamicSlotIdlePhase" [] "clusterParams.gdDynamicSlotIdlePhase");
       (Always, Asg "clusterParams.gdMiniSlot" [] "clusterParams.gdMiniSlot");
       (Always, Asg "clusterParams.gdMiniSlotActionPointOffset" [] "clusterParams.gdMiniSlotActionPointOffset");
       (Always, Asg "clusterParams.gdStaticSlot" [] "clusterParams.gdStaticSlot");
       (Always, Asg "clusterParams.gdSymbolWindow" [] "clusterParams.gdSymbolWindow");
       (Always, Asg "clusterParams.gdSymbolWindowActionPointOffset" [] "clusterParams.gdSymbolWindowActionPointOffset");
       (Always, Asg "clusterParams.gdTSSTransmitter" [] "clusterParams.gdTSSTransmitter");
       (Always, Asg "clusterParams.gdWakeupTxActive" [] "clusterParams.gdWakeupTxActive");
       (Always, Asg "clusterParams.gdWakeupTxIdle" [] "clusterParams.gdWakeupTxIdle");
       (Always, Asg "clusterParams.gListenNoise" [] "clusterParams.gListenNoise");
       (Always, Asg "clusterParams.gMacroPerCycle" [] "clusterParams.gMacroPerCycle");
       (Always, Asg "clusterParams.gMaxWithoutClockCorrectionFatal" [] "clusterParams.gMaxWithoutClockCorrectionFatal");
       (Always, Asg "clusterParams.gMaxWithoutClockCorrectionPassive" [] "clusterParams.gMaxWithoutClockCorrectionPassive");
       (Always, Asg "clusterParams.gNumberOfMiniSlots" [] "clusterParams.gNumberOfMiniSlots");
       (Always, Asg "clusterParams.gNumberOfStaticSlots" [] "clusterParams.gNumberOfStaticSlots");
       (Always, Asg "clusterParams.gPayloadLengthStatic" [] "clusterParams.gPayloadLengthStatic");
       (Always, Asg "clusterParams.gSyncFrameIDCountMax" [] "clusterParams.gSyncFrameIDCountMax");
       (Always, Asg "nodeParams.pAllowHaltDueToClock" [] "nodeParams.pAllowHaltDueToClock");
       (Always, Asg "nodeParams.pAllowPassiveToActive" [] "nodeParams.pAllowPassiveToActive");
       (Always, Asg "nodeParams.pChannels" [U32] "nodeParams.pChannels");
       (Always, Asg "nodeParams.pClusterDriftDamping" [] "nodeParams.pClusterDriftDamping");
       (Always, Asg "nodeParams.pdAcceptedStartupRange" [] "nodeParams.pdAcceptedStartupRange");
       (Always, Asg "nodeParams.pdListenTimeout" [] "nodeParams.pdListenTimeout");
       (Always, Asg "nodeParams.pKeySlotId" [] "nodeParams.pKeySlotId");
       (Always, Asg "nodeParams.pKeySlotOnlyEnabled" [] "nodeParams.pKeySlotOnlyEnabled");
       (Always, Asg "nodeParams.pKeySlotUsedForStartup" [] "nodeParams.pKeySlotUsedForStartup");
       (Always, Asg "nodeParams.pKeySlotUsedForSync" [] "nodeParams.pKeySlotUsedForSync");
       (Always, Asg "nodeParams.pLatestTx" [] "nodeParams.pLatestTx");
       (Always, Asg "nodeParams.pMacroInitialOffsetA" [] "nodeParams.pMacroInitialOffsetA");
       (Always, Asg "nodeParams.pMacroInitialOffsetB" [] "nodeParams.pMacroInitialOffsetB");
       (Always, Asg "nodeParams.pMicroInitialOffsetA" [] "nodeParams.pMicroInitialOffsetA");
       (Always, Asg "nodeParams.pMicroInitialOffsetB" [] "nodeParams.pMicroInitialOffsetB");
       (Always, Asg "nodeParams.pMicroPerCycle" [] "nodeParams.pMicroPerCycle");
       (Always, Asg "nodeParams.pOffsetCorrectionOut" [] "nodeParams.pOffsetCorrectionOut");
       (Always, Asg "nodeParams.pOffsetCorrectionStart" [] "nodeParams.pOffsetCorrectionStart");
       (Always, Asg "nodeParams.pRateCorrectionOut" [] "nodeParams.pRateCorrectionOut");
       (Always, Asg "nodeParams.pWakeupChannel" [U32] "nodeParams.pWakeupChannel");
       (Always, Asg "nodeParams.pWakeupPattern" [] "nodeParams.pWakeupPattern");
       (Always, Asg "nodeParams.pdMicrotick" [U32] "nodeParams.pdMicrotick");
       (Always, Asg "nodeParams.pSamplesPerMicrotick" [] "nodeParams.pSamplesPerMicrotick");
       (Always, Asg "nodeParams.pTwoKeySlotMode" [] "nodeParams.pTwoKeySlotMode");
       (Always, Asg "nodeParams.pSecondKeySlotId" [] "nodeParams.pSecondKeySlotId")] |}.
(* SilKit/include/silkit/experimental/netsim/NetworkSimulatorDatatypes.hpp 118-122; the structs held by it, or pointed to, are part of it *)
Definition X_NetSim_EthernetFrameRequest : layout :=
  [("userContext", TPtr);
   ("ethernetFrame.raw", TBytes)].
(* SilKit/include/silkit/capi/NetworkSimulator.h 164-169; the structs held by it, or pointed to, are part of it *)
Definition C_NetSim_EthernetFrameRequest : layout :=
  [("structHeader", U64);
   ("userContext", TPtr);
   ("ethernetFrame.structHeader", U64);
   ("ethernetFrame.raw", TBytes)].
(* SilKit/include/silkit/detail/impl/HourglassConversions.hpp 326-331 *)
Definition cv_req_ethernet_frame_request_out : conv :=
  {| cv_dst := C_NetSim_EthernetFrameRequest;
     cv_init := [("structHeader", VI (struct_id id_NetSim_EthernetFrameRequest)); ("ethernetFrame.structHeader", VI (struct_id id_EthernetFrame))] ++ zeroed C_NetSim_EthernetFrameRequest;
     cv_body :=
      [(Always, CpyE "ethernetFrame.raw" "ethernetFrame.raw");
       (Always, Asg "userContext" [] "userContext")] |}.
(* SilKit/include/silkit/detail/impl/HourglassConversions.hpp 751-756 *)
Definition cv_req_ethernet_frame_request_in : conv :=
  {| cv_dst := X_NetSim_EthernetFrameRequest;
     cv_init := zeroed X_NetSim_EthernetFrameRequest;
     cv_body :=
      [(Always, Cpy "ethernetFrame.raw" "ethernetFrame.raw");
       (Always, Asg "userContext" [] "userContext")] |}.
(* SilKit/include/silkit/experimental/netsim/NetworkSimulatorDatatypes.hpp 131-134; the structs held by it, or pointed to, are part of it *)
Definition X_NetSim_EthernetControllerMode : layout :=
  [("mode", U8)].
(* SilKit/include/silkit/capi/NetworkSimulator.h 176-180; the structs held by it, or pointed to, are part of it *)
Definition C_NetSim_EthernetControllerMode : layout :=
  [("structHeader", U64);
   ("mode", U8)].
(* SilKit/include/silkit/detail/impl/HourglassConversions.hpp 333-337 *)
Definition cv_req_ethernet_controller_mode_out : conv :=
  {| cv_dst := C_NetSim_EthernetControllerMode;
     cv_init := [("structHeader", VI (struct_id id_NetSim_EthernetControllerMode))] ++ zeroed C_NetSim_EthernetControllerMode;
     cv_body :=
      [(Always, Asg "mode" [U8] "mode")] |}.
(* SilKit/include/silkit/detail/impl/HourglassConversions.hpp 745-749 *)
Definition cv_req_ethernet_controller_mode_in : conv :=
  {| cv_dst := X_NetSim_EthernetControllerMode;
     cv_init := zeroed X_NetSim_EthernetControllerMode;
     cv_body :=
      [(Always, Asg "mode" [U8] "mode")] |}.
(* SilKit/include/silkit/experimental/netsim/NetworkSimulatorDatatypes.hpp 140-146; the structs held by it, or pointed to, are part of it *)
Definition X_NetSim_LinFrameRequest : layout :=
  [("responseType", U8);
   ("frame.id", U8);
   ("frame.checksumModel", U8);
   ("frame.dataLength", U8);
   ("frame.data", TArr8)].
(* SilKit/include/silkit/capi/NetworkSimulator.h 199-204; the structs held by it, or pointed to, are part of it *)
Definition C_NetSim_LinFrameRequest : layout :=
  [("structHeader", U64);
   ("responseType", U8);
   ("frame.structHeader", U64);
   ("frame.id", U8);
   ("frame.checksumModel", U8);
   ("frame.dataLength", U8);
   ("frame.data", TArr8)].
(* SilKit/include/silkit/detail/impl/HourglassConversions.hpp 386-391 *)
Definition cv_req_lin_frame_request_out : conv :=
  {| cv_dst := C_NetSim_LinFrameRequest;
     cv_init := [("structHeader", VI (struct_id id_NetSim_LinFrameRequest)); ("frame.structHeader", VI (struct_id id_LinFrame))] ++ zeroed C_NetSim_LinFrameRequest;
     cv_body :=
      [(Always, Asg "frame.id" [] "frame.id");
       (Always, Asg "frame.checksumModel" [U8] "frame.checksumModel");
       (Always, Asg "frame.dataLength" [] "frame.dataLength");
       (Always, Cpy "frame.data" "frame.data");
       (Always, Asg "responseType" [U8] "responseType")] |}.
(* SilKit/include/silkit/detail/impl/HourglassConversions.hpp 801-806 *)
Definition cv_req_lin_frame_request_in : conv :=
  {| cv_dst := X_NetSim_LinFrameRequest;
     cv_init := zeroed X_NetSim_LinFrameRequest;
     cv_body :=
      [(Always, Asg "frame.id" [U8] "frame.id");
       (Always, Asg "frame.checksumModel" [U8] "frame.checksumModel");
       (Always, Asg "frame.dataLength" [U8] "frame.dataLength");
       (Always, Cpy "frame.data" "frame.data");
       (Always, Asg "responseType" [U8] "responseType")] |}.
(* SilKit/include/silkit/experimental/netsim/NetworkSimulatorDatatypes.hpp 148-151; the structs held by it, or pointed to, are part of it *)
Definition X_NetSim_LinFrameHeaderRequest : layout :=
  [("id", U8)].
(* SilKit/include/silkit/capi/NetworkSimulator.h 207-211; the structs held by it, or pointed to, are part of it *)
Definition C_NetSim_LinFrameHeaderRequest : layout :=
  [("structHeader", U64);
   ("id", U8)].
(* SilKit/include/silkit/detail/impl/HourglassConversions.hpp 393-397 *)
Definition cv_req_lin_frame_header_request_out : conv :=
  {| cv_dst := C_NetSim_LinFrameHeaderRequest;
     cv_init := [("structHeader", VI (struct_id id_NetSim_LinFrameHeaderRequest))] ++ zeroed C_NetSim_LinFrameHeaderRequest;
     cv_body :=
      [(Always, Asg "id" [] "id")] |}.
(* SilKit/include/silkit/detail/impl/HourglassConversions.hpp 808-812 *)
Definition cv_req_lin_frame_header_request_in : conv :=
  {| cv_dst := X_NetSim_LinFrameHeaderRequest;
     cv_init := zeroed X_NetSim_LinFrameHeaderRequest;
     cv_body :=
      [(Always, Asg "id" [] "id")] |}.
(* SilKit/include/silkit/experimental/netsim/NetworkSimulatorDatatypes.hpp 153-156; the structs held by it, or pointed to, are part of it *)
Definition X_NetSim_LinWakeupPulse : layout :=
  [("timestamp", I64)].
(* SilKit/include/silkit/capi/NetworkSimulator.h 214-218; the structs held by it, or pointed to, are part of it *)
Definition C_NetSim_LinWakeupPulse : layout :=
  [("structHeader", U64);
   ("timestamp", U64)].
(* SilKit/include/silkit/detail/impl/HourglassConversions.hpp 399-403 *)
Definition cv_req_lin_wakeup_pulse_out : conv :=
  {| cv_dst := C_NetSim_LinWakeupPulse;
     cv_init := [("structHeader", VI (struct_id id_NetSim_LinWakeupPulse))] ++ zeroed C_NetSim_LinWakeupPulse;
     cv_body :=
      [(Always, Asg "timestamp" [U64] "timestamp")] |}.
(* SilKit/include/silkit/detail/impl/HourglassConversions.hpp 814-818 *)
Definition cv_req_lin_wakeup_pulse_in : conv :=
  {| cv_dst := X_NetSim_LinWakeupPulse;
     cv_init := zeroed X_NetSim_LinWakeupPulse;
     cv_body :=
      [(Always, Asg "timestamp" [I64] "timestamp")] |}.
(* SilKit/include/silkit/experimental/netsim/NetworkSimulatorDatatypes.hpp 158-182; the structs held by it, or pointed to, are part of it *)
Definition X_NetSim_LinControllerConfig : layout :=
  [("controllerMode", U8);
   ("baudRate", U32);
   ("simulationMode", U8)].
(* SilKit/include/silkit/capi/NetworkSimulator.h 221-229; the structs held by it, or pointed to, are part of it *)
Definition C_NetSim_LinControllerConfig : layout :=
  [("structHeader", U64);
   ("controllerMode", U8);
   ("baudRate", U32);
   ("numFrameResponses", U64);
   ("simulationMode", U8)].
(* SilKit/include/silkit/detail/impl/HourglassConversions.hpp 405-417 *)
Definition cv_req_lin_controller_config_out : conv :=
  {| cv_dst := C_NetSim_LinControllerConfig;
     cv_init := [("structHeader", VI (struct_id id_NetSim_LinControllerConfig))] ++ zeroed C_NetSim_LinControllerConfig;
     cv_body :=
      [(Always, Asg "baudRate" [] "baudRate");
       (Always, Asg "controllerMode" [U8] "controllerMode");
       (Always, Asg "simulationMode" [U8] "simulationMode")] |}.
(* SilKit/include/silkit/detail/impl/HourglassConversions.hpp 820-834 *)
Definition cv_req_lin_controller_config_in : conv :=
  {| cv_dst := X_NetSim_LinControllerConfig;
     cv_init := zeroed X_NetSim_LinControllerConfig;
     cv_body :=
      [(Always, Asg "baudRate" [] "baudRate");
       (Always, Asg "controllerMode" [U8] "controllerMode");
       (Always, Asg "simulationMode" [U8] "simulationMode")] |}.
(* SilKit/include/silkit/experimental/netsim/NetworkSimulatorDatatypes.hpp 189-193; the structs held by it, or pointed to, are part of it *)
Definition X_NetSim_LinControllerStatusUpdate : layout :=
  [("timestamp", I64);
   ("status", U32)].
(* SilKit/include/silkit/capi/NetworkSimulator.h 240-245; the structs held by it, or pointed to, are part of it *)
Definition C_NetSim_LinControllerStatusUpdate : layout :=
  [("structHeader", U64);
   ("status", U32);
   ("timestamp", U64)].
(* SilKit/include/silkit/detail/impl/HourglassConversions.hpp 430-434 *)
Definition cv_req_lin_controller_status_update_out : conv :=
  {| cv_dst := C_NetSim_LinControllerStatusUpdate;
     cv_init := [("structHeader", VI (struct_id id_NetSim_LinControllerStatusUpdate))] ++ zeroed C_NetSim_LinControllerStatusUpdate;
     cv_body :=
      [(Always, Asg "status" [U32] "status")] |}.
(* SilKit/include/silkit/detail/impl/HourglassConversions.hpp 847-852 *)
Definition cv_req_lin_controller_status_update_in : conv :=
  {| cv_dst := X_NetSim_LinControllerStatusUpdate;
     cv_init := zeroed X_NetSim_LinControllerStatusUpdate;
     cv_body :=
      [(Always, Asg "status" [U32] "status");
       (Always, Asg "timestamp" [I64] "timestamp")] |}.
(* SilKit/include/silkit/detail/impl/HourglassConversions.hpp 369-373 *)
Definition cv_req_lin_frame_response_out : conv :=
  {| cv_dst := C_LinFrameResponse;
     cv_init := [("structHeader", VI (struct_id id_LinFrameResponse)); ("frame.structHeader", VI (struct_id id_LinFrame))] ++ zeroed C_LinFrameResponse;
     cv_body :=
      [(Always, Asg "frame.id" [] "frame.id");
       (Always, Asg "frame.checksumModel" [U8] "frame.checksumModel");
       (Always, Asg "frame.dataLength" [] "frame.dataLength");
       (Always, Cpy "frame.data" "frame.data");
       (Always, Asg "responseMode" [U8] "responseMode")] |}.
(* SilKit/include/silkit/detail/impl/HourglassConversions.hpp 770-774 *)
Definition cv_req_lin_frame_response_in : conv :=
  {| cv_dst := X_LinFrameResponse;
     cv_init := zeroed X_LinFrameResponse;
     cv_body :=
      [(Always, Asg "frame.id" [U8] "frame.id");
       (Always, Asg "frame.checksumModel" [U8] "frame.checksumModel");
       (Always, Asg "frame.dataLength" [U8] "frame.dataLength");
       (Always, Cpy "frame.data" "frame.data");
       (Always, Asg "responseMode" [U8] "responseMode")] |}.
(* SilKit/include/silkit/detail/impl/HourglassConversions.hpp 228-238 *)
Definition cv_req_flexray_tx_buffer_config_out : conv :=
  {| cv_dst := C_FlexrayTxBufferConfig;
     cv_init := [("structHeader", VI (struct_id id_FlexrayTxBufferConfig))] ++ zeroed C_FlexrayTxBufferConfig;
     cv_body :=
      [(Always, Asg "channels" [U32] "channels");
       (Always, Asg "slotId" [] "slotId");
       (Always, Asg "offset" [] "offset");
       (Always, Asg "repetition" [] "repetition");
       (Always, Asg "hasPayloadPreambleIndicator" [] "hasPayloadPreambleIndicator");
       (Always, Asg "headerCrc" [] "headerCrc");
       (Always, Asg "transmissionMode" [U8] "transmissionMode")] |}.
(* SilKit/include/silkit/detail/impl/HourglassConversions.hpp 593-603 *)
Definition cv_req_flexray_tx_buffer_config_in : conv :=
  {| cv_dst := X_FlexrayTxBufferConfig;
     cv_init := zeroed X_FlexrayTxBufferConfig;
     cv_body :=
      [(Always, Asg "channels" [U32] "channels");
       (Always, Asg "slotId" [] "slotId");
       (Always, Asg "offset" [] "offset");
       (Always, Asg "repetition" [] "repetition");
       (Always, AsgTrue "hasPayloadPreambleIndicator" "hasPayloadPreambleIndicator");
       (Always, Asg "headerCrc" [] "headerCrc");
       (Always, Asg "transmissionMode" [U8] "transmissionMode")] |}.
(* SilKit/include/silkit/detail/impl/HourglassConversions.hpp 45-51 *)
Definition cv_evt_can_frame_event_out : conv :=
  {| cv_dst := C_CanFrameEvent;
     cv_init := [("structHeader", VI (struct_id id_CanFrameEvent)); ("frame.structHeader", VI (struct_id id_CanFrame))] ++ zeroed C_CanFrameEvent;
     cv_body :=
      [(Always, Asg "frame.id" [] "frame.canId");
       (Always, Asg "frame.flags" [] "frame.flags");
       (Always, Asg "frame.dlc" [] "frame.dlc");
       (Always, Asg "frame.sdt" [] "frame.sdt");
       (Always, Asg "frame.vcid" [] "frame.vcid");
       (Always, Asg "frame.af" [] "frame.af");
       (Always, Cpy "frame.data" "frame.dataField");
       (Always, Asg "direction" [U8] "direction");
       (Always, Asg "timestamp" [] "timestamp");
       (Always, Asg "userContext" [] "userContext")] |}.
(* SilKit/include/silkit/detail/impl/HourglassConversions.hpp 456-468 *)
Definition cv_evt_can_frame_event_in : conv :=
  {| cv_dst := X_CanFrameEvent;
     cv_init := spans X_CanFrameEvent;
     cv_body :=
      [(Always, Asg "timestamp" [I64] "timestamp");
       (Always, Asg "frame.canId" [] "frame.id");
       (Always, Asg "frame.flags" [] "frame.flags");
       (Always, Asg "frame.dlc" [] "frame.dlc");
       (Always, Asg "frame.sdt" [] "frame.sdt");
       (Always, Asg "frame.vcid" [] "frame.vcid");
       (Always, Asg "frame.af" [] "frame.af");
       (Always, Cpy "frame.dataField" "frame.data");
       (Always, Asg "direction" [U8] "direction");
       (Always, Asg "userContext" [] "userContext")] |}.
(* SilKit/include/silkit/detail/impl/HourglassConversions.hpp 53-59 *)
Definition cv_evt_can_frame_transmit_event_out : conv :=
  {| cv_dst := C_CanFrameTransmitEvent;
     cv_init := [("structHeader", VI (struct_id id_CanFrameTransmitEvent))] ++ zeroed C_CanFrameTransmitEvent;
     cv_body :=
      [(Always, Asg "userContext" [] "userContext");
       (Always, Asg "timestamp" [] "timestamp");
       (Always, Asg "status" [I32] "status");
       (Always, Asg "canId" [] "canId")] |}.
(* SilKit/include/silkit/detail/impl/HourglassConversions.hpp 470-479 *)
Definition cv_evt_can_frame_transmit_event_in : conv :=
  {| cv_dst := X_CanFrameTransmitEvent;
     cv_init := spans X_CanFrameTransmitEvent;
     cv_body :=
      [(Always, Asg "userContext" [] "userContext");
       (Always, Asg "timestamp" [I64] "timestamp");
       (Always, Asg "status" [I32] "status");
       (VerGe "structHeader" 2, Asg "canId" [] "canId")] |}.
(* SilKit/include/silkit/detail/impl/HourglassConversions.hpp 61-65 *)
Definition cv_evt_can_state_change_event_out : conv :=
  {| cv_dst := C_CanStateChangeEvent;
     cv_init := [("structHeader", VI (struct_id id_CanStateChangeEvent))] ++ zeroed C_CanStateChangeEvent;
     cv_body :=
      [(Always, Asg "timestamp" [] "timestamp");
       (Always, Asg "state" [I32] "state")] |}.
(* SilKit/include/silkit/detail/impl/HourglassConversions.hpp 482-486 *)
Definition cv_evt_can_state_change_event_in : conv :=
  {| cv_dst := X_CanStateChangeEvent;
     cv_init := spans X_CanStateChangeEvent;
     cv_body :=
      [(Always, Asg "timestamp" [I64] "timestamp");
       (Always, Asg "state" [I32] "state")] |}.
(* SilKit/include/silkit/detail/impl/HourglassConversions.hpp 67-72 *)
Definition cv_evt_can_error_state_change_event_out : conv :=
  {| cv_dst := C_CanErrorStateChangeEvent;
     cv_init := [("structHeader", VI (struct_id id_CanErrorStateChangeEvent))] ++ zeroed C_CanErrorStateChangeEvent;
     cv_body :=
      [(Always, Asg "timestamp" [] "timestamp");
       (Always, Asg "errorState" [I32] "errorState")] |}.
(* SilKit/include/silkit/detail/impl/HourglassConversions.hpp 488-493 *)
Definition cv_evt_can_error_state_change_event_in : conv :=
  {| cv_dst := X_CanErrorStateChangeEvent;
     cv_init := spans X_CanErrorStateChangeEvent;
     cv_body :=
      [(Always, Asg "timestamp" [I64] "timestamp");
       (Always, Asg "errorState" [I32] "errorState")] |}.
(* SilKit/include/silkit/detail/impl/HourglassConversions.hpp 120-125 *)
Definition cv_evt_flexray_frame_event_out : conv :=
  {| cv_dst := C_FlexrayFrameEvent;
     cv_init := [("structHeader", VI (struct_id id_FlexrayFrameEvent)); ("frame.structHeader", VI (struct_id id_FlexrayFrame)); ("frame.header.structHeader", VI (struct_id id_FlexrayHeader))] ++ zeroed C_FlexrayFrameEvent;
     cv_body :=
      [(Always, Asg "frame.header.cycleCount" [] "frame.header.cycleCount");
       (Always, Asg "frame.header.frameId" [] "frame.header.frameId");
       (Always, Asg "frame.header.flags" [] "frame.header.flags");
       (Always, Asg "frame.header.headerCrc" [] "frame.header.headerCrc");
       (Always, Asg "frame.header.payloadLength" [] "frame.header.payloadLength");
       (Always, CpyN "frame.payload" "frame.payload");
       (Always, Asg "timestamp" [] "timestamp");
       (Always, Asg "channel" [U32] "channel")] |}.
(* SilKit/include/silkit/detail/impl/HourglassConversions.hpp 540-545 *)
Definition cv_evt_flexray_frame_event_in : conv :=
  {| cv_dst := X_FlexrayFrameEvent;
     cv_init := spans X_FlexrayFrameEvent;
     cv_body :=
      [(Always, Asg "timestamp" [I64] "timestamp");
       (Always, Asg "channel" [U32] "channel");
       (Always, Cpy "frame.payload" "frame.payload");
       (Always, Asg "frame.header.cycleCount" [] "frame.header.cycleCount");
       (Always, Asg "frame.header.flags" [] "frame.header.flags");
       (Always, Asg "frame.header.frameId" [] "frame.header.frameId");
       (Always, Asg "frame.header.headerCrc" [] "frame.header.headerCrc");
       (Always, Asg "frame.header.payloadLength" [] "frame.header.payloadLength")] |}.
(* SilKit/include/silkit/detail/impl/HourglassConversions.hpp 127-134 *)
Definition cv_evt_flexray_frame_transmit_event_out : conv :=
  {| cv_dst := C_FlexrayFrameTransmitEvent;
     cv_init := [("structHeader", VI (struct_id id_FlexrayFrameTransmitEvent)); ("frame.structHeader", VI (struct_id id_FlexrayFrame)); ("frame.header.structHeader", VI (struct_id id_FlexrayHeader))] ++ zeroed C_FlexrayFrameTransmitEvent;
     cv_body :=
      [(Always, Asg "frame.header.cycleCount" [] "frame.header.cycleCount");
       (Always, Asg "frame.header.frameId" [] "frame.header.frameId");
       (Always, Asg "frame.header.flags" [] "frame.header.flags");
       (Always, Asg "frame.header.headerCrc" [] "frame.header.headerCrc");
       (Always, Asg "frame.header.payloadLength" [] "frame.header.payloadLength");
       (Always, CpyN "frame.payload" "frame.payload");
       (Always, Asg "timestamp" [] "timestamp");
       (Always, Asg "txBufferIndex" [] "txBufferIndex");
       (Always, Asg "channel" [U32] "channel")] |}.
(* SilKit/include/silkit/detail/impl/HourglassConversions.hpp 547-554 *)
Definition cv_evt_flexray_frame_transmit_event_in : conv :=
  {| cv_dst := X_FlexrayFrameTransmitEvent;
     cv_init := spans X_FlexrayFrameTransmitEvent;
     cv_body :=
      [(Always, Asg "timestamp" [I64] "timestamp");
       (Always, Asg "channel" [U32] "channel");
       (Always, Asg "txBufferIndex" [] "txBufferIndex");
       (Always, Cpy "frame.payload" "frame.payload");
       (Always, Asg "frame.header.cycleCount" [] "frame.header.cycleCount");
       (Always, Asg "frame.header.flags" [] "frame.header.flags");
       (Always, Asg "frame.header.frameId" [] "frame.header.frameId");
       (Always, Asg "frame.header.headerCrc" [] "frame.header.headerCrc");
       (Always, Asg "frame.header.payloadLength" [] "frame.header.payloadLength")] |}.
(* SilKit/include/silkit/detail/impl/HourglassConversions.hpp 136-141 *)
Definition cv_evt_flexray_symbol_event_out : conv :=
  {| cv_dst := C_FlexraySymbolEvent;
     cv_init := [("structHeader", VI (struct_id id_FlexraySymbolEvent))] ++ zeroed C_FlexraySymbolEvent;
     cv_body :=
      [(Always, Asg "timestamp" [] "timestamp");
       (Always, Asg "channel" [U32] "channel");
       (Always, Asg "pattern" [U8] "pattern")] |}.
(* SilKit/include/silkit/detail/impl/HourglassConversions.hpp 556-561 *)
Definition cv_evt_flexray_symbol_event_in : conv :=
  {| cv_dst := X_FlexraySymbolEvent;
     cv_init := spans X_FlexraySymbolEvent;
     cv_body :=
      [(Always, Asg "timestamp" [I64] "timestamp");
       (Always, Asg "channel" [U32] "channel");
       (Always, Asg "pattern" [U8] "pattern")] |}.
(* SilKit/include/silkit/detail/impl/HourglassConversions.hpp 143-149 *)
Definition cv_evt_flexray_symbol_transmit_event_out : conv :=
  {| cv_dst := C_FlexraySymbolTransmitEvent;
     cv_init := [("structHeader", VI (struct_id id_FlexraySymbolTransmitEvent))] ++ zeroed C_FlexraySymbolTransmitEvent;
     cv_body :=
      [(Always, Asg "timestamp" [] "timestamp");
       (Always, Asg "channel" [U32] "channel");
       (Always, Asg "pattern" [U8] "pattern")] |}.
(* SilKit/include/silkit/detail/impl/HourglassConversions.hpp 563-569 *)
Definition cv_evt_flexray_symbol_transmit_event_in : conv :=
  {| cv_dst := X_FlexraySymbolTransmitEvent;
     cv_init := spans X_FlexraySymbolTransmitEvent;
     cv_body :=
      [(Always, Asg "timestamp" [I64] "timestamp");
       (Always, Asg "channel" [U32] "channel");
       (Always, Asg "pattern" [U8] "pattern")] |}.
(* SilKit/include/silkit/detail/impl/HourglassConversions.hpp 151-156 *)
Definition cv_evt_flexray_cycle_start_event_out : conv :=
  {| cv_dst := C_FlexrayCycleStartEvent;
     cv_init := [("structHeader", VI (struct_id id_FlexrayCycleStartEvent))] ++ zeroed C_FlexrayCycleStartEvent;
     cv_body :=
      [(Always, Asg "timestamp" [] "timestamp");
       (Always, Asg "cycleCounter" [] "cycleCounter")] |}.
(* SilKit/include/silkit/detail/impl/HourglassConversions.hpp 571-576 *)
Definition cv_evt_flexray_cycle_start_event_in : conv :=
  {| cv_dst := X_FlexrayCycleStartEvent;
     cv_init := spans X_FlexrayCycleStartEvent;
     cv_body :=
      [(Always, Asg "timestamp" [I64] "timestamp");
       (Always, Asg "cycleCounter" [] "cycleCounter")] |}.
(* SilKit/include/silkit/detail/impl/HourglassConversions.hpp 158-171 *)
Definition cv_evt_flexray_poc_status_event_out : conv :=
  {| cv_dst := C_FlexrayPocStatusEvent;
     cv_init := [("structHeader", VI (struct_id id_FlexrayPocStatusEvent))] ++ zeroed C_FlexrayPocStatusEvent;
     cv_body :=
      [(Always, Asg "timestamp" [] "timestamp");
       (Always, Asg "state" [U8] "state");
       (Always, Asg "chiHaltRequest" [] "chiHaltRequest");
       (Always, Asg "coldstartNoise" [] "coldstartNoise");
       (Always, Asg "freeze" [] "freeze");
       (Always, Asg "chiReadyRequest" [] "chiReadyRequest");
       (Always, Asg "errorMode" [U8] "errorMode");
       (Always, Asg "slotMode" [U8] "slotMode");
       (Always, Asg "startupState" [U8] "startupState");
       (Always, Asg "wakeupStatus" [U8] "wakeupStatus")] |}.
(* SilKit/include/silkit/detail/impl/HourglassConversions.hpp 578-591 *)
Definition cv_evt_flexray_poc_status_event_in : conv :=
  {| cv_dst := X_FlexrayPocStatusEvent;
     cv_init := spans X_FlexrayPocStatusEvent;
     cv_body :=
      [(Always, Asg "timestamp" [I64] "timestamp");
       (Always, Asg "state" [U8] "state");
       (Always, Asg "chiHaltRequest" [] "chiHaltRequest");
       (Always, Asg "chiReadyRequest" [] "chiReadyRequest");
       (Always, Asg "coldstartNoise" [] "coldstartNoise");
       (Always, Asg "errorMode" [U8] "errorMode");
       (Always, Asg "freeze" [] "freeze");
       (Always, Asg "slotMode" [U8] "slotMode");
       (Always, Asg "startupState" [U8] "startupState");
       (Always, Asg "wakeupStatus" [U8] "wakeupStatus")] |}.
(* SilKit/include/silkit/detail/impl/HourglassConversions.hpp 289-295 *)
Definition cv_evt_ethernet_frame_event_out : conv :=
  {| cv_dst := C_EthernetFrameEvent;
     cv_init := [("structHeader", VI (struct_id id_EthernetFrameEvent)); ("ethernetFrame.structHeader", VI (struct_id id_EthernetFrame))] ++ zeroed C_EthernetFrameEvent;
     cv_body :=
      [(Always, CpyE "ethernetFrame.raw" "frame.raw");
       (Always, Asg "timestamp" [] "timestamp");
       (Always, Asg "direction" [U8] "direction");
       (Always, Asg "userContext" [] "userContext")] |}.
(* SilKit/include/silkit/detail/impl/HourglassConversions.hpp 711-717 *)
Definition cv_evt_ethernet_frame_event_in : conv :=
  {| cv_dst := X_EthernetFrameEvent;
     cv_init := spans X_EthernetFrameEvent;
     cv_body :=
      [(Always, Cpy "frame.raw" "ethernetFrame.raw");
       (Always, Asg "timestamp" [I64] "timestamp");
       (Always, Asg "direction" [U8] "direction");
       (Always, Asg "userContext" [] "userContext")] |}.
(* SilKit/include/silkit/detail/impl/HourglassConversions.hpp 298-304 *)
Definition cv_evt_ethernet_frame_transmit_event_out : conv :=
  {| cv_dst := C_EthernetFrameTransmitEvent;
     cv_init := [("structHeader", VI (struct_id id_EthernetFrameTransmitEvent))] ++ zeroed C_EthernetFrameTransmitEvent;
     cv_body :=
      [(Always, Asg "status" [U32] "status");
       (Always, Asg "timestamp" [] "timestamp");
       (Always, Asg "userContext" [] "userContext")] |}.
(* SilKit/include/silkit/detail/impl/HourglassConversions.hpp 719-725 *)
Definition cv_evt_ethernet_frame_transmit_event_in : conv :=
  {| cv_dst := X_EthernetFrameTransmitEvent;
     cv_init := spans X_EthernetFrameTransmitEvent;
     cv_body :=
      [(Always, Asg "timestamp" [I64] "timestamp");
       (Always, Asg "status" [U32] "status");
       (Always, Asg "userContext" [] "userContext")] |}.
(* SilKit/include/silkit/detail/impl/HourglassConversions.hpp 307-312 *)
Definition cv_evt_ethernet_state_change_event_out : conv :=
  {| cv_dst := C_EthernetStateChangeEvent;
     cv_init := [("structHeader", VI (struct_id id_EthernetStateChangeEvent))] ++ zeroed C_EthernetStateChangeEvent;
     cv_body :=
      [(Always, Asg "state" [U32] "state");
       (Always, Asg "timestamp" [] "timestamp")] |}.
(* SilKit/include/silkit/detail/impl/HourglassConversions.hpp 734-739 *)
Definition cv_evt_ethernet_state_change_event_in : conv :=
  {| cv_dst := X_EthernetStateChangeEvent;
     cv_init := spans X_EthernetStateChangeEvent;
     cv_body :=
      [(Always, Asg "timestamp" [I64] "timestamp");
       (Always, Asg "state" [U32] "state")] |}.
(* SilKit/include/silkit/detail/impl/HourglassConversions.hpp 314-319 *)
Definition cv_evt_ethernet_bitrate_change_event_out : conv :=
  {| cv_dst := C_EthernetBitrateChangeEvent;
     cv_init := [("structHeader", VI (struct_id id_EthernetBitrateChangeEvent))] ++ zeroed C_EthernetBitrateChangeEvent;
     cv_body :=
      [(Always, Asg "bitrate" [] "bitrate");
       (Always, Asg "timestamp" [] "timestamp")] |}.
(* SilKit/include/silkit/detail/impl/HourglassConversions.hpp 727-732 *)
Definition cv_evt_ethernet_bitrate_change_event_in : conv :=
  {| cv_dst := X_EthernetBitrateChangeEvent;
     cv_init := spans X_EthernetBitrateChangeEvent;
     cv_body :=
      [(Always, Asg "timestamp" [I64] "timestamp");
       (Always, Asg "bitrate" [U32] "bitrate")] |}.
(* SilKit/include/silkit/detail/impl/HourglassConversions.hpp 351-356 *)
Definition cv_evt_lin_frame_status_event_out : conv :=
  {| cv_dst := C_LinFrameStatusEvent;
     cv_init := [("structHeader", VI (struct_id id_LinFrameStatusEvent)); ("frame.structHeader", VI (struct_id id_LinFrame))] ++ zeroed C_LinFrameStatusEvent;
     cv_body :=
      [(Always, Asg "frame.id" [] "frame.id");
       (Always, Asg "frame.checksumModel" [U8] "frame.checksumModel");
       (Always, Asg "frame.dataLength" [] "frame.dataLength");
       (Always, Cpy "frame.data" "frame.data");
       (Always, Asg "timestamp" [U64] "timestamp");
       (Always, Asg "status" [U8] "status")] |}.
(* SilKit/include/silkit/detail/impl/HourglassConversions.hpp 776-781 *)
Definition cv_evt_lin_frame_status_event_in : conv :=
  {| cv_dst := X_LinFrameStatusEvent;
     cv_init := spans X_LinFrameStatusEvent;
     cv_body :=
      [(Always, Asg "frame.id" [U8] "frame.id");
       (Always, Asg "frame.checksumModel" [U8] "frame.checksumModel");
       (Always, Asg "frame.dataLength" [U8] "frame.dataLength");
       (Always, Cpy "frame.data" "frame.data");
       (Always, Asg "status" [U8] "status");
       (Always, Asg "timestamp" [I64] "timestamp")] |}.
(* SilKit/include/silkit/services/lin/LinDatatypes.hpp 297-301; the structs held by it, or pointed to, are part of it *)
Definition X_LinSendFrameHeaderRequest : layout :=
  [("timestamp", I64);
   ("id", U8)].
(* SilKit/include/silkit/capi/Lin.h 272-277; the structs held by it, or pointed to, are part of it *)
Definition C_LinSendFrameHeaderRequest : layout :=
  [("structHeader", U64);
   ("timestamp", U64);
   ("id", U8)].
(* SilKit/include/silkit/detail/impl/HourglassConversions.hpp 375-380 *)
Definition cv_evt_lin_send_frame_header_request_out : conv :=
  {| cv_dst := C_LinSendFrameHeaderRequest;
     cv_init := [("structHeader", VI (struct_id id_LinSendFrameHeaderRequest))] ++ zeroed C_LinSendFrameHeaderRequest;
     cv_body :=
      [(Always, Asg "id" [] "id");
       (Always, Asg "timestamp" [U64] "timestamp")] |}.
(* SilKit/include/silkit/detail/impl/HourglassConversions.hpp 783-788 *)
Definition cv_evt_lin_send_frame_header_request_in : conv :=
  {| cv_dst := X_LinSendFrameHeaderRequest;
     cv_init := spans X_LinSendFrameHeaderRequest;
     cv_body :=
      [(Always, Asg "id" [] "id");
       (Always, Asg "timestamp" [I64] "timestamp")] |}.
(* SilKit/include/silkit/detail/impl/HourglassConversions.hpp 358-362 *)
Definition cv_evt_lin_wakeup_event_out : conv :=
  {| cv_dst := C_LinWakeupEvent;
     cv_init := [("structHeader", VI (struct_id id_LinWakeupEvent))] ++ zeroed C_LinWakeupEvent;
     cv_body :=
      [(Always, Asg "timestamp" [U64] "timestamp");
       (Always, Asg "direction" [U8] "direction")] |}.
(* SilKit/include/silkit/detail/impl/HourglassConversions.hpp 790-794 *)
Definition cv_evt_lin_wakeup_event_in : conv :=
  {| cv_dst := X_LinWakeupEvent;
     cv_init := spans X_LinWakeupEvent;
     cv_body :=
      [(Always, Asg "timestamp" [I64] "timestamp");
       (Always, Asg "direction" [U8] "direction")] |}.

(* C++ to C, in CanController.hpp and its siblings, and back in source/capi; then the other way round *)
Definition user_pairs : list pair :=
  [{| p_name := "can_frame"; p_x := X_CanFrame; p_c := C_CanFrame; p_out := cv_can_frame_out; p_in := cv_can_frame_in;
      p_names := [("canId", "id"); ("dataField", "data")]; p_headers := [("structHeader", id_CanFrame)]; p_narrow := false |};
   {| p_name := "eth_frame"; p_x := X_EthernetFrame; p_c := C_EthernetFrame; p_out := cv_eth_frame_out; p_in := cv_eth_frame_in;
      p_names := []; p_headers := [("structHeader", id_EthernetFrame)]; p_narrow := false |};
   {| p_name := "lin_frame"; p_x := X_LinFrame; p_c := C_LinFrame; p_out := cv_lin_frame_out; p_in := cv_lin_frame_in;
      p_names := []; p_headers := [("structHeader", id_LinFrame)]; p_narrow := false |};
   {| p_name := "lin_response"; p_x := X_LinFrameResponse; p_c := C_LinFrameResponse; p_out := cv_lin_response_out; p_in := cv_lin_response_in;
      p_names := []; p_headers := [("structHeader", id_LinFrameResponse); ("frame.structHeader", id_LinFrame)]; p_narrow := false |};
   {| p_name := "lin_init_response"; p_x := X_LinFrameResponse; p_c := C_LinFrameResponse; p_out := cv_lin_init_response_out; p_in := cv_lin_init_response_in;
      p_names := []; p_headers := [("structHeader", id_LinFrameResponse); ("frame.structHeader", id_LinFrame)]; p_narrow := false |};
   {| p_name := "lin_config"; p_x := X_LinControllerConfig; p_c := C_LinControllerConfig; p_out := cv_lin_config_out; p_in := cv_lin_config_in;
      p_names := []; p_headers := [("structHeader", id_LinControllerConfig)]; p_narrow := false |};
   {| p_name := "lin_dynamic"; p_x := X_LinControllerDynamicConfig; p_c := C_LinControllerDynamicConfig; p_out := cv_lin_dynamic_out; p_in := cv_lin_dynamic_in;
      p_names := []; p_headers := [("structHeader", id_LinControllerDynamicConfig)]; p_narrow := false |};
   {| p_name := "flx_cluster"; p_x := X_FlexrayClusterParameters; p_c := C_FlexrayClusterParameters; p_out := cv_flx_cluster_out; p_in := cv_flx_cluster_in;
      p_names := []; p_headers := [("structHeader", id_FlexrayClusterParameters)]; p_narrow := false |};
   {| p_name := "flx_node"; p_x := X_FlexrayNodeParameters; p_c := C_FlexrayNodeParameters; p_out := cv_flx_node_out; p_in := cv_flx_node_in;
      p_names := []; p_headers := [("structHeader", id_FlexrayNodeParameters)]; p_narrow := false |};
   {| p_name := "flx_buffer"; p_x := X_FlexrayTxBufferConfig; p_c := C_FlexrayTxBufferConfig; p_out := cv_flx_buffer_out; p_in := cv_flx_buffer_in;
      p_names := []; p_headers := [("structHeader", id_FlexrayTxBufferConfig)]; p_narrow := false |};
   {| p_name := "flx_update"; p_x := X_FlexrayTxBufferUpdate; p_c := C_FlexrayTxBufferUpdate; p_out := cv_flx_update_out; p_in := cv_flx_update_in;
      p_names := []; p_headers := [("structHeader", id_FlexrayTxBufferUpdate)]; p_narrow := false |}].
Definition event_pairs : list pair :=
  [{| p_name := "can_frame_event"; p_x := X_CanFrameEvent; p_c := C_CanFrameEvent; p_out := cv_can_frame_event_out; p_in := cv_can_frame_event_in;
      p_names := [("frame.canId", "frame.id"); ("frame.dataField", "frame.data")]; p_headers := [("structHeader", id_CanFrameEvent); ("frame.structHeader", id_CanFrame)]; p_narrow := false |};
   {| p_name := "can_transmit_event"; p_x := X_CanFrameTransmitEvent; p_c := C_CanFrameTransmitEvent; p_out := cv_can_transmit_event_out; p_in := cv_can_transmit_event_in;
      p_names := []; p_headers := [("structHeader", id_CanFrameTransmitEvent)]; p_narrow := false |};
   {| p_name := "can_state_event"; p_x := X_CanStateChangeEvent; p_c := C_CanStateChangeEvent; p_out := cv_can_state_event_out; p_in := cv_can_state_event_in;
      p_names := []; p_headers := [("structHeader", id_CanStateChangeEvent)]; p_narrow := false |};
   {| p_name := "can_error_event"; p_x := X_CanErrorStateChangeEvent; p_c := C_CanErrorStateChangeEvent; p_out := cv_can_error_event_out; p_in := cv_can_error_event_in;
      p_names := []; p_headers := [("structHeader", id_CanErrorStateChangeEvent)]; p_narrow := false |};
   {| p_name := "eth_frame_event"; p_x := X_EthernetFrameEvent; p_c := C_EthernetFrameEvent; p_out := cv_eth_frame_event_out; p_in := cv_eth_frame_event_in;
      p_names := [("frame.raw", "ethernetFrame.raw")]; p_headers := [("structHeader", id_EthernetFrameEvent); ("ethernetFrame.structHeader", id_EthernetFrame)]; p_narrow := false |};
   {| p_name := "eth_transmit_event"; p_x := X_EthernetFrameTransmitEvent; p_c := C_EthernetFrameTransmitEvent; p_out := cv_eth_transmit_event_out; p_in := cv_eth_transmit_event_in;
      p_names := []; p_headers := [("structHeader", id_EthernetFrameTransmitEvent)]; p_narrow := false |};
   {| p_name := "eth_state_event"; p_x := X_EthernetStateChangeEvent; p_c := C_EthernetStateChangeEvent; p_out := cv_eth_state_event_out; p_in := cv_eth_state_event_in;
      p_names := []; p_headers := [("structHeader", id_EthernetStateChangeEvent)]; p_narrow := false |};
   {| p_name := "eth_bitrate_event"; p_x := X_EthernetBitrateChangeEvent; p_c := C_EthernetBitrateChangeEvent; p_out := cv_eth_bitrate_event_out; p_in := cv_eth_bitrate_event_in;
      p_names := []; p_headers := [("structHeader", id_EthernetBitrateChangeEvent)]; p_narrow := false |};
   {| p_name := "lin_status_event"; p_x := X_LinFrameStatusEvent; p_c := C_LinFrameStatusEvent; p_out := cv_lin_status_event_out; p_in := cv_lin_status_event_in;
      p_names := []; p_headers := [("structHeader", id_LinFrameStatusEvent); ("frame.structHeader", id_LinFrame)]; p_narrow := false |};
   {| p_name := "lin_sleep_event"; p_x := X_LinGoToSleepEvent; p_c := C_LinGoToSleepEvent; p_out := cv_lin_sleep_event_out; p_in := cv_lin_sleep_event_in;
      p_names := []; p_headers := [("structHeader", id_LinGoToSleepEvent)]; p_narrow := false |};
   {| p_name := "lin_wakeup_event"; p_x := X_LinWakeupEvent; p_c := C_LinWakeupEvent; p_out := cv_lin_wakeup_event_out; p_in := cv_lin_wakeup_event_in;
      p_names := []; p_headers := [("structHeader", id_LinWakeupEvent)]; p_narrow := false |};
   {| p_name := "lin_slave_event"; p_x := X_LinSlaveConfigurationEvent; p_c := C_LinSlaveConfigurationEvent; p_out := cv_lin_slave_event_out; p_in := cv_lin_slave_event_in;
      p_names := []; p_headers := [("structHeader", id_LinSlaveConfigurationEvent)]; p_narrow := false |};
   {| p_name := "lin_header_event"; p_x := X_LinFrameHeaderEvent; p_c := C_LinFrameHeaderEvent; p_out := cv_lin_header_event_out; p_in := cv_lin_header_event_in;
      p_names := []; p_headers := [("structHeader", id_LinFrameHeaderEvent)]; p_narrow := false |};
   {| p_name := "flx_frame_event"; p_x := X_FlexrayFrameEvent; p_c := C_FlexrayFrameEvent; p_out := cv_flx_frame_event_out; p_in := cv_flx_frame_event_in;
      p_names := []; p_headers := [("structHeader", id_FlexrayFrameEvent); ("frame.structHeader", id_FlexrayFrame); ("frame.header.structHeader", id_FlexrayHeader)]; p_narrow := true |};
   {| p_name := "flx_transmit_event"; p_x := X_FlexrayFrameTransmitEvent; p_c := C_FlexrayFrameTransmitEvent; p_out := cv_flx_transmit_event_out; p_in := cv_flx_transmit_event_in;
      p_names := []; p_headers := [("structHeader", id_FlexrayFrameTransmitEvent); ("frame.structHeader", id_FlexrayFrame); ("frame.header.structHeader", id_FlexrayHeader)]; p_narrow := true |};
   {| p_name := "flx_wakeup_event"; p_x := X_FlexrayWakeupEvent; p_c := C_FlexrayWakeupEvent; p_out := cv_flx_wakeup_event_out; p_in := cv_flx_wakeup_event_in;
      p_names := []; p_headers := [("structHeader", id_FlexrayWakeupEvent)]; p_narrow := false |};
   {| p_name := "flx_poc_event"; p_x := X_FlexrayPocStatusEvent; p_c := C_FlexrayPocStatusEvent; p_out := cv_flx_poc_event_out; p_in := cv_flx_poc_event_in;
      p_names := []; p_headers := [("structHeader", id_FlexrayPocStatusEvent)]; p_narrow := false |};
   {| p_name := "flx_symbol_event"; p_x := X_FlexraySymbolEvent; p_c := C_FlexraySymbolEvent; p_out := cv_flx_symbol_event_out; p_in := cv_flx_symbol_event_in;
      p_names := []; p_headers := [("structHeader", id_FlexraySymbolEvent)]; p_narrow := false |};
   {| p_name := "flx_symbol_transmit_event"; p_x := X_FlexraySymbolTransmitEvent; p_c := C_FlexraySymbolTransmitEvent; p_out := cv_flx_symbol_transmit_event_out; p_in := cv_flx_symbol_transmit_event_in;
      p_names := []; p_headers := [("structHeader", id_FlexraySymbolTransmitEvent)]; p_narrow := false |};
   {| p_name := "flx_cycle_event"; p_x := X_FlexrayCycleStartEvent; p_c := C_FlexrayCycleStartEvent; p_out := cv_flx_cycle_event_out; p_in := cv_flx_cycle_event_in;
      p_names := []; p_headers := [("structHeader", id_FlexrayCycleStartEvent)]; p_narrow := false |}].
(* HourglassConversions.hpp *)
Definition request_pairs : list pair :=
  [{| p_name := "req_can_frame_request"; p_x := X_NetSim_CanFrameRequest; p_c := C_NetSim_CanFrameRequest; p_out := cv_req_can_frame_request_out; p_in := cv_req_can_frame_request_in;
      p_names := [("frame.canId", "frame.id"); ("frame.dataField", "frame.data")]; p_headers := [("structHeader", id_NetSim_CanFrameRequest); ("frame.structHeader", id_CanFrame)]; p_narrow := false |};
   {| p_name := "req_can_configure_baudrate"; p_x := X_NetSim_CanConfigureBaudrate; p_c := C_NetSim_CanConfigureBaudrate; p_out := cv_req_can_configure_baudrate_out; p_in := cv_req_can_configure_baudrate_in;
      p_names := [("baudRate", "rate"); ("fdBaudRate", "fdRate"); ("xlBaudRate", "xlRate")]; p_headers := [("structHeader", id_NetSim_CanConfigureBaudrate)]; p_narrow := false |};
   {| p_name := "req_can_controller_mode"; p_x := X_NetSim_CanControllerMode; p_c := C_NetSim_CanControllerMode; p_out := cv_req_can_controller_mode_out; p_in := cv_req_can_controller_mode_in;
      p_names := []; p_headers := [("structHeader", id_NetSim_CanControllerMode)]; p_narrow := false |};
   {| p_name := "req_flexray_host_command"; p_x := X_NetSim_FlexrayHostCommand; p_c := C_NetSim_FlexrayHostCommand; p_out := cv_req_flexray_host_command_out; p_in := cv_req_flexray_host_command_in;
      p_names := [("command", "chiCommand")]; p_headers := [("structHeader", id_NetSim_FlexrayHostCommand)]; p_narrow := false |};
   {| p_name := "req_flexray_tx_buffer_config_update"; p_x := X_NetSim_FlexrayTxBufferConfigUpdate; p_c := C_NetSim_FlexrayTxBufferConfigUpdate; p_out := cv_req_flexray_tx_buffer_config_update_out; p_in := cv_req_flexray_tx_buffer_config_update_in;
      p_names := [("txBufferIndex", "txBufferIdx")]; p_headers := [("structHeader", id_NetSim_FlexrayTxBufferConfigUpdate); ("txBufferConfig.structHeader", id_FlexrayTxBufferConfig)]; p_narrow := false |};
   {| p_name := "req_flexray_tx_buffer_update"; p_x := X_NetSim_FlexrayTxBufferUpdate; p_c := C_NetSim_FlexrayTxBufferUpdate; p_out := cv_req_flexray_tx_buffer_update_out; p_in := cv_req_flexray_tx_buffer_update_in;
      p_names := []; p_headers := [("structHeader", id_NetSim_FlexrayTxBufferUpdate)]; p_narrow := false |};
   {| p_name := "req_flexray_controller_config"; p_x := X_NetSim_FlexrayControllerConfig; p_c := C_NetSim_FlexrayControllerConfig; p_out := cv_req_flexray_controller_config_out; p_in := cv_req_flexray_controller_config_in;
      p_names := []; p_headers := [("structHeader", id_NetSim_FlexrayControllerConfig); ("clusterParams.structHeader", id_FlexrayClusterParameters); ("nodeParams.structHeader", id_FlexrayNodeParameters)]; p_narrow := false |};
   {| p_name := "req_ethernet_frame_request"; p_x := X_NetSim_EthernetFrameRequest; p_c := C_NetSim_EthernetFrameRequest; p_out := cv_req_ethernet_frame_request_out; p_in := cv_req_ethernet_frame_request_in;
      p_names := []; p_headers := [("structHeader", id_NetSim_EthernetFrameRequest); ("ethernetFrame.structHeader", id_EthernetFrame)]; p_narrow := false |};
   {| p_name := "req_ethernet_controller_mode"; p_x := X_NetSim_EthernetControllerMode; p_c := C_NetSim_EthernetControllerMode; p_out := cv_req_ethernet_controller_mode_out; p_in := cv_req_ethernet_controller_mode_in;
      p_names := []; p_headers := [("structHeader", id_NetSim_EthernetControllerMode)]; p_narrow := false |};
   {| p_name := "req_lin_frame_request"; p_x := X_NetSim_LinFrameRequest; p_c := C_NetSim_LinFrameRequest; p_out := cv_req_lin_frame_request_out; p_in := cv_req_lin_frame_request_in;
      p_names := []; p_headers := [("structHeader", id_NetSim_LinFrameRequest); ("frame.structHeader", id_LinFrame)]; p_narrow := false |};
   {| p_name := "req_lin_frame_header_request"; p_x := X_NetSim_LinFrameHeaderRequest; p_c := C_NetSim_LinFrameHeaderRequest; p_out := cv_req_lin_frame_header_request_out; p_in := cv_req_lin_frame_header_request_in;
      p_names := []; p_headers := [("structHeader", id_NetSim_LinFrameHeaderRequest)]; p_narrow := false |};
   {| p_name := "req_lin_wakeup_pulse"; p_x := X_NetSim_LinWakeupPulse; p_c := C_NetSim_LinWakeupPulse; p_out := cv_req_lin_wakeup_pulse_out; p_in := cv_req_lin_wakeup_pulse_in;
      p_names := []; p_headers := [("structHeader", id_NetSim_LinWakeupPulse)]; p_narrow := false |};
   {| p_name := "req_lin_controller_config"; p_x := X_NetSim_LinControllerConfig; p_c := C_NetSim_LinControllerConfig; p_out := cv_req_lin_controller_config_out; p_in := cv_req_lin_controller_config_in;
      p_names := []; p_headers := [("structHeader", id_NetSim_LinControllerConfig)]; p_narrow := false |};
   {| p_name := "req_lin_controller_status_update"; p_x := X_NetSim_LinControllerStatusUpdate; p_c := C_NetSim_LinControllerStatusUpdate; p_out := cv_req_lin_controller_status_update_out; p_in := cv_req_lin_controller_status_update_in;
      p_names := []; p_headers := [("structHeader", id_NetSim_LinControllerStatusUpdate)]; p_narrow := false |};
   {| p_name := "req_lin_frame_response"; p_x := X_LinFrameResponse; p_c := C_LinFrameResponse; p_out := cv_req_lin_frame_response_out; p_in := cv_req_lin_frame_response_in;
      p_names := []; p_headers := [("structHeader", id_LinFrameResponse); ("frame.structHeader", id_LinFrame)]; p_narrow := false |};
   {| p_name := "req_flexray_tx_buffer_config"; p_x := X_FlexrayTxBufferConfig; p_c := C_FlexrayTxBufferConfig; p_out := cv_req_flexray_tx_buffer_config_out; p_in := cv_req_flexray_tx_buffer_config_in;
      p_names := []; p_headers := [("structHeader", id_FlexrayTxBufferConfig)]; p_narrow := false |}].
Definition produced_pairs : list pair :=
  [{| p_name := "evt_can_frame_event"; p_x := X_CanFrameEvent; p_c := C_CanFrameEvent; p_out := cv_evt_can_frame_event_out; p_in := cv_evt_can_frame_event_in;
      p_names := [("frame.canId", "frame.id"); ("frame.dataField", "frame.data")]; p_headers := [("structHeader", id_CanFrameEvent); ("frame.structHeader", id_CanFrame)]; p_narrow := false |};
   {| p_name := "evt_can_frame_transmit_event"; p_x := X_CanFrameTransmitEvent; p_c := C_CanFrameTransmitEvent; p_out := cv_evt_can_frame_transmit_event_out; p_in := cv_evt_can_frame_transmit_event_in;
      p_names := []; p_headers := [("structHeader", id_CanFrameTransmitEvent)]; p_narrow := false |};
   {| p_name := "evt_can_state_change_event"; p_x := X_CanStateChangeEvent; p_c := C_CanStateChangeEvent; p_out := cv_evt_can_state_change_event_out; p_in := cv_evt_can_state_change_event_in;
      p_names := []; p_headers := [("structHeader", id_CanStateChangeEvent)]; p_narrow := false |};
   {| p_name := "evt_can_error_state_change_event"; p_x := X_CanErrorStateChangeEvent; p_c := C_CanErrorStateChangeEvent; p_out := cv_evt_can_error_state_change_event_out; p_in := cv_evt_can_error_state_change_event_in;
      p_names := []; p_headers := [("structHeader", id_CanErrorStateChangeEvent)]; p_narrow := false |};
   {| p_name := "evt_flexray_frame_event"; p_x := X_FlexrayFrameEvent; p_c := C_FlexrayFrameEvent; p_out := cv_evt_flexray_frame_event_out; p_in := cv_evt_flexray_frame_event_in;
      p_names := []; p_headers := [("structHeader", id_FlexrayFrameEvent); ("frame.structHeader", id_FlexrayFrame); ("frame.header.structHeader", id_FlexrayHeader)]; p_narrow := true |};
   {| p_name := "evt_flexray_frame_transmit_event"; p_x := X_FlexrayFrameTransmitEvent; p_c := C_FlexrayFrameTransmitEvent; p_out := cv_evt_flexray_frame_transmit_event_out; p_in := cv_evt_flexray_frame_transmit_event_in;
      p_names := []; p_headers := [("structHeader", id_FlexrayFrameTransmitEvent); ("frame.structHeader", id_FlexrayFrame); ("frame.header.structHeader", id_FlexrayHeader)]; p_narrow := true |};
   {| p_name := "evt_flexray_symbol_event"; p_x := X_FlexraySymbolEvent; p_c := C_FlexraySymbolEvent; p_out := cv_evt_flexray_symbol_event_out; p_in := cv_evt_flexray_symbol_event_in;
      p_names := []; p_headers := [("structHeader", id_FlexraySymbolEvent)]; p_narrow := false |};
   {| p_name := "evt_flexray_symbol_transmit_event"; p_x := X_FlexraySymbolTransmitEvent; p_c := C_FlexraySymbolTransmitEvent; p_out := cv_evt_flexray_symbol_transmit_event_out; p_in := cv_evt_flexray_symbol_transmit_event_in;
      p_names := []; p_headers := [("structHeader", id_FlexraySymbolTransmitEvent)]; p_narrow := false |};
   {| p_name := "evt_flexray_cycle_start_event"; p_x := X_FlexrayCycleStartEvent; p_c := C_FlexrayCycleStartEvent; p_out := cv_evt_flexray_cycle_start_event_out; p_in := cv_evt_flexray_cycle_start_event_in;
      p_names := []; p_headers := [("structHeader", id_FlexrayCycleStartEvent)]; p_narrow := false |};
   {| p_name := "evt_flexray_poc_status_event"; p_x := X_FlexrayPocStatusEvent; p_c := C_FlexrayPocStatusEvent; p_out := cv_evt_flexray_poc_status_event_out; p_in := cv_evt_flexray_poc_status_event_in;
      p_names := []; p_headers := [("structHeader", id_FlexrayPocStatusEvent)]; p_narrow := false |};
   {| p_name := "evt_ethernet_frame_event"; p_x := X_EthernetFrameEvent; p_c := C_EthernetFrameEvent; p_out := cv_evt_ethernet_frame_event_out; p_in := cv_evt_ethernet_frame_event_in;
      p_names := [("frame.raw", "ethernetFrame.raw")]; p_headers := [("structHeader", id_EthernetFrameEvent); ("ethernetFrame.structHeader", id_EthernetFrame)]; p_narrow := false |};
   {| p_name := "evt_ethernet_frame_transmit_event"; p_x := X_EthernetFrameTransmitEvent; p_c := C_EthernetFrameTransmitEvent; p_out := cv_evt_ethernet_frame_transmit_event_out; p_in := cv_evt_ethernet_frame_transmit_event_in;
      p_names := []; p_headers := [("structHeader", id_EthernetFrameTransmitEvent)]; p_narrow := false |};
   {| p_name := "evt_ethernet_state_change_event"; p_x := X_EthernetStateChangeEvent; p_c := C_EthernetStateChangeEvent; p_out := cv_evt_ethernet_state_change_event_out; p_in := cv_evt_ethernet_state_change_event_in;
      p_names := []; p_headers := [("structHeader", id_EthernetStateChangeEvent)]; p_narrow := false |};
   {| p_name := "evt_ethernet_bitrate_change_event"; p_x := X_EthernetBitrateChangeEvent; p_c := C_EthernetBitrateChangeEvent; p_out := cv_evt_ethernet_bitrate_change_event_out; p_in := cv_evt_ethernet_bitrate_change_event_in;
      p_names := []; p_headers := [("structHeader", id_EthernetBitrateChangeEvent)]; p_narrow := false |};
   {| p_name := "evt_lin_frame_status_event"; p_x := X_LinFrameStatusEvent; p_c := C_LinFrameStatusEvent; p_out := cv_evt_lin_frame_status_event_out; p_in := cv_evt_lin_frame_status_event_in;
      p_names := []; p_headers := [("structHeader", id_LinFrameStatusEvent); ("frame.structHeader", id_LinFrame)]; p_narrow := false |};
   {| p_name := "evt_lin_send_frame_header_request"; p_x := X_LinSendFrameHeaderRequest; p_c := C_LinSendFrameHeaderRequest; p_out := cv_evt_lin_send_frame_header_request_out; p_in := cv_evt_lin_send_frame_header_request_in;
      p_names := []; p_headers := [("structHeader", id_LinSendFrameHeaderRequest)]; p_narrow := false |};
   {| p_name := "evt_lin_wakeup_event"; p_x := X_LinWakeupEvent; p_c := C_LinWakeupEvent; p_out := cv_evt_lin_wakeup_event_out; p_in := cv_evt_lin_wakeup_event_in;
      p_names := []; p_headers := [("structHeader", id_LinWakeupEvent)]; p_narrow := false |}].
(* SilKit/source/capi/CapiNetworkSimulator.cpp 474-522 *)
Definition can_cases : list (Z * string) :=
  [(si_type id_CanFrameEvent, "SilKit_CanFrameEvent"); (si_type id_CanFrameTransmitEvent, "SilKit_CanFrameTransmitEvent"); (si_type id_CanStateChangeEvent, "SilKit_CanStateChangeEvent"); (si_type id_CanErrorStateChangeEvent, "SilKit_CanErrorStateChangeEvent")].
(* SilKit/source/capi/CapiNetworkSimulator.cpp 539-601 *)
Definition flexray_cases : list (Z * string) :=
  [(si_type id_FlexrayFrameEvent, "SilKit_FlexrayFrameEvent"); (si_type id_FlexrayFrameTransmitEvent, "SilKit_FlexrayFrameTransmitEvent"); (si_type id_FlexraySymbolEvent, "SilKit_FlexraySymbolEvent"); (si_type id_FlexraySymbolTransmitEvent, "SilKit_FlexraySymbolTransmitEvent"); (si_type id_FlexrayCycleStartEvent, "SilKit_FlexrayCycleStartEvent"); (si_type id_FlexrayPocStatusEvent, "SilKit_FlexrayPocStatusEvent")].
(* SilKit/source/capi/CapiNetworkSimulator.cpp 618-666 *)
Definition ethernet_cases : list (Z * string) :=
  [(si_type id_EthernetFrameEvent, "SilKit_EthernetFrameEvent"); (si_type id_EthernetFrameTransmitEvent, "SilKit_EthernetFrameTransmitEvent"); (si_type id_EthernetStateChangeEvent, "SilKit_EthernetStateChangeEvent"); (si_type id_EthernetBitrateChangeEvent, "SilKit_EthernetBitrateChangeEvent")].
(* SilKit/source/capi/CapiNetworkSimulator.cpp 683-726 *)
Definition lin_cases : list (Z * string) :=
  [(si_type id_LinFrameStatusEvent, "SilKit_LinFrameStatusEvent"); (si_type id_LinSendFrameHeaderRequest, "SilKit_LinSendFrameHeaderRequest"); (si_type id_LinWakeupEvent, "SilKit_LinWakeupEvent")].

(* The functions of the C API: the kinds of the parameters, and the checks in the
   order in which they are made, all before anything else is done *)
(* SilKit/source/capi/CapiCan.cpp 16-31 *)
Definition f_CanController_Create : capi_function :=
  {| fn_name := "SilKit_CanController_Create";
     fn_params := [("outController", KOut); ("participant", KObject); ("cName", KString); ("cNetwork", KString)];
     fn_checks := [CkOut "outController" None; CkPointer "participant" None; CkPointer "cName" None; CkPointer "cNetwork" None] |}.
(* SilKit/source/capi/CapiCan.cpp 34-70 *)
Definition f_CanController_AddFrameHandler : capi_function :=
  {| fn_name := "SilKit_CanController_AddFrameHandler";
     fn_params := [("controller", KObject); ("context", KContext); ("callback", KHandler); ("directionMask", KValue); ("outHandlerId", KOut)];
     fn_checks := [CkPointer "controller" None; CkHandler "callback" None; CkOut "outHandlerId" None] |}.
(* SilKit/source/capi/CapiCan.cpp 73-83 *)
Definition f_CanController_RemoveFrameHandler : capi_function :=
  {| fn_name := "SilKit_CanController_RemoveFrameHandler";
     fn_params := [("controller", KObject); ("handlerId", KValue)];
     fn_checks := [CkPointer "controller" None] |}.
(* SilKit/source/capi/CapiCan.cpp 86-112 *)
Definition f_CanController_AddFrameTransmitHandler : capi_function :=
  {| fn_name := "SilKit_CanController_AddFrameTransmitHandler";
     fn_params := [("controller", KObject); ("context", KContext); ("callback", KHandler); ("statusMask", KValue); ("outHandlerId", KOut)];
     fn_checks := [CkPointer "controller" None; CkHandler "callback" None; CkOut "outHandlerId" None] |}.
(* SilKit/source/capi/CapiCan.cpp 115-125 *)
Definition f_CanController_RemoveFrameTransmitHandler : capi_function :=
  {| fn_name := "SilKit_CanController_RemoveFrameTransmitHandler";
     fn_params := [("controller", KObject); ("handlerId", KValue)];
     fn_checks := [CkPointer "controller" None] |}.
(* SilKit/source/capi/CapiCan.cpp 128-149 *)
Definition f_CanController_AddStateChangeHandler : capi_function :=
  {| fn_name := "SilKit_CanController_AddStateChangeHandler";
     fn_params := [("controller", KObject); ("context", KContext); ("callback", KHandler); ("outHandlerId", KOut)];
     fn_checks := [CkPointer "controller" None; CkHandler "callback" None; CkOut "outHandlerId" None] |}.
(* SilKit/source/capi/CapiCan.cpp 152-162 *)
Definition f_CanController_RemoveStateChangeHandler : capi_function :=
  {| fn_name := "SilKit_CanController_RemoveStateChangeHandler";
     fn_params := [("controller", KObject); ("handlerId", KValue)];
     fn_checks := [CkPointer "controller" None] |}.
(* SilKit/source/capi/CapiCan.cpp 165-188 *)
Definition f_CanController_AddErrorStateChangeHandler : capi_function :=
  {| fn_name := "SilKit_CanController_AddErrorStateChangeHandler";
     fn_params := [("controller", KObject); ("context", KContext); ("callback", KHandler); ("outHandlerId", KOut)];
     fn_checks := [CkPointer "controller" None; CkHandler "callback" None; CkOut "outHandlerId" None] |}.
(* SilKit/source/capi/CapiCan.cpp 191-201 *)
Definition f_CanController_RemoveErrorStateChangeHandler : capi_function :=
  {| fn_name := "SilKit_CanController_RemoveErrorStateChangeHandler";
     fn_params := [("controller", KObject); ("handlerId", KValue)];
     fn_checks := [CkPointer "controller" None] |}.
(* SilKit/source/capi/CapiCan.cpp 204-214 *)
Definition f_CanController_SetBaudRate : capi_function :=
  {| fn_name := "SilKit_CanController_SetBaudRate";
     fn_params := [("controller", KObject); ("rate", KValue); ("fdRate", KValue); ("xlRate", KValue)];
     fn_checks := [CkPointer "controller" None] |}.
(* SilKit/source/capi/CapiCan.cpp 217-240 *)
Definition f_CanController_SendFrame : capi_function :=
  {| fn_name := "SilKit_CanController_SendFrame";
     fn_params := [("controller", KObject); ("message", KStruct "SilKit_CanFrame"); ("transmitContext", KContext)];
     fn_checks := [CkPointer "controller" None; CkPointer "message" None; CkHeader "message" None] |}.
(* SilKit/source/capi/CapiCan.cpp 243-252 *)
Definition f_CanController_Start : capi_function :=
  {| fn_name := "SilKit_CanController_Start";
     fn_params := [("controller", KObject)];
     fn_checks := [CkPointer "controller" None] |}.
(* SilKit/source/capi/CapiCan.cpp 255-264 *)
Definition f_CanController_Stop : capi_function :=
  {| fn_name := "SilKit_CanController_Stop";
     fn_params := [("controller", KObject)];
     fn_checks := [CkPointer "controller" None] |}.
(* SilKit/source/capi/CapiCan.cpp 267-276 *)
Definition f_CanController_Reset : capi_function :=
  {| fn_name := "SilKit_CanController_Reset";
     fn_params := [("controller", KObject)];
     fn_checks := [CkPointer "controller" None] |}.
(* SilKit/source/capi/CapiCan.cpp 279-288 *)
Definition f_CanController_Sleep : capi_function :=
  {| fn_name := "SilKit_CanController_Sleep";
     fn_params := [("controller", KObject)];
     fn_checks := [CkPointer "controller" None] |}.
(* SilKit/source/capi/CapiDataPubSub.cpp 19-37 *)
Definition f_DataPublisher_Create : capi_function :=
  {| fn_name := "SilKit_DataPublisher_Create";
     fn_params := [("outPublisher", KOut); ("participant", KObject); ("controllerName", KString); ("dataSpec", KStruct "SilKit_DataSpec"); ("history", KValue)];
     fn_checks := [CkOut "outPublisher" None; CkPointer "participant" None; CkPointer "controllerName" None; CkPointer "dataSpec" None] |}.
(* SilKit/source/capi/CapiDataPubSub.cpp 40-50 *)
Definition f_DataPublisher_Publish : capi_function :=
  {| fn_name := "SilKit_DataPublisher_Publish";
     fn_params := [("self", KObject); ("data", KVector)];
     fn_checks := [CkPointer "self" None; CkPointer "data" None] |}.
(* SilKit/source/capi/CapiDataPubSub.cpp 53-91 *)
Definition f_DataSubscriber_Create : capi_function :=
  {| fn_name := "SilKit_DataSubscriber_Create";
     fn_params := [("outSubscriber", KOut); ("participant", KObject); ("controllerName", KString); ("dataSpec", KStruct "SilKit_DataSpec"); ("defaultDataHandlerContext", KContext); ("defaultDataHandler", KHandler)];
     fn_checks := [CkOut "outSubscriber" None; CkPointer "participant" None; CkPointer "controllerName" None; CkPointer "dataSpec" None] |}.
(* SilKit/source/capi/CapiDataPubSub.cpp 94-120 *)
Definition f_DataSubscriber_SetDataMessageHandler : capi_function :=
  {| fn_name := "SilKit_DataSubscriber_SetDataMessageHandler";
     fn_params := [("self", KObject); ("context", KContext); ("dataHandler", KHandler)];
     fn_checks := [CkPointer "self" None; CkHandler "dataHandler" None] |}.
(* SilKit/source/capi/CapiEthernet.cpp 15-30 *)
Definition f_EthernetController_Create : capi_function :=
  {| fn_name := "SilKit_EthernetController_Create";
     fn_params := [("outController", KOut); ("participant", KObject); ("name", KString); ("network", KString)];
     fn_checks := [CkOut "outController" None; CkPointer "participant" None; CkPointer "name" None; CkPointer "network" None] |}.
(* SilKit/source/capi/CapiEthernet.cpp 33-42 *)
Definition f_EthernetController_Activate : capi_function :=
  {| fn_name := "SilKit_EthernetController_Activate";
     fn_params := [("controller", KObject)];
     fn_checks := [CkPointer "controller" None] |}.
(* SilKit/source/capi/CapiEthernet.cpp 45-54 *)
Definition f_EthernetController_Deactivate : capi_function :=
  {| fn_name := "SilKit_EthernetController_Deactivate";
     fn_params := [("controller", KObject)];
     fn_checks := [CkPointer "controller" None] |}.
(* SilKit/source/capi/CapiEthernet.cpp 57-92 *)
Definition f_EthernetController_AddFrameHandler : capi_function :=
  {| fn_name := "SilKit_EthernetController_AddFrameHandler";
     fn_params := [("controller", KObject); ("context", KContext); ("handler", KHandler); ("directionMask", KValue); ("outHandlerId", KOut)];
     fn_checks := [CkPointer "controller" None; CkHandler "handler" None; CkOut "outHandlerId" None] |}.
(* SilKit/source/capi/CapiEthernet.cpp 95-105 *)
Definition f_EthernetController_RemoveFrameHandler : capi_function :=
  {| fn_name := "SilKit_EthernetController_RemoveFrameHandler";
     fn_params := [("controller", KObject); ("handlerId", KValue)];
     fn_checks := [CkPointer "controller" None] |}.
(* SilKit/source/capi/CapiEthernet.cpp 108-134 *)
Definition f_EthernetController_AddFrameTransmitHandler : capi_function :=
  {| fn_name := "SilKit_EthernetController_AddFrameTransmitHandler";
     fn_params := [("controller", KObject); ("context", KContext); ("handler", KHandler); ("transmitStatusMask", KValue); ("outHandlerId", KOut)];
     fn_checks := [CkPointer "controller" None; CkHandler "handler" None; CkOut "outHandlerId" None] |}.
(* SilKit/source/capi/CapiEthernet.cpp 137-147 *)
Definition f_EthernetController_RemoveFrameTransmitHandler : capi_function :=
  {| fn_name := "SilKit_EthernetController_RemoveFrameTransmitHandler";
     fn_params := [("controller", KObject); ("handlerId", KValue)];
     fn_checks := [CkPointer "controller" None] |}.
(* SilKit/source/capi/CapiEthernet.cpp 150-172 *)
Definition f_EthernetController_AddStateChangeHandler : capi_function :=
  {| fn_name := "SilKit_EthernetController_AddStateChangeHandler";
     fn_params := [("controller", KObject); ("context", KContext); ("handler", KHandler); ("outHandlerId", KOut)];
     fn_checks := [CkPointer "controller" None; CkHandler "handler" None; CkOut "outHandlerId" None] |}.
(* SilKit/source/capi/CapiEthernet.cpp 175-185 *)
Definition f_EthernetController_RemoveStateChangeHandler : capi_function :=
  {| fn_name := "SilKit_EthernetController_RemoveStateChangeHandler";
     fn_params := [("controller", KObject); ("handlerId", KValue)];
     fn_checks := [CkPointer "controller" None] |}.
(* SilKit/source/capi/CapiEthernet.cpp 188-212 *)
Definition f_EthernetController_AddBitrateChangeHandler : capi_function :=
  {| fn_name := "SilKit_EthernetController_AddBitrateChangeHandler";
     fn_params := [("controller", KObject); ("context", KContext); ("handler", KHandler); ("outHandlerId", KOut)];
     fn_checks := [CkPointer "controller" None; CkHandler "handler" None; CkOut "outHandlerId" None] |}.
(* SilKit/source/capi/CapiEthernet.cpp 215-225 *)
Definition f_EthernetController_RemoveBitrateChangeHandler : capi_function :=
  {| fn_name := "SilKit_EthernetController_RemoveBitrateChangeHandler";
     fn_params := [("controller", KObject); ("handlerId", KValue)];
     fn_checks := [CkPointer "controller" None] |}.
(* SilKit/source/capi/CapiEthernet.cpp 228-244 *)
Definition f_EthernetController_SendFrame : capi_function :=
  {| fn_name := "SilKit_EthernetController_SendFrame";
     fn_params := [("controller", KObject); ("frame", KStruct "SilKit_EthernetFrame"); ("userContext", KContext)];
     fn_checks := [CkPointer "controller" None; CkPointer "frame" None] |}.
(* SilKit/source/capi/CapiFlexray.cpp 109-128 *)
Definition f_FlexrayController_Create : capi_function :=
  {| fn_name := "SilKit_FlexrayController_Create";
     fn_params := [("outController", KOut); ("participant", KObject); ("name", KString); ("network", KString)];
     fn_checks := [CkOut "outController" None; CkPointer "participant" None; CkPointer "name" None; CkPointer "network" None] |}.
(* SilKit/source/capi/CapiFlexray.cpp 131-151 *)
Definition f_FlexrayController_Configure : capi_function :=
  {| fn_name := "SilKit_FlexrayController_Configure";
     fn_params := [("controller", KObject); ("config", KStruct "SilKit_FlexrayControllerConfig")];
     fn_checks := [CkPointer "controller" None; CkPointer "config" None; CkPointer "config" (Some "clusterParams"); CkPointer "config" (Some "nodeParams"); CkHeader "config" None; CkHeader "config" (Some "clusterParams"); CkHeader "config" (Some "nodeParams")] |}.
(* SilKit/source/capi/CapiFlexray.cpp 154-171 *)
Definition f_FlexrayController_ReconfigureTxBuffer : capi_function :=
  {| fn_name := "SilKit_FlexrayController_ReconfigureTxBuffer";
     fn_params := [("controller", KObject); ("txBufferIdx", KValue); ("config", KStruct "SilKit_FlexrayTxBufferConfig")];
     fn_checks := [CkPointer "controller" None; CkPointer "config" None; CkHeader "config" None; CkBool "config" (Some "hasPayloadPreambleIndicator")] |}.
(* SilKit/source/capi/CapiFlexray.cpp 174-194 *)
Definition f_FlexrayController_UpdateTxBuffer : capi_function :=
  {| fn_name := "SilKit_FlexrayController_UpdateTxBuffer";
     fn_params := [("controller", KObject); ("update", KStruct "SilKit_FlexrayTxBufferUpdate")];
     fn_checks := [CkPointer "controller" None; CkPointer "update" None; CkBool "update" (Some "payloadDataValid")] |}.
(* SilKit/source/capi/CapiFlexray.cpp 197-229 *)
Definition f_FlexrayController_ExecuteCmd : capi_function :=
  {| fn_name := "SilKit_FlexrayController_ExecuteCmd";
     fn_params := [("controller", KObject); ("cmd", KValue)];
     fn_checks := [CkPointer "controller" None] |}.
(* SilKit/source/capi/CapiFlexray.cpp 232-272 *)
Definition f_FlexrayController_AddFrameHandler : capi_function :=
  {| fn_name := "SilKit_FlexrayController_AddFrameHandler";
     fn_params := [("controller", KObject); ("context", KContext); ("handler", KHandler); ("outHandlerId", KOut)];
     fn_checks := [CkPointer "controller" None; CkHandler "handler" None; CkOut "outHandlerId" None] |}.
(* SilKit/source/capi/CapiFlexray.cpp 275-285 *)
Definition f_FlexrayController_RemoveFrameHandler : capi_function :=
  {| fn_name := "SilKit_FlexrayController_RemoveFrameHandler";
     fn_params := [("controller", KObject); ("handlerId", KValue)];
     fn_checks := [CkPointer "controller" None] |}.
(* SilKit/source/capi/CapiFlexray.cpp 288-327 *)
Definition f_FlexrayController_AddFrameTransmitHandler : capi_function :=
  {| fn_name := "SilKit_FlexrayController_AddFrameTransmitHandler";
     fn_params := [("controller", KObject); ("context", KContext); ("handler", KHandler); ("outHandlerId", KOut)];
     fn_checks := [CkPointer "controller" None; CkHandler "handler" None; CkOut "outHandlerId" None] |}.
(* SilKit/source/capi/CapiFlexray.cpp 330-340 *)
Definition f_FlexrayController_RemoveFrameTransmitHandler : capi_function :=
  {| fn_name := "SilKit_FlexrayController_RemoveFrameTransmitHandler";
     fn_params := [("controller", KObject); ("handlerId", KValue)];
     fn_checks := [CkPointer "controller" None] |}.
(* SilKit/source/capi/CapiFlexray.cpp 343-367 *)
Definition f_FlexrayController_AddWakeupHandler : capi_function :=
  {| fn_name := "SilKit_FlexrayController_AddWakeupHandler";
     fn_params := [("controller", KObject); ("context", KContext); ("handler", KHandler); ("outHandlerId", KOut)];
     fn_checks := [CkPointer "controller" None; CkHandler "handler" None; CkOut "outHandlerId" None] |}.
(* SilKit/source/capi/CapiFlexray.cpp 370-380 *)
Definition f_FlexrayController_RemoveWakeupHandler : capi_function :=
  {| fn_name := "SilKit_FlexrayController_RemoveWakeupHandler";
     fn_params := [("controller", KObject); ("handlerId", KValue)];
     fn_checks := [CkPointer "controller" None] |}.
(* SilKit/source/capi/CapiFlexray.cpp 383-413 *)
Definition f_FlexrayController_AddPocStatusHandler : capi_function :=
  {| fn_name := "SilKit_FlexrayController_AddPocStatusHandler";
     fn_params := [("controller", KObject); ("context", KContext); ("handler", KHandler); ("outHandlerId", KOut)];
     fn_checks := [CkPointer "controller" None; CkHandler "handler" None; CkOut "outHandlerId" None] |}.
(* SilKit/source/capi/CapiFlexray.cpp 416-426 *)
Definition f_FlexrayController_RemovePocStatusHandler : capi_function :=
  {| fn_name := "SilKit_FlexrayController_RemovePocStatusHandler";
     fn_params := [("controller", KObject); ("handlerId", KValue)];
     fn_checks := [CkPointer "controller" None] |}.
(* SilKit/source/capi/CapiFlexray.cpp 429-452 *)
Definition f_FlexrayController_AddSymbolHandler : capi_function :=
  {| fn_name := "SilKit_FlexrayController_AddSymbolHandler";
     fn_params := [("controller", KObject); ("context", KContext); ("handler", KHandler); ("outHandlerId", KOut)];
     fn_checks := [CkPointer "controller" None; CkHandler "handler" None; CkOut "outHandlerId" None] |}.
(* SilKit/source/capi/CapiFlexray.cpp 455-465 *)
Definition f_FlexrayController_RemoveSymbolHandler : capi_function :=
  {| fn_name := "SilKit_FlexrayController_RemoveSymbolHandler";
     fn_params := [("controller", KObject); ("handlerId", KValue)];
     fn_checks := [CkPointer "controller" None] |}.
(* SilKit/source/capi/CapiFlexray.cpp 468-490 *)
Definition f_FlexrayController_AddSymbolTransmitHandler : capi_function :=
  {| fn_name := "SilKit_FlexrayController_AddSymbolTransmitHandler";
     fn_params := [("controller", KObject); ("context", KContext); ("handler", KHandler); ("outHandlerId", KOut)];
     fn_checks := [CkPointer "controller" None; CkHandler "handler" None; CkOut "outHandlerId" None] |}.
(* SilKit/source/capi/CapiFlexray.cpp 493-503 *)
Definition f_FlexrayController_RemoveSymbolTransmitHandler : capi_function :=
  {| fn_name := "SilKit_FlexrayController_RemoveSymbolTransmitHandler";
     fn_params := [("controller", KObject); ("handlerId", KValue)];
     fn_checks := [CkPointer "controller" None] |}.
(* SilKit/source/capi/CapiFlexray.cpp 506-528 *)
Definition f_FlexrayController_AddCycleStartHandler : capi_function :=
  {| fn_name := "SilKit_FlexrayController_AddCycleStartHandler";
     fn_params := [("controller", KObject); ("context", KContext); ("handler", KHandler); ("outHandlerId", KOut)];
     fn_checks := [CkPointer "controller" None; CkHandler "handler" None; CkOut "outHandlerId" None] |}.
(* SilKit/source/capi/CapiFlexray.cpp 531-541 *)
Definition f_FlexrayController_RemoveCycleStartHandler : capi_function :=
  {| fn_name := "SilKit_FlexrayController_RemoveCycleStartHandler";
     fn_params := [("controller", KObject); ("handlerId", KValue)];
     fn_checks := [CkPointer "controller" None] |}.
(* SilKit/source/capi/CapiLin.cpp 73-92 *)
Definition f_LinController_Create : capi_function :=
  {| fn_name := "SilKit_LinController_Create";
     fn_params := [("outLinController", KOut); ("participant", KObject); ("name", KString); ("network", KString)];
     fn_checks := [CkPointer "participant" None; CkOut "outLinController" None; CkPointer "name" None; CkPointer "network" None] |}.
(* SilKit/source/capi/CapiLin.cpp 95-109 *)
Definition f_LinController_Init : capi_function :=
  {| fn_name := "SilKit_LinController_Init";
     fn_params := [("controller", KObject); ("config", KStruct "SilKit_LinControllerConfig")];
     fn_checks := [CkPointer "controller" None; CkPointer "config" None; CkHeader "config" None] |}.
(* SilKit/source/capi/CapiLin.cpp 112-127 *)
Definition f_LinController_SetFrameResponse : capi_function :=
  {| fn_name := "SilKit_LinController_SetFrameResponse";
     fn_params := [("controller", KObject); ("response", KStruct "SilKit_LinFrameResponse")];
     fn_checks := [CkPointer "controller" None; CkPointer "response" None; CkHeader "response" None] |}.
(* SilKit/source/capi/CapiLin.cpp 130-141 *)
Definition f_LinController_Status : capi_function :=
  {| fn_name := "SilKit_LinController_Status";
     fn_params := [("controller", KObject); ("outStatus", KOut)];
     fn_checks := [CkPointer "controller" None; CkOut "outStatus" None] |}.
(* SilKit/source/capi/CapiLin.cpp 144-159 *)
Definition f_LinController_SendFrame : capi_function :=
  {| fn_name := "SilKit_LinController_SendFrame";
     fn_params := [("controller", KObject); ("frame", KStruct "SilKit_LinFrame"); ("responseType", KValue)];
     fn_checks := [CkPointer "controller" None; CkPointer "frame" None; CkHeader "frame" None] |}.
(* SilKit/source/capi/CapiLin.cpp 162-171 *)
Definition f_LinController_SendFrameHeader : capi_function :=
  {| fn_name := "SilKit_LinController_SendFrameHeader";
     fn_params := [("controller", KObject); ("linId", KValue)];
     fn_checks := [CkPointer "controller" None] |}.
(* SilKit/source/capi/CapiLin.cpp 174-188 *)
Definition f_LinController_UpdateTxBuffer : capi_function :=
  {| fn_name := "SilKit_LinController_UpdateTxBuffer";
     fn_params := [("controller", KObject); ("frame", KStruct "SilKit_LinFrame")];
     fn_checks := [CkPointer "controller" None; CkPointer "frame" None; CkHeader "frame" None] |}.
(* SilKit/source/capi/CapiLin.cpp 191-200 *)
Definition f_LinController_GoToSleep : capi_function :=
  {| fn_name := "SilKit_LinController_GoToSleep";
     fn_params := [("controller", KObject)];
     fn_checks := [CkPointer "controller" None] |}.
(* SilKit/source/capi/CapiLin.cpp 203-212 *)
Definition f_LinController_GoToSleepInternal : capi_function :=
  {| fn_name := "SilKit_LinController_GoToSleepInternal";
     fn_params := [("controller", KObject)];
     fn_checks := [CkPointer "controller" None] |}.
(* SilKit/source/capi/CapiLin.cpp 215-224 *)
Definition f_LinController_Wakeup : capi_function :=
  {| fn_name := "SilKit_LinController_Wakeup";
     fn_params := [("controller", KObject)];
     fn_checks := [CkPointer "controller" None] |}.
(* SilKit/source/capi/CapiLin.cpp 227-236 *)
Definition f_LinController_WakeupInternal : capi_function :=
  {| fn_name := "SilKit_LinController_WakeupInternal";
     fn_params := [("controller", KObject)];
     fn_checks := [CkPointer "controller" None] |}.
(* SilKit/source/capi/CapiLin.cpp 239-252 *)
Definition f_Experimental_LinController_GetSlaveConfiguration : capi_function :=
  {| fn_name := "SilKit_Experimental_LinController_GetSlaveConfiguration";
     fn_params := [("controller", KObject); ("outLinSlaveConfiguration", KStruct "SilKit_Experimental_LinSlaveConfiguration")];
     fn_checks := [CkPointer "controller" None; CkOut "outLinSlaveConfiguration" None] |}.
(* SilKit/source/capi/CapiLin.cpp 255-284 *)
Definition f_LinController_AddFrameStatusHandler : capi_function :=
  {| fn_name := "SilKit_LinController_AddFrameStatusHandler";
     fn_params := [("controller", KObject); ("context", KContext); ("handler", KHandler); ("outHandlerId", KOut)];
     fn_checks := [CkPointer "controller" None; CkHandler "handler" None; CkOut "outHandlerId" None] |}.
(* SilKit/source/capi/CapiLin.cpp 287-297 *)
Definition f_LinController_RemoveFrameStatusHandler : capi_function :=
  {| fn_name := "SilKit_LinController_RemoveFrameStatusHandler";
     fn_params := [("controller", KObject); ("handlerId", KValue)];
     fn_checks := [CkPointer "controller" None] |}.
(* SilKit/source/capi/CapiLin.cpp 300-320 *)
Definition f_LinController_AddGoToSleepHandler : capi_function :=
  {| fn_name := "SilKit_LinController_AddGoToSleepHandler";
     fn_params := [("controller", KObject); ("context", KContext); ("handler", KHandler); ("outHandlerId", KOut)];
     fn_checks := [CkPointer "controller" None; CkHandler "handler" None; CkOut "outHandlerId" None] |}.
(* SilKit/source/capi/CapiLin.cpp 323-332 *)
Definition f_LinController_RemoveGoToSleepHandler : capi_function :=
  {| fn_name := "SilKit_LinController_RemoveGoToSleepHandler";
     fn_params := [("controller", KObject); ("handlerId", KValue)];
     fn_checks := [CkPointer "controller" None] |}.
(* SilKit/source/capi/CapiLin.cpp 335-356 *)
Definition f_LinController_AddWakeupHandler : capi_function :=
  {| fn_name := "SilKit_LinController_AddWakeupHandler";
     fn_params := [("controller", KObject); ("context", KContext); ("handler", KHandler); ("outHandlerId", KOut)];
     fn_checks := [CkPointer "controller" None; CkHandler "handler" None; CkOut "outHandlerId" None] |}.
(* SilKit/source/capi/CapiLin.cpp 359-369 *)
Definition f_LinController_RemoveWakeupHandler : capi_function :=
  {| fn_name := "SilKit_LinController_RemoveWakeupHandler";
     fn_params := [("controller", KObject); ("handlerId", KValue)];
     fn_checks := [CkPointer "controller" None] |}.
(* SilKit/source/capi/CapiLin.cpp 372-394 *)
Definition f_Experimental_LinController_AddLinSlaveConfigurationHandler : capi_function :=
  {| fn_name := "SilKit_Experimental_LinController_AddLinSlaveConfigurationHandler";
     fn_params := [("controller", KObject); ("context", KContext); ("handler", KHandler); ("outHandlerId", KOut)];
     fn_checks := [CkPointer "controller" None; CkHandler "handler" None; CkOut "outHandlerId" None] |}.
(* SilKit/source/capi/CapiLin.cpp 397-408 *)
Definition f_Experimental_LinController_RemoveLinSlaveConfigurationHandler : capi_function :=
  {| fn_name := "SilKit_Experimental_LinController_RemoveLinSlaveConfigurationHandler";
     fn_params := [("controller", KObject); ("handlerId", KValue)];
     fn_checks := [CkPointer "controller" None] |}.
(* SilKit/source/capi/CapiLin.cpp 411-424 *)
Definition f_Experimental_LinController_InitDynamic : capi_function :=
  {| fn_name := "SilKit_Experimental_LinController_InitDynamic";
     fn_params := [("controller", KObject); ("config", KStruct "SilKit_Experimental_LinControllerDynamicConfig")];
     fn_checks := [CkPointer "controller" None; CkPointer "config" None; CkHeader "config" None] |}.
(* SilKit/source/capi/CapiLin.cpp 427-448 *)
Definition f_Experimental_LinController_AddFrameHeaderHandler : capi_function :=
  {| fn_name := "SilKit_Experimental_LinController_AddFrameHeaderHandler";
     fn_params := [("controller", KObject); ("context", KContext); ("handler", KHandler); ("outHandlerId", KOut)];
     fn_checks := [CkPointer "controller" None; CkHandler "handler" None; CkOut "outHandlerId" None] |}.
(* SilKit/source/capi/CapiLin.cpp 451-462 *)
Definition f_Experimental_LinController_RemoveFrameHeaderHandler : capi_function :=
  {| fn_name := "SilKit_Experimental_LinController_RemoveFrameHeaderHandler";
     fn_params := [("controller", KObject); ("handlerId", KValue)];
     fn_checks := [CkPointer "controller" None] |}.
(* SilKit/source/capi/CapiLin.cpp 465-479 *)
Definition f_Experimental_LinController_SendDynamicResponse : capi_function :=
  {| fn_name := "SilKit_Experimental_LinController_SendDynamicResponse";
     fn_params := [("controller", KObject); ("frame", KStruct "SilKit_LinFrame")];
     fn_checks := [CkPointer "controller" None; CkPointer "frame" None] |}.
(* SilKit/source/capi/CapiLogger.cpp 14-31 *)
Definition f_Logger_Log : capi_function :=
  {| fn_name := "SilKit_Logger_Log";
     fn_params := [("self", KObject); ("level", KValue); ("message", KString)];
     fn_checks := [CkPointer "self" None; CkPointer "message" None] |}.
(* SilKit/source/capi/CapiLogger.cpp 34-45 *)
Definition f_Logger_GetLogLevel : capi_function :=
  {| fn_name := "SilKit_Logger_GetLogLevel";
     fn_params := [("self", KObject); ("outLevel", KOut)];
     fn_checks := [CkPointer "self" None; CkPointer "outLevel" None] |}.
(* SilKit/source/capi/CapiNetworkSimulator.cpp 404-417 *)
Definition f_Experimental_NetworkSimulator_Create : capi_function :=
  {| fn_name := "SilKit_Experimental_NetworkSimulator_Create";
     fn_params := [("outNetworkSimulator", KOut); ("participant", KObject)];
     fn_checks := [CkOut "outNetworkSimulator" None; CkPointer "participant" None] |}.
(* SilKit/source/capi/CapiNetworkSimulator.cpp 420-443 *)
Definition f_Experimental_NetworkSimulator_SimulateNetwork : capi_function :=
  {| fn_name := "SilKit_Experimental_NetworkSimulator_SimulateNetwork";
     fn_params := [("networkSimulator", KObject); ("networkName", KString); ("networkType", KValue); ("userSimulatedNetwork", KObject); ("functions", KStruct "SilKit_Experimental_SimulatedNetworkFunctions")];
     fn_checks := [CkPointer "networkSimulator" None; CkPointer "networkName" None; CkPointer "userSimulatedNetwork" None; CkPointer "functions" None; CkHeader "functions" None] |}.
(* SilKit/source/capi/CapiNetworkSimulator.cpp 446-457 *)
Definition f_Experimental_NetworkSimulator_Start : capi_function :=
  {| fn_name := "SilKit_Experimental_NetworkSimulator_Start";
     fn_params := [("networkSimulator", KObject)];
     fn_checks := [CkPointer "networkSimulator" None] |}.
(* SilKit/source/capi/CapiNetworkSimulator.cpp 474-522 *)
Definition f_Experimental_CanEventProducer_Produce : capi_function :=
  {| fn_name := "SilKit_Experimental_CanEventProducer_Produce";
     fn_params := [("eventProducer", KObject); ("cEvent", KHeader); ("receivers", KStruct "SilKit_Experimental_EventReceivers")];
     fn_checks := [CkPointer "eventProducer" None; CkPointer "cEvent" None; CkPointer "receivers" None; CkPlain "cEvent" None; CkHeader "receivers" None] |}.
(* SilKit/source/capi/CapiNetworkSimulator.cpp 539-601 *)
Definition f_Experimental_FlexRayEventProducer_Produce : capi_function :=
  {| fn_name := "SilKit_Experimental_FlexRayEventProducer_Produce";
     fn_params := [("eventProducer", KObject); ("cEvent", KHeader); ("receivers", KStruct "SilKit_Experimental_EventReceivers")];
     fn_checks := [CkPointer "eventProducer" None; CkPointer "cEvent" None; CkPointer "receivers" None; CkPlain "cEvent" None; CkHeader "receivers" None] |}.
(* SilKit/source/capi/CapiNetworkSimulator.cpp 618-666 *)
Definition f_Experimental_EthernetEventProducer_Produce : capi_function :=
  {| fn_name := "SilKit_Experimental_EthernetEventProducer_Produce";
     fn_params := [("eventProducer", KObject); ("cEvent", KHeader); ("receivers", KStruct "SilKit_Experimental_EventReceivers")];
     fn_checks := [CkPointer "eventProducer" None; CkPointer "cEvent" None; CkPointer "receivers" None; CkPlain "cEvent" None; CkHeader "receivers" None] |}.
(* SilKit/source/capi/CapiNetworkSimulator.cpp 683-726 *)
Definition f_Experimental_LinEventProducer_Produce : capi_function :=
  {| fn_name := "SilKit_Experimental_LinEventProducer_Produce";
     fn_params := [("eventProducer", KObject); ("cEvent", KHeader); ("receivers", KStruct "SilKit_Experimental_EventReceivers")];
     fn_checks := [CkPointer "eventProducer" None; CkPointer "cEvent" None; CkPointer "receivers" None; CkPlain "cEvent" None; CkHeader "receivers" None] |}.
(* SilKit/source/capi/CapiOrchestration.cpp 43-55 *)
Definition f_SystemMonitor_Create : capi_function :=
  {| fn_name := "SilKit_SystemMonitor_Create";
     fn_params := [("outSystemMonitor", KOut); ("participant", KObject)];
     fn_checks := [CkOut "outSystemMonitor" None; CkPointer "participant" None] |}.
(* SilKit/source/capi/CapiOrchestration.cpp 58-74 *)
Definition f_LifecycleService_Create : capi_function :=
  {| fn_name := "SilKit_LifecycleService_Create";
     fn_params := [("outLifecycleService", KOut); ("participant", KObject); ("startConfiguration", KStruct "SilKit_LifecycleConfiguration")];
     fn_checks := [CkOut "outLifecycleService" None; CkPointer "participant" None; CkPointer "startConfiguration" None; CkHeader "startConfiguration" None] |}.
(* SilKit/source/capi/CapiOrchestration.cpp 77-91 *)
Definition f_TimeSyncService_Create : capi_function :=
  {| fn_name := "SilKit_TimeSyncService_Create";
     fn_params := [("outTimeSyncService", KOut); ("lifecycleService", KObject)];
     fn_checks := [CkOut "outTimeSyncService" None; CkPointer "lifecycleService" None] |}.
(* SilKit/source/capi/CapiOrchestration.cpp 94-109 *)
Definition f_LifecycleService_SetCommunicationReadyHandler : capi_function :=
  {| fn_name := "SilKit_LifecycleService_SetCommunicationReadyHandler";
     fn_params := [("lifecycleService", KObject); ("context", KContext); ("handler", KHandler)];
     fn_checks := [CkPointer "lifecycleService" None; CkHandler "handler" None] |}.
(* SilKit/source/capi/CapiOrchestration.cpp 112-127 *)
Definition f_LifecycleService_SetCommunicationReadyHandlerAsync : capi_function :=
  {| fn_name := "SilKit_LifecycleService_SetCommunicationReadyHandlerAsync";
     fn_params := [("lifecycleService", KObject); ("context", KContext); ("handler", KHandler)];
     fn_checks := [CkPointer "lifecycleService" None; CkHandler "handler" None] |}.
(* SilKit/source/capi/CapiOrchestration.cpp 130-142 *)
Definition f_LifecycleService_CompleteCommunicationReadyHandlerAsync : capi_function :=
  {| fn_name := "SilKit_LifecycleService_CompleteCommunicationReadyHandlerAsync";
     fn_params := [("lifecycleService", KObject)];
     fn_checks := [CkPointer "lifecycleService" None] |}.
(* SilKit/source/capi/CapiOrchestration.cpp 145-159 *)
Definition f_LifecycleService_SetStartingHandler : capi_function :=
  {| fn_name := "SilKit_LifecycleService_SetStartingHandler";
     fn_params := [("lifecycleService", KObject); ("context", KContext); ("handler", KHandler)];
     fn_checks := [CkPointer "lifecycleService" None; CkHandler "handler" None] |}.
(* SilKit/source/capi/CapiOrchestration.cpp 162-177 *)
Definition f_LifecycleService_SetStopHandler : capi_function :=
  {| fn_name := "SilKit_LifecycleService_SetStopHandler";
     fn_params := [("clifecycleService", KObject); ("context", KContext); ("handler", KHandler)];
     fn_checks := [CkPointer "clifecycleService" None; CkHandler "handler" None] |}.
(* SilKit/source/capi/CapiOrchestration.cpp 180-194 *)
Definition f_LifecycleService_SetShutdownHandler : capi_function :=
  {| fn_name := "SilKit_LifecycleService_SetShutdownHandler";
     fn_params := [("clifecycleService", KObject); ("context", KContext); ("handler", KHandler)];
     fn_checks := [CkPointer "clifecycleService" None; CkHandler "handler" None] |}.
(* SilKit/source/capi/CapiOrchestration.cpp 197-213 *)
Definition f_LifecycleService_SetAbortHandler : capi_function :=
  {| fn_name := "SilKit_LifecycleService_SetAbortHandler";
     fn_params := [("lifecycleService", KObject); ("context", KContext); ("handler", KHandler)];
     fn_checks := [CkPointer "lifecycleService" None; CkHandler "handler" None] |}.
(* SilKit/source/capi/CapiOrchestration.cpp 265-277 *)
Definition f_LifecycleService_StartLifecycle : capi_function :=
  {| fn_name := "SilKit_LifecycleService_StartLifecycle";
     fn_params := [("clifecycleService", KObject)];
     fn_checks := [CkPointer "clifecycleService" None] |}.
(* SilKit/source/capi/CapiOrchestration.cpp 280-305 *)
Definition f_LifecycleService_WaitForLifecycleToComplete : capi_function :=
  {| fn_name := "SilKit_LifecycleService_WaitForLifecycleToComplete";
     fn_params := [("clifecycleService", KObject); ("outParticipantState", KOut)];
     fn_checks := [CkPointer "clifecycleService" None; CkOut "outParticipantState" None] |}.
(* SilKit/source/capi/CapiOrchestration.cpp 308-322 *)
Definition f_LifecycleService_ReportError : capi_function :=
  {| fn_name := "SilKit_LifecycleService_ReportError";
     fn_params := [("cLifecycleService", KObject); ("reason", KString)];
     fn_checks := [CkPointer "cLifecycleService" None; CkPointer "reason" None] |}.
(* SilKit/source/capi/CapiOrchestration.cpp 325-339 *)
Definition f_LifecycleService_State : capi_function :=
  {| fn_name := "SilKit_LifecycleService_State";
     fn_params := [("outParticipantState", KOut); ("cLifecycleService", KObject)];
     fn_checks := [CkOut "outParticipantState" None; CkPointer "cLifecycleService" None] |}.
(* SilKit/source/capi/CapiOrchestration.cpp 342-363 *)
Definition f_LifecycleService_Status : capi_function :=
  {| fn_name := "SilKit_LifecycleService_Status";
     fn_params := [("outParticipantStatus", KStruct "SilKit_ParticipantStatus"); ("cLifecycleService", KObject)];
     fn_checks := [CkOut "outParticipantStatus" None; CkHeader "outParticipantStatus" None; CkPointer "cLifecycleService" None] |}.
(* SilKit/source/capi/CapiOrchestration.cpp 366-382 *)
Definition f_TimeSyncService_SetSimulationStepHandler : capi_function :=
  {| fn_name := "SilKit_TimeSyncService_SetSimulationStepHandler";
     fn_params := [("ctimeSyncService", KObject); ("context", KContext); ("handler", KHandler); ("initialStepSize", KValue)];
     fn_checks := [CkPointer "ctimeSyncService" None; CkHandler "handler" None] |}.
(* SilKit/source/capi/CapiOrchestration.cpp 385-402 *)
Definition f_TimeSyncService_SetSimulationStepHandlerAsync : capi_function :=
  {| fn_name := "SilKit_TimeSyncService_SetSimulationStepHandlerAsync";
     fn_params := [("ctimeSyncService", KObject); ("context", KContext); ("handler", KHandler); ("initialStepSize", KValue)];
     fn_checks := [CkPointer "ctimeSyncService" None; CkHandler "handler" None] |}.
(* SilKit/source/capi/CapiOrchestration.cpp 405-414 *)
Definition f_TimeSyncService_CompleteSimulationStep : capi_function :=
  {| fn_name := "SilKit_TimeSyncService_CompleteSimulationStep";
     fn_params := [("ctimeSyncService", KObject)];
     fn_checks := [CkPointer "ctimeSyncService" None] |}.
(* SilKit/source/capi/CapiOrchestration.cpp 417-428 *)
Definition f_TimeSyncService_Now : capi_function :=
  {| fn_name := "SilKit_TimeSyncService_Now";
     fn_params := [("cTimeSyncService", KObject); ("outNanosecondsTime", KOut)];
     fn_checks := [CkPointer "cTimeSyncService" None; CkOut "outNanosecondsTime" None] |}.
(* SilKit/source/capi/CapiOrchestration.cpp 431-442 *)
Definition f_LifecycleService_Pause : capi_function :=
  {| fn_name := "SilKit_LifecycleService_Pause";
     fn_params := [("clifecycleService", KObject); ("reason", KString)];
     fn_checks := [CkPointer "clifecycleService" None; CkPointer "reason" None] |}.
(* SilKit/source/capi/CapiOrchestration.cpp 445-454 *)
Definition f_LifecycleService_Continue : capi_function :=
  {| fn_name := "SilKit_LifecycleService_Continue";
     fn_params := [("clifecycleService", KObject)];
     fn_checks := [CkPointer "clifecycleService" None] |}.
(* SilKit/source/capi/CapiOrchestration.cpp 457-467 *)
Definition f_LifecycleService_Stop : capi_function :=
  {| fn_name := "SilKit_LifecycleService_Stop";
     fn_params := [("lifecycleService", KObject); ("reason", KString)];
     fn_checks := [CkPointer "lifecycleService" None; CkPointer "reason" None] |}.
(* SilKit/source/capi/CapiOrchestration.cpp 471-495 *)
Definition f_SystemMonitor_GetParticipantStatus : capi_function :=
  {| fn_name := "SilKit_SystemMonitor_GetParticipantStatus";
     fn_params := [("outParticipantState", KStruct "SilKit_ParticipantStatus"); ("csystemMonitor", KObject); ("participantName", KString)];
     fn_checks := [CkPointer "csystemMonitor" None; CkOut "outParticipantState" None; CkPointer "participantName" None; CkHeader "outParticipantState" None] |}.
(* SilKit/source/capi/CapiOrchestration.cpp 498-510 *)
Definition f_SystemMonitor_GetSystemState : capi_function :=
  {| fn_name := "SilKit_SystemMonitor_GetSystemState";
     fn_params := [("outParticipantState", KOut); ("csystemMonitor", KObject)];
     fn_checks := [CkPointer "csystemMonitor" None; CkOut "outParticipantState" None] |}.
(* SilKit/source/capi/CapiOrchestration.cpp 513-532 *)
Definition f_SystemMonitor_AddSystemStateHandler : capi_function :=
  {| fn_name := "SilKit_SystemMonitor_AddSystemStateHandler";
     fn_params := [("csystemMonitor", KObject); ("context", KContext); ("handler", KHandler); ("outHandlerId", KOut)];
     fn_checks := [CkPointer "csystemMonitor" None; CkHandler "handler" None; CkOut "outHandlerId" None] |}.
(* SilKit/source/capi/CapiOrchestration.cpp 535-547 *)
Definition f_SystemMonitor_RemoveSystemStateHandler : capi_function :=
  {| fn_name := "SilKit_SystemMonitor_RemoveSystemStateHandler";
     fn_params := [("csystemMonitor", KObject); ("handlerId", KValue)];
     fn_checks := [CkPointer "csystemMonitor" None] |}.
(* SilKit/source/capi/CapiOrchestration.cpp 550-579 *)
Definition f_SystemMonitor_AddParticipantStatusHandler : capi_function :=
  {| fn_name := "SilKit_SystemMonitor_AddParticipantStatusHandler";
     fn_params := [("csystemMonitor", KObject); ("context", KContext); ("handler", KHandler); ("outHandlerId", KOut)];
     fn_checks := [CkPointer "csystemMonitor" None; CkHandler "handler" None; CkOut "outHandlerId" None] |}.
(* SilKit/source/capi/CapiOrchestration.cpp 582-594 *)
Definition f_SystemMonitor_RemoveParticipantStatusHandler : capi_function :=
  {| fn_name := "SilKit_SystemMonitor_RemoveParticipantStatusHandler";
     fn_params := [("csystemMonitor", KObject); ("handlerId", KValue)];
     fn_checks := [CkPointer "csystemMonitor" None] |}.
(* SilKit/source/capi/CapiOrchestration.cpp 597-617 *)
Definition f_SystemMonitor_SetParticipantConnectedHandler : capi_function :=
  {| fn_name := "SilKit_SystemMonitor_SetParticipantConnectedHandler";
     fn_params := [("systemMonitor", KObject); ("context", KContext); ("handler", KHandler)];
     fn_checks := [CkPointer "systemMonitor" None; CkHandler "handler" None] |}.
(* SilKit/source/capi/CapiOrchestration.cpp 620-640 *)
Definition f_SystemMonitor_SetParticipantDisconnectedHandler : capi_function :=
  {| fn_name := "SilKit_SystemMonitor_SetParticipantDisconnectedHandler";
     fn_params := [("systemMonitor", KObject); ("context", KContext); ("handler", KHandler)];
     fn_checks := [CkPointer "systemMonitor" None; CkHandler "handler" None] |}.
(* SilKit/source/capi/CapiOrchestration.cpp 643-657 *)
Definition f_SystemMonitor_IsParticipantConnected : capi_function :=
  {| fn_name := "SilKit_SystemMonitor_IsParticipantConnected";
     fn_params := [("cSystemMonitor", KObject); ("participantName", KString); ("out", KOut)];
     fn_checks := [CkPointer "cSystemMonitor" None; CkPointer "participantName" None; CkOut "out" None] |}.
(* SilKit/source/capi/CapiOrchestration.cpp 660-673 *)
Definition f_Experimental_SystemController_Create : capi_function :=
  {| fn_name := "SilKit_Experimental_SystemController_Create";
     fn_params := [("outSystemController", KOut); ("participant", KObject)];
     fn_checks := [CkOut "outSystemController" None; CkPointer "participant" None] |}.
(* SilKit/source/capi/CapiOrchestration.cpp 676-689 *)
Definition f_Experimental_SystemController_AbortSimulation : capi_function :=
  {| fn_name := "SilKit_Experimental_SystemController_AbortSimulation";
     fn_params := [("cSystemController", KObject)];
     fn_checks := [CkPointer "cSystemController" None] |}.
(* SilKit/source/capi/CapiOrchestration.cpp 692-713 *)
Definition f_Experimental_SystemController_SetWorkflowConfiguration : capi_function :=
  {| fn_name := "SilKit_Experimental_SystemController_SetWorkflowConfiguration";
     fn_params := [("cSystemController", KObject); ("cWorkflowConfiguration", KStruct "SilKit_WorkflowConfiguration")];
     fn_checks := [CkPointer "cSystemController" None; CkPointer "cWorkflowConfiguration" None] |}.
(* SilKit/source/capi/CapiOrchestration.cpp 716-734 *)
Definition f_Experimental_TimeSyncService_AddOtherSimulationStepsCompletedHandler : capi_function :=
  {| fn_name := "SilKit_Experimental_TimeSyncService_AddOtherSimulationStepsCompletedHandler";
     fn_params := [("cTimeSyncService", KObject); ("context", KContext); ("handler", KHandler); ("outHandlerId", KOut)];
     fn_checks := [CkPointer "cTimeSyncService" None; CkHandler "handler" None; CkOut "outHandlerId" None] |}.
(* SilKit/source/capi/CapiOrchestration.cpp 737-752 *)
Definition f_Experimental_TimeSyncService_RemoveOtherSimulationStepsCompletedHandler : capi_function :=
  {| fn_name := "SilKit_Experimental_TimeSyncService_RemoveOtherSimulationStepsCompletedHandler";
     fn_params := [("cTimeSyncService", KObject); ("cHandlerId", KValue)];
     fn_checks := [CkPointer "cTimeSyncService" None] |}.
(* SilKit/source/capi/CapiParticipant.cpp 24-55 *)
Definition f_Participant_Create : capi_function :=
  {| fn_name := "SilKit_Participant_Create";
     fn_params := [("outParticipant", KOut); ("participantConfiguration", KObject); ("participantName", KString); ("registryUri", KString)];
     fn_checks := [CkOut "outParticipant" None; CkPointer "participantConfiguration" None; CkPointer "participantName" None; CkPointer "registryUri" None] |}.
(* SilKit/source/capi/CapiParticipant.cpp 58-73 *)
Definition f_Participant_Destroy : capi_function :=
  {| fn_name := "SilKit_Participant_Destroy";
     fn_params := [("participant", KObject)];
     fn_checks := [CkPointer "participant" None] |}.
(* SilKit/source/capi/CapiParticipant.cpp 76-87 *)
Definition f_Participant_GetLogger : capi_function :=
  {| fn_name := "SilKit_Participant_GetLogger";
     fn_params := [("outLogger", KOut); ("participant", KObject)];
     fn_checks := [CkOut "outLogger" None; CkPointer "participant" None] |}.
(* SilKit/source/capi/CapiParticipant.cpp 90-113 *)
Definition f_ParticipantConfiguration_FromString : capi_function :=
  {| fn_name := "SilKit_ParticipantConfiguration_FromString";
     fn_params := [("outParticipantConfiguration", KOut); ("participantConfigurationString", KString)];
     fn_checks := [CkOut "outParticipantConfiguration" None; CkPointer "participantConfigurationString" None] |}.
(* SilKit/source/capi/CapiParticipant.cpp 116-139 *)
Definition f_ParticipantConfiguration_FromFile : capi_function :=
  {| fn_name := "SilKit_ParticipantConfiguration_FromFile";
     fn_params := [("outParticipantConfiguration", KOut); ("participantConfigurationPath", KString)];
     fn_checks := [CkOut "outParticipantConfiguration" None; CkPointer "participantConfigurationPath" None] |}.
(* SilKit/source/capi/CapiParticipant.cpp 142-165 *)
Definition f_ParticipantConfiguration_ToJson : capi_function :=
  {| fn_name := "SilKit_ParticipantConfiguration_ToJson";
     fn_params := [("participantConfiguration", KObject); ("outputString", KOut); ("requiredSize", KOut)];
     fn_checks := [CkOut "participantConfiguration" None; CkPointer "requiredSize" None] |}.
(* SilKit/source/capi/CapiParticipant.cpp 167-185 *)
Definition f_ParticipantConfiguration_Destroy : capi_function :=
  {| fn_name := "SilKit_ParticipantConfiguration_Destroy";
     fn_params := [("participantConfiguration", KObject)];
     fn_checks := [CkPointer "participantConfiguration" None] |}.
(* SilKit/source/capi/CapiRpc.cpp 57-77 *)
Definition f_RpcServer_Create : capi_function :=
  {| fn_name := "SilKit_RpcServer_Create";
     fn_params := [("out", KOut); ("participant", KObject); ("controllerName", KString); ("rpcSpec", KStruct "SilKit_RpcSpec"); ("context", KContext); ("callHandler", KHandler)];
     fn_checks := [CkOut "out" None; CkPointer "participant" None; CkPointer "controllerName" None; CkPointer "rpcSpec" None; CkHandler "callHandler" None] |}.
(* SilKit/source/capi/CapiRpc.cpp 80-93 *)
Definition f_RpcServer_SubmitResult : capi_function :=
  {| fn_name := "SilKit_RpcServer_SubmitResult";
     fn_params := [("self", KObject); ("callHandle", KObject); ("returnData", KVector)];
     fn_checks := [CkPointer "self" None; CkPointer "callHandle" None; CkPointer "returnData" None] |}.
(* SilKit/source/capi/CapiRpc.cpp 96-107 *)
Definition f_RpcServer_SetCallHandler : capi_function :=
  {| fn_name := "SilKit_RpcServer_SetCallHandler";
     fn_params := [("self", KObject); ("context", KContext); ("handler", KHandler)];
     fn_checks := [CkPointer "self" None; CkPointer "handler" None] |}.
(* SilKit/source/capi/CapiRpc.cpp 110-130 *)
Definition f_RpcClient_Create : capi_function :=
  {| fn_name := "SilKit_RpcClient_Create";
     fn_params := [("out", KOut); ("participant", KObject); ("controllerName", KString); ("rpcSpec", KStruct "SilKit_RpcSpec"); ("context", KContext); ("resultHandler", KHandler)];
     fn_checks := [CkOut "out" None; CkPointer "participant" None; CkPointer "controllerName" None; CkPointer "rpcSpec" None; CkHandler "resultHandler" None] |}.
(* SilKit/source/capi/CapiRpc.cpp 133-144 *)
Definition f_RpcClient_Call : capi_function :=
  {| fn_name := "SilKit_RpcClient_Call";
     fn_params := [("self", KObject); ("argumentData", KVector); ("userContext", KContext)];
     fn_checks := [CkPointer "self" None; CkPointer "argumentData" None] |}.
(* SilKit/source/capi/CapiRpc.cpp 146-158 *)
Definition f_RpcClient_CallWithTimeout : capi_function :=
  {| fn_name := "SilKit_RpcClient_CallWithTimeout";
     fn_params := [("self", KObject); ("argumentData", KVector); ("duration", KValue); ("userContext", KContext)];
     fn_checks := [CkPointer "self" None; CkPointer "argumentData" None] |}.
(* SilKit/source/capi/CapiRpc.cpp 161-172 *)
Definition f_RpcClient_SetCallResultHandler : capi_function :=
  {| fn_name := "SilKit_RpcClient_SetCallResultHandler";
     fn_params := [("self", KObject); ("context", KContext); ("handler", KHandler)];
     fn_checks := [CkPointer "self" None; CkPointer "handler" None] |}.
(* SilKit/source/capi/CapiVendor.cpp 20-47 *)
Definition f_Vendor_Vector_SilKitRegistry_Create : capi_function :=
  {| fn_name := "SilKit_Vendor_Vector_SilKitRegistry_Create";
     fn_params := [("outSilKitRegistry", KOut); ("participantConfiguration", KObject)];
     fn_checks := [CkOut "outSilKitRegistry" None; CkPointer "participantConfiguration" None] |}.
(* SilKit/source/capi/CapiVendor.cpp 50-61 *)
Definition f_Vendor_Vector_SilKitRegistry_Destroy : capi_function :=
  {| fn_name := "SilKit_Vendor_Vector_SilKitRegistry_Destroy";
     fn_params := [("cSilKitRegistry", KObject)];
     fn_checks := [CkPointer "cSilKitRegistry" None] |}.
(* SilKit/source/capi/CapiVendor.cpp 64-79 *)
Definition f_Vendor_Vector_SilKitRegistry_SetAllDisconnectedHandler : capi_function :=
  {| fn_name := "SilKit_Vendor_Vector_SilKitRegistry_SetAllDisconnectedHandler";
     fn_params := [("cSilKitRegistry", KObject); ("context", KContext); ("handler", KHandler)];
     fn_checks := [CkPointer "cSilKitRegistry" None; CkHandler "handler" None] |}.
(* SilKit/source/capi/CapiVendor.cpp 82-95 *)
Definition f_Vendor_Vector_SilKitRegistry_GetLogger : capi_function :=
  {| fn_name := "SilKit_Vendor_Vector_SilKitRegistry_GetLogger";
     fn_params := [("outLogger", KOut); ("cSilKitRegistry", KObject)];
     fn_checks := [CkOut "outLogger" None; CkPointer "cSilKitRegistry" None] |}.
(* SilKit/source/capi/CapiVendor.cpp 98-115 *)
Definition f_Vendor_Vector_SilKitRegistry_StartListening : capi_function :=
  {| fn_name := "SilKit_Vendor_Vector_SilKitRegistry_StartListening";
     fn_params := [("cSilKitRegistry", KObject); ("listenUri", KString); ("outRegistryUri", KOut)];
     fn_checks := [CkPointer "cSilKitRegistry" None; CkPointer "listenUri" None; CkOut "outRegistryUri" None] |}.
(* SilKit/source/capi/CapiVersion.cpp 10-18 *)
Definition f_Version_Major : capi_function :=
  {| fn_name := "SilKit_Version_Major";
     fn_params := [("outVersionMajor", KOut)];
     fn_checks := [CkOut "outVersionMajor" None] |}.
(* SilKit/source/capi/CapiVersion.cpp 21-29 *)
Definition f_Version_Minor : capi_function :=
  {| fn_name := "SilKit_Version_Minor";
     fn_params := [("outVersionMinor", KOut)];
     fn_checks := [CkOut "outVersionMinor" None] |}.
(* SilKit/source/capi/CapiVersion.cpp 32-40 *)
Definition f_Version_Patch : capi_function :=
  {| fn_name := "SilKit_Version_Patch";
     fn_params := [("outVersionPatch", KOut)];
     fn_checks := [CkOut "outVersionPatch" None] |}.
(* SilKit/source/capi/CapiVersion.cpp 43-51 *)
Definition f_Version_BuildNumber : capi_function :=
  {| fn_name := "SilKit_Version_BuildNumber";
     fn_params := [("outVersionBuildNumber", KOut)];
     fn_checks := [CkOut "outVersionBuildNumber" None] |}.
(* SilKit/source/capi/CapiVersion.cpp 54-62 *)
Definition f_Version_String : capi_function :=
  {| fn_name := "SilKit_Version_String";
     fn_params := [("outVersionString", KOut)];
     fn_checks := [CkOut "outVersionString" None] |}.
(* SilKit/source/capi/CapiVersion.cpp 65-73 *)
Definition f_Version_VersionSuffix : capi_function :=
  {| fn_name := "SilKit_Version_VersionSuffix";
     fn_params := [("outVersionSuffix", KOut)];
     fn_checks := [CkOut "outVersionSuffix" None] |}.
(* SilKit/source/capi/CapiVersion.cpp 76-84 *)
Definition f_Version_GitHash : capi_function :=
  {| fn_name := "SilKit_Version_GitHash";
     fn_params := [("outVersionGitHash", KOut)];
     fn_checks := [CkOut "outVersionGitHash" None] |}.
Definition capi : list capi_function :=
  [f_CanController_Create;
   f_CanController_AddFrameHandler;
   f_CanController_RemoveFrameHandler;
   f_CanController_AddFrameTransmitHandler;
   f_CanController_RemoveFrameTransmitHandler;
   f_CanController_AddStateChangeHandler;
   f_CanController_RemoveStateChangeHandler;
   f_CanController_AddErrorStateChangeHandler;
   f_CanController_RemoveErrorStateChangeHandler;
   f_CanController_SetBaudRate;
   f_CanController_SendFrame;
   f_CanController_Start;
   f_CanController_Stop;
   f_CanController_Reset;
   f_CanController_Sleep;
   f_DataPublisher_Create;
   f_DataPublisher_Publish;
   f_DataSubscriber_Create;
   f_DataSubscriber_SetDataMessageHandler;
   f_EthernetController_Create;
   f_EthernetController_Activate;
   f_EthernetController_Deactivate;
   f_EthernetController_AddFrameHandler;
   f_EthernetController_RemoveFrameHandler;
   f_EthernetController_AddFrameTransmitHandler;
   f_EthernetController_RemoveFrameTransmitHandler;
   f_EthernetController_AddStateChangeHandler;
   f_EthernetController_RemoveStateChangeHandler;
   f_EthernetController_AddBitrateChangeHandler;
   f_EthernetController_RemoveBitrateChangeHandler;
   f_EthernetController_SendFrame;
   f_FlexrayController_Create;
   f_FlexrayController_Configure;
   f_FlexrayController_ReconfigureTxBuffer;
   f_FlexrayController_UpdateTxBuffer;
   f_FlexrayController_ExecuteCmd;
   f_FlexrayController_AddFrameHandler;
   f_FlexrayController_RemoveFrameHandler;
   f_FlexrayController_AddFrameTransmitHandler;
   f_FlexrayController_RemoveFrameTransmitHandler;
   f_FlexrayController_AddWakeupHandler;
   f_FlexrayController_RemoveWakeupHandler;
   f_FlexrayController_AddPocStatusHandler;
   f_FlexrayController_RemovePocStatusHandler;
   f_FlexrayController_AddSymbolHandler;
   f_FlexrayController_RemoveSymbolHandler;
   f_FlexrayController_AddSymbolTransmitHandler;
   f_FlexrayController_RemoveSymbolTransmitHandler;
   f_FlexrayController_AddCycleStartHandler;
   f_FlexrayController_RemoveCycleStartHandler;
   f_LinController_Create;
   f_LinController_Init;
   f_LinController_SetFrameResponse;
   f_LinController_Status;
   f_LinController_SendFrame;
   f_LinController_SendFrameHeader;
   f_LinController_UpdateTxBuffer;
   f_LinController_GoToSleep;
   f_LinController_GoToSleepInternal;
   f_LinController_Wakeup;
   f_LinController_WakeupInternal;
   f_Experimental_LinController_GetSlaveConfiguration;
   f_LinController_AddFrameStatusHandler;
   f_LinController_RemoveFrameStatusHandler;
   f_LinController_AddGoToSleepHandler;
   f_LinController_RemoveGoToSleepHandler;
   f_LinController_AddWakeupHandler;
   f_LinController_RemoveWakeupHandler;
   f_Experimental_LinController_AddLinSlaveConfigurationHandler;
   f_Experimental_LinController_RemoveLinSlaveConfigurationHandler;
   f_Experimental_LinController_InitDynamic;
   f_Experimental_LinController_AddFrameHeaderHandler;
   f_Experimental_LinController_RemoveFrameHeaderHandler;
   f_Experimental_LinController_SendDynamicResponse;
   f_Logger_Log;
   f_Logger_GetLogLevel;
   f_Experimental_NetworkSimulator_Create;
   f_Experimental_NetworkSimulator_SimulateNetwork;
   f_Experimental_NetworkSimulator_Start;
   f_Experimental_CanEventProducer_Produce;
   f_Experimental_FlexRayEventProducer_Produce;
   f_Experimental_EthernetEventProducer_Produce;
   f_Experimental_LinEventProducer_Produce;
   f_SystemMonitor_Create;
   f_LifecycleService_Create;
   f_TimeSyncService_Create;
   f_LifecycleService_SetCommunicationReadyHandler;
   f_LifecycleService_SetCommunicationReadyHandlerAsync;
   f_LifecycleService_CompleteCommunicationReadyHandlerAsync;
   f_LifecycleService_SetStartingHandler;
   f_LifecycleService_SetStopHandler;
   f_LifecycleService_SetShutdownHandler;
   f_LifecycleService_SetAbortHandler;
   f_LifecycleService_StartLifecycle;
   f_LifecycleService_WaitForLifecycleToComplete;
   f_LifecycleService_ReportError;
   f_LifecycleService_State;
   f_LifecycleService_Status;
   f_TimeSyncService_SetSimulationStepHandler;
   f_TimeSyncService_SetSimulationStepHandlerAsync;
   f_TimeSyncService_CompleteSimulationStep;
   f_TimeSyncService_Now;
   f_LifecycleService_Pause;
   f_LifecycleService_Continue;
   f_LifecycleService_Stop;
   f_SystemMonitor_GetParticipantStatus;
   f_SystemMonitor_GetSystemState;
   f_SystemMonitor_AddSystemStateHandler;
   f_SystemMonitor_RemoveSystemStateHandler;
   f_SystemMonitor_AddParticipantStatusHandler;
   f_SystemMonitor_RemoveParticipantStatusHandler;
   f_SystemMonitor_SetParticipantConnectedHandler;
   f_SystemMonitor_SetParticipantDisconnectedHandler;
   f_SystemMonitor_IsParticipantConnected;
   f_Experimental_SystemController_Create;
   f_Experimental_SystemController_AbortSimulation;
   f_Experimental_SystemController_SetWorkflowConfiguration;
   f_Experimental_TimeSyncService_AddOtherSimulationStepsCompletedHandler;
   f_Experimental_TimeSyncService_RemoveOtherSimulationStepsCompletedHandler;
   f_Participant_Create;
   f_Participant_Destroy;
   f_Participant_GetLogger;
   f_ParticipantConfiguration_FromString;
   f_ParticipantConfiguration_FromFile;
   f_ParticipantConfiguration_ToJson;
   f_ParticipantConfiguration_Destroy;
   f_RpcServer_Create;
   f_RpcServer_SubmitResult;
   f_RpcServer_SetCallHandler;
   f_RpcClient_Create;
   f_RpcClient_Call;
   f_RpcClient_CallWithTimeout;
   f_RpcClient_SetCallResultHandler;
   f_Vendor_Vector_SilKitRegistry_Create;
   f_Vendor_Vector_SilKitRegistry_Destroy;
   f_Vendor_Vector_SilKitRegistry_SetAllDisconnectedHandler;
   f_Vendor_Vector_SilKitRegistry_GetLogger;
   f_Vendor_Vector_SilKitRegistry_StartListening;
   f_Version_Major;
   f_Version_Minor;
   f_Version_Patch;
   f_Version_BuildNumber;
   f_Version_String;
   f_Version_VersionSuffix;
   f_Version_GitHash].
