From Coq Require Import String Ascii NArith ZArith List Bool.
From Verif Require Import Base TextModel YamlModel.
Import ListNotations.
Open Scope string_scope.
Open Scope list_scope.

(** Model of config/YamlValidator.cpp: the check of a document against the known elements. Documents that begin with "---", and the locations
    and wording of the warnings are not modelled; an exception of the library while parsing is not either. *)

(** 72-387, schemaPaths_v1 *)
Definition schema : list string :=
  ["/$schema"; "/CanControllers"; "/CanControllers/Name"; "/CanControllers/Network"; "/CanControllers/Replay"; "/CanControllers/Replay/Direction";
   "/CanControllers/Replay/MdfChannel"; "/CanControllers/Replay/MdfChannel/ChannelName"; "/CanControllers/Replay/MdfChannel/ChannelPath";
   "/CanControllers/Replay/MdfChannel/ChannelSource"; "/CanControllers/Replay/MdfChannel/GroupName"; "/CanControllers/Replay/MdfChannel/GroupPath";
   "/CanControllers/Replay/MdfChannel/GroupSource"; "/CanControllers/Replay/UseTraceSource"; "/CanControllers/UseTraceSinks"; "/DataPublishers";
   "/DataPublishers/Labels"; "/DataPublishers/Labels/Key"; "/DataPublishers/Labels/Kind"; "/DataPublishers/Labels/Value"; "/DataPublishers/Name";
   "/DataPublishers/Replay"; "/DataPublishers/Replay/Direction"; "/DataPublishers/Replay/MdfChannel"; "/DataPublishers/Replay/MdfChannel/ChannelName";
   "/DataPublishers/Replay/MdfChannel/ChannelPath"; "/DataPublishers/Replay/MdfChannel/ChannelSource"; "/DataPublishers/Replay/MdfChannel/GroupName";
   "/DataPublishers/Replay/MdfChannel/GroupPath"; "/DataPublishers/Replay/MdfChannel/GroupSource"; "/DataPublishers/Replay/UseTraceSource";
   "/DataPublishers/Topic"; "/DataPublishers/History"; "/DataPublishers/UseTraceSinks"; "/DataSubscribers"; "/DataSubscribers/Labels";
   "/DataSubscribers/Labels/Key"; "/DataSubscribers/Labels/Kind"; "/DataSubscribers/Labels/Value"; "/DataSubscribers/Name"; "/DataSubscribers/Replay";
   "/DataSubscribers/Replay/Direction"; "/DataSubscribers/Replay/MdfChannel"; "/DataSubscribers/Replay/MdfChannel/ChannelName";
   "/DataSubscribers/Replay/MdfChannel/ChannelPath"; "/DataSubscribers/Replay/MdfChannel/ChannelSource"; "/DataSubscribers/Replay/MdfChannel/GroupName";
   "/DataSubscribers/Replay/MdfChannel/GroupPath"; "/DataSubscribers/Replay/MdfChannel/GroupSource"; "/DataSubscribers/Replay/UseTraceSource";
   "/DataSubscribers/Topic"; "/DataSubscribers/UseTraceSinks"; "/Description"; "/EthernetControllers"; "/EthernetControllers/Name";
   "/EthernetControllers/Network"; "/EthernetControllers/Replay"; "/EthernetControllers/Replay/Direction"; "/EthernetControllers/Replay/MdfChannel";
   "/EthernetControllers/Replay/MdfChannel/ChannelName"; "/EthernetControllers/Replay/MdfChannel/ChannelPath";
   "/EthernetControllers/Replay/MdfChannel/ChannelSource"; "/EthernetControllers/Replay/MdfChannel/GroupName";
   "/EthernetControllers/Replay/MdfChannel/GroupPath"; "/EthernetControllers/Replay/MdfChannel/GroupSource"; "/EthernetControllers/Replay/UseTraceSource";
   "/EthernetControllers/UseTraceSinks"; "/Experimental"; "/Experimental/Metrics"; "/Experimental/Metrics/CollectFromRemote"; "/Experimental/Metrics/Sinks";
   "/Experimental/Metrics/Sinks/Name"; "/Experimental/Metrics/Sinks/Type"; "/Experimental/Metrics/UpdateInterval"; "/Experimental/TimeSynchronization";
   "/Experimental/TimeSynchronization/AnimationFactor"; "/Experimental/TimeSynchronization/DynamicSimulationStep";
   "/Experimental/TimeSynchronization/EnableMessageAggregation"; "/Extensions"; "/Extensions/SearchPathHints"; "/FlexrayControllers"; "/FlexRayControllers";
   "/FlexrayControllers/ClusterParameters"; "/FlexRayControllers/ClusterParameters"; "/FlexrayControllers/ClusterParameters/gColdstartAttempts";
   "/FlexRayControllers/ClusterParameters/gColdstartAttempts"; "/FlexrayControllers/ClusterParameters/gCycleCountMax";
   "/FlexRayControllers/ClusterParameters/gCycleCountMax"; "/FlexrayControllers/ClusterParameters/gdActionPointOffset";
   "/FlexRayControllers/ClusterParameters/gdActionPointOffset"; "/FlexrayControllers/ClusterParameters/gdDynamicSlotIdlePhase";
   "/FlexRayControllers/ClusterParameters/gdDynamicSlotIdlePhase"; "/FlexrayControllers/ClusterParameters/gdMiniSlot";
   "/FlexRayControllers/ClusterParameters/gdMiniSlot"; "/FlexrayControllers/ClusterParameters/gdMiniSlotActionPointOffset";
   "/FlexRayControllers/ClusterParameters/gdMiniSlotActionPointOffset"; "/FlexrayControllers/ClusterParameters/gdStaticSlot";
   "/FlexRayControllers/ClusterParameters/gdStaticSlot"; "/FlexrayControllers/ClusterParameters/gdSymbolWindow";
   "/FlexRayControllers/ClusterParameters/gdSymbolWindow"; "/FlexrayControllers/ClusterParameters/gdSymbolWindowActionPointOffset";
   "/FlexRayControllers/ClusterParameters/gdSymbolWindowActionPointOffset"; "/FlexrayControllers/ClusterParameters/gdTSSTransmitter";
   "/FlexRayControllers/ClusterParameters/gdTSSTransmitter"; "/FlexrayControllers/ClusterParameters/gdWakeupTxActive";
   "/FlexRayControllers/ClusterParameters/gdWakeupTxActive"; "/FlexrayControllers/ClusterParameters/gdWakeupTxIdle";
   "/FlexRayControllers/ClusterParameters/gdWakeupTxIdle"; "/FlexrayControllers/ClusterParameters/gListenNoise";
   "/FlexRayControllers/ClusterParameters/gListenNoise"; "/FlexrayControllers/ClusterParameters/gMacroPerCycle";
   "/FlexRayControllers/ClusterParameters/gMacroPerCycle"; "/FlexrayControllers/ClusterParameters/gMaxWithoutClockCorrectionFatal";
   "/FlexRayControllers/ClusterParameters/gMaxWithoutClockCorrectionFatal"; "/FlexrayControllers/ClusterParameters/gMaxWithoutClockCorrectionPassive";
   "/FlexRayControllers/ClusterParameters/gMaxWithoutClockCorrectionPassive"; "/FlexrayControllers/ClusterParameters/gNumberOfMiniSlots";
   "/FlexRayControllers/ClusterParameters/gNumberOfMiniSlots"; "/FlexrayControllers/ClusterParameters/gNumberOfStaticSlots";
   "/FlexRayControllers/ClusterParameters/gNumberOfStaticSlots"; "/FlexrayControllers/ClusterParameters/gPayloadLengthStatic";
   "/FlexRayControllers/ClusterParameters/gPayloadLengthStatic"; "/FlexrayControllers/ClusterParameters/gSyncFrameIDCountMax";
   "/FlexRayControllers/ClusterParameters/gSyncFrameIDCountMax"; "/FlexrayControllers/Name"; "/FlexRayControllers/Name"; "/FlexrayControllers/Network";
   "/FlexRayControllers/Network"; "/FlexrayControllers/NodeParameters"; "/FlexRayControllers/NodeParameters";
   "/FlexrayControllers/NodeParameters/pAllowHaltDueToClock"; "/FlexRayControllers/NodeParameters/pAllowHaltDueToClock";
   "/FlexrayControllers/NodeParameters/pAllowPassiveToActive"; "/FlexRayControllers/NodeParameters/pAllowPassiveToActive";
   "/FlexrayControllers/NodeParameters/pChannels"; "/FlexRayControllers/NodeParameters/pChannels"; "/FlexrayControllers/NodeParameters/pClusterDriftDamping";
   "/FlexRayControllers/NodeParameters/pClusterDriftDamping"; "/FlexrayControllers/NodeParameters/pdAcceptedStartupRange";
   "/FlexRayControllers/NodeParameters/pdAcceptedStartupRange"; "/FlexrayControllers/NodeParameters/pdListenTimeout";
   "/FlexRayControllers/NodeParameters/pdListenTimeout"; "/FlexrayControllers/NodeParameters/pdMicrotick"; "/FlexRayControllers/NodeParameters/pdMicrotick";
   "/FlexrayControllers/NodeParameters/pKeySlotId"; "/FlexRayControllers/NodeParameters/pKeySlotId";
   "/FlexrayControllers/NodeParameters/pKeySlotOnlyEnabled"; "/FlexRayControllers/NodeParameters/pKeySlotOnlyEnabled";
   "/FlexrayControllers/NodeParameters/pKeySlotUsedForStartup"; "/FlexRayControllers/NodeParameters/pKeySlotUsedForStartup";
   "/FlexrayControllers/NodeParameters/pKeySlotUsedForSync"; "/FlexRayControllers/NodeParameters/pKeySlotUsedForSync";
   "/FlexrayControllers/NodeParameters/pLatestTx"; "/FlexRayControllers/NodeParameters/pLatestTx"; "/FlexrayControllers/NodeParameters/pMacroInitialOffsetA";
   "/FlexRayControllers/NodeParameters/pMacroInitialOffsetA"; "/FlexrayControllers/NodeParameters/pMacroInitialOffsetB";
   "/FlexRayControllers/NodeParameters/pMacroInitialOffsetB"; "/FlexrayControllers/NodeParameters/pMicroInitialOffsetA";
   "/FlexRayControllers/NodeParameters/pMicroInitialOffsetA"; "/FlexrayControllers/NodeParameters/pMicroInitialOffsetB";
   "/FlexRayControllers/NodeParameters/pMicroInitialOffsetB"; "/FlexrayControllers/NodeParameters/pMicroPerCycle";
   "/FlexRayControllers/NodeParameters/pMicroPerCycle"; "/FlexrayControllers/NodeParameters/pOffsetCorrectionOut";
   "/FlexRayControllers/NodeParameters/pOffsetCorrectionOut"; "/FlexrayControllers/NodeParameters/pOffsetCorrectionStart";
   "/FlexRayControllers/NodeParameters/pOffsetCorrectionStart"; "/FlexrayControllers/NodeParameters/pRateCorrectionOut";
   "/FlexRayControllers/NodeParameters/pRateCorrectionOut"; "/FlexrayControllers/NodeParameters/pSamplesPerMicrotick";
   "/FlexRayControllers/NodeParameters/pSamplesPerMicrotick"; "/FlexrayControllers/NodeParameters/pWakeupChannel";
   "/FlexRayControllers/NodeParameters/pWakeupChannel"; "/FlexrayControllers/NodeParameters/pWakeupPattern";
   "/FlexRayControllers/NodeParameters/pWakeupPattern"; "/FlexrayControllers/NodeParameters/pSecondKeySlotId";
   "/FlexRayControllers/NodeParameters/pSecondKeySlotId"; "/FlexrayControllers/NodeParameters/pTwoKeySlotMode";
   "/FlexRayControllers/NodeParameters/pTwoKeySlotMode"; "/FlexrayControllers/Replay"; "/FlexRayControllers/Replay"; "/FlexrayControllers/Replay/Direction";
   "/FlexRayControllers/Replay/Direction"; "/FlexrayControllers/Replay/MdfChannel"; "/FlexRayControllers/Replay/MdfChannel";
   "/FlexrayControllers/Replay/MdfChannel/ChannelName"; "/FlexRayControllers/Replay/MdfChannel/ChannelName";
   "/FlexrayControllers/Replay/MdfChannel/ChannelPath"; "/FlexRayControllers/Replay/MdfChannel/ChannelPath";
   "/FlexrayControllers/Replay/MdfChannel/ChannelSource"; "/FlexRayControllers/Replay/MdfChannel/ChannelSource";
   "/FlexrayControllers/Replay/MdfChannel/GroupName"; "/FlexRayControllers/Replay/MdfChannel/GroupName"; "/FlexrayControllers/Replay/MdfChannel/GroupPath";
   "/FlexRayControllers/Replay/MdfChannel/GroupPath"; "/FlexrayControllers/Replay/MdfChannel/GroupSource";
   "/FlexRayControllers/Replay/MdfChannel/GroupSource"; "/FlexrayControllers/Replay/UseTraceSource"; "/FlexRayControllers/Replay/UseTraceSource";
   "/FlexrayControllers/TxBufferConfigurations"; "/FlexRayControllers/TxBufferConfigurations"; "/FlexrayControllers/TxBufferConfigurations/channels";
   "/FlexRayControllers/TxBufferConfigurations/channels"; "/FlexrayControllers/TxBufferConfigurations/headerCrc";
   "/FlexRayControllers/TxBufferConfigurations/headerCrc"; "/FlexrayControllers/TxBufferConfigurations/offset";
   "/FlexRayControllers/TxBufferConfigurations/offset"; "/FlexrayControllers/TxBufferConfigurations/PPindicator";
   "/FlexRayControllers/TxBufferConfigurations/PPindicator"; "/FlexrayControllers/TxBufferConfigurations/repetition";
   "/FlexRayControllers/TxBufferConfigurations/repetition"; "/FlexrayControllers/TxBufferConfigurations/slotId";
   "/FlexRayControllers/TxBufferConfigurations/slotId"; "/FlexrayControllers/TxBufferConfigurations/transmissionMode";
   "/FlexRayControllers/TxBufferConfigurations/transmissionMode"; "/FlexrayControllers/UseTraceSinks"; "/FlexRayControllers/UseTraceSinks"; "/HealthCheck";
   "/HealthCheck/HardResponseTimeout"; "/HealthCheck/SoftResponseTimeout"; "/Includes"; "/Includes/Files"; "/Includes/SearchPathHints"; "/LinControllers";
   "/LinControllers/Name"; "/LinControllers/Network"; "/LinControllers/Replay"; "/LinControllers/Replay/Direction"; "/LinControllers/Replay/MdfChannel";
   "/LinControllers/Replay/MdfChannel/ChannelName"; "/LinControllers/Replay/MdfChannel/ChannelPath"; "/LinControllers/Replay/MdfChannel/ChannelSource";
   "/LinControllers/Replay/MdfChannel/GroupName"; "/LinControllers/Replay/MdfChannel/GroupPath"; "/LinControllers/Replay/MdfChannel/GroupSource";
   "/LinControllers/Replay/UseTraceSource"; "/LinControllers/UseTraceSinks"; "/Logging"; "/Logging/FlushLevel"; "/Logging/LogFromRemotes"; "/Logging/Sinks";
   "/Logging/Sinks/Format"; "/Logging/Sinks/Level"; "/Logging/Sinks/LogName"; "/Logging/Sinks/Type"; "/Logging/Sinks/Experimental";
   "/Logging/Sinks/Experimental/EnabledTopics"; "/Logging/Sinks/Experimental/DisabledTopics"; "/Middleware"; "/Middleware/AcceptorUris";
   "/Middleware/ConnectAttempts"; "/Middleware/ConnectTimeoutSeconds"; "/Middleware/EnableDomainSockets";
   "/Middleware/ExperimentalRemoteParticipantConnection"; "/Middleware/RegistryAsFallbackProxy"; "/Middleware/RegistryUri"; "/Middleware/TcpNoDelay";
   "/Middleware/TcpQuickAck"; "/Middleware/TcpReceiveBufferSize"; "/Middleware/TcpSendBufferSize"; "/ParticipantName"; "/RpcClients"; "/RpcClients/Channel";
   "/RpcClients/FunctionName"; "/RpcClients/RpcChannel"; "/RpcClients/Labels"; "/RpcClients/Labels/Key"; "/RpcClients/Labels/Kind";
   "/RpcClients/Labels/Value"; "/RpcClients/Name"; "/RpcClients/Replay"; "/RpcClients/Replay/Direction"; "/RpcClients/Replay/MdfChannel";
   "/RpcClients/Replay/MdfChannel/ChannelName"; "/RpcClients/Replay/MdfChannel/ChannelPath"; "/RpcClients/Replay/MdfChannel/ChannelSource";
   "/RpcClients/Replay/MdfChannel/GroupName"; "/RpcClients/Replay/MdfChannel/GroupPath"; "/RpcClients/Replay/MdfChannel/GroupSource";
   "/RpcClients/Replay/UseTraceSource"; "/RpcClients/UseTraceSinks"; "/RpcServers"; "/RpcServers/Channel"; "/RpcServers/FunctionName";
   "/RpcServers/RpcChannel"; "/RpcServers/Labels"; "/RpcServers/Labels/Key"; "/RpcServers/Labels/Kind"; "/RpcServers/Labels/Value"; "/RpcServers/Name";
   "/RpcServers/Replay"; "/RpcServers/Replay/Direction"; "/RpcServers/Replay/MdfChannel"; "/RpcServers/Replay/MdfChannel/ChannelName";
   "/RpcServers/Replay/MdfChannel/ChannelPath"; "/RpcServers/Replay/MdfChannel/ChannelSource"; "/RpcServers/Replay/MdfChannel/GroupName";
   "/RpcServers/Replay/MdfChannel/GroupPath"; "/RpcServers/Replay/MdfChannel/GroupSource"; "/RpcServers/Replay/UseTraceSource"; "/RpcServers/UseTraceSinks";
   "/schemaVersion"; "/SchemaVersion"; "/Tracing"; "/Tracing/TraceSinks"; "/Tracing/TraceSinks/Name"; "/Tracing/TraceSinks/OutputPath";
   "/Tracing/TraceSinks/Type"; "/Tracing/TraceSources"; "/Tracing/TraceSources/InputPath"; "/Tracing/TraceSources/Name"; "/Tracing/TraceSources/Type"].
(** 458-461, IsSchemaPath *)
Definition is_schema_path (p : string) : bool := existsb (String.eqb p) schema.
(** 53-68, splitString with the delimiter "/" *)
Fixpoint split (s : string) : list string :=
  match s with
  | EmptyString => [EmptyString]
  | String c r => if Ascii.eqb c "/" then EmptyString :: split r
                  else match split r with [] => [String c EmptyString] | w :: ws => String c w :: ws end
  end.
(** 391 and 440-456, the cache: a set of all components *)
Definition reserved_names : list string := flat_map split schema.
(** 414-422, ElementName: what follows the last "/" *)
Definition element_name (s : string) : string := last (split s) EmptyString.
(** 440-456, IsReservedElementName *)
Definition is_reserved (path : string) : bool := existsb (String.eqb (element_name path)) reserved_names.
(** 393, 424-438, MakePath *)
Definition make_path (parent name : string) : string :=
  if String.eqb name "" then parent else if String.eqb parent "/" then append "/" name else append parent (append "/" name).

(** 465-611, ValidatingVisitor. A warning is its kind, the element and the path of the parent. [v_ub] is set when [back] is taken of an empty deque. *)
Inductive wkind := WDuplicate | WNotValid | WIgnored | WValue.
Definition warning := (wkind * string * string)%type.
Record vst := mkV { v_cur : string; v_paths : list string; v_ok : bool; v_warn : list warning; v_ub : bool }.
(** 475-482; the back of the deque is the head of the list *)
Definition v_init : vst := mkV "/" ["/"] true [] false.
Definition error (w : warning) (s : vst) : vst := mkV (v_cur s) (v_paths s) false (v_warn s ++ [w]) (v_ub s).
Definition warn (w : warning) (s : vst) : vst := mkV (v_cur s) (v_paths s) (v_ok s) (v_warn s ++ [w]) (v_ub s).
(** 509-528: the keys of the children of a map *)
Fixpoint duplicates (seen ks : list string) (s : vst) : vst :=
  match ks with
  | [] => s
  | k :: ks => if existsb (String.eqb k) seen then duplicates seen ks (error (WDuplicate, k, v_cur s) s) else duplicates (k :: seen) ks s
  end.
(** 504-538, push *)
Definition push (key : option string) (n : node) (s : vst) : vst :=
  let s := match n with NMap l => duplicates [] (map fst l) s | _ => s end in
  match key with
  | None => s
  | Some k => let p := make_path (v_cur s) k in mkV p (p :: v_paths s) (v_ok s) (v_warn s) (v_ub s)
  end.
(** 540-548, pop *)
Definition pop (key : option string) (s : vst) : vst :=
  match key with
  | None => s
  | Some _ => match v_paths s with
              | _ :: p :: ps => mkV p (p :: ps) (v_ok s) (v_warn s) (v_ub s)
              | _ => mkV (v_cur s) [] (v_ok s) (v_warn s) true
              end
  end.
(** 550-570, HandleKeyVal *)
Definition handle_keyval (k : string) (s : vst) : vst :=
  let p := make_path (v_cur s) k in
  if is_schema_path p then s
  else if is_reserved p then error (WNotValid, k, v_cur s) s else warn (WIgnored, k, v_cur s) s.
(** 574-584, HandleVal; the value is only part of the message and left out *)
Definition handle_val (s : vst) : vst := if is_schema_path (v_cur s) then s else error (WValue, "", v_cur s) s.
(** 586-605, operator(): a node with a key is a keyval, a map or a sequence; the last branch is for nodes that are none of these *)
Definition handle (key : option string) (n : node) (s : vst) : vst :=
  match key with
  | Some k => handle_keyval k s
  | None => match n with NMap _ | NSeq _ => s | NNull | NVal _ _ => handle_val s end
  end.
(** 29-51, visit_stacked; operator() always returns false, so no visit is cut short *)
Fixpoint visit (key : option string) (n : node) (s : vst) : vst :=
  let s := handle key n s in
  match n with
  | NMap [] | NSeq [] | NNull | NVal _ _ => s
  | NMap l => pop key (fold_left (fun s c => visit (Some (fst c)) (snd c) s) l (push key n s))
  | NSeq l => pop key (fold_left (fun s c => visit None c s) l (push key n s))
  end.
(** 618-664, ValidateWithSchema from the root of the tree on *)
Definition validate (root : node) : bool * list warning :=
  match root with
  | NMap _ | NSeq _ => let s := visit None root v_init in (v_ok s, v_warn s)
  | _ => (true, [])
  end.
(** ParticipantConfigurationFromXImpl.cpp:106-118, Validate, and 667-673, PaticipantConfigurationWithIncludes up to the check of the version *)
Definition load (D : dbl) (root : node) : res pcfg := if fst (validate root) then deserialize D root else Exn.
