(** Model of the message (de)serialisers: all [Serialize]/[Deserialize] pairs (S = /repo/SilKit/source).

    Every record lists the fields in wire order; [ser_X] is [buffer << msg], [des_X] is [buffer >> msg].
    Enums are their underlying integers (values outside of the enumerators are possible on the wire and
    accepted by the code), [bool] is its byte, [void*] its 64-bit value, chrono durations their int64 count,
    [enum class] without underlying type is a 32-bit int. The field types are those of the structs in
    /repo/SilKit/include/silkit/services and S/wire. *)
From Coq Require Import List NArith ZArith Bool String Ascii.
From Verif Require Import Base MessageBufferModel.
Import ListNotations.
Local Open Scope list_scope.
Local Open Scope N_scope.
Local Open Scope mb_scope.

(** S/services/can/CanSerdes.cpp 14-26 (WireCanFrameEvent; struct S/wire/can/WireCanMessages.hpp). *)
Record CanFrameEvent := mkCanFrameEvent {
  cfe_timestamp : Z;
  cfe_canId : N;
  cfe_flags : N;
  cfe_dlc : N;
  cfe_sdt : N;
  cfe_vcid : N;
  cfe_af : N;
  cfe_dataField : list N;
  cfe_direction : N;
  cfe_userContext : N }.
Definition ser_CanFrameEvent (m : CanFrameEvent) : W :=
  w_i64 (cfe_timestamp m) ;;
  w_u32 (cfe_canId m) ;;
  w_u32 (cfe_flags m) ;;
  w_u16 (cfe_dlc m) ;;
  w_u8 (cfe_sdt m) ;;
  w_u8 (cfe_vcid m) ;;
  w_u32 (cfe_af m) ;;
  w_bytes (cfe_dataField m) ;;
  w_u8 (cfe_direction m) ;;
  w_u64 (cfe_userContext m).
Definition des_CanFrameEvent : R CanFrameEvent :=
  x_timestamp <- r_i64 ;;
  x_canId <- r_u32 ;;
  x_flags <- r_u32 ;;
  x_dlc <- r_u16 ;;
  x_sdt <- r_u8 ;;
  x_vcid <- r_u8 ;;
  x_af <- r_u32 ;;
  x_dataField <- r_bytes ;;
  x_direction <- r_u8 ;;
  x_userContext <- r_u64 ;;
  r_ret (mkCanFrameEvent x_timestamp x_canId x_flags x_dlc x_sdt x_vcid x_af x_dataField x_direction x_userContext).

(** S/services/can/CanSerdes.cpp 28-38. *)
Record CanFrameTransmitEvent := mkCanFrameTransmitEvent {
  cte_canId : N;
  cte_timestamp : Z;
  cte_status : Z;
  cte_userContext : N }.
Definition ser_CanFrameTransmitEvent (m : CanFrameTransmitEvent) : W :=
  w_u32 (cte_canId m) ;;
  w_i64 (cte_timestamp m) ;;
  w_i32 (cte_status m) ;;
  w_u64 (cte_userContext m).
Definition des_CanFrameTransmitEvent : R CanFrameTransmitEvent :=
  x_canId <- r_u32 ;;
  x_timestamp <- r_i64 ;;
  x_status <- r_i32 ;;
  x_userContext <- r_u64 ;;
  r_ret (mkCanFrameTransmitEvent x_canId x_timestamp x_status x_userContext).

(** S/services/can/CanSerdes.cpp 40-50. *)
Record CanControllerStatus := mkCanControllerStatus {
  ccs_timestamp : Z;
  ccs_controllerState : Z;
  ccs_errorState : Z }.
Definition ser_CanControllerStatus (m : CanControllerStatus) : W :=
  w_i64 (ccs_timestamp m) ;;
  w_i32 (ccs_controllerState m) ;;
  w_i32 (ccs_errorState m).
Definition des_CanControllerStatus : R CanControllerStatus :=
  x_timestamp <- r_i64 ;;
  x_controllerState <- r_i32 ;;
  x_errorState <- r_i32 ;;
  r_ret (mkCanControllerStatus x_timestamp x_controllerState x_errorState).

(** S/services/can/CanSerdes.cpp 52-62. *)
Record CanConfigureBaudrate := mkCanConfigureBaudrate {
  ccb_baudRate : N;
  ccb_fdBaudRate : N;
  ccb_xlBaudRate : N }.
Definition ser_CanConfigureBaudrate (m : CanConfigureBaudrate) : W :=
  w_u32 (ccb_baudRate m) ;;
  w_u32 (ccb_fdBaudRate m) ;;
  w_u32 (ccb_xlBaudRate m).
Definition des_CanConfigureBaudrate : R CanConfigureBaudrate :=
  x_baudRate <- r_u32 ;;
  x_fdBaudRate <- r_u32 ;;
  x_xlBaudRate <- r_u32 ;;
  r_ret (mkCanConfigureBaudrate x_baudRate x_fdBaudRate x_xlBaudRate).

(** S/services/lin/LinSerdes.cpp 12-21. *)
Record LinFrame := mkLinFrame {
  lf_id : N;
  lf_checksumModel : N;
  lf_dataLength : N;
  lf_data : list N }.
Definition ser_LinFrame (m : LinFrame) : W :=
  w_u8 (lf_id m) ;;
  w_u8 (lf_checksumModel m) ;;
  w_u8 (lf_dataLength m) ;;
  w_bytearray (lf_data m).
Definition des_LinFrame : R LinFrame :=
  x_id <- r_u8 ;;
  x_checksumModel <- r_u8 ;;
  x_dataLength <- r_u8 ;;
  x_data <- r_bytearray 8 ;;
  r_ret (mkLinFrame x_id x_checksumModel x_dataLength x_data).

(** S/services/lin/LinSerdes.cpp 23-32. *)
Record LinSendFrameRequest := mkLinSendFrameRequest {
  lsr_frame : LinFrame;
  lsr_responseType : N }.
Definition ser_LinSendFrameRequest (m : LinSendFrameRequest) : W :=
  ser_LinFrame (lsr_frame m) ;;
  w_u8 (lsr_responseType m).
Definition des_LinSendFrameRequest : R LinSendFrameRequest :=
  x_frame <- des_LinFrame ;;
  x_responseType <- r_u8 ;;
  r_ret (mkLinSendFrameRequest x_frame x_responseType).

(** S/services/lin/LinSerdes.cpp 34-43. *)
Record LinSendFrameHeaderRequest := mkLinSendFrameHeaderRequest {
  lsh_timestamp : Z;
  lsh_id : N }.
Definition ser_LinSendFrameHeaderRequest (m : LinSendFrameHeaderRequest) : W :=
  w_i64 (lsh_timestamp m) ;;
  w_u8 (lsh_id m).
Definition des_LinSendFrameHeaderRequest : R LinSendFrameHeaderRequest :=
  x_timestamp <- r_i64 ;;
  x_id <- r_u8 ;;
  r_ret (mkLinSendFrameHeaderRequest x_timestamp x_id).

(** S/services/lin/LinSerdes.cpp 45-54. *)
Record LinTransmission := mkLinTransmission {
  lt_timestamp : Z;
  lt_frame : LinFrame;
  lt_status : N }.
Definition ser_LinTransmission (m : LinTransmission) : W :=
  w_i64 (lt_timestamp m) ;;
  ser_LinFrame (lt_frame m) ;;
  w_u8 (lt_status m).
Definition des_LinTransmission : R LinTransmission :=
  x_timestamp <- r_i64 ;;
  x_frame <- des_LinFrame ;;
  x_status <- r_u8 ;;
  r_ret (mkLinTransmission x_timestamp x_frame x_status).

(** S/services/lin/LinSerdes.cpp 56-65. *)
Record LinWakeupPulse := mkLinWakeupPulse {
  lwp_timestamp : Z;
  lwp_direction : N }.
Definition ser_LinWakeupPulse (m : LinWakeupPulse) : W :=
  w_i64 (lwp_timestamp m) ;;
  w_u8 (lwp_direction m).
Definition des_LinWakeupPulse : R LinWakeupPulse :=
  x_timestamp <- r_i64 ;;
  x_direction <- r_u8 ;;
  r_ret (mkLinWakeupPulse x_timestamp x_direction).

(** S/services/lin/LinSerdes.cpp 67-76. *)
Record LinFrameResponse := mkLinFrameResponse {
  lfr_frame : LinFrame;
  lfr_responseMode : N }.
Definition ser_LinFrameResponse (m : LinFrameResponse) : W :=
  ser_LinFrame (lfr_frame m) ;;
  w_u8 (lfr_responseMode m).
Definition des_LinFrameResponse : R LinFrameResponse :=
  x_frame <- des_LinFrame ;;
  x_responseMode <- r_u8 ;;
  r_ret (mkLinFrameResponse x_frame x_responseMode).

(** S/services/lin/LinSerdes.cpp 93-102. *)
Record LinControllerStatusUpdate := mkLinControllerStatusUpdate {
  lcs_timestamp : Z;
  lcs_status : N }.
Definition ser_LinControllerStatusUpdate (m : LinControllerStatusUpdate) : W :=
  w_i64 (lcs_timestamp m) ;;
  w_u32 (lcs_status m).
Definition des_LinControllerStatusUpdate : R LinControllerStatusUpdate :=
  x_timestamp <- r_i64 ;;
  x_status <- r_u32 ;;
  r_ret (mkLinControllerStatusUpdate x_timestamp x_status).

(** S/services/lin/LinSerdes.cpp 104-113. *)
Record LinFrameResponseUpdate := mkLinFrameResponseUpdate {
  lfu_frameResponses : list LinFrameResponse }.
Definition ser_LinFrameResponseUpdate (m : LinFrameResponseUpdate) : W :=
  w_vector ser_LinFrameResponse (lfu_frameResponses m).
Definition des_LinFrameResponseUpdate : R LinFrameResponseUpdate :=
  x_frameResponses <- r_vector des_LinFrameResponse ;;
  r_ret (mkLinFrameResponseUpdate x_frameResponses).

(** S/services/ethernet/EthernetSerdes.cpp 11-23 (WireEthernetFrame). *)
Record EthernetFrame := mkEthernetFrame {
  ef_raw : list N }.
Definition ser_EthernetFrame (m : EthernetFrame) : W :=
  w_bytes (ef_raw m).
Definition des_EthernetFrame : R EthernetFrame :=
  x_raw <- r_bytes ;;
  r_ret (mkEthernetFrame x_raw).

(** S/services/ethernet/EthernetSerdes.cpp 25-37. *)
Record EthernetFrameEvent := mkEthernetFrameEvent {
  efe_timestamp : Z;
  efe_frame : EthernetFrame;
  efe_direction : N;
  efe_userContext : N }.
Definition ser_EthernetFrameEvent (m : EthernetFrameEvent) : W :=
  w_i64 (efe_timestamp m) ;;
  ser_EthernetFrame (efe_frame m) ;;
  w_u8 (efe_direction m) ;;
  w_u64 (efe_userContext m).
Definition des_EthernetFrameEvent : R EthernetFrameEvent :=
  x_timestamp <- r_i64 ;;
  x_frame <- des_EthernetFrame ;;
  x_direction <- r_u8 ;;
  x_userContext <- r_u64 ;;
  r_ret (mkEthernetFrameEvent x_timestamp x_frame x_direction x_userContext).

(** S/services/ethernet/EthernetSerdes.cpp 39-50. *)
Record EthernetFrameTransmitEvent := mkEthernetFrameTransmitEvent {
  ete_timestamp : Z;
  ete_status : N;
  ete_userContext : N }.
Definition ser_EthernetFrameTransmitEvent (m : EthernetFrameTransmitEvent) : W :=
  w_i64 (ete_timestamp m) ;;
  w_u32 (ete_status m) ;;
  w_u64 (ete_userContext m).
Definition des_EthernetFrameTransmitEvent : R EthernetFrameTransmitEvent :=
  x_timestamp <- r_i64 ;;
  x_status <- r_u32 ;;
  x_userContext <- r_u64 ;;
  r_ret (mkEthernetFrameTransmitEvent x_timestamp x_status x_userContext).

(** S/services/ethernet/EthernetSerdes.cpp 52-62. *)
Record EthernetStatus := mkEthernetStatus {
  est_timestamp : Z;
  est_state : N;
  est_bitrate : N }.
Definition ser_EthernetStatus (m : EthernetStatus) : W :=
  w_i64 (est_timestamp m) ;;
  w_u32 (est_state m) ;;
  w_u32 (est_bitrate m).
Definition des_EthernetStatus : R EthernetStatus :=
  x_timestamp <- r_i64 ;;
  x_state <- r_u32 ;;
  x_bitrate <- r_u32 ;;
  r_ret (mkEthernetStatus x_timestamp x_state x_bitrate).

(** S/services/ethernet/EthernetSerdes.cpp 64-74. *)
Record EthernetSetMode := mkEthernetSetMode {
  esm_mode : N }.
Definition ser_EthernetSetMode (m : EthernetSetMode) : W :=
  w_u8 (esm_mode m).
Definition des_EthernetSetMode : R EthernetSetMode :=
  x_mode <- r_u8 ;;
  r_ret (mkEthernetSetMode x_mode).

(** S/services/flexray/FlexraySerdes.cpp 13-23. *)
Record FlexrayHeader := mkFlexrayHeader {
  fh_flags : N;
  fh_frameId : N;
  fh_payloadLength : N;
  fh_headerCrc : N;
  fh_cycleCount : N }.
Definition ser_FlexrayHeader (m : FlexrayHeader) : W :=
  w_u8 (fh_flags m) ;;
  w_u16 (fh_frameId m) ;;
  w_u8 (fh_payloadLength m) ;;
  w_u16 (fh_headerCrc m) ;;
  w_u8 (fh_cycleCount m).
Definition des_FlexrayHeader : R FlexrayHeader :=
  x_flags <- r_u8 ;;
  x_frameId <- r_u16 ;;
  x_payloadLength <- r_u8 ;;
  x_headerCrc <- r_u16 ;;
  x_cycleCount <- r_u8 ;;
  r_ret (mkFlexrayHeader x_flags x_frameId x_payloadLength x_headerCrc x_cycleCount).

(** S/services/flexray/FlexraySerdes.cpp 25-35. *)
Record FlexrayFrame := mkFlexrayFrame {
  ff_header : FlexrayHeader;
  ff_payload : list N }.
Definition ser_FlexrayFrame (m : FlexrayFrame) : W :=
  ser_FlexrayHeader (ff_header m) ;;
  w_bytes (ff_payload m).
Definition des_FlexrayFrame : R FlexrayFrame :=
  x_header <- des_FlexrayHeader ;;
  x_payload <- r_bytes ;;
  r_ret (mkFlexrayFrame x_header x_payload).

(** S/services/flexray/FlexraySerdes.cpp 37-47. *)
Record FlexrayFrameEvent := mkFlexrayFrameEvent {
  ffe_timestamp : Z;
  ffe_channel : N;
  ffe_frame : FlexrayFrame }.
Definition ser_FlexrayFrameEvent (m : FlexrayFrameEvent) : W :=
  w_i64 (ffe_timestamp m) ;;
  w_u32 (ffe_channel m) ;;
  ser_FlexrayFrame (ffe_frame m).
Definition des_FlexrayFrameEvent : R FlexrayFrameEvent :=
  x_timestamp <- r_i64 ;;
  x_channel <- r_u32 ;;
  x_frame <- des_FlexrayFrame ;;
  r_ret (mkFlexrayFrameEvent x_timestamp x_channel x_frame).

(** S/services/flexray/FlexraySerdes.cpp 49-60. *)
Record FlexrayFrameTransmitEvent := mkFlexrayFrameTransmitEvent {
  fft_timestamp : Z;
  fft_txBufferIndex : N;
  fft_channel : N;
  fft_frame : FlexrayFrame }.
Definition ser_FlexrayFrameTransmitEvent (m : FlexrayFrameTransmitEvent) : W :=
  w_i64 (fft_timestamp m) ;;
  w_u16 (fft_txBufferIndex m) ;;
  w_u32 (fft_channel m) ;;
  ser_FlexrayFrame (fft_frame m).
Definition des_FlexrayFrameTransmitEvent : R FlexrayFrameTransmitEvent :=
  x_timestamp <- r_i64 ;;
  x_txBufferIndex <- r_u16 ;;
  x_channel <- r_u32 ;;
  x_frame <- des_FlexrayFrame ;;
  r_ret (mkFlexrayFrameTransmitEvent x_timestamp x_txBufferIndex x_channel x_frame).

(** S/services/flexray/FlexraySerdes.cpp 62-72; FlexraySymbolTransmitEvent 74-87 has the same layout. *)
Record FlexraySymbolEvent := mkFlexraySymbolEvent {
  fse_timestamp : Z;
  fse_channel : N;
  fse_pattern : N }.
Definition ser_FlexraySymbolEvent (m : FlexraySymbolEvent) : W :=
  w_i64 (fse_timestamp m) ;;
  w_u32 (fse_channel m) ;;
  w_u8 (fse_pattern m).
Definition des_FlexraySymbolEvent : R FlexraySymbolEvent :=
  x_timestamp <- r_i64 ;;
  x_channel <- r_u32 ;;
  x_pattern <- r_u8 ;;
  r_ret (mkFlexraySymbolEvent x_timestamp x_channel x_pattern).

(** S/services/flexray/FlexraySerdes.cpp 89-101. *)
Record FlexrayCycleStartEvent := mkFlexrayCycleStartEvent {
  fcs_timestamp : Z;
  fcs_cycleCounter : N }.
Definition ser_FlexrayCycleStartEvent (m : FlexrayCycleStartEvent) : W :=
  w_i64 (fcs_timestamp m) ;;
  w_u8 (fcs_cycleCounter m).
Definition des_FlexrayCycleStartEvent : R FlexrayCycleStartEvent :=
  x_timestamp <- r_i64 ;;
  x_cycleCounter <- r_u8 ;;
  r_ret (mkFlexrayCycleStartEvent x_timestamp x_cycleCounter).

(** S/services/flexray/FlexraySerdes.cpp 103-113. *)
Record FlexrayHostCommand := mkFlexrayHostCommand {
  fhc_command : N }.
Definition ser_FlexrayHostCommand (m : FlexrayHostCommand) : W :=
  w_u8 (fhc_command m).
Definition des_FlexrayHostCommand : R FlexrayHostCommand :=
  x_command <- r_u8 ;;
  r_ret (mkFlexrayHostCommand x_command).

(** S/services/flexray/FlexraySerdes.cpp 115-140. *)
Record FlexrayClusterParameters := mkFlexrayClusterParameters {
  fcp_gColdstartAttempts : N;
  fcp_gCycleCountMax : N;
  fcp_gdActionPointOffset : N;
  fcp_gdDynamicSlotIdlePhase : N;
  fcp_gdMiniSlot : N;
  fcp_gdMiniSlotActionPointOffset : N;
  fcp_gdStaticSlot : N;
  fcp_gdSymbolWindow : N;
  fcp_gdSymbolWindowActionPointOffset : N;
  fcp_gdTSSTransmitter : N;
  fcp_gdWakeupTxActive : N;
  fcp_gdWakeupTxIdle : N;
  fcp_gListenNoise : N;
  fcp_gMacroPerCycle : N;
  fcp_gMaxWithoutClockCorrectionFatal : N;
  fcp_gMaxWithoutClockCorrectionPassive : N;
  fcp_gNumberOfMiniSlots : N;
  fcp_gNumberOfStaticSlots : N;
  fcp_gPayloadLengthStatic : N;
  fcp_gSyncFrameIDCountMax : N }.
Definition ser_FlexrayClusterParameters (m : FlexrayClusterParameters) : W :=
  w_u8 (fcp_gColdstartAttempts m) ;;
  w_u8 (fcp_gCycleCountMax m) ;;
  w_u16 (fcp_gdActionPointOffset m) ;;
  w_u16 (fcp_gdDynamicSlotIdlePhase m) ;;
  w_u16 (fcp_gdMiniSlot m) ;;
  w_u16 (fcp_gdMiniSlotActionPointOffset m) ;;
  w_u16 (fcp_gdStaticSlot m) ;;
  w_u16 (fcp_gdSymbolWindow m) ;;
  w_u16 (fcp_gdSymbolWindowActionPointOffset m) ;;
  w_u16 (fcp_gdTSSTransmitter m) ;;
  w_u16 (fcp_gdWakeupTxActive m) ;;
  w_u16 (fcp_gdWakeupTxIdle m) ;;
  w_u8 (fcp_gListenNoise m) ;;
  w_u16 (fcp_gMacroPerCycle m) ;;
  w_u8 (fcp_gMaxWithoutClockCorrectionFatal m) ;;
  w_u8 (fcp_gMaxWithoutClockCorrectionPassive m) ;;
  w_u16 (fcp_gNumberOfMiniSlots m) ;;
  w_u16 (fcp_gNumberOfStaticSlots m) ;;
  w_u16 (fcp_gPayloadLengthStatic m) ;;
  w_u8 (fcp_gSyncFrameIDCountMax m).
Definition des_FlexrayClusterParameters : R FlexrayClusterParameters :=
  x_gColdstartAttempts <- r_u8 ;;
  x_gCycleCountMax <- r_u8 ;;
  x_gdActionPointOffset <- r_u16 ;;
  x_gdDynamicSlotIdlePhase <- r_u16 ;;
  x_gdMiniSlot <- r_u16 ;;
  x_gdMiniSlotActionPointOffset <- r_u16 ;;
  x_gdStaticSlot <- r_u16 ;;
  x_gdSymbolWindow <- r_u16 ;;
  x_gdSymbolWindowActionPointOffset <- r_u16 ;;
  x_gdTSSTransmitter <- r_u16 ;;
  x_gdWakeupTxActive <- r_u16 ;;
  x_gdWakeupTxIdle <- r_u16 ;;
  x_gListenNoise <- r_u8 ;;
  x_gMacroPerCycle <- r_u16 ;;
  x_gMaxWithoutClockCorrectionFatal <- r_u8 ;;
  x_gMaxWithoutClockCorrectionPassive <- r_u8 ;;
  x_gNumberOfMiniSlots <- r_u16 ;;
  x_gNumberOfStaticSlots <- r_u16 ;;
  x_gPayloadLengthStatic <- r_u16 ;;
  x_gSyncFrameIDCountMax <- r_u8 ;;
  r_ret (mkFlexrayClusterParameters x_gColdstartAttempts x_gCycleCountMax x_gdActionPointOffset x_gdDynamicSlotIdlePhase x_gdMiniSlot x_gdMiniSlotActionPointOffset x_gdStaticSlot x_gdSymbolWindow x_gdSymbolWindowActionPointOffset x_gdTSSTransmitter x_gdWakeupTxActive x_gdWakeupTxIdle x_gListenNoise x_gMacroPerCycle x_gMaxWithoutClockCorrectionFatal x_gMaxWithoutClockCorrectionPassive x_gNumberOfMiniSlots x_gNumberOfStaticSlots x_gPayloadLengthStatic x_gSyncFrameIDCountMax).

(** S/services/flexray/FlexraySerdes.cpp 142-167; without pSecondKeySlotId and pTwoKeySlotMode, which the controller config appends at its end. *)
Record FlexrayNodeParameters := mkFlexrayNodeParameters {
  fnp_pAllowHaltDueToClock : N;
  fnp_pAllowPassiveToActive : N;
  fnp_pChannels : N;
  fnp_pClusterDriftDamping : N;
  fnp_pdAcceptedStartupRange : Z;
  fnp_pdListenTimeout : Z;
  fnp_pKeySlotId : N;
  fnp_pKeySlotOnlyEnabled : N;
  fnp_pKeySlotUsedForStartup : N;
  fnp_pKeySlotUsedForSync : N;
  fnp_pLatestTx : N;
  fnp_pMacroInitialOffsetA : N;
  fnp_pMacroInitialOffsetB : N;
  fnp_pMicroInitialOffsetA : Z;
  fnp_pMicroInitialOffsetB : Z;
  fnp_pMicroPerCycle : Z;
  fnp_pOffsetCorrectionOut : Z;
  fnp_pOffsetCorrectionStart : N;
  fnp_pRateCorrectionOut : Z;
  fnp_pWakeupChannel : N;
  fnp_pWakeupPattern : N;
  fnp_pdMicrotick : N;
  fnp_pSamplesPerMicrotick : N }.
Definition ser_FlexrayNodeParameters (m : FlexrayNodeParameters) : W :=
  w_u8 (fnp_pAllowHaltDueToClock m) ;;
  w_u8 (fnp_pAllowPassiveToActive m) ;;
  w_u32 (fnp_pChannels m) ;;
  w_u8 (fnp_pClusterDriftDamping m) ;;
  w_i32 (fnp_pdAcceptedStartupRange m) ;;
  w_i32 (fnp_pdListenTimeout m) ;;
  w_u16 (fnp_pKeySlotId m) ;;
  w_u8 (fnp_pKeySlotOnlyEnabled m) ;;
  w_u8 (fnp_pKeySlotUsedForStartup m) ;;
  w_u8 (fnp_pKeySlotUsedForSync m) ;;
  w_u16 (fnp_pLatestTx m) ;;
  w_u8 (fnp_pMacroInitialOffsetA m) ;;
  w_u8 (fnp_pMacroInitialOffsetB m) ;;
  w_i32 (fnp_pMicroInitialOffsetA m) ;;
  w_i32 (fnp_pMicroInitialOffsetB m) ;;
  w_i32 (fnp_pMicroPerCycle m) ;;
  w_i32 (fnp_pOffsetCorrectionOut m) ;;
  w_u16 (fnp_pOffsetCorrectionStart m) ;;
  w_i32 (fnp_pRateCorrectionOut m) ;;
  w_u32 (fnp_pWakeupChannel m) ;;
  w_u8 (fnp_pWakeupPattern m) ;;
  w_u32 (fnp_pdMicrotick m) ;;
  w_u8 (fnp_pSamplesPerMicrotick m).
Definition des_FlexrayNodeParameters : R FlexrayNodeParameters :=
  x_pAllowHaltDueToClock <- r_u8 ;;
  x_pAllowPassiveToActive <- r_u8 ;;
  x_pChannels <- r_u32 ;;
  x_pClusterDriftDamping <- r_u8 ;;
  x_pdAcceptedStartupRange <- r_i32 ;;
  x_pdListenTimeout <- r_i32 ;;
  x_pKeySlotId <- r_u16 ;;
  x_pKeySlotOnlyEnabled <- r_u8 ;;
  x_pKeySlotUsedForStartup <- r_u8 ;;
  x_pKeySlotUsedForSync <- r_u8 ;;
  x_pLatestTx <- r_u16 ;;
  x_pMacroInitialOffsetA <- r_u8 ;;
  x_pMacroInitialOffsetB <- r_u8 ;;
  x_pMicroInitialOffsetA <- r_i32 ;;
  x_pMicroInitialOffsetB <- r_i32 ;;
  x_pMicroPerCycle <- r_i32 ;;
  x_pOffsetCorrectionOut <- r_i32 ;;
  x_pOffsetCorrectionStart <- r_u16 ;;
  x_pRateCorrectionOut <- r_i32 ;;
  x_pWakeupChannel <- r_u32 ;;
  x_pWakeupPattern <- r_u8 ;;
  x_pdMicrotick <- r_u32 ;;
  x_pSamplesPerMicrotick <- r_u8 ;;
  r_ret (mkFlexrayNodeParameters x_pAllowHaltDueToClock x_pAllowPassiveToActive x_pChannels x_pClusterDriftDamping x_pdAcceptedStartupRange x_pdListenTimeout x_pKeySlotId x_pKeySlotOnlyEnabled x_pKeySlotUsedForStartup x_pKeySlotUsedForSync x_pLatestTx x_pMacroInitialOffsetA x_pMacroInitialOffsetB x_pMicroInitialOffsetA x_pMicroInitialOffsetB x_pMicroPerCycle x_pOffsetCorrectionOut x_pOffsetCorrectionStart x_pRateCorrectionOut x_pWakeupChannel x_pWakeupPattern x_pdMicrotick x_pSamplesPerMicrotick).

(** S/services/flexray/FlexraySerdes.cpp 169-181; the bool is its byte. *)
Record FlexrayTxBufferConfig := mkFlexrayTxBufferConfig {
  ftc_channels : N;
  ftc_slotId : N;
  ftc_offset : N;
  ftc_repetition : N;
  ftc_hasPayloadPreambleIndicator : N;
  ftc_headerCrc : N;
  ftc_transmissionMode : N }.
Definition ser_FlexrayTxBufferConfig (m : FlexrayTxBufferConfig) : W :=
  w_u32 (ftc_channels m) ;;
  w_u16 (ftc_slotId m) ;;
  w_u8 (ftc_offset m) ;;
  w_u8 (ftc_repetition m) ;;
  w_u8 (ftc_hasPayloadPreambleIndicator m) ;;
  w_u16 (ftc_headerCrc m) ;;
  w_u8 (ftc_transmissionMode m).
Definition des_FlexrayTxBufferConfig : R FlexrayTxBufferConfig :=
  x_channels <- r_u32 ;;
  x_slotId <- r_u16 ;;
  x_offset <- r_u8 ;;
  x_repetition <- r_u8 ;;
  x_hasPayloadPreambleIndicator <- r_u8 ;;
  x_headerCrc <- r_u16 ;;
  x_transmissionMode <- r_u8 ;;
  r_ret (mkFlexrayTxBufferConfig x_channels x_slotId x_offset x_repetition x_hasPayloadPreambleIndicator x_headerCrc x_transmissionMode).

(** S/services/flexray/FlexraySerdes.cpp 206-217. *)
Record FlexrayTxBufferConfigUpdate := mkFlexrayTxBufferConfigUpdate {
  ftcu_txBufferIndex : N;
  ftcu_txBufferConfig : FlexrayTxBufferConfig }.
Definition ser_FlexrayTxBufferConfigUpdate (m : FlexrayTxBufferConfigUpdate) : W :=
  w_u16 (ftcu_txBufferIndex m) ;;
  ser_FlexrayTxBufferConfig (ftcu_txBufferConfig m).
Definition des_FlexrayTxBufferConfigUpdate : R FlexrayTxBufferConfigUpdate :=
  x_txBufferIndex <- r_u16 ;;
  x_txBufferConfig <- des_FlexrayTxBufferConfig ;;
  r_ret (mkFlexrayTxBufferConfigUpdate x_txBufferIndex x_txBufferConfig).

(** S/services/flexray/FlexraySerdes.cpp 219-230; the bool is its byte. *)
Record FlexrayTxBufferUpdate := mkFlexrayTxBufferUpdate {
  ftu_txBufferIndex : N;
  ftu_payloadDataValid : N;
  ftu_payload : list N }.
Definition ser_FlexrayTxBufferUpdate (m : FlexrayTxBufferUpdate) : W :=
  w_u16 (ftu_txBufferIndex m) ;;
  w_u8 (ftu_payloadDataValid m) ;;
  w_bytes (ftu_payload m).
Definition des_FlexrayTxBufferUpdate : R FlexrayTxBufferUpdate :=
  x_txBufferIndex <- r_u16 ;;
  x_payloadDataValid <- r_u8 ;;
  x_payload <- r_bytes ;;
  r_ret (mkFlexrayTxBufferUpdate x_txBufferIndex x_payloadDataValid x_payload).

(** S/services/flexray/FlexraySerdes.cpp 232-250; bools are their bytes. *)
Record FlexrayPocStatusEvent := mkFlexrayPocStatusEvent {
  fps_timestamp : Z;
  fps_chiHaltRequest : N;
  fps_coldstartNoise : N;
  fps_errorMode : N;
  fps_freeze : N;
  fps_slotMode : N;
  fps_startupState : N;
  fps_state : N;
  fps_wakeupStatus : N;
  fps_chiReadyRequest : N }.
Definition ser_FlexrayPocStatusEvent (m : FlexrayPocStatusEvent) : W :=
  w_i64 (fps_timestamp m) ;;
  w_u8 (fps_chiHaltRequest m) ;;
  w_u8 (fps_coldstartNoise m) ;;
  w_u8 (fps_errorMode m) ;;
  w_u8 (fps_freeze m) ;;
  w_u8 (fps_slotMode m) ;;
  w_u8 (fps_startupState m) ;;
  w_u8 (fps_state m) ;;
  w_u8 (fps_wakeupStatus m) ;;
  w_u8 (fps_chiReadyRequest m).
Definition des_FlexrayPocStatusEvent : R FlexrayPocStatusEvent :=
  x_timestamp <- r_i64 ;;
  x_chiHaltRequest <- r_u8 ;;
  x_coldstartNoise <- r_u8 ;;
  x_errorMode <- r_u8 ;;
  x_freeze <- r_u8 ;;
  x_slotMode <- r_u8 ;;
  x_startupState <- r_u8 ;;
  x_state <- r_u8 ;;
  x_wakeupStatus <- r_u8 ;;
  x_chiReadyRequest <- r_u8 ;;
  r_ret (mkFlexrayPocStatusEvent x_timestamp x_chiHaltRequest x_coldstartNoise x_errorMode x_freeze x_slotMode x_startupState x_state x_wakeupStatus x_chiReadyRequest).

(** S/services/pubsub/DataSerdes.cpp 11-21. *)
Record DataMessageEvent := mkDataMessageEvent {
  dme_data : list N;
  dme_timestamp : Z }.
Definition ser_DataMessageEvent (m : DataMessageEvent) : W :=
  w_bytes (dme_data m) ;;
  w_i64 (dme_timestamp m).
Definition des_DataMessageEvent : R DataMessageEvent :=
  x_data <- r_bytes ;;
  x_timestamp <- r_i64 ;;
  r_ret (mkDataMessageEvent x_data x_timestamp).

(** S/services/rpc/RpcSerdes.cpp 11-21. *)
Record FunctionCall := mkFunctionCall {
  fc_timestamp : Z;
  fc_callUuid : N * N;
  fc_data : list N }.
Definition ser_FunctionCall (m : FunctionCall) : W :=
  w_i64 (fc_timestamp m) ;;
  w_uuid (fc_callUuid m) ;;
  w_bytes (fc_data m).
Definition des_FunctionCall : R FunctionCall :=
  x_timestamp <- r_i64 ;;
  x_callUuid <- r_uuid ;;
  x_data <- r_bytes ;;
  r_ret (mkFunctionCall x_timestamp x_callUuid x_data).

(** S/services/rpc/RpcSerdes.cpp 23-33. *)
Record FunctionCallResponse := mkFunctionCallResponse {
  fcr_timestamp : Z;
  fcr_callUuid : N * N;
  fcr_data : list N;
  fcr_status : N }.
Definition ser_FunctionCallResponse (m : FunctionCallResponse) : W :=
  w_i64 (fcr_timestamp m) ;;
  w_uuid (fcr_callUuid m) ;;
  w_bytes (fcr_data m) ;;
  w_u32 (fcr_status m).
Definition des_FunctionCallResponse : R FunctionCallResponse :=
  x_timestamp <- r_i64 ;;
  x_callUuid <- r_uuid ;;
  x_data <- r_bytes ;;
  x_status <- r_u32 ;;
  r_ret (mkFunctionCallResponse x_timestamp x_callUuid x_data x_status).

(** S/services/orchestration/SyncSerdes.cpp 12-23. *)
Record NextSimTask := mkNextSimTask {
  nst_timePoint : Z;
  nst_duration : Z }.
Definition ser_NextSimTask (m : NextSimTask) : W :=
  w_i64 (nst_timePoint m) ;;
  w_i64 (nst_duration m).
Definition des_NextSimTask : R NextSimTask :=
  x_timePoint <- r_i64 ;;
  x_duration <- r_i64 ;;
  r_ret (mkNextSimTask x_timePoint x_duration).

(** S/services/orchestration/SyncSerdes.cpp 26-37. *)
Record SystemCommand := mkSystemCommand {
  sc_kind : N }.
Definition ser_SystemCommand (m : SystemCommand) : W :=
  w_u8 (sc_kind m).
Definition des_SystemCommand : R SystemCommand :=
  x_kind <- r_u8 ;;
  r_ret (mkSystemCommand x_kind).

(** S/services/orchestration/SyncSerdes.cpp 53-66. *)
Record WorkflowConfiguration := mkWorkflowConfiguration {
  wc_requiredParticipantNames : list (list N) }.
Definition ser_WorkflowConfiguration (m : WorkflowConfiguration) : W :=
  w_vector w_string (wc_requiredParticipantNames m).
Definition des_WorkflowConfiguration : R WorkflowConfiguration :=
  x_requiredParticipantNames <- r_vector r_string ;;
  r_ret (mkWorkflowConfiguration x_requiredParticipantNames).

(** S/services/metrics/MetricsSerdes.cpp 11-20. *)
Record MetricData := mkMetricData {
  md_timestamp : N;
  md_name : list N;
  md_kind : Z;
  md_value : list N }.
Definition ser_MetricData (m : MetricData) : W :=
  w_u64 (md_timestamp m) ;;
  w_bytes (md_name m) ;;
  w_i32 (md_kind m) ;;
  w_bytes (md_value m).
Definition des_MetricData : R MetricData :=
  x_timestamp <- r_u64 ;;
  x_name <- r_bytes ;;
  x_kind <- r_i32 ;;
  x_value <- r_bytes ;;
  r_ret (mkMetricData x_timestamp x_name x_kind x_value).

(** S/services/metrics/MetricsSerdes.cpp 23-31. *)
Record MetricsUpdate := mkMetricsUpdate {
  mu_metrics : list MetricData }.
Definition ser_MetricsUpdate (m : MetricsUpdate) : W :=
  w_vector ser_MetricData (mu_metrics m).
Definition des_MetricsUpdate : R MetricsUpdate :=
  x_metrics <- r_vector des_MetricData ;;
  r_ret (mkMetricsUpdate x_metrics).

(** S/core/service/ServiceSerdes.cpp 13-28. *)
Record ServiceDescriptor := mkServiceDescriptor {
  sd_participantName : list N;
  sd_serviceType : N;
  sd_networkName : list N;
  sd_networkType : Z;
  sd_serviceName : list N;
  sd_serviceId : N;
  sd_supplementalData : list (list N * list N);
  sd_participantId : N }.
Definition ser_ServiceDescriptor (m : ServiceDescriptor) : W :=
  w_bytes (sd_participantName m) ;;
  w_u8 (sd_serviceType m) ;;
  w_bytes (sd_networkName m) ;;
  w_i32 (sd_networkType m) ;;
  w_bytes (sd_serviceName m) ;;
  w_u64 (sd_serviceId m) ;;
  w_map (sd_supplementalData m) ;;
  w_u64 (sd_participantId m).
Definition des_ServiceDescriptor : R ServiceDescriptor :=
  x_participantName <- r_bytes ;;
  x_serviceType <- r_u8 ;;
  x_networkName <- r_bytes ;;
  x_networkType <- r_i32 ;;
  x_serviceName <- r_bytes ;;
  x_serviceId <- r_u64 ;;
  x_supplementalData <- r_map ;;
  x_participantId <- r_u64 ;;
  r_ret (mkServiceDescriptor x_participantName x_serviceType x_networkName x_networkType x_serviceName x_serviceId x_supplementalData x_participantId).

(** S/core/service/ServiceSerdes.cpp 32-44. *)
Record ParticipantDiscoveryEvent := mkParticipantDiscoveryEvent {
  pde_participantName : list N;
  pde_version : N;
  pde_services : list ServiceDescriptor }.
Definition ser_ParticipantDiscoveryEvent (m : ParticipantDiscoveryEvent) : W :=
  w_bytes (pde_participantName m) ;;
  w_u64 (pde_version m) ;;
  w_vector ser_ServiceDescriptor (pde_services m).
Definition des_ParticipantDiscoveryEvent : R ParticipantDiscoveryEvent :=
  x_participantName <- r_bytes ;;
  x_version <- r_u64 ;;
  x_services <- r_vector des_ServiceDescriptor ;;
  r_ret (mkParticipantDiscoveryEvent x_participantName x_version x_services).

(** S/core/service/ServiceSerdes.cpp 47-57. *)
Record ServiceDiscoveryEvent := mkServiceDiscoveryEvent {
  sde_type : Z;
  sde_serviceDescriptor : ServiceDescriptor }.
Definition ser_ServiceDiscoveryEvent (m : ServiceDiscoveryEvent) : W :=
  w_i32 (sde_type m) ;;
  ser_ServiceDescriptor (sde_serviceDescriptor m).
Definition des_ServiceDiscoveryEvent : R ServiceDiscoveryEvent :=
  x_type <- r_i32 ;;
  x_serviceDescriptor <- des_ServiceDescriptor ;;
  r_ret (mkServiceDiscoveryEvent x_type x_serviceDescriptor).

(** S/core/requests/RequestReplySerdes.cpp 11-21. *)
Record RequestReplyCall := mkRequestReplyCall {
  rrc_callUuid : N * N;
  rrc_functionType : N;
  rrc_callData : list N }.
Definition ser_RequestReplyCall (m : RequestReplyCall) : W :=
  w_uuid (rrc_callUuid m) ;;
  w_u16 (rrc_functionType m) ;;
  w_bytes (rrc_callData m).
Definition des_RequestReplyCall : R RequestReplyCall :=
  x_callUuid <- r_uuid ;;
  x_functionType <- r_u16 ;;
  x_callData <- r_bytes ;;
  r_ret (mkRequestReplyCall x_callUuid x_functionType x_callData).

(** S/core/requests/RequestReplySerdes.cpp 23-33. *)
Record RequestReplyCallReturn := mkRequestReplyCallReturn {
  rrr_callUuid : N * N;
  rrr_functionType : N;
  rrr_callReturnData : list N;
  rrr_callReturnStatus : N }.
Definition ser_RequestReplyCallReturn (m : RequestReplyCallReturn) : W :=
  w_uuid (rrr_callUuid m) ;;
  w_u16 (rrr_functionType m) ;;
  w_bytes (rrr_callReturnData m) ;;
  w_u16 (rrr_callReturnStatus m).
Definition des_RequestReplyCallReturn : R RequestReplyCallReturn :=
  x_callUuid <- r_uuid ;;
  x_functionType <- r_u16 ;;
  x_callReturnData <- r_bytes ;;
  x_callReturnStatus <- r_u16 ;;
  r_ret (mkRequestReplyCallReturn x_callUuid x_functionType x_callReturnData x_callReturnStatus).

(** S/core/internal/InternalSerdes.hpp 13-23. *)
Record EndpointAddress := mkEndpointAddress {
  ea_participant : N;
  ea_endpoint : N }.
Definition ser_EndpointAddress (m : EndpointAddress) : W :=
  w_u64 (ea_participant m) ;;
  w_u64 (ea_endpoint m).
Definition des_EndpointAddress : R EndpointAddress :=
  x_participant <- r_u64 ;;
  x_endpoint <- r_u64 ;;
  r_ret (mkEndpointAddress x_participant x_endpoint).

(** S/core/vasio/VAsioSerdes.cpp 19-28. *)
Record RegistryMsgHeader := mkRegistryMsgHeader {
  rmh_preamble : N;
  rmh_versionHigh : N;
  rmh_versionLow : N }.
Definition ser_RegistryMsgHeader (m : RegistryMsgHeader) : W :=
  w_u32 (rmh_preamble m) ;;
  w_u16 (rmh_versionHigh m) ;;
  w_u16 (rmh_versionLow m).
Definition des_RegistryMsgHeader : R RegistryMsgHeader :=
  x_preamble <- r_u32 ;;
  x_versionHigh <- r_u16 ;;
  x_versionLow <- r_u16 ;;
  r_ret (mkRegistryMsgHeader x_preamble x_versionHigh x_versionLow).

(** S/core/vasio/VAsioSerdes.cpp 31-41. *)
Record PeerInfo := mkPeerInfo {
  pi_participantName : list N;
  pi_participantId : N;
  pi_acceptorUris : list (list N);
  pi_capabilities : list N }.
Definition ser_PeerInfo (m : PeerInfo) : W :=
  w_bytes (pi_participantName m) ;;
  w_u64 (pi_participantId m) ;;
  w_vector w_string (pi_acceptorUris m) ;;
  w_bytes (pi_capabilities m).
Definition des_PeerInfo : R PeerInfo :=
  x_participantName <- r_bytes ;;
  x_participantId <- r_u64 ;;
  x_acceptorUris <- r_vector r_string ;;
  x_capabilities <- r_bytes ;;
  r_ret (mkPeerInfo x_participantName x_participantId x_acceptorUris x_capabilities).

(** S/core/vasio/VAsioSerdes.cpp 43-53. *)
Record MsgSubscriber := mkMsgSubscriber {
  ms_receiverIdx : N;
  ms_networkName : list N;
  ms_msgTypeName : list N;
  ms_version : N }.
Definition ser_MsgSubscriber (m : MsgSubscriber) : W :=
  w_u64 (ms_receiverIdx m) ;;
  w_bytes (ms_networkName m) ;;
  w_bytes (ms_msgTypeName m) ;;
  w_u32 (ms_version m).
Definition des_MsgSubscriber : R MsgSubscriber :=
  x_receiverIdx <- r_u64 ;;
  x_networkName <- r_bytes ;;
  x_msgTypeName <- r_bytes ;;
  x_version <- r_u32 ;;
  r_ret (mkMsgSubscriber x_receiverIdx x_networkName x_msgTypeName x_version).

(** S/core/vasio/VAsioSerdes.cpp 55-65. *)
Record SubscriptionAcknowledge := mkSubscriptionAcknowledge {
  sa_status : N;
  sa_subscriber : MsgSubscriber }.
Definition ser_SubscriptionAcknowledge (m : SubscriptionAcknowledge) : W :=
  w_u8 (sa_status m) ;;
  ser_MsgSubscriber (sa_subscriber m).
Definition des_SubscriptionAcknowledge : R SubscriptionAcknowledge :=
  x_status <- r_u8 ;;
  x_subscriber <- des_MsgSubscriber ;;
  r_ret (mkSubscriptionAcknowledge x_status x_subscriber).

(** S/core/vasio/VAsioSerdes.cpp 224-233. *)
Record RemoteParticipantConnectRequest := mkRemoteParticipantConnectRequest {
  rpc_messageHeader : RegistryMsgHeader;
  rpc_requestOrigin : PeerInfo;
  rpc_requestTarget : PeerInfo;
  rpc_status : N }.
Definition ser_RemoteParticipantConnectRequest (m : RemoteParticipantConnectRequest) : W :=
  ser_RegistryMsgHeader (rpc_messageHeader m) ;;
  ser_PeerInfo (rpc_requestOrigin m) ;;
  ser_PeerInfo (rpc_requestTarget m) ;;
  w_u8 (rpc_status m).
Definition des_RemoteParticipantConnectRequest : R RemoteParticipantConnectRequest :=
  x_messageHeader <- des_RegistryMsgHeader ;;
  x_requestOrigin <- des_PeerInfo ;;
  x_requestTarget <- des_PeerInfo ;;
  x_status <- r_u8 ;;
  r_ret (mkRemoteParticipantConnectRequest x_messageHeader x_requestOrigin x_requestTarget x_status).

(** S/core/vasio/VAsioSerdes_Protocol30.cpp 37-54. *)
Record OldMsgSubscriber := mkOldMsgSubscriber {
  oms_receiverIdx : N;
  oms_networkName : list N;
  oms_msgTypeName : list N }.
Definition ser_OldMsgSubscriber (m : OldMsgSubscriber) : W :=
  w_u64 (oms_receiverIdx m) ;;
  w_bytes (oms_networkName m) ;;
  w_bytes (oms_msgTypeName m).
Definition des_OldMsgSubscriber : R OldMsgSubscriber :=
  x_receiverIdx <- r_u64 ;;
  x_networkName <- r_bytes ;;
  x_msgTypeName <- r_bytes ;;
  r_ret (mkOldMsgSubscriber x_receiverIdx x_networkName x_msgTypeName).

(** S/core/vasio/VAsioSerdes_Protocol30.cpp 57-63, 94-104. *)
Record OldPeerInfo := mkOldPeerInfo {
  opi_participantName : list N;
  opi_participantId : N;
  opi_acceptorHost : list N;
  opi_acceptorPort : N }.
Definition ser_OldPeerInfo (m : OldPeerInfo) : W :=
  w_bytes (opi_participantName m) ;;
  w_u64 (opi_participantId m) ;;
  w_bytes (opi_acceptorHost m) ;;
  w_u16 (opi_acceptorPort m).
Definition des_OldPeerInfo : R OldPeerInfo :=
  x_participantName <- r_bytes ;;
  x_participantId <- r_u64 ;;
  x_acceptorHost <- r_bytes ;;
  x_acceptorPort <- r_u16 ;;
  r_ret (mkOldPeerInfo x_participantName x_participantId x_acceptorHost x_acceptorPort).

(** S/core/vasio/VAsioSerdes_Protocol30.cpp 65-70, 107-117. *)
Record OldPeerUri := mkOldPeerUri {
  opu_participantName : list N;
  opu_participantId : N;
  opu_acceptorUris : list (list N) }.
Definition ser_OldPeerUri (m : OldPeerUri) : W :=
  w_bytes (opu_participantName m) ;;
  w_u64 (opu_participantId m) ;;
  w_vector w_string (opu_acceptorUris m).
Definition des_OldPeerUri : R OldPeerUri :=
  x_participantName <- r_bytes ;;
  x_participantId <- r_u64 ;;
  x_acceptorUris <- r_vector r_string ;;
  r_ret (mkOldPeerUri x_participantName x_participantId x_acceptorUris).

(** S/core/vasio/VAsioSerdes_Protocol30.cpp 18-34. *)
Record OldRegistryMsgHeader := mkOldRegistryMsgHeader {
  orh_preambel : list N;
  orh_versionHigh : N;
  orh_versionLow : N }.
Definition ser_OldRegistryMsgHeader (m : OldRegistryMsgHeader) : W :=
  w_bytearray (orh_preambel m) ;;
  w_u16 (orh_versionHigh m) ;;
  w_u16 (orh_versionLow m).
Definition des_OldRegistryMsgHeader : R OldRegistryMsgHeader :=
  x_preambel <- r_bytearray 4 ;;
  x_versionHigh <- r_u16 ;;
  x_versionLow <- r_u16 ;;
  r_ret (mkOldRegistryMsgHeader x_preambel x_versionHigh x_versionLow).

(** S/core/vasio/VAsioSerdes_Protocol30.cpp 72-78, 120-132. *)
Record OldParticipantAnnouncement := mkOldParticipantAnnouncement {
  opa_messageHeader : OldRegistryMsgHeader;
  opa_peerInfo : OldPeerInfo;
  opa_peerUri : OldPeerUri }.
Definition ser_OldParticipantAnnouncement (m : OldParticipantAnnouncement) : W :=
  ser_OldRegistryMsgHeader (opa_messageHeader m) ;;
  ser_OldPeerInfo (opa_peerInfo m) ;;
  ser_OldPeerUri (opa_peerUri m).
Definition des_OldParticipantAnnouncement : R OldParticipantAnnouncement :=
  x_messageHeader <- des_OldRegistryMsgHeader ;;
  x_peerInfo <- des_OldPeerInfo ;;
  x_peerUri <- des_OldPeerUri ;;
  r_ret (mkOldParticipantAnnouncement x_messageHeader x_peerInfo x_peerUri).

(** S/core/vasio/VAsioSerdes_Protocol30.cpp 80-83, 150-161. *)
Record OldParticipantAnnouncementReply := mkOldParticipantAnnouncementReply {
  opr_subscribers : list OldMsgSubscriber }.
Definition ser_OldParticipantAnnouncementReply (m : OldParticipantAnnouncementReply) : W :=
  w_vector ser_OldMsgSubscriber (opr_subscribers m).
Definition des_OldParticipantAnnouncementReply : R OldParticipantAnnouncementReply :=
  x_subscribers <- r_vector des_OldMsgSubscriber ;;
  r_ret (mkOldParticipantAnnouncementReply x_subscribers).

(** S/services/can/CanSerdes.cpp 64-76. [flags] is a struct of two one-bit fields (S/wire/can/WireCanMessages.hpp);
    its byte is copied including the six padding bits, which have no defined value ([csm_padding]). *)
Record CanSetControllerMode := mkCanSetControllerMode {
  csm_resetErrorHandling : bool;
  csm_cancelTransmitRequests : bool;
  csm_padding : N;
  csm_mode : Z }.
Definition csm_flagbyte (m : CanSetControllerMode) : N :=
  N.b2n (csm_resetErrorHandling m) + 2 * N.b2n (csm_cancelTransmitRequests m) + 4 * csm_padding m.
Definition ser_CanSetControllerMode (m : CanSetControllerMode) : W :=
  w_u8 (csm_flagbyte m) ;; w_i32 (csm_mode m).
Definition des_CanSetControllerMode : R CanSetControllerMode :=
  x_flags <- r_u8 ;; x_mode <- r_i32 ;;
  r_ret (mkCanSetControllerMode (N.odd x_flags) (N.odd (x_flags / 2)) (x_flags / 4) x_mode).

(** S/services/lin/LinSerdes.cpp 78-91 (WireLinControllerConfig). The simulation mode is one byte and read only
    if at least one byte is left; the default is SimulationMode::Default = 0
    (S/wire/lin/WireLinMessages.hpp 57-83). *)
Record LinControllerConfig := mkLinControllerConfig {
  lcc_controllerMode : N;
  lcc_baudRate : N;
  lcc_frameResponses : list LinFrameResponse;
  lcc_simulationMode : N }.
Definition ser_LinControllerConfig (m : LinControllerConfig) : W :=
  w_u8 (lcc_controllerMode m) ;; w_u32 (lcc_baudRate m) ;;
  w_vector ser_LinFrameResponse (lcc_frameResponses m) ;; w_u8 (lcc_simulationMode m).
Definition des_LinControllerConfig : R LinControllerConfig :=
  x_mode <- r_u8 ;; x_baud <- r_u32 ;; x_resp <- r_vector des_LinFrameResponse ;;
  x_sim <- r_if_remaining r_u8 (r_ret 0) ;;
  r_ret (mkLinControllerConfig x_mode x_baud x_resp x_sim).

(** S/services/flexray/FlexraySerdes.cpp 183-204 (FlexrayControllerConfig). The two trailing node parameters
    default to 0 (value initialisation, S/core/vasio/SerializedMessage.hpp 167-181). *)
Record FlexrayControllerConfig := mkFlexrayControllerConfig {
  fcc_clusterParams : FlexrayClusterParameters;
  fcc_nodeParams : FlexrayNodeParameters;
  fcc_bufferConfigs : list FlexrayTxBufferConfig;
  fcc_pSecondKeySlotId : N;
  fcc_pTwoKeySlotMode : N }.
Definition ser_FlexrayControllerConfig (m : FlexrayControllerConfig) : W :=
  ser_FlexrayClusterParameters (fcc_clusterParams m) ;;
  ser_FlexrayNodeParameters (fcc_nodeParams m) ;;
  w_vector ser_FlexrayTxBufferConfig (fcc_bufferConfigs m) ;;
  w_u16 (fcc_pSecondKeySlotId m) ;; w_u8 (fcc_pTwoKeySlotMode m).
Definition des_FlexrayControllerConfig : R FlexrayControllerConfig :=
  x_cp <- des_FlexrayClusterParameters ;;
  x_np <- des_FlexrayNodeParameters ;;
  x_bc <- r_vector des_FlexrayTxBufferConfig ;;
  x_ext <- r_if_remaining (r_pair r_u16 r_u8) (r_ret (0, 0)) ;;
  r_ret (mkFlexrayControllerConfig x_cp x_np x_bc (fst x_ext) (snd x_ext)).

(** S/services/orchestration/SyncSerdes.cpp 40-51 (ParticipantStatus). Times are nanoseconds since the epoch of
    system_clock; the wire carries microseconds. *)
Record ParticipantStatus := mkParticipantStatus {
  ps_participantName : list N;
  ps_state : Z;
  ps_enterReason : list N;
  ps_enterTime : Z;
  ps_refreshTime : Z }.
Definition ser_ParticipantStatus (m : ParticipantStatus) : W :=
  w_string (ps_participantName m) ;; w_i16 (ps_state m) ;; w_string (ps_enterReason m) ;;
  w_timepoint (ps_enterTime m) ;; w_timepoint (ps_refreshTime m).
Definition des_ParticipantStatus : R ParticipantStatus :=
  x_name <- r_string ;; x_state <- r_i16 ;; x_reason <- r_string ;;
  x_enter <- r_timepoint ;; x_refresh <- r_timepoint ;;
  r_ret (mkParticipantStatus x_name x_state x_reason x_enter x_refresh).

(** ASCII literals as byte strings. *)
Definition lit (s : string) : list N := map N_of_ascii (list_ascii_of_string s).

(** S/core/internal/LoggingTopics.hpp 15-42, S/core/internal/string_utils_internal.hpp 66-150: [to_string(Topic)].
    A topic is its uint32_t. *)
Definition topic_names : list (N * string) :=
  [(0, "None"); (1, "User"); (2, "LifeCycle"); (3, "SystemState"); (4, "MessageTracing"); (5, "ServiceDiscovery");
   (6, "Asio"); (7, "TimeSync"); (8, "Participant"); (9, "TimeConfig"); (10, "RequestReply"); (11, "SystemMonitor");
   (12, "Can"); (13, "Ethernet"); (14, "Flexray"); (15, "Lin"); (16, "Metrics"); (17, "Pubsub"); (18, "Rpc");
   (19, "Tracing"); (20, "Dashboard"); (21, "NetSim"); (22, "Extension")]%string.
Definition topic_invalid : N := 4294967295.
Definition topic_to_string (t : N) : list N :=
  match find (fun p => fst p =? t) topic_names with
  | Some (_, s) => lit s
  | None => lit "Invalid"
  end.
(** S/util/StringHelpers.hpp 43-50 ("C" locale). *)
Definition to_lower (c : N) : N := if (65 <=? c) && (c <=? 90) then c + 32 else c.
Definition lower_case (s : list N) : list N := map to_lower s.
(** S/core/internal/string_utils_internal.hpp 152-202: [from_topic_string]; the chain of comparisons with the
    lower-case names is the search in the lower-cased table. *)
Definition from_topic_string (s : list N) : N :=
  match find (fun p => str_eqb (lower_case s) (lower_case (lit (snd p)))) topic_names with
  | Some (t, _) => t
  | None => topic_invalid
  end.

(** S/services/logging/LoggingSerdes.cpp 13-22. *)
Record SourceLoc := mkSourceLoc { sl_filename : list N; sl_line : N; sl_funcname : list N }.
Definition ser_SourceLoc (m : SourceLoc) : W :=
  w_string (sl_filename m) ;; w_u32 (sl_line m) ;; w_string (sl_funcname m).
Definition des_SourceLoc : R SourceLoc :=
  x_f <- r_string ;; x_l <- r_u32 ;; x_n <- r_string ;; r_ret (mkSourceLoc x_f x_l x_n).

(** S/services/logging/LoggingSerdes.cpp 25-45. Defaults of missing trailing fields: empty key-value list and
    Topic::None (S/core/internal/LoggingDatatypesInternal.hpp 34-43). *)
Record LogMsg := mkLogMsg {
  lm_loggerName : list N;
  lm_level : N;
  lm_time : Z;
  lm_source : SourceLoc;
  lm_payload : list N;
  lm_keyValues : list (list N * list N);
  lm_topic : N }.
Definition ser_LogMsg (m : LogMsg) : W :=
  w_string (lm_loggerName m) ;; w_u32 (lm_level m) ;; w_timepoint (lm_time m) ;; ser_SourceLoc (lm_source m) ;;
  w_string (lm_payload m) ;; w_vector (w_pair w_string w_string) (lm_keyValues m) ;;
  w_string (topic_to_string (lm_topic m)).
Definition des_LogMsg : R LogMsg :=
  x_name <- r_string ;; x_level <- r_u32 ;; x_time <- r_timepoint ;; x_src <- des_SourceLoc ;;
  x_payload <- r_string ;;
  x_kv <- r_if_remaining (r_vector (r_pair r_string r_string)) (r_ret []) ;;
  x_topic <- r_if_remaining (s <- r_string ;; r_ret (from_topic_string s)) (r_ret 0) ;;
  r_ret (mkLogMsg x_name x_level x_time x_src x_payload x_kv x_topic).

(** ** Registry handshake messages, dependent on the protocol version of the buffer. *)

(** S/core/internal/ProtocolVersion.hpp 12-51. *)
Definition version := (N * N)%type.
Definition v30 : version := (3, 0).
Definition v31 : version := (3, 1).
Definition current_version : version := v31.
Definition version_eqb (a b : version) : bool := (fst a =? fst b) && (snd a =? snd b).
Definition version_ltb (a b : version) : bool :=
  (fst a <? fst b) || ((fst a =? fst b) && (snd a <? snd b)).

(** S/core/vasio/VAsioDatatypes.hpp 19-37: default header. 0x2d424956 *)
Definition preamble_value : N := 759318870.
Definition make_header (v : version) : RegistryMsgHeader := mkRegistryMsgHeader preamble_value (fst v) (snd v).
(** S/core/vasio/VAsioProtocolVersion.hpp 29-32. *)
Definition header_version (h : RegistryMsgHeader) : version := (rmh_versionHigh h, rmh_versionLow h).
(** S/core/vasio/VAsioProtocolVersion.hpp 72-88. *)
Definition version_supported (h : RegistryMsgHeader) : bool :=
  version_eqb (header_version h) v30 || version_eqb (header_version h) v31.

(** S/core/vasio/VAsioDatatypes.hpp 56-61. *)
Record ParticipantAnnouncement := mkParticipantAnnouncement {
  pa_messageHeader : RegistryMsgHeader; pa_peerInfo : PeerInfo; pa_simulationName : list N }.
(** S/core/vasio/VAsioDatatypes.hpp 63-76. *)
Record ParticipantAnnouncementReply := mkParticipantAnnouncementReply {
  par_remoteHeader : RegistryMsgHeader; par_status : N; par_subscribers : list MsgSubscriber;
  par_diagnostic : list N }.
(** S/core/vasio/VAsioDatatypes.hpp 78-82. *)
Record KnownParticipants := mkKnownParticipants {
  kp_messageHeader : RegistryMsgHeader; kp_peerInfos : list PeerInfo }.

(** S/core/vasio/VAsioSerdes_Protocol30.cpp 18-23: default old header, 'V' 'I' 'B' '-' 3 0. *)
Definition old_header : OldRegistryMsgHeader := mkOldRegistryMsgHeader [86; 73; 66; 45] 3 0.
(** VAsioSerdes_Protocol30.cpp 188-190, 259-262: a peer info as an old peer uri. *)
Definition to_old_uri (p : PeerInfo) : OldPeerUri :=
  mkOldPeerUri (pi_participantName p) (pi_participantId p) (pi_acceptorUris p).
(** VAsioSerdes_Protocol30.cpp 175-179, 239-243. *)
Definition of_old_uri (u : OldPeerUri) : PeerInfo :=
  mkPeerInfo (opu_participantName u) (opu_participantId u) (opu_acceptorUris u) [].
(** VAsioSerdes_Protocol30.cpp 204-212 and 219-226. *)
Definition of_old_subscriber (s : OldMsgSubscriber) : MsgSubscriber :=
  mkMsgSubscriber (oms_receiverIdx s) (oms_networkName s) (oms_msgTypeName s) 0.
Definition to_old_subscriber (s : MsgSubscriber) : OldMsgSubscriber :=
  mkOldMsgSubscriber (ms_receiverIdx s) (ms_networkName s) (ms_msgTypeName s).

(** VAsioSerdes_Protocol30.cpp 182-191: SerializeV30(ParticipantAnnouncement). The struct is value initialised:
    empty name, id 0, empty host, port 0 in its [peerInfo]. *)
Definition ser30_ParticipantAnnouncement (m : ParticipantAnnouncement) : W :=
  ser_OldParticipantAnnouncement
    (mkOldParticipantAnnouncement old_header (mkOldPeerInfo [] 0 [] 0) (to_old_uri (pa_peerInfo m))).
(** VAsioSerdes_Protocol30.cpp 168-180. *)
Definition des30_ParticipantAnnouncement : R ParticipantAnnouncement :=
  o <- des_OldParticipantAnnouncement ;;
  r_ret (mkParticipantAnnouncement
    (make_header (orh_versionHigh (opa_messageHeader o), orh_versionLow (opa_messageHeader o)))
    (of_old_uri (opa_peerUri o)) []).
(** VAsioSerdes_Protocol30.cpp 215-228. *)
Definition ser30_ParticipantAnnouncementReply (m : ParticipantAnnouncementReply) : W :=
  ser_OldParticipantAnnouncementReply
    (mkOldParticipantAnnouncementReply (map to_old_subscriber (par_subscribers m))).
(** VAsioSerdes_Protocol30.cpp 193-213; Status::Success = 1. *)
Definition des30_ParticipantAnnouncementReply : R ParticipantAnnouncementReply :=
  o <- des_OldParticipantAnnouncementReply ;;
  r_ret (mkParticipantAnnouncementReply (make_header v30) 1 (map of_old_subscriber (opr_subscribers o)) []).
(** VAsioSerdes_Protocol30.cpp 85-91, 134-148: old KnownParticipants; [peerUris] only if bytes remain. *)
Record OldKnownParticipants := mkOldKnownParticipants {
  okp_messageHeader : OldRegistryMsgHeader; okp_peerInfos : list OldPeerInfo; okp_peerUris : list OldPeerUri }.
Definition ser_OldKnownParticipants (m : OldKnownParticipants) : W :=
  ser_OldRegistryMsgHeader (okp_messageHeader m) ;; w_vector ser_OldPeerInfo (okp_peerInfos m) ;;
  w_vector ser_OldPeerUri (okp_peerUris m).
Definition des_OldKnownParticipants : R OldKnownParticipants :=
  h <- des_OldRegistryMsgHeader ;; i <- r_vector des_OldPeerInfo ;;
  u <- r_if_remaining (r_vector des_OldPeerUri) (r_ret []) ;;
  r_ret (mkOldKnownParticipants h i u).
(** VAsioSerdes_Protocol30.cpp 247-267. *)
Definition ser30_KnownParticipants (m : KnownParticipants) : W :=
  ser_OldKnownParticipants (mkOldKnownParticipants old_header [] (map to_old_uri (kp_peerInfos m))).
(** VAsioSerdes_Protocol30.cpp 230-245. *)
Definition des30_KnownParticipants : R KnownParticipants :=
  o <- des_OldKnownParticipants ;;
  r_ret (mkKnownParticipants (make_header v30) (map of_old_uri (okp_peerUris o))).

(** S/core/vasio/VAsioSerdes.cpp 67-82: the version is taken from the announcement's header. *)
Definition ser_ParticipantAnnouncement (m : ParticipantAnnouncement) : W :=
  if version_eqb (header_version (pa_messageHeader m)) v30 then ser30_ParticipantAnnouncement m
  else ser_RegistryMsgHeader (pa_messageHeader m) ;; ser_PeerInfo (pa_peerInfo m) ;;
       w_string (pa_simulationName m).
(** S/core/vasio/VAsioSerdes.cpp 84-104. *)
Definition des_ParticipantAnnouncement (v : version) : R ParticipantAnnouncement :=
  if version_eqb v v30 then des30_ParticipantAnnouncement
  else h <- des_RegistryMsgHeader ;; p <- des_PeerInfo ;;
       s <- r_if_remaining r_string (r_ret []) ;;
       r_ret (mkParticipantAnnouncement h p s).
(** S/core/vasio/VAsioSerdes.cpp 106-121. *)
Definition ser_ParticipantAnnouncementReply (v : version) (m : ParticipantAnnouncementReply) : W :=
  if version_eqb v v30 then ser30_ParticipantAnnouncementReply m
  else ser_RegistryMsgHeader (par_remoteHeader m) ;; w_u8 (par_status m) ;;
       w_vector ser_MsgSubscriber (par_subscribers m) ;; w_string (par_diagnostic m).
(** S/core/vasio/VAsioSerdes.cpp 122-140. *)
Definition des_ParticipantAnnouncementReply (v : version) : R ParticipantAnnouncementReply :=
  if version_eqb v v30 then des30_ParticipantAnnouncementReply
  else h <- des_RegistryMsgHeader ;; s <- r_u8 ;; l <- r_vector des_MsgSubscriber ;;
       d <- r_if_remaining r_string (r_ret []) ;;
       r_ret (mkParticipantAnnouncementReply h s l d).
(** S/core/vasio/VAsioSerdes.cpp 142-154. *)
Definition ser_KnownParticipants (v : version) (m : KnownParticipants) : W :=
  if version_eqb v v30 then ser30_KnownParticipants m
  else ser_RegistryMsgHeader (kp_messageHeader m) ;; w_vector ser_PeerInfo (kp_peerInfos m).
(** S/core/vasio/VAsioSerdes.cpp 155-167. *)
Definition des_KnownParticipants (v : version) : R KnownParticipants :=
  if version_eqb v v30 then des30_KnownParticipants
  else h <- des_RegistryMsgHeader ;; l <- r_vector des_PeerInfo ;; r_ret (mkKnownParticipants h l).

(** S/core/vasio/VAsioDatatypes.hpp 117-128, VAsioSerdes.cpp 169-221. The header is its version byte. *)
Record ProxyMessage := mkProxyMessage {
  pm_headerVersion : N; pm_source : list N; pm_destination : list N; pm_payload : list N }.
Definition w_throw : W := fun _ => Exn.
Definition ser_ProxyMessageHeader (v : version) (x : N) : W :=
  if version_ltb v v31 then w_throw else w_u8 x.
Definition des_ProxyMessageHeader (v : version) : R N :=
  if version_ltb v v31 then r_throw else r_u8.
Definition ser_ProxyMessage (v : version) (m : ProxyMessage) : W :=
  if version_ltb v v31 then w_throw else
  ser_ProxyMessageHeader v (pm_headerVersion m) ;; w_string (pm_source m) ;; w_string (pm_destination m) ;;
  w_bytes (pm_payload m).
Definition des_ProxyMessage (v : version) : R ProxyMessage :=
  if version_ltb v v31 then r_throw else
  h <- des_ProxyMessageHeader v ;; s <- r_string ;; d <- r_string ;; p <- r_bytes ;;
  r_ret (mkProxyMessage h s d p).

(** ** SerializedMessage: network headers and framing. *)

(** S/core/vasio/VAsioMsgKind.hpp, S/core/vasio/VAsioDatatypes.hpp 98-115: tags. *)
Definition k_mw : N := 3.
Definition k_sim : N := 4.
Definition k_registry : N := 5.
Definition k_proxy : N := 6.
Definition rk_invalid : N := 0.
Definition rk_announcement : N := 1.
Definition rk_reply : N := 2.
Definition rk_known : N := 3.
Definition rk_connect_request : N := 4.
(** S/core/vasio/SerializedMessageTraits.hpp 95-98. *)
Definition is_mw_or_sim (k : N) : bool := (k =? k_mw) || (k =? k_sim).

(** S/core/vasio/SerializedMessage.hpp 100-113: the header members. *)
Record netheader := mkNetheader {
  nh_size : N; nh_kind : N; nh_registryKind : N; nh_registryHeader : RegistryMsgHeader;
  nh_proxyVersion : N; nh_remoteIndex : N; nh_address : EndpointAddress }.

(** S/core/vasio/SerializedMessage.cpp WriteNetworkHeaders (79-91). *)
Definition w_network_headers (kind registryKind remoteIndex : N) (addr : EndpointAddress) : W :=
  w_u32 0 ;; w_u8 kind ;;
  (if kind =? k_registry then w_u8 registryKind else w_skip) ;;
  (if is_mw_or_sim kind then w_u64 remoteIndex ;; ser_EndpointAddress addr else w_skip).

(** S/core/vasio/SerializedMessage.cpp ReleaseStorage (17-27): the size replaces the first four bytes; a buffer
    shorter than that would be overrun by the memcpy. *)
Definition release_storage (b : mbuf) : res (list N) :=
  if u32_max <? Nlen (storage b) then Exn
  else write_range 0 (le_bytes 4 (Nlen (storage b))) (storage b).

(** S/core/vasio/SerializedMessage.hpp 119-164: the constructors for sending, followed by ReleaseStorage. The re-reading of the
    headers at their end (for unit tests) does not touch the storage and is omitted here (that it may throw is modelled by
    HandshakeModel.send_versioned); so is IncreaseCapacity. *)
Definition serialize_message (kind registryKind remoteIndex : N) (addr : EndpointAddress) (body : W) : res (list N) :=
  bind ((w_network_headers kind registryKind remoteIndex addr ;; body) mbuf_new) release_storage.

(** S/core/vasio/VAsioSerdes.cpp 270-290: memcpy of sizeof(RegistryMsgHeader) = 8 bytes from the read position
    without any size check. *)
Definition peek_registry_header : R RegistryMsgHeader := fun b =>
  bind (read_range (rpos b) 8 (storage b)) (fun raw =>
  bind (des_RegistryMsgHeader (mbuf_of raw)) (fun hb => Ok (fst hb, b))).

(** S/core/vasio/SerializedMessage.cpp ReadNetworkHeaders (93-147) for a buffer of version [v]. *)
Definition read_network_headers (v : version) : R netheader :=
  size <- r_u32 ;; kind <- r_u8 ;;
  rk_rh <- (if kind =? k_registry then
     rk <- r_u8 ;;
     rh <- (if (rk =? rk_announcement) || (rk =? rk_known) || (rk =? rk_connect_request)
            then peek_registry_header
            else if rk =? rk_reply then
              if version_eqb v v31 then peek_registry_header
              else if version_eqb v v30 then r_ret (make_header v30)
              else r_throw
            else if rk =? rk_invalid then r_throw
            else r_ret (make_header current_version)) ;;
     r_ret (rk, rh)
   else r_ret (rk_invalid, make_header current_version)) ;;
  proxy <- (if kind =? k_proxy then r_peek (des_ProxyMessageHeader v) else r_ret 0) ;;
  idx_addr <- (if is_mw_or_sim kind then r_pair r_u64 des_EndpointAddress
               else r_ret (0, mkEndpointAddress 0 0)) ;;
  r_ret (mkNetheader size kind (fst rk_rh) (snd rk_rh) proxy (fst idx_addr) (snd idx_addr)).

(** S/core/vasio/SerializedMessage.cpp 11-15: constructor from received bytes; the buffer has the current
    version while the headers are read (S/core/internal/MessageBuffer.hpp 257). *)
Definition parse_message (blob : list N) : res (netheader * mbuf) :=
  read_network_headers current_version (mbuf_of blob).

(** S/core/vasio/VAsioConnection.cpp 693-721: the first part of ReceiveParticipantAnnouncement. *)
Inductive announcement_result :=
| AnnRejected                                           (* nothing is decoded; HandshakeModel says what is sent *)
| AnnAccepted (v : version) (m : ParticipantAnnouncement). (* peer speaks version v *)
Definition receive_announcement (h : netheader) (b : mbuf) : res announcement_result :=
  if version_supported (nh_registryHeader h) then
    let v := header_version (nh_registryHeader h) in
    bind (des_ParticipantAnnouncement v b) (fun mb => Ok (AnnAccepted v (fst mb)))
  else Ok AnnRejected.

(** S/core/vasio/VAsioConnection.cpp 891-922: ReceiveKnownParticpants from a peer of version [v]. [None]: a failure
    reply is sent and the list is ignored. *)
Definition receive_known_participants (v : version) (b : mbuf) : res (option (version * list PeerInfo)) :=
  bind (des_KnownParticipants v b) (fun mb =>
  let m := fst mb in
  if version_supported (kp_messageHeader m)
  then Ok (Some (header_version (kp_messageHeader m), kp_peerInfos m)) else Ok None).
