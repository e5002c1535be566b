(** Well-formed messages: every field is within the range of its C++ type, and lengths fit into 32 bits.
    These are exactly the messages a participant can send. *)
From Coq Require Import List NArith ZArith Bool.
From Verif Require Import Base MessageBufferModel MessageBufferSpec SerdesModel.
Import ListNotations.
Local Open Scope N_scope.

Definition is_uuid (u : N * N) : Prop := is_u 8 (fst u) /\ is_u 8 (snd u).
Definition is_vec {A} (P : A -> Prop) (l : list A) : Prop := Nlen l < 2 ^ 32 /\ Forall P l.

Record wf_CanFrameEvent (m : CanFrameEvent) : Prop := {
  wf_cfe_timestamp : is_i 8 (cfe_timestamp m);
  wf_cfe_canId : is_u 4 (cfe_canId m);
  wf_cfe_flags : is_u 4 (cfe_flags m);
  wf_cfe_dlc : is_u 2 (cfe_dlc m);
  wf_cfe_sdt : is_u 1 (cfe_sdt m);
  wf_cfe_vcid : is_u 1 (cfe_vcid m);
  wf_cfe_af : is_u 4 (cfe_af m);
  wf_cfe_dataField : is_bytes (cfe_dataField m);
  wf_cfe_direction : is_u 1 (cfe_direction m);
  wf_cfe_userContext : is_u 8 (cfe_userContext m) }.

Record wf_CanFrameTransmitEvent (m : CanFrameTransmitEvent) : Prop := {
  wf_cte_canId : is_u 4 (cte_canId m);
  wf_cte_timestamp : is_i 8 (cte_timestamp m);
  wf_cte_status : is_i 4 (cte_status m);
  wf_cte_userContext : is_u 8 (cte_userContext m) }.

Record wf_CanControllerStatus (m : CanControllerStatus) : Prop := {
  wf_ccs_timestamp : is_i 8 (ccs_timestamp m);
  wf_ccs_controllerState : is_i 4 (ccs_controllerState m);
  wf_ccs_errorState : is_i 4 (ccs_errorState m) }.

Record wf_CanConfigureBaudrate (m : CanConfigureBaudrate) : Prop := {
  wf_ccb_baudRate : is_u 4 (ccb_baudRate m);
  wf_ccb_fdBaudRate : is_u 4 (ccb_fdBaudRate m);
  wf_ccb_xlBaudRate : is_u 4 (ccb_xlBaudRate m) }.

Record wf_LinFrame (m : LinFrame) : Prop := {
  wf_lf_id : is_u 1 (lf_id m);
  wf_lf_checksumModel : is_u 1 (lf_checksumModel m);
  wf_lf_dataLength : is_u 1 (lf_dataLength m);
  wf_lf_data : (fun l => length l = 8%nat) (lf_data m) }.

Record wf_LinSendFrameRequest (m : LinSendFrameRequest) : Prop := {
  wf_lsr_frame : wf_LinFrame (lsr_frame m);
  wf_lsr_responseType : is_u 1 (lsr_responseType m) }.

Record wf_LinSendFrameHeaderRequest (m : LinSendFrameHeaderRequest) : Prop := {
  wf_lsh_timestamp : is_i 8 (lsh_timestamp m);
  wf_lsh_id : is_u 1 (lsh_id m) }.

Record wf_LinTransmission (m : LinTransmission) : Prop := {
  wf_lt_timestamp : is_i 8 (lt_timestamp m);
  wf_lt_frame : wf_LinFrame (lt_frame m);
  wf_lt_status : is_u 1 (lt_status m) }.

Record wf_LinWakeupPulse (m : LinWakeupPulse) : Prop := {
  wf_lwp_timestamp : is_i 8 (lwp_timestamp m);
  wf_lwp_direction : is_u 1 (lwp_direction m) }.

Record wf_LinFrameResponse (m : LinFrameResponse) : Prop := {
  wf_lfr_frame : wf_LinFrame (lfr_frame m);
  wf_lfr_responseMode : is_u 1 (lfr_responseMode m) }.

Record wf_LinControllerStatusUpdate (m : LinControllerStatusUpdate) : Prop := {
  wf_lcs_timestamp : is_i 8 (lcs_timestamp m);
  wf_lcs_status : is_u 4 (lcs_status m) }.

Record wf_LinFrameResponseUpdate (m : LinFrameResponseUpdate) : Prop := {
  wf_lfu_frameResponses : is_vec wf_LinFrameResponse (lfu_frameResponses m) }.

Record wf_EthernetFrame (m : EthernetFrame) : Prop := {
  wf_ef_raw : is_bytes (ef_raw m) }.

Record wf_EthernetFrameEvent (m : EthernetFrameEvent) : Prop := {
  wf_efe_timestamp : is_i 8 (efe_timestamp m);
  wf_efe_frame : wf_EthernetFrame (efe_frame m);
  wf_efe_direction : is_u 1 (efe_direction m);
  wf_efe_userContext : is_u 8 (efe_userContext m) }.

Record wf_EthernetFrameTransmitEvent (m : EthernetFrameTransmitEvent) : Prop := {
  wf_ete_timestamp : is_i 8 (ete_timestamp m);
  wf_ete_status : is_u 4 (ete_status m);
  wf_ete_userContext : is_u 8 (ete_userContext m) }.

Record wf_EthernetStatus (m : EthernetStatus) : Prop := {
  wf_est_timestamp : is_i 8 (est_timestamp m);
  wf_est_state : is_u 4 (est_state m);
  wf_est_bitrate : is_u 4 (est_bitrate m) }.

Record wf_EthernetSetMode (m : EthernetSetMode) : Prop := {
  wf_esm_mode : is_u 1 (esm_mode m) }.

Record wf_FlexrayHeader (m : FlexrayHeader) : Prop := {
  wf_fh_flags : is_u 1 (fh_flags m);
  wf_fh_frameId : is_u 2 (fh_frameId m);
  wf_fh_payloadLength : is_u 1 (fh_payloadLength m);
  wf_fh_headerCrc : is_u 2 (fh_headerCrc m);
  wf_fh_cycleCount : is_u 1 (fh_cycleCount m) }.

Record wf_FlexrayFrame (m : FlexrayFrame) : Prop := {
  wf_ff_header : wf_FlexrayHeader (ff_header m);
  wf_ff_payload : is_bytes (ff_payload m) }.

Record wf_FlexrayFrameEvent (m : FlexrayFrameEvent) : Prop := {
  wf_ffe_timestamp : is_i 8 (ffe_timestamp m);
  wf_ffe_channel : is_u 4 (ffe_channel m);
  wf_ffe_frame : wf_FlexrayFrame (ffe_frame m) }.

Record wf_FlexrayFrameTransmitEvent (m : FlexrayFrameTransmitEvent) : Prop := {
  wf_fft_timestamp : is_i 8 (fft_timestamp m);
  wf_fft_txBufferIndex : is_u 2 (fft_txBufferIndex m);
  wf_fft_channel : is_u 4 (fft_channel m);
  wf_fft_frame : wf_FlexrayFrame (fft_frame m) }.

Record wf_FlexraySymbolEvent (m : FlexraySymbolEvent) : Prop := {
  wf_fse_timestamp : is_i 8 (fse_timestamp m);
  wf_fse_channel : is_u 4 (fse_channel m);
  wf_fse_pattern : is_u 1 (fse_pattern m) }.

Record wf_FlexrayCycleStartEvent (m : FlexrayCycleStartEvent) : Prop := {
  wf_fcs_timestamp : is_i 8 (fcs_timestamp m);
  wf_fcs_cycleCounter : is_u 1 (fcs_cycleCounter m) }.

Record wf_FlexrayHostCommand (m : FlexrayHostCommand) : Prop := {
  wf_fhc_command : is_u 1 (fhc_command m) }.

Record wf_FlexrayClusterParameters (m : FlexrayClusterParameters) : Prop := {
  wf_fcp_gColdstartAttempts : is_u 1 (fcp_gColdstartAttempts m);
  wf_fcp_gCycleCountMax : is_u 1 (fcp_gCycleCountMax m);
  wf_fcp_gdActionPointOffset : is_u 2 (fcp_gdActionPointOffset m);
  wf_fcp_gdDynamicSlotIdlePhase : is_u 2 (fcp_gdDynamicSlotIdlePhase m);
  wf_fcp_gdMiniSlot : is_u 2 (fcp_gdMiniSlot m);
  wf_fcp_gdMiniSlotActionPointOffset : is_u 2 (fcp_gdMiniSlotActionPointOffset m);
  wf_fcp_gdStaticSlot : is_u 2 (fcp_gdStaticSlot m);
  wf_fcp_gdSymbolWindow : is_u 2 (fcp_gdSymbolWindow m);
  wf_fcp_gdSymbolWindowActionPointOffset : is_u 2 (fcp_gdSymbolWindowActionPointOffset m);
  wf_fcp_gdTSSTransmitter : is_u 2 (fcp_gdTSSTransmitter m);
  wf_fcp_gdWakeupTxActive : is_u 2 (fcp_gdWakeupTxActive m);
  wf_fcp_gdWakeupTxIdle : is_u 2 (fcp_gdWakeupTxIdle m);
  wf_fcp_gListenNoise : is_u 1 (fcp_gListenNoise m);
  wf_fcp_gMacroPerCycle : is_u 2 (fcp_gMacroPerCycle m);
  wf_fcp_gMaxWithoutClockCorrectionFatal : is_u 1 (fcp_gMaxWithoutClockCorrectionFatal m);
  wf_fcp_gMaxWithoutClockCorrectionPassive : is_u 1 (fcp_gMaxWithoutClockCorrectionPassive m);
  wf_fcp_gNumberOfMiniSlots : is_u 2 (fcp_gNumberOfMiniSlots m);
  wf_fcp_gNumberOfStaticSlots : is_u 2 (fcp_gNumberOfStaticSlots m);
  wf_fcp_gPayloadLengthStatic : is_u 2 (fcp_gPayloadLengthStatic m);
  wf_fcp_gSyncFrameIDCountMax : is_u 1 (fcp_gSyncFrameIDCountMax m) }.

Record wf_FlexrayNodeParameters (m : FlexrayNodeParameters) : Prop := {
  wf_fnp_pAllowHaltDueToClock : is_u 1 (fnp_pAllowHaltDueToClock m);
  wf_fnp_pAllowPassiveToActive : is_u 1 (fnp_pAllowPassiveToActive m);
  wf_fnp_pChannels : is_u 4 (fnp_pChannels m);
  wf_fnp_pClusterDriftDamping : is_u 1 (fnp_pClusterDriftDamping m);
  wf_fnp_pdAcceptedStartupRange : is_i 4 (fnp_pdAcceptedStartupRange m);
  wf_fnp_pdListenTimeout : is_i 4 (fnp_pdListenTimeout m);
  wf_fnp_pKeySlotId : is_u 2 (fnp_pKeySlotId m);
  wf_fnp_pKeySlotOnlyEnabled : is_u 1 (fnp_pKeySlotOnlyEnabled m);
  wf_fnp_pKeySlotUsedForStartup : is_u 1 (fnp_pKeySlotUsedForStartup m);
  wf_fnp_pKeySlotUsedForSync : is_u 1 (fnp_pKeySlotUsedForSync m);
  wf_fnp_pLatestTx : is_u 2 (fnp_pLatestTx m);
  wf_fnp_pMacroInitialOffsetA : is_u 1 (fnp_pMacroInitialOffsetA m);
  wf_fnp_pMacroInitialOffsetB : is_u 1 (fnp_pMacroInitialOffsetB m);
  wf_fnp_pMicroInitialOffsetA : is_i 4 (fnp_pMicroInitialOffsetA m);
  wf_fnp_pMicroInitialOffsetB : is_i 4 (fnp_pMicroInitialOffsetB m);
  wf_fnp_pMicroPerCycle : is_i 4 (fnp_pMicroPerCycle m);
  wf_fnp_pOffsetCorrectionOut : is_i 4 (fnp_pOffsetCorrectionOut m);
  wf_fnp_pOffsetCorrectionStart : is_u 2 (fnp_pOffsetCorrectionStart m);
  wf_fnp_pRateCorrectionOut : is_i 4 (fnp_pRateCorrectionOut m);
  wf_fnp_pWakeupChannel : is_u 4 (fnp_pWakeupChannel m);
  wf_fnp_pWakeupPattern : is_u 1 (fnp_pWakeupPattern m);
  wf_fnp_pdMicrotick : is_u 4 (fnp_pdMicrotick m);
  wf_fnp_pSamplesPerMicrotick : is_u 1 (fnp_pSamplesPerMicrotick m) }.

Record wf_FlexrayTxBufferConfig (m : FlexrayTxBufferConfig) : Prop := {
  wf_ftc_channels : is_u 4 (ftc_channels m);
  wf_ftc_slotId : is_u 2 (ftc_slotId m);
  wf_ftc_offset : is_u 1 (ftc_offset m);
  wf_ftc_repetition : is_u 1 (ftc_repetition m);
  wf_ftc_hasPayloadPreambleIndicator : is_u 1 (ftc_hasPayloadPreambleIndicator m);
  wf_ftc_headerCrc : is_u 2 (ftc_headerCrc m);
  wf_ftc_transmissionMode : is_u 1 (ftc_transmissionMode m) }.

Record wf_FlexrayTxBufferConfigUpdate (m : FlexrayTxBufferConfigUpdate) : Prop := {
  wf_ftcu_txBufferIndex : is_u 2 (ftcu_txBufferIndex m);
  wf_ftcu_txBufferConfig : wf_FlexrayTxBufferConfig (ftcu_txBufferConfig m) }.

Record wf_FlexrayTxBufferUpdate (m : FlexrayTxBufferUpdate) : Prop := {
  wf_ftu_txBufferIndex : is_u 2 (ftu_txBufferIndex m);
  wf_ftu_payloadDataValid : is_u 1 (ftu_payloadDataValid m);
  wf_ftu_payload : is_bytes (ftu_payload m) }.

Record wf_FlexrayPocStatusEvent (m : FlexrayPocStatusEvent) : Prop := {
  wf_fps_timestamp : is_i 8 (fps_timestamp m);
  wf_fps_chiHaltRequest : is_u 1 (fps_chiHaltRequest m);
  wf_fps_coldstartNoise : is_u 1 (fps_coldstartNoise m);
  wf_fps_errorMode : is_u 1 (fps_errorMode m);
  wf_fps_freeze : is_u 1 (fps_freeze m);
  wf_fps_slotMode : is_u 1 (fps_slotMode m);
  wf_fps_startupState : is_u 1 (fps_startupState m);
  wf_fps_state : is_u 1 (fps_state m);
  wf_fps_wakeupStatus : is_u 1 (fps_wakeupStatus m);
  wf_fps_chiReadyRequest : is_u 1 (fps_chiReadyRequest m) }.

Record wf_DataMessageEvent (m : DataMessageEvent) : Prop := {
  wf_dme_data : is_bytes (dme_data m);
  wf_dme_timestamp : is_i 8 (dme_timestamp m) }.

Record wf_FunctionCall (m : FunctionCall) : Prop := {
  wf_fc_timestamp : is_i 8 (fc_timestamp m);
  wf_fc_callUuid : is_uuid (fc_callUuid m);
  wf_fc_data : is_bytes (fc_data m) }.

Record wf_FunctionCallResponse (m : FunctionCallResponse) : Prop := {
  wf_fcr_timestamp : is_i 8 (fcr_timestamp m);
  wf_fcr_callUuid : is_uuid (fcr_callUuid m);
  wf_fcr_data : is_bytes (fcr_data m);
  wf_fcr_status : is_u 4 (fcr_status m) }.

Record wf_NextSimTask (m : NextSimTask) : Prop := {
  wf_nst_timePoint : is_i 8 (nst_timePoint m);
  wf_nst_duration : is_i 8 (nst_duration m) }.

Record wf_SystemCommand (m : SystemCommand) : Prop := {
  wf_sc_kind : is_u 1 (sc_kind m) }.

Record wf_WorkflowConfiguration (m : WorkflowConfiguration) : Prop := {
  wf_wc_requiredParticipantNames : is_vec is_bytes (wc_requiredParticipantNames m) }.

Record wf_MetricData (m : MetricData) : Prop := {
  wf_md_timestamp : is_u 8 (md_timestamp m);
  wf_md_name : is_bytes (md_name m);
  wf_md_kind : is_i 4 (md_kind m);
  wf_md_value : is_bytes (md_value m) }.

Record wf_MetricsUpdate (m : MetricsUpdate) : Prop := {
  wf_mu_metrics : is_vec wf_MetricData (mu_metrics m) }.

Record wf_ServiceDescriptor (m : ServiceDescriptor) : Prop := {
  wf_sd_participantName : is_bytes (sd_participantName m);
  wf_sd_serviceType : is_u 1 (sd_serviceType m);
  wf_sd_networkName : is_bytes (sd_networkName m);
  wf_sd_networkType : is_i 4 (sd_networkType m);
  wf_sd_serviceName : is_bytes (sd_serviceName m);
  wf_sd_serviceId : is_u 8 (sd_serviceId m);
  wf_sd_supplementalData : is_map (sd_supplementalData m);
  wf_sd_participantId : is_u 8 (sd_participantId m) }.

Record wf_ParticipantDiscoveryEvent (m : ParticipantDiscoveryEvent) : Prop := {
  wf_pde_participantName : is_bytes (pde_participantName m);
  wf_pde_version : is_u 8 (pde_version m);
  wf_pde_services : is_vec wf_ServiceDescriptor (pde_services m) }.

Record wf_ServiceDiscoveryEvent (m : ServiceDiscoveryEvent) : Prop := {
  wf_sde_type : is_i 4 (sde_type m);
  wf_sde_serviceDescriptor : wf_ServiceDescriptor (sde_serviceDescriptor m) }.

Record wf_RequestReplyCall (m : RequestReplyCall) : Prop := {
  wf_rrc_callUuid : is_uuid (rrc_callUuid m);
  wf_rrc_functionType : is_u 2 (rrc_functionType m);
  wf_rrc_callData : is_bytes (rrc_callData m) }.

Record wf_RequestReplyCallReturn (m : RequestReplyCallReturn) : Prop := {
  wf_rrr_callUuid : is_uuid (rrr_callUuid m);
  wf_rrr_functionType : is_u 2 (rrr_functionType m);
  wf_rrr_callReturnData : is_bytes (rrr_callReturnData m);
  wf_rrr_callReturnStatus : is_u 2 (rrr_callReturnStatus m) }.

Record wf_EndpointAddress (m : EndpointAddress) : Prop := {
  wf_ea_participant : is_u 8 (ea_participant m);
  wf_ea_endpoint : is_u 8 (ea_endpoint m) }.

Record wf_RegistryMsgHeader (m : RegistryMsgHeader) : Prop := {
  wf_rmh_preamble : is_u 4 (rmh_preamble m);
  wf_rmh_versionHigh : is_u 2 (rmh_versionHigh m);
  wf_rmh_versionLow : is_u 2 (rmh_versionLow m) }.

Record wf_PeerInfo (m : PeerInfo) : Prop := {
  wf_pi_participantName : is_bytes (pi_participantName m);
  wf_pi_participantId : is_u 8 (pi_participantId m);
  wf_pi_acceptorUris : is_vec is_bytes (pi_acceptorUris m);
  wf_pi_capabilities : is_bytes (pi_capabilities m) }.

Record wf_MsgSubscriber (m : MsgSubscriber) : Prop := {
  wf_ms_receiverIdx : is_u 8 (ms_receiverIdx m);
  wf_ms_networkName : is_bytes (ms_networkName m);
  wf_ms_msgTypeName : is_bytes (ms_msgTypeName m);
  wf_ms_version : is_u 4 (ms_version m) }.

Record wf_SubscriptionAcknowledge (m : SubscriptionAcknowledge) : Prop := {
  wf_sa_status : is_u 1 (sa_status m);
  wf_sa_subscriber : wf_MsgSubscriber (sa_subscriber m) }.

Record wf_RemoteParticipantConnectRequest (m : RemoteParticipantConnectRequest) : Prop := {
  wf_rpc_messageHeader : wf_RegistryMsgHeader (rpc_messageHeader m);
  wf_rpc_requestOrigin : wf_PeerInfo (rpc_requestOrigin m);
  wf_rpc_requestTarget : wf_PeerInfo (rpc_requestTarget m);
  wf_rpc_status : is_u 1 (rpc_status m) }.

Record wf_OldMsgSubscriber (m : OldMsgSubscriber) : Prop := {
  wf_oms_receiverIdx : is_u 8 (oms_receiverIdx m);
  wf_oms_networkName : is_bytes (oms_networkName m);
  wf_oms_msgTypeName : is_bytes (oms_msgTypeName m) }.

Record wf_OldPeerInfo (m : OldPeerInfo) : Prop := {
  wf_opi_participantName : is_bytes (opi_participantName m);
  wf_opi_participantId : is_u 8 (opi_participantId m);
  wf_opi_acceptorHost : is_bytes (opi_acceptorHost m);
  wf_opi_acceptorPort : is_u 2 (opi_acceptorPort m) }.

Record wf_OldPeerUri (m : OldPeerUri) : Prop := {
  wf_opu_participantName : is_bytes (opu_participantName m);
  wf_opu_participantId : is_u 8 (opu_participantId m);
  wf_opu_acceptorUris : is_vec is_bytes (opu_acceptorUris m) }.

Record wf_OldRegistryMsgHeader (m : OldRegistryMsgHeader) : Prop := {
  wf_orh_preambel : (fun l => length l = 4%nat) (orh_preambel m);
  wf_orh_versionHigh : is_u 2 (orh_versionHigh m);
  wf_orh_versionLow : is_u 2 (orh_versionLow m) }.

Record wf_OldParticipantAnnouncement (m : OldParticipantAnnouncement) : Prop := {
  wf_opa_messageHeader : wf_OldRegistryMsgHeader (opa_messageHeader m);
  wf_opa_peerInfo : wf_OldPeerInfo (opa_peerInfo m);
  wf_opa_peerUri : wf_OldPeerUri (opa_peerUri m) }.

Record wf_OldParticipantAnnouncementReply (m : OldParticipantAnnouncementReply) : Prop := {
  wf_opr_subscribers : is_vec wf_OldMsgSubscriber (opr_subscribers m) }.

Record wf_CanSetControllerMode (m : CanSetControllerMode) : Prop := {
  wf_csm_padding : csm_padding m < 64;
  wf_csm_mode : is_i 4 (csm_mode m) }.

Record wf_LinControllerConfig (m : LinControllerConfig) : Prop := {
  wf_lcc_controllerMode : is_u 1 (lcc_controllerMode m);
  wf_lcc_baudRate : is_u 4 (lcc_baudRate m);
  wf_lcc_frameResponses : is_vec wf_LinFrameResponse (lcc_frameResponses m);
  wf_lcc_simulationMode : is_u 1 (lcc_simulationMode m) }.

Record wf_FlexrayControllerConfig (m : FlexrayControllerConfig) : Prop := {
  wf_fcc_clusterParams : wf_FlexrayClusterParameters (fcc_clusterParams m);
  wf_fcc_nodeParams : wf_FlexrayNodeParameters (fcc_nodeParams m);
  wf_fcc_bufferConfigs : is_vec wf_FlexrayTxBufferConfig (fcc_bufferConfigs m);
  wf_fcc_pSecondKeySlotId : is_u 2 (fcc_pSecondKeySlotId m);
  wf_fcc_pTwoKeySlotMode : is_u 1 (fcc_pTwoKeySlotMode m) }.

(** A point in time in ns, as int64. *)
Record wf_ParticipantStatus (m : ParticipantStatus) : Prop := {
  wf_ps_participantName : is_bytes (ps_participantName m);
  wf_ps_state : is_i 2 (ps_state m);
  wf_ps_enterReason : is_bytes (ps_enterReason m);
  wf_ps_enterTime : is_i 8 (ps_enterTime m);
  wf_ps_refreshTime : is_i 8 (ps_refreshTime m) }.

(** What the wire can carry of a point in time: whole microseconds (truncated towards the epoch). *)
Definition to_us (ns : Z) : Z := (Z.quot ns 1000 * 1000)%Z.
Definition ps_to_us (m : ParticipantStatus) : ParticipantStatus :=
  mkParticipantStatus (ps_participantName m) (ps_state m) (ps_enterReason m)
    (to_us (ps_enterTime m)) (to_us (ps_refreshTime m)).

Record wf_SourceLoc (m : SourceLoc) : Prop := {
  wf_sl_filename : is_bytes (sl_filename m);
  wf_sl_line : is_u 4 (sl_line m);
  wf_sl_funcname : is_bytes (sl_funcname m) }.

(** The topic is one of the enumerators. *)
Record wf_LogMsg (m : LogMsg) : Prop := {
  wf_lm_loggerName : is_bytes (lm_loggerName m);
  wf_lm_level : is_u 4 (lm_level m);
  wf_lm_time : is_i 8 (lm_time m);
  wf_lm_source : wf_SourceLoc (lm_source m);
  wf_lm_payload : is_bytes (lm_payload m);
  wf_lm_keyValues : is_vec (fun p => is_bytes (fst p) /\ is_bytes (snd p)) (lm_keyValues m);
  wf_lm_topic : lm_topic m <= 22 \/ lm_topic m = 4294967295 }.
Definition lm_to_us (m : LogMsg) : LogMsg :=
  mkLogMsg (lm_loggerName m) (lm_level m) (to_us (lm_time m)) (lm_source m) (lm_payload m) (lm_keyValues m)
    (lm_topic m).

Record wf_ParticipantAnnouncement (m : ParticipantAnnouncement) : Prop := {
  wf_pa_messageHeader : wf_RegistryMsgHeader (pa_messageHeader m);
  wf_pa_peerInfo : wf_PeerInfo (pa_peerInfo m);
  wf_pa_simulationName : is_bytes (pa_simulationName m) }.

Record wf_ParticipantAnnouncementReply (m : ParticipantAnnouncementReply) : Prop := {
  wf_par_remoteHeader : wf_RegistryMsgHeader (par_remoteHeader m);
  wf_par_status : is_u 1 (par_status m);
  wf_par_subscribers : is_vec wf_MsgSubscriber (par_subscribers m);
  wf_par_diagnostic : is_bytes (par_diagnostic m) }.

Record wf_KnownParticipants (m : KnownParticipants) : Prop := {
  wf_kp_messageHeader : wf_RegistryMsgHeader (kp_messageHeader m);
  wf_kp_peerInfos : is_vec wf_PeerInfo (kp_peerInfos m) }.

Record wf_ProxyMessage (m : ProxyMessage) : Prop := {
  wf_pm_headerVersion : is_u 1 (pm_headerVersion m);
  wf_pm_source : is_bytes (pm_source m);
  wf_pm_destination : is_bytes (pm_destination m);
  wf_pm_payload : is_bytes (pm_payload m) }.

(** A service message is delivered unchanged: the sender builds the framed message ([serialize_message]) around the
    encoder [w]; the receiver parses the headers and runs the decoder [r] on the rest, which consumes everything.
    The only way for sending to fail is a message that does not fit the 32-bit length prefix (29 = 4 + 1 + 8 + 16
    bytes of headers). *)
Definition delivered {A} (kind idx : N) (addr : EndpointAddress) (w : W) (r : R A) (a : A) : Prop :=
  match serialize_message kind rk_invalid idx addr w with
  | Ok blob =>
      exists h b b', parse_message blob = Ok (h, b) /\
        nh_size h = Nlen blob /\ nh_kind h = kind /\ nh_remoteIndex h = idx /\ nh_address h = addr /\
        r b = Ok (a, b') /\ remaining b' = 0%nat
  | Exn => exists b, w mbuf_new = Ok b /\ 2 ^ 32 <= Nlen (storage b) + 29
  | UB => False
  end.

(** What a participant of protocol version 3.0 learns about a peer. *)
Definition same_peer (p q : PeerInfo) : Prop :=
  pi_participantName p = pi_participantName q /\ pi_participantId p = pi_participantId q /\
  pi_acceptorUris p = pi_acceptorUris q.
Definition same_subscription (s t : MsgSubscriber) : Prop :=
  ms_receiverIdx s = ms_receiverIdx t /\ ms_networkName s = ms_networkName t /\
  ms_msgTypeName s = ms_msgTypeName t.

(** Encodings by senders that do not know the optional trailing fields. *)
Definition old_ser_LinControllerConfig (m : LinControllerConfig) : W :=
  (w_u8 (lcc_controllerMode m) ;; w_u32 (lcc_baudRate m) ;;
   w_vector ser_LinFrameResponse (lcc_frameResponses m))%mb.
Definition old_ser_FlexrayControllerConfig (m : FlexrayControllerConfig) : W :=
  (ser_FlexrayClusterParameters (fcc_clusterParams m) ;;
   ser_FlexrayNodeParameters (fcc_nodeParams m) ;;
   w_vector ser_FlexrayTxBufferConfig (fcc_bufferConfigs m))%mb.
Definition old1_ser_LogMsg (m : LogMsg) : W :=      (* before key-values *)
  (w_string (lm_loggerName m) ;; w_u32 (lm_level m) ;; w_timepoint (lm_time m) ;; ser_SourceLoc (lm_source m) ;;
   w_string (lm_payload m))%mb.
Definition old2_ser_LogMsg (m : LogMsg) : W :=      (* before topics *)
  (w_string (lm_loggerName m) ;; w_u32 (lm_level m) ;; w_timepoint (lm_time m) ;; ser_SourceLoc (lm_source m) ;;
   w_string (lm_payload m) ;; w_vector (w_pair w_string w_string) (lm_keyValues m))%mb.
Definition old_ser_ParticipantAnnouncement (m : ParticipantAnnouncement) : W :=  (* 3.1 before simulation names *)
  (ser_RegistryMsgHeader (pa_messageHeader m) ;; ser_PeerInfo (pa_peerInfo m))%mb.
Definition old_ser_ParticipantAnnouncementReply (m : ParticipantAnnouncementReply) : W :=  (* 3.1 before 4.0.8 *)
  (ser_RegistryMsgHeader (par_remoteHeader m) ;; w_u8 (par_status m) ;;
   w_vector ser_MsgSubscriber (par_subscribers m))%mb.

(** The eight bytes of a handshake header. *)
Definition hdr_bytes (h : RegistryMsgHeader) : list N :=
  le_bytes 4 (rmh_preamble h) ++ le_bytes 2 (rmh_versionHigh h) ++ le_bytes 2 (rmh_versionLow h).
(** The whole way of a registry message. *)
Definition registry_received {A} (rk : N) (h : RegistryMsgHeader) (w : W) (f : netheader -> mbuf -> res A) (x : A) : Prop :=
  match serialize_message k_registry rk 0 (mkEndpointAddress 0 0) w with
  | Ok blob => exists nh b, parse_message blob = Ok (nh, b) /\ nh_kind nh = k_registry /\ nh_registryKind nh = rk /\
                 nh_registryHeader nh = h /\ f nh b = Ok x
  | Exn => exists b, w mbuf_new = Ok b /\ 2 ^ 32 <= Nlen (storage b) + 6
  | UB => False
  end.


(** What protocol 3.0 carries of an announcement: name, id and acceptor URIs. *)
Definition peer30 (p : PeerInfo) : PeerInfo :=
  mkPeerInfo (pi_participantName p) (pi_participantId p) (pi_acceptorUris p) [].
Definition subscriber30 (s : MsgSubscriber) : MsgSubscriber :=
  mkMsgSubscriber (ms_receiverIdx s) (ms_networkName s) (ms_msgTypeName s) 0.
Definition v30_announcement (m : ParticipantAnnouncement) : ParticipantAnnouncement :=
  mkParticipantAnnouncement (make_header v30) (peer30 (pa_peerInfo m)) [].


(** A message is over-read exactly if it claims to be one of the four registry messages but has less than
    8 bytes behind the two kind bytes. *)
Definition peek_overreads (blob : list N) : Prop :=
  exists b0 b1 b2 b3 rk rest, blob = b0 :: b1 :: b2 :: b3 :: 5 :: rk :: rest /\
    (1 <= rk <= 4) /\ (length rest < 8)%nat.


(** All messages of the services (everything that is not part of the connection handshake). *)
Inductive svc_msg : Type :=
| M_CanFrameEvent (m : CanFrameEvent)
| M_CanFrameTransmitEvent (m : CanFrameTransmitEvent)
| M_CanControllerStatus (m : CanControllerStatus)
| M_CanConfigureBaudrate (m : CanConfigureBaudrate)
| M_LinSendFrameRequest (m : LinSendFrameRequest)
| M_LinSendFrameHeaderRequest (m : LinSendFrameHeaderRequest)
| M_LinTransmission (m : LinTransmission)
| M_LinWakeupPulse (m : LinWakeupPulse)
| M_LinControllerStatusUpdate (m : LinControllerStatusUpdate)
| M_LinFrameResponseUpdate (m : LinFrameResponseUpdate)
| M_EthernetFrameEvent (m : EthernetFrameEvent)
| M_EthernetFrameTransmitEvent (m : EthernetFrameTransmitEvent)
| M_EthernetStatus (m : EthernetStatus)
| M_EthernetSetMode (m : EthernetSetMode)
| M_FlexrayFrameEvent (m : FlexrayFrameEvent)
| M_FlexrayFrameTransmitEvent (m : FlexrayFrameTransmitEvent)
| M_FlexraySymbolEvent (m : FlexraySymbolEvent)
| M_FlexrayCycleStartEvent (m : FlexrayCycleStartEvent)
| M_FlexrayHostCommand (m : FlexrayHostCommand)
| M_FlexrayTxBufferConfigUpdate (m : FlexrayTxBufferConfigUpdate)
| M_FlexrayTxBufferUpdate (m : FlexrayTxBufferUpdate)
| M_FlexrayPocStatusEvent (m : FlexrayPocStatusEvent)
| M_DataMessageEvent (m : DataMessageEvent)
| M_FunctionCall (m : FunctionCall)
| M_FunctionCallResponse (m : FunctionCallResponse)
| M_NextSimTask (m : NextSimTask)
| M_SystemCommand (m : SystemCommand)
| M_WorkflowConfiguration (m : WorkflowConfiguration)
| M_MetricsUpdate (m : MetricsUpdate)
| M_ParticipantDiscoveryEvent (m : ParticipantDiscoveryEvent)
| M_ServiceDiscoveryEvent (m : ServiceDiscoveryEvent)
| M_RequestReplyCall (m : RequestReplyCall)
| M_RequestReplyCallReturn (m : RequestReplyCallReturn)
| M_CanSetControllerMode (m : CanSetControllerMode)
| M_LinControllerConfig (m : LinControllerConfig)
| M_FlexrayControllerConfig (m : FlexrayControllerConfig)
| M_ParticipantStatus (m : ParticipantStatus)
| M_LogMsg (m : LogMsg).

(** The type of a message: which decoder the receiver uses. *)
Inductive svc_type : Type :=
| T_CanFrameEvent | T_CanFrameTransmitEvent | T_CanControllerStatus | T_CanConfigureBaudrate | T_LinSendFrameRequest | T_LinSendFrameHeaderRequest | T_LinTransmission | T_LinWakeupPulse | T_LinControllerStatusUpdate | T_LinFrameResponseUpdate | T_EthernetFrameEvent | T_EthernetFrameTransmitEvent | T_EthernetStatus | T_EthernetSetMode | T_FlexrayFrameEvent | T_FlexrayFrameTransmitEvent | T_FlexraySymbolEvent | T_FlexrayCycleStartEvent | T_FlexrayHostCommand | T_FlexrayTxBufferConfigUpdate | T_FlexrayTxBufferUpdate | T_FlexrayPocStatusEvent | T_DataMessageEvent | T_FunctionCall | T_FunctionCallResponse | T_NextSimTask | T_SystemCommand | T_WorkflowConfiguration | T_MetricsUpdate | T_ParticipantDiscoveryEvent | T_ServiceDiscoveryEvent | T_RequestReplyCall | T_RequestReplyCallReturn | T_CanSetControllerMode | T_LinControllerConfig | T_FlexrayControllerConfig | T_ParticipantStatus | T_LogMsg.
Definition svc_type_of (x : svc_msg) : svc_type :=
  match x with
  | M_CanFrameEvent _ => T_CanFrameEvent
  | M_CanFrameTransmitEvent _ => T_CanFrameTransmitEvent
  | M_CanControllerStatus _ => T_CanControllerStatus
  | M_CanConfigureBaudrate _ => T_CanConfigureBaudrate
  | M_LinSendFrameRequest _ => T_LinSendFrameRequest
  | M_LinSendFrameHeaderRequest _ => T_LinSendFrameHeaderRequest
  | M_LinTransmission _ => T_LinTransmission
  | M_LinWakeupPulse _ => T_LinWakeupPulse
  | M_LinControllerStatusUpdate _ => T_LinControllerStatusUpdate
  | M_LinFrameResponseUpdate _ => T_LinFrameResponseUpdate
  | M_EthernetFrameEvent _ => T_EthernetFrameEvent
  | M_EthernetFrameTransmitEvent _ => T_EthernetFrameTransmitEvent
  | M_EthernetStatus _ => T_EthernetStatus
  | M_EthernetSetMode _ => T_EthernetSetMode
  | M_FlexrayFrameEvent _ => T_FlexrayFrameEvent
  | M_FlexrayFrameTransmitEvent _ => T_FlexrayFrameTransmitEvent
  | M_FlexraySymbolEvent _ => T_FlexraySymbolEvent
  | M_FlexrayCycleStartEvent _ => T_FlexrayCycleStartEvent
  | M_FlexrayHostCommand _ => T_FlexrayHostCommand
  | M_FlexrayTxBufferConfigUpdate _ => T_FlexrayTxBufferConfigUpdate
  | M_FlexrayTxBufferUpdate _ => T_FlexrayTxBufferUpdate
  | M_FlexrayPocStatusEvent _ => T_FlexrayPocStatusEvent
  | M_DataMessageEvent _ => T_DataMessageEvent
  | M_FunctionCall _ => T_FunctionCall
  | M_FunctionCallResponse _ => T_FunctionCallResponse
  | M_NextSimTask _ => T_NextSimTask
  | M_SystemCommand _ => T_SystemCommand
  | M_WorkflowConfiguration _ => T_WorkflowConfiguration
  | M_MetricsUpdate _ => T_MetricsUpdate
  | M_ParticipantDiscoveryEvent _ => T_ParticipantDiscoveryEvent
  | M_ServiceDiscoveryEvent _ => T_ServiceDiscoveryEvent
  | M_RequestReplyCall _ => T_RequestReplyCall
  | M_RequestReplyCallReturn _ => T_RequestReplyCallReturn
  | M_CanSetControllerMode _ => T_CanSetControllerMode
  | M_LinControllerConfig _ => T_LinControllerConfig
  | M_FlexrayControllerConfig _ => T_FlexrayControllerConfig
  | M_ParticipantStatus _ => T_ParticipantStatus
  | M_LogMsg _ => T_LogMsg
  end.
Definition svc_ser (x : svc_msg) : W :=
  match x with
  | M_CanFrameEvent m => ser_CanFrameEvent m
  | M_CanFrameTransmitEvent m => ser_CanFrameTransmitEvent m
  | M_CanControllerStatus m => ser_CanControllerStatus m
  | M_CanConfigureBaudrate m => ser_CanConfigureBaudrate m
  | M_LinSendFrameRequest m => ser_LinSendFrameRequest m
  | M_LinSendFrameHeaderRequest m => ser_LinSendFrameHeaderRequest m
  | M_LinTransmission m => ser_LinTransmission m
  | M_LinWakeupPulse m => ser_LinWakeupPulse m
  | M_LinControllerStatusUpdate m => ser_LinControllerStatusUpdate m
  | M_LinFrameResponseUpdate m => ser_LinFrameResponseUpdate m
  | M_EthernetFrameEvent m => ser_EthernetFrameEvent m
  | M_EthernetFrameTransmitEvent m => ser_EthernetFrameTransmitEvent m
  | M_EthernetStatus m => ser_EthernetStatus m
  | M_EthernetSetMode m => ser_EthernetSetMode m
  | M_FlexrayFrameEvent m => ser_FlexrayFrameEvent m
  | M_FlexrayFrameTransmitEvent m => ser_FlexrayFrameTransmitEvent m
  | M_FlexraySymbolEvent m => ser_FlexraySymbolEvent m
  | M_FlexrayCycleStartEvent m => ser_FlexrayCycleStartEvent m
  | M_FlexrayHostCommand m => ser_FlexrayHostCommand m
  | M_FlexrayTxBufferConfigUpdate m => ser_FlexrayTxBufferConfigUpdate m
  | M_FlexrayTxBufferUpdate m => ser_FlexrayTxBufferUpdate m
  | M_FlexrayPocStatusEvent m => ser_FlexrayPocStatusEvent m
  | M_DataMessageEvent m => ser_DataMessageEvent m
  | M_FunctionCall m => ser_FunctionCall m
  | M_FunctionCallResponse m => ser_FunctionCallResponse m
  | M_NextSimTask m => ser_NextSimTask m
  | M_SystemCommand m => ser_SystemCommand m
  | M_WorkflowConfiguration m => ser_WorkflowConfiguration m
  | M_MetricsUpdate m => ser_MetricsUpdate m
  | M_ParticipantDiscoveryEvent m => ser_ParticipantDiscoveryEvent m
  | M_ServiceDiscoveryEvent m => ser_ServiceDiscoveryEvent m
  | M_RequestReplyCall m => ser_RequestReplyCall m
  | M_RequestReplyCallReturn m => ser_RequestReplyCallReturn m
  | M_CanSetControllerMode m => ser_CanSetControllerMode m
  | M_LinControllerConfig m => ser_LinControllerConfig m
  | M_FlexrayControllerConfig m => ser_FlexrayControllerConfig m
  | M_ParticipantStatus m => ser_ParticipantStatus m
  | M_LogMsg m => ser_LogMsg m
  end.
Definition svc_des (t : svc_type) : R svc_msg :=
  match t with
  | T_CanFrameEvent => r_bind des_CanFrameEvent (fun m => r_ret (M_CanFrameEvent m))
  | T_CanFrameTransmitEvent => r_bind des_CanFrameTransmitEvent (fun m => r_ret (M_CanFrameTransmitEvent m))
  | T_CanControllerStatus => r_bind des_CanControllerStatus (fun m => r_ret (M_CanControllerStatus m))
  | T_CanConfigureBaudrate => r_bind des_CanConfigureBaudrate (fun m => r_ret (M_CanConfigureBaudrate m))
  | T_LinSendFrameRequest => r_bind des_LinSendFrameRequest (fun m => r_ret (M_LinSendFrameRequest m))
  | T_LinSendFrameHeaderRequest => r_bind des_LinSendFrameHeaderRequest (fun m => r_ret (M_LinSendFrameHeaderRequest m))
  | T_LinTransmission => r_bind des_LinTransmission (fun m => r_ret (M_LinTransmission m))
  | T_LinWakeupPulse => r_bind des_LinWakeupPulse (fun m => r_ret (M_LinWakeupPulse m))
  | T_LinControllerStatusUpdate => r_bind des_LinControllerStatusUpdate (fun m => r_ret (M_LinControllerStatusUpdate m))
  | T_LinFrameResponseUpdate => r_bind des_LinFrameResponseUpdate (fun m => r_ret (M_LinFrameResponseUpdate m))
  | T_EthernetFrameEvent => r_bind des_EthernetFrameEvent (fun m => r_ret (M_EthernetFrameEvent m))
  | T_EthernetFrameTransmitEvent => r_bind des_EthernetFrameTransmitEvent (fun m => r_ret (M_EthernetFrameTransmitEvent m))
  | T_EthernetStatus => r_bind des_EthernetStatus (fun m => r_ret (M_EthernetStatus m))
  | T_EthernetSetMode => r_bind des_EthernetSetMode (fun m => r_ret (M_EthernetSetMode m))
  | T_FlexrayFrameEvent => r_bind des_FlexrayFrameEvent (fun m => r_ret (M_FlexrayFrameEvent m))
  | T_FlexrayFrameTransmitEvent => r_bind des_FlexrayFrameTransmitEvent (fun m => r_ret (M_FlexrayFrameTransmitEvent m))
  | T_FlexraySymbolEvent => r_bind des_FlexraySymbolEvent (fun m => r_ret (M_FlexraySymbolEvent m))
  | T_FlexrayCycleStartEvent => r_bind des_FlexrayCycleStartEvent (fun m => r_ret (M_FlexrayCycleStartEvent m))
  | T_FlexrayHostCommand => r_bind des_FlexrayHostCommand (fun m => r_ret (M_FlexrayHostCommand m))
  | T_FlexrayTxBufferConfigUpdate => r_bind des_FlexrayTxBufferConfigUpdate (fun m => r_ret (M_FlexrayTxBufferConfigUpdate m))
  | T_FlexrayTxBufferUpdate => r_bind des_FlexrayTxBufferUpdate (fun m => r_ret (M_FlexrayTxBufferUpdate m))
  | T_FlexrayPocStatusEvent => r_bind des_FlexrayPocStatusEvent (fun m => r_ret (M_FlexrayPocStatusEvent m))
  | T_DataMessageEvent => r_bind des_DataMessageEvent (fun m => r_ret (M_DataMessageEvent m))
  | T_FunctionCall => r_bind des_FunctionCall (fun m => r_ret (M_FunctionCall m))
  | T_FunctionCallResponse => r_bind des_FunctionCallResponse (fun m => r_ret (M_FunctionCallResponse m))
  | T_NextSimTask => r_bind des_NextSimTask (fun m => r_ret (M_NextSimTask m))
  | T_SystemCommand => r_bind des_SystemCommand (fun m => r_ret (M_SystemCommand m))
  | T_WorkflowConfiguration => r_bind des_WorkflowConfiguration (fun m => r_ret (M_WorkflowConfiguration m))
  | T_MetricsUpdate => r_bind des_MetricsUpdate (fun m => r_ret (M_MetricsUpdate m))
  | T_ParticipantDiscoveryEvent => r_bind des_ParticipantDiscoveryEvent (fun m => r_ret (M_ParticipantDiscoveryEvent m))
  | T_ServiceDiscoveryEvent => r_bind des_ServiceDiscoveryEvent (fun m => r_ret (M_ServiceDiscoveryEvent m))
  | T_RequestReplyCall => r_bind des_RequestReplyCall (fun m => r_ret (M_RequestReplyCall m))
  | T_RequestReplyCallReturn => r_bind des_RequestReplyCallReturn (fun m => r_ret (M_RequestReplyCallReturn m))
  | T_CanSetControllerMode => r_bind des_CanSetControllerMode (fun m => r_ret (M_CanSetControllerMode m))
  | T_LinControllerConfig => r_bind des_LinControllerConfig (fun m => r_ret (M_LinControllerConfig m))
  | T_FlexrayControllerConfig => r_bind des_FlexrayControllerConfig (fun m => r_ret (M_FlexrayControllerConfig m))
  | T_ParticipantStatus => r_bind des_ParticipantStatus (fun m => r_ret (M_ParticipantStatus m))
  | T_LogMsg => r_bind des_LogMsg (fun m => r_ret (M_LogMsg m))
  end.
Definition svc_wf (x : svc_msg) : Prop :=
  match x with
  | M_CanFrameEvent m => wf_CanFrameEvent m
  | M_CanFrameTransmitEvent m => wf_CanFrameTransmitEvent m
  | M_CanControllerStatus m => wf_CanControllerStatus m
  | M_CanConfigureBaudrate m => wf_CanConfigureBaudrate m
  | M_LinSendFrameRequest m => wf_LinSendFrameRequest m
  | M_LinSendFrameHeaderRequest m => wf_LinSendFrameHeaderRequest m
  | M_LinTransmission m => wf_LinTransmission m
  | M_LinWakeupPulse m => wf_LinWakeupPulse m
  | M_LinControllerStatusUpdate m => wf_LinControllerStatusUpdate m
  | M_LinFrameResponseUpdate m => wf_LinFrameResponseUpdate m
  | M_EthernetFrameEvent m => wf_EthernetFrameEvent m
  | M_EthernetFrameTransmitEvent m => wf_EthernetFrameTransmitEvent m
  | M_EthernetStatus m => wf_EthernetStatus m
  | M_EthernetSetMode m => wf_EthernetSetMode m
  | M_FlexrayFrameEvent m => wf_FlexrayFrameEvent m
  | M_FlexrayFrameTransmitEvent m => wf_FlexrayFrameTransmitEvent m
  | M_FlexraySymbolEvent m => wf_FlexraySymbolEvent m
  | M_FlexrayCycleStartEvent m => wf_FlexrayCycleStartEvent m
  | M_FlexrayHostCommand m => wf_FlexrayHostCommand m
  | M_FlexrayTxBufferConfigUpdate m => wf_FlexrayTxBufferConfigUpdate m
  | M_FlexrayTxBufferUpdate m => wf_FlexrayTxBufferUpdate m
  | M_FlexrayPocStatusEvent m => wf_FlexrayPocStatusEvent m
  | M_DataMessageEvent m => wf_DataMessageEvent m
  | M_FunctionCall m => wf_FunctionCall m
  | M_FunctionCallResponse m => wf_FunctionCallResponse m
  | M_NextSimTask m => wf_NextSimTask m
  | M_SystemCommand m => wf_SystemCommand m
  | M_WorkflowConfiguration m => wf_WorkflowConfiguration m
  | M_MetricsUpdate m => wf_MetricsUpdate m
  | M_ParticipantDiscoveryEvent m => wf_ParticipantDiscoveryEvent m
  | M_ServiceDiscoveryEvent m => wf_ServiceDiscoveryEvent m
  | M_RequestReplyCall m => wf_RequestReplyCall m
  | M_RequestReplyCallReturn m => wf_RequestReplyCallReturn m
  | M_CanSetControllerMode m => wf_CanSetControllerMode m
  | M_LinControllerConfig m => wf_LinControllerConfig m
  | M_FlexrayControllerConfig m => wf_FlexrayControllerConfig m
  | M_ParticipantStatus m => wf_ParticipantStatus m
  | M_LogMsg m => wf_LogMsg m
  end.
(** What arrives: the message itself, with points in time (ParticipantStatus, LogMsg) cut to microseconds. *)
Definition svc_expected (x : svc_msg) : svc_msg :=
  match x with
  | M_ParticipantStatus m => M_ParticipantStatus (ps_to_us m)
  | M_LogMsg m => M_LogMsg (lm_to_us m)
  | _ => x
  end.
(** Messages without sub-microsecond points in time. *)
Definition svc_whole_us (x : svc_msg) : Prop :=
  match x with
  | M_ParticipantStatus m => (ps_enterTime m mod 1000 = 0 /\ ps_refreshTime m mod 1000 = 0)%Z
  | M_LogMsg m => (lm_time m mod 1000 = 0)%Z
  | _ => True
  end.
