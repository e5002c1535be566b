From Coq Require Import List NArith ZArith Bool Lia Sorted.
From Verif Require Import Base MessageBufferModel MessageBufferSpec MessageBufferProofs SerdesModel SerdesSpec.
Import ListNotations.
Local Open Scope N_scope.

Create HintDb rt.
Create HintDb safe.

Lemma rtne_last : forall A B (w : W) (r : R A) (k : A -> B) a b,
  roundtrips_ne w r a -> k a = b -> roundtrips_ne w (r_bind r (fun x => r_ret (k x))) b.
Proof. intros. subst. now apply rtne_bind_last. Qed.
Lemma rt_last : forall A B (w : W) (r : R A) (k : A -> B) a b,
  roundtrips w r a -> k a = b -> roundtrips w (r_bind r (fun x => r_ret (k x))) b.
Proof. intros. subst. now apply rt_bind_last. Qed.

Lemma rtne_vec : forall A (P : A -> Prop) (w : A -> W) (r : R A) l,
  is_vec P l -> (forall a, P a -> roundtrips_ne (w a) r a) -> roundtrips_ne (w_vector w l) (r_vector r) l.
Proof.
  intros A P w r l [Hl Hf] H. apply rtne_vector; [exact Hl|]. eapply Forall_impl; [|exact Hf]. exact H.
Qed.

Lemma rtne_u8 : forall x, is_u 1 x -> roundtrips_ne (w_u8 x) r_u8 x.
Proof. intros. apply rtne_uint; [lia|assumption]. Qed.
Lemma rtne_u16 : forall x, is_u 2 x -> roundtrips_ne (w_u16 x) r_u16 x.
Proof. intros. apply rtne_uint; [lia|assumption]. Qed.
Lemma rtne_u32 : forall x, is_u 4 x -> roundtrips_ne (w_u32 x) r_u32 x.
Proof. intros. apply rtne_uint; [lia|assumption]. Qed.
Lemma rtne_u64 : forall x, is_u 8 x -> roundtrips_ne (w_u64 x) r_u64 x.
Proof. intros. apply rtne_uint; [lia|assumption]. Qed.
Lemma rtne_i64 : forall x, is_i 8 x -> roundtrips_ne (w_i64 x) r_i64 x.
Proof. intros. apply rtne_int; [lia|assumption]. Qed.
Lemma rtne_i32 : forall x, is_i 4 x -> roundtrips_ne (w_i32 x) r_i32 x.
Proof. intros. apply rtne_int; [lia|assumption]. Qed.
Lemma rtne_i16 : forall x, is_i 2 x -> roundtrips_ne (w_i16 x) r_i16 x.
Proof. intros. apply rtne_int; [lia|assumption]. Qed.
Lemma rtne_string : forall x, is_bytes x -> roundtrips_ne (w_string x) r_string x.
Proof. exact rtne_bytes. Qed.
Lemma rtne_uuid' : forall u, is_uuid u -> roundtrips_ne (w_uuid u) r_uuid u.
Proof. intros u [H1 H2]. now apply rtne_uuid. Qed.
Lemma rtne_arr8 : forall l, length l = 8%nat -> roundtrips_ne (w_bytearray l) (r_bytearray 8) l.
Proof. intros. apply rtne_bytearray; [assumption|lia]. Qed.
Lemma rtne_arr4 : forall l, length l = 4%nat -> roundtrips_ne (w_bytearray l) (r_bytearray 4) l.
Proof. intros. apply rtne_bytearray; [assumption|lia]. Qed.
Lemma rtne_vec_string : forall l, is_vec is_bytes l -> roundtrips_ne (w_vector w_string l) (r_vector r_string) l.
Proof. intros l H. eapply rtne_vec; [exact H|]. exact rtne_string. Qed.
#[export] Hint Resolve rtne_u8 rtne_u16 rtne_u32 rtne_u64 rtne_i64 rtne_i32 rtne_i16 rtne_bytes rtne_string
  rtne_uuid' rtne_arr8 rtne_arr4 rtne_map rtne_vec_string : rt.

Lemma safe_u8 : safe_decoder r_u8. Proof. apply safe_uint. Qed.
Lemma safe_u16 : safe_decoder r_u16. Proof. apply safe_uint. Qed.
Lemma safe_u32 : safe_decoder r_u32. Proof. apply safe_uint. Qed.
Lemma safe_u64 : safe_decoder r_u64. Proof. apply safe_uint. Qed.
Lemma safe_i64 : safe_decoder r_i64. Proof. apply safe_int. Qed.
Lemma safe_i32 : safe_decoder r_i32. Proof. apply safe_int. Qed.
Lemma safe_i16 : safe_decoder r_i16. Proof. apply safe_int. Qed.
Lemma safe_string : safe_decoder r_string. Proof. apply safe_bytes. Qed.
Lemma safe_timepoint : safe_decoder r_timepoint.
Proof. apply safe_bind; [apply safe_i64|]. intro. apply safe_ret. Qed.
#[export] Hint Resolve safe_ret safe_throw safe_u8 safe_u16 safe_u32 safe_u64 safe_i64 safe_i32 safe_i16 safe_bytes
  safe_string safe_timepoint safe_uuid safe_bytearray safe_map safe_vector safe_pair safe_if_remaining : safe.

Ltac rt_leaf :=
  solve [ eauto 2 with rt nocore
        | eapply rtne_vec; [eassumption | now eauto 2 with rt] ].
Ltac rt_steps :=
  cbv beta;
  lazymatch goal with
  | |- roundtrips_ne (w_seq _ _) (r_bind _ _) _ => eapply rtne_bind_l; [rt_leaf | rt_steps]
  | |- roundtrips (w_seq _ _) (r_bind _ _) _ => eapply rt_bind; [apply rtne_rt; rt_leaf | rt_steps]
  | |- roundtrips_ne _ (r_bind _ (fun x => r_ret _)) _ => eapply rtne_last; [rt_leaf | reflexivity]
  | |- roundtrips _ (r_bind _ (fun x => r_ret _)) _ => eapply rt_last; [apply rtne_rt; rt_leaf | reflexivity]
  end.
Ltac rt_record :=
  let m := fresh "m" in let H := fresh "Hwf" in
  intros m H; destruct m; destruct H; cbn in *;
  match goal with |- roundtrips_ne (?s _) ?d _ => unfold s, d | |- roundtrips (?s _) ?d _ => unfold s, d end;
  cbn; rt_steps.

Ltac safe_steps :=
  repeat (cbv beta; first
    [ apply safe_bind; [solve [eauto 4 with safe] | intro ]
    | solve [eauto 4 with safe] ]).
Ltac safe_record := match goal with |- safe_decoder ?d => unfold d end; safe_steps.

Lemma rtne_CanFrameEvent : forall m, wf_CanFrameEvent m -> roundtrips_ne (ser_CanFrameEvent m) des_CanFrameEvent m.
Proof. rt_record. Qed.
#[export] Hint Resolve rtne_CanFrameEvent : rt.
Lemma safe_CanFrameEvent : safe_decoder des_CanFrameEvent.
Proof. safe_record. Qed.
#[export] Hint Resolve safe_CanFrameEvent : safe.

Lemma rtne_CanFrameTransmitEvent : forall m, wf_CanFrameTransmitEvent m -> roundtrips_ne (ser_CanFrameTransmitEvent m) des_CanFrameTransmitEvent m.
Proof. rt_record. Qed.
#[export] Hint Resolve rtne_CanFrameTransmitEvent : rt.
Lemma safe_CanFrameTransmitEvent : safe_decoder des_CanFrameTransmitEvent.
Proof. safe_record. Qed.
#[export] Hint Resolve safe_CanFrameTransmitEvent : safe.

Lemma rtne_CanControllerStatus : forall m, wf_CanControllerStatus m -> roundtrips_ne (ser_CanControllerStatus m) des_CanControllerStatus m.
Proof. rt_record. Qed.
#[export] Hint Resolve rtne_CanControllerStatus : rt.
Lemma safe_CanControllerStatus : safe_decoder des_CanControllerStatus.
Proof. safe_record. Qed.
#[export] Hint Resolve safe_CanControllerStatus : safe.

Lemma rtne_CanConfigureBaudrate : forall m, wf_CanConfigureBaudrate m -> roundtrips_ne (ser_CanConfigureBaudrate m) des_CanConfigureBaudrate m.
Proof. rt_record. Qed.
#[export] Hint Resolve rtne_CanConfigureBaudrate : rt.
Lemma safe_CanConfigureBaudrate : safe_decoder des_CanConfigureBaudrate.
Proof. safe_record. Qed.
#[export] Hint Resolve safe_CanConfigureBaudrate : safe.

Lemma rtne_LinFrame : forall m, wf_LinFrame m -> roundtrips_ne (ser_LinFrame m) des_LinFrame m.
Proof. rt_record. Qed.
#[export] Hint Resolve rtne_LinFrame : rt.
Lemma safe_LinFrame : safe_decoder des_LinFrame.
Proof. safe_record. Qed.
#[export] Hint Resolve safe_LinFrame : safe.

Lemma rtne_LinSendFrameRequest : forall m, wf_LinSendFrameRequest m -> roundtrips_ne (ser_LinSendFrameRequest m) des_LinSendFrameRequest m.
Proof. rt_record. Qed.
#[export] Hint Resolve rtne_LinSendFrameRequest : rt.
Lemma safe_LinSendFrameRequest : safe_decoder des_LinSendFrameRequest.
Proof. safe_record. Qed.
#[export] Hint Resolve safe_LinSendFrameRequest : safe.

Lemma rtne_LinSendFrameHeaderRequest : forall m, wf_LinSendFrameHeaderRequest m -> roundtrips_ne (ser_LinSendFrameHeaderRequest m) des_LinSendFrameHeaderRequest m.
Proof. rt_record. Qed.
#[export] Hint Resolve rtne_LinSendFrameHeaderRequest : rt.
Lemma safe_LinSendFrameHeaderRequest : safe_decoder des_LinSendFrameHeaderRequest.
Proof. safe_record. Qed.
#[export] Hint Resolve safe_LinSendFrameHeaderRequest : safe.

Lemma rtne_LinTransmission : forall m, wf_LinTransmission m -> roundtrips_ne (ser_LinTransmission m) des_LinTransmission m.
Proof. rt_record. Qed.
#[export] Hint Resolve rtne_LinTransmission : rt.
Lemma safe_LinTransmission : safe_decoder des_LinTransmission.
Proof. safe_record. Qed.
#[export] Hint Resolve safe_LinTransmission : safe.

Lemma rtne_LinWakeupPulse : forall m, wf_LinWakeupPulse m -> roundtrips_ne (ser_LinWakeupPulse m) des_LinWakeupPulse m.
Proof. rt_record. Qed.
#[export] Hint Resolve rtne_LinWakeupPulse : rt.
Lemma safe_LinWakeupPulse : safe_decoder des_LinWakeupPulse.
Proof. safe_record. Qed.
#[export] Hint Resolve safe_LinWakeupPulse : safe.

Lemma rtne_LinFrameResponse : forall m, wf_LinFrameResponse m -> roundtrips_ne (ser_LinFrameResponse m) des_LinFrameResponse m.
Proof. rt_record. Qed.
#[export] Hint Resolve rtne_LinFrameResponse : rt.
Lemma safe_LinFrameResponse : safe_decoder des_LinFrameResponse.
Proof. safe_record. Qed.
#[export] Hint Resolve safe_LinFrameResponse : safe.

Lemma rtne_LinControllerStatusUpdate : forall m, wf_LinControllerStatusUpdate m -> roundtrips_ne (ser_LinControllerStatusUpdate m) des_LinControllerStatusUpdate m.
Proof. rt_record. Qed.
#[export] Hint Resolve rtne_LinControllerStatusUpdate : rt.
Lemma safe_LinControllerStatusUpdate : safe_decoder des_LinControllerStatusUpdate.
Proof. safe_record. Qed.
#[export] Hint Resolve safe_LinControllerStatusUpdate : safe.

Lemma rtne_LinFrameResponseUpdate : forall m, wf_LinFrameResponseUpdate m -> roundtrips_ne (ser_LinFrameResponseUpdate m) des_LinFrameResponseUpdate m.
Proof. rt_record. Qed.
#[export] Hint Resolve rtne_LinFrameResponseUpdate : rt.
Lemma safe_LinFrameResponseUpdate : safe_decoder des_LinFrameResponseUpdate.
Proof. safe_record. Qed.
#[export] Hint Resolve safe_LinFrameResponseUpdate : safe.

Lemma rtne_EthernetFrame : forall m, wf_EthernetFrame m -> roundtrips_ne (ser_EthernetFrame m) des_EthernetFrame m.
Proof. rt_record. Qed.
#[export] Hint Resolve rtne_EthernetFrame : rt.
Lemma safe_EthernetFrame : safe_decoder des_EthernetFrame.
Proof. safe_record. Qed.
#[export] Hint Resolve safe_EthernetFrame : safe.

Lemma rtne_EthernetFrameEvent : forall m, wf_EthernetFrameEvent m -> roundtrips_ne (ser_EthernetFrameEvent m) des_EthernetFrameEvent m.
Proof. rt_record. Qed.
#[export] Hint Resolve rtne_EthernetFrameEvent : rt.
Lemma safe_EthernetFrameEvent : safe_decoder des_EthernetFrameEvent.
Proof. safe_record. Qed.
#[export] Hint Resolve safe_EthernetFrameEvent : safe.

Lemma rtne_EthernetFrameTransmitEvent : forall m, wf_EthernetFrameTransmitEvent m -> roundtrips_ne (ser_EthernetFrameTransmitEvent m) des_EthernetFrameTransmitEvent m.
Proof. rt_record. Qed.
#[export] Hint Resolve rtne_EthernetFrameTransmitEvent : rt.
Lemma safe_EthernetFrameTransmitEvent : safe_decoder des_EthernetFrameTransmitEvent.
Proof. safe_record. Qed.
#[export] Hint Resolve safe_EthernetFrameTransmitEvent : safe.

Lemma rtne_EthernetStatus : forall m, wf_EthernetStatus m -> roundtrips_ne (ser_EthernetStatus m) des_EthernetStatus m.
Proof. rt_record. Qed.
#[export] Hint Resolve rtne_EthernetStatus : rt.
Lemma safe_EthernetStatus : safe_decoder des_EthernetStatus.
Proof. safe_record. Qed.
#[export] Hint Resolve safe_EthernetStatus : safe.

Lemma rtne_EthernetSetMode : forall m, wf_EthernetSetMode m -> roundtrips_ne (ser_EthernetSetMode m) des_EthernetSetMode m.
Proof. rt_record. Qed.
#[export] Hint Resolve rtne_EthernetSetMode : rt.
Lemma safe_EthernetSetMode : safe_decoder des_EthernetSetMode.
Proof. safe_record. Qed.
#[export] Hint Resolve safe_EthernetSetMode : safe.

Lemma rtne_FlexrayHeader : forall m, wf_FlexrayHeader m -> roundtrips_ne (ser_FlexrayHeader m) des_FlexrayHeader m.
Proof. rt_record. Qed.
#[export] Hint Resolve rtne_FlexrayHeader : rt.
Lemma safe_FlexrayHeader : safe_decoder des_FlexrayHeader.
Proof. safe_record. Qed.
#[export] Hint Resolve safe_FlexrayHeader : safe.

Lemma rtne_FlexrayFrame : forall m, wf_FlexrayFrame m -> roundtrips_ne (ser_FlexrayFrame m) des_FlexrayFrame m.
Proof. rt_record. Qed.
#[export] Hint Resolve rtne_FlexrayFrame : rt.
Lemma safe_FlexrayFrame : safe_decoder des_FlexrayFrame.
Proof. safe_record. Qed.
#[export] Hint Resolve safe_FlexrayFrame : safe.

Lemma rtne_FlexrayFrameEvent : forall m, wf_FlexrayFrameEvent m -> roundtrips_ne (ser_FlexrayFrameEvent m) des_FlexrayFrameEvent m.
Proof. rt_record. Qed.
#[export] Hint Resolve rtne_FlexrayFrameEvent : rt.
Lemma safe_FlexrayFrameEvent : safe_decoder des_FlexrayFrameEvent.
Proof. safe_record. Qed.
#[export] Hint Resolve safe_FlexrayFrameEvent : safe.

Lemma rtne_FlexrayFrameTransmitEvent : forall m, wf_FlexrayFrameTransmitEvent m -> roundtrips_ne (ser_FlexrayFrameTransmitEvent m) des_FlexrayFrameTransmitEvent m.
Proof. rt_record. Qed.
#[export] Hint Resolve rtne_FlexrayFrameTransmitEvent : rt.
Lemma safe_FlexrayFrameTransmitEvent : safe_decoder des_FlexrayFrameTransmitEvent.
Proof. safe_record. Qed.
#[export] Hint Resolve safe_FlexrayFrameTransmitEvent : safe.

Lemma rtne_FlexraySymbolEvent : forall m, wf_FlexraySymbolEvent m -> roundtrips_ne (ser_FlexraySymbolEvent m) des_FlexraySymbolEvent m.
Proof. rt_record. Qed.
#[export] Hint Resolve rtne_FlexraySymbolEvent : rt.
Lemma safe_FlexraySymbolEvent : safe_decoder des_FlexraySymbolEvent.
Proof. safe_record. Qed.
#[export] Hint Resolve safe_FlexraySymbolEvent : safe.

Lemma rtne_FlexrayCycleStartEvent : forall m, wf_FlexrayCycleStartEvent m -> roundtrips_ne (ser_FlexrayCycleStartEvent m) des_FlexrayCycleStartEvent m.
Proof. rt_record. Qed.
#[export] Hint Resolve rtne_FlexrayCycleStartEvent : rt.
Lemma safe_FlexrayCycleStartEvent : safe_decoder des_FlexrayCycleStartEvent.
Proof. safe_record. Qed.
#[export] Hint Resolve safe_FlexrayCycleStartEvent : safe.

Lemma rtne_FlexrayHostCommand : forall m, wf_FlexrayHostCommand m -> roundtrips_ne (ser_FlexrayHostCommand m) des_FlexrayHostCommand m.
Proof. rt_record. Qed.
#[export] Hint Resolve rtne_FlexrayHostCommand : rt.
Lemma safe_FlexrayHostCommand : safe_decoder des_FlexrayHostCommand.
Proof. safe_record. Qed.
#[export] Hint Resolve safe_FlexrayHostCommand : safe.

Lemma rtne_FlexrayClusterParameters : forall m, wf_FlexrayClusterParameters m -> roundtrips_ne (ser_FlexrayClusterParameters m) des_FlexrayClusterParameters m.
Proof. rt_record. Qed.
#[export] Hint Resolve rtne_FlexrayClusterParameters : rt.
Lemma safe_FlexrayClusterParameters : safe_decoder des_FlexrayClusterParameters.
Proof. safe_record. Qed.
#[export] Hint Resolve safe_FlexrayClusterParameters : safe.

Lemma rtne_FlexrayNodeParameters : forall m, wf_FlexrayNodeParameters m -> roundtrips_ne (ser_FlexrayNodeParameters m) des_FlexrayNodeParameters m.
Proof. rt_record. Qed.
#[export] Hint Resolve rtne_FlexrayNodeParameters : rt.
Lemma safe_FlexrayNodeParameters : safe_decoder des_FlexrayNodeParameters.
Proof. safe_record. Qed.
#[export] Hint Resolve safe_FlexrayNodeParameters : safe.

Lemma rtne_FlexrayTxBufferConfig : forall m, wf_FlexrayTxBufferConfig m -> roundtrips_ne (ser_FlexrayTxBufferConfig m) des_FlexrayTxBufferConfig m.
Proof. rt_record. Qed.
#[export] Hint Resolve rtne_FlexrayTxBufferConfig : rt.
Lemma safe_FlexrayTxBufferConfig : safe_decoder des_FlexrayTxBufferConfig.
Proof. safe_record. Qed.
#[export] Hint Resolve safe_FlexrayTxBufferConfig : safe.

Lemma rtne_FlexrayTxBufferConfigUpdate : forall m, wf_FlexrayTxBufferConfigUpdate m -> roundtrips_ne (ser_FlexrayTxBufferConfigUpdate m) des_FlexrayTxBufferConfigUpdate m.
Proof. rt_record. Qed.
#[export] Hint Resolve rtne_FlexrayTxBufferConfigUpdate : rt.
Lemma safe_FlexrayTxBufferConfigUpdate : safe_decoder des_FlexrayTxBufferConfigUpdate.
Proof. safe_record. Qed.
#[export] Hint Resolve safe_FlexrayTxBufferConfigUpdate : safe.

Lemma rtne_FlexrayTxBufferUpdate : forall m, wf_FlexrayTxBufferUpdate m -> roundtrips_ne (ser_FlexrayTxBufferUpdate m) des_FlexrayTxBufferUpdate m.
Proof. rt_record. Qed.
#[export] Hint Resolve rtne_FlexrayTxBufferUpdate : rt.
Lemma safe_FlexrayTxBufferUpdate : safe_decoder des_FlexrayTxBufferUpdate.
Proof. safe_record. Qed.
#[export] Hint Resolve safe_FlexrayTxBufferUpdate : safe.

Lemma rtne_FlexrayPocStatusEvent : forall m, wf_FlexrayPocStatusEvent m -> roundtrips_ne (ser_FlexrayPocStatusEvent m) des_FlexrayPocStatusEvent m.
Proof. rt_record. Qed.
#[export] Hint Resolve rtne_FlexrayPocStatusEvent : rt.
Lemma safe_FlexrayPocStatusEvent : safe_decoder des_FlexrayPocStatusEvent.
Proof. safe_record. Qed.
#[export] Hint Resolve safe_FlexrayPocStatusEvent : safe.

Lemma rtne_DataMessageEvent : forall m, wf_DataMessageEvent m -> roundtrips_ne (ser_DataMessageEvent m) des_DataMessageEvent m.
Proof. rt_record. Qed.
#[export] Hint Resolve rtne_DataMessageEvent : rt.
Lemma safe_DataMessageEvent : safe_decoder des_DataMessageEvent.
Proof. safe_record. Qed.
#[export] Hint Resolve safe_DataMessageEvent : safe.

Lemma rtne_FunctionCall : forall m, wf_FunctionCall m -> roundtrips_ne (ser_FunctionCall m) des_FunctionCall m.
Proof. rt_record. Qed.
#[export] Hint Resolve rtne_FunctionCall : rt.
Lemma safe_FunctionCall : safe_decoder des_FunctionCall.
Proof. safe_record. Qed.
#[export] Hint Resolve safe_FunctionCall : safe.

Lemma rtne_FunctionCallResponse : forall m, wf_FunctionCallResponse m -> roundtrips_ne (ser_FunctionCallResponse m) des_FunctionCallResponse m.
Proof. rt_record. Qed.
#[export] Hint Resolve rtne_FunctionCallResponse : rt.
Lemma safe_FunctionCallResponse : safe_decoder des_FunctionCallResponse.
Proof. safe_record. Qed.
#[export] Hint Resolve safe_FunctionCallResponse : safe.

Lemma rtne_NextSimTask : forall m, wf_NextSimTask m -> roundtrips_ne (ser_NextSimTask m) des_NextSimTask m.
Proof. rt_record. Qed.
#[export] Hint Resolve rtne_NextSimTask : rt.
Lemma safe_NextSimTask : safe_decoder des_NextSimTask.
Proof. safe_record. Qed.
#[export] Hint Resolve safe_NextSimTask : safe.

Lemma rtne_SystemCommand : forall m, wf_SystemCommand m -> roundtrips_ne (ser_SystemCommand m) des_SystemCommand m.
Proof. rt_record. Qed.
#[export] Hint Resolve rtne_SystemCommand : rt.
Lemma safe_SystemCommand : safe_decoder des_SystemCommand.
Proof. safe_record. Qed.
#[export] Hint Resolve safe_SystemCommand : safe.

Lemma rtne_WorkflowConfiguration : forall m, wf_WorkflowConfiguration m -> roundtrips_ne (ser_WorkflowConfiguration m) des_WorkflowConfiguration m.
Proof. rt_record. Qed.
#[export] Hint Resolve rtne_WorkflowConfiguration : rt.
Lemma safe_WorkflowConfiguration : safe_decoder des_WorkflowConfiguration.
Proof. safe_record. Qed.
#[export] Hint Resolve safe_WorkflowConfiguration : safe.

Lemma rtne_MetricData : forall m, wf_MetricData m -> roundtrips_ne (ser_MetricData m) des_MetricData m.
Proof. rt_record. Qed.
#[export] Hint Resolve rtne_MetricData : rt.
Lemma safe_MetricData : safe_decoder des_MetricData.
Proof. safe_record. Qed.
#[export] Hint Resolve safe_MetricData : safe.

Lemma rtne_MetricsUpdate : forall m, wf_MetricsUpdate m -> roundtrips_ne (ser_MetricsUpdate m) des_MetricsUpdate m.
Proof. rt_record. Qed.
#[export] Hint Resolve rtne_MetricsUpdate : rt.
Lemma safe_MetricsUpdate : safe_decoder des_MetricsUpdate.
Proof. safe_record. Qed.
#[export] Hint Resolve safe_MetricsUpdate : safe.

Lemma rtne_ServiceDescriptor : forall m, wf_ServiceDescriptor m -> roundtrips_ne (ser_ServiceDescriptor m) des_ServiceDescriptor m.
Proof. rt_record. Qed.
#[export] Hint Resolve rtne_ServiceDescriptor : rt.
Lemma safe_ServiceDescriptor : safe_decoder des_ServiceDescriptor.
Proof. safe_record. Qed.
#[export] Hint Resolve safe_ServiceDescriptor : safe.

Lemma rtne_ParticipantDiscoveryEvent : forall m, wf_ParticipantDiscoveryEvent m -> roundtrips_ne (ser_ParticipantDiscoveryEvent m) des_ParticipantDiscoveryEvent m.
Proof. rt_record. Qed.
#[export] Hint Resolve rtne_ParticipantDiscoveryEvent : rt.
Lemma safe_ParticipantDiscoveryEvent : safe_decoder des_ParticipantDiscoveryEvent.
Proof. safe_record. Qed.
#[export] Hint Resolve safe_ParticipantDiscoveryEvent : safe.

Lemma rtne_ServiceDiscoveryEvent : forall m, wf_ServiceDiscoveryEvent m -> roundtrips_ne (ser_ServiceDiscoveryEvent m) des_ServiceDiscoveryEvent m.
Proof. rt_record. Qed.
#[export] Hint Resolve rtne_ServiceDiscoveryEvent : rt.
Lemma safe_ServiceDiscoveryEvent : safe_decoder des_ServiceDiscoveryEvent.
Proof. safe_record. Qed.
#[export] Hint Resolve safe_ServiceDiscoveryEvent : safe.

Lemma rtne_RequestReplyCall : forall m, wf_RequestReplyCall m -> roundtrips_ne (ser_RequestReplyCall m) des_RequestReplyCall m.
Proof. rt_record. Qed.
#[export] Hint Resolve rtne_RequestReplyCall : rt.
Lemma safe_RequestReplyCall : safe_decoder des_RequestReplyCall.
Proof. safe_record. Qed.
#[export] Hint Resolve safe_RequestReplyCall : safe.

Lemma rtne_RequestReplyCallReturn : forall m, wf_RequestReplyCallReturn m -> roundtrips_ne (ser_RequestReplyCallReturn m) des_RequestReplyCallReturn m.
Proof. rt_record. Qed.
#[export] Hint Resolve rtne_RequestReplyCallReturn : rt.
Lemma safe_RequestReplyCallReturn : safe_decoder des_RequestReplyCallReturn.
Proof. safe_record. Qed.
#[export] Hint Resolve safe_RequestReplyCallReturn : safe.

Lemma rtne_EndpointAddress : forall m, wf_EndpointAddress m -> roundtrips_ne (ser_EndpointAddress m) des_EndpointAddress m.
Proof. rt_record. Qed.
#[export] Hint Resolve rtne_EndpointAddress : rt.
Lemma safe_EndpointAddress : safe_decoder des_EndpointAddress.
Proof. safe_record. Qed.
#[export] Hint Resolve safe_EndpointAddress : safe.

Lemma rtne_RegistryMsgHeader : forall m, wf_RegistryMsgHeader m -> roundtrips_ne (ser_RegistryMsgHeader m) des_RegistryMsgHeader m.
Proof. rt_record. Qed.
#[export] Hint Resolve rtne_RegistryMsgHeader : rt.
Lemma safe_RegistryMsgHeader : safe_decoder des_RegistryMsgHeader.
Proof. safe_record. Qed.
#[export] Hint Resolve safe_RegistryMsgHeader : safe.

Lemma rtne_PeerInfo : forall m, wf_PeerInfo m -> roundtrips_ne (ser_PeerInfo m) des_PeerInfo m.
Proof. rt_record. Qed.
#[export] Hint Resolve rtne_PeerInfo : rt.
Lemma safe_PeerInfo : safe_decoder des_PeerInfo.
Proof. safe_record. Qed.
#[export] Hint Resolve safe_PeerInfo : safe.

Lemma rtne_MsgSubscriber : forall m, wf_MsgSubscriber m -> roundtrips_ne (ser_MsgSubscriber m) des_MsgSubscriber m.
Proof. rt_record. Qed.
#[export] Hint Resolve rtne_MsgSubscriber : rt.
Lemma safe_MsgSubscriber : safe_decoder des_MsgSubscriber.
Proof. safe_record. Qed.
#[export] Hint Resolve safe_MsgSubscriber : safe.

Lemma rtne_SubscriptionAcknowledge : forall m, wf_SubscriptionAcknowledge m -> roundtrips_ne (ser_SubscriptionAcknowledge m) des_SubscriptionAcknowledge m.
Proof. rt_record. Qed.
#[export] Hint Resolve rtne_SubscriptionAcknowledge : rt.
Lemma safe_SubscriptionAcknowledge : safe_decoder des_SubscriptionAcknowledge.
Proof. safe_record. Qed.
#[export] Hint Resolve safe_SubscriptionAcknowledge : safe.

Lemma rtne_RemoteParticipantConnectRequest : forall m, wf_RemoteParticipantConnectRequest m -> roundtrips_ne (ser_RemoteParticipantConnectRequest m) des_RemoteParticipantConnectRequest m.
Proof. rt_record. Qed.
#[export] Hint Resolve rtne_RemoteParticipantConnectRequest : rt.
Lemma safe_RemoteParticipantConnectRequest : safe_decoder des_RemoteParticipantConnectRequest.
Proof. safe_record. Qed.
#[export] Hint Resolve safe_RemoteParticipantConnectRequest : safe.

Lemma rtne_OldMsgSubscriber : forall m, wf_OldMsgSubscriber m -> roundtrips_ne (ser_OldMsgSubscriber m) des_OldMsgSubscriber m.
Proof. rt_record. Qed.
#[export] Hint Resolve rtne_OldMsgSubscriber : rt.
Lemma safe_OldMsgSubscriber : safe_decoder des_OldMsgSubscriber.
Proof. safe_record. Qed.
#[export] Hint Resolve safe_OldMsgSubscriber : safe.

Lemma rtne_OldPeerInfo : forall m, wf_OldPeerInfo m -> roundtrips_ne (ser_OldPeerInfo m) des_OldPeerInfo m.
Proof. rt_record. Qed.
#[export] Hint Resolve rtne_OldPeerInfo : rt.
Lemma safe_OldPeerInfo : safe_decoder des_OldPeerInfo.
Proof. safe_record. Qed.
#[export] Hint Resolve safe_OldPeerInfo : safe.

Lemma rtne_OldPeerUri : forall m, wf_OldPeerUri m -> roundtrips_ne (ser_OldPeerUri m) des_OldPeerUri m.
Proof. rt_record. Qed.
#[export] Hint Resolve rtne_OldPeerUri : rt.
Lemma safe_OldPeerUri : safe_decoder des_OldPeerUri.
Proof. safe_record. Qed.
#[export] Hint Resolve safe_OldPeerUri : safe.

Lemma rtne_OldRegistryMsgHeader : forall m, wf_OldRegistryMsgHeader m -> roundtrips_ne (ser_OldRegistryMsgHeader m) des_OldRegistryMsgHeader m.
Proof. rt_record. Qed.
#[export] Hint Resolve rtne_OldRegistryMsgHeader : rt.
Lemma safe_OldRegistryMsgHeader : safe_decoder des_OldRegistryMsgHeader.
Proof. safe_record. Qed.
#[export] Hint Resolve safe_OldRegistryMsgHeader : safe.

Lemma rtne_OldParticipantAnnouncement : forall m, wf_OldParticipantAnnouncement m -> roundtrips_ne (ser_OldParticipantAnnouncement m) des_OldParticipantAnnouncement m.
Proof. rt_record. Qed.
#[export] Hint Resolve rtne_OldParticipantAnnouncement : rt.
Lemma safe_OldParticipantAnnouncement : safe_decoder des_OldParticipantAnnouncement.
Proof. safe_record. Qed.
#[export] Hint Resolve safe_OldParticipantAnnouncement : safe.

Lemma rtne_OldParticipantAnnouncementReply : forall m, wf_OldParticipantAnnouncementReply m -> roundtrips_ne (ser_OldParticipantAnnouncementReply m) des_OldParticipantAnnouncementReply m.
Proof. rt_record. Qed.
#[export] Hint Resolve rtne_OldParticipantAnnouncementReply : rt.
Lemma safe_OldParticipantAnnouncementReply : safe_decoder des_OldParticipantAnnouncementReply.
Proof. safe_record. Qed.
#[export] Hint Resolve safe_OldParticipantAnnouncementReply : safe.

