(** C02-C05: wire messages and the handshake messages of the protocol versions. *)
From Coq Require Import List NArith ZArith Bool Lia Sorted.
From Verif Require Import Base MessageBufferModel MessageBufferSpec MessageBufferProofs
  SerdesModel SerdesSpec SerdesProofs SerdesFraming.
Import ListNotations.
Local Open Scope N_scope.

(** ** C02 *)

(** Every service message of every type: after framing, parsing the headers and decoding, the receiver has exactly
    the message, except that points in time are cut to microseconds. *)
Theorem C02_service_messages : forall (x : svc_msg) kind idx addr,
  svc_wf x -> (kind = k_mw \/ kind = k_sim) -> is_u 8 idx -> wf_EndpointAddress addr ->
  delivered kind idx addr (svc_ser x) (svc_des (svc_type_of x)) (svc_expected x).
Proof. exact svc_delivered. Qed.
Print Assumptions C02_service_messages.

(** ... hence exactly the message if its points in time are whole microseconds. *)
Theorem C02_service_messages_exact_partial : forall (x : svc_msg) kind idx addr,
  svc_wf x -> svc_whole_us x -> (kind = k_mw \/ kind = k_sim) -> is_u 8 idx -> wf_EndpointAddress addr ->
  delivered kind idx addr (svc_ser x) (svc_des (svc_type_of x)) x.
Proof. exact svc_delivered_exact. Qed.
Print Assumptions C02_service_messages_exact_partial.

(** Finding: a participant status with a nanosecond-precise enter time is not delivered unchanged. *)
Theorem C02_nanoseconds_refuted : exists m m' b b',
  wf_ParticipantStatus m /\ ser_ParticipantStatus m mbuf_new = Ok b /\
  des_ParticipantStatus (mbuf_of (storage b)) = Ok (m', b') /\ m' <> m.
Proof. exact nanoseconds_lost. Qed.
Print Assumptions C02_nanoseconds_refuted.

(** The four handshake messages of the current version. *)
Theorem C02_announcement : forall m, wf_ParticipantAnnouncement m -> pa_messageHeader m = make_header v31 ->
  registry_received rk_announcement (make_header v31) (ser_ParticipantAnnouncement m) receive_announcement
    (AnnAccepted v31 m).
Proof. exact announcement_31. Qed.
Print Assumptions C02_announcement.
Theorem C02_announcement_reply : forall m, wf_ParticipantAnnouncementReply m ->
  registry_received rk_reply (par_remoteHeader m) (ser_ParticipantAnnouncementReply v31 m)
    (fun _ b => bind (des_ParticipantAnnouncementReply v31 b) (fun mb => Ok (fst mb))) m.
Proof. exact reply_31. Qed.
Print Assumptions C02_announcement_reply.
Theorem C02_known_participants : forall m, wf_KnownParticipants m -> kp_messageHeader m = make_header v31 ->
  registry_received rk_known (make_header v31) (ser_KnownParticipants v31 m) (fun _ => receive_known_participants v31)
    (Some (v31, kp_peerInfos m)).
Proof. exact known_31. Qed.
Print Assumptions C02_known_participants.
Theorem C02_connect_request : forall m, wf_RemoteParticipantConnectRequest m ->
  registry_received rk_connect_request (rpc_messageHeader m) (ser_RemoteParticipantConnectRequest m)
    (fun _ b => bind (des_RemoteParticipantConnectRequest b) (fun mb => Ok (fst mb))) m.
Proof. exact connect_request_31. Qed.
Print Assumptions C02_connect_request.
(** Subscription and proxy messages (bodies). *)
Theorem C02_subscription : forall m, wf_MsgSubscriber m -> roundtrips_ne (ser_MsgSubscriber m) des_MsgSubscriber m.
Proof. exact rtne_MsgSubscriber. Qed.
Print Assumptions C02_subscription.
Theorem C02_subscription_acknowledge : forall m, wf_SubscriptionAcknowledge m ->
  roundtrips_ne (ser_SubscriptionAcknowledge m) des_SubscriptionAcknowledge m.
Proof. exact rtne_SubscriptionAcknowledge. Qed.
Print Assumptions C02_subscription_acknowledge.
Theorem C02_proxy_message : forall m, wf_ProxyMessage m ->
  roundtrips_ne (ser_ProxyMessage v31 m) (des_ProxyMessage v31) m.
Proof. exact (fun m H => rtne_ProxyMessage v31 m H eq_refl). Qed.
Print Assumptions C02_proxy_message.

(** A CAN frame event with distinct values in all fields. *)
Definition ex_can := mkCanFrameEvent (-7)%Z 291 5 8 1 2 3 [1; 2; 3; 4] 2 77.
Example C02_example : svc_wf (M_CanFrameEvent ex_can) /\ svc_whole_us (M_CanFrameEvent ex_can) /\
  exists blob h b b', serialize_message k_sim rk_invalid 5 (mkEndpointAddress 9 10) (ser_CanFrameEvent ex_can) = Ok blob /\
    parse_message blob = Ok (h, b) /\ nh_size h = Nlen blob /\ nh_remoteIndex h = 5 /\
    des_CanFrameEvent b = Ok (ex_can, b').
Proof.
  split; [constructor; vm_compute; first [reflexivity | split; [discriminate | reflexivity]]|]. split; [exact I|].
  eexists _, _, _, _. split; [vm_compute; reflexivity|]. split; [vm_compute; reflexivity|].
  split; [vm_compute; reflexivity|]. split; vm_compute; reflexivity.
Qed.
Definition ex_ann (v : version) := mkParticipantAnnouncement (make_header v)
  (mkPeerInfo [80; 49] 42 [[116; 99; 112]; [108]] [99; 97; 112]) [115; 105; 109].
Example C02_example_registry :
  wf_ParticipantAnnouncement (ex_ann v31) /\
  exists blob h b, serialize_message k_registry rk_announcement 0 (mkEndpointAddress 0 0)
      (ser_ParticipantAnnouncement (ex_ann v31)) = Ok blob /\
    parse_message blob = Ok (h, b) /\ receive_announcement h b = Ok (AnnAccepted v31 (ex_ann v31)).
Proof.
  split.
  - constructor; [apply wf_make_header31| |vm_compute; reflexivity].
    constructor; [vm_compute; reflexivity|vm_compute; reflexivity| |vm_compute; reflexivity].
    split; [vm_compute; reflexivity|]. repeat constructor.
  - eexists _, _, _. split; [vm_compute; reflexivity|]. split; vm_compute; reflexivity.
Qed.

(** ** C03 *)

(** Decoding arbitrary bytes as any service message: a message or an error, never outside of the bytes. *)
Theorem C03_service_messages : forall t, safe_decoder (svc_des t).
Proof. exact safe_svc. Qed.
Print Assumptions C03_service_messages.
Theorem C03_values : forall t, safe_decoder (wread t).
Proof. exact safe_value. Qed.
Print Assumptions C03_values.
(** The bodies of handshake, subscription and proxy messages, in every version. *)
Theorem C03_registry_messages : forall v,
  safe_decoder (des_ParticipantAnnouncement v) /\ safe_decoder (des_ParticipantAnnouncementReply v) /\
  safe_decoder (des_KnownParticipants v) /\ safe_decoder des_RemoteParticipantConnectRequest /\
  safe_decoder des_MsgSubscriber /\ safe_decoder des_SubscriptionAcknowledge /\ safe_decoder (des_ProxyMessage v).
Proof. exact safe_registry. Qed.
Print Assumptions C03_registry_messages.
(** The network headers are over-read in exactly one case: a registry message with less than 8 bytes of body. *)
Theorem C03_headers_overread_iff : forall blob, parse_message blob = UB <-> peek_overreads blob.
Proof. exact parse_ub. Qed.
Print Assumptions C03_headers_overread_iff.
Theorem C03_headers_partial : forall blob, ~ peek_overreads blob ->
  match parse_message blob with
  | Ok (_, b') => storage b' = blob /\ (rpos b' <= length blob)%nat
  | Exn => True
  | UB => False
  end.
Proof. exact parse_safe. Qed.
Print Assumptions C03_headers_partial.
(** Finding: six bytes suffice to make a receiver read outside of the message. *)
Theorem C03_header_peek_refuted : exists blob : list N,
  nth 0 blob 0 = Nlen blob /\ parse_message blob = UB.
Proof. exact peek_witness. Qed.
Print Assumptions C03_header_peek_refuted.
Example C03_example : des_CanFrameEvent (mbuf_of [1; 2; 3]) = Exn /\
  des_DataMessageEvent (mbuf_of [255; 255; 255; 255; 1]) = Exn /\
  ~ peek_overreads [1; 2; 3] /\ ~ peek_overreads [14; 0; 0; 0; 5; 1; 0; 0; 0; 0; 0; 0; 0; 0].
Proof.
  split; [vm_compute; reflexivity|]. split; [vm_compute; reflexivity|]. split.
  - intros (b0 & b1 & b2 & b3 & rk & rest & H & _). discriminate.
  - intros (b0 & b1 & b2 & b3 & rk & rest & H & _ & Hl). inversion H; subst. cbn in Hl. lia.
Qed.

(** ** C04 *)
Theorem C04_lin_config : forall m, wf_LinControllerConfig m ->
  roundtrips_ne (ser_LinControllerConfig m) des_LinControllerConfig m /\
  roundtrips_at_end (old_ser_LinControllerConfig m) des_LinControllerConfig
    (mkLinControllerConfig (lcc_controllerMode m) (lcc_baudRate m) (lcc_frameResponses m) 0).
Proof. exact (fun m H => conj (rtne_LinControllerConfig m H) (end_LinControllerConfig m H)). Qed.
Print Assumptions C04_lin_config.
Theorem C04_flexray_config : forall m, wf_FlexrayControllerConfig m ->
  roundtrips_ne (ser_FlexrayControllerConfig m) des_FlexrayControllerConfig m /\
  roundtrips_at_end (old_ser_FlexrayControllerConfig m) des_FlexrayControllerConfig
    (mkFlexrayControllerConfig (fcc_clusterParams m) (fcc_nodeParams m) (fcc_bufferConfigs m) 0 0).
Proof. exact (fun m H => conj (rtne_FlexrayControllerConfig m H) (end_FlexrayControllerConfig m H)). Qed.
Print Assumptions C04_flexray_config.
Theorem C04_log_message : forall m, wf_LogMsg m ->
  roundtrips_ne (ser_LogMsg m) des_LogMsg (lm_to_us m) /\
  roundtrips_at_end (old1_ser_LogMsg m) des_LogMsg
    (mkLogMsg (lm_loggerName m) (lm_level m) (to_us (lm_time m)) (lm_source m) (lm_payload m) [] 0) /\
  roundtrips_at_end (old2_ser_LogMsg m) des_LogMsg
    (mkLogMsg (lm_loggerName m) (lm_level m) (to_us (lm_time m)) (lm_source m) (lm_payload m) (lm_keyValues m) 0).
Proof. exact (fun m H => conj (rtne_LogMsg m H) (conj (end1_LogMsg m H) (end2_LogMsg m H))). Qed.
Print Assumptions C04_log_message.
Theorem C04_announcement : forall m, wf_ParticipantAnnouncement m -> pa_messageHeader m = make_header v31 ->
  roundtrips_ne (ser_ParticipantAnnouncement m) (des_ParticipantAnnouncement v31) m /\
  roundtrips_at_end (old_ser_ParticipantAnnouncement m) (des_ParticipantAnnouncement v31)
    (mkParticipantAnnouncement (pa_messageHeader m) (pa_peerInfo m) []).
Proof. exact announcement_optional. Qed.
Print Assumptions C04_announcement.
Theorem C04_announcement_reply : forall m, wf_ParticipantAnnouncementReply m ->
  roundtrips_ne (ser_ParticipantAnnouncementReply v31 m) (des_ParticipantAnnouncementReply v31) m /\
  roundtrips_at_end (old_ser_ParticipantAnnouncementReply m) (des_ParticipantAnnouncementReply v31)
    (mkParticipantAnnouncementReply (par_remoteHeader m) (par_status m) (par_subscribers m) []).
Proof. exact reply_optional. Qed.
Print Assumptions C04_announcement_reply.
Example C04_example :
  let m := mkLinControllerConfig 1 19200 [] 1 in
  wf_LinControllerConfig m /\
  exists b, old_ser_LinControllerConfig m mbuf_new = Ok b /\
            fst (match des_LinControllerConfig (mbuf_of (storage b)) with Ok p => p | _ => (m, b) end)
            = mkLinControllerConfig 1 19200 [] 0.
Proof.
  split; [constructor; vm_compute; try reflexivity; split; [reflexivity|constructor]|].
  eexists. split; vm_compute; reflexivity.
Qed.

(** ** C05 *)

(** An announcement in version 3.0 is understood and keeps name, id and acceptor URIs. *)
Theorem C05_announcement_v30 : forall m, wf_ParticipantAnnouncement m -> header_version (pa_messageHeader m) = v30 ->
  exists m', registry_received rk_announcement (make_header v30) (ser_ParticipantAnnouncement m) receive_announcement
    (AnnAccepted v30 m') /\ same_peer (pa_peerInfo m') (pa_peerInfo m) /\
    header_version (pa_messageHeader m') = v30.
Proof. exact announcement_30_same. Qed.
Print Assumptions C05_announcement_v30.
(** An announcement with any other version than 3.0 and 3.1, whatever follows its header, is rejected undecoded. *)
Theorem C05_other_versions_rejected : forall h rest, wf_RegistryMsgHeader h ->
  header_version h <> v30 -> header_version h <> v31 ->
  registry_received rk_announcement h (w_raw (hdr_bytes h ++ rest)) receive_announcement AnnRejected.
Proof. exact announcement_other. Qed.
Print Assumptions C05_other_versions_rejected.
(** A list of known participants in version 3.0. *)
Theorem C05_known_participants_v30 : forall m, wf_KnownParticipants m ->
  exists l, registry_received rk_known (make_header v30) (ser_KnownParticipants v30 m)
     (fun _ => receive_known_participants v30) (Some (v30, l)) /\ Forall2 same_peer l (kp_peerInfos m).
Proof. exact known_30_same. Qed.
Print Assumptions C05_known_participants_v30.
(** A list of known participants whose header has an unsupported version is ignored. *)
Theorem C05_known_participants_other : forall m b, wf_KnownParticipants m ->
  header_version (kp_messageHeader m) <> v30 -> header_version (kp_messageHeader m) <> v31 ->
  ser_KnownParticipants v31 m mbuf_new = Ok b -> receive_known_participants v31 (mbuf_of (storage b)) = Ok None.
Proof. exact known_other. Qed.
Print Assumptions C05_known_participants_other.
(** A non-empty reply in version 3.0 keeps the subscriptions. *)
Theorem C05_reply_v30_partial : forall m, wf_ParticipantAnnouncementReply m -> par_subscribers m <> [] ->
  exists h m', registry_received rk_reply h (ser_ParticipantAnnouncementReply v30 m)
    (fun _ b => bind (des_ParticipantAnnouncementReply v30 b) (fun mb => Ok (fst mb))) m' /\
    Forall2 same_subscription (par_subscribers m') (par_subscribers m).
Proof. exact reply_30_same. Qed.
Print Assumptions C05_reply_v30_partial.
(** Finding: an empty reply in version 3.0 makes the receiver read outside of the message. *)
Theorem C05_empty_reply_v30_refuted : exists m blob,
  wf_ParticipantAnnouncementReply m /\
  serialize_message k_registry rk_reply 0 (mkEndpointAddress 0 0) (ser_ParticipantAnnouncementReply v30 m) = Ok blob /\
  parse_message blob = UB.
Proof. exact empty_reply_witness. Qed.
Print Assumptions C05_empty_reply_v30_refuted.
(** Finding: a rejection (status Failed = 0) sent in version 3.0 is understood as a success (status 1). *)
Theorem C05_failed_reply_v30_refuted : exists m b m' b',
  wf_ParticipantAnnouncementReply m /\ par_status m = 0 /\
  ser_ParticipantAnnouncementReply v30 m mbuf_new = Ok b /\
  des_ParticipantAnnouncementReply v30 (mbuf_of (storage b)) = Ok (m', b') /\ par_status m' = 1.
Proof. exact failed_reply_witness. Qed.
Print Assumptions C05_failed_reply_v30_refuted.
Example C05_example :
  wf_ParticipantAnnouncement (ex_ann v30) /\
  exists blob h b m', serialize_message k_registry rk_announcement 0 (mkEndpointAddress 0 0)
      (ser_ParticipantAnnouncement (ex_ann v30)) = Ok blob /\
    parse_message blob = Ok (h, b) /\ receive_announcement h b = Ok (AnnAccepted v30 m') /\
    same_peer (pa_peerInfo m') (pa_peerInfo (ex_ann v30)).
Proof.
  split.
  - constructor; [apply wf_make_header30| |vm_compute; reflexivity].
    constructor; [vm_compute; reflexivity|vm_compute; reflexivity| |vm_compute; reflexivity].
    split; [vm_compute; reflexivity|]. repeat constructor.
  - eexists _, _, _, _. split; [vm_compute; reflexivity|]. split; [vm_compute; reflexivity|].
    split; [vm_compute; reflexivity|]. repeat split.
Qed.
