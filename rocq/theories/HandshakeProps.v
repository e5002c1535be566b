(** C90: the handshake of protocol versions. *)
From Coq Require Import List NArith ZArith Bool Lia.
From Verif Require Import Base MessageBufferModel MessageBufferSpec MessageBufferProofs SerdesModel SerdesSpec SerdesProofs
  SerdesFraming HandshakeModel HandshakeProofs RingBufferModel PeerRecvModel PeerRecvSpec PeerRecvProofs PeerRecvStall.
Import ListNotations.
Local Open Scope N_scope.

(** What a node that connects sends, what the other node may answer: well formed and small enough to be sent. *)
Record sendable (own : version) (info : PeerInfo) (sim : list N) : Prop := {
  sd_major : is_u 2 (fst own); sd_minor : is_u 2 (snd own); sd_info : wf_PeerInfo info; sd_sim : is_bytes sim;
  sd_fits : fits (ser_ParticipantAnnouncement (mkParticipantAnnouncement (make_header own) info sim)) }.
Record answerable (v : version) (a : acceptor) : Prop := {
  an_subs : is_vec wf_MsgSubscriber (a_subscribers a);
  an_fits : fits (ser_ParticipantAnnouncementReply v (mkParticipantAnnouncementReply (make_header v) 1 (a_subscribers a) []));
  an_known : forall l, a_known a = Some l -> is_vec wf_PeerInfo l /\
     fits (ser_KnownParticipants v (mkKnownParticipants (make_header v) l)) }.

(** A node of the current version is always answered: the handshake completes with the subscriptions of the other node,
    in the current version; by the registry it is told of exactly the known participants. *)
Theorem C90_current_completes : forall a info sim diag,
  sendable v31 info sim -> answerable v31 a ->
  a_refuses a (mkParticipantAnnouncement (make_header v31) info sim) = None ->
  handshake v31 info sim a diag =
    Ok (mkOutcome (mkJoiner v31 (a_known a) (Some (Some (a_subscribers a)))) false).
Proof.
  intros a info sim diag [U1 U2 Hi Hs Hf] [As Af Ak] Hr.
  destruct (announce_31 info sim Hi Hs Hf) as (blob & Hb & Hrec).
  assert (Wr : wf_ParticipantAnnouncementReply (success_reply v31 (a_subscribers a))).
  { constructor; [apply wf_make_header31|vm_compute; reflexivity|exact As|vm_compute; reflexivity]. }
  destruct (reply_sent_31 _ v31 Wr eq_refl Af) as (rb & Hrb & Hrr).
  unfold handshake. rewrite Hb. cbn [bind]. unfold answer. rewrite Hrec. cbn [bind]. unfold ann. rewrite Hr.
  destruct (a_known a) as [l|] eqn:El.
  - destruct (Ak l eq_refl) as [Kl Kf]. destruct (known_sent_31 l Kl Kf) as (kb & Hkb & Hkr).
    rewrite Hkb. cbn [bind]. rewrite Hrb. cbn [bind]. cbn [joiner_receives]. unfold joiner_receive at 1. cbn [joiner_init j_peer].
    rewrite Hkr by discriminate. cbn [bind]. unfold joiner_receive. cbn [j_peer]. rewrite Hrr by discriminate. reflexivity.
  - rewrite Hrb. cbn [bind joiner_receives]. unfold joiner_receive. cbn [joiner_init j_peer].
    rewrite Hrr by discriminate. reflexivity.
Qed.
Print Assumptions C90_current_completes.

(** A node of the current version that is refused is told so. *)
Theorem C90_current_refused : forall a info sim diag d,
  sendable v31 info sim ->
  a_refuses a (mkParticipantAnnouncement (make_header v31) info sim) = Some d -> is_bytes d ->
  fits (ser_ParticipantAnnouncementReply v31 (mkParticipantAnnouncementReply (make_header v31) 0 [] d)) ->
  exists o, handshake v31 info sim a diag = Ok o /\ o_stalled o = false /\ j_result (o_joiner o) = Some None /\
    j_known (o_joiner o) = None.
Proof.
  intros a info sim diag d [U1 U2 Hi Hs Hf] Hr Hd Hfd.
  destruct (announce_31 info sim Hi Hs Hf) as (blob & Hb & Hrec).
  assert (Wr : wf_ParticipantAnnouncementReply (failed_reply v31 d)).
  { constructor; [apply wf_make_header31|vm_compute; reflexivity|split; [vm_compute; reflexivity|constructor]|exact Hd]. }
  destruct (reply_sent_31 _ v31 Wr eq_refl Hfd) as (rb & Hrb & Hrr).
  eexists. split.
  - unfold handshake. rewrite Hb. cbn [bind]. unfold answer. rewrite Hrec. cbn [bind]. unfold ann. rewrite Hr.
    rewrite Hrb. cbn [bind joiner_receives]. unfold joiner_receive. cbn [joiner_init j_peer].
    rewrite Hrr by discriminate. reflexivity.
  - repeat split.
Qed.
Print Assumptions C90_current_refused.

(** A node of version 3.0 completes the handshake with the registry, in version 3.0, with the subscriptions as far as that
    version carries them. Missing: it takes the list of known participants for an empty one. *)
Theorem C90_legacy_registry_partial : forall a info sim diag l,
  sendable v30 info sim -> answerable v30 a -> a_known a = Some l ->
  a_subscribers a <> [] -> Nlen (a_subscribers a) <> preamble_value ->
  (forall m, a_refuses a m = None) ->
  exists s, handshake v30 info sim a diag = Ok (mkOutcome s false) /\ j_peer s = v30 /\
    j_known s = Some [] /\
    exists l', j_result s = Some (Some l') /\ Forall2 same_subscription l' (a_subscribers a).
Proof.
  intros a info sim diag l [U1 U2 Hi Hs Hf] [As Af Ak] Hk Hne Hpre Hr.
  destruct (announce_30 info sim Hi Hs Hf) as (blob & Hb & Hrec).
  assert (Wr : wf_ParticipantAnnouncementReply (success_reply v30 (a_subscribers a))).
  { constructor; [apply wf_make_header30|vm_compute; reflexivity|exact As|vm_compute; reflexivity]. }
  destruct (reply_sent_30 _ Wr Hne Hpre Af) as (rb & Hrb & _ & Hrr).
  destruct (Ak l Hk) as [Kl Kf]. destruct (known_sent_30 l Kl Kf) as (kb & Hkb & Hkr & _).
  eexists. split.
  - unfold handshake. rewrite Hb. cbn [bind]. unfold answer. rewrite Hrec. cbn [bind]. rewrite Hr, Hk.
    rewrite Hkb. cbn [bind]. rewrite Hrb. cbn [bind]. cbn [joiner_receives]. unfold joiner_receive at 1. cbn [joiner_init j_peer].
    rewrite Hkr by discriminate. cbn [bind]. unfold joiner_receive. cbn [j_peer]. rewrite Hrr. reflexivity.
  - cbn [j_peer j_known j_result]. repeat (split; [reflexivity|]). eexists. split; [reflexivity|].
    cbn [success_reply par_subscribers]. apply Forall2_map_self. intro x. repeat split.
Qed.
Print Assumptions C90_legacy_registry_partial.

(** Finding: whatever participants the registry knows, a node of version 3.0 is told of none of them, although they are
    in the message: the version of the connection is only set after the list was decoded. *)
Theorem C90_legacy_known_refuted : forall l, is_vec wf_PeerInfo l ->
  fits (ser_KnownParticipants v30 (mkKnownParticipants (make_header v30) l)) ->
  exists blob, send_known v30 l = Ok blob /\ joiner_receive v30 joiner_init blob = Ok (mkJoiner v30 (Some []) None) /\
    exists l', receive v30 blob = Ok (EvKnown v30 l') /\ Forall2 same_peer l' l.
Proof.
  intros l Kl Kf. destruct (known_sent_30 l Kl Kf) as (kb & Hkb & Hkr & Hk3).
  exists kb. split; [exact Hkb|]. split.
  - unfold joiner_receive. cbn [joiner_init j_peer]. rewrite Hkr by discriminate. reflexivity.
  - eexists. split; [exact Hk3|]. apply Forall2_map_self. intro x. repeat split.
Qed.
Print Assumptions C90_legacy_known_refuted.

(** Finding: a node of version 3.0 that connects to a participant waits for ever: the reply is ignored, because it does
    not start with the preamble that version 3.0 does not have. *)
Theorem C90_legacy_participant_refuted : forall a info sim diag,
  sendable v30 info sim -> answerable v30 a -> a_known a = None ->
  a_subscribers a <> [] -> Nlen (a_subscribers a) <> preamble_value ->
  (forall m, a_refuses a m = None) ->
  handshake v30 info sim a diag = Ok (mkOutcome joiner_init false).
Proof.
  intros a info sim diag [U1 U2 Hi Hs Hf] [As Af Ak] Hk Hne Hpre Hr.
  destruct (announce_30 info sim Hi Hs Hf) as (blob & Hb & Hrec).
  assert (Wr : wf_ParticipantAnnouncementReply (success_reply v30 (a_subscribers a))).
  { constructor; [apply wf_make_header30|vm_compute; reflexivity|exact As|vm_compute; reflexivity]. }
  destruct (reply_sent_30 _ Wr Hne Hpre Af) as (rb & Hrb & Hrr & _).
  unfold handshake. rewrite Hb. cbn [bind]. unfold answer. rewrite Hrec. cbn [bind]. rewrite Hr, Hk, Hrb.
  cbn [bind joiner_receives]. unfold joiner_receive. cbn [joiner_init j_peer]. rewrite Hrr by discriminate. reflexivity.
Qed.
Print Assumptions C90_legacy_participant_refuted.

(** Finding: a node of version 3.0 that is refused reads outside of the message that should tell it so. *)
Theorem C90_legacy_refusal_refuted : forall a info sim diag d,
  sendable v30 info sim -> (forall m, a_refuses a m = Some d) -> handshake v30 info sim a diag = UB.
Proof.
  intros a info sim diag d [U1 U2 Hi Hs Hf] Hr.
  destruct (announce_30 info sim Hi Hs Hf) as (blob & Hb & Hrec).
  destruct (refusal_sent_30 v30 d) as (rb & Hrb & Hrr).
  unfold handshake. rewrite Hb. cbn [bind]. unfold answer. rewrite Hrec. cbn [bind]. rewrite Hr, Hrb.
  cbn [bind joiner_receives]. unfold joiner_receive. rewrite Hrr. reflexivity.
Qed.
Print Assumptions C90_legacy_refusal_refuted.

(** Finding: a node of an unsupported version is not accepted, but not told either: the constructor of the failed reply
    throws, since the version of the connection is still 0.0. *)
Theorem C90_unsupported_refuted : forall own a info sim diag,
  sendable own info sim -> own <> v30 -> own <> v31 ->
  is_u 2 (fst (a_version a)) -> is_u 2 (snd (a_version a)) -> is_bytes diag ->
  handshake own info sim a diag = Ok (mkOutcome joiner_init true).
Proof.
  intros own a info sim diag [U1 U2 Hi Hs Hf] N0 N1 V1 V2 Hd.
  destruct (announce_other own info sim U1 U2 N0 N1 Hi Hs Hf) as (blob & Hb & Hrec).
  unfold handshake. rewrite Hb. cbn [bind]. unfold answer. rewrite Hrec. cbn [bind].
  rewrite reply_unsupported; [reflexivity|discriminate|discriminate|].
  constructor; [now apply wf_make_header|vm_compute; reflexivity|split; [vm_compute; reflexivity|constructor]|exact Hd].
Qed.
Print Assumptions C90_unsupported_refuted.
(** On any connection whose version is neither 3.0 nor 3.1, no reply at all can be sent. *)
Theorem C90_no_reply_without_version : forall pv m, pv <> v30 -> pv <> v31 -> wf_ParticipantAnnouncementReply m ->
  send_reply pv m = Exn.
Proof. exact reply_unsupported. Qed.
Print Assumptions C90_no_reply_without_version.

(** The other node is then deaf on this connection: whatever follows the announcement, however it arrives and whatever
    else happens, nothing after it is received. [hd]: any listener that throws where [answer] does. *)
Theorem C90_stalled_connection : forall own a info sim diag blob hd cap evs msgs,
  sendable own info sim -> own <> v30 -> own <> v31 ->
  is_u 2 (fst (a_version a)) -> is_u 2 (snd (a_version a)) -> is_bytes diag ->
  announce own info sim = Ok blob -> (forall m, answer a v00 diag m = Exn -> hd [] m = VThrow) ->
  (4 <= cap)%nat -> Forall is_frame (blob :: msgs) ->
  exists s rest, rx_conn hd cap evs (concat (blob :: msgs)) = Ok (Some (s, rest)) /\
    (rx_out s = [] \/ rx_out s = [blob] /\ rx_reading s = false).
Proof.
  intros own a info sim diag blob hd cap evs msgs [U1 U2 Hi Hs Hf] N0 N1 V1 V2 Hd Hb Ht Hc Hfr.
  destruct (announce_other own info sim U1 U2 N0 N1 Hi Hs Hf) as (blob' & Hb' & Hrec).
  unfold ann in *. rewrite Hb in Hb'. injection Hb' as <-.
  destruct (recv_frames hd cap evs (blob :: msgs) Hc Hfr) as (s & rest & H & [q P] & _).
  exists s, rest. split; [exact H|].
  destruct (rx_out s) as [|m out] eqn:O; [left; reflexivity|right].
  cbn [app] in P. injection P as <- _.
  destruct (conn_halted hd cap evs _ s rest H [] blob out O) as [-> R]; [|split; [reflexivity|exact R]].
  apply Ht. unfold answer. rewrite Hrec. cbn [bind].
  rewrite reply_unsupported; [reflexivity|discriminate|discriminate|].
  constructor; [now apply wf_make_header|vm_compute; reflexivity|split; [vm_compute; reflexivity|constructor]|exact Hd].
Qed.
Print Assumptions C90_stalled_connection.

(** Whatever bytes are received: an announcement or a list of known participants that is accepted has version 3.0 or 3.1. *)
Theorem C90_accepted_supported : forall pv blob v,
  ((exists m, receive pv blob = Ok (EvAnnounced v m)) \/ (exists l, receive pv blob = Ok (EvKnown v l))) ->
  v = v30 \/ v = v31.
Proof.
  assert (S : forall h, version_supported h = true -> header_version h = v30 \/ header_version h = v31).
  { intros h H. unfold version_supported in H. apply orb_true_iff in H. unfold version_eqb in H.
    destruct (header_version h) as [x y]. cbn [fst snd v30 v31] in H. rewrite !andb_true_iff, !N.eqb_eq in H.
    destruct H as [[-> ->]|[-> ->]]; [left|right]; reflexivity. }
  intros pv blob v H. unfold receive in H. destruct (parse_message blob) as [[h b]| |];
    cbn [bind fst snd] in H; try (destruct H as [[? H]|[? H]]; discriminate H).
  destruct (negb (nh_kind h =? k_registry)); [destruct H as [[? H]|[? H]]; discriminate H|].
  destruct (preamble_is_present pv (nh_registryKind h) && _); [destruct H as [[? H]|[? H]]; discriminate H|].
  destruct (nh_registryKind h =? rk_announcement).
  { unfold receive_announcement in H. destruct (version_supported (nh_registryHeader h)) eqn:E.
    - destruct (des_ParticipantAnnouncement (header_version (nh_registryHeader h)) b) as [[m b']| |]; cbn [bind fst] in H;
        destruct H as [[? H]|[? H]]; try discriminate H. injection H as <- _. apply S, E.
    - destruct H as [[? H]|[? H]]; discriminate H. }
  destruct (nh_registryKind h =? rk_reply).
  { destruct (des_ParticipantAnnouncementReply pv b) as [[m b']| |]; cbn [bind fst] in H;
      [destruct (par_status m =? 0)|..]; destruct H as [[? H]|[? H]]; discriminate H. }
  destruct (nh_registryKind h =? rk_known).
  { unfold receive_known_participants in H. destruct (des_KnownParticipants pv b) as [[m b']| |]; cbn [bind fst] in H;
      [destruct (version_supported (kp_messageHeader m)) eqn:E; cbn [bind] in H|..]; destruct H as [[? H]|[? H]]; try discriminate H.
    injection H as <- _. apply S, E. }
  destruct (nh_registryKind h =? rk_connect_request); destruct H as [[? H]|[? H]]; discriminate H.
Qed.
Print Assumptions C90_accepted_supported.
(** Finding: the version in a reply is not checked. *)
Theorem C90_reply_version_refuted : exists blob,
  send_reply v31 (mkParticipantAnnouncementReply (make_header (9, 9)) 1 [] []) = Ok blob /\
  joiner_receive v31 joiner_init blob = Ok (mkJoiner (9, 9) None (Some (Some []))).
Proof. eexists. split; [vm_compute; reflexivity|]. vm_compute. reflexivity. Qed.
Print Assumptions C90_reply_version_refuted.

(** ** The hypotheses are met *)
Definition ex_info (n : N) : PeerInfo := mkPeerInfo [80; n] n [[116; 99; 112]] [].
Definition ex_sub : MsgSubscriber := mkMsgSubscriber 7 [99] [100] 1.
Definition ex_acceptor (known : option (list PeerInfo)) : acceptor := mkAcceptor v31 [ex_sub] known (fun _ => None).
Definition ex_refusing : acceptor := mkAcceptor v31 [ex_sub] None (fun _ => Some [110; 111]).

Ltac fits_now := let b := fresh in let H := fresh in intros b H; vm_compute in H; injection H as <-; vm_compute; reflexivity.
Lemma wf_ex_info : forall n, n < 100 -> wf_PeerInfo (ex_info n).
Proof.
  intros n Hn. constructor; cbn [ex_info pi_participantName pi_participantId pi_acceptorUris pi_capabilities].
  - vm_compute. reflexivity.
  - unfold is_u. change (256 ^ N.of_nat 8) with 18446744073709551616. lia.
  - split; [vm_compute; reflexivity|]. repeat constructor.
  - vm_compute. reflexivity.
Qed.
Lemma ex_sendable : forall v, v = v30 \/ v = v31 \/ v = (1, 0) -> sendable v (ex_info 5) [83].
Proof.
  intros v H. assert (W := wf_ex_info 5 ltac:(lia)). destruct H as [->|[->| ->]]; (constructor; [vm_compute; reflexivity|vm_compute; reflexivity|exact W|vm_compute; reflexivity|fits_now]).
Qed.
Lemma ex_answerable : forall v k, v = v30 \/ v = v31 -> k = None \/ k = Some [ex_info 1; ex_info 2] -> answerable v (ex_acceptor k).
Proof.
  intros v k H K. constructor; cbn [ex_acceptor a_subscribers a_known].
  - split; [vm_compute; reflexivity|]. constructor; [|constructor]. constructor; vm_compute; reflexivity.
  - destruct H as [->| ->]; fits_now.
  - intros l E. destruct K as [->| ->]; [discriminate E|]. injection E as <-. split.
    + split; [vm_compute; reflexivity|]. repeat constructor; apply wf_ex_info; lia.
    + destruct H as [->| ->]; fits_now.
Qed.
Example C90_current_example :
  handshake v31 (ex_info 5) [83] (ex_acceptor (Some [ex_info 1; ex_info 2])) [] =
    Ok (mkOutcome (mkJoiner v31 (Some [ex_info 1; ex_info 2]) (Some (Some [ex_sub]))) false).
Proof. apply C90_current_completes; [apply ex_sendable; auto|apply ex_answerable; auto|reflexivity]. Qed.
Example C90_refused_example : exists o, handshake v31 (ex_info 5) [83] ex_refusing [] = Ok o /\
  o_stalled o = false /\ j_result (o_joiner o) = Some None /\ j_known (o_joiner o) = None.
Proof. apply C90_current_refused with (d := [110; 111]); [apply ex_sendable; auto|reflexivity|vm_compute; reflexivity|fits_now]. Qed.
Example C90_legacy_example :
  (exists s, handshake v30 (ex_info 5) [83] (ex_acceptor (Some [ex_info 1; ex_info 2])) [] = Ok (mkOutcome s false) /\
     j_known s = Some []) /\
  handshake v30 (ex_info 5) [83] (ex_acceptor None) [] = Ok (mkOutcome joiner_init false) /\
  handshake v30 (ex_info 5) [83] ex_refusing [] = UB /\
  handshake (1, 0) (ex_info 5) [83] (ex_acceptor None) [] = Ok (mkOutcome joiner_init true).
Proof.
  split; [|split; [|split]].
  - destruct (C90_legacy_registry_partial (ex_acceptor (Some [ex_info 1; ex_info 2])) (ex_info 5) [83] [] [ex_info 1; ex_info 2])
      as (s & H & _ & K & _);
      [apply ex_sendable; auto|apply ex_answerable; auto|reflexivity|discriminate|discriminate|reflexivity|]. eauto.
  - apply C90_legacy_participant_refuted; [apply ex_sendable; auto|apply ex_answerable; auto|reflexivity|discriminate|discriminate|reflexivity].
  - apply C90_legacy_refusal_refuted with (d := [110; 111]); [apply ex_sendable; auto|reflexivity].
  - apply C90_unsupported_refuted; [apply ex_sendable; auto|discriminate|discriminate|vm_compute; reflexivity|vm_compute; reflexivity|vm_compute; reflexivity].
Qed.
Example C90_accepted_example : exists blob, announce v30 (ex_info 5) [83] = Ok blob /\
  exists m, receive v00 blob = Ok (EvAnnounced v30 m) /\ pi_participantName (pa_peerInfo m) = [80; 5].
Proof. eexists. split; [vm_compute; reflexivity|]. eexists. split; vm_compute; reflexivity. Qed.
Definition ex_deaf : listener := fun ms m =>
  match ms, answer (ex_acceptor None) v00 [] m with [], Exn => VThrow | _, _ => VOk end.
Example C90_stalled_example : exists blob s, announce (1, 0) (ex_info 5) [83] = Ok blob /\
  Forall is_frame [blob; blob] /\ (forall m, answer (ex_acceptor None) v00 [] m = Exn -> ex_deaf [] m = VThrow) /\
  exists rest, rx_conn ex_deaf 64 [EChunk 50; EChunk 50; EChunk 50] (concat [blob; blob]) = Ok (Some (s, rest)) /\
    rx_out s = [blob] /\ rx_reading s = false /\ rest <> [].
Proof.
  eexists. eexists. split; [vm_compute; reflexivity|]. split.
  - repeat constructor; vm_compute; repeat constructor; try discriminate.
  - split; [intros m H; unfold ex_deaf; rewrite H; reflexivity|].
    eexists. split; [vm_compute; reflexivity|]. repeat split; discriminate.
Qed.
