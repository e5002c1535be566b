(** The registry messages of a handshake with the version of the peer that both sides keep, on the bytes of the
    messages (SerdesModel). *)
From Coq Require Import List NArith ZArith Bool.
From Verif Require Import Base MessageBufferModel SerdesModel.
Import ListNotations.
Local Open Scope N_scope.

(** S/core/vasio/VAsioPeer.hpp 107: the version of a peer before anything was received from it. *)
Definition v00 : version := (0, 0).

(** S/core/vasio/SerializedMessage.hpp 134-148 and SerializedMessage.cpp 17-27: a registry message is constructed for a
    version and its storage is released. The constructor reads the headers of its own message again, with the version it
    was given; this may throw. *)
Definition send_versioned (v : version) (rk : N) (body : W) : res (list N) :=
  bind (w_seq (w_network_headers k_registry rk 0 (mkEndpointAddress 0 0)) body mbuf_new) (fun b =>
  bind (read_network_headers v b) (fun _ => release_storage b)).

(** S/core/vasio/VAsioConnection.cpp 1803-1823 (PreambleIsPresent). *)
Definition preamble_is_present (v : version) (rk : N) : bool :=
  if version_eqb v v30 && (rk =? rk_reply) then false
  else if version_eqb v v31 && (rk =? rk_connect_request) then false
  else true.

(** What the receiving functions do with a registry message. *)
Inductive event :=
| EvIgnored                                                (* 1825-1833, 1838-1842 *)
| EvUnsupported (h : RegistryMsgHeader)                    (* 704-717: announcement of an unsupported version *)
| EvAnnounced (v : version) (m : ParticipantAnnouncement)  (* 700-721 *)
| EvFailed                                                 (* 830-857 *)
| EvConnected (v : version) (l : list MsgSubscriber)       (* 860-882 *)
| EvKnownUnsupported                                       (* 903-917 *)
| EvKnown (v : version) (l : list PeerInfo)                (* 919-921 *)
| EvRequest.                                               (* 1850-1851: RemoteModel *)

(** S/core/vasio/VAsioPeer.cpp 283-290 and VAsioConnection.cpp 1798-1853: a received registry message. The headers are
    read with the current version (parse_message), the rest with the version of the peer. Messages of other kinds are
    not modelled here ([EvIgnored]). *)
Definition receive (pv : version) (blob : list N) : res event :=
  bind (parse_message blob) (fun hb =>
  let h := fst hb in let b := snd hb in let rk := nh_registryKind h in
  if negb (nh_kind h =? k_registry) then Ok EvIgnored
  else if preamble_is_present pv rk && negb (rmh_preamble (nh_registryHeader h) =? preamble_value) then Ok EvIgnored
  else if rk =? rk_announcement then
    bind (receive_announcement h b) (fun r =>
    match r with AnnRejected => Ok (EvUnsupported (nh_registryHeader h)) | AnnAccepted v m => Ok (EvAnnounced v m) end)
  else if rk =? rk_reply then
    bind (des_ParticipantAnnouncementReply pv b) (fun mb =>
    if par_status (fst mb) =? 0 then Ok EvFailed
    else Ok (EvConnected (header_version (par_remoteHeader (fst mb))) (par_subscribers (fst mb))))
  else if rk =? rk_known then
    bind (receive_known_participants pv b) (fun r =>
    match r with None => Ok EvKnownUnsupported | Some (v, l) => Ok (EvKnown v l) end)
  else if rk =? rk_connect_request then Ok EvRequest
  else Ok EvIgnored).

(** The node that is connected to: its version, what it subscribes to, the participants it lists if it is the registry
    ([None]: it is a participant), and whether it refuses an announcement. *)
Record acceptor := mkAcceptor {
  a_version : version; a_subscribers : list MsgSubscriber; a_known : option (list PeerInfo);
  a_refuses : ParticipantAnnouncement -> option (list N) }.

(** VAsioConnection.cpp 775-794 and 805-821: the replies. *)
Definition success_reply (v : version) (l : list MsgSubscriber) : ParticipantAnnouncementReply :=
  mkParticipantAnnouncementReply (make_header v) 1 l [].
Definition failed_reply (v : version) (diagnostic : list N) : ParticipantAnnouncementReply :=
  mkParticipantAnnouncementReply (make_header v) 0 [] diagnostic.
Definition send_reply (pv : version) (m : ParticipantAnnouncementReply) : res (list N) :=
  send_versioned pv rk_reply (ser_ParticipantAnnouncementReply pv m).
(** S/core/vasio/VAsioRegistry.cpp 258-286 (SendKnownParticipants). *)
Definition send_known (pv : version) (l : list PeerInfo) : res (list N) :=
  send_versioned pv rk_known (ser_KnownParticipants pv (mkKnownParticipants (make_header pv) l)).

(** VAsioConnection.cpp 693-773: the answers to the bytes of an announcement on a connection whose peer has version [pv].
    [diag] is the text about the unsupported version (717), whose wording does not matter here. *)
Definition answer (a : acceptor) (pv : version) (diag : list N) (blob : list N) : res (list (list N)) :=
  bind (receive pv blob) (fun e =>
  match e with
  | EvUnsupported _ => bind (send_reply pv (failed_reply (a_version a) diag)) (fun r => Ok [r])
  | EvAnnounced v m =>
    match a_refuses a m with
    | Some d => bind (send_reply v (failed_reply v d)) (fun r => Ok [r])
    | None =>
      match a_known a with
      | Some l => bind (send_known v l) (fun k => bind (send_reply v (success_reply v (a_subscribers a))) (fun r => Ok [k; r]))
      | None => bind (send_reply v (success_reply v (a_subscribers a))) (fun r => Ok [r])
      end
    end
  | _ => Ok []
  end).

(** The connecting node: the version of the peer, the participants it was told of, and the result of the handshake with
    the subscriptions of the peer ([Some None]: failed, [None]: still waiting). *)
Record joiner := mkJoiner {
  j_peer : version; j_known : option (list PeerInfo); j_result : option (option (list MsgSubscriber)) }.
Definition joiner_init : joiner := mkJoiner v00 None None.

(** VAsioConnection.cpp 823-922. The reply to a list of an unsupported version (911-914) is only constructed: that the
    construction may throw is all that matters for the connecting node. *)
Definition joiner_receive (own : version) (s : joiner) (blob : list N) : res joiner :=
  bind (receive (j_peer s) blob) (fun e =>
  match e with
  | EvFailed => Ok (mkJoiner (j_peer s) (j_known s) (Some None))
  | EvConnected v l => Ok (mkJoiner v (j_known s) (Some (Some l)))
  | EvKnown v l => Ok (mkJoiner v (Some l) (j_result s))
  | EvKnownUnsupported => bind (send_reply (j_peer s) (failed_reply own [])) (fun _ => Ok s)
  | _ => Ok s
  end).
Fixpoint joiner_receives (own : version) (s : joiner) (blobs : list (list N)) : res joiner :=
  match blobs with
  | [] => Ok s
  | x :: l => bind (joiner_receive own s x) (fun s' => joiner_receives own s' l)
  end.

(** VAsioConnection.cpp 660-690 (SendParticipantAnnouncement). The buffer takes the version of the announcement
    (VAsioSerdes.cpp 71). *)
Definition announce (own : version) (info : PeerInfo) (sim : list N) : res (list N) :=
  send_versioned own rk_announcement (ser_ParticipantAnnouncement (mkParticipantAnnouncement (make_header own) info sim)).

(** How a handshake ends: the state of the connecting node, and whether the node connected to threw an exception out of
    its receiving function. Then nothing was sent, and nothing more is read from the connection: the message was taken
    from the buffer, but neither was its size reset (VAsioPeer.cpp 292) nor another read started (251, 276); the thread
    logs "Something went wrong" and goes on (VAsioConnection.cpp 1216-1230). *)
Record outcome := mkOutcome { o_joiner : joiner; o_stalled : bool }.

(** A handshake on a fresh connection. *)
Definition handshake (own : version) (info : PeerInfo) (sim : list N) (a : acceptor) (diag : list N) : res outcome :=
  bind (announce own info sim) (fun blob =>
  match answer a v00 diag blob with
  | Ok l => bind (joiner_receives own joiner_init l) (fun s => Ok (mkOutcome s false))
  | Exn => Ok (mkOutcome joiner_init true)
  | UB => UB
  end).
