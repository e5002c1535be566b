From Coq Require Import String List Arith Bool.
Import ListNotations.
Open Scope nat_scope.
Open Scope list_scope.

(** Model of the message routing of any number of participants: core/vasio/SilKitLink.hpp, VAsioTransmitter.hpp, VAsioReceiver.hpp and
    the parts of VAsioConnection that register services, exchange subscriptions, route messages and remove peers. *)

(** core/internal/traits/SilKitMsgTraits.hpp:112-151, the message types *)
Inductive mtype :=
| LogMsg | MetricsUpdate | SystemCommand | ParticipantStatus | WorkflowConfiguration | NextSimTask | WireDataMessageEvent
| FunctionCall | FunctionCallResponse
| WireCanFrameEvent | CanFrameTransmitEvent | CanControllerStatus | CanConfigureBaudrate | CanSetControllerMode
| WireEthernetFrameEvent | EthernetFrameTransmitEvent | EthernetStatus | EthernetSetMode
| LinSendFrameRequest | LinSendFrameHeaderRequest | LinTransmission | LinWakeupPulse | WireLinControllerConfig
| LinControllerStatusUpdate | LinFrameResponseUpdate
| WireFlexrayFrameEvent | WireFlexrayFrameTransmitEvent | FlexraySymbolEvent | FlexraySymbolTransmitEvent | FlexrayCycleStartEvent
| FlexrayHostCommand | FlexrayControllerConfig | FlexrayTxBufferConfigUpdate | WireFlexrayTxBufferUpdate | FlexrayPocStatusEvent
| ParticipantDiscoveryEvent | ServiceDiscoveryEvent | RequestReplyCall | RequestReplyCallReturn.
Scheme Equality for mtype.

Definition all_types : list mtype :=
  [LogMsg; MetricsUpdate; SystemCommand; ParticipantStatus; WorkflowConfiguration; NextSimTask; WireDataMessageEvent;
   FunctionCall; FunctionCallResponse;
   WireCanFrameEvent; CanFrameTransmitEvent; CanControllerStatus; CanConfigureBaudrate; CanSetControllerMode;
   WireEthernetFrameEvent; EthernetFrameTransmitEvent; EthernetStatus; EthernetSetMode;
   LinSendFrameRequest; LinSendFrameHeaderRequest; LinTransmission; LinWakeupPulse; WireLinControllerConfig;
   LinControllerStatusUpdate; LinFrameResponseUpdate;
   WireFlexrayFrameEvent; WireFlexrayFrameTransmitEvent; FlexraySymbolEvent; FlexraySymbolTransmitEvent; FlexrayCycleStartEvent;
   FlexrayHostCommand; FlexrayControllerConfig; FlexrayTxBufferConfigUpdate; WireFlexrayTxBufferUpdate; FlexrayPocStatusEvent;
   ParticipantDiscoveryEvent; ServiceDiscoveryEvent; RequestReplyCall; RequestReplyCallReturn].

(** core/internal/traits/SilKitMsgSerdesName.hpp:32-71 *)
Open Scope string_scope.
Definition serdes_name (t : mtype) : string :=
  match t with
  | LogMsg => "LOGMSG" | MetricsUpdate => "METRICSUPDATE" | SystemCommand => "SYSTEMCOMMAND"
  | ParticipantStatus => "PARTICIPANTSTATUS" | WorkflowConfiguration => "WORKFLOWCONFIGURATION" | NextSimTask => "NEXTSIMTASK"
  | WireDataMessageEvent => "DATAMESSAGEEVENT" | FunctionCall => "FUNCTIONCALL" | FunctionCallResponse => "FUNCTIONCALLRESPONSE"
  | WireCanFrameEvent => "CANFRAMEEVENT" | CanFrameTransmitEvent => "CANFRAMETRANSMITEVENT"
  | CanControllerStatus => "CANCONTROLLERSTATUS" | CanConfigureBaudrate => "CANCONFIGUREBAUDRATE"
  | CanSetControllerMode => "CANSETCONTROLLERMODE"
  | WireEthernetFrameEvent => "ETHERNETFRAMEEVENT" | EthernetFrameTransmitEvent => "ETHERNETFRAMETRANSMITEVENT"
  | EthernetStatus => "ETHERNETSTATUS" | EthernetSetMode => "ETHERNETSETMODE"
  | LinSendFrameRequest => "SENDFRAMEREQUEST" | LinSendFrameHeaderRequest => "SENDFRAMEHEADERREQUEST"
  | LinTransmission => "TRANSMISSION" | LinWakeupPulse => "WAKEUPPULSE" | WireLinControllerConfig => "CONTROLLERCONFIG"
  | LinControllerStatusUpdate => "CONTROLLERSTATUSUPDATE" | LinFrameResponseUpdate => "FRAMERESPONSEUPDATE"
  | WireFlexrayFrameEvent => "FRMESSAGE" | WireFlexrayFrameTransmitEvent => "FRMESSAGEACK"
  | FlexraySymbolEvent => "FRSYMBOL" | FlexraySymbolTransmitEvent => "FRSYMBOLACK" | FlexrayCycleStartEvent => "CYCLESTART"
  | FlexrayHostCommand => "HOSTCOMMAND" | FlexrayControllerConfig => "CONTROLLERCONFIG"
  | FlexrayTxBufferConfigUpdate => "TXBUFFERCONFIGUPDATE" | WireFlexrayTxBufferUpdate => "TXBUFFERUPDATE"
  | FlexrayPocStatusEvent => "POCSTATUS"
  | ParticipantDiscoveryEvent => "SERVICEANNOUNCEMENT" | ServiceDiscoveryEvent => "SERVICEDISCOVERYEVENT"
  | RequestReplyCall => "REQUESTREPLYCALL" | RequestReplyCallReturn => "REQUESTREPLYCALLRETURN"
  end.
Close Scope string_scope.
Definition same_serdes (t u : mtype) : bool := String.eqb (serdes_name t) (serdes_name u).

(** SilKitMsgTraits.hpp:154-158: HistSize() is 1 *)
Definition has_history (t : mtype) : bool :=
  match t with
  | ParticipantStatus | ParticipantDiscoveryEvent | WireDataMessageEvent | WorkflowConfiguration | WireLinControllerConfig => true
  | _ => false
  end.
(** SilKitMsgTraits.hpp:161-162 *)
Definition self_enforced (t : mtype) : bool := match t with ParticipantStatus | LinSendFrameHeaderRequest => true | _ => false end.
(** SilKitMsgTraits.hpp:165 *)
Definition self_forbidden (t : mtype) : bool := match t with SystemCommand => true | _ => false end.

(** Participants, networks, service types, services and payloads are named by numbers. Names of participants are unique in a simulation
    and stand for the peer objects as well; the participant id is computed from the name by [hash]
    (ServiceDescriptor::SetParticipantNameAndComputeId), a parameter. A service is named by its endpoint id, which also stands for
    its address in memory. *)
(** core/internal/ServiceDescriptor.hpp:264-268, the four fields that are compared *)
Record desc := mkD { d_pid : nat; d_net : nat; d_type : nat; d_sid : nat }.
Definition desc_eqb (x y : desc) : bool :=
  (d_pid x =? d_pid y) && (d_net x =? d_net y) && (d_type x =? d_type y) && (d_sid x =? d_sid y).

(** a message: endpoint id of the sending service and payload *)
Definition message := (nat * nat)%type.
(** a link: message type and network name, VAsioConnection.hpp:504 *)
Definition key := (mtype * nat)%type.
Definition key_eqb (x y : key) : bool := mtype_beq (fst x) (fst y) && (snd x =? snd y).

(** what travels between two participants. [WData] carries the receiver index, the endpoint of the sender and the bytes, which are
    represented by the type and the payload they are the serialization of. *)
Inductive wire :=
| WAnnounce                                      (* ParticipantAnnouncement *)
| WReply (subs : list (nat * key))               (* ParticipantAnnouncementReply with the subscriptions *)
| WSub (idx : nat) (k : key)                     (* VAsioMsgSubscriber; only the serdes name of the type is used *)
| WAck (idx : nat) (k : key) (ok : bool)         (* SubscriptionAcknowledge *)
| WData (idx : nat) (t : mtype) (m : message).

(** SilKitLink.hpp:75-76 with VAsioTransmitter.hpp:64-69,188: local receivers, remote receivers (peer, index), last message *)
Record link := mkL { l_local : list nat; l_remote : list (nat * nat); l_last : option message; l_hist : bool }.
Definition link0 : link := mkL [] [] None true.

(** SilKitLink.hpp:93-99 *)
Definition add_local (s : nat) (l : link) : link :=
  if existsb (Nat.eqb s) (l_local l) then l else mkL (l_local l ++ [s]) (l_remote l) (l_last l) (l_hist l).

(** VAsioTransmitter.hpp:54-62 (and 34, message types without history) *)
Definition notify (t : mtype) (idx : nat) (l : link) : list wire :=
  if has_history t then match l_last l with Some m => if l_hist l then [WData idx t m] else [] | None => [] end else [].
(** VAsioTransmitter.hpp:45-53 (and 33) *)
Definition save (t : mtype) (m : message) (l : link) : link :=
  if has_history t && l_hist l then mkL (l_local l) (l_remote l) (Some m) (l_hist l) else l.
(** VAsioTransmitter.hpp:40-43 (and 32), 157-160 *)
Definition set_history (t : mtype) (n : nat) (l : link) : link :=
  if has_history t then mkL (l_local l) (l_remote l) (l_last l) (negb (n =? 0)) else l.
(** VAsioTransmitter.hpp:195-199 *)
Definition rr_eqb (x y : nat * nat) : bool := (fst x =? fst y) && (snd x =? snd y).
(** VAsioTransmitter.hpp:96-109 *)
Definition add_remote (t : mtype) (p idx : nat) (l : link) : list wire * link :=
  if existsb (rr_eqb (p, idx)) (l_remote l) then ([], l)
  else (notify t idx l, mkL (l_local l) (l_remote l ++ [(p, idx)]) (l_last l) (l_hist l)).
(** VAsioTransmitter.hpp:111-122: the first receiver with the participant id of the peer *)
Fixpoint erase_first (hash : nat -> nat) (p : nat) (rs : list (nat * nat)) : list (nat * nat) :=
  match rs with
  | [] => []
  | r :: rs => if hash (fst r) =? hash p then rs else r :: erase_first hash p rs
  end.
Definition remove_remote (hash : nat -> nat) (p : nat) (l : link) : link :=
  mkL (l_local l) (erase_first hash p (l_remote l)) (l_last l) (l_hist l).
(** VAsioTransmitter.hpp:165-173: one message for each remote receiver *)
Definition transmit (t : mtype) (m : message) (l : link) : list (nat * wire) * link :=
  (map (fun r => (fst r, WData (snd r) t m)) (l_remote l), save t m l).
(** VAsioTransmitter.hpp:139-155; [None] is the exception *)
Definition transmit_to (t : mtype) (target : nat) (m : message) (l : link) : option (nat * wire) * link :=
  (option_map (fun r => (fst r, WData (snd r) t m)) (find (fun r => fst r =? target) (l_remote l)), save t m l).

(** Effects that can be observed. [threw] tells that the handler left with an exception. *)
Inductive event :=
| EPub (a : nat) (k : key) (m : message)                       (* SendMsg is executed on the I/O thread *)
| EPubTo (a : nat) (k : key) (b : nat) (m : message)           (* the same with a target *)
| EThrow (a : nat)                                             (* an exception reaches the I/O thread *)
| EReg (b : nat) (k : key) (s : nat)                           (* service s becomes a receiver of link k *)
| ESub (a b : nat) (k : key)                                   (* a adds b to the remote receivers of link k *)
| EHist (a : nat) (k : key) (n : nat)                          (* SetHistoryLength *)
| EIn (b : nat) (k : key) (a : nat) (m : message)              (* a message from a reaches link k of b *)
| ERecv (b : nat) (k : key) (s : nat) (a : nat) (m : message) (threw : bool)  (* service s receives it *)
| EMisread (b : nat) (k : key) (a : nat) (t : mtype) (m : message) (* link k of b decodes a message of type t *)
| EIgnored (b a : nat)                                         (* ReceiveRawSilKitMessage: unknown receiver index *)
| EAcked (a b : nat) (k : key) (ok : bool)                     (* a's subscription of k was acknowledged by b *)
| EJoined (a b : nat)                                          (* a received the announcement reply of b *)
| ELeft (a b : nat).                                           (* a removes its peer b *)

(** SilKitLink.hpp:194-213: whatever the handler throws is caught. [throws] decides which handlers throw on which messages. *)
Definition handlers := nat -> nat -> key -> message -> bool.   (* participant, service, link, message *)
Definition dispatch (throws : handlers) (b : nat) (k : key) (s a : nat) (m : message) : list event :=
  if throws b s k m then [ERecv b k s a m true] else [ERecv b k s a m false].

(** SilKitLink.hpp:143-155, without the time stamps *)
Definition distribute_remote (throws : handlers) (b : nat) (k : key) (a : nat) (m : message) (l : link) : list event :=
  flat_map (fun s => dispatch throws b k s a m) (l_local l).
(** SilKitLink.hpp:168-191; [from] is the descriptor of the sender, [descs] gives the descriptors of the services *)
Definition distribute_to_self (throws : handlers) (descs : nat -> option desc) (from : desc) (a : nat) (k : key) (m : message) (l : link)
  : list event :=
  if self_forbidden (fst k) then []
  else flat_map (fun s => if negb (self_enforced (fst k)) && match descs s with Some d => desc_eqb d from | None => false end then []
                          else dispatch throws a k s a m) (l_local l).
(** SilKitLink.hpp:158-166: remote receivers first *)
Definition distribute_local (throws : handlers) (descs : nat -> option desc) (from : desc) (a : nat) (k : key) (m : message) (l : link)
  : list (nat * wire) * list event * link :=
  let (ws, l) := transmit (fst k) m l in (ws, distribute_to_self throws descs from a k m l, l).

(** VAsioConnection.hpp:504-509,523: one participant. Links that do not exist are [link0]; GetLinkByName (297-308) and
    TryAddRemoteSubscriber (VAsioConnection.cpp:1741-1745) create them. [p_rcvs] are the types and networks of _vasioReceivers,
    their position is the receiver index. [p_senders] are the keys of _serviceToLinkMap. [p_svcs] are the descriptors of the services
    in the order of Participant::_localEndpointId (Participant_impl.hpp:1698-1709). *)
Record part := mkP { p_links : key -> link; p_rcvs : list key; p_peers : list nat; p_senders : list key; p_svcs : list desc }.
Definition part0 : part := mkP (fun _ => link0) [] [] [] [].
Definition set_link (k : key) (l : link) (p : part) : part :=
  mkP (fun k' => if key_eqb k' k then l else p_links p k') (p_rcvs p) (p_peers p) (p_senders p) (p_svcs p).

(** All participants and the connections between them: [n_chan a b] is what a has sent and b has not yet handled. The order is
    preserved, see the model of the peers. [n_met] are the pairs that were connected at some time. *)
Record net := mkN { n_part : nat -> part; n_chan : nat -> nat -> list wire; n_met : list (nat * nat); n_trace : list event }.
Definition net0 : net := mkN (fun _ => part0) (fun _ _ => []) [] [].
Definition set_part (a : nat) (p : part) (n : net) : net :=
  mkN (fun x => if x =? a then p else n_part n x) (n_chan n) (n_met n) (n_trace n).
Definition set_chan (a b : nat) (ws : list wire) (n : net) : net :=
  mkN (n_part n) (fun x y => if (x =? a) && (y =? b) then ws else n_chan n x y) (n_met n) (n_trace n).
Definition emit (es : list event) (n : net) : net := mkN (n_part n) (n_chan n) (n_met n) (n_trace n ++ es).
Definition post (a b : nat) (w : wire) (n : net) : net := set_chan a b (n_chan n a b ++ [w]) n.
Definition post_all (a : nat) (l : list (nat * wire)) (n : net) : net := fold_left (fun n x => post a (fst x) (snd x) n) l n.

(** VAsioConnection.hpp:322, the position of a receiver with the same uniqueReceiverId *)
Definition same_id (x y : key) : bool := same_serdes (fst x) (fst y) && (snd x =? snd y).

(** VAsioConnection.hpp:310-361: service s registers as a receiver of link k. The acknowledgements that are waited for are a model of
    their own. *)
Definition register_receiver (b s : nat) (k : key) (n : net) : net :=
  let p := n_part n b in
  let new := negb (existsb (Nat.eqb s) (l_local (p_links p k))) in
  let n := set_part b (set_link k (add_local s (p_links p k)) p) n in
  let n := if new then emit [EReg b k s] n else n in
  let p := n_part n b in
  if existsb (same_id k) (p_rcvs p) then n
  else
    let idx := length (p_rcvs p) in
    let n := set_part b (mkP (p_links p) (p_rcvs p ++ [k]) (p_peers p) (p_senders p) (p_svcs p)) n in
    post_all b (map (fun q => (q, WSub idx k)) (p_peers p)) n.
(** VAsioConnection.hpp:363-369 *)
Definition register_sender (a : nat) (k : key) (n : net) : net :=
  let p := n_part n a in
  set_part a (mkP (p_links p) (p_rcvs p) (p_peers p) (p_senders p ++ [k]) (p_svcs p)) n.
(** Participant_impl.hpp:1698-1714 and VAsioConnection.hpp:371-385: a new service on network [w] of type [ty] *)
Definition register (hash : nat -> nat) (a w ty : nat) (rs ss : list mtype) (n : net) : net :=
  let p := n_part n a in
  let s := length (p_svcs p) in
  let n := set_part a (mkP (p_links p) (p_rcvs p) (p_peers p) (p_senders p) (p_svcs p ++ [mkD (hash a) w ty s])) n in
  let n := fold_left (fun n t => register_receiver a s (t, w) n) rs n in
  fold_left (fun n t => register_sender a (t, w) n) ss n.

(** VAsioConnection.cpp:1728-1771: adds the peer to the links of all types with the same serdes name *)
Definition try_add (a b idx : nat) (k : key) (n : net) : net :=
  fold_left (fun n t =>
    if same_serdes t (fst k) then
      let p := n_part n a in
      let k' := (t, snd k) in
      let (ws, l) := add_remote t b idx (p_links p k') in
      let new := negb (existsb (rr_eqb (b, idx)) (l_remote (p_links p k'))) in
      let n := set_part a (set_link k' l p) n in
      let n := if new then emit [ESub a b k'] n else n in
      post_all a (map (fun w => (b, w)) ws) n
    else n) all_types n.

(** VAsioConnection.cpp:784-785 *)
Fixpoint enumerate (i : nat) (ks : list key) : list (nat * key) :=
  match ks with [] => [] | k :: ks => (i, k) :: enumerate (S i) ks end.

(** VAsioConnection.cpp:1477-1500: b handles a message of a *)
Definition receive (throws : handlers) (a b : nat) (w : wire) (n : net) : net :=
  match w with
  | WAnnounce => (* 742-772, 775-793: versions and simulation names match *)
      post b a (WReply (enumerate 0 (p_rcvs (n_part n b)))) n
  | WReply subs => (* 860-880 *)
      emit [EJoined b a] (fold_left (fun n x => try_add b a (fst x) (snd x) n) subs n)
  | WSub idx k => (* 1613-1658; the subscription succeeds as the types of all participants are the same *)
      post b a (WAck idx k true) (try_add b a idx k n)
  | WAck idx k ok => emit [EAcked b a k ok] n (* 1660-1674 *)
  | WData idx t m => (* 1773-1791, VAsioReceiver.hpp:106-116 *)
      match nth_error (p_rcvs (n_part n b)) idx with
      | None => emit [EIgnored b a] n
      | Some k =>
          if mtype_beq (fst k) t
          then emit (EIn b k a m :: distribute_remote throws b k a m (p_links (n_part n b) k)) n
          else emit [EMisread b k a t m] n
      end
  end.

Inductive op :=
| OConnect (a b : nat)                               (* a joins and connects to b *)
| ORegister (a w ty : nat) (rs ss : list mtype)      (* a service is created *)
| OSetHistory (a : nat) (k : key) (h : nat)          (* VAsioConnection.hpp:138-150 *)
| OSend (a s : nat) (t : mtype) (v : nat)            (* VAsioConnection.hpp:405-417 on the I/O thread *)
| OSendTo (a s : nat) (t : mtype) (b v : nat)        (* VAsioConnection.hpp:419-442 *)
| ODeliver (a b : nat)                               (* b handles the next message of a *)
| OClose (a b : nat).                                (* b notices that a is gone: OnPeerShutdown *)

Definition pair_eqb := rr_eqb.
Definition has_peer (b a : nat) (n : net) : bool := existsb (Nat.eqb a) (p_peers (n_part n b)).

Definition step (hash : nat -> nat) (throws : handlers) (o : op) (n : net) : net :=
  match o with
  | OConnect a b =>
      (* ConnectKnownParticipants.cpp:399-407, VAsioConnection.cpp:1142-1158, 1329-1347 and the accepting side. JoinSimulation is
         called before the first service is created, and a participant connects to another one once. *)
      if (a =? b) || existsb (pair_eqb (a, b)) (n_met n) || existsb (pair_eqb (b, a)) (n_met n)
         || match p_svcs (n_part n a) with [] => false | _ => true end then n
      else
        let pa := n_part n a in
        let n := set_part a (mkP (p_links pa) (p_rcvs pa) (p_peers pa ++ [b]) (p_senders pa) (p_svcs pa)) n in
        let pb := n_part n b in
        let n := set_part b (mkP (p_links pb) (p_rcvs pb) (p_peers pb ++ [a]) (p_senders pb) (p_svcs pb)) n in
        post a b WAnnounce (mkN (n_part n) (n_chan n) ((a, b) :: n_met n) (n_trace n))
  | ORegister a w ty rs ss => register hash a w ty rs ss n
  | OSetHistory a k h => emit [EHist a k h] (set_part a (set_link k (set_history (fst k) h (p_links (n_part n a) k)) (n_part n a)) n)
  | OSend a s t v =>
      match nth_error (p_svcs (n_part n a)) s with
      | None => n
      | Some d =>
          let k := (t, d_net d) in
          if existsb (key_eqb k) (p_senders (n_part n a)) then
            let '(ws, es, l) := distribute_local throws (nth_error (p_svcs (n_part n a))) d a k (s, v) (p_links (n_part n a) k) in
            emit es (post_all a ws (set_part a (set_link k l (n_part n a)) (emit [EPub a k (s, v)] n)))
          else emit [EThrow a] n
      end
  | OSendTo a s t b v =>
      match nth_error (p_svcs (n_part n a)) s with
      | None => n
      | Some d =>
          let k := (t, d_net d) in
          if existsb (key_eqb k) (p_senders (n_part n a)) then
            if a =? b then (* SilKitLink.hpp:219-222 *)
              emit (EPubTo a k b (s, v) :: distribute_to_self throws (nth_error (p_svcs (n_part n a))) d a k (s, v) (p_links (n_part n a) k)) n
            else
              let (w, l) := transmit_to t b (s, v) (p_links (n_part n a) k) in
              let n := set_part a (set_link k l (n_part n a)) (emit [EPubTo a k b (s, v)] n) in
              match w with Some x => post_all a [x] n | None => emit [EThrow a] n end
          else emit [EThrow a] n
      end
  | ODeliver a b =>
      if has_peer b a n then
        match n_chan n a b with
        | [] => n
        | w :: ws => receive throws a b w (set_chan a b ws n)
        end
      else n
  | OClose a b =>
      (* VAsioConnection.cpp:1355-1392, 1426-1458, without proxies *)
      if has_peer b a n then
        let p := n_part n b in
        emit [ELeft b a] (set_part b (mkP (fun k => remove_remote hash a (p_links p k)) (p_rcvs p)
                                          (filter (fun q => negb (q =? a)) (p_peers p)) (p_senders p) (p_svcs p)) n)
      else n
  end.

Definition run (hash : nat -> nat) (throws : handlers) (ops : list op) : net := fold_left (fun n o => step hash throws o n) ops net0.
