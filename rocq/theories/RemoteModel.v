(** Connecting to a known participant by a direct connection, a request to be connected, or the registry:
    the whole exchange between a participant that joins (the origin, O), a participant that is already
    there (the target, T) and the registry (R).

    SilKit/source/core/vasio/RemoteConnectionManager.cpp:35-95, VAsioConnection.cpp:600-615, 925-1140,
    1142-1158, 2145-2279, ConnectKnownParticipants.cpp:160-227, 253-478.

    The stage of O is that of ConnectModel.v, with the events that are only arguments there produced by the
    messages of T and R.  Here every handler is one step (the I/O thread of one process runs them one
    after the other) and O knows one participant only.  Every connection is a FIFO queue per direction; the
    path through the registry has two.  T subscribes to what O publishes: the reply to the announcement
    adds the connection to the receivers of O (VAsioConnection.cpp:861-864, 1728-1770,
    VAsioTransmitter.hpp:96-109).  Not modelled: the contents of the messages, unsupported versions and
    failed replies (ProxyModel.v), the creation of the proxy in T (ProxyModel.v), the attempts to
    connect to the URIs of a peer (ConnectPeerModel.v). *)
From Coq Require Import List Arith Bool.
From Verif Require Import Base.
From Verif Require ConnectModel.
Import ListNotations.

Notation pstage := ConnectModel.pstage.
Notation PInvalid := ConnectModel.PInvalid.
Notation PFailure := ConnectModel.PFailure.
Notation PDirect := ConnectModel.PDirect.
Notation PRequested := ConnectModel.PRequested.
Notation PConnecting := ConnectModel.PConnecting.
Notation PWaiting := ConnectModel.PWaiting.
Notation PReplied := ConnectModel.PReplied.

(** [MReq], [MConn], [MFail], [MNotice]: RemoteParticipantConnectRequest with status REQUEST, CONNECTING,
    FAILED_TO_CONNECT, ANNOUNCEMENT; [MAnn], [MRep]: ParticipantAnnouncement and its successful reply;
    [MData n]: the [n]-th message published by O.  [MAnn], [MRep], [MData] are proxy messages
    if they are sent via the registry. *)
Inductive msg := MReq | MConn | MFail | MNotice | MAnn | MRep | MData (n : nat).

(** What O and T do; [LAnnounce c]: O sends its announcement on connection [c] (None: the proxy);
    [LDirectFailed]: the direct attempt of O failed; [LExpired]: the timer of O expired while it waited
    for an answer; [LAccept]: T starts to connect; [LNotice], [LRefuse]: the attempt of T ended;
    [LRefused]: O is told so; [LReply c]: O received the reply. *)
Inductive ev := LAnnounce (c : option nat) | LDirectFailed | LExpired | LAccept | LNotice | LRefuse
              | LRefused | LReply (c : option nat).

(** The configuration.  [c_oreq], [c_oproxy]: capabilities of O (request, proxy); [c_caps]: the
    capabilities that T announced, None if they cannot be parsed; [c_treq], [c_tproxy], [c_rreq],
    [c_rproxy]: those that T and R have. *)
Record cfg := mkCfg {
  c_oreq : bool; c_oproxy : bool; c_caps : option (bool * bool);
  c_treq : bool; c_tproxy : bool; c_rreq : bool; c_rproxy : bool }.

(** A direct connection: messages to O and to T. *)
Notation link := (list msg * list msg)%type.

(** [s_pend]: the direct attempt of O is under way; [s_join]: the promise for which the thread that joins waits
    without limit of time (VAsioConnection.cpp:602-614; Some true: value, Some false: exception);
    [s_exn]: an exception left a handler of O; the worker goes on (1213-1232); [s_or], [s_rt], [s_tr],
    [s_ro]: messages between O, R and T; [s_tries]: _connectPeers of T; [s_rcv]: the receivers of O;
    [s_got]: the messages T received; [s_gone]: T has disappeared. *)
Record st := mkSt {
  s_stage : pstage; s_pend : bool; s_timer : bool; s_join : option bool; s_exn : bool;
  s_or : list msg; s_rt : list msg; s_tr : list msg; s_ro : list msg;
  s_tries : nat; s_links : list link;
  s_rcv : list (option nat); s_next : nat; s_got : list nat; s_gone : bool;
  s_log : list ev }.

(** After Peer::StartConnecting (ConnectKnownParticipants.cpp:253-262). *)
Definition init : st := mkSt PDirect true false None false [] [] [] [] 0 [] [] 0 [] false [].

Definition set_stage (x : pstage) (s : st) : st :=
  mkSt x (s_pend s) (s_timer s) (s_join s) (s_exn s) (s_or s) (s_rt s) (s_tr s) (s_ro s) (s_tries s) (s_links s)
       (s_rcv s) (s_next s) (s_got s) (s_gone s) (s_log s).
Definition set_pend (b : bool) (s : st) : st :=
  mkSt (s_stage s) b (s_timer s) (s_join s) (s_exn s) (s_or s) (s_rt s) (s_tr s) (s_ro s) (s_tries s) (s_links s)
       (s_rcv s) (s_next s) (s_got s) (s_gone s) (s_log s).
Definition set_timer (b : bool) (s : st) : st :=
  mkSt (s_stage s) (s_pend s) b (s_join s) (s_exn s) (s_or s) (s_rt s) (s_tr s) (s_ro s) (s_tries s) (s_links s)
       (s_rcv s) (s_next s) (s_got s) (s_gone s) (s_log s).
Definition set_join (b : bool) (s : st) : st :=
  mkSt (s_stage s) (s_pend s) (s_timer s) (match s_join s with None => Some b | o => o end) (s_exn s) (s_or s) (s_rt s) (s_tr s) (s_ro s) (s_tries s) (s_links s)
       (s_rcv s) (s_next s) (s_got s) (s_gone s) (s_log s).
Definition throw (s : st) : st :=
  mkSt (s_stage s) (s_pend s) (s_timer s) (s_join s) true (s_or s) (s_rt s) (s_tr s) (s_ro s) (s_tries s) (s_links s)
       (s_rcv s) (s_next s) (s_got s) (s_gone s) (s_log s).
Definition set_or (q : list msg) (s : st) : st :=
  mkSt (s_stage s) (s_pend s) (s_timer s) (s_join s) (s_exn s) q (s_rt s) (s_tr s) (s_ro s) (s_tries s) (s_links s)
       (s_rcv s) (s_next s) (s_got s) (s_gone s) (s_log s).
Definition set_rt (q : list msg) (s : st) : st :=
  mkSt (s_stage s) (s_pend s) (s_timer s) (s_join s) (s_exn s) (s_or s) q (s_tr s) (s_ro s) (s_tries s) (s_links s)
       (s_rcv s) (s_next s) (s_got s) (s_gone s) (s_log s).
Definition set_tr (q : list msg) (s : st) : st :=
  mkSt (s_stage s) (s_pend s) (s_timer s) (s_join s) (s_exn s) (s_or s) (s_rt s) q (s_ro s) (s_tries s) (s_links s)
       (s_rcv s) (s_next s) (s_got s) (s_gone s) (s_log s).
Definition set_ro (q : list msg) (s : st) : st :=
  mkSt (s_stage s) (s_pend s) (s_timer s) (s_join s) (s_exn s) (s_or s) (s_rt s) (s_tr s) q (s_tries s) (s_links s)
       (s_rcv s) (s_next s) (s_got s) (s_gone s) (s_log s).
Definition set_tries (n : nat) (s : st) : st :=
  mkSt (s_stage s) (s_pend s) (s_timer s) (s_join s) (s_exn s) (s_or s) (s_rt s) (s_tr s) (s_ro s) n (s_links s)
       (s_rcv s) (s_next s) (s_got s) (s_gone s) (s_log s).
Definition set_links (l : list link) (s : st) : st :=
  mkSt (s_stage s) (s_pend s) (s_timer s) (s_join s) (s_exn s) (s_or s) (s_rt s) (s_tr s) (s_ro s) (s_tries s) l
       (s_rcv s) (s_next s) (s_got s) (s_gone s) (s_log s).
Definition set_rcv (l : list (option nat)) (s : st) : st :=
  mkSt (s_stage s) (s_pend s) (s_timer s) (s_join s) (s_exn s) (s_or s) (s_rt s) (s_tr s) (s_ro s) (s_tries s) (s_links s)
       l (s_next s) (s_got s) (s_gone s) (s_log s).
Definition set_next (n : nat) (s : st) : st :=
  mkSt (s_stage s) (s_pend s) (s_timer s) (s_join s) (s_exn s) (s_or s) (s_rt s) (s_tr s) (s_ro s) (s_tries s) (s_links s)
       (s_rcv s) n (s_got s) (s_gone s) (s_log s).
Definition add_got (n : nat) (s : st) : st :=
  mkSt (s_stage s) (s_pend s) (s_timer s) (s_join s) (s_exn s) (s_or s) (s_rt s) (s_tr s) (s_ro s) (s_tries s) (s_links s)
       (s_rcv s) (s_next s) (s_got s ++ [n]) (s_gone s) (s_log s).
Definition set_gone (s : st) : st :=
  mkSt (s_stage s) (s_pend s) (s_timer s) (s_join s) (s_exn s) (s_or s) (s_rt s) (s_tr s) (s_ro s) (s_tries s) (s_links s)
       (s_rcv s) (s_next s) (s_got s) true (s_log s).
Definition say (e : ev) (s : st) : st :=
  mkSt (s_stage s) (s_pend s) (s_timer s) (s_join s) (s_exn s) (s_or s) (s_rt s) (s_tr s) (s_ro s) (s_tries s) (s_links s)
       (s_rcv s) (s_next s) (s_got s) (s_gone s) (s_log s ++ [e]).

(** Replace the [k]-th element. *)
Fixpoint put {A} (k : nat) (x : A) (l : list A) {struct l} : list A :=
  match l, k with
  | [], _ => []
  | _ :: l, O => x :: l
  | y :: l, S k => y :: put k x l
  end.
Definition to_o (k : nat) (s : st) : list msg := fst (nth k (s_links s) ([], [])).
Definition to_t (k : nat) (s : st) : list msg := snd (nth k (s_links s) ([], [])).
Definition set_to_o (k : nat) (q : list msg) (s : st) : st := set_links (put k (q, to_t k s) (s_links s)) s.
Definition set_to_t (k : nat) (q : list msg) (s : st) : st := set_links (put k (to_o k s, q) (s_links s)) s.
(** A new connection is the last one. *)
Definition new_link (l : link) (s : st) : st := set_links (s_links s ++ [l]) s.

(** ** O *)
(** IVAsioPeer::SendSilKitMsg on a connection; what is sent to a participant that is gone is lost. *)
Definition o_send (c : option nat) (m : msg) (s : st) : st :=
  match c with
  | None => set_or (s_or s ++ [m]) s
  | Some k => if s_gone s then s else set_to_t k (to_t k s ++ [m]) s
  end.
(** HandleConnectedPeer (VAsioConnection.cpp:1142-1158). *)
Definition handle_connected (c : option nat) (s : st) : st := o_send c MAnn (say (LAnnounce c) s).
(** UpdateStage (ConnectKnownParticipants.cpp:160-227) with the listener (VAsioConnection.cpp:2090-2127):
    the thread that joins goes on if the peer has failed or waits for its reply. *)
Definition update (s : st) : st :=
  match s_stage s with
  | PFailure => set_join false s
  | PWaiting | PReplied => set_join true s
  | _ => s
  end.
(** TryProxyConnect (VAsioConnection.cpp:2234-2279) and what its callers do
    (ConnectKnownParticipants.cpp:294-305, 428-437, 453-461): the capabilities are parsed without a try. *)
Definition via_proxy (c : cfg) (s : st) : st :=
  let s := set_stage PWaiting s in
  if c_oproxy c then
    match c_caps c with
    | None => throw s
    | Some (_, true) => update (handle_connected None s)
    | Some (_, false) => update (set_stage PFailure s)
    end
  else update (set_stage PFailure s).
(** TryRemoteConnectRequest (VAsioConnection.cpp:2176-2231): true if the request was sent. *)
Definition can_request (c : cfg) : bool :=
  c_oreq c && match c_caps c with Some (b, _) => b | None => false end.
(** ConnectKnownParticipants.cpp:393-408 OnConnectPeerSuccess *)
Definition direct_ok (s : st) : st :=
  let k := length (s_links s) in
  update (handle_connected (Some k) (set_stage PWaiting (new_link ([], []) (set_pend false s)))).
(** ConnectKnownParticipants.cpp:410-438 OnConnectPeerFailure *)
Definition direct_fail (c : cfg) (s : st) : st :=
  let s := say LDirectFailed (set_pend false s) in
  if can_request c then set_timer true (o_send None MReq (set_stage PRequested s)) else via_proxy c s.
(** ConnectKnownParticipants.cpp:441-462 OnTimerExpired *)
Definition timer (c : cfg) (s : st) : st :=
  match s_stage s with
  | PRequested => via_proxy c (say LExpired (set_timer false s))
  | _ => set_timer false s
  end.
Definition ceqb (a b : option nat) : bool :=
  match a, b with None, None => true | Some i, Some j => i =? j | _, _ => false end.
(** ReceiveParticipantAnnouncementReply (VAsioConnection.cpp:829-890) of a successful reply,
    ConnectKnownParticipants.cpp:323-338. *)
Definition o_reply (c : option nat) (s : st) : st :=
  let s := say (LReply c) s in
  let s := if existsb (ceqb c) (s_rcv s) then s else set_rcv (s_rcv s ++ [c]) s in
  match s_stage s with PWaiting => update (set_stage PReplied s) | _ => s end.
(** A message received by O: ReceiveRemoteParticipantConnectRequest_Participant
    (VAsioConnection.cpp:1081-1128), ConnectKnownParticipants.cpp:268-322.  O ignores requests without the
    capability (967-976), which it has if it has sent one. *)
Definition o_recv (cf : cfg) (c : option nat) (m : msg) (s : st) : st :=
  match m with
  | MConn => match s_stage s with PRequested => set_stage PConnecting s | _ => s end
  | MFail =>
      let s := say LRefused s in
      match s_stage s with PRequested | PConnecting => via_proxy cf s | _ => s end
  | MNotice =>
      let s := match s_stage s with PRequested | PConnecting => update (set_stage PWaiting s) | _ => s end in
      handle_connected c s
  | MRep => o_reply c s
  | _ => s
  end.
(** SilKitLink::DistributeLocalSilKitMessage: to all receivers (VAsioTransmitter.hpp:165-173). *)
Definition publish (s : st) : st :=
  fold_left (fun s c => o_send c (MData (s_next s - 1)) s) (s_rcv s) (set_next (S (s_next s)) s).

(** ** R *)
(** RemoteParticipantConnectRequest (VAsioConnection.cpp:988-1043) and proxy messages (RegistryModel.v). *)
Definition forwards (c : cfg) (m : msg) : bool :=
  match m with
  | MReq | MConn | MFail => c_rreq c
  | MNotice => false
  | MAnn | MRep | MData _ => c_rproxy c
  end.

(** ** T *)
(** VAsioConnection.cpp:1056-1078, RemoteConnectionManager.cpp:35-44; [now]: the attempt fails inside
    of AsyncConnect (ConnectPeerModel.v: FailsNow; RemoteConnectionManager.cpp:83-92,
    VAsioConnection.cpp:2161-2173), which is before CONNECTING is sent. *)
Definition t_request (c : cfg) (now : bool) (s : st) : st :=
  if c_treq c then
    let s := say LAccept s in
    let s := if now then set_tr (s_tr s ++ [MFail]) (say LRefuse s) else set_tries (S (s_tries s)) s in
    set_tr (s_tr s ++ [MConn]) s
  else s.
(** A message received by T on connection [c]. *)
Definition t_recv (cf : cfg) (now : bool) (c : option nat) (m : msg) (s : st) : st :=
  let proxied := match c with None => c_tproxy cf | Some _ => true end in
  match m with
  | MReq => t_request cf now s
  | MAnn => if proxied then match c with
                            | None => set_tr (s_tr s ++ [MRep]) s
                            | Some k => set_to_o k (to_o k s ++ [MRep]) s
                            end
            else s
  | MData n => if proxied then add_got n s else s
  | _ => s
  end.
(** RemoteConnectionManager.cpp:66-80, VAsioConnection.cpp:2145-2159: Remove, ANNOUNCEMENT, AddPeer *)
Definition t_ok (s : st) : st := say LNotice (new_link ([MNotice], []) (set_tries (s_tries s - 1) s)).
(** RemoteConnectionManager.cpp:82-92, VAsioConnection.cpp:2161-2173 *)
Definition t_fail (s : st) : st := say LRefuse (set_tr (s_tr s ++ [MFail]) (set_tries (s_tries s - 1) s)).

(** [DirectOk], [DirectFail], [Timer]: at O; [RtoT], [RtoO]: R forwards a message; [FromR now]: T
    receives a message from R; [TOk], [TFail]: an attempt of T ends; [ToO]: O receives a message from R;
    [LinkO k], [LinkT now k]: O or T receives a message on a direct connection; [Publish]: O publishes a
    message; [Gone]: T disappears, with it the messages to it and its connections. *)
Inductive op := DirectOk | DirectFail | Timer | RtoT | RtoO | FromR (now : bool) | TOk | TFail | ToO
              | LinkO (k : nat) | LinkT (k : nat) | Publish | Gone.

Definition step (c : cfg) (s : st) (o : op) : st :=
  match o with
  | DirectOk => if s_pend s && negb (s_gone s) then direct_ok s else s
  | DirectFail => if s_pend s then direct_fail c s else s
  | Timer => if s_timer s then timer c s else s
  | RtoT => match s_or s with
            | [] => s
            | m :: q => let s := set_or q s in
                        if forwards c m && negb (s_gone s) then set_rt (s_rt s ++ [m]) s else s
            end
  | RtoO => match s_tr s with
            | [] => s
            | m :: q => let s := set_tr q s in if forwards c m then set_ro (s_ro s ++ [m]) s else s
            end
  | FromR now => match s_rt s with [] => s | m :: q => t_recv c now None m (set_rt q s) end
  | TOk => match s_tries s with O => s | S _ => t_ok s end
  | TFail => match s_tries s with O => s | S _ => t_fail s end
  | ToO => match s_ro s with [] => s | m :: q => o_recv c None m (set_ro q s) end
  | LinkO k => match to_o k s with [] => s | m :: q => o_recv c (Some k) m (set_to_o k q s) end
  | LinkT k => match to_t k s with [] => s | m :: q => t_recv c false (Some k) m (set_to_t k q s) end
  | Publish => publish s
  | Gone => set_gone (set_tries 0 (set_rt [] (set_links (map (fun _ => ([], [])) (s_links s)) s)))
  end.

Definition run (c : cfg) (ops : list op) : st := fold_left (step c) ops init.

(** Nothing can happen any more, whatever the order: no message is on its way, no attempt and no timer is
    under way. *)
Definition settled (s : st) : Prop :=
  s_pend s = false /\ s_timer s = false /\ s_tries s = 0
  /\ s_or s = [] /\ s_rt s = [] /\ s_tr s = [] /\ s_ro s = []
  /\ forall l, In l (s_links s) -> l = ([], []).
