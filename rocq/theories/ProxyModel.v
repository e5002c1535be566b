(** Communication through a proxy: SilKit/source/core/vasio/VAsioProxyPeer.cpp and the parts of
    VAsioConnection.cpp which create, use and remove peers (real and proxied), for a participant as well as for the
    registry, and a network in which all participants talk to one another through the registry only.

    Names of simulations and participants are only compared for equality: natural numbers, 0 is the empty string.
    Peers (pointers) are numbers which are not reused; using a deleted peer is undefined behaviour ([Dangling]).
    Everything runs on the I/O thread.  A message is kept as a value, not as bytes (see SerdesModel.v for the bytes);
    [MUser] stands for every message which is neither part of the handshake nor a proxy message.
    Not modelled: the version negotiation, the duplicate check of the registry and its own bookkeeping (see RegistryModel.v),
    handlers of announcements which throw, aggregation (see PeerSendModel.v), metrics, logging. *)
From Coq Require Import List Arith Bool.
From Verif Require Import Base.
Import ListNotations.

Definition key := (nat * nat)%type.
Definition keqb (a b : key) : bool := (fst a =? fst b) && (snd a =? snd b).

(** [MAnn s n]: ParticipantAnnouncement of [n] in simulation [s]; [MReply]: ParticipantAnnouncementReply with its status;
    [MProxy v src dst payload]: ProxyMessage (VAsioDatatypes.hpp:120-131), [None] is the empty payload. *)
Inductive msg :=
| MAnn (s n : nat)
| MReply (ok : bool)
| MUser (x : nat)
| MProxy (v src dst : nat) (payload : option msg).

(** What a node does visibly.  [ESend r m]: [m] is handed to the socket of the real peer [r]; [ECall p k x]: the
    application sends [x] to peer [p], which carries the names [k]; [EAnn], [ERejected]: announcement on peer [p] accepted or not; [EReply], [EUser]: message received
    from peer [p] carrying the names [k]; [EGone p k]: the shutdown callbacks are called with the peer;
    [ELost]: "Unable to deliver proxy message". *)
Inductive ev :=
| ESend (r : nat) (m : msg)
| ECall (p : nat) (k : key) (x : nat)
| EAnn (p s n : nat)
| ERejected (p s n : nat)
| EReply (p : nat) (k : key) (ok : bool)
| EUser (p : nat) (k : key) (x : nat)
| EGone (p : nat) (k : key)
| ELost (src dst : nat).

(** [NoFuel] is not an outcome of the C++ code; it marks an exhausted recursion bound and is shown never to occur. *)
Inductive health := Fine | Dangling | NoFuel.

(** _participantName, _simulationName, _allowAnySimulationName (registry), HasProxyMessageCapability (VAsioConnection.hpp). *)
Record cfg := mkCfg { c_me : nat; c_sim : nat; c_any : bool; c_cap : bool }.

(** [n_peers]: _peers; [n_info p]: GetSimulationName and GetInfo().participantName of a peer; [n_via p]: VAsioProxyPeer::_peer,
    [None] for a VAsioPeer; [n_names]: _participantNameToPeer; [n_map]: _peerToProxyPeers, flattened; [n_dests]:
    _proxySourceToDestinations, flattened; [n_log]: what was done since the log was cleared. *)
Record node := mkNode {
  n_next : nat;
  n_peers : list nat;
  n_info : nat -> key;
  n_via : nat -> option nat;
  n_names : list (key * nat);
  n_map : list (nat * nat);
  n_dests : list (key * nat);
  n_log : list ev;
  n_health : health }.

Fixpoint find (k : key) (l : list (key * nat)) : option nat :=
  match l with
  | [] => None
  | (k', p) :: l' => if keqb k k' then Some p else find k l'
  end.
Definition erase (k : key) (l : list (key * nat)) : list (key * nat) :=
  filter (fun e => negb (keqb k (fst e))) l.
Definition mem (p : nat) (l : list nat) : bool := existsb (Nat.eqb p) l.

Definition out (e : list ev) (s : node) : node :=
  mkNode (n_next s) (n_peers s) (n_info s) (n_via s) (n_names s) (n_map s) (n_dests s) (n_log s ++ e) (n_health s).
Definition fail (h : health) (s : node) : node :=
  mkNode (n_next s) (n_peers s) (n_info s) (n_via s) (n_names s) (n_map s) (n_dests s) (n_log s) h.
Definition clear (s : node) : node :=
  mkNode (n_next s) (n_peers s) (n_info s) (n_via s) (n_names s) (n_map s) (n_dests s) [] (n_health s).
Definition set_info (p : nat) (k : key) (s : node) : node :=
  mkNode (n_next s) (n_peers s) (fun q => if q =? p then k else n_info s q) (n_via s) (n_names s) (n_map s)
         (n_dests s) (n_log s) (n_health s).
Definition set_names (l : list (key * nat)) (s : node) : node :=
  mkNode (n_next s) (n_peers s) (n_info s) (n_via s) l (n_map s) (n_dests s) (n_log s) (n_health s).
Definition set_map (l : list (nat * nat)) (s : node) : node :=
  mkNode (n_next s) (n_peers s) (n_info s) (n_via s) (n_names s) l (n_dests s) (n_log s) (n_health s).
Definition set_dests (l : list (key * nat)) (s : node) : node :=
  mkNode (n_next s) (n_peers s) (n_info s) (n_via s) (n_names s) (n_map s) l (n_log s) (n_health s).
Definition set_peers (l : list nat) (s : node) : node :=
  mkNode (n_next s) l (n_info s) (n_via s) (n_names s) (n_map s) (n_dests s) (n_log s) (n_health s).

(** Object [p] exists: it is owned by _peers, or it is the peer 0 of a participant, its connection to the registry, which is
    owned by _registry (VAsioConnection.cpp:556) and never deleted. *)
Definition alive (c : cfg) (s : node) (p : nat) : bool :=
  mem p (n_peers s) || (negb (c_any c) && (p =? 0)).

(** make_unique<VAsioProxyPeer> (VAsioProxyPeer.cpp:14-31) or MakeVAsioPeer with the names [k] over [via], and
    VAsioConnection::AddPeer (VAsioConnection.cpp:1329-1347). *)
Definition add_peer (via : option nat) (k : key) (s : node) : node :=
  let p := n_next s in
  mkNode (S p) (n_peers s ++ [p])
         (fun q => if q =? p then k else n_info s q) (fun q => if q =? p then via else n_via s q)
         (n_names s) (match via with Some q => n_map s ++ [(q, p)] | None => n_map s end)
         (n_dests s) (n_log s) (n_health s).

(** IVAsioPeer::SendSilKitMsg: VAsioPeer hands the message to its socket (see PeerSendModel.v),
    VAsioProxyPeer::SendSilKitMsg (VAsioProxyPeer.cpp:37-54) wraps it and hands it to its peer.  [f] bounds the length of
    a chain of proxies. *)
Fixpoint send_fuel (f : nat) (c : cfg) (p : nat) (m : msg) (s : node) : node :=
  match f with
  | 0 => fail NoFuel s
  | S f' =>
      if negb (alive c s p) then fail Dangling s else
      match n_via s p with
      | None => out [ESend p m] s
      | Some q => send_fuel f' c q (MProxy 0 (c_me c) (snd (n_info s p)) (Some m)) s
      end
  end.
Definition send (c : cfg) (p : nat) (m : msg) (s : node) : node := send_fuel (S p) c p m s.

(** AssociateParticipantNameAndPeer (VAsioConnection.cpp:1161-1167): insert does not overwrite. *)
Definition associate (k : key) (p : nat) (s : node) : node :=
  match find k (n_names s) with
  | Some _ => s
  | None => set_names (n_names s ++ [(k, p)]) s
  end.

(** ReceiveParticipantAnnouncement and the reply (VAsioConnection.cpp:682-784), supported version. *)
Definition announce (c : cfg) (p sn nm : nat) (s : node) : node :=
  if negb (c_any c) && negb (sn =? c_sim c) then send c p (MReply false) (out [ERejected p sn nm] s)
  else send c p (MReply true) (associate (sn, nm) p (out [EAnn p sn nm] (set_info p (sn, nm) s))).

(** HandleConnectedPeer (VAsioConnection.cpp:1142-1158). *)
Definition handle_connected (c : cfg) (p : nat) (s : node) : node :=
  let n := snd (n_info s p) in
  associate (c_sim c, n) p (send c p (MAnn (c_sim c) (c_me c)) (set_info p (c_sim c, n) s)).

(** SendProxyPeerShutdownNotification (VAsioConnection.cpp:1394-1426). *)
Definition notify (c : cfg) (p : nat) (s : node) : node :=
  let k := n_info s p in
  fold_left (fun t (e : key * nat) =>
               if keqb k (fst e)
               then match find (fst k, snd e) (n_names t) with
                    | None => t
                    | Some q => send c q (MProxy 0 (snd k) (snd e) None) t
                    end
               else t) (n_dests s) s.

(** OnPeerShutdown (VAsioConnection.cpp:1355-1392) while the connection itself is not shutting down, with RemovePeerFromLinks
    and RemovePeerFromConnection (1440-1460): the proxy peers of the peer are copied and shut down first, in an
    unspecified order (here: of their creation). *)
Fixpoint shutdown_fuel (f : nat) (c : cfg) (p : nat) (s : node) : node :=
  match f with
  | 0 => fail NoFuel s
  | S f' =>
      let kids := map snd (filter (fun e => fst e =? p) (n_map s)) in
      let s1 := set_map (filter (fun e => negb (fst e =? p)) (n_map s)) s in
      let s2 := fold_left (fun t q => match n_health t with Fine => shutdown_fuel f' c q t | _ => t end) kids s1 in
      match n_health s2 with
      | Fine =>
          if negb (alive c s2 p) then fail Dangling s2 else
          let s3 := notify c p s2 in
          match n_health s3 with
          | Fine =>
              let s4 := out [EGone p (n_info s3 p)] s3 in
              let s5 := set_names (erase (n_info s4 p) (n_names s4)) s4 in
              set_peers (filter (fun q => negb (q =? p)) (n_peers s5)) s5
          | _ => s3
          end
      | _ => s2
      end
  end.
Definition shutdown (c : cfg) (p : nat) (s : node) : node := shutdown_fuel (S (length (n_map s))) c p s.

(** ReceiveProxyMessage, the case of a message whose source is the sender (VAsioConnection.cpp:1541-1580). *)
Definition relay (c : cfg) (from v src dst : nat) (pl : option msg) (s : node) : node :=
  let sim := fst (n_info s from) in
  match find (sim, dst) (n_names s) with
  | None => out [ELost src dst] s
  | Some q =>
      let s1 := send c q (MProxy v src dst pl) s in
      if existsb (fun e => keqb (sim, src) (fst e) && (dst =? snd e)) (n_dests s1) then s1
      else set_dests (n_dests s1 ++ [((sim, src), dst)]) s1
  end.

(** OnSocketData (VAsioConnection.cpp:1478-1500), ReceiveProxyMessage (1502-1610); the payload of a proxy message is
    dispatched again, so the recursion follows the nesting of the message. *)
Fixpoint recv (c : cfg) (m : msg) (from : nat) (s : node) : node :=
  match n_health s with
  | Fine =>
      if negb (alive c s from) then fail Dangling s else
      match m with
      | MAnn sn nm => announce c from sn nm s
      | MReply ok => out [EReply from (n_info s from) ok] s
      | MUser x => out [EUser from (n_info s from) x] s
      | MProxy v src dst pl =>
          if negb (v =? 0) then s
          else if negb (c_cap c) then s
          else if snd (n_info s from) =? src then relay c from v src dst pl s
          else if dst =? c_me c then
            let (p, s1) := match find (c_sim c, src) (n_names s) with
                           | Some p => (p, s)
                           | None => (n_next s, add_peer (Some from) (0, 0) s)
                           end in
            match pl with
            | None => shutdown c p s1
            | Some m' => recv c m' p s1
            end
          else s
      end
  | _ => s
  end.

(** The events of a node.  [NHello]: SendParticipantAnnouncement to the registry (VAsioConnection.cpp:569);
    [NAccept]: OnAsyncAcceptSuccess (2043-2067), a peer without names; [NConnect n]: a connection to [n] was made
    (ConnectKnownParticipants.cpp:392-408);
    [NProxy n cap]: TryProxyConnect (VAsioConnection.cpp:2236-2281), [cap]: [n] supports proxy messages (the code calls AddPeer after
    HandleConnectedPeer, here before; nothing in between depends on it); [NData p m]: the
    socket of [p] delivers a message; [NClose p]: the socket of [p] is closed; [NSend p x]: a link sends to the remote receiver [p].
    Sockets belong to existing real peers, and links only contain existing peers (RemovePeerFromLinks); on a
    peer not existing these events are void.  VAsioPeer::DispatchBuffer (VAsioPeer.cpp:290-) goes on using the peer after the
    message was processed. *)
Inductive nop :=
| NHello
| NAccept
| NConnect (n : nat)
| NProxy (n : nat) (cap : bool)
| NData (p : nat) (m : msg)
| NClose (p : nat)
| NSend (p x : nat).

Definition real (s : node) (p : nat) : bool := match n_via s p with None => true | _ => false end.

Definition nstep (c : cfg) (o : nop) (s0 : node) : node :=
  let s := clear s0 in
  match n_health s with
  | Fine =>
      match o with
      | NHello => if negb (c_any c) then send c 0 (MAnn (c_sim c) (c_me c)) s else s
      | NAccept => add_peer None (0, 0) s
      | NConnect n => handle_connected c (n_next s) (add_peer None (0, n) s)
      | NProxy n cap =>
          if negb (c_any c) && c_cap c && cap
          then handle_connected c (n_next s) (add_peer (Some 0) (0, n) s) else s
      | NData p m =>
          if alive c s p && real s p then
            let s' := recv c m p s in
            match n_health s' with Fine => if alive c s' p then s' else fail Dangling s' | _ => s' end
          else s
      | NClose p => if alive c s p && real s p then shutdown c p s else s
      | NSend p x => if alive c s p then send c p (MUser x) (out [ECall p (n_info s p) x] s) else s
      end
  | _ => s
  end.

(** A connection right after construction: a participant has its connection to the registry (named [h]), VAsioConnection.cpp:490-557;
    a registry has no peers. *)
Definition node0 (c : cfg) (h : nat) : node :=
  if c_any c then mkNode 0 [] (fun _ => (0, 0)) (fun _ => None) [] [] [] [] Fine
  else mkNode 1 [] (fun p => if p =? 0 then (0, h) else (0, 0)) (fun _ => None) [] [] [] [] Fine.

(** A history of one node, and everything it did. *)
Fixpoint nrun (c : cfg) (l : list nop) (s : node) : node * list ev :=
  match l with
  | [] => (s, [])
  | o :: l' => let s1 := nstep c o s in let (s2, es) := nrun c l' s1 in (s2, n_log s1 ++ es)
  end.

(** The network: the registry, named [y_h], and participants of simulation [y_sim], the participant [k] being peer [k] of the registry.
    All connections between participants fail, they use the registry as proxy.  [y_up k], [y_down k]: the
    messages under way from / to participant [k], in order (the byte streams are reliable, PeerProps.v);
    [y_closed k]: the participant has ended; [y_eof k]: the registry has noticed (after it has read everything);
    [y_hist k]: what [k] did so far. *)
Record sys := mkSys {
  y_hub : node;
  y_leaf : nat -> node;
  y_cnt : nat;
  y_name : nat -> nat;
  y_up : nat -> list msg;
  y_down : nat -> list msg;
  y_closed : nat -> bool;
  y_eof : nat -> bool;
  y_hist : nat -> list ev }.

Definition upd {A} (k : nat) (x : A) (f : nat -> A) : nat -> A := fun q => if q =? k then x else f q.

Definition sent_to (k : nat) (es : list ev) : list msg :=
  flat_map (fun e => match e with ESend r m => if r =? k then [m] else [] | _ => [] end) es.

Definition hub_cfg (h : nat) : cfg := mkCfg h 0 true true.
Definition leaf_cfg (sim n : nat) : cfg := mkCfg n sim false true.

(** Event of the registry: what it sends gets under way to the participants. *)
Definition hub_do (h : nat) (o : nop) (y : sys) : sys :=
  let t := nstep (hub_cfg h) o (y_hub y) in
  mkSys t (y_leaf y) (y_cnt y) (y_name y) (y_up y) (fun k => y_down y k ++ sent_to k (n_log t))
        (y_closed y) (y_eof y) (y_hist y).

(** Event of participant [k]: what it sends to its peer 0 gets under way to the registry. *)
Definition leaf_do (sim k : nat) (o : nop) (y : sys) : sys :=
  let t := nstep (leaf_cfg sim (y_name y k)) o (y_leaf y k) in
  mkSys (y_hub y) (upd k t (y_leaf y)) (y_cnt y) (y_name y) (upd k (y_up y k ++ sent_to 0 (n_log t)) (y_up y)) (y_down y)
        (y_closed y) (y_eof y) (upd k (y_hist y k ++ n_log t) (y_hist y)).

(** [YJoin n]: a participant connects to the registry and announces itself; names are unique (the registry
    refuses others, RegistryModel.v) and not used again.  [YConnect k n]: TryProxyConnect for a participant the
    registry has advertised in KnownParticipants (VAsioRegistry.cpp:252-286: the ones which have announced themselves,
    except [k] itself) and which [k] has no peer for.  [YSend k n x]: [k] sends to its peer for [n].  [YUp], [YDown]: the oldest message under way is received.
    [YClose k]: the participant ends.  [YEof k]: the registry sees the end of the connection. *)
Inductive yop :=
| YJoin (n : nat)
| YConnect (k n : nat)
| YSend (k n x : nat)
| YUp (k : nat)
| YDown (k : nat)
| YClose (k : nat)
| YEof (k : nat).

Definition known (y : sys) (n : nat) : bool :=
  existsb (fun j => (y_name y j =? n) && negb (keqb (n_info (y_hub y) j) (0, 0))) (seq 0 (y_cnt y)).
Definition fresh (h : nat) (y : sys) (n : nat) : bool :=
  negb (n =? 0) && negb (n =? h) && forallb (fun j => negb (y_name y j =? n)) (seq 0 (y_cnt y)).

Definition ystep (sim h : nat) (o : yop) (y : sys) : sys :=
  match o with
  | YJoin n =>
      if fresh h y n then
        let k := y_cnt y in
        let y1 := hub_do h NAccept y in
        leaf_do sim k NHello
          (mkSys (y_hub y1) (upd k (node0 (leaf_cfg sim n) h) (y_leaf y1)) (S k) (upd k n (y_name y1)) (y_up y1) (y_down y1)
                 (y_closed y1) (y_eof y1) (y_hist y1))
      else y
  | YConnect k n =>
      if (k <? y_cnt y) && negb (y_closed y k) && negb (n =? y_name y k) && known y n then
        match find (sim, n) (n_names (y_leaf y k)) with
        | None => leaf_do sim k (NProxy n true) y
        | Some _ => y
        end
      else y
  | YSend k n x =>
      if (k <? y_cnt y) && negb (y_closed y k) then
        match find (sim, n) (n_names (y_leaf y k)) with
        | Some p => leaf_do sim k (NSend p x) y
        | None => y
        end
      else y
  | YUp k =>
      if (k <? y_cnt y) && negb (y_eof y k) then
        match y_up y k with
        | m :: r =>
            hub_do h (NData k m)
              (mkSys (y_hub y) (y_leaf y) (y_cnt y) (y_name y) (upd k r (y_up y)) (y_down y) (y_closed y) (y_eof y) (y_hist y))
        | [] => y
        end
      else y
  | YDown k =>
      if (k <? y_cnt y) && negb (y_closed y k) then
        match y_down y k with
        | m :: r =>
            leaf_do sim k (NData 0 m)
              (mkSys (y_hub y) (y_leaf y) (y_cnt y) (y_name y) (y_up y) (upd k r (y_down y)) (y_closed y) (y_eof y) (y_hist y))
        | [] => y
        end
      else y
  | YClose k =>
      if k <? y_cnt y then
        mkSys (y_hub y) (y_leaf y) (y_cnt y) (y_name y) (y_up y) (y_down y) (upd k true (y_closed y)) (y_eof y) (y_hist y)
      else y
  | YEof k =>
      if (k <? y_cnt y) && y_closed y k && negb (y_eof y k) then
        match y_up y k with
        | [] =>
            hub_do h (NClose k)
              (mkSys (y_hub y) (y_leaf y) (y_cnt y) (y_name y) (y_up y) (y_down y) (y_closed y) (upd k true (y_eof y)) (y_hist y))
        | _ :: _ => y
        end
      else y
  end.

Definition sys0 (h : nat) : sys :=
  mkSys (node0 (hub_cfg h) h) (fun _ => node0 (leaf_cfg 0 0) h) 0 (fun _ => 0) (fun _ => []) (fun _ => [])
        (fun _ => false) (fun _ => false) (fun _ => []).
Definition yrun (sim h : nat) (l : list yop) (y : sys) : sys := fold_left (fun y o => ystep sim h o y) l y.
