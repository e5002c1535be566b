(** The registry: SilKit/source/core/vasio/VAsioRegistry.cpp and the parts of VAsioConnection.cpp it runs
    for its peers (announcements, shutdown of a peer, proxy messages, remote connection requests).

    Names of simulations and participants are only compared for equality; they are natural numbers, 0 is
    the empty string (the initial value of the members of VAsioPeer, VAsioPeer.hpp:112).  Peers (pointers)
    are numbers which are not reused, i.e. a pointer to a deleted peer never equals a new one; using a
    deleted peer is undefined behaviour, recorded by [r_ub], after which nothing happens any more.
    Everything runs on the I/O thread of the registry.  Not modelled here: the version negotiation (an
    announcement with an unsupported version changes nothing but the reply), acceptor URIs (see
    AcceptorModel.v), proxy messages addressed to the registry itself, the proxy capability switched off,
    metrics, logging. *)
From Coq Require Import List Arith Bool.
From Verif Require Import Base.
Import ListNotations.

Definition key := (nat * nat)%type.
Definition keqb (a b : key) : bool := (fst a =? fst b) && (snd a =? snd b).

(** RemoteParticipantConnectRequest::Status (VAsioDatatypes.hpp). *)
Inductive rstatus := RAnnouncement | RRequest | RConnecting | RFailed | ROther.

(** What the registry does visibly.
    [EKnown p s l]: KnownParticipants message with the names [l] to peer [p] announcing itself in [s];
    [EJoin p s n] / [ERejected p s n]: successful / failed ParticipantAnnouncementReply; the listener is told
    OnParticipantConnected together with [EJoin]; [ELeft p]: the connection to [p] is closed;
    [EGone s n]: the listener is told OnParticipantDisconnected; [EAllGone]: the handler for all
    disconnected is called; [EDeliver p q s src dst empty]: proxy message sent to peer [q] on behalf of
    peer [p] of simulation [s] ([empty]: the message telling that [src] has disconnected);
    [ELost p s src dst]: a proxy message of [p] is dropped with an error; [ERequest q s x org tgt]: remote connection
    request forwarded to peer [q]; [ERequestLost p s]. *)
Inductive ev :=
| EKnown (p s : nat) (l : list nat)
| EJoin (p s n : nat)
| ERejected (p s n : nat)
| ELeft (p : nat)
| EGone (s n : nat)
| EAllGone
| EDeliver (p q s src dst : nat) (empty : bool)
| ELost (p s src dst : nat)
| ERequest (q s : nat) (x : rstatus) (org tgt : nat)
| ERequestLost (p s : nat).

(** [r_alive]: _peers; [r_info p]: GetSimulationName and GetInfo().participantName of a peer;
    [r_conn]: _connectedParticipants; [r_names]: _participantNameToPeer; [r_dests]:
    _proxySourceToDestinations, flattened. *)
Record st := mkSt {
  r_used : list nat;
  r_alive : list nat;
  r_info : nat -> key;
  r_conn : list (key * nat);
  r_names : list (key * nat);
  r_dests : list (key * nat);
  r_log : list ev;
  r_ub : bool }.

Definition init : st := mkSt [] [] (fun _ => (0, 0)) [] [] [] [] false.

Fixpoint find (k : key) (l : list (key * nat)) : option nat :=
  match l with
  | [] => None
  | (k', p) :: l' => if keqb k k' then Some p else find k l'
  end.
Definition erase (k : key) (l : list (key * nat)) : list (key * nat) :=
  filter (fun e => negb (keqb k (fst e))) l.
Definition mem (p : nat) (l : list nat) : bool := existsb (Nat.eqb p) l.

Definition out (e : list ev) (s : st) : st :=
  mkSt (r_used s) (r_alive s) (r_info s) (r_conn s) (r_names s) (r_dests s) (r_log s ++ e) (r_ub s).
Definition crash (s : st) : st :=
  mkSt (r_used s) (r_alive s) (r_info s) (r_conn s) (r_names s) (r_dests s) (r_log s) true.
Definition set_info (p : nat) (k : key) (s : st) : st :=
  mkSt (r_used s) (r_alive s) (fun q => if q =? p then k else r_info s q) (r_conn s) (r_names s) (r_dests s)
       (r_log s) (r_ub s).
Definition set_conn (l : list (key * nat)) (s : st) : st :=
  mkSt (r_used s) (r_alive s) (r_info s) l (r_names s) (r_dests s) (r_log s) (r_ub s).
Definition set_names (l : list (key * nat)) (s : st) : st :=
  mkSt (r_used s) (r_alive s) (r_info s) (r_conn s) l (r_dests s) (r_log s) (r_ub s).
Definition set_alive (l : list nat) (s : st) : st :=
  mkSt (r_used s) l (r_info s) (r_conn s) (r_names s) (r_dests s) (r_log s) (r_ub s).
Definition set_dests (l : list (key * nat)) (s : st) : st :=
  mkSt (r_used s) (r_alive s) (r_info s) (r_conn s) (r_names s) l (r_log s) (r_ub s).

(** A peer connects (VAsioConnection.cpp AddPeer; VAsioPeer has empty names). *)
Definition connect (p : nat) (s : st) : st :=
  if mem p (r_used s) then s
  else mkSt (p :: r_used s) (p :: r_alive s) (r_info s) (r_conn s) (r_names s) (r_dests s) (r_log s) (r_ub s).

(** The entries of one simulation, except for the peer itself (VAsioRegistry.cpp:267-283).  The acceptor
    URIs of each are transformed, which reads both peers. *)
Definition others (p sim : nat) (l : list (key * nat)) : list (key * nat) :=
  filter (fun e => (fst (fst e) =? sim) && negb (snd e =? p)) l.

(** VAsioRegistry::OnParticipantAnnouncement (VAsioRegistry.cpp:215-256) called by
    VAsioConnection::ReceiveParticipantAnnouncement (VAsioConnection.cpp:693-773), which first stores the names in
    the peer (743-749), and afterwards sends the failed reply (761-769) or associates name and peer
    (AssociateParticipantNameAndPeer, 1161-1167: insert does not overwrite) and sends the reply. *)
Definition announce (p sim name : nat) (s : st) : st :=
  let s := set_info p (sim, name) s in
  match find (sim, name) (r_conn s) with
  | Some _ => out [ERejected p sim name] s
  | None =>
      let l := others p sim (r_conn s) in
      if forallb (fun e => mem (snd e) (r_alive s)) l then
        let s := set_conn (((sim, name), p) :: r_conn s) (out [EKnown p sim (map (fun e => snd (fst e)) l)] s) in
        let s := match find (sim, name) (r_names s) with
                 | Some _ => s
                 | None => set_names (((sim, name), p) :: r_names s) s
                 end in
        out [EJoin p sim name] s
      else crash s
  end.

(** SendProxyPeerShutdownNotification (VAsioConnection.cpp:1393-1423): one empty proxy message to every
    destination of the name of the peer that still has a peer; None: that peer was deleted. *)
Fixpoint notify (s : st) (p : nat) (k : key) (l : list (key * nat)) : option (list ev) :=
  match l with
  | [] => Some []
  | (k', dst) :: l' =>
      match notify s p k l' with
      | None => None
      | Some es =>
          if keqb k k' then
            match find (fst k, dst) (r_names s) with
            | None => Some es
            | Some q => if mem q (r_alive s) then Some (EDeliver p q (fst k) (snd k) dst true :: es) else None
            end
          else Some es
      end
  end.

(** VAsioConnection::OnPeerShutdown (VAsioConnection.cpp:1355-1391; a peer of the registry has no proxy
    peers), VAsioRegistry::OnPeerShutdown (VAsioRegistry.cpp:288-336), RemovePeerFromConnection
    (VAsioConnection.cpp:1437-1458: erases the name whichever peer it belongs to). *)
Definition disconnect (p : nat) (s : st) : st :=
  let k := r_info s p in
  match notify s p k (r_dests s) with
  | None => crash s
  | Some es =>
      let s := out (ELeft p :: es) s in
      let s :=
        match find k (r_conn s) with
        | None => s
        | Some q =>
            if q =? p then
              let s := set_conn (erase k (r_conn s)) (out [EGone (fst k) (snd k)] s) in
              match r_conn s with [] => out [EAllGone] s | _ => s end
            else s
        end in
      let s := set_names (erase k (r_names s)) s in
      set_alive (filter (fun q => negb (q =? p)) (r_alive s)) s
  end.

(** ReceiveProxyMessage (VAsioConnection.cpp:1502-1572) for a message whose source is the sender;
    others are ignored by the registry (they are not addressed to it). *)
Definition proxy (p src dst : nat) (empty : bool) (s : st) : st :=
  let sim := fst (r_info s p) in
  if snd (r_info s p) =? src then
    match find (sim, dst) (r_names s) with
    | None => out [ELost p sim src dst] s
    | Some q =>
        if mem q (r_alive s) then
          let s := out [EDeliver p q sim src dst empty] s in
          if existsb (fun e => keqb (sim, src) (fst e) && (dst =? snd e)) (r_dests s) then s
          else set_dests (((sim, src), dst) :: r_dests s) s
        else crash s
    end
  else s.

(** ReceiveRemoteParticipantConnectRequest_Registry (VAsioConnection.cpp:988-1043).  For a request the
    origin is replaced by the information about the sender (1014-1015). *)
Definition request (p : nat) (x : rstatus) (org tgt : nat) (s : st) : st :=
  let sim := fst (r_info s p) in
  let dest := match x with
              | RRequest => find (sim, tgt) (r_names s)
              | RConnecting | RFailed => find (sim, org) (r_names s)
              | _ => None
              end in
  let org' := match x with RRequest => snd (r_info s p) | _ => org end in
  match dest with
  | None => out [ERequestLost p sim] s
  | Some q => if mem q (r_alive s) then out [ERequest q sim x org' tgt] s else crash s
  end.

Inductive op :=
| OConnect (p : nat)
| OAnnounce (p sim name : nat)
| ODisconnect (p : nat)
| OProxy (p src dst : nat) (empty : bool)
| ORequest (p : nat) (x : rstatus) (org tgt : nat).

Definition op_peer (o : op) : nat :=
  match o with OConnect p | OAnnounce p _ _ | ODisconnect p | OProxy p _ _ _ | ORequest p _ _ _ => p end.

(** Only connected peers send messages or disconnect. *)
Definition step (s : st) (o : op) : st :=
  if r_ub s then s
  else
    match o with
    | OConnect p => connect p s
    | _ =>
        if mem (op_peer o) (r_alive s) then
          match o with
          | OConnect _ => s
          | OAnnounce p sim name => announce p sim name s
          | ODisconnect p => disconnect p s
          | OProxy p src dst e => proxy p src dst e s
          | ORequest p x org tgt => request p x org tgt s
          end
        else s
    end.

Definition run (ops : list op) : st := fold_left step ops init.
