(** Connecting to the known participants while joining a simulation:
    SilKit/source/core/vasio/ConnectKnownParticipants.cpp/.hpp and its listener in
    VAsioConnection.cpp:2090-2142.

    Two threads are modelled with all interleavings of their accesses to the atomic stages: the thread
    of the user, which calls StartConnecting (VAsioConnection.cpp:602-614), and the I/O thread, which
    runs the completion handlers, timers and received messages.  Every read or write of an atomic is one
    step.  Peers are numbered by their position in the map of peers (the order of an unordered_map is
    irrelevant: the loops are any_of/all_of/for each).  Not modelled: Shutdown, log messages, exceptions
    thrown while parsing capabilities. *)
From Coq Require Import List Arith Bool.
From Verif Require Import Base.
Import ListNotations.

(** ConnectKnownParticipants.hpp:56-72 PeerStage.  The order of the constructors is the order used by
    the comparisons with >=. *)
Inductive pstage := PInvalid | PFailure | PDirect | PRequested | PConnecting | PWaiting | PReplied.

(** ConnectKnownParticipants.hpp:74-81 ConnectStage. *)
Inductive cstage := CInvalid | CConnecting | CWaiting | CAll | CFail.

Definition pstage_eqb (a b : pstage) : bool :=
  match a, b with
  | PInvalid, PInvalid | PFailure, PFailure | PDirect, PDirect | PRequested, PRequested
  | PConnecting, PConnecting | PWaiting, PWaiting | PReplied, PReplied => true
  | _, _ => false
  end.
Definition cstage_eqb (a b : cstage) : bool :=
  match a, b with
  | CInvalid, CInvalid | CConnecting, CConnecting | CWaiting, CWaiting | CAll, CAll | CFail, CFail => true
  | _, _ => false
  end.

(** peer->GetStage() >= PeerStage::WAITING_FOR_REPLY (ConnectKnownParticipants.cpp:196). *)
Definition at_least_waiting (s : pstage) : bool :=
  match s with PWaiting | PReplied => true | _ => false end.

(** What the participant is told, and the replies it received.
    [LReply i]: a successful ParticipantAnnouncementReply of peer [i] arrived
    (VAsioConnection.cpp:876-880); [LWaiting], [LAll], [LFail]: the listener is called. *)
Inductive ev := LReply (i : nat) | LWaiting | LAll | LFail.

(** Position inside of UpdateStage (ConnectKnownParticipants.cpp:160-227); [k] is the index of the peer
    which is read next. *)
Inductive upc :=
| U0                  (* 164: _connectStage == INVALID *)
| U1                  (* 169: _connectStage == ALL_REPLIES_RECEIVED *)
| U2                  (* 169: _connectStage == FAILURE *)
| UFailed (k : nat)   (* 174-180: any peer failed? *)
| UStoreFail          (* 184 *)
| UCallFail           (* 185 *)
| U4                  (* 190: _connectStage == CONNECTING *)
| UWaitings (k : nat) (* 192-198: all waiting for replies? *)
| UStoreWaiting       (* 205 *)
| UCallWaiting        (* 206 *)
| U6                  (* 209: _connectStage == WAITING_FOR_ALL_REPLIES *)
| UReplies (k : nat)  (* 211-217: all replies received? *)
| UStoreAll           (* 224 *)
| UCallAll            (* 225 *)
| UDone.

(** What the I/O thread does for one peer before it calls UpdateStage.
    [AStore i x a]: store stage [x], then go on with [a]. *)
Inductive act :=
| AStore (i : nat) (x : pstage) (a : act)
| AUpdate.

(** The thread of the user: [TInit] before StartConnecting, [TStart k] inside of its loop
    (ConnectKnownParticipants.cpp:62-90), then UpdateStage. *)
Inductive upos := TInit | TStart (k : nat) | TUpd (p : upc).
Inductive iopos := IIdle | IAct (a : act) | IUpd (p : upc).

(** [k_peer i]: stage of peer [i]; [k_conn i]: its direct connection attempt is under way;
    [k_timer i]: its remote connection request timer is armed; [k_wait], [k_done]: the promises
    _startWaitingForParticipantHandshakes and _allKnownParticipantHandshakesComplete (None: not set,
    Some true: value, Some false: exception). *)
Record st := mkSt {
  k_n : nat;
  k_stage : cstage;
  k_peer : nat -> pstage;
  k_conn : nat -> bool;
  k_timer : nat -> bool;
  k_user : upos;
  k_io : iopos;
  k_log : list ev;
  k_wait : option bool;
  k_done : option bool }.

Definition init (n : nat) : st :=
  mkSt n CInvalid (fun _ => PInvalid) (fun _ => false) (fun _ => false) TInit IIdle [] None None.

Definition upd {A} (i : nat) (x : A) (f : nat -> A) : nat -> A := fun k => if k =? i then x else f k.

Definition set_stage (x : cstage) (s : st) : st :=
  mkSt (k_n s) x (k_peer s) (k_conn s) (k_timer s) (k_user s) (k_io s) (k_log s) (k_wait s) (k_done s).
Definition set_peer (i : nat) (x : pstage) (s : st) : st :=
  mkSt (k_n s) (k_stage s) (upd i x (k_peer s)) (k_conn s) (k_timer s) (k_user s) (k_io s) (k_log s) (k_wait s) (k_done s).
Definition set_conn (i : nat) (b : bool) (s : st) : st :=
  mkSt (k_n s) (k_stage s) (k_peer s) (upd i b (k_conn s)) (k_timer s) (k_user s) (k_io s) (k_log s) (k_wait s) (k_done s).
Definition set_timer (i : nat) (b : bool) (s : st) : st :=
  mkSt (k_n s) (k_stage s) (k_peer s) (k_conn s) (upd i b (k_timer s)) (k_user s) (k_io s) (k_log s) (k_wait s) (k_done s).
Definition set_user (p : upos) (s : st) : st :=
  mkSt (k_n s) (k_stage s) (k_peer s) (k_conn s) (k_timer s) p (k_io s) (k_log s) (k_wait s) (k_done s).
Definition set_iopos (p : iopos) (s : st) : st :=
  mkSt (k_n s) (k_stage s) (k_peer s) (k_conn s) (k_timer s) (k_user s) p (k_log s) (k_wait s) (k_done s).
Definition add_log (e : ev) (s : st) : st :=
  mkSt (k_n s) (k_stage s) (k_peer s) (k_conn s) (k_timer s) (k_user s) (k_io s) (k_log s ++ [e]) (k_wait s) (k_done s).
(** promise::set_value / set_exception; a second one throws, which the listener swallows. *)
Definition set_once (b : bool) (o : option bool) : option bool := match o with None => Some b | Some _ => o end.
Definition set_wait (b : bool) (s : st) : st :=
  mkSt (k_n s) (k_stage s) (k_peer s) (k_conn s) (k_timer s) (k_user s) (k_io s) (k_log s) (set_once b (k_wait s)) (k_done s).
Definition set_done (b : bool) (s : st) : st :=
  mkSt (k_n s) (k_stage s) (k_peer s) (k_conn s) (k_timer s) (k_user s) (k_io s) (k_log s) (k_wait s) (set_once b (k_done s)).

(** The listener: VAsioConnection.cpp:2090-2112, 2114-2127, 2129-2142. *)
Definition on_fail (s : st) : st := set_done false (set_wait false (add_log LFail s)).
Definition on_waiting (s : st) : st := set_wait true (add_log LWaiting s).
Definition on_all (s : st) : st := set_done true (add_log LAll s).

(** One step of UpdateStage (ConnectKnownParticipants.cpp:160-227): new state and position. *)
Definition ustep (p : upc) (s : st) : st * upc :=
  match p with
  | U0 => (s, if cstage_eqb (k_stage s) CInvalid then UDone else U1)
  | U1 => (s, if cstage_eqb (k_stage s) CAll then UDone else U2)
  | U2 => (s, if cstage_eqb (k_stage s) CFail then UDone else UFailed 0)
  | UFailed k => (s, if k <? k_n s
                     then if pstage_eqb (k_peer s k) PFailure then UStoreFail else UFailed (S k)
                     else U4)
  | UStoreFail => (set_stage CFail s, UCallFail)
  | UCallFail => (on_fail s, UDone)
  | U4 => (s, if cstage_eqb (k_stage s) CConnecting then UWaitings 0 else U6)
  | UWaitings k => (s, if k <? k_n s
                       then if at_least_waiting (k_peer s k) then UWaitings (S k) else UDone
                       else UStoreWaiting)
  | UStoreWaiting => (set_stage CWaiting s, UCallWaiting)
  | UCallWaiting => (on_waiting s, U6)
  | U6 => (s, if cstage_eqb (k_stage s) CWaiting then UReplies 0 else UDone)
  | UReplies k => (s, if k <? k_n s
                      then if pstage_eqb (k_peer s k) PReplied then UReplies (S k) else UDone
                      else UStoreAll)
  | UStoreAll => (set_stage CAll s, UCallAll)
  | UCallAll => (on_all s, UDone)
  | UDone => (s, UDone)
  end.

(** Events of the I/O thread.  The results of TryRemoteConnectRequest and TryProxyConnect are arguments
    (they depend on the configuration and the capabilities of the peer,
    VAsioConnection.cpp:2176-2279). *)
Inductive ioev :=
| EvConnected (i : nat)                       (* OnConnectPeerSuccess *)
| EvConnectFailed (i : nat) (remote proxy : bool) (* OnConnectPeerFailure *)
| EvTimer (i : nat) (proxy : bool)            (* OnTimerExpired *)
| EvIsConnecting (i : nat)                    (* HandleEvent: four kinds of PeerEvent *)
| EvFailedToConnect (i : nat) (proxy : bool)
| EvAnnounced (i : nat)
| EvReply (i : nat).

(** After a failed attempt: proxy connection or failure
    (e.g. ConnectKnownParticipants.cpp:428-437, HasFailed 465-478). *)
Definition via_proxy (i : nat) (proxy : bool) : act :=
  AStore i PWaiting (if proxy then AUpdate else AStore i PFailure AUpdate).

(** The beginning of an event; None: the event cannot happen or is ignored. *)
Definition io_begin (e : ioev) (s : st) : option (st * act) :=
  match e with
  | EvConnected i =>
      (* ConnectKnownParticipants.cpp:393-408 *)
      if k_conn s i then Some (set_conn i false s, AStore i PWaiting AUpdate) else None
  | EvConnectFailed i remote proxy =>
      (* ConnectKnownParticipants.cpp:410-438 *)
      if k_conn s i then
        Some (if remote then set_timer i true (set_conn i false s) else set_conn i false s,
              AStore i PRequested (if remote then AUpdate else via_proxy i proxy))
      else None
  | EvTimer i proxy =>
      (* ConnectKnownParticipants.cpp:441-462 *)
      if k_timer s i then
        if pstage_eqb (k_peer s i) PRequested then Some (set_timer i false s, via_proxy i proxy)
        else None
      else None
  | EvIsConnecting i =>
      (* ConnectKnownParticipants.cpp:268-283 *)
      if (i <? k_n s) && pstage_eqb (k_peer s i) PRequested then Some (s, AStore i PConnecting AUpdate) else None
  | EvFailedToConnect i proxy =>
      (* ConnectKnownParticipants.cpp:284-306 *)
      if (i <? k_n s) && (pstage_eqb (k_peer s i) PRequested || pstage_eqb (k_peer s i) PConnecting)
      then Some (s, via_proxy i proxy) else None
  | EvAnnounced i =>
      (* ConnectKnownParticipants.cpp:307-322 *)
      if (i <? k_n s) && (pstage_eqb (k_peer s i) PRequested || pstage_eqb (k_peer s i) PConnecting)
      then Some (s, AStore i PWaiting AUpdate) else None
  | EvReply i =>
      (* ConnectKnownParticipants.cpp:323-338 *)
      if (i <? k_n s) && pstage_eqb (k_peer s i) PWaiting
      then Some (s, AStore i PReplied AUpdate) else None
  end.

(** The reply is recorded even if it is ignored. *)
Definition note_reply (e : ioev) (s : st) : st :=
  match e with EvReply i => add_log (LReply i) s | _ => s end.

(** One step of one of the threads.  The I/O thread takes the next event only if it is idle; events for
    peers cannot find their peer before StartConnecting created them
    (ConnectKnownParticipants.cpp:70-80, 109-123). *)
Inductive step_of := SUser | SIo | SEvent (e : ioev).

Definition user_step (s : st) : st :=
  match k_user s with
  | TInit => set_user (TStart 0) (set_stage CConnecting s)
  | TStart k =>
      if k <? k_n s
      then set_user (TStart (S k)) (set_conn k true (set_peer k PDirect s))
      else set_user (TUpd U0) s
  | TUpd p => let '(s', p') := ustep p s in set_user (TUpd p') s'
  end.

Definition io_step (s : st) : st :=
  match k_io s with
  | IIdle => s
  | IAct (AStore i x a) => set_iopos (IAct a) (set_peer i x s)
  | IAct AUpdate => set_iopos (IUpd U0) s
  | IUpd UDone => set_iopos IIdle s
  | IUpd p => let '(s', p') := ustep p s in set_iopos (IUpd p') s'
  end.

Definition io_event (e : ioev) (s : st) : st :=
  match k_io s, k_user s with
  | _, TInit => s
  | IIdle, _ =>
      let s1 := note_reply e s in
      match io_begin e s1 with
      | Some (s2, a) => set_iopos (IAct a) s2
      | None => s1
      end
  | _, _ => s
  end.

Definition step (s : st) (x : step_of) : st :=
  match x with SUser => user_step s | SIo => io_step s | SEvent e => io_event e s end.

Definition run (n : nat) (xs : list step_of) : st := fold_left step xs (init n).
