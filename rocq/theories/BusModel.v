(** CAN and Ethernet controllers of a network without network simulator: the controller classes
    with their trivial simulation behaviour, and the distribution of frames to the other controllers
    of the own participant (at once) and of other participants (through one first-in-first-out
    connection per pair of participants).

    Sources: SilKit/source/services/can/CanController.cpp, can/SimBehaviorTrivial.cpp,
    ethernet/EthController.cpp, ethernet/SimBehaviorTrivial.cpp, core/vasio/SilKitLink.hpp.

    Handlers of the user may call any method of any controller again.  The behaviour of the handlers
    is an argument of the model: a call carries the scripts of the handler invocations it causes, and
    a script may again contain calls, or deliveries of frames in other participants that happen
    meanwhile.  Simplifications: every controller has one handler of each kind (lists of handlers are
    modelled in HandlersModel.v), replay and tracing are not configured, timestamps are left out,
    handlers do not throw. *)
From Coq Require Import List NArith Arith Bool.
From Verif Require Import Base.
Import ListNotations.

(** Which bus the network is.  The two controllers are modelled together because the send path has
    the same shape (CanController.cpp:148-167, EthController.cpp:125-152). *)
Inductive kind := KCan | KEth.

(** CanControllerState (include/silkit/services/can/CanDatatypes.hpp) and EthernetState
    (include/silkit/services/ethernet/EthernetDatatypes.hpp). *)
Inductive bst := Uninit | Stopped | Started | Sleeping | Inact | LinkDown | LinkUp.

Definition bst_eqb (a b : bst) : bool :=
  match a, b with
  | Uninit, Uninit | Stopped, Stopped | Started, Started | Sleeping, Sleeping
  | Inact, Inact | LinkDown, LinkDown | LinkUp, LinkUp => true
  | _, _ => false
  end.

(** Methods changing the state: CanController.cpp:113-146 Reset, Start, Stop, Sleep;
    EthController.cpp:105-123 Activate, Deactivate. *)
Inductive mode := MReset | MStart | MStop | MSleep | MActivate | MDeactivate.

(** CanTransmitStatus / EthernetTransmitStatus as far as the trivial behaviours use them. *)
Inductive status := Transmitted | AckLinkDown | AckInactive.

(** TransmitDirection. *)
Inductive dir := RX | TX.

(** A frame.  CAN: [f_id] the identifier, [f_ctl] the flags, dlc, sdt, vcid and af fields, [f_data]
    the data field (WireCanMessages.hpp, MakeWireCanFrame).  Ethernet: [f_data] the raw bytes. *)
Record frame := mkFrame { f_id : N; f_ctl : list N; f_data : list N }.

(** What happens at the interface between a controller and its user.  [n] numbers the SendFrame calls
    of the whole network (it does not exist in the code), a null user context is 0.
    [ECall]/[EMode]: the user calls SendFrame/a mode method ([st] is the state at that moment);
    [EFrame]: a frame handler of controller [j] is called with a frame of controller [i];
    [EAck]: the transmit handler is called; [ESt]: the state change handler is called. *)
Inductive ev :=
| ECall (i n : nat) (f : frame) (ctx : N) (st : bst)
| EMode (i : nat) (m : mode)
| EFrame (j i n : nat) (d : dir) (f : frame) (ctx : N)
| EAck (i n : nat) (id : N) (a : status) (ctx : N)
| ESt (i : nat) (st : bst).

(** A frame event message (WireCanFrameEvent, WireEthernetFrameEvent); the user context is part of the
    serialised message (CanSerdes.cpp:20-26). *)
Record msg := mkMsg { m_n : nat; m_from : nat; m_f : frame; m_ctx : N }.

(** A message on its way from participant [w_src] to participant [w_dst]. *)
Record wire := mkWire { w_src : nat; w_dst : nat; w_msg : msg }.

(** The network: [c_parts] lists the participant of each controller, in the order in which the
    controllers are registered (SilKitLink::_localReceivers). *)
Record cfg := mkCfg { c_kind : kind; c_parts : list nat }.

Definition ncontrollers (g : cfg) : nat := length (c_parts g).
Definition part (g : cfg) (i : nat) : nat := nth i (c_parts g) 0.

(** [b_io p]: the I/O thread of participant [p] is inside of a delivery. *)
Record net := mkNet {
  b_st : nat -> bst;
  b_next : nat;
  b_net : list wire;
  b_io : nat -> bool;
  b_log : list ev }.

(** CanController.hpp: _controllerState{Uninit}; EthController.hpp:136-137: _ethState{Inactive}. *)
Definition init_st (k : kind) : bst := match k with KCan => Uninit | KEth => Inact end.
Definition init (g : cfg) : net :=
  mkNet (fun _ => init_st (c_kind g)) 0 [] (fun _ => false) [].

Definition add_log (e : ev) (s : net) : net :=
  mkNet (b_st s) (b_next s) (b_net s) (b_io s) (b_log s ++ [e]).
Definition set_st (i : nat) (x : bst) (s : net) : net :=
  mkNet (fun k => if k =? i then x else b_st s k) (b_next s) (b_net s) (b_io s) (b_log s).
Definition set_io (p : nat) (b : bool) (s : net) : net :=
  mkNet (b_st s) (b_next s) (b_net s) (fun k => if k =? p then b else b_io s k) (b_log s).
Definition set_net (w : list wire) (s : net) : net :=
  mkNet (b_st s) (b_next s) w (b_io s) (b_log s).
Definition bump (s : net) : net :=
  mkNet (b_st s) (S (b_next s)) (b_net s) (b_io s) (b_log s).

(** The state in which frames are transmitted: can/SimBehaviorTrivial.cpp:53,
    ethernet/SimBehaviorTrivial.cpp:64. *)
Definition transmits (k : kind) (st : bst) : bool :=
  match k with KCan => bst_eqb st Started | KEth => bst_eqb st LinkUp end.

(** The acknowledgement: can/SimBehaviorTrivial.cpp:67-73 (only after a transmission),
    ethernet/SimBehaviorTrivial.cpp:13-26 ControllerStateToTransmitStatus and 74-78 (always). *)
Definition ack_of (k : kind) (st : bst) : option status :=
  match k with
  | KCan => if bst_eqb st Started then Some Transmitted else None
  | KEth => match st with
            | LinkUp => Some Transmitted
            | LinkDown => Some AckLinkDown
            | Inact => Some AckInactive
            | _ => None
            end
  end.

(** Padding of Ethernet data to 60 bytes.  It is done twice: by the sender
    (WireEthernetMessages.hpp MakeWireEthernetFrame, SharedVector.hpp:56-61) and by the receiver
    (EthController.cpp:175-194, newData.resize only if the frame is shorter). *)
Definition min_eth : nat := 60.
Definition pad (l : list N) : list N :=
  if length l <? min_eth then resize min_eth 0%N l else l.
Definition wire_frame (k : kind) (f : frame) : frame :=
  match k with
  | KCan => f
  | KEth => mkFrame (f_id f) (f_ctl f) (pad (f_data f))
  end.

(** CanController::ReceiveMsg(WireCanFrameEvent) (CanController.cpp:173-203) and
    EthController::ReceiveMsgInternal (EthController.cpp:167-213): the arguments of the frame handlers.
    The user context is removed unless the direction is TX; the state of the controller is not
    looked at. *)
Definition frame_event (k : kind) (j : nat) (d : dir) (m : msg) : ev :=
  EFrame j (m_from m) (m_n m) d (wire_frame k (m_f m))
         (match d with TX => m_ctx m | RX => 0%N end).

(** The handlers of the user: one function per invocation, taken from the front. *)
Definition hs := list (net -> net).

(** CallHandlers: the event is seen by the user, then the handler runs. *)
Definition emit (e : ev) (h : hs) (s : net) : net * hs :=
  match h with
  | [] => (add_log e s, [])
  | f :: h' => (f (add_log e s), h')
  end.

(** SilKitLink::DistributeToSelf / DistributeRemoteSilKitMessage (SilKitLink.hpp:140-155, 168-193):
    the receivers [js] are called one after the other. *)
Fixpoint deliver (k : kind) (js : list nat) (m : msg) (h : hs) (s : net) : net * hs :=
  match js with
  | [] => (s, h)
  | j :: r => let '(s1, h1) := emit (frame_event k j RX m) h s in deliver k r m h1 s1
  end.

(** The local receivers of participant [p], in the order of registration. *)
Definition locals (g : cfg) (p : nat) : list nat :=
  filter (fun j => part g j =? p) (seq 0 (ncontrollers g)).

(** VAsioTransmitter: the message is handed to every other participant which has a receiver. *)
Definition remotes (g : cfg) (p : nat) : list nat :=
  filter (fun q => negb (q =? p)) (nodup Nat.eq_dec (c_parts g)).
Definition enqueue (g : cfg) (m : msg) (s : net) : net :=
  let p := part g (m_from m) in
  set_net (b_net s ++ map (fun q => mkWire p q m) (remotes g p)) s.

(** SendFrame: CanController.cpp:148-167 with can/SimBehaviorTrivial.cpp:51-80, and
    EthController.cpp:125-152 with ethernet/SimBehaviorTrivial.cpp:56-79; distribution by
    SilKitLink::DistributeLocalSilKitMessage (SilKitLink.hpp:158-166), remote receivers first, and the
    sender itself is skipped (SilKitLink.hpp:180-184). *)
Definition send_frame (g : cfg) (i : nat) (f : frame) (ctx : N) (h : hs) (s : net) : net :=
  let k := c_kind g in
  let st := b_st s i in
  let n := b_next s in
  let m := mkMsg n i (wire_frame k f) ctx in
  let s0 := bump (add_log (ECall i n f ctx st) s) in
  let '(s1, h1) :=
    if transmits k st then
      let '(s2, h2) := deliver k (filter (fun j => negb (j =? i)) (locals g (part g i))) m h (enqueue g m s0) in
      emit (frame_event k i TX m) h2 s2
    else (s0, h) in
  match ack_of k st with
  | Some a => fst (emit (EAck i n (match k with KCan => f_id f | KEth => 0%N end) a ctx) h1 s1)
  | None => s1
  end.

(** The new state requested by a mode method: CanController.cpp:113-146 always asks for it;
    EthController.cpp:105-123 returns early if there is nothing to do;
    ethernet/SimBehaviorTrivial.cpp:81-96 and can/SimBehaviorTrivial.cpp:42-49 answer with it. *)
Definition mode_target (k : kind) (m : mode) (st : bst) : option bst :=
  match k, m with
  | KCan, MReset => Some Uninit
  | KCan, MStart => Some Started
  | KCan, MStop => Some Stopped
  | KCan, MSleep => Some Sleeping
  | KEth, MActivate => if bst_eqb st Inact then Some LinkUp else None
  | KEth, MDeactivate => if bst_eqb st Inact then None else Some Inact
  | _, _ => None
  end.

(** ReceiveMsg of the status: CanController.cpp:215-232, EthController.cpp:226-248.  The error state
    and the bit rate of a trivial status always have their initial value, so their handlers are never
    called and they are left out. *)
Definition receive_status (i : nat) (x : bst) (h : hs) (s : net) : net :=
  if bst_eqb x (b_st s i) then s else fst (emit (ESt i x) h (set_st i x s)).

Definition mode_call (g : cfg) (i : nat) (m : mode) (h : hs) (s : net) : net :=
  let s0 := add_log (EMode i m) s in
  match mode_target (c_kind g) m (b_st s i) with
  | Some x => receive_status i x h s0
  | None => s0
  end.

(** The first message of the connection from [p] to [q] is taken off (C01-C06: connections deliver
    in order and exactly once). *)
Fixpoint pop (p q : nat) (l : list wire) : option (msg * list wire) :=
  match l with
  | [] => None
  | w :: r => if (w_src w =? p) && (w_dst w =? q) then Some (w_msg w, r)
              else match pop p q r with
                   | Some (m, r') => Some (m, w :: r')
                   | None => None
                   end
  end.

(** The I/O thread of participant [q] receives a message of participant [p]
    (VAsioConnection::ReceiveSilKitMessage, SilKitLink.hpp:140-155).  There is one I/O thread, so
    nothing happens while it is still inside of a delivery. *)
Definition receive (g : cfg) (p q : nat) (h : hs) (s : net) : net :=
  if b_io s q then s else
  match pop p q (b_net s) with
  | None => s
  | Some (m, w) =>
      set_io q false (fst (deliver (c_kind g) (locals g q) m h (set_io q true (set_net w s))))
  end.

(** What can happen next: a call of the user, or a delivery.  Each carries the scripts of the handler
    invocations it leads to. *)
Inductive op :=
| OSend (i : nat) (f : frame) (ctx : N) (scripts : list (list op))
| OMode (i : nat) (m : mode) (scripts : list (list op))
| ODeliver (p q : nat) (scripts : list (list op)).

Fixpoint exec (g : cfg) (o : op) (s : net) : net :=
  let body := map (fun l s => fold_left (fun s o => exec g o s) l s) in
  match o with
  | OSend i f ctx scripts =>
      if i <? ncontrollers g then send_frame g i f ctx (body scripts) s else s
  | OMode i m scripts =>
      if i <? ncontrollers g then mode_call g i m (body scripts) s else s
  | ODeliver p q scripts => receive g p q (body scripts) s
  end.

Definition run (g : cfg) (os : list op) : net := fold_left (fun s o => exec g o s) os (init g).
