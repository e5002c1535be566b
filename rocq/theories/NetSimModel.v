(** The network simulator of a participant: SilKit/source/experimental/netsim/NetworkSimulatorInternal.cpp,
    SimulatedNetworkInternal.cpp, SimulatedNetworkRouter.cpp/.hpp and eventproducers/CanEventProducer.cpp; and the
    switching of the controllers between trivial and detailed behaviour, services/can/CanController.cpp:29-87 with
    SimBehavior.cpp and SimBehaviorDetailed.cpp (the ones for Ethernet and LIN are the same).

    Participants and networks are named by numbers, 0 is the empty name.  The nested maps "by participant name, then by service id"
    are flattened to maps of pairs: an inner map is removed when it gets empty, so there is no difference.  The
    user's callbacks do not call back into the simulator. *)
From Coq Require Import List Arith Bool ZArith.
Import ListNotations.

(** ** Maps: find, operator[]=, insert, erase *)
Section Maps.
Context {K V : Type}.
Variable eqb : K -> K -> bool.
Fixpoint get (k : K) (l : list (K * V)) : option V :=
  match l with [] => None | (k', v) :: r => if eqb k k' then Some v else get k r end.
Fixpoint put (k : K) (v : V) (l : list (K * V)) : list (K * V) :=
  match l with [] => [(k, v)] | (k', v') :: r => if eqb k k' then (k', v) :: r else (k', v') :: put k v r end.
Definition ins (k : K) (v : V) (l : list (K * V)) : list (K * V) :=
  match get k l with Some _ => l | None => l ++ [(k, v)] end.
Definition del (k : K) (l : list (K * V)) : list (K * V) := filter (fun x => negb (eqb k (fst x))) l.
End Maps.
Definition pair_eqb (a b : nat * nat) : bool := (fst a =? fst b) && (snd a =? snd b).

(** Config::NetworkType, NetworkSimulatorDatatypesInternal.hpp:13-29: CAN, LIN, Ethernet, FlexRay; all others are
    converted to Undefined *)
Inductive ntype := TCan | TLin | TEth | TFlex | TUndef.
Definition ntype_eqb (a b : ntype) : bool :=
  match a, b with TCan, TCan | TLin, TLin | TEth, TEth | TFlex, TFlex | TUndef, TUndef => true | _, _ => false end.
Definition net_eqb (a b : ntype * nat) : bool := ntype_eqb (fst a) (fst b) && (snd a =? snd b).
(** Core::ServiceType, as far as it is looked at *)
Inductive kind := KController | KLink | KOther.
(** Core::ServiceDescriptor: [d_named] the service name is not empty, [d_typed] the supplemental data contain the
    controller type *)
Record desc := { d_part : nat; d_net : nat; d_type : ntype; d_kind : kind; d_sid : nat; d_named : bool; d_typed : bool }.

(** What the user of the simulator, the other participants and the program observe.
    [EProvide]: ProvideSimulatedController, [ERemoved]: SimulatedControllerRemoved, [EProducer]: SetEventProducer,
    [ERequest u m]: a function of the user's controller [u] is called for message [m], [ESend p s m]: message to participant
    [p], sent under service id [s], [EThrow]: an exception, [EUb]: a destroyed router is called. *)
Inductive ev :=
| EProvide (n : ntype * nat) (d : nat) | ERemoved (n : ntype * nat) (d : nat) | EProducer (n : ntype * nat)
| ERequest (u m : nat) | ESend (p s m : nat) | EThrow | EUb.

(** SimulatedNetworkInternal.hpp:44-56 with its SimulatedNetworkRouter.hpp:105-131: [n_ids] _controllerDescriptors,
    [n_ctl] _simulatedControllers, [n_tgt] _targetControllers *)
Record network := { n_prod : bool; n_ids : list ((nat * nat) * nat); n_ctl : list ((nat * nat) * nat);
                    n_tgt : list (nat * (nat * nat)) }.
Definition new_network : network := {| n_prod := false; n_ids := []; n_ctl := []; n_tgt := [] |}.

(** NetworkSimulatorInternal.hpp:62-82.  [s_reg]: the discovery handler is registered.  [s_dead]: networks of which
    a destroyed router is registered as receiver.  [s_cnt] is a map to size_t, here to integers: that 2^64 - 1 follows on
    0 makes no difference. *)
Record st := { s_started : bool; s_reg : bool; s_nets : list ((ntype * nat) * network); s_seen : list nat; s_cnt : nat -> Z;
               s_next : nat; s_desc : list (nat * desc); s_dead : list (ntype * nat); s_log : list ev }.
Definition init : st :=
  {| s_started := false; s_reg := false; s_nets := []; s_seen := []; s_cnt := fun _ => 0%Z; s_next := 0; s_desc := [];
     s_dead := []; s_log := [] |}.

Definition emit (e : ev) (s : st) : st :=
  {| s_started := s_started s; s_reg := s_reg s; s_nets := s_nets s; s_seen := s_seen s; s_cnt := s_cnt s;
     s_next := s_next s; s_desc := s_desc s; s_dead := s_dead s; s_log := s_log s ++ [e] |}.
Definition set_nets (l : list ((ntype * nat) * network)) (s : st) : st :=
  {| s_started := s_started s; s_reg := s_reg s; s_nets := l; s_seen := s_seen s; s_cnt := s_cnt s;
     s_next := s_next s; s_desc := s_desc s; s_dead := s_dead s; s_log := s_log s |}.
Definition set_seen (l : list nat) (c : nat -> Z) (s : st) : st :=
  {| s_started := s_started s; s_reg := s_reg s; s_nets := s_nets s; s_seen := l; s_cnt := c;
     s_next := s_next s; s_desc := s_desc s; s_dead := s_dead s; s_log := s_log s |}.
Definition set_desc (n : nat) (l : list (nat * desc)) (s : st) : st :=
  {| s_started := s_started s; s_reg := s_reg s; s_nets := s_nets s; s_seen := s_seen s; s_cnt := s_cnt s;
     s_next := n; s_desc := l; s_dead := s_dead s; s_log := s_log s |}.
Definition set_dead (l : list (ntype * nat)) (s : st) : st :=
  {| s_started := s_started s; s_reg := s_reg s; s_nets := s_nets s; s_seen := s_seen s; s_cnt := s_cnt s;
     s_next := s_next s; s_desc := s_desc s; s_dead := l; s_log := s_log s |}.
Definition set_flags (a b : bool) (s : st) : st :=
  {| s_started := a; s_reg := b; s_nets := s_nets s; s_seen := s_seen s; s_cnt := s_cnt s;
     s_next := s_next s; s_desc := s_desc s; s_dead := s_dead s; s_log := s_log s |}.
Definition lookup (n : ntype * nat) (s : st) : option network := get net_eqb n (s_nets s).
Definition store (n : ntype * nat) (w : network) (s : st) : st := set_nets (put net_eqb n w (s_nets s)) s.
Definition known (x : nat) (l : list nat) : bool := existsb (Nat.eqb x) l.
Definition kind_eqb (a b : kind) : bool :=
  match a, b with KController, KController | KLink, KLink | KOther, KOther => true | _, _ => false end.

(** The user: [provide n d] is what ProvideSimulatedController of the user's network [n] returns for descriptor [d]
    (each is asked for once), [me] the name of the participant of the simulator. *)
Section User.
Variable me : nat.
Variable provide : ntype * nat -> nat -> option nat.

(** *** NetworkSimulatorInternal.cpp *)
(** SimulateNetwork 28-45 and CreateSimulatedNetwork 105-121: the new network registers its router as receiver and
    announces itself (SimulatedNetworkInternal.cpp:20-31, SimulatedNetworkRouter.cpp:16-34) before it is known whether the
    network exists; if it does, the new one is destroyed by the exception.  A network of undefined type is refused
    by RegisterSimulator (Participant_impl.hpp:1774-1803). *)
Definition simulate (n : ntype * nat) (s : st) : st :=
  if s_started s then s else
  if ntype_eqb (fst n) TUndef then emit EThrow s else
  match lookup n s with
  | Some _ => emit EThrow (set_dead (n :: s_dead s) s)
  | None => store n new_network s
  end.

(** OnNetworkDiscovered 214-242, CreateAndSetEventProducer SimulatedNetworkInternal.cpp:33-64 *)
Definition on_network_discovered (n : ntype * nat) (s : st) : st :=
  let c := s_cnt s in
  let s := set_seen (s_seen s) (fun x => if x =? snd n then (c x + 1)%Z else c x) s in
  if known (snd n) (s_seen s) then s else
  let s := set_seen (snd n :: s_seen s) (s_cnt s) s in
  match lookup n s with
  | Some w => if n_prod w then s else
      emit (EProducer n) (store n {| n_prod := true; n_ids := n_ids w; n_ctl := n_ctl w; n_tgt := n_tgt w |} s)
  | None => s
  end.
(** OnNetworkRemoved 244-264 *)
Definition on_network_removed (n : ntype * nat) (s : st) : st :=
  let c := s_cnt s in
  let s := set_seen (s_seen s) (fun x => if x =? snd n then (c x - 1)%Z else c x) s in
  if (s_cnt s (snd n) =? 0)%Z then set_seen (filter (fun x => negb (x =? snd n)) (s_seen s)) (s_cnt s) s else s.

(** SimulatedNetworkInternal.cpp AddSimulatedController 75-99 with SimulatedNetworkRouter.cpp:57-77; the result tells
    whether an exception (69-72) leaves the function *)
Definition add_controller (n : ntype * nat) (w : network) (d : desc) (i : nat) (s : st) : st * bool :=
  let a := (d_part d, d_sid d) in
  let w := {| n_prod := n_prod w; n_ids := put pair_eqb a i (n_ids w); n_ctl := n_ctl w; n_tgt := n_tgt w |} in
  let s := emit (EProvide n i) (store n w s) in
  match provide n i with
  | None => (s, false)
  | Some u =>
    if d_typed d then
      (store n {| n_prod := n_prod w; n_ids := n_ids w; n_ctl := ins pair_eqb a u (n_ctl w); n_tgt := ins Nat.eqb i a (n_tgt w) |} s,
       false)
    else (s, true)
  end.
(** OnControllerDiscovered 266-288, NextControllerDescriptor 95-102; the new descriptor is not in the map (it is larger than
    all that are), so the exception 275-278 is not modelled *)
Definition on_controller_discovered (d : desc) (s : st) : st * bool :=
  let i := S (s_next s) in
  let s := set_desc i (ins Nat.eqb i d (s_desc s)) s in
  match lookup (d_type d, d_net d) s with
  | Some w => add_controller (d_type d, d_net d) w d i s
  | None => (s, false)
  end.
(** OnControllerRemoved 290-302; SimulatedNetworkInternal.cpp RemoveSimulatedController 137-147, LookupControllerDescriptor 101-117,
    RemoveControllerDescriptor 119-135, SimulatedNetworkRouter.cpp RemoveSimulatedController 79-105 *)
Definition on_controller_removed (d : desc) (s : st) : st :=
  let n := (d_type d, d_net d) in
  let a := (d_part d, d_sid d) in
  match lookup n s with
  | None => s
  | Some w =>
    match get pair_eqb a (n_ids w) with
    | None => s
    | Some i => store n {| n_prod := n_prod w; n_ids := del pair_eqb a (n_ids w); n_ctl := del pair_eqb a (n_ctl w);
                           n_tgt := del Nat.eqb i (n_tgt w) |} (emit (ERemoved n i) s)
    end
  end.

(** DiscoveryHandler 139-211; the result tells whether an exception leaves the handler.  The type is one of the
    allowed ones behind line 180, so the exception 181-184 is not reached. *)
Definition discovery_handler (created : bool) (d : desc) (s : st) : st * bool :=
  let n := (d_type d, d_net d) in
  if kind_eqb (d_kind d) KLink && negb (d_part d =? me) && match lookup n s with Some _ => true | None => false end
  then (s, true) else
  if negb (kind_eqb (d_kind d) KController) then (s, false) else
  if ntype_eqb (d_type d) TUndef then (s, false) else
  if d_net d =? 0 then (s, true) else
  if negb (d_named d) then (s, true) else
  if created then on_controller_discovered d (on_network_discovered n s)
  else (on_controller_removed d (on_network_removed n s), false).

(** Start 47-80 with ServiceDiscovery::RegisterServiceDiscoveryHandler (core/service/ServiceDiscovery.cpp:225-243): the handler
    is called for the existing services, in an unspecified order, and then registered; an exception ends
    this.  The barrier 76-79 is not modelled. *)
Fixpoint discover_all (l : list desc) (s : st) : st * bool :=
  match l with
  | [] => (s, false)
  | d :: r => let (s, x) := discovery_handler true d s in if x then (s, true) else discover_all r s
  end.
Definition start (existing : list desc) (s : st) : st :=
  if s_started s then s else
  let s := set_flags true (s_reg s) s in
  let (s, x) := discover_all existing s in
  if x then emit EThrow s else set_flags true true s.
(** The handler called by the service discovery; an exception goes to the caller *)
Definition discover (created : bool) (d : desc) (s : st) : st :=
  if s_reg s then let (s, x) := discovery_handler created d s in if x then emit EThrow s else s else s.

(** A message of a controller arrives at the router of network [n]: ReceiveMsg SimulatedNetworkRouter.cpp:139-476 (all alike), AllowReception
    52-56, GetSimulatedControllerFromServiceEndpoint 107-128.  [simctl]: the sender is of type SimulatedController. *)
Definition receive (n : ntype * nat) (p sid : nat) (simctl : bool) (m : nat) (s : st) : st :=
  let s := match lookup n s with
    | Some w => if simctl then s else
        match get pair_eqb (p, sid) (n_ctl w) with Some u => emit (ERequest u m) s | None => s end
    | None => s
    end in
  if existsb (net_eqb n) (s_dead s) then emit EUb s else s.
(** The user's event producer: SimulatedNetworkRouter.hpp:70-88 *)
Definition produce (n : ntype * nat) (rs : list nat) (m : nat) (s : st) : st :=
  match lookup n s with
  | Some w => if n_prod w then
      fold_left (fun s r => match get Nat.eqb r (n_tgt w) with Some (p, sid) => emit (ESend p sid m) s | None => s end) rs s
    else s
  | None => s
  end.

Inductive op :=
| OSimulate (n : ntype * nat) | OStart (l : list desc) | ODiscover (created : bool) (d : desc)
| OReceive (n : ntype * nat) (p sid : nat) (simctl : bool) (m : nat) | OProduce (n : ntype * nat) (rs : list nat) (m : nat).
Definition step (s : st) (o : op) : st :=
  match o with
  | OSimulate n => simulate n s
  | OStart l => start l s
  | ODiscover c d => discover c d s
  | OReceive n p sid x m => receive n p sid x m s
  | OProduce n rs m => produce n rs m s
  end.
Definition run (ops : list op) : st := fold_left step ops init.
End User.

(** ** Controllers: CanController.cpp:29-87, SimBehavior.cpp:17-66, SimBehaviorDetailed.cpp:16-58 *)
(** A controller of participant [c_part] with service id [c_sid] on network [c_net]; [c_sim] is the participant of
    the simulated link if the behaviour is the detailed one. *)
Record ctrl := { c_part : nat; c_sid : nat; c_net : ntype * nat; c_sim : option nat }.
(** IsRelevantNetwork 82-87 *)
Definition relevant (c : ctrl) (d : desc) : bool := kind_eqb (d_kind d) KLink && (d_net d =? snd (c_net c)).
(** the handler 32-64 *)
Definition ctrl_discover (created : bool) (d : desc) (c : ctrl) : ctrl :=
  match c_sim c with
  | None => if created && relevant c d
            then {| c_part := c_part c; c_sid := c_sid c; c_net := c_net c; c_sim := Some (d_part d) |} else c
  | Some _ => if negb created && relevant c d
              then {| c_part := c_part c; c_sid := c_sid c; c_net := c_net c; c_sim := None |} else c
  end.
(** AllowReception: SimBehaviorTrivial.cpp:34-37, SimBehaviorDetailed.cpp:42-50 *)
Definition allow (c : ctrl) (p sid : nat) : bool :=
  match c_sim c with None => true | Some q => (q =? p) && (c_sid c =? sid) end.
(** SilKitLink.hpp:141-154: a message sent to participant [target] by participant [from] under service id [sid]
    on network [n] is handed to all receivers of that participant on that network; those that
    accept it *)
Definition accepting (cs : list ctrl) (n : ntype * nat) (from sid target : nat) : list ctrl :=
  filter (fun c => (c_part c =? target) && net_eqb (c_net c) n && allow c from sid) cs.

(** ** CanEventProducer.cpp:29-57 and CanController.cpp:219-235 *)
(** States are numbers.  [q_ctl]: the last controller state produced, [q_err]: the last error state *)
Record producer := { q_ctl : nat; q_err : nat }.
(** what a controller has, and what its handlers were called with (true: controller state, false: error state) *)
Record cstat := { k_ctl : nat; k_err : nat; k_log : list (bool * nat) }.
(** ReceiveMsg 219-235 *)
Definition receive_status (ctl err : nat) (k : cstat) : cstat :=
  let k := if k_ctl k =? ctl then k else {| k_ctl := ctl; k_err := k_err k; k_log := k_log k ++ [(true, ctl)] |} in
  if k_err k =? err then k else {| k_ctl := k_ctl k; k_err := err; k_log := k_log k ++ [(false, err)] |}.
(** Produce 29-42 and 44-57 for the controllers [rs]; a controller is a number, [f] their states *)
Definition produce_state (is_ctl : bool) (v : nat) (rs : list nat) (x : producer * (nat -> cstat)) : producer * (nat -> cstat) :=
  let (q, f) := x in
  let q := if is_ctl then {| q_ctl := v; q_err := q_err q |} else {| q_ctl := q_ctl q; q_err := v |} in
  (q, fold_left (fun f r => fun y => if y =? r then receive_status (q_ctl q) (q_err q) (f y) else f y) rs f).
(** initial values: CanEventProducer.hpp:38-39 and CanController.hpp; 0 for Uninit and NotAvailable *)
Definition producer0 : producer := {| q_ctl := 0; q_err := 0 |}.
Definition cstat0 : cstat := {| k_ctl := 0; k_err := 0; k_log := [] |}.
Definition produce_all (l : list (bool * nat * list nat)) : producer * (nat -> cstat) :=
  fold_left (fun x o => produce_state (fst (fst o)) (snd (fst o)) (snd o) x) l (producer0, fun _ => cstat0).
