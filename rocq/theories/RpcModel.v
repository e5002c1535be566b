From Coq Require Import List Arith ZArith Bool.
Import ListNotations.
Open Scope Z_scope.

(** * RPC client (SilKit/source/services/rpc/RpcClient.cpp) *)

(** wire/rpc/WireRpcMessages.hpp:36-48, FunctionCallResponse::Status, a uint32 with two named values; any other value read
    from the wire is [WOther]. *)
Inductive wire_status := WSuccess | WInternalError | WOther.

(** include/silkit/services/rpc/RpcDatatypes.hpp:23-36, RpcCallStatus *)
Inductive call_status := Success | ServerNotReachable | UndefinedError | InternalServerError | Timeout.

(** RpcClient.cpp:20-31, ToRpcCallStatus *)
Definition to_call_status (s : wire_status) : call_status :=
  match s with WSuccess => Success | WInternalError => InternalServerError | WOther => UndefinedError end.

(** uint32_t and int32_t arithmetic: [_numCounterparts] is an atomic uint32 (RpcClient.hpp:94), the remaining return count
    an int32 (RpcClient.hpp:84, cast in RpcClient.cpp:154). *)
Definition wrap32 (z : Z) : Z := z mod 4294967296.
Definition to_int32 (z : Z) : Z := if z <? 2147483648 then z else z - 4294967296.

(** RpcClient.hpp:88-114, members. Call uuids are the numbers 0, 1, 2, … in the order in which the calls are made, that is
    Util::Uuid::GenerateRandom is assumed not to repeat a value. [_activeCalls] is a std::map; the list keeps insertion
    order, only lookup, update and erase by key are used. The payload of calls and results is left out.
    [c_open] is not a member: it records the responses whose handler call is in progress (the local iterator of
    ReceiveMessage, RpcClient.cpp:191, between lines 205 and 215). *)
Record client := mkClient {
  c_handler : bool;                       (* _handler is callable *)
  c_count : Z;                            (* _numCounterparts *)
  c_next : nat;                           (* number of uuids generated *)
  c_active : list (nat * (Z * nat));      (* _activeCalls: uuid, remaining returns, user context *)
  c_timeouts : list (Z * nat);            (* _timeoutEntries: timeLeft, uuid *)
  c_ticking : bool;                       (* _isTimeoutHandlerSet *)
  c_open : list nat }.

Definition client0 (handler : bool) : client := mkClient handler 0 0%nat [] [] false [].

(** What can happen to a client. The I/O thread handles responses, the thread that advances the time runs TimeHandler and
    user threads make calls; calls may also be made from within the result handler. A response is split into the lookup with
    the call of the result handler ([Begin], RpcClient.cpp:191-211) and the bookkeeping afterwards ([End], 213-219), since
    no lock is held in between. Everything else is atomic. [Discovered]/[Departed] carry whether the discovered
    RpcServerInternal has the uuid of this client. *)
Inductive event :=
| Call (ctx : nat) (timeout : option Z)
| Begin (u : nat) (st : wire_status)
| End (u : nat)
| Tick (now dur : Z)
| Discovered (mine : bool)
| Departed (mine : bool)
| SetHandler (h : bool).

(** Observable effects. The uuid in [Delivered] is for the statements only, the user sees context and status. [Undefined]
    marks undefined behaviour: the access through an invalid iterator. [Threw] is an exception leaving the function. *)
Inductive out :=
| Sent (u : nat)
| Delivered (u : option nat) (ctx : nat) (st : call_status)
| Ignored (u : nat)
| Undefined (u : nat)
| Threw.

Fixpoint find_call (u : nat) (l : list (nat * (Z * nat))) : option (Z * nat) :=
  match l with [] => None | (v, x) :: r => if Nat.eqb v u then Some x else find_call u r end.
Definition erase_call (u : nat) (l : list (nat * (Z * nat))) : list (nat * (Z * nat)) :=
  filter (fun e => negb (Nat.eqb (fst e) u)) l.
Definition update_call (u : nat) (r : Z) (l : list (nat * (Z * nat))) : list (nat * (Z * nat)) :=
  map (fun e => if Nat.eqb (fst e) u then (fst e, (r, snd (snd e))) else e) l.
Fixpoint remove_open (u : nat) (l : list nat) : list nat :=
  match l with [] => [] | v :: r => if Nat.eqb v u then r else v :: remove_open u r end.

(** RpcClient.cpp:134-177, TriggerCall (via Call 80-83 and CallWithTimeout 85-88). The timestamps of the message and of
    the result event are left out, as is the payload. *)
Definition trigger_call (ctx : nat) (timeout : option Z) (c : client) : list out * client :=
  if c_count c =? 0 then
    ((if c_handler c then [Delivered None ctx ServerNotReachable] else []), c)
  else
    let u := c_next c in
    ([Sent u],
     mkClient (c_handler c) (c_count c) (S u) (c_active c ++ [(u, (to_int32 (c_count c), ctx))])
       (match timeout with Some d => c_timeouts c ++ [(d, u)] | None => c_timeouts c end)
       (match timeout with Some _ => true | None => c_ticking c end) (c_open c)).

(** RpcClient.cpp:189-211, ReceiveMessage up to and including the call of the result handler *)
Definition begin_response (u : nat) (st : wire_status) (c : client) : list out * client :=
  match find_call u (c_active c) with
  | None => ([Ignored u], c)
  | Some (_, ctx) =>
      ((if c_handler c then [Delivered (Some u) ctx (to_call_status st)] else []),
       mkClient (c_handler c) (c_count c) (c_next c) (c_active c) (c_timeouts c) (c_ticking c) (c_open c ++ [u]))
  end.

(** RpcClient.cpp:213-219, the rest of ReceiveMessage for a response that was found. The iterator may have become invalid in
    between: undefined behaviour. An [End] without a [Begin] does not exist in the code; it has no effect here. *)
Definition end_response (u : nat) (c : client) : list out * client :=
  if existsb (Nat.eqb u) (c_open c) then
    let o := remove_open u (c_open c) in
    match find_call u (c_active c) with
    | None => ([Undefined u], mkClient (c_handler c) (c_count c) (c_next c) (c_active c) (c_timeouts c) (c_ticking c) o)
    | Some (r, _) =>
        ([], mkClient (c_handler c) (c_count c) (c_next c)
               (if r - 1 <=? 0 then erase_call u (c_active c) else update_call u (r - 1) (c_active c))
               (c_timeouts c) (c_ticking c) o)
    end
  else ([], c).

(** RpcClient.cpp:95-112: the entries that stay and the entries that have expired, both in order *)
Fixpoint sweep (dur : Z) (l : list (Z * nat)) : list (Z * nat) * list nat :=
  match l with
  | [] => ([], [])
  | (t, u) :: r =>
      let (keep, gone) := sweep dur r in
      if t - dur <=? 0 then (keep, u :: gone) else ((t - dur, u) :: keep, gone)
  end.

(** RpcClient.cpp:114-130: the loop over the expired entries. Line 120 reads through the iterator before line 122 compares
    it with end(): undefined behaviour if the call is not active any more. Since the value read is not used in that case,
    the model notes the undefined behaviour and goes on. Line 127 calls the handler without checking that there is one:
    std::bad_function_call leaves the loop. Calls made by the handler from within line 127 are modelled as following
    the tick; they do not touch the entries this loop goes over. *)
Fixpoint expire (handler : bool) (gone : list nat) (active : list (nat * (Z * nat))) : list out * list (nat * (Z * nat)) :=
  match gone with
  | [] => ([], active)
  | u :: r =>
      match find_call u active with
      | None => let (o, a) := expire handler r active in (Undefined u :: o, a)
      | Some (_, ctx) =>
          let active := erase_call u active in
          if handler then let (o, a) := expire handler r active in (Delivered (Some u) ctx Timeout :: o, a)
          else ([Threw], active)
      end
  end.

(** RpcClient.cpp:91-131, TimeHandler, called by the time provider once it has been registered (164-171) *)
Definition time_handler (dur : Z) (c : client) : list out * client :=
  if c_ticking c then
    let (keep, gone) := sweep dur (c_timeouts c) in
    let (o, a) := expire (c_handler c) gone (c_active c) in
    (o, mkClient (c_handler c) (c_count c) (c_next c) a keep (c_ticking c) (c_open c))
  else ([], c).

(** RpcClient.cpp:57-73, the discovery handler *)
Definition set_count (z : Z) (c : client) : client :=
  mkClient (c_handler c) (wrap32 z) (c_next c) (c_active c) (c_timeouts c) (c_ticking c) (c_open c).

Definition step (e : event) (c : client) : list out * client :=
  match e with
  | Call ctx t => trigger_call ctx t c
  | Begin u st => begin_response u st c
  | End u => end_response u c
  | Tick _ dur => time_handler dur c
  | Discovered mine => ([], if mine then set_count (c_count c + 1) c else c)
  | Departed mine => ([], if mine then set_count (c_count c - 1) c else c)
  | SetHandler h =>      (* RpcClient.cpp:179-182 *)
      ([], mkClient h (c_count c) (c_next c) (c_active c) (c_timeouts c) (c_ticking c) (c_open c))
  end.

Fixpoint run (evs : list event) (c : client) : list out * client :=
  match evs with
  | [] => ([], c)
  | e :: r => let (o, c) := step e c in let (o', c) := run r c in (o ++ o', c)
  end.

(** * RPC server (SilKit/source/services/rpc/RpcServer.cpp, RpcServerInternal.cpp) *)

(** RpcServerInternal.hpp:61: one object per client. [_activeCalls] maps call uuids to handles. A handle is an object of
    its own; handles are numbered in the order in which they are allocated. *)
Record internal := mkInternal { i_client : nat; i_handler : bool; i_active : list (nat * nat) }.

(** RpcServer.hpp:59-60. [s_running] are the handles kept alive by the local shared_ptr of ReceiveMessage
    (RpcServerInternal.cpp:70) while the call handler runs; [s_uuid] is the uuid stored in each handle ever allocated. *)
Record server := mkServer {
  s_handler : bool;
  s_internals : list internal;
  s_uuid : list (nat * nat);
  s_running : list nat }.
Definition server0 (handler : bool) : server := mkServer handler [] [] [].

Inductive sevent :=
| Arrive (client : nat) (media_match : bool)      (* service discovery reports a client *)
| Receive (client : nat) (u : nat)                (* a FunctionCall of the client arrives *)
| Return (h : nat)                                (* the call handler for handle h returns *)
| Submit (h : option nat) (order : list nat)      (* SubmitResult; order = iteration order of the unordered_map *)
| SetCallHandler (h : bool).

Inductive sout :=
| Called (client u h : nat)                       (* the call handler is invoked with handle h *)
| Response (client u : nat) (st : wire_status)    (* response sent by the RpcServerInternal of the client *)
| StateError
| SUndefined.                                     (* access to a destroyed handle *)

Fixpoint find_nat (k : nat) (l : list (nat * nat)) : option nat :=
  match l with [] => None | (x, y) :: r => if Nat.eqb x k then Some y else find_nat k r end.
Fixpoint find_internal (c : nat) (l : list internal) : option internal :=
  match l with [] => None | i :: r => if Nat.eqb (i_client i) c then Some i else find_internal c r end.
Definition set_active (c : nat) (f : list (nat * nat) -> list (nat * nat)) (l : list internal) : list internal :=
  map (fun i => if Nat.eqb (i_client i) c then mkInternal (i_client i) (i_handler i) (f (i_active i)) else i) l.

(** RpcServer.cpp:29-57 (match handler) and 98-106 (AddInternalRpcServer, RpcServerInternal.cpp:16-30). ServiceRemoved is
    ignored, nothing is ever removed. The matching of labels and function name is done by the discovery. *)
Definition arrive (c : nat) (m : bool) (s : server) : server :=
  match find_internal c (s_internals s) with
  | Some _ => s
  | None => if m then mkServer (s_handler s) (s_internals s ++ [mkInternal c (s_handler s) []]) (s_uuid s) (s_running s) else s
  end.

(** RpcServerInternal.cpp:37-72, ReceiveMessage; up to the invocation of the handler, which ends with [Return] *)
Definition receive (c u : nat) (s : server) : list sout * server :=
  match find_internal c (s_internals s) with
  | None => ([], s)
  | Some i =>
      if i_handler i then
        match find_nat u (i_active i) with
        | Some _ => ([Response c u WInternalError], s)
        | None =>
            let h := List.length (s_uuid s) in
            ([Called c u h],
             mkServer (s_handler s) (set_active c (fun l => l ++ [(u, h)]) (s_internals s)) (s_uuid s ++ [(h, u)])
               (s_running s ++ [h]))
        end
      else ([Response c u WInternalError], s)
  end.

(** A handle exists as long as some map or some running ReceiveMessage holds a shared_ptr to it. *)
Definition alive (h : nat) (s : server) : bool :=
  existsb (Nat.eqb h) (s_running s) ||
  existsb (fun i => existsb (fun e => Nat.eqb (snd e) h) (i_active i)) (s_internals s).

(** RpcServerInternal.cpp:74-92, SubmitResult of the internal server of client [c]; reads the uuid stored in the handle *)
Definition submit_one (h c : nat) (s : server) : option (list sout * server * bool) :=
  if alive h s then
    match find_nat h (s_uuid s), find_internal c (s_internals s) with
    | Some u, Some i =>
        match find_nat u (i_active i) with
        | None => Some ([], s, false)
        | Some _ =>
            Some ([Response c u WSuccess],
                  mkServer (s_handler s) (set_active c (filter (fun e => negb (Nat.eqb (fst e) u))) (s_internals s))
                    (s_uuid s) (s_running s), true)
        end
    | _, _ => Some ([], s, false)
    end
  else None.

(** RpcServer.cpp:82-87, the loop over the internal servers *)
Fixpoint submit_loop (h : nat) (order : list nat) (count : nat) (s : server) : list sout * server * option nat :=
  match order with
  | [] => ([], s, Some count)
  | c :: r =>
      match submit_one h c s with
      | None => ([SUndefined], s, None)
      | Some (o, s', b) =>
          let '(o', s'', k) := submit_loop h r (if b then S count else count) s' in (o ++ o', s'', k)
      end
  end.

(** RpcServer.cpp:69-96, SubmitResult *)
Definition submit (h : option nat) (order : list nat) (s : server) : list sout * server :=
  match h with
  | None => ([StateError], s)
  | Some h =>
      let '(o, s, k) := submit_loop h order 0 s in
      match k with
      | None => (o, s)
      | Some 1%nat => (o, s)
      | Some _ => (o ++ [StateError], s)
      end
  end.

Definition sstep (e : sevent) (s : server) : list sout * server :=
  match e with
  | Arrive c m => ([], arrive c m s)
  | Receive c u => receive c u s
  | Return h => ([], mkServer (s_handler s) (s_internals s) (s_uuid s) (remove_open h (s_running s)))
  | Submit h order => submit h order s
  | SetCallHandler b =>    (* RpcServer.cpp:108-117, RpcServerInternal.cpp:94-97 *)
      ([], mkServer b (map (fun i => mkInternal (i_client i) b (i_active i)) (s_internals s)) (s_uuid s) (s_running s))
  end.

Fixpoint srun (evs : list sevent) (s : server) : list sout * server :=
  match evs with
  | [] => ([], s)
  | e :: r => let (o, s) := sstep e s in let (o', s) := srun r s in (o ++ o', s)
  end.
