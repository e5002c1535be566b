(** Registering services at the connection: VAsioConnection::RegisterSilKitService and the subscription
    handshake with the peers (SilKit/source/core/vasio/VAsioConnection.hpp:103-135, 310-403,
    VAsioConnection.cpp:1613-1726, 1854-1864, 1940-1950).

    User threads call RegisterSilKitService (synchronous services wait for the acknowledges of all peers,
    asynchronous services - SilKitServiceTraits.hpp:38-44 - do not) and
    AddAsyncSubscriptionsCompletionHandler; the I/O thread runs the posted registrations, receives
    acknowledges and loses peers.  A step of the model is one access of a thread to shared state, except
    that setting _hasPendingAsyncSubscriptions and posting the registration is one step (nothing the
    I/O thread does in between depends on the posted job).

    A pair of network and message type (the "unique receiver id") is a number [k]; the receiver index and
    peers are numbers, a peer which has left does not come back (it would be another object).  Not
    modelled: the links, the version of the subscription (the comparison of subscriptions ignores it,
    VAsioDatatypes.hpp:153-157), failed acknowledges (they count as well, VAsioConnection.cpp:1664-1673),
    logging.  std::promise and the vector of pending acknowledges are accessed without lock: two user threads doing
    so at the same time is a data race in addition to what the model shows. *)
From Coq Require Import List Arith Bool.
From Verif Require Import Base.
Import ListNotations.

(** [EReq r ks]: RegisterSilKitService of a synchronous service with receivers [ks] called, the [r]-th such
    call (r >= 1);
    [EReturn r]: it returns; [EAssert]: the assertion in it fails (exception for the caller).
    [EReqA r ks]: registration of an asynchronous service; [EStart b r ks ps news]: the I/O thread runs the
    registration ([b]: asynchronous) with receivers [ks], sending a subscription to each of the peers [ps] for each of the
    new receivers [news] (with their index).  [EAck p i], [EJoin p], [ELeave p]: acknowledge received, peer
    connected, peer disconnected.  [EDone r]: promise of call [r] fulfilled ([r = 0]: the promise the
    object was created with); [EError]: std::future_error on the I/O thread.  [EAsk h]: completion handler
    handed over; [EInvoke h now]: called, [now] if directly by the thread handing it over. *)
Inductive ev :=
| EReq (r : nat) (ks : list nat)
| EReturn (r : nat)
| EAssert
| EReqA (r : nat) (ks : list nat)
| EStart (b : bool) (r : nat) (ks ps : list nat) (news : list (nat * nat))
| EAck (p i : nat)
| EJoin (p : nat)
| ELeave (p : nat)
| EDone (r : nat)
| EError
| EAsk (h : nat)
| EInvoke (h : nat) (now : bool).

(** Jobs posted to the I/O thread: RegisterSilKitServiceImpl. *)
Record job := mkJob { j_async : bool; j_id : nat; j_keys : list nat }.

(** What the I/O thread is doing: nothing, one of the three statements of AsyncSubscriptionsCompleted
    (VAsioConnection.cpp:1945-1950), or waiting in RegisterSilKitService called from a callback. *)
Inductive pc := PIdle | PInvoke | PClear | PReset | PWait (r : nat).

Record st := mkSt {
  s_used : list nat;
  s_peers : list nat;
  s_seen : list nat;              (* _vasioUniqueReceiverIds *)
  s_next : nat;                   (* _vasioReceivers.size() *)
  s_sync : list (nat * nat);      (* _pendingSubscriptionAcknowledges *)
  s_async : list (nat * nat);     (* _pendingAsyncSubscriptionAcknowledges *)
  s_flag : bool;                  (* _hasPendingAsyncSubscriptions *)
  s_hs : list nat;                (* _asyncSubscriptionsCompletionHandlers *)
  s_cur : nat;                    (* which promise _receivedAllSubscriptionAcknowledges is *)
  s_set : list nat;               (* fulfilled promises *)
  s_broken : list nat;            (* promises destroyed without being fulfilled *)
  s_nreq : nat;
  s_nreqa : nat;
  s_jobs : list job;
  s_pc : pc;
  s_read : list nat;              (* handlers whose thread has read the flag as true *)
  s_log : list ev }.

Definition init : st := mkSt [] [] [] 0 [] [] false [] 0 [] [] 0 0 [] PIdle [] [].

Definition mem (x : nat) (l : list nat) : bool := existsb (Nat.eqb x) l.
Definition peqb (a b : nat * nat) : bool := (fst a =? fst b) && (snd a =? snd b).

Definition out (e : list ev) (s : st) : st :=
  mkSt (s_used s) (s_peers s) (s_seen s) (s_next s) (s_sync s) (s_async s) (s_flag s) (s_hs s) (s_cur s) (s_set s)
       (s_broken s) (s_nreq s) (s_nreqa s) (s_jobs s) (s_pc s) (s_read s) (s_log s ++ e).
Definition set_peers (u l : list nat) (s : st) : st :=
  mkSt u l (s_seen s) (s_next s) (s_sync s) (s_async s) (s_flag s) (s_hs s) (s_cur s) (s_set s)
       (s_broken s) (s_nreq s) (s_nreqa s) (s_jobs s) (s_pc s) (s_read s) (s_log s).
Definition set_seen (l : list nat) (n : nat) (s : st) : st :=
  mkSt (s_used s) (s_peers s) l n (s_sync s) (s_async s) (s_flag s) (s_hs s) (s_cur s) (s_set s)
       (s_broken s) (s_nreq s) (s_nreqa s) (s_jobs s) (s_pc s) (s_read s) (s_log s).
Definition set_sync (l : list (nat * nat)) (s : st) : st :=
  mkSt (s_used s) (s_peers s) (s_seen s) (s_next s) l (s_async s) (s_flag s) (s_hs s) (s_cur s) (s_set s)
       (s_broken s) (s_nreq s) (s_nreqa s) (s_jobs s) (s_pc s) (s_read s) (s_log s).
Definition set_async (l : list (nat * nat)) (s : st) : st :=
  mkSt (s_used s) (s_peers s) (s_seen s) (s_next s) (s_sync s) l (s_flag s) (s_hs s) (s_cur s) (s_set s)
       (s_broken s) (s_nreq s) (s_nreqa s) (s_jobs s) (s_pc s) (s_read s) (s_log s).
Definition set_flag (b : bool) (s : st) : st :=
  mkSt (s_used s) (s_peers s) (s_seen s) (s_next s) (s_sync s) (s_async s) b (s_hs s) (s_cur s) (s_set s)
       (s_broken s) (s_nreq s) (s_nreqa s) (s_jobs s) (s_pc s) (s_read s) (s_log s).
Definition set_hs (l : list nat) (s : st) : st :=
  mkSt (s_used s) (s_peers s) (s_seen s) (s_next s) (s_sync s) (s_async s) (s_flag s) l (s_cur s) (s_set s)
       (s_broken s) (s_nreq s) (s_nreqa s) (s_jobs s) (s_pc s) (s_read s) (s_log s).
Definition set_promise (c : nat) (l b : list nat) (n : nat) (s : st) : st :=
  mkSt (s_used s) (s_peers s) (s_seen s) (s_next s) (s_sync s) (s_async s) (s_flag s) (s_hs s) c l
       b n (s_nreqa s) (s_jobs s) (s_pc s) (s_read s) (s_log s).
Definition set_nreqa (n : nat) (s : st) : st :=
  mkSt (s_used s) (s_peers s) (s_seen s) (s_next s) (s_sync s) (s_async s) (s_flag s) (s_hs s) (s_cur s) (s_set s)
       (s_broken s) (s_nreq s) n (s_jobs s) (s_pc s) (s_read s) (s_log s).
Definition set_jobs (l : list job) (s : st) : st :=
  mkSt (s_used s) (s_peers s) (s_seen s) (s_next s) (s_sync s) (s_async s) (s_flag s) (s_hs s) (s_cur s) (s_set s)
       (s_broken s) (s_nreq s) (s_nreqa s) l (s_pc s) (s_read s) (s_log s).
Definition set_pc (x : pc) (s : st) : st :=
  mkSt (s_used s) (s_peers s) (s_seen s) (s_next s) (s_sync s) (s_async s) (s_flag s) (s_hs s) (s_cur s) (s_set s)
       (s_broken s) (s_nreq s) (s_nreqa s) (s_jobs s) x (s_read s) (s_log s).
Definition set_read (l : list nat) (s : st) : st :=
  mkSt (s_used s) (s_peers s) (s_seen s) (s_next s) (s_sync s) (s_async s) (s_flag s) (s_hs s) (s_cur s) (s_set s)
       (s_broken s) (s_nreq s) (s_nreqa s) (s_jobs s) (s_pc s) l (s_log s).

(** First half of RegisterSilKitService for a synchronous service (VAsioConnection.hpp:107-118): the
    assertion, the assignment of a new promise - the old one is destroyed, a future of it becomes ready with the
    error "broken promise" -, and posting the job. *)
Definition request_sync (ks : list nat) (s : st) : option (nat * st) :=
  match s_sync s with
  | _ :: _ => None
  | [] =>
      let r := S (s_nreq s) in
      let broken := if mem (s_cur s) (s_set s) then s_broken s else s_cur s :: s_broken s in
      Some (r, out [EReq r ks] (set_jobs (s_jobs s ++ [mkJob false r ks]) (set_promise r (s_set s) broken r s)))
  end.
(** The same for an asynchronous service. *)
Definition request_async (ks : list nat) (s : st) : st :=
  let r := S (s_nreqa s) in
  out [EReqA r ks] (set_jobs (s_jobs s ++ [mkJob true r ks]) (set_nreqa r (set_flag true s))).

(** SyncSubscriptionsCompleted (VAsioConnection.cpp:1940-1943): std::promise::set_value throws if the promise is
    fulfilled already. *)
Definition sync_completed (s : st) : st :=
  if mem (s_cur s) (s_set s) then out [EError] s
  else out [EDone (s_cur s)] (set_promise (s_cur s) (s_cur s :: s_set s) (s_broken s) (s_nreq s) s).
(** AsyncSubscriptionsCompleted begins. *)
Definition async_completed (s : st) : st := set_pc PInvoke s.

(** The new receivers of a registration (VAsioConnection.hpp:320-327). *)
Fixpoint news (seen : list nat) (n : nat) (ks : list nat) : list (nat * nat) :=
  match ks with
  | [] => []
  | k :: ks => if mem k seen then news seen n ks else (k, n) :: news (k :: seen) (S n) ks
  end.

(** RegisterSilKitServiceImpl with RegisterSilKitMsgReceiver (VAsioConnection.hpp:310-403). *)
Definition register (j : job) (s : st) : st :=
  let ns := news (s_seen s) (s_next s) (j_keys j) in
  let add := flat_map (fun e => map (fun p => (p, snd e)) (s_peers s)) ns in
  let s1 := out [EStart (j_async j) (j_id j) (j_keys j) (s_peers s) ns]
              (set_seen (map fst ns ++ s_seen s) (s_next s + length ns) s) in
  if j_async j then
    let s2 := set_async (s_async s ++ add) s1 in
    match s_async s2 with [] => async_completed s2 | _ => s2 end
  else
    let s2 := set_sync (s_sync s ++ add) s1 in
    match s_sync s2 with [] => sync_completed s2 | _ => s2 end.

(** std::find and erase of the first occurrence. *)
Fixpoint remove1 (x : nat * nat) (l : list (nat * nat)) : list (nat * nat) :=
  match l with
  | [] => []
  | y :: l => if peqb y x then l else y :: remove1 x l
  end.

(** One of the two halves of RemovePendingSubscription / RemovePeerFromPendingAcknowledges
    (VAsioConnection.cpp:1676-1726): [l] before, [l'] after the removal. *)
Definition after_removal (before after : list (nat * nat)) : bool :=
  negb (length before =? length after) && match after with [] => true | _ => false end.
Definition remove_pending (f : list (nat * nat) -> list (nat * nat)) (s : st) : st :=
  let l := s_sync s in
  let s1 := set_sync (f l) s in
  let s2 := if after_removal l (f l) then sync_completed s1 else s1 in
  let m := s_async s2 in
  let s3 := set_async (f m) s2 in
  if after_removal m (f m) then async_completed s3 else s3.
Definition ack (p i : nat) (s : st) : st := remove_pending (remove1 (p, i)) (out [EAck p i] s).
Definition leave (p : nat) (s : st) : st :=
  remove_pending (filter (fun e => negb (fst e =? p)))
    (out [ELeave p] (set_peers (s_used s) (filter (fun q => negb (q =? p)) (s_peers s)) s)).

(** The operations.  User threads: [USync]: call of RegisterSilKitService, [UReturn r]: it returns,
    [UAsync], [URead h] and [UAdd h]: the two halves of AddAsyncSubscriptionsCompletionHandler
    (VAsioConnection.cpp:1854-1864), [UAddNow h]: both without anything in between, while the I/O thread is not
    inside AsyncSubscriptionsCompleted.  I/O thread: [IJob]: next posted job, [IAck], [ILeave], [IJoin], [INext]: next
    statement of AsyncSubscriptionsCompleted, [ISync]: a callback running on the I/O thread calls
    RegisterSilKitService. *)
Inductive op :=
| USync (ks : list nat)
| UReturn (r : nat)
| UAsync (ks : list nat)
| URead (h : nat)
| UAdd (h : nat)
| UAddNow (h : nat)
| IJob
| IAck (p i : nat)
| ILeave (p : nat)
| IJoin (p : nat)
| INext
| ISync (ks : list nat).

Definition ready (r : nat) (s : st) : bool := mem r (s_set s) || mem r (s_broken s).
Definition asked (h : nat) (l : list ev) : bool := existsb (fun e => match e with EAsk g => g =? h | _ => false end) l.
Definition requested (r : nat) (l : list ev) : bool := existsb (fun e => match e with EReq q _ => q =? r | _ => false end) l.
Definition returned (r : nat) (l : list ev) : bool := existsb (fun e => match e with EReturn q => q =? r | _ => false end) l.
Definition read_flag (h : nat) (s : st) : st :=
  if s_flag s then set_read (h :: s_read s) (out [EAsk h] s) else out [EAsk h; EInvoke h true] s.
Definition add_handler (h : nat) (s : st) : st :=
  set_read (filter (fun g => negb (g =? h)) (s_read s)) (set_hs (s_hs s ++ [h]) s).
Definition is_idle (x : pc) : bool := match x with PIdle => true | _ => false end.

(** An operation which is not possible in a state does nothing. *)
Definition step (s : st) (o : op) : st :=
  match o with
  | USync ks => match request_sync ks s with Some (_, s') => s' | None => out [EAssert] s end
  | UReturn r =>
      if requested r (s_log s) && negb (returned r (s_log s)) && ready r s then
        match s_pc s with
        | PWait q => if q =? r then out [EReturn r] (set_pc PIdle s) else out [EReturn r] s
        | _ => out [EReturn r] s
        end
      else s
  | UAsync ks => request_async ks s
  | URead h => if asked h (s_log s) then s else read_flag h s
  | UAdd h => if mem h (s_read s) then add_handler h s else s
  | UAddNow h =>
      if asked h (s_log s) || negb (is_idle (s_pc s)) then s
      else let s' := read_flag h s in if mem h (s_read s') then add_handler h s' else s'
  | IJob => if is_idle (s_pc s) then match s_jobs s with [] => s | j :: l => register j (set_jobs l s) end else s
  | IAck p i => if is_idle (s_pc s) && mem p (s_peers s) then ack p i s else s
  | ILeave p => if is_idle (s_pc s) && mem p (s_peers s) then leave p s else s
  | IJoin p => if is_idle (s_pc s) && negb (mem p (s_used s))
               then out [EJoin p] (set_peers (p :: s_used s) (s_peers s ++ [p]) s) else s
  | INext =>
      match s_pc s with
      | PInvoke => set_pc PClear (out (map (fun h => EInvoke h false) (s_hs s)) s)
      | PClear => set_pc PReset (set_hs [] s)
      | PReset => set_pc PIdle (set_flag false s)
      | _ => s
      end
  | ISync ks =>
      if is_idle (s_pc s) then
        match request_sync ks s with
        | Some (r, s') => set_pc (PWait r) s'
        | None => out [EAssert] s
        end
      else s
  end.
Definition run (ops : list op) : st := fold_left step ops init.
