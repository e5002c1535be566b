From Coq Require Import List Arith Bool.
Import ListNotations.

(** Model of core/requests/RequestReplyService.cpp and core/requests/procs/ParticipantReplies.cpp of one participant.
    Participants are named by numbers, as are calls: the random uuids of Util::Uuid::GenerateRandom (line 43) are assumed to be
    distinct. The payloads (callData, callReturnData) are left out, they are empty for the only procedure that exists. *)
Definition name := nat.
Definition uuid := nat.

(** RequestReplyDatatypes.hpp:20-24: FunctionType, Invalid = 0, ParticipantReplies = 1; any number may come from the network *)
Definition ftype := nat.
Definition ft_invalid : ftype := 0.
Definition ft_replies : ftype := 1.
(** RequestReplyDatatypes.hpp:26-32 *)
Inductive status := Success | UnknownFunctionType | ProcedureError | RecipientDisconnected.

(** Effects. [Forwarded] is the call of IRequestReplyProcedure::ReceiveCallReturn (RequestReplyService.cpp:185). *)
Inductive out :=
| SentCall (u : uuid) (ft : ftype) (to : list name)
| SentReturn (to : name) (u : uuid) (ft : ftype) (st : status)
| Forwarded (from : name) (u : uuid) (st : status)
| Started (c : nat) (expected : list name)   (* the deferred part of CallAfterAllParticipantsReplied gets past line 37 *)
| Completed (c : nat)                        (* the completion function is called *)
| Dropped (c : nat)                          (* ParticipantReplies.cpp:36, the completion function is discarded *)
| Threw.                                     (* an exception leaves the service *)

(** RequestReplyService.hpp:68-70. [s_returns] is _participantDisconnectCallReturns, a map from participants to a map of prepared
    messages, of which uuid and functionType are kept; [s_initiators] is _requestReplyInitiatorByCallUuid. [s_receivers] is the list of
    remote receivers of the link for RequestReplyCall (VAsioTransmitter::_remoteReceivers). *)
Record service := mkS { s_returns : list (name * list (uuid * ftype)); s_initiators : list (uuid * name); s_receivers : list name }.
(** ParticipantReplies.hpp: _barrierActive, _expectedParticipantsToSendCallReturns, _completionFunction, _activeUuid. The completion
    function is a number that names the call of CallAfterAllParticipantsReplied. *)
Record barrier := mkB { b_active : bool; b_expected : list name; b_completion : option nat; b_uuid : option uuid }.

Definition procedures : list ftype := [ft_replies]. (* Participant_impl.hpp:958-959 *)

Definition lookup {A} (k : nat) (m : list (nat * A)) : option A := option_map snd (find (fun x => Nat.eqb (fst x) k) m).
Definition erase {A} (k : nat) (m : list (nat * A)) : list (nat * A) := filter (fun x => negb (Nat.eqb (fst x) k)) m.

(** [_participantDisconnectCallReturns[name].emplace(callUuid, disconnectMsg)], RequestReplyService.cpp:58 *)
Definition prepare (u : uuid) (ft : ftype) (m : list (name * list (uuid * ftype))) (p : name) : list (name * list (uuid * ftype)) :=
  match lookup p m with
  | None => m ++ [(p, [(u, ft)])]
  | Some l => map (fun x => if Nat.eqb (fst x) p then (p, match lookup u l with None => l ++ [(u, ft)] | Some _ => l end) else x) m
  end.

(** RequestReplyService.cpp:34-69 *)
Definition call (ft : ftype) (u : uuid) (s : service) : list out * service :=
  if Nat.eqb ft ft_invalid then ([Threw], s)
  else ([SentCall u ft (s_receivers s)],
        mkS (fold_left (prepare u ft) (s_receivers s) (s_returns s)) (s_initiators s) (s_receivers s)).

(** RequestReplyService.cpp:71-92. SendMsg to a target that is not a remote receiver throws (VAsioTransmitter.hpp:146-152);
    simplification: the receivers of RequestReplyCallReturn are those of RequestReplyCall. [None] = exception. *)
Definition submit (u : uuid) (ft : ftype) (st : status) (s : service) : option (list out) :=
  if Nat.eqb ft ft_invalid then None
  else match lookup u (s_initiators s) with
       | None => None
       | Some i => if existsb (Nat.eqb i) (s_receivers s) then Some [SentReturn i u ft st] else None
       end.

(** RequestReplyService.cpp:97-107 and 158-176; ParticipantReplies.cpp:70-75 *)
Definition receive_call (from : name) (u : uuid) (ft : ftype) (s : service) : list out * service :=
  match lookup u (s_initiators s) with
  | Some _ => ([Threw], s)
  | None =>
      let s := mkS (s_returns s) (s_initiators s ++ [(u, from)]) (s_receivers s) in
      if existsb (Nat.eqb ft) procedures then
        match submit u ft_replies Success s with
        | Some o => (o, s)
        | None => match submit u ft ProcedureError s with Some o => (o, s) | None => ([Threw], s) end
        end
      else match submit u ft UnknownFunctionType s with Some o => (o, s) | None => ([Threw], s) end
  end.

(** RequestReplyService.cpp:118-136. Line 125 copies the map of the participant: the erasure at line 129 is lost unless it makes the
    copy empty, in which case line 133 removes the whole entry. *)
Definition remove_from_lookup (u : uuid) (p : name) (s : service) : service :=
  match lookup p (s_returns s) with
  | None => s
  | Some l => match erase u l with
              | [] => mkS (erase p (s_returns s)) (s_initiators s) (s_receivers s)
              | _ => s
              end
  end.

(** ParticipantReplies.cpp:77-98 *)
Definition receive_return (p : name) (u : uuid) (b : barrier) : list out * barrier :=
  if b_active b && match b_uuid b with Some a => Nat.eqb u a | None => false end then
    let e := filter (fun x => negb (Nat.eqb x p)) (b_expected b) in
    match e with
    | [] => (match b_completion b with Some c => [Completed c] | None => [] end, mkB false e (b_completion b) (b_uuid b))
    | _ => ([], mkB true e (b_completion b) (b_uuid b))
    end
  else ([], b).

(** RequestReplyService.cpp:178-186; the third component tells whether it returned normally *)
Definition forward (p : name) (u : uuid) (ft : ftype) (st : status) (b : barrier) : list out * barrier * bool :=
  if existsb (Nat.eqb ft) procedures then
    let (o, b) := receive_return p u b in (Forwarded p u st :: o, b, true)
  else ([Threw], b, false).

(** RequestReplyService.cpp:109-114 *)
Definition receive_call_return (p : name) (u : uuid) (ft : ftype) (st : status) (s : service) (b : barrier) : list out * service * barrier :=
  let s := remove_from_lookup u p s in
  let '(o, b, _) := forward p u ft st b in (o, s, b).

(** RequestReplyService.cpp:145-153: an exception in the loop leaves the map as it is *)
Fixpoint forward_all (p : name) (l : list (uuid * ftype)) (b : barrier) : list out * barrier * bool :=
  match l with
  | [] => ([], b, true)
  | (u, ft) :: r =>
      let '(o, b, ok) := forward p u ft RecipientDisconnected b in
      if ok then let '(o', b, ok) := forward_all p r b in (o ++ o', b, ok) else (o, b, false)
  end.
Definition removal (p : name) (s : service) (b : barrier) : list out * service * barrier :=
  match lookup p (s_returns s) with
  | None => ([], s, b)
  | Some l =>
      let '(o, b, ok) := forward_all p l b in
      (o, if ok then mkS (erase p (s_returns s)) (s_initiators s) (s_receivers s) else s, b)
  end.

(** ParticipantReplies.cpp:29-60, the deferred function of completion [c]; [u] is the uuid drawn by Call *)
Definition deferred (c : nat) (u : uuid) (s : service) (b : barrier) : list out * service * barrier :=
  if b_active b then ([Dropped c], s, b)
  else match s_receivers s with
       | [] => ([Started c []; Completed c], s, mkB false [] (b_completion b) (b_uuid b))
       | r => let (o, s) := call ft_replies u s in
              (Started c r :: o, s, mkB true r (Some c) (Some u))
       end.

(** The whole: one participant and its peers. [w_owed] are the calls that reached a peer that is still connected and has not answered;
    a peer answers a call it received at most once (proved of [receive_call] below). [w_queue] are the functions given to
    ExecuteDeferred, [w_next] and [w_requests] number calls and requests. *)
Record world := mkW { w_service : service; w_barrier : barrier; w_owed : list (name * uuid); w_queue : list nat; w_next : uuid; w_requests : nat }.
Definition init : world := mkW (mkS [] [] []) (mkB false [] None None) [] [] 0 0.

Inductive ev :=
| EConnect (p : name)                       (* a peer subscribes to RequestReplyCall: VAsioTransmitter.hpp:96-109 *)
| EDisconnect (p : name)                    (* VAsioConnection.cpp:1355-1392: callbacks first, then the links *)
| ERequest                                  (* ParticipantReplies.cpp:26-29 *)
| EDeferred                                 (* the I/O thread runs the next deferred function *)
| EReturn (p : name) (u : uuid) (st : status) (* the answer of a peer arrives *)
| ECall (p : name) (u : uuid) (ft : ftype). (* a call of a peer arrives *)

Definition step (w : world) (e : ev) : list out * world :=
  let s := w_service w in let b := w_barrier w in
  match e with
  | EConnect p => ([], mkW (mkS (s_returns s) (s_initiators s) (if existsb (Nat.eqb p) (s_receivers s) then s_receivers s else s_receivers s ++ [p]))
                           b (w_owed w) (w_queue w) (w_next w) (w_requests w))
  | EDisconnect p =>
      if existsb (Nat.eqb p) (s_receivers s) then
        let '(o, s, b) := removal p s b in
        (o, mkW (mkS (s_returns s) (s_initiators s) (filter (fun x => negb (Nat.eqb x p)) (s_receivers s))) b
                (filter (fun x => negb (Nat.eqb (fst x) p)) (w_owed w)) (w_queue w) (w_next w) (w_requests w))
      else ([], w)
  | ERequest => ([], mkW s b (w_owed w) (w_queue w ++ [w_requests w]) (w_next w) (S (w_requests w)))
  | EDeferred =>
      match w_queue w with
      | [] => ([], w)
      | c :: q =>
          let '(o, s', b') := deferred c (w_next w) s b in
          (o, mkW s' b' (w_owed w ++ flat_map (fun x => match x with SentCall u _ l => map (fun p => (p, u)) l | _ => [] end) o) q (S (w_next w)) (w_requests w))
      end
  | EReturn p u st =>
      if existsb (fun x => Nat.eqb (fst x) p && Nat.eqb (snd x) u) (w_owed w) then
        let '(o, s, b) := receive_call_return p u ft_replies st s b in
        (o, mkW s b (filter (fun x => negb (Nat.eqb (fst x) p && Nat.eqb (snd x) u)) (w_owed w)) (w_queue w) (w_next w) (w_requests w))
      else ([], w)
  | ECall p u ft => let (o, s) := receive_call p u ft s in (o, mkW s b (w_owed w) (w_queue w) (w_next w) (w_requests w))
  end.
Definition run (evs : list ev) : list out * world :=
  fold_left (fun a e => let (o, x) := step (snd a) e in (fst a ++ o, x)) evs ([], init).

(** The service used by itself: any calls through IRequestReplyService, answers and removals of participants *)
Inductive sev := SCall (ft : ftype) (u : uuid) | SReturn (p : name) (u : uuid) (ft : ftype) (st : status) | SRemoved (p : name) | SConnect (p : name).
Definition sstep (x : service * barrier) (e : sev) : list out * (service * barrier) :=
  let (s, b) := x in
  match e with
  | SCall ft u => let (o, s) := call ft u s in (o, (s, b))
  | SReturn p u ft st => let '(o, s, b) := receive_call_return p u ft st s b in (o, (s, b))
  | SRemoved p => let '(o, s, b) := removal p s b in (o, (mkS (s_returns s) (s_initiators s) (filter (fun x => negb (Nat.eqb x p)) (s_receivers s)), b))
  | SConnect p => ([], (mkS (s_returns s) (s_initiators s) (s_receivers s ++ [p]), b))
  end.
Definition srun (evs : list sev) : list out * (service * barrier) :=
  fold_left (fun a e => let (o, x) := sstep (snd a) e in (fst a ++ o, x)) evs ([], (mkS [] [] [], mkB false [] None None)).
