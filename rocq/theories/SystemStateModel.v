(** Model of S/services/orchestration/SystemStateTracker.{hpp,cpp} and SystemMonitor.{hpp,cpp} (S = /repo/SilKit/source).
    Participants and handlers are numbers. Of a status message only the state and one number standing for the other
    fields (times, reason) are kept. Logging, and the forwarding of the workflow configuration to the lifecycle service,
    are left out; handlers that call back into the monitor as well. *)
From Coq Require Import List NArith Arith Bool.
From Verif Require Import Base.
Import ListNotations.
Local Open Scope N_scope.

(** silkit/services/orchestration/OrchestrationDatatypes.hpp: ParticipantState and SystemState have the same enumerators. *)
Inductive lstate := Invalid | ServicesCreated | CommunicationInitializing | CommunicationInitialized | ReadyToRun
  | Running | Paused | Stopping | Stopped | Error | ShuttingDown | Shutdown | Aborting.
Definition lstate_eqb (a b : lstate) : bool :=
  match a, b with
  | Invalid, Invalid | ServicesCreated, ServicesCreated | CommunicationInitializing, CommunicationInitializing
  | CommunicationInitialized, CommunicationInitialized | ReadyToRun, ReadyToRun | Running, Running | Paused, Paused
  | Stopping, Stopping | Stopped, Stopped | Error, Error | ShuttingDown, ShuttingDown | Shutdown, Shutdown
  | Aborting, Aborting => true
  | _, _ => false
  end.
Definition one_of (l : list lstate) (s : lstate) : bool := existsb (fun x => lstate_eqb x s) l.

Definition status := (lstate * N)%type.
(** SystemStateTracker.hpp 71-75. *)
Record tracker := mkTr { tr_required : list N; tr_sys : lstate; tr_cache : list (N * status) }.
Definition tr_init : tracker := mkTr [] Invalid [].
(** SystemStateTracker.cpp 262-287. *)
Definition tr_get (p : N) (t : tracker) : option status :=
  match find (fun x => fst x =? p) (tr_cache t) with Some x => Some (snd x) | None => None end.
(** SystemStateTracker.cpp 313-318. *)
Fixpoint cache_set (p : N) (s : status) (c : list (N * status)) : list (N * status) :=
  match c with
  | [] => [(p, s)]
  | (q, x) :: r => if q =? p then (q, s) :: r else (q, x) :: cache_set p s r
  end.
(** SystemStateTracker.cpp 295-311. *)
Definition get_or_create (p : N) (t : tracker) : status * tracker :=
  match tr_get p t with
  | Some s => (s, t)
  | None => ((Invalid, 0), mkTr (tr_required t) (tr_sys t) (cache_set p (Invalid, 0) (tr_cache t)))
  end.
(** SystemStateTracker.cpp 256-260. *)
Definition is_required (p : N) (t : tracker) : bool := existsb (fun x => x =? p) (tr_required t).
(** SystemStateTracker.cpp 320-333. Which element of the unordered set comes first is not specified: [c] chooses. *)
Definition any_required (c : nat) (t : tracker) : lstate :=
  match nth_error (tr_required t) (c mod length (tr_required t)) with
  | None => Invalid
  | Some p => match tr_get p t with Some s => fst s | None => Invalid end
  end.
(** SystemStateTracker.cpp 342-366, the test. *)
Definition all_in (t : tracker) (l : list lstate) : bool :=
  forallb (fun p => match tr_get p t with Some s => one_of l (fst s) | None => false end) (tr_required t).
Fixpoint first_all_in (t : tracker) (cases : list (lstate * list lstate)) (dflt : lstate) : lstate :=
  match cases with
  | [] => dflt
  | (s, l) :: r => if all_in t l then s else first_all_in t r dflt
  end.
(** SystemStateTracker.cpp 335-469. *)
Definition compute_system_state (n : lstate) (t : tracker) : lstate :=
  let base := match tr_cache t with
              | [] => match tr_sys t with
                      | Error => Error
                      | Shutdown => Shutdown
                      | ShuttingDown => Shutdown
                      | _ => Invalid
                      end
              | _ => tr_sys t
              end in
  match n with
  | Invalid => base
  | ServicesCreated => first_all_in t
      [(ServicesCreated, [ServicesCreated; CommunicationInitializing; CommunicationInitialized; ReadyToRun; Running])] base
  | CommunicationInitializing => first_all_in t
      [(CommunicationInitializing, [CommunicationInitializing; CommunicationInitialized; ReadyToRun; Running])] base
  | CommunicationInitialized => first_all_in t
      [(CommunicationInitialized, [CommunicationInitialized; ReadyToRun; Running])] base
  | ReadyToRun => first_all_in t [(ReadyToRun, [ReadyToRun; Running])] base
  | Running => first_all_in t
      [(Running, [Running]);
       (Stopping, [Running; Stopping]);
       (Stopped, [Running; Stopped]);
       (ShuttingDown, [Running; Stopped; ShuttingDown]);
       (Shutdown, [Running; Stopped; ShuttingDown; Shutdown])] base
  | Paused => first_all_in t
      [(Paused, [Running; Paused]);
       (Stopping, [Running; Paused; Stopping]);
       (Stopped, [Running; Paused; Stopped]);
       (ShuttingDown, [Running; Paused; Stopped; ShuttingDown]);
       (Shutdown, [Running; Paused; Stopped; ShuttingDown; Shutdown])] base
  | Stopping => first_all_in t [(Stopping, [Running; Paused; Stopping; Stopped; ShuttingDown; Shutdown])] base
  | Stopped => first_all_in t [(Stopped, [Stopped; ShuttingDown; Shutdown])] base
  | ShuttingDown => first_all_in t
      [(ShuttingDown, [Stopped; ShuttingDown; Shutdown; Error; ServicesCreated; ReadyToRun])] base
  | Shutdown => first_all_in t [(Shutdown, [Shutdown])] base
  | Aborting => Aborting
  | Error => Error
  end.
Definition set_sys (s : lstate) (t : tracker) : tracker := mkTr (tr_required t) s (tr_cache t).

(** SystemStateTracker.cpp 106-130; the result says whether the system state changed. *)
Definition update_required (ns : list N) (c : nat) (t : tracker) : bool * tracker :=
  let t1 := mkTr (nodup N.eq_dec ns) (tr_sys t) (tr_cache t) in
  let n := compute_system_state (any_required c t1) t1 in
  (negb (lstate_eqb (tr_sys t) n), set_sys n t1).
(** SystemStateTracker.cpp 132-229: (participant state changed, system state changed). A message state that is Invalid
    or not an enumerator makes ValidateParticipantStateUpdate throw (line 67): None. Otherwise validation only logs. *)
Definition update_status (p : N) (st : option lstate) (stamp : N) (t : tracker) : option (bool * bool) * tracker :=
  let (old, t1) := get_or_create p t in
  match st with
  | None | Some Invalid => (None, t1)
  | Some n =>
      if lstate_eqb (fst old) Shutdown then (Some (false, false), t1) else
      let t2 := mkTr (tr_required t1) (tr_sys t1) (cache_set p (n, stamp) (tr_cache t1)) in
      if lstate_eqb (fst old) n then (Some (false, false), t2) else
      if is_required p t2 then
        let s := compute_system_state n t2 in
        (Some (true, negb (lstate_eqb (tr_sys t2) s)), set_sys s t2)
      else (Some (true, false), t2)
  end.
(** SystemStateTracker.cpp 231-254. *)
Definition remove_participant (p : N) (c : nat) (t : tracker) : bool * tracker :=
  match tr_get p t with
  | None => (false, t)
  | Some _ =>
      let t1 := mkTr (tr_required t) (tr_sys t) (filter (fun x => negb (fst x =? p)) (tr_cache t)) in
      let n := compute_system_state (any_required c t1) t1 in
      (negb (lstate_eqb (tr_sys t) n), set_sys n t1)
  end.

(** SystemMonitor.hpp: the tracker, the connected participants and the handlers. *)
Record monitor := mkMon { m_tr : tracker; m_conn : list N; m_sysh : list N; m_stah : list N }.
Definition mon_init : monitor := mkMon tr_init [] [] [].
Inductive mout := MSys (h : N) (s : lstate) | MStatus (h p : N) (s : status) | MThrow.
Inductive mev :=
| MRequired (ns : list N) (c : nat)            (* WorkflowConfiguration, SystemMonitor.cpp 29-45 *)
| MMsg (p : N) (st : option lstate) (stamp : N) (* ParticipantStatus, 115-129 *)
| MConnected (p : N)                           (* 158-175 *)
| MDisconnected (p : N) (stamp : N) (c : nat)  (* 177-253 *)
| MAddSys (h : N)                              (* 47-52 *)
| MAddStatus (h : N).                          (* 64-85 *)
Definition sys_all (m : monitor) : list mout := map (fun h => MSys h (tr_sys (m_tr m))) (m_sysh m).
(** SystemMonitor.cpp 115-129. *)
Definition mon_msg (p : N) (st : option lstate) (stamp : N) (m : monitor) : list mout * monitor :=
  let (r, t) := update_status p st stamp (m_tr m) in
  let m' := mkMon t (m_conn m) (m_sysh m) (m_stah m) in
  match r, st with
  | Some (pc, sc), Some s =>
      ((if pc then map (fun h => MStatus h p (s, stamp)) (m_stah m) else []) ++ (if sc then sys_all m' else []), m')
  | _, _ => ([MThrow], m')
  end.
Definition mstep (e : mev) (m : monitor) : list mout * monitor :=
  match e with
  | MRequired ns c =>
      let (ch, t) := update_required ns c (m_tr m) in
      let m' := mkMon t (m_conn m) (m_sysh m) (m_stah m) in
      ((if ch then sys_all m' else []), m')
  | MMsg p st stamp => mon_msg p st stamp m
  | MConnected p =>
      ([], mkMon (m_tr m) (if existsb (fun x => x =? p) (m_conn m) then m_conn m else m_conn m ++ [p]) (m_sysh m) (m_stah m))
  | MDisconnected p stamp c =>
      let (o1, m1) := match tr_get p (m_tr m) with
                      | Some s => match fst s with
                                  | Shutdown | Invalid => ([], m)
                                  | _ => mon_msg p (Some Error) stamp m
                                  end
                      | None => ([], m)
                      end in
      let (ch, t) := remove_participant p c (m_tr m1) in
      let m2 := mkMon t (filter (fun x => negb (x =? p)) (m_conn m1)) (m_sysh m1) (m_stah m1) in
      (o1 ++ (if ch then sys_all m2 else []), m2)
  | MAddSys h => ([MSys h (tr_sys (m_tr m))], mkMon (m_tr m) (m_conn m) (m_sysh m ++ [h]) (m_stah m))
  | MAddStatus h =>
      (flat_map (fun p => match tr_get p (m_tr m) with
                          | Some s => if lstate_eqb (fst s) Invalid then [] else [MStatus h p s]
                          | None => []
                          end) (m_conn m),
       mkMon (m_tr m) (m_conn m) (m_sysh m) (m_stah m ++ [h]))
  end.
Fixpoint mrun (l : list mev) (m : monitor) : list mout * monitor :=
  match l with
  | [] => ([], m)
  | e :: r => let (o, m') := mstep e m in let (o', m'') := mrun r m' in (o ++ o', m'')
  end.
