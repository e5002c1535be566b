(** Model of S/services/orchestration/LifecycleStates.cpp, LifecycleManagement.cpp and LifecycleService.cpp
    (S = /repo/SilKit/source), of one participant.

    Control flow: a state's method calls the manager, which calls methods of the then current state, and publishing a
    status calls the own system monitor, which may call NewSystemState before the publishing call returns. This nesting
    is kept as an explicit stack of instructions; executing the top instruction is one step. Calls made while something
    else is still running on the IO thread therefore happen exactly where the code lets them happen.

    Left out: texts (reasons), logging, Restart (throws, never called), OperationMode::Invalid. The handlers for
    starting, stop, shutdown and abort are taken as registered (an unregistered one acts like one that returns). *)
From Coq Require Import List NArith Arith Bool.
From Verif Require Import Base SystemStateModel.
Import ListNotations.

Inductive mode := Coordinated | Autonomous.
(** Static configuration: operation mode, time synchronisation in use, communication-ready handler (None: not set,
    Some true: asynchronous). *)
Record config := mkCfg { c_mode : mode; c_timesync : bool; c_ready : option bool }.

(** ILifecycleStates.hpp: the methods of a state that are called. *)
Inductive op := OInit | OServices | OCommInitializing | OCommInitialized | OComplete | OReady | OPause | OContinue
  | OStop | OShutdown | OError | OAbort | OResolve.
Inductive handler := HCommReady | HStarting | HStop | HShutdown | HAbort.
Inductive result := RCompleted | RDeferred | RError.
(** Completions given to IParticipantReplies (LifecycleStates.cpp 160-172, 580-587, 694-712) and to the connection
    (205-214). *)
Inductive completion := CServices | CStopped | CFinal | CSubs.
Inductive instr :=
| IOp (o : op)               (* call a method of the current state *)
| ISet (s : lstate)          (* UpdateLifecycleState and UpdateParticipantState, LifecycleManagement.cpp 258-288 *)
| IHandle (h : handler)      (* call a user handler *)
| IAfter (h : handler) (r : result)
| IEnd (s : lstate)          (* _handlerExecuting = false of state s *)
| IStartTime | IStopTime
| IRequest (c : completion)  (* CallAfterAllParticipantsReplied *)
| IAddSubs                   (* AddAsyncSubscriptionsCompletionHandler *)
| IFinal                     (* the body of the completion in ShutdownState, 697-709 *)
| ISys (s : lstate)          (* NewSystemState *)
| INextStep                  (* RequestNextStep after Continue *)
| IResume (c : completion)   (* a completion is called *)
| IBarrierOff | ISubsOff.
(** Tasks posted to the IO thread. *)
Inductive task := TInit | TStartAuto | TStop | TPause | TContinue | TAbort | TComplete | TError | TBarrier (c : completion).

Record life := mkLife {
  l_cur : lstate;                 (* _currentState; _status.state is set together with it *)
  l_before : option lstate;       (* _lastBeforeAbortingState *)
  l_abort : lstate -> bool;       (* _abortRequested of each state object *)
  l_exec : lstate -> bool;        (* _handlerExecuting of each state object *)
  l_stack : list instr;
  l_queue : list task;
  l_barrier : option completion;  (* ParticipantReplies: the active barrier *)
  l_others : bool;                (* there are remote receivers *)
  l_subs_pending : bool;          (* _hasPendingAsyncSubscriptions *)
  l_subs : nat;                   (* handlers waiting for it *)
  l_started : bool; l_aborted : bool; l_invoked : bool; l_completed : bool; l_stop_by_sys : bool;
  l_promise : option lstate }.
Definition life_init : life :=
  mkLife Invalid None (fun _ => false) (fun _ => false) [] [] None false false 0 false false false false false None.

Inductive lout :=
| Published (s : lstate)
| Called (h : handler) (s : lstate)     (* s: the argument of the abort handler, else the current state *)
| Resumed (c : completion) (s : lstate) (* a completion starts to run while the state is s *)
| Dropped (c : completion)              (* a completion that is never going to be called *)
| Notified | StartedTime | StoppedTime | NextStep
| Promised (s : lstate)
| Thrown.

Definition set_stack k l := mkLife (l_cur l) (l_before l) (l_abort l) (l_exec l) k (l_queue l) (l_barrier l) (l_others l)
  (l_subs_pending l) (l_subs l) (l_started l) (l_aborted l) (l_invoked l) (l_completed l) (l_stop_by_sys l) (l_promise l).
Definition set_queue q l := mkLife (l_cur l) (l_before l) (l_abort l) (l_exec l) (l_stack l) q (l_barrier l) (l_others l)
  (l_subs_pending l) (l_subs l) (l_started l) (l_aborted l) (l_invoked l) (l_completed l) (l_stop_by_sys l) (l_promise l).
Definition set_cur c b l := mkLife c b (l_abort l) (l_exec l) (l_stack l) (l_queue l) (l_barrier l) (l_others l)
  (l_subs_pending l) (l_subs l) (l_started l) (l_aborted l) (l_invoked l) (l_completed l) (l_stop_by_sys l) (l_promise l).
Definition upd (f : lstate -> bool) (s : lstate) (b : bool) : lstate -> bool := fun x => if lstate_eqb x s then b else f x.
Definition set_abort s b l := mkLife (l_cur l) (l_before l) (upd (l_abort l) s b) (l_exec l) (l_stack l) (l_queue l) (l_barrier l) (l_others l)
  (l_subs_pending l) (l_subs l) (l_started l) (l_aborted l) (l_invoked l) (l_completed l) (l_stop_by_sys l) (l_promise l).
Definition set_exec s b l := mkLife (l_cur l) (l_before l) (l_abort l) (upd (l_exec l) s b) (l_stack l) (l_queue l) (l_barrier l) (l_others l)
  (l_subs_pending l) (l_subs l) (l_started l) (l_aborted l) (l_invoked l) (l_completed l) (l_stop_by_sys l) (l_promise l).
Definition set_barrier b l := mkLife (l_cur l) (l_before l) (l_abort l) (l_exec l) (l_stack l) (l_queue l) b (l_others l)
  (l_subs_pending l) (l_subs l) (l_started l) (l_aborted l) (l_invoked l) (l_completed l) (l_stop_by_sys l) (l_promise l).
Definition set_others o l := mkLife (l_cur l) (l_before l) (l_abort l) (l_exec l) (l_stack l) (l_queue l) (l_barrier l) o
  (l_subs_pending l) (l_subs l) (l_started l) (l_aborted l) (l_invoked l) (l_completed l) (l_stop_by_sys l) (l_promise l).
Definition set_subs p n l := mkLife (l_cur l) (l_before l) (l_abort l) (l_exec l) (l_stack l) (l_queue l) (l_barrier l) (l_others l)
  p n (l_started l) (l_aborted l) (l_invoked l) (l_completed l) (l_stop_by_sys l) (l_promise l).
Definition set_flags st ab inv co sy l := mkLife (l_cur l) (l_before l) (l_abort l) (l_exec l) (l_stack l) (l_queue l) (l_barrier l) (l_others l)
  (l_subs_pending l) (l_subs l) st ab inv co sy (l_promise l).
Definition set_promise p l := mkLife (l_cur l) (l_before l) (l_abort l) (l_exec l) (l_stack l) (l_queue l) (l_barrier l) (l_others l)
  (l_subs_pending l) (l_subs l) (l_started l) (l_aborted l) (l_invoked l) (l_completed l) (l_stop_by_sys l) p.
Definition post (t : task) (l : life) : life := set_queue (l_queue l ++ [t]) l.
Definition push (is : list instr) (l : life) : life := set_stack (is ++ l_stack l) l.

(** LifecycleStates.cpp 113-124 and the same sequence in 140-144, 179-184, 221-226; [s] is the state object. *)
Definition process_abort (s : lstate) (l : life) : life := push [ISet Aborting; IOp OResolve] (set_abort s false l).
(** LifecycleManagement.cpp 264-272: set the state, then the intent on whatever is the current state by then. *)
Definition set_and_forward (s : lstate) (o : op) (l : life) : life := push [ISet s; IOp o] l.
(** LifecycleStates.cpp 87-106 with triggerErrorState. *)
Definition invalid (l : life) : life := push [IOp OError] l.

(** LifecycleStates.cpp 22-85: what a state does for a method it does not override. Abort and ResolveAbort are pure
    virtual there, all states override them. *)
Definition default_op (o : op) (l : life) : life :=
  match o with
  | OStop => l
  | OError => push [ISet Error] l
  | _ => invalid l
  end.
(** One function per class, LifecycleStates.cpp 130-832. *)
Definition invalid_state (o : op) (l : life) : life :=
  match o with
  | OInit => push [ISet ServicesCreated] l
  | OAbort | OResolve => process_abort Invalid l
  | _ => default_op o l
  end.
Definition services_created (o : op) (l : life) : life :=
  match o with
  | OServices => push [IRequest CServices] l
  | OAbort | OResolve => process_abort ServicesCreated l
  | _ => default_op o l
  end.
Definition comm_initializing (o : op) (l : life) : life :=
  match o with
  | OServices => push [IOp OCommInitializing] l
  | OCommInitializing => push [IAddSubs] l
  | OAbort | OResolve => process_abort CommunicationInitializing l
  | _ => default_op o l
  end.
Definition comm_initialized (cfg : config) (o : op) (l : life) : life :=
  match o with
  | OCommInitializing => match c_mode cfg with Autonomous => push [IOp OCommInitialized] l | Coordinated => l end
  | OCommInitialized => push [IHandle HCommReady] (set_exec CommunicationInitialized true l)
  | OComplete => set_and_forward ReadyToRun OCommInitialized l
  | OAbort => if l_exec l CommunicationInitialized then set_abort CommunicationInitialized true l
              else process_abort CommunicationInitialized l
  | OResolve => process_abort CommunicationInitialized l
  | _ => default_op o l
  end.
Definition ready_to_run (cfg : config) (o : op) (l : life) : life :=
  match o with
  | OCommInitializing => l
  | OCommInitialized => match c_mode cfg with Autonomous => push [IOp OReady] l | Coordinated => l end
  | OReady => if c_timesync cfg
              then if l_abort l ReadyToRun then process_abort ReadyToRun l else set_and_forward Running OReady l
              else push [IHandle HStarting] (set_exec ReadyToRun true l)
  | OAbort => if l_exec l ReadyToRun then set_abort ReadyToRun true l else process_abort ReadyToRun l
  | OResolve => process_abort ReadyToRun l
  | _ => default_op o l
  end.
Definition running (o : op) (l : life) : life :=
  match o with
  | OCommInitializing | OCommInitialized => l
  | OReady => push [IStartTime] l
  | OPause => push [ISet Paused] l
  | OContinue => l
  | OStop => push [IStopTime] (set_and_forward Stopping OStop l)
  | OAbort => push [IStopTime] (process_abort Running l)
  | OResolve => process_abort Running l
  | _ => default_op o l
  end.
Definition paused (o : op) (l : life) : life :=
  match o with
  | OContinue => push [ISet Running] l
  | OStop => set_and_forward Stopping OStop l
  | OAbort | OResolve => process_abort Paused l
  | _ => default_op o l
  end.
Definition stopping (o : op) (l : life) : life :=
  match o with
  | OStop => push [IHandle HStop] l
  | OAbort => set_abort Stopping true l
  | OResolve => process_abort Stopping l
  | _ => default_op o l
  end.
Definition stopped (o : op) (l : life) : life :=
  match o with
  | OStop => push [IRequest CStopped] l
  | OShutdown => set_and_forward ShuttingDown OShutdown l
  | OAbort | OResolve => process_abort Stopped l
  | _ => default_op o l
  end.
Definition shutting_down (o : op) (l : life) : life :=
  match o with
  | OStop | OAbort | OResolve => l
  | OShutdown => push [IHandle HShutdown] l
  | _ => default_op o l
  end.
Definition shut_down (o : op) (l : life) : life :=
  match o with
  | OInit | OReady | OCommInitialized | OStop | OError | OAbort | OResolve => l
  | OShutdown => push [IRequest CFinal] l
  | _ => default_op o l
  end.
Definition aborting (o : op) (l : life) : life :=
  match o with
  | OInit | OAbort => l
  | OShutdown => set_and_forward Shutdown OShutdown l
  | OResolve => push [IHandle HAbort] l
  | _ => default_op o l
  end.
Definition error (o : op) (l : life) : life :=
  match o with
  | OInit | OError => l
  | OStop => push [IOp OShutdown] l
  | OShutdown => set_and_forward ShuttingDown OShutdown l
  | OAbort | OResolve => process_abort Error l
  | _ => default_op o l
  end.
(** LifecycleManagement.cpp 40-137: every call goes to the current state. *)
Definition dispatch (cfg : config) (o : op) (l : life) : life :=
  match l_cur l with
  | Invalid => invalid_state o l
  | ServicesCreated => services_created o l
  | CommunicationInitializing => comm_initializing o l
  | CommunicationInitialized => comm_initialized cfg o l
  | ReadyToRun => ready_to_run cfg o l
  | Running => running o l
  | Paused => paused o l
  | Stopping => stopping o l
  | Stopped => stopped o l
  | ShuttingDown => shutting_down o l
  | Shutdown => shut_down o l
  | Aborting => aborting o l
  | Error => error o l
  end.

(** LifecycleService.cpp 504-584. Autonomous participants do not react. *)
Definition new_system_state (cfg : config) (s : lstate) (l : life) : life :=
  match c_mode cfg with
  | Autonomous => l
  | Coordinated =>
      let stop l := push [IOp OStop] (set_flags (l_started l) (l_aborted l) (l_invoked l) (l_completed l) true l) in
      match s with
      | ServicesCreated => push [IOp OServices] l
      | CommunicationInitialized => push [IOp OCommInitialized] l
      | ReadyToRun => push [IOp OReady] l
      | Stopping => match l_cur l with Running | Paused => stop l | _ => l end
      | Stopped => if l_stop_by_sys l then l else match l_cur l with Running | Paused => stop l | _ => l end
      | _ => l
      end
  end.
(** The completions, LifecycleStates.cpp 166-171, 209-213, 586, 696-711. *)
Definition complete (c : completion) (l : life) : life :=
  match c with
  | CServices => set_and_forward CommunicationInitializing OServices l
  | CSubs => set_and_forward CommunicationInitialized OCommInitializing l
  | CStopped => push [IOp OShutdown] l
  | CFinal => push [IFinal] l
  end.

(** What the surroundings decide when the top instruction is executed: whether publishing a status makes the own monitor
    announce a new system state, whether a handler throws, and whether an abort command is processed while the handler
    runs (on another thread; with the single IO thread of the participant this does not happen). *)
Record env := mkEnv { e_sys : option lstate; e_throw : bool; e_abort : bool }.
Definition quiet : env := mkEnv None false false.

(** Handler calls, LifecycleManagement.cpp 140-241, LifecycleService.cpp 261-315: the result, and whether the handler is
    really invoked. An asynchronous communication-ready handler is invoked only the first time. *)
Definition call_handler (cfg : config) (h : handler) (e : env) (l : life) : list lout * life :=
  let invoke r l := ([Called h (match h with HAbort => match l_before l with Some s => s | None => Invalid end | _ => l_cur l end)],
                     push ((if e_abort e then [IOp OAbort] else []) ++ [IAfter h (if e_throw e then RError else r)]) l) in
  match h with
  | HCommReady =>
      match c_ready cfg with
      | None => ([], push [IAfter h RCompleted] l)
      | Some false => invoke RCompleted l
      | Some true =>
          if l_invoked l then ([], push [IAfter h RDeferred] l)
          else invoke RDeferred (set_flags (l_started l) (l_aborted l) true false (l_stop_by_sys l) l)
      end
  | HAbort => match l_before l with None => ([Thrown], l) | Some _ => invoke RCompleted l end
  | _ => invoke RCompleted l
  end.
(** What follows a handler: LifecycleStates.cpp 256-288, 352-378, 530-553, 632-640, 760-773. *)
Definition after_handler (h : handler) (r : result) (l : life) : life :=
  match h with
  | HCommReady =>
      let l := push [IEnd CommunicationInitialized] l in
      match r with
      | RDeferred => l
      | RError => if l_abort l CommunicationInitialized then process_abort CommunicationInitialized l else push [ISet Error] l
      | RCompleted => if l_abort l CommunicationInitialized then process_abort CommunicationInitialized l
                      else set_and_forward ReadyToRun OCommInitialized l
      end
  | HStarting =>
      let l := push [IEnd ReadyToRun] l in
      if l_abort l ReadyToRun then process_abort ReadyToRun l
      else push [ISet (match r with RError => Error | _ => Running end)] l
  | HStop =>
      if l_abort l Stopping then process_abort Stopping l
      else match r with RError => push [ISet Error] l | _ => set_and_forward Stopped OStop l end
  | HShutdown => set_and_forward Shutdown OShutdown l
  | HAbort => push [IOp OShutdown] l
  end.

(** One instruction. *)
Definition exec (cfg : config) (e : env) (i : instr) (l : life) : list lout * life :=
  match i with
  | IOp o => ([], dispatch cfg o l)
  | ISet s =>
      ([Published s],
       push (match e_sys e with Some x => [ISys x] | None => [] end)
            (set_cur s (match s with Aborting => Some (l_cur l) | _ => l_before l end) l))
  | IHandle h => call_handler cfg h e l
  | IAfter h r => ([], after_handler h r l)
  | IEnd s => ([], set_exec s false l)
  | IStartTime => ([StartedTime], l)
  | IStopTime => ([StoppedTime], l)
  | IRequest c => ([], post (TBarrier c) l)
  | IAddSubs => if l_subs_pending l then ([], set_subs (l_subs_pending l) (S (l_subs l)) l) else ([], push [IResume CSubs] l)
  | IFinal =>
      match l_cur l with
      | Error => ([], l)
      | s => match l_promise l with
             | None => ([Notified; Promised s], set_promise (Some s) l)
             | Some _ => ([Notified], l) (* set_value throws future_error, which is caught: LifecycleService.cpp 363-376 *)
             end
      end
  | ISys s => ([], new_system_state cfg s l)
  | INextStep => ([NextStep], l)
  | IResume c => ([Resumed c (l_cur l)], complete c l)
  | IBarrierOff => ([], set_barrier None l)
  | ISubsOff => ([], set_subs false 0 l)
  end.

(** Tasks run by the IO thread: LifecycleService.cpp 70-73, 114-120, 158-173, 180-244, 332 and ParticipantReplies.cpp
    26-57. *)
Definition run_task (cfg : config) (t : task) (l : life) : list lout * life :=
  match t with
  | TInit => ([], push [IOp OInit] l)
  | TStartAuto => ([], push [IOp OServices] l)
  | TStop => ([], push [IOp OStop] l)
  | TPause => match l_cur l with Running => ([], push [IOp OPause] l) | _ => ([Thrown], post TError l) end
  | TContinue => match l_cur l with Paused => ([], push [IOp OContinue; INextStep] l) | _ => ([Thrown], post TError l) end
  | TAbort => ([], push [IOp OAbort] l)
  | TComplete => ([], push [IOp OComplete] l)
  | TError => if l_started l then match l_cur l with Shutdown => ([], l) | _ => ([], push [IOp OError] l) end else ([], l)
  | TBarrier c =>
      match l_barrier l with
      | Some _ => ([Dropped c], l)
      | None => if l_others l then ([], set_barrier (Some c) l) else ([], push [IResume c] l)
      end
  end.

Inductive lev :=
(* calls of the user, any thread *)
| EStart (valid : bool)  (* StartLifecycle; [valid]: CheckForValidConfiguration, LifecycleService.cpp 335-361 *)
| EStop | EPause | EContinue | EReportError | ECompleteAsync
(* the IO thread: it takes up something new only when the previous call has returned *)
| EAbortCommand          (* SystemCommand::AbortSimulation received *)
| EExec (e : env)        (* the top instruction *)
| ERun                   (* the next posted task *)
| ESystemState (s : lstate)
| EReplies               (* the last awaited reply arrived: ParticipantReplies.cpp 81-95 *)
| ESubsDone              (* all subscriptions acknowledged: VAsioConnection.cpp 1945-1950; handlers added meanwhile are left out *)
(* the network *)
| ESubscribe             (* an asynchronous registration started: VAsioConnection.hpp 116 *)
| EOthers (b : bool).

Definition idle (l : life) : bool := match l_stack l with [] => true | _ => false end.
Definition lstep (cfg : config) (ev : lev) (l : life) : list lout * life :=
  match ev with
  | EStart valid =>
      let l := set_flags true (l_aborted l) (l_invoked l) (l_completed l) (l_stop_by_sys l) l in
      if l_aborted l then ([], post TAbort l)
      else if negb valid then ([], post TError l)
      else ([], match c_mode cfg with Autonomous => post TStartAuto (post TInit l) | Coordinated => post TInit l end)
  | EStop => ([], post TStop l)
  | EPause => ([], post TPause l)
  | EContinue => ([], post TContinue l)
  | EReportError => ([], post TError l)
  | ECompleteAsync =>
      if l_invoked l && negb (l_completed l)
      then ([], post TComplete (set_flags (l_started l) (l_aborted l) (l_invoked l) true (l_stop_by_sys l) l))
      else ([], l)
  | EAbortCommand =>
      if l_started l then ([], post TAbort l)
      else ([], set_flags (l_started l) true (l_invoked l) (l_completed l) (l_stop_by_sys l) l)
  | EExec e => match l_stack l with
               | [] => ([], l)
               | i :: r => exec cfg e i (set_stack r l)
               end
  | ERun => if idle l then match l_queue l with
                           | [] => ([], l)
                           | t :: q => run_task cfg t (set_queue q l)
                           end
            else ([], l)
  | ESystemState s => if idle l then ([], push [ISys s] l) else ([], l)
  | EReplies => if idle l then match l_barrier l with
                               | None => ([], l)
                               | Some c => ([], push [IResume c; IBarrierOff] l)
                               end
                else ([], l)
  | ESubsDone => if idle l then ([], push (repeat (IResume CSubs) (l_subs l) ++ [ISubsOff]) l) else ([], l)
  | ESubscribe => ([], set_subs true (l_subs l) l)
  | EOthers b => ([], set_others b l)
  end.
Fixpoint lrun (cfg : config) (evs : list lev) (l : life) : list lout * life :=
  match evs with
  | [] => ([], l)
  | e :: r => let (o, l') := lstep cfg e l in let (o', l'') := lrun cfg r l' in (o ++ o', l'')
  end.
