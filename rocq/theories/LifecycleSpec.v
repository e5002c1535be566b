From Coq Require Import List NArith Arith Bool.
From Verif Require Import Base SystemStateModel LifecycleModel.
Import ListNotations.

(** The participant state machine of the documentation (docs/simulation/simulation.rst, ParticipantLifecycle_3.png), as
    it is also written down in SystemStateTracker.cpp 23-70 for checking what other participants report: the states
    from which a state may be entered. *)
Definition documented (old new : lstate) : bool :=
  match new with
  | ServicesCreated => one_of [Invalid] old
  | CommunicationInitializing => one_of [ServicesCreated] old
  | CommunicationInitialized => one_of [CommunicationInitializing] old
  | ReadyToRun => one_of [CommunicationInitialized] old
  | Running => one_of [ReadyToRun; Paused] old
  | Paused => one_of [Running] old
  | Stopping => one_of [Running; Paused] old
  | Stopped => one_of [Stopping] old
  | ShuttingDown => one_of [Error; Stopped] old
  | Shutdown => one_of [ShuttingDown; Aborting] old
  | Aborting | Error => true
  | Invalid => false
  end.
(** The statuses published, in order; [s] is the one before. *)
Fixpoint published (o : list lout) : list lstate :=
  match o with
  | Published s :: r => s :: published r
  | _ :: r => published r
  | [] => []
  end.
Fixpoint path (f : lstate -> lstate -> bool) (s : lstate) (l : list lstate) : Prop :=
  match l with
  | [] => True
  | x :: r => f s x = true /\ path f x r
  end.
(** No completion of the start-up handshakes runs after the participant has left the state that asked for it. *)
Definition fresh (o : list lout) : Prop :=
  forall c s, In (Resumed c s) o ->
  match c with CServices => s = ServicesCreated | CSubs => s = CommunicationInitializing | _ => True end.

(** In which state each handler may be called; [s] is the last published state, [p] the one before. *)
Fixpoint calls_ok (p s : lstate) (o : list lout) : Prop :=
  match o with
  | [] => True
  | Published x :: r => calls_ok s x r
  | Called h a :: r =>
      match h with
      | HCommReady => s = CommunicationInitialized
      | HStarting => s = ReadyToRun
      | HStop => s = Stopping
      | HShutdown => s = ShuttingDown
      | HAbort => s = Aborting /\ a = p
      end /\ calls_ok p s r
  | _ :: r => calls_ok p s r
  end.
Definition outs (cfg : config) (evs : list lev) : list lout := fst (lrun cfg evs life_init).
Definition after (cfg : config) (evs : list lev) : life := snd (lrun cfg evs life_init).
(** Nothing left to do for the IO thread and no reply awaited. *)
Definition quiescent (l : life) : Prop := l_stack l = [] /\ l_queue l = [] /\ l_barrier l = None.
