From Coq Require Import List NArith Arith Bool Lia.
From Verif Require Import Base SystemStateModel LifecycleModel LifecycleSpec LifecycleProofs.
Import ListNotations.

(** * C18: only documented state transitions *)
(** Missing for the full statement: executions in which the completion of a start-up handshake arrives after the
    participant has left the state that requested it, see the next theorem. *)
Theorem C18_documented_partial : forall cfg evs, fresh (outs cfg evs) -> path documented Invalid (published (outs cfg evs)).
Proof. exact path_documented. Qed.
Print Assumptions C18_documented_partial.

Definition x (n : nat) : list lev := repeat (EExec quiet) n.
Definition freshb (o : list lout) : bool :=
  forallb (fun x => match x with
                    | Resumed CServices s => lstate_eqb s ServicesCreated
                    | Resumed CSubs s => lstate_eqb s CommunicationInitializing
                    | _ => true end) o.
Lemma freshb_ok : forall o, freshb o = true -> fresh o.
Proof.
  intros o H c s I. unfold freshb in H. rewrite forallb_forall in H. specialize (H _ I). cbn in H.
  destruct c; auto; destruct s; try discriminate; reflexivity.
Qed.
Definition coordinated : config := mkCfg Coordinated false (Some false).
Definition autonomous : config := mkCfg Autonomous true None.
Definition full_run : list lev :=
  [EOthers true; EStart true; ERun] ++ x 20 ++ [ESystemState ServicesCreated] ++ x 20 ++ [ERun; EReplies] ++ x 20 ++
  [ESystemState CommunicationInitialized] ++ x 20 ++ [ESystemState ReadyToRun] ++ x 20 ++
  [EPause; ERun] ++ x 20 ++ [EContinue; ERun] ++ x 20 ++ [EStop; ERun] ++ x 20 ++ [ERun; EReplies] ++ x 20 ++ [ERun; EReplies] ++ x 20.
Example C18_ex : fresh (outs coordinated full_run) /\
  published (outs coordinated full_run) =
    [ServicesCreated; CommunicationInitializing; CommunicationInitialized; ReadyToRun; Running; Paused; Running; Stopping; Stopped;
     ShuttingDown; Shutdown] /\
  l_cur (after coordinated full_run) = Shutdown /\ quiescent (after coordinated full_run) /\
  l_promise (after coordinated full_run) = Some Shutdown.
Proof.
  split; [apply freshb_ok; vm_compute; reflexivity|]. unfold quiescent. vm_compute. repeat split.
Qed.

(** An error reported while the participant waits for the replies to its services: the replies arrive, and the
    participant leaves the Error state for CommunicationInitializing. *)
Theorem C18_stale_completion_refuted : exists cfg evs, ~ path documented Invalid (published (outs cfg evs)).
Proof.
  exists coordinated, ([EOthers true; EStart true; ERun] ++ x 2 ++ [ESystemState ServicesCreated] ++ x 3 ++ [ERun; EReportError; ERun] ++ x 2 ++
                 [EReplies] ++ x 14).
  vm_compute. intuition discriminate.
Qed.
Print Assumptions C18_stale_completion_refuted.
Example C18_stale_states : published (outs coordinated ([EOthers true; EStart true; ERun] ++ x 2 ++ [ESystemState ServicesCreated] ++ x 3 ++
    [ERun; EReportError; ERun] ++ x 2 ++ [EReplies] ++ x 14)) = [ServicesCreated; Error; CommunicationInitializing; CommunicationInitialized].
Proof. vm_compute. reflexivity. Qed.

(** * C19: Shutdown is terminal and fulfils the final state future *)
Theorem C19_shutdown_terminal_partial : forall cfg evs a b,
  fresh (outs cfg evs) -> published (outs cfg evs) = a ++ Shutdown :: b -> b = [].
Proof. exact shutdown_last. Qed.
Print Assumptions C19_shutdown_terminal_partial.
(** Once the participant is in Shutdown and nothing remains to be done or awaited, the future of StartLifecycle has
    its value; needs in addition that the request for the last replies was not dropped. *)
Theorem C19_future_set_partial : forall cfg evs, fresh (outs cfg evs) -> ~ In (Dropped CFinal) (outs cfg evs) ->
  l_cur (after cfg evs) = Shutdown -> quiescent (after cfg evs) -> l_promise (after cfg evs) = Some Shutdown.
Proof. exact final_promise. Qed.
Print Assumptions C19_future_set_partial.
Theorem C19_future_value_partial : forall cfg evs, fresh (outs cfg evs) -> ~ In (Dropped CFinal) (outs cfg evs) ->
  forall s, l_promise (after cfg evs) = Some s -> s = Shutdown /\ l_cur (after cfg evs) = Shutdown.
Proof. exact promise_value. Qed.
Print Assumptions C19_future_value_partial.
Theorem C19_future_once : forall cfg evs, length (filter is_promised (outs cfg evs)) <= 1.
Proof.
  intros cfg evs. pose proof (promised_once cfg evs life_init) as P. unfold promises, left_promises in P. cbn in P. unfold outs. lia.
Qed.
Print Assumptions C19_future_once.
(** The simulation is aborted while the participant waits for the replies to its services. Its request for the replies
    to the Shutdown status is dropped, so the future never gets a value, and when the old replies arrive the
    participant starts up again. *)
Definition abort_early : list lev :=
  [EOthers true; EStart true; ERun] ++ x 2 ++ [ESystemState ServicesCreated] ++ x 3 ++ [ERun; EAbortCommand; ERun] ++ x 12 ++ [ERun].
Theorem C19_aborted_startup_refuted : exists cfg evs evs',
  l_cur (after cfg evs) = Shutdown /\ l_stack (after cfg evs) = [] /\ l_queue (after cfg evs) = [] /\
  published (outs cfg (evs ++ evs')) = published (outs cfg evs) ++ [CommunicationInitializing; CommunicationInitialized; ReadyToRun; Running] /\
  quiescent (after cfg (evs ++ evs')) /\ l_promise (after cfg (evs ++ evs')) = None.
Proof.
  exists coordinated, abort_early, ([EReplies] ++ x 14 ++ [ESystemState CommunicationInitialized] ++ x 9 ++ [ESystemState ReadyToRun] ++ x 6).
  unfold quiescent. vm_compute. repeat split.
Qed.
Print Assumptions C19_aborted_startup_refuted.

(** * C20: handlers are called only in their states *)
Theorem C20_handlers : forall cfg evs, calls_ok Invalid Invalid (outs cfg evs).
Proof. intros cfg evs. apply lrun_calls; [apply init_wf|split; [reflexivity|discriminate]]. Qed.
Print Assumptions C20_handlers.
Example C20_ex : exists pre, outs coordinated (full_run ++ []) = pre ++ [Notified; Promised Shutdown] /\
  In (Called HCommReady CommunicationInitialized) pre /\ In (Called HStarting ReadyToRun) pre /\ In (Called HStop Stopping) pre /\
  In (Called HShutdown ShuttingDown) pre.
Proof.
  exists (removelast (removelast (outs coordinated full_run))). split; [vm_compute; reflexivity|]. vm_compute. intuition.
Qed.
Example C20_abort_ex : outs coordinated ([EStart true; ERun] ++ x 2 ++ [EAbortCommand; ERun] ++ x 9) =
  [Published ServicesCreated; Published Aborting; Called HAbort ServicesCreated; Published Shutdown].
Proof. vm_compute. reflexivity. Qed.

(** Every entry into Aborting leads to at most one call of the abort handler. *)
Theorem C20_abort_handler_once : forall cfg evs, abort_calls (outs cfg evs) <= abort_states (outs cfg evs).
Proof. exact abort_once. Qed.
Print Assumptions C20_abort_handler_once.
Example C20_abort_once_ex : let o := outs coordinated ([EStart true; ERun] ++ x 2 ++ [EAbortCommand; ERun] ++ x 9) in
  abort_calls o = 1 /\ abort_states o = 1.
Proof. vm_compute. auto. Qed.

(** * C54: the lifecycle can be started only once *)
(** StartLifecycle is meant to throw when called again (LifecycleService.cpp 105-110), but the condition is never true:
    the second call is accepted and puts a running participant into the Error state. *)
Theorem C54_second_start_refuted : exists cfg evs,
  l_cur (after cfg evs) = Running /\ ~ In Thrown (outs cfg (evs ++ [EStart true; ERun] ++ x 3)) /\
  l_cur (after cfg (evs ++ [EStart true; ERun] ++ x 3)) = Error.
Proof.
  exists autonomous, ([EStart true; ERun] ++ x 2 ++ [ERun] ++ x 3 ++ [ERun] ++ x 30).
  vm_compute. split; [reflexivity|]. split; [|reflexivity]. intuition discriminate.
Qed.
Print Assumptions C54_second_start_refuted.
