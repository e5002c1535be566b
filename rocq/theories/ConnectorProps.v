(** C87: establishing a connection *)
From Coq Require Import List Arith Bool Lia.
From Verif Require Import ConnectorModel ConnectorProofs.
Import ListNotations.

(** the listener is called at most once *)
Theorem C87_at_most_one_callback : forall ops, callbacks (k_log (run ops init)) <= 1.
Proof. intro ops. exact (i_one _ (reach ops)). Qed.
Print Assumptions C87_at_most_one_callback.
(** it is not called once the connector is destroyed *)
Theorem C87_no_callback_after_destruction : forall ops1 ops2, exists l, k_log (run (ops1 ++ Destroy :: ops2) init) = k_log (run ops1 init) ++ l /\ callbacks l = 0.
Proof.
  intros. rewrite run_app. change (run (Destroy :: ops2) (run ops1 init)) with (run ops2 (step (run ops1 init) Destroy)). set (x := run ops1 init).
  assert (k_parent (step x Destroy) = false /\ k_log (step x Destroy) = k_log x) as [P <-].
  { cbn. destruct (k_parent x) eqn:E; auto. }
  now apply dead_run.
Qed.
Print Assumptions C87_no_callback_after_destruction.
(** it is called exactly once after AsyncConnect, when the operation is complete and its handler was called and threw nothing *)
Theorem C87_answered : forall ops t f, In (Connect t f) ops -> ~ In Destroy ops -> ~ In Drop ops -> k_conn (run ops init) = ONone -> ~ In NoEndpoint (k_log (run ops init)) -> callbacks (k_log (run ops init)) = 1.
Proof.
  intros ops t f I D R C N. apply in_split in I as (a & b & ->).
  destruct (keep_alive (a ++ Connect t f :: b) init D R eq_refl eq_refl) as [P X].
  refine (answered_run _ init inv_init _ _ C P X N); [intro Z; now destruct Z|]. rewrite run_app. change (run (Connect t f :: b) (run a init)) with (run b (step (run a init) (Connect t f))). apply phase_run, connect_phase.
  apply (keep_alive a init); auto; intro H; [apply D|apply R]; apply in_or_app; auto.
Qed.
Print Assumptions C87_answered.
Example C87_answered_ex :
  k_log (run [SetListener; Connect true false; Net true; HConnect; HTimer] init) = [Success 0] /\ k_log (run [SetListener; Connect true false; Expire; HTimer; HConnect] init) = [Failure]
  /\ k_log (run [SetListener; Connect true true] init) = [Failure] /\ k_log (run [SetListener; Connect false false; Shutdown; HConnect] init) = [Failure].
Proof. vm_compute. auto. Qed.
(** with a timeout the operation always ends, whatever the network does: when the timer expired and the handlers were called *)
Theorem C87_timeout : forall pre post, (forall t f, ~ In (Connect t f) pre) -> ~ In Destroy pre -> k_conn (run (pre ++ Connect true false :: post ++ [Expire; HTimer; HConnect]) init) = ONone.
Proof.
  intros pre post N D. rewrite run_app. destruct (idle_run pre init eq_refl eq_refl N D inv_init) as [P A]. pose proof (reach pre) as I. set (x := run pre init) in *.
  change (run (Connect true false :: post ++ [Expire; HTimer; HConnect]) x) with (run (post ++ [Expire; HTimer; HConnect]) (step x (Connect true false))). rewrite run_app.
  assert (J : inv (step x (Connect true false))) by now apply inv_step.
  assert (T : timed (step x (Connect true false))).
  { split; [now apply connect_phase|]. cbn. rewrite A. unfold connect. rewrite P. cbn. auto. }
  apply timed_ends; [now apply inv_run|now apply timed_run].
Qed.
Print Assumptions C87_timeout.
Example C87_timeout_ex : k_conn (run [SetListener; Connect true false] init) = OWait /\ k_conn (run ([SetListener] ++ Connect true false :: [] ++ [Expire; HTimer; HConnect]) init) = ONone.
Proof. vm_compute. auto. Qed.
(** without, it does not end if the network does not answer *)
Theorem C87_without_timeout : forall ops, (forall o, In o ops -> o = Expire \/ o = HTimer \/ o = HConnect \/ o = SetListener) -> k_conn (run (Connect false false :: ops) init) = OWait.
Proof.
  intros ops H. assert (G : forall ops x, (forall o, In o ops -> o = Expire \/ o = HTimer \/ o = HConnect \/ o = SetListener) -> k_conn x = OWait -> k_timer x = ONone -> k_conn (run ops x) = OWait).
  { clear. induction ops as [|o ops IH]; intros x H C T; [exact C|]. apply IH; [intros p I; apply H; now right|..].
    - destruct (H o (or_introl eq_refl)) as [->|[->|[->| ->]]]; cbn; rewrite ?T, ?C; auto. destruct (k_parent x); auto.
    - destruct (H o (or_introl eq_refl)) as [->|[->|[->| ->]]]; cbn; rewrite ?T, ?C; auto. destruct (k_parent x); auto. }
  exact (G ops (step init (Connect false false)) H eq_refl eq_refl).
Qed.
Print Assumptions C87_without_timeout.
(** a second AsyncConnect is refused and changes nothing *)
Theorem C87_once : forall ops1 ops2 t f t' f', ~ In Destroy (ops1 ++ Connect t f :: ops2) ->
  let x := run (ops1 ++ Connect t f :: ops2) init in step x (Connect t' f') = logged Refused x.
Proof.
  intros ops1 ops2 t f t' f' D x.
  assert (K : forall ops x, ~ In Destroy ops -> k_parent x = true -> k_parent (run ops x) = true).
  { clear. induction ops as [|o ops IH]; intros x D P; [exact P|]. apply IH; [intro H; apply D; now right|]. destruct x as [p l ph s n c co ti cx lg]. cbn in P. subst. destruct o; cbn; auto; try (exfalso; apply D; now left).
    + unfold connect, call, logged. cbn. destruct ph; cbn; auto. destruct fails; cbn; auto.
    + destruct co; auto.
    + destruct ti; auto.
    + destruct co as [| |[]]; auto; unfold on_connect, call, logged; cbn; destruct ph; cbn; auto. destruct cx; cbn; auto. destruct (closed _ _); cbn; auto.
    + destruct ti; auto. }
  assert (k_phase x <> Idle).
  { unfold x. rewrite run_app. change (run (Connect t f :: ops2) (run ops1 init)) with (run ops2 (step (run ops1 init) (Connect t f))). apply phase_run, connect_phase, K; [|reflexivity]. intro H. apply D, in_or_app. auto. }
  assert (k_parent x = true) by (apply K; [exact D|reflexivity]).
  cbn. rewrite H0. unfold connect. destruct (k_phase x); [congruence|reflexivity..].
Qed.
Print Assumptions C87_once.
(** the handlers find the state they expect *)
Theorem C87_handlers_state : forall ops, ~ In BadState (k_log (run ops init)).
Proof. intro ops. exact (i_bad _ (reach ops)). Qed.
Print Assumptions C87_handlers_state.
(** a stream given to the listener is open, and the connector never closes it, neither in Shutdown nor in its destructor *)
Theorem C87_stream_open : forall ops s, In (Success s) (k_log (run ops init)) -> ~ In s (k_closed (run ops init)).
Proof. intros ops s I. now apply (i_succ _ (reach ops)) in I. Qed.
Print Assumptions C87_stream_open.
Example C87_stream_open_ex : let x := run [SetListener; Connect true false; Net true; HConnect; Shutdown; Destroy; HTimer] init in In (Success 0) (k_log x) /\ In (k_sock x) (k_closed x).
Proof. vm_compute. auto. Qed.
(** a listener that was set is never missed *)
Theorem C87_listener : forall ops, ~ In NoListener (k_log (run (SetListener :: ops) init)).
Proof. intro ops. exact (listener_run ops (step init SetListener) eq_refl (fun H => H)). Qed.
Print Assumptions C87_listener.
(** the handlers throw nothing if neither Shutdown nor the destructor is called *)
Theorem C87_no_exception : forall ops, ~ In Shutdown ops -> ~ In Destroy ops -> ~ In NoEndpoint (k_log (run ops init)).
Proof. intros ops A B. apply (quiet_run ops init inv_init A B). split; auto. Qed.
Print Assumptions C87_no_exception.
(** but they do if it is called between the completion of the operation and its handler: an exception leaves the thread of the io_context *)
Theorem C87_no_exception_refuted : ~ (forall ops, ~ In NoEndpoint (k_log (run (SetListener :: ops) init))).
Proof. intro H. apply (H [Connect true false; Net true; Shutdown; HConnect]). vm_compute. auto. Qed.
Print Assumptions C87_no_exception_refuted.
Theorem C87_no_exception_destroyed_refuted : ~ (forall ops, ~ In Shutdown ops -> ~ In NoEndpoint (k_log (run (SetListener :: ops) init))).
Proof. intro H. apply (H [Connect true false; Net true; Destroy; HConnect]); [cbn; intuition discriminate|]. vm_compute. auto. Qed.
Print Assumptions C87_no_exception_destroyed_refuted.
(** then the listener is not called at all *)
Theorem C87_answered_refuted : ~ (forall ops t f, In (Connect t f) ops -> ~ In Destroy ops -> ~ In Drop ops -> k_conn (run (SetListener :: ops) init) = ONone -> callbacks (k_log (run (SetListener :: ops) init)) = 1).
Proof. intro H. specialize (H [Connect true false; Net true; Shutdown; HConnect] true false). vm_compute in H. discriminate H; intuition discriminate. Qed.
Print Assumptions C87_answered_refuted.
(** a connector that was shut down before may still connect *)
Theorem C87_shutdown_final_refuted : ~ (forall ops1 ops2 s, ~ In (Success s) (k_log (run (ops1 ++ Shutdown :: ops2) init)) \/ In (Success s) (k_log (run ops1 init))).
Proof. intro H. destruct (H [SetListener] [Connect true false; Net true; HConnect] 1) as [X|X]; [apply X; vm_compute; auto|vm_compute in X; contradiction]. Qed.
Print Assumptions C87_shutdown_final_refuted.
