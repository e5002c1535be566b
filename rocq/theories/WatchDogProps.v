From Coq Require Import List ZArith Bool Lia.
From Verif Require Import WatchDogModel WatchDogSpec WatchDogProofs.
Import ListNotations.
Open Scope Z_scope.

(** * C27: watchdog *)
Definition cfg : wcfg := mkWCfg 10 30.
Definition us (n : Z) : Z := n * 1000.
Definition poll (t : Z) : list wev := [Load (us t); Check (us t)].
(** two steps: the first takes 45 ms, the second 8 ms *)
Definition two_steps : list wev :=
  [Start (us 0)] ++ poll 2000 ++ poll 12500 ++ poll 20000 ++ poll 35000 ++ poll 40000 ++ [Reset (us 45000)] ++ poll 46000 ++
  [Start (us 47000)] ++ poll 52000 ++ poll 54000 ++ [Reset (us 55000)] ++ poll 56000.
Fixpoint clockb (from : Z) (evs : list wev) : bool :=
  match evs with [] => true | e :: r => (from <=? time_of e) && clockb (time_of e) r end.
Lemma clockb_ok : forall evs d, clockb d evs = true -> clock d evs.
Proof. induction evs as [|e r IH]; intros d H; cbn in *; [exact I|]. apply andb_prop in H. destruct H. split; [lia|auto]. Qed.

(** The constructor rejects timeouts that are not positive, and only those. *)
Theorem C27_positive_timeouts : forall soft hard,
  make soft hard = None <-> (exists t, (soft = Some t \/ hard = Some t) /\ t <= 0).
Proof.
  intros soft hard. unfold make. split.
  - destruct soft as [s|], hard as [h|]; cbn; try discriminate;
      repeat match goal with |- context [?a <=? 0] => destruct (Z.leb_spec a 0) end; try discriminate; intros _; eauto 6.
  - intros (t & [-> | ->] & L); apply Z.leb_le in L; rewrite L; [reflexivity|]. destruct soft as [s|]; [destruct (s <=? 0)|]; reflexivity.
Qed.
Print Assumptions C27_positive_timeouts.
Example C27_positive_ex : make (Some 10) (Some 30) = Some cfg /\ make (Some 10) (Some 0) = None /\
  make None (Some 5) = Some (mkWCfg default_timeout 5).
Proof. vm_compute. auto. Qed.

(** Each handler is called at most once per step, for all interleavings of steps and polls. *)
Theorem C27_once : forall c evs k, clock 0 evs -> (warns k (fst (run c evs)) <= 1)%nat /\ (errors k (fst (run c evs)) <= 1)%nat.
Proof. exact once. Qed.
Print Assumptions C27_once.
Example C27_once_ex : clock 0 two_steps /\ fst (run cfg two_steps) = [CallWarn 0 12; CallError 0 35].
Proof. split; [apply clockb_ok|]; vm_compute; reflexivity. Qed.

(** A handler is called only when more than the configured time has passed since the start of the step. The soft handler
    is not called any more when the hard timeout has passed as well. *)
Theorem C27_soft_only_late : forall c evs k d, 0 <= w_warn c -> In (CallWarn k d) (fst (run c evs)) ->
  exists s now, started_at k evs = Some s /\ In (Check now) evs /\ d = (now - s) / 1000000 /\
    nanos (w_warn c) + 1000000 <= now - s /\ d <= w_error c.
Proof. exact warn_late. Qed.
Print Assumptions C27_soft_only_late.
Theorem C27_hard_only_late : forall c evs k d, 0 <= w_error c -> In (CallError k d) (fst (run c evs)) ->
  exists s now, started_at k evs = Some s /\ In (Check now) evs /\ d = (now - s) / 1000000 /\ nanos (w_error c) + 1000000 <= now - s.
Proof. exact error_late. Qed.
Print Assumptions C27_hard_only_late.
Example C27_late_ex : started_at 0 two_steps = Some 0 /\ In (CallError 0 35) (fst (run cfg two_steps)) /\ 0 <= w_error cfg.
Proof. vm_compute. intuition discriminate. Qed.

(** A step that completes in time triggers neither. Missing for the full statement: executions in which the watch thread is
    interrupted between reading the start time and reading the clock, see the next theorem. *)
Theorem C27_in_time_partial : forall c evs k s e, 0 <= w_warn c -> 0 <= w_error c -> undisturbed evs -> clock 0 evs ->
  started_at k evs = Some s -> ended_at k evs = Some e ->
  (e - s < nanos (w_warn c) + 1000000 -> warns k (fst (run c evs)) = 0%nat) /\
  (e - s < nanos (w_error c) + 1000000 -> errors k (fst (run c evs)) = 0%nat).
Proof. exact in_time. Qed.
Print Assumptions C27_in_time_partial.
Example C27_in_time_ex : undisturbed two_steps /\ clock 0 two_steps /\ started_at 1 two_steps = Some (us 47000) /\ ended_at 1 two_steps = Some (us 55000) /\
  us 55000 - us 47000 < nanos (w_warn cfg) + 1000000.
Proof. split; [cbn; repeat split|]. split; [apply clockb_ok; vm_compute; reflexivity|]. repeat split. Qed.

(** A step of half a millisecond, with a hard timeout of 30 ms: the watch thread has read the start time, then does not run for
    40 ms, and reports the step that ended long ago. The error handler takes the participant to the Error state. *)
Theorem C27_preempted_refuted : exists evs k s e, clock 0 evs /\ started_at k evs = Some s /\ ended_at k evs = Some e /\
  e - s < nanos 1 /\ nanos 1 < nanos (w_error cfg) /\ errors k (fst (run cfg evs)) = 1%nat.
Proof.
  exists [Start 0; Load 100; Reset (us 500); Check (us 40000)], 0%nat, 0, (us 500).
  split; [apply clockb_ok; vm_compute; reflexivity|]. vm_compute. auto.
Qed.
Print Assumptions C27_preempted_refuted.

(** A late step is reported: if the watch thread has seen that no step was running before the step (Load i), and it polls when
    the hard (soft but not hard) timeout has passed, then by that time the handler has been called, exactly once. *)
Theorem C27_reported : forall c p r i s m1 t u m2, 0 <= w_warn c -> 0 <= w_error c -> undisturbed p ->
  clock 0 (p ++ [Reset r; Load i; Start s] ++ m1 ++ [Load t; Check u] ++ m2) ->
  (forall e, In e m1 -> exists n, e = Load n \/ e = Check n) ->
  let o := fst (run c (p ++ [Reset r; Load i; Start s] ++ m1 ++ [Load t; Check u] ++ m2)) in
  let k := List.length (filter (fun e => match e with Start _ => true | _ => false end) p) in
  (nanos (w_error c) + 1000000 <= u - s -> errors k o = 1%nat) /\
  (nanos (w_warn c) + 1000000 <= u - s -> u - s < nanos (w_error c) + 1000000 -> warns k o = 1%nat).
Proof.
  intros c p r i s m1 t u m2 W E U C Q. apply (reported c p r i s m1 t u m2 W E U C).
  apply forallb_forall. intros e I. destruct (Q e I) as [n [-> | ->]]; reflexivity.
Qed.
Print Assumptions C27_reported.
Example C27_reported_ex : clock 0 ([] ++ [Reset 0; Load 0; Start (us 1000)] ++ poll 3000 ++ poll 14000 ++ [Load (us 33000); Check (us 33000)] ++ [Reset (us 34000)]) /\
  nanos (w_error cfg) + 1000000 <= us 33000 - us 1000.
Proof. split; [apply clockb_ok; vm_compute; reflexivity|]. vm_compute. discriminate. Qed.

(** Without such a poll between two steps the second may go unreported: hard timeout 1 ms, polls every 2 ms (plus 0.1 ms). *)
Theorem C27_missed_refuted : exists c evs k s u, make None (Some 1) = Some c /\ clock 0 evs /\ undisturbed evs /\
  started_at k evs = Some s /\ ended_at k evs = None /\ In (Check u) evs /\ nanos (w_error c) + 1000000 <= u - s /\
  errors k (fst (run c evs)) = 0%nat.
Proof.
  exists (mkWCfg default_timeout 1), ([Start 0] ++ poll 2100 ++ [Reset (us 2150); Start (us 2160)] ++ poll 4200), 1%nat, (us 2160), (us 4200).
  split; [reflexivity|]. split; [apply clockb_ok; vm_compute; reflexivity|]. split; [cbn; auto|]. vm_compute. intuition congruence.
Qed.
Print Assumptions C27_missed_refuted.
