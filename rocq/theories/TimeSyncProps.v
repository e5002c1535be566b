From Coq Require Import List NArith ZArith Arith Bool Lia.
From Verif Require Import Base SystemStateModel TimeSyncModel TimeSyncSpec TimeSyncProofs TimeSyncSim.
Import ListNotations.
Open Scope Z_scope.

(** * C21: virtual time is gap-free and monotone *)
(** For every sequence of events: each step starts where the one before ended. *)
Theorem C21_gap_free : forall c es, gap_free (execs (touts c es)).
Proof. intros c es. apply (trun_gap_free c es node_init). Qed.
Print Assumptions C21_gap_free.
(** With positive step durations no step has a negative duration: with the theorem above, time does not decrease.
    Missing for the full statement: negative durations, see the next theorem. *)
Theorem C21_monotone_partial : forall c es, Forall positive es ->
  Forall (fun s : Z * Z => 0 <= snd s) (execs (touts c es)) /\ chain (fun a b : Z * Z => fst a <= fst b) (execs (touts c es)).
Proof.
  intros c es P. assert (D : Forall (fun s : Z * Z => 0 <= snd s) (execs (touts c es))) by (apply trun_dur; [exact P|reflexivity]).
  split; [exact D|]. pose proof (C21_gap_free c es) as G. induction (execs (touts c es)) as [|[t d] l IH]; [exact I|].
  apply gap_free_cons in G. inversion D; subst. destruct G as [G1 G2]. specialize (IH H2 G1). destruct l as [|[t' d'] l]; [exact I|].
  split; [cbn in *; lia|exact IH].
Qed.
Print Assumptions C21_monotone_partial.
Definition sync : tcfg := mkTC true false false None.
Definition async : tcfg := mkTC false false false None.
Definition coord : tcfg := mkTC true true false None.
Definition posb (us : list uop) : bool := forallb (fun u => match u with UDuration d => 0 <? d | _ => true end) us.
Lemma posb_ok : forall us, posb us = true -> forall d, In (UDuration d) us -> 0 < d.
Proof. intros us H d I. unfold posb in H. rewrite forallb_forall in H. specialize (H _ I). cbn in H. lia. Qed.
Lemma positive_ok : forall es, forallb (fun e => posb (uops e)) es = true -> Forall positive es.
Proof. intros es H. apply Forall_forall. intros e I. rewrite forallb_forall in H. exact (posb_ok (uops e) (H e I)). Qed.
Definition alone : list tev :=
  [EState Running; EStartTime; EDeferred [UDuration 5]; EDeferred []; EAdd 7 false; ERecv 7 (1000003, 9) []; ERecv 7 (1000012, 2) [UDuration 3]; EDeferred []].
Example C21_ex : Forall positive alone /\ execs (touts sync alone) = [(0, 1000000); (1000000, 5); (1000005, 5); (1000010, 3)].
Proof. split; [apply positive_ok|]; vm_compute; reflexivity. Qed.
(** SetStepDuration rejects only zero: with a negative duration time runs backwards. *)
Theorem C21_negative_duration_refuted : exists c es, ~ chain (fun a b : Z * Z => fst a <= fst b) (execs (touts c es)).
Proof. exists sync, [EUser (UDuration (-5)); EState Running; EStartTime; EDeferred []; EDeferred []]. vm_compute. intuition congruence. Qed.
Print Assumptions C21_negative_duration_refuted.

(** * C22: nobody overtakes *)
(** A step at time t of participant i (its first one at 0, or any later one): every later step of a participant j that
    i knows starts at t or later, and so did the asynchronous step of j that is in progress.
    Missing for the full statement: the first step of a participant that hops on, and executions in which
    RequestNextStep is processed while an asynchronous step is in progress ([undisturbed]); see the next two theorems. *)
Theorem C22_no_overtaking_partial : forall c es1 e es2 i j t d,
  undisturbed c (es1 ++ e :: es2) sim_init ->
  In (i, Exec t d) (fst (sstep c e (safter c es1))) ->
  (t = 0 \/ exists t0 d0, In (i, Exec t0 d0) (souts c es1)) ->
  knows (snd (sstep c e (safter c es1))) i j ->
  (forall t' d', In (j, Exec t' d') (fst (srun c es2 (snd (sstep c e (safter c es1))))) -> t <= t') /\
  (c_block (c j) = false -> forall t', in_progress None (of j (souts c es1)) = Some t' -> t <= t').
Proof. exact no_overtaking. Qed.
Print Assumptions C22_no_overtaking_partial.

(** Deciding [undisturbed] for the examples. *)
Definition calmb (e : tev) (x : node) : bool :=
  match e with
  | EStartTime => negb (t_exec x)
  | EDeferred _ => match t_def x with DRequest :: _ => negb (t_exec x) | _ => true end
  | _ => true
  end.
Fixpoint undisturbedb (c : nat -> tcfg) (es : list sev) (s : sim) : bool :=
  match es with
  | [] => true
  | e :: r => match e with SLocal i e => posb (uops e) && calmb e (s_node s i) | SDeliver _ _ us => posb us end && undisturbedb c r (snd (sstep c e s))
  end.
Lemma undisturbedb_ok : forall c es s, undisturbedb c es s = true -> undisturbed c es s.
Proof.
  intros c. induction es as [|e es IH]; intros s H; [exact I|]. cbn [undisturbedb undisturbed] in *. apply andb_prop in H. destruct H as [H1 H2].
  split; [|apply IH, H2]. destruct e as [i e|i j us]; [|split; [exact (posb_ok us H1)|exact I]].
  apply andb_prop in H1. destruct H1 as [H1 H3]. split; [exact (posb_ok (uops e) H1)|].
  destruct e; cbn in *; auto; [destruct (t_def (s_node s i)) as [|[] l]; auto|]; destruct (t_exec (s_node s i)); auto; discriminate.
Qed.
Lemma spositive_ok : forall es, forallb (fun e => match e with SLocal _ e => posb (uops e) | SDeliver _ _ us => posb us end) es = true -> Forall spositive es.
Proof. intros es H. apply Forall_forall. intros e I. rewrite forallb_forall in H. specialize (H e I). destruct e as [i e|i j us]; [exact (posb_ok (uops e) H)|exact (posb_ok us H)]. Qed.
Definition L := SLocal.
Definition D (i j : nat) : sev := SDeliver i j [].
Definition cfg2 (i : nat) : tcfg := match i with O => async | _ => sync end.
(** Participants 0 (asynchronous) and 1, with steps of 1 and 2. *)
Definition pair_up : list sev :=
  [L 0 (EUser (UDuration 1)); L 1 (EUser (UDuration 2)); L 0 (EAdd 1 false); L 1 (EAdd 0 false); L 0 (EState Running); L 1 (EState Running);
   L 0 EStartTime; L 1 EStartTime].
Definition pair_run : list sev := pair_up ++ [D 0 1; D 1 0; L 0 (EUser UComplete); L 0 (EDeferred []); L 0 (EDeferred []); D 1 0].
Definition pair_rest : list sev := [L 0 (EUser UComplete); L 0 (EDeferred []); L 0 (EDeferred []); L 0 (EDeferred []); L 0 (EDeferred []); D 0 1; D 0 1].
Example C22_ex : undisturbed cfg2 (pair_run ++ D 1 0 :: pair_rest) sim_init /\
  filter (fun x => match snd x with Exec _ _ => true | _ => false end) (souts cfg2 (pair_run ++ D 1 0 :: pair_rest)) =
    [(1%nat, Exec 0 2); (0%nat, Exec 0 1); (0%nat, Exec 1 1); (0%nat, Exec 2 1); (1%nat, Exec 2 2)] /\
  knows (safter cfg2 pair_run) 0 1.
Proof.
  split; [apply undisturbedb_ok; vm_compute; reflexivity|]. split; [vm_compute; reflexivity|]. vm_compute. discriminate.
Qed.

(** A joining participant hops on to the next step of a participant that has run ahead of another one. Participant 0
    (step 1) has announced its step at 3, participant 1 (step 2) has still to execute its step at 2 and does not count
    as running, because its next time point is not larger than its duration. *)
Definition all_sync (i : nat) : tcfg := sync.
Definition hop_before : list sev :=
  pair_up ++ [D 0 1; D 1 0; D 1 0; L 0 (EDeferred []);
   D 0 2; D 0 2; D 0 2; D 0 2; D 1 2; D 1 2;
   L 2 (EState Running); L 2 (EAdd 0 false); L 2 (EAdd 1 false); L 2 EStartTime; L 0 (EAdd 2 false); L 1 (EAdd 2 false); D 1 2].
Definition hop_after : list sev := [D 2 1; D 2 1; D 0 1; D 0 1; D 0 1].
Theorem C22_hop_on_refuted : exists c es1 e es2 i j t d t' d', undisturbed c (es1 ++ e :: es2) sim_init /\
  In (i, Exec t d) (fst (sstep c e (safter c es1))) /\ knows (safter c es1) i j /\
  In (j, Exec t' d') (fst (srun c es2 (snd (sstep c e (safter c es1))))) /\ t' < t.
Proof.
  exists all_sync, hop_before, (D 0 2), hop_after, 2%nat, 1%nat, 3, 1000000, 2, 2.
  split; [apply undisturbedb_ok; vm_compute; reflexivity|]. split; [vm_compute; left; reflexivity|]. split; [vm_compute; discriminate|].
  split; [vm_compute; left; reflexivity|lia].
Qed.
Print Assumptions C22_hop_on_refuted.
(** Pause and Continue in the middle of an asynchronous step announce the next step before this one is completed;
    another participant then executes a step at 2 while the step at 0 is still in progress. *)
Theorem C22_continue_refuted : exists c es e i j t d t', (forall x, In x (es ++ [e]) -> spositive x) /\
  In (i, Exec t d) (fst (sstep c e (safter c es))) /\ t <> 0 /\ (exists t0 d0, In (i, Exec t0 d0) (souts c es)) /\
  knows (safter c es) i j /\ c_block (c j) = false /\ in_progress None (of j (souts c es)) = Some t' /\ t' < t.
Proof.
  exists cfg2, ([L 0 (EUser (UDuration 2)); L 1 (EUser (UDuration 2)); L 0 (EAdd 1 false); L 1 (EAdd 0 false); L 0 (EState Running); L 1 (EState Running);
   L 0 EStartTime; L 1 EStartTime; D 1 0; D 0 1; L 0 (EUser UPause); L 0 (EState Paused); L 0 (EUser UContinue); L 0 (EState Running); L 0 ERequest; L 0 (EDeferred []); L 0 (EDeferred [])]), (D 0 1), 1%nat, 0%nat, 2, 2, 0.
  split. { apply Forall_forall, spositive_ok. vm_compute. reflexivity. }
  split; [vm_compute; left; reflexivity|]. split; [lia|].
  split; [exists 0, 2; vm_compute; intuition|]. split; [vm_compute; discriminate|]. split; [reflexivity|]. split; [vm_compute; reflexivity|lia].
Qed.
Print Assumptions C22_continue_refuted.

(** * C23: no deadlock, no livelock *)
(** In a group of participants that all know each other and whose time was started, without wall clock coupling: there
    is always a message on the way, a posted task, or an asynchronous step that the user has not completed. *)
Theorem C23_never_stuck : forall n c es, (0 < n)%nat -> (forall i, c_wall (c i) = false) -> Forall (plain n) es ->
  (forall i, (i < n)%nat -> In (SLocal i EStartTime) es) ->
  let s := snd (srun c es (group_init n)) in
  (exists i, (i < n)%nat /\ t_exec (s_node s i) = true) \/
  (exists i, (i < n)%nat /\ t_def (s_node s i) <> []) \/
  (exists i j, (i < n)%nat /\ (j < n)%nat /\ i <> j /\ s_chan s i j <> []).
Proof. exact never_stuck. Qed.
Print Assumptions C23_never_stuck.
(** And delivering messages and running posted tasks, in any order, leads to a step after finitely many events. *)
Theorem C23_livelock_free : forall n c es s, busy n c es s -> (backlog n s < length es)%nat ->
  exists i x, In (i, x) (fst (srun c es s)) /\ (x = AbortSim \/ exists t d, x = Exec t d).
Proof.
  intros n c es s B H. destruct (livelock_free n c es s B H) as (i & x & I & S). exists i, x. split; [exact I|].
  destruct x; try contradiction; eauto.
Qed.
Print Assumptions C23_livelock_free.
(** With blocking handlers no step can be left incomplete. *)
Theorem C23_blocking_never_stuck : forall n c es, (0 < n)%nat -> (forall i, c_wall (c i) = false) -> (forall i, c_block (c i) = true) -> Forall (plain n) es ->
  (forall i, (i < n)%nat -> In (SLocal i EStartTime) es) ->
  let s := snd (srun c es (group_init n)) in
  (exists i, (i < n)%nat /\ t_def (s_node s i) <> []) \/
  (exists i j, (i < n)%nat /\ (j < n)%nat /\ i <> j /\ s_chan s i j <> []).
Proof.
  intros n c es LN W B P S s. destruct (never_stuck n c es LN W P S) as [(i & LI & X)|H]; [exfalso|exact H].
  assert (G : forall i, t_exec (s_node (snd (srun c es (group_init n))) i) = false); [|rewrite G in X; discriminate].
  clear - B. intros i. assert (G0 : t_exec (s_node (group_init n) i) = false) by reflexivity. revert G0. generalize (group_init n).
  induction es as [|e es IH]; intros s G; [exact G|]. cbn [srun]. pose proof (sstep_cases c e s i) as SC.
  destruct (sstep c e s) as [o s1]. cbn [fst snd] in *. specialize (IH s1). destruct (srun c es s1) as [o' s2]. cbn [snd] in *. apply IH.
  destruct SC as [[_ ->]|(ev & _ & _ & -> & _)]; [exact G|]. apply blocking_exec; auto.
Qed.
Print Assumptions C23_blocking_never_stuck.
Definition group_start : list sev := [L 0 EStartTime; L 1 EStartTime; L 2 EStartTime].
Definition group_run : list sev := [D 0 1; D 2 1; D 1 0; D 2 0; D 0 2; D 1 2; L 0 (EDeferred []); L 1 (EDeferred []); L 2 (EDeferred []); D 2 1; D 1 0; D 2 0; L 1 (EDeferred [])].
Example C23_ex : Forall (plain 3) (group_start ++ group_run) /\ busy 3 cfg2 group_run (snd (srun cfg2 group_start (group_init 3))) /\
  (backlog 3 (snd (srun cfg2 group_start (group_init 3))) = 12)%nat /\
  map fst (filter (fun x => match snd x with Exec _ _ => true | _ => false end) (fst (srun cfg2 (group_start ++ group_run) (group_init 3)))) = [1%nat; 0%nat; 2%nat].
Proof.
  split; [repeat constructor|]. split; [|split; vm_compute; reflexivity].
  vm_compute. repeat split; try discriminate; try lia.
Qed.

(** * C24: hop-on *)
(** The first step: at 0 if no known participant has a next time point larger than its duration; otherwise (only if
    autonomous) at the smallest next time point of those. *)
Theorem C24_first_step : forall c es e t d, execs (touts c es) = [] -> ~ In AbortSim (touts c es) -> In (Exec t d) (fst (tstep c e (tafter c es))) ->
  (forall p s l, In (p, (s, l)) (t_others (snd (tstep c e (tafter c es)))) -> s <= tmax) ->
  let o := t_others (snd (tstep c e (tafter c es))) in
  (t = 0 /\ forall p s l, In (p, (s, l)) o -> s <= l) \/
  (c_coord c = false /\ (forall p s l, In (p, (s, l)) o -> l < s -> t <= s) /\ exists p l, In (p, (t, l)) o /\ l < t).
Proof. exact first_step. Qed.
Print Assumptions C24_first_step.
(** Every later step is not after the next step of any known participant. Missing for the full statement: the first
    step after a hop-on, see C22_hop_on_refuted. *)
Theorem C24_not_ahead_partial : forall c es e t d, execs (touts c es) <> [] -> In (Exec t d) (fst (tstep c e (tafter c es))) ->
  forall p s l, In (p, (s, l)) (t_others (snd (tstep c e (tafter c es)))) -> t <= s.
Proof. intros c es e t d H I. exact (later_step c e _ t d (trun_hop c es node_init H) I). Qed.
Print Assumptions C24_not_ahead_partial.
(** A coordinated participant that would hop on executes nothing and aborts; an autonomous one never aborts. *)
Theorem C24_coordinated_abort : forall c e x t d, In AbortSim (fst (tstep c e x)) -> ~ In (Exec t d) (fst (tstep c e x)) /\ c_coord c = true.
Proof. exact abort_no_exec. Qed.
Print Assumptions C24_coordinated_abort.
Definition joiner : list tev := [EState Running; EAdd 0 false; EAdd 1 false; EStartTime; EDeferred []; ERecv 0 (30, 5) []].
Example C24_ex : execs (touts sync joiner) = [] /\ ~ In AbortSim (touts sync joiner) /\
  fst (tstep sync (ERecv 1 (40, 20) []) (tafter sync joiner)) = [Exec 30 1000000; Sent (1000030, 1000000)] /\
  execs (touts sync (joiner ++ [ERecv 1 (40, 20) []])) <> [] /\
  fst (trun sync [ERecv 0 (2000000, 5) []; ERecv 1 (2000000, 20) []] (tafter sync (joiner ++ [ERecv 1 (40, 20) []]))) =
    [Exec 1000030 1000000; Sent (2000030, 1000000)] /\
  fst (tstep coord (ERecv 1 (40, 20) []) (tafter coord joiner)) = [AbortSim; Sent (30, 1000000)].
Proof. repeat split; try (vm_compute; reflexivity); vm_compute; intuition discriminate. Qed.
(** Nobody joins late here: three coordinated participants know each other before any of them announces a step. One
    makes its step size smaller in its first step; another one takes this for a running simulation and aborts. *)
Definition all_coord (i : nat) : tcfg := coord.
Theorem C24_false_hop_on_refuted : exists n c es i, (forall i, c_coord (c i) = true) /\ Forall (plain n) es /\ (i < n)%nat /\
  In (i, AbortSim) (fst (srun c es (group_init n))).
Proof.
  exists 3%nat, all_coord, [L 0 EStartTime; L 1 EStartTime; L 2 EStartTime; D 1 0; SDeliver 2 0 [UDuration 5]; D 0 1; D 0 1; D 2 1], 1%nat.
  split; [reflexivity|]. split; [repeat constructor|]. split; [lia|]. vm_compute. intuition.
Qed.
Print Assumptions C24_false_hop_on_refuted.

(** * C25: dynamic steps *)
(** The step lasts at most the configured duration, spans no start or end of a known step of another participant, and
    is shorter than configured only to end at one. *)
Theorem C25_dynamic_step : forall c e x t d, In (Exec t d) (fst (tstep c e x)) ->
  dyn_enabled c (snd (tstep c e x)) = true -> 0 < snd (t_next x) -> 0 <= t -> t + snd (t_next x) <= tmax ->
  0 < d <= snd (t_next x) /\
  (forall p s l, In (p, (s, l)) (t_others (snd (tstep c e x))) -> ~ (t < s < t + d) /\ ~ (t < s + l < t + d)) /\
  (d = snd (t_next x) \/ exists p s l, In (p, (s, l)) (t_others (snd (tstep c e x))) /\ (t + d = s \/ t + d = s + l)).
Proof. exact dynamic_step. Qed.
Print Assumptions C25_dynamic_step.
(** Without dynamic steps the configured duration is used. *)
Theorem C25_static_step : forall c e x t d, In (Exec t d) (fst (tstep c e x)) -> dyn_enabled c (snd (tstep c e x)) = false -> d = snd (t_next x).
Proof.
  intros c e x t d I E. destruct (exec_others c e x t d I) as [_ P]. destruct (fired c e x t d I) as (_ & -> & _).
  unfold dur. replace (dyn_enabled c (pre e x)) with false; [rewrite pre_next; reflexivity|]. unfold dyn_enabled in *. rewrite P in E. congruence.
Qed.
Print Assumptions C25_static_step.
(** Dynamic steps are in use if the configuration says so, and without configuration if a known participant asks for them. *)
Theorem C25_enabled : forall c es, dyn_enabled c (tafter c es) = true <->
  c_dyn c = Some true \/ (c_dyn c = None /\ exists p, advertised p es = true).
Proof.
  intros c es. unfold dyn_enabled. destruct (c_dyn c) as [[]|] eqn:E.
  - intuition.
  - split; [discriminate|]. intros [H|[H _]]; discriminate.
  - split.
    + intros H. right. split; [reflexivity|]. destruct (t_peers (tafter c es)) as [|p l] eqn:T; [discriminate|]. exists p. apply (advertised_peers c). rewrite T. left; reflexivity.
    + intros [H|[_ (p & H)]]; [discriminate|]. apply (advertised_peers c) in H. destruct (t_peers (tafter c es)); [destruct H|reflexivity].
Qed.
Print Assumptions C25_enabled.
Definition dynamic : tcfg := mkTC true false false (Some true).
Example C25_ex : execs (touts dynamic [EUser (UDuration 10); EState Running; EAdd 1 false; EStartTime; ERecv 1 (0, 4) []; ERecv 1 (4, 3) []; ERecv 1 (7, 30) []]) =
  [(0, 4); (4, 3); (7, 10)] /\
  execs (touts sync [EUser (UDuration 10); EState Running; EAdd 1 true; EStartTime; ERecv 1 (0, 4) []]) = [(0, 4)].
Proof. vm_compute. auto. Qed.

(** * C26: one step in progress *)
Theorem C26_one_step : forall c es, c_block c = false -> one_at_a_time false (touts c es).
Proof. intros c es B. apply (trun_prog c es node_init None B). intros t H. discriminate. Qed.
Print Assumptions C26_one_step.
(** Announcements of next steps strictly increase: none is made twice. *)
Theorem C26_announced_once : forall c es, Forall positive es -> Forall sane es -> chain Z.lt (announced (touts c es)).
Proof.
  intros c es P S. pose proof (trun_announced c es node_init (NI_init c) P S) as H. fold (touts c es) in H.
  destruct (announced (touts c es)); [exact I|]. apply H.
Qed.
Print Assumptions C26_announced_once.
(** A step with a blocking handler is followed by the announcement of the next one, unless the handler pauses or stops. *)
Theorem C26_next_announced : forall c es e t d, Forall positive es -> Forall sane es -> sane e -> c_block c = true -> c_wall c = false ->
  ~ In UPause (uops e) -> ~ In UStop (uops e) -> 0 < d ->
  In (Exec t d) (fst (tstep c e (tafter c es))) -> exists d', In (Sent (t + d, d')) (fst (tstep c e (tafter c es))).
Proof. exact step_announced. Qed.
Print Assumptions C26_next_announced.
(** Steps are executed only in state Running, ... *)
Theorem C26_only_running : forall c e x t d, In (Exec t d) (fst (tstep c e x)) -> t_state x = Running.
Proof.
  intros c e x t d I. destruct (t_state x) eqn:E; try reflexivity;
    (exfalso; apply in_execs in I; rewrite (no_fire c e x) in I; [exact I|left; rewrite E; discriminate]).
Qed.
Print Assumptions C26_only_running.
(** ... not after Stop, and not after Pause until Continue. *)
Theorem C26_none_after_stop : forall c es1 es2, execs (fst (trun c es2 (tafter c (es1 ++ [EUser UStop])))) = [].
Proof. intros c es1 es2. apply stopped_run. unfold tafter. rewrite trun_app. reflexivity. Qed.
Print Assumptions C26_none_after_stop.
Theorem C26_none_after_pause : forall c es1 es2, (forall e, In e es2 -> ~ In UContinue (uops e)) ->
  execs (fst (trun c es2 (tafter c (es1 ++ [EUser UPause])))) = [].
Proof. intros c es1 es2 H. apply paused_run; [exact H|]. unfold tafter. rewrite trun_app. reflexivity. Qed.
Print Assumptions C26_none_after_pause.
Definition stepping : list tev := [EState Running; EStartTime; EDeferred []; EUser UComplete; EDeferred []; EDeferred []].
Example C26_ex : touts async stepping = [Sent (0, 1000000); Exec 0 1000000; Completed; Sent (1000000, 1000000); Exec 1000000 1000000] /\
  touts async (stepping ++ [EDeferred []; EAdd 3 false; ERecv 3 (9000000, 1) []]) = touts async stepping ++ [Resent (1000000, 1000000); OthersDone] /\
  touts sync [EState Running; EStartTime; EDeferred [UDuration 3]; EUser UPause; EDeferred []; EUser UContinue; EDeferred []; ERequest; EDeferred []; EDeferred []] =
    [Sent (0, 1000000); Exec 0 1000000; Sent (1000000, 3); Exec 1000000 3; Sent (1000003, 3)].
Proof. vm_compute. auto. Qed.
