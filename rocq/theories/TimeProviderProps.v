From Coq Require Import List Arith ZArith Bool Lia.
From Verif Require Import TimeProviderModel.
Import ListNotations.

(** * C55: next-step handlers are notified *)

(** Vocabulary on events: the handlers registered after a list of events, and the last configured kind. *)
Fixpoint registered (next : nat) (l : list nat) (evs : list tpev) : list nat :=
  match evs with
  | [] => l
  | AddHandler :: r => registered (S next) (l ++ [next]) r
  | RemoveHandler id :: r => registered next (filter (fun x => negb (Nat.eqb x id)) l) r
  | _ :: r => registered next l r
  end.
Definition configured (evs : list tpev) : option pkind :=
  fold_left (fun c e => match e with Configure k => Some k | _ => c end) evs None.

Lemma tprun_app : forall a b t, tprun (a ++ b) t = (fst (tprun a t) ++ fst (tprun b (snd (tprun a t))), snd (tprun b (snd (tprun a t)))).
Proof.
  induction a as [|e r IH]; intros b t; cbn [app tprun].
  - cbn [fst snd app]. destruct (tprun b t); reflexivity.
  - destruct (tpstep e t) as [o t']. rewrite IH. destruct (tprun r t') as [o1 t1]. cbn [fst snd].
    destruct (tprun b t1) as [o2 t2]. cbn [fst snd]. rewrite app_assoc. reflexivity.
Qed.
Lemma tprun_cons : forall e b t, tprun (e :: b) t = (fst (tpstep e t) ++ fst (tprun b (snd (tpstep e t))), snd (tprun b (snd (tpstep e t)))).
Proof. intros e b t. cbn [tprun]. destruct (tpstep e t) as [o t']. cbn [fst snd]. destruct (tprun b t'); reflexivity. Qed.

Lemma handlers_run : forall evs t, tp_handlers (snd (tprun evs t)) = registered (tp_next t) (tp_handlers t) evs.
Proof.
  induction evs as [|e r IH]; intros t; [reflexivity|]. rewrite tprun_cons. cbn [snd]. rewrite IH.
  destruct e as [k| |id|now dur|now]; cbn [tpstep registered snd tp_next tp_handlers]; try reflexivity.
  - destruct (p_kind (tp_prov t)); reflexivity.
  - destruct (p_timer (tp_prov t)); reflexivity.
Qed.
Lemma prov_run : forall evs t, p_kind (tp_prov t) = NoSync -> p_active (tp_prov t) = false ->
  match configured evs with
  | None => p_active (tp_prov (snd (tprun evs t))) = false /\ p_kind (tp_prov (snd (tprun evs t))) = NoSync
  | Some k => p_active (tp_prov (snd (tprun evs t))) = true /\ p_kind (tp_prov (snd (tprun evs t))) = k
  end.
Proof.
  intros evs t K A. induction evs as [|e r IH] using rev_ind; [cbn; auto|].
  unfold configured in *. rewrite fold_left_app, tprun_app. cbn [fold_left]. rewrite tprun_cons. cbn [snd tprun].
  set (c := fold_left (fun c e => match e with Configure k => Some k | _ => c end) r None) in *. set (x := snd (tprun r t)) in *.
  destruct e as [k| |id|now dur|now]; cbn [tpstep snd tp_prov p_active p_kind]; auto.
  - destruct (p_kind (tp_prov x)) eqn:E; cbn [snd tp_prov p_active p_kind]; auto; rewrite E; exact IH.
  - destruct (p_timer (tp_prov x)); exact IH.
Qed.

(** In a synchronized simulation every step notifies each registered handler exactly once, with time and size of the step,
    whatever happened before. *)
Theorem C55_every_step : forall p now dur, configured p = Some SyncTime ->
  fst (tpstep (SetTime now dur) (snd (tprun p tp0))) = map (fun id => Tick id now dur) (registered 0 [] p).
Proof.
  intros p now dur C. pose proof (prov_run p tp0 eq_refl eq_refl) as P. rewrite C in P. destruct P as [A K].
  cbn [tpstep]. rewrite K. cbn [fst]. unfold notify. rewrite A, handlers_run. reflexivity.
Qed.
Print Assumptions C55_every_step.
Definition history : list tpev := [Configure NoSync; AddHandler; AddHandler; AddHandler; TimerFires 5; Configure SyncTime; RemoveHandler 1].
Example C55_every_step_ex : configured history = Some SyncTime /\ registered 0 [] history = [0; 2] /\
  fst (tpstep (SetTime 20 10) (snd (tprun history tp0))) = [Tick 0 20 10; Tick 2 20 10].
Proof. vm_compute. auto. Qed.

(** Handler ids are not reused, and a handler is never notified after its removal or before its registration. *)
Lemma registered_bound : forall evs n l id, (forall x, In x l -> x < n) -> In id (registered n l evs) -> id < n + List.length evs.
Proof.
  induction evs as [|e r IH]; intros n l id B I; cbn [registered List.length] in *; [specialize (B id I); lia|].
  destruct e as [k| |x|now dur|now]; try (apply IH in I; [lia|exact B]).
  - apply IH in I; [lia|]. intros y Y. apply in_app_or in Y. destruct Y as [Y|[<-|[]]]; [specialize (B y Y)|]; lia.
  - apply IH in I; [lia|]. intros y Y. apply filter_In in Y. apply B, Y.
Qed.
Lemma gone_forever : forall evs n l id, id < n -> ~ In id l -> ~ In id (registered n l evs).
Proof.
  induction evs as [|e r IH]; intros n l id L N; [exact N|]. cbn [registered].
  destruct e as [k| |x|now dur|now]; try (apply IH; assumption).
  - apply IH; [lia|]. intros I. apply in_app_or in I. destruct I as [I|[<-|[]]]; [auto|lia].
  - apply IH; [exact L|]. intros I. apply filter_In in I. tauto.
Qed.
Lemma tick_registered : forall e t id now dur, In (Tick id now dur) (fst (tpstep e t)) -> In id (tp_handlers t).
Proof.
  intros e t id now dur I. destruct e as [k| |x|n d|n]; cbn [tpstep fst] in I; try destruct I.
  - destruct (p_kind (tp_prov t)); cbn [fst] in I; try destruct I. unfold notify in I. destruct (p_active (tp_prov t)); [|destruct I].
    apply in_map_iff in I. destruct I as (y & E & I). congruence.
  - destruct (p_timer (tp_prov t)); [|destruct I]. cbn [fst] in I. unfold notify in I. destruct (p_active (tp_prov t)); [|destruct I].
    apply in_map_iff in I. destruct I as (y & E & I). congruence.
Qed.
Theorem C55_not_after_removal : forall p id q now dur, In id (registered 0 [] p) ->
  ~ In (Tick id now dur) (fst (tprun q (snd (tprun (p ++ [RemoveHandler id]) tp0)))).
Proof.
  intros p id q now dur R I. rewrite tprun_app in I. cbn [snd tprun tpstep] in I.
  assert (L : id < tp_next (snd (tprun p tp0))).
  { assert (G : forall evs t, (forall x, In x (tp_handlers t) -> x < tp_next t) ->
      forall x, In x (tp_handlers (snd (tprun evs t))) -> x < tp_next (snd (tprun evs t))).
    { induction evs as [|e r IH]; intros t B; [exact B|]. rewrite tprun_cons. cbn [snd]. apply IH. intros y Y.
      destruct e as [k| |z|n d|n]; cbn [tpstep snd tp_handlers tp_next] in *; auto.
      - apply in_app_or in Y. destruct Y as [Y|[<-|[]]]; [specialize (B y Y)|]; lia.
      - apply filter_In in Y. apply B, Y.
      - destruct (p_kind (tp_prov t)); cbn [snd tp_handlers tp_next] in *; auto.
      - destruct (p_timer (tp_prov t)); cbn [snd] in *; auto. }
    apply (G p tp0); [cbn; tauto|]. rewrite handlers_run. exact R. }
  set (t := mkTP (filter (fun x => negb (Nat.eqb x id)) (tp_handlers (snd (tprun p tp0)))) (tp_next (snd (tprun p tp0))) (tp_prov (snd (tprun p tp0)))) in *.
  assert (N : ~ In id (tp_handlers t)). { cbn. intros X. apply filter_In in X. rewrite Nat.eqb_refl in X. destruct X. discriminate. }
  assert (L' : id < tp_next t) by exact L. clearbody t. clear - I N L'.
  revert t N L' I. induction q as [|e r IH]; intros t N L I; [destruct I|]. rewrite tprun_cons in I. cbn [fst] in I. apply in_app_or in I.
  destruct I as [I|I]; [apply tick_registered in I; auto|]. revert I. apply IH.
  - pose proof (handlers_run [e] t) as H. rewrite tprun_cons in H. cbn [snd tprun] in H. rewrite H. apply gone_forever; assumption.
  - destruct e as [k| |x|n d|n]; cbn [tpstep snd tp_next]; try lia.
    + destruct (p_kind (tp_prov t)); cbn [snd tp_next]; lia.
    + destruct (p_timer (tp_prov t)); cbn [snd]; lia.
Qed.
Print Assumptions C55_not_after_removal.
Example C55_removal_ex : In 1 (registered 0 [] [Configure WallClock; AddHandler; AddHandler]) /\
  fst (tprun [TimerFires 7] (snd (tprun ([Configure WallClock; AddHandler; AddHandler] ++ [RemoveHandler 1]) tp0))) = [Tick 0 7 1000000].
Proof. vm_compute. auto. Qed.

(** Without synchronization a handler that was registered after the last configuration is notified in every period. *)
Theorem C55_every_period_partial : forall p k q now, k <> SyncTime -> In AddHandler q ->
  (forall k', ~ In (Configure k') q) ->
  fst (tpstep (TimerFires now) (snd (tprun (p ++ Configure k :: q) tp0))) =
  map (fun id => Tick id now (period k)) (registered 0 [] (p ++ Configure k :: q)).
Proof.
  intros p k q now NS A NC.
  assert (C : configured (p ++ Configure k :: q) = Some k).
  { unfold configured. rewrite fold_left_app. cbn [fold_left]. clear A. induction q as [|e r IH] using rev_ind; [reflexivity|].
    rewrite fold_left_app. rewrite IH; [|intros k' I; apply (NC k'), in_or_app; auto]. destruct e; try reflexivity. elim (NC k0). apply in_or_app. cbn. auto. }
  pose proof (prov_run (p ++ Configure k :: q) tp0 eq_refl eq_refl) as P. rewrite C in P. destruct P as [AC K].
  assert (T : p_timer (tp_prov (snd (tprun (p ++ Configure k :: q) tp0))) = true).
  { rewrite tprun_app, tprun_cons. cbn [tpstep snd]. set (t := mkTP _ _ _). assert (KT : p_kind (tp_prov t) = k) by reflexivity.
    clearbody t. clear C AC K. revert t KT. induction q as [|e r IH]; intros t KT; [destruct A|].
    assert (KEEP : forall r t, p_kind (tp_prov t) = k -> (forall k', ~ In (Configure k') r) -> p_timer (tp_prov t) = true -> p_timer (tp_prov (snd (tprun r t))) = true).
    { clear - NS. induction r as [|e r IH]; intros t KT NC T; [exact T|]. rewrite tprun_cons. cbn [snd].
      assert (NR : forall k', ~ In (Configure k') r) by (intros k' I; apply (NC k'); right; exact I).
      destruct e as [k'| |x|n d|n]; cbn [tpstep snd].
      - elim (NC k'). left. reflexivity.
      - apply IH; auto. cbn. rewrite KT. destruct k; auto.
      - apply IH; auto.
      - rewrite KT. destruct k; try congruence; cbn [snd]; apply IH; auto.
      - rewrite T. cbn [snd]. apply IH; auto. }
    rewrite tprun_cons. cbn [snd].
    assert (NR : forall k', ~ In (Configure k') r) by (intros k' I; apply (NC k'); right; exact I).
    destruct A as [->|A].
    - apply KEEP; auto. cbn. rewrite KT. destruct k; auto.
    - apply IH; auto. destruct e as [k'| |x|n d|n]; cbn [tpstep snd tp_prov p_kind]; auto.
      + elim (NC k'). left. reflexivity.
      + rewrite KT. destruct k; try congruence; cbn [snd]; exact KT.
      + destruct (p_timer (tp_prov t)); exact KT. }
  cbn [tpstep]. rewrite T, K. cbn [fst]. unfold notify. rewrite AC, handlers_run. reflexivity.
Qed.
Print Assumptions C55_every_period_partial.
Example C55_period_ex : fst (tpstep (TimerFires 9) (snd (tprun ([AddHandler] ++ Configure NoSync :: [AddHandler]) tp0))) = [Tick 0 9 100000; Tick 1 9 100000].
Proof. vm_compute. reflexivity. Qed.

(** The full claim fails: handlers that were registered before the provider is configured for no synchronization (which
    happens in StartLifecycle, LifecycleService.cpp:137) are not notified any more, however long the simulation runs,
    because the timer of the new provider is only started when another handler is added. *)
Theorem C55_reconfigured_refuted : exists p, registered 0 [] p = [0] /\ configured p = Some NoSync /\
  fst (tpstep (TimerFires 1) (snd (tprun p tp0))) = [Tick 0 1 100000] /\
  forall q, (forall e, In e q -> exists now, e = TimerFires now) -> fst (tprun q (snd (tprun (p ++ [Configure NoSync]) tp0))) = [].
Proof.
  exists [Configure NoSync; AddHandler]. split; [reflexivity|]. split; [reflexivity|]. split; [reflexivity|].
  intros q. set (t := snd (tprun ([Configure NoSync; AddHandler] ++ [Configure NoSync]) tp0)). assert (T : p_timer (tp_prov t) = false) by reflexivity.
  clearbody t. induction q as [|e r IH]; intros H; [reflexivity|]. destruct (H e (or_introl eq_refl)) as [now ->]. cbn [tprun tpstep]. rewrite T.
  specialize (IH (fun e I => H e (or_intror I))). destruct (tprun r t) as [o t']. cbn in *. exact IH.
Qed.
Print Assumptions C55_reconfigured_refuted.

(** Nor are handlers of a participant that never configures its time provider, that is one without lifecycle service: the
    provider installed by the constructor is not active. *)
Theorem C55_unconfigured_refuted : forall evs, configured evs = None -> fst (tprun evs tp0) = [].
Proof.
  intros evs. induction evs as [|e r IH] using rev_ind; intros C; [reflexivity|].
  unfold configured in C. rewrite fold_left_app in C. cbn [fold_left] in C.
  assert (C' : configured r = None) by (unfold configured; destruct e; [discriminate|exact C..]).
  rewrite tprun_app. cbn [fst]. rewrite (IH C'). rewrite tprun_cons. cbn [fst tprun app]. rewrite app_nil_r.
  pose proof (prov_run r tp0 eq_refl eq_refl) as P. rewrite C' in P. destruct P as [A K].
  destruct e as [k| |x|n d|n]; cbn [tpstep fst]; try reflexivity.
  - rewrite K. reflexivity.
  - destruct (p_timer _); [|reflexivity]. cbn [fst]. unfold notify. rewrite A. reflexivity.
Qed.
Print Assumptions C55_unconfigured_refuted.
Example C55_unconfigured_ex : configured [AddHandler; TimerFires 1; TimerFires 2] = None /\ registered 0 [] [AddHandler; TimerFires 1; TimerFires 2] = [0].
Proof. vm_compute. auto. Qed.

(** Adding a handler can block forever: the mutex is held while the timer thread, which is waiting for that mutex, is joined. *)
Theorem C55_deadlock_refuted : exists s, treach s /\ th_user s = UJoin /\ forall s', ~ tstep s s'.
Proof.
  exists (mkTh TFired UJoin false). split; [|split; [reflexivity|]].
  - eapply treach1; [|apply AddAgain; discriminate]. eapply treach1; [|apply PeriodPassed]. eapply treach1; [|apply AddFirst]. apply treach0.
  - intros s' T. inversion T.
Qed.
Print Assumptions C55_deadlock_refuted.
(** That is the only way to get stuck: in every other reachable state some thread can go on, and from every state in which
    the timer has not fired the user thread gets through. *)
Theorem C55_only_deadlock : forall s, treach s -> (exists s', tstep s s') \/ (th_user s = UJoin /\ th_timer s = TFired).
Proof.
  assert (NT : forall s, treach s -> th_user s = UJoin -> th_timer s <> TNone /\ th_running s = false).
  { induction 1 as [|a b R IH T]; [discriminate|]. destruct T; cbn in *; intros E; try discriminate;
      try (destruct (IH E); split; [|assumption]; try discriminate; destruct r; discriminate); auto. }
  intros [t u r] R. specialize (NT _ R). cbn in *. destruct u.
  - left. destruct t; eexists; [apply AddFirst|apply PeriodPassed|apply TickLock|apply TickDone|apply AddAgain; discriminate].
  - destruct (NT eq_refl) as [N _]. destruct t; [congruence|left|..].
    + eexists. apply PeriodPassed.
    + right. auto.
    + left. eexists. apply TickDone.
    + left. eexists. apply Joined.
Qed.
Print Assumptions C55_only_deadlock.
Example C55_threads_ex : treach (mkTh TTick UIdle true).
Proof. eapply treach1; [|apply TickLock]. eapply treach1; [|apply PeriodPassed]. eapply treach1; [|apply AddFirst]. apply treach0. Qed.
