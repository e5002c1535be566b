From Coq Require Import List NArith ZArith Arith Bool Lia.
From Verif Require Import Base SystemStateModel LifecycleModel LifecycleSpec.
Import ListNotations.

Definition edge (a b : lstate) : bool := documented a b && negb (lstate_eqb a Shutdown).
Definition home (h : handler) : lstate :=
  match h with
  | HCommReady => CommunicationInitialized | HStarting => ReadyToRun | HStop => Stopping | HShutdown => ShuttingDown | HAbort => Aborting
  end.
Definition hx (h : handler) (x : lstate -> bool) : Prop :=
  match h with HCommReady => x CommunicationInitialized = true | HStarting => x ReadyToRun = true | _ => True end.
(** Instructions that may lie anywhere in the stack. *)
Definition safe (i : instr) : bool :=
  match i with ISet _ | IHandle _ | IAfter _ _ | IStopTime => false | _ => true end.
Definition follow (n : lstate) (k : list instr) : Prop :=
  match n with
  | Shutdown => exists k', k = IOp OShutdown :: k'
  | Aborting => exists k', k = IOp OResolve :: k'
  | _ => True
  end.
Inductive wf_top (strict : bool) (c : lstate) (x : lstate -> bool) : list instr -> Prop :=
| wt_rest k : forallb safe k = true -> wf_top strict c x k
| wt_set n k : (strict = true -> edge c n = true) -> follow n k -> forallb safe k = true ->
    wf_top strict c x (ISet n :: k)
| wt_stop n k : (strict = true -> edge c n = true) -> follow n k -> forallb safe k = true ->
    wf_top strict c x (IStopTime :: ISet n :: k)
| wt_handle h k : c = home h -> hx h x -> forallb safe k = true -> wf_top strict c x (IHandle h :: k)
| wt_after h r k : c = home h -> hx h x -> forallb safe k = true -> wf_top strict c x (IAfter h r :: k)
| wt_abort h r k : c = home h -> hx h x -> forallb safe k = true -> wf_top strict c x (IOp OAbort :: IAfter h r :: k).
Definition WF (strict : bool) (l : life) : Prop := wf_top strict (l_cur l) (l_exec l) (l_stack l).
Definition fresh_out (o : list lout) : Prop := fresh o.

Ltac wf_tac :=
  first [ apply wt_rest; cbn; assumption
        | apply wt_set; [intros _; reflexivity|cbn [follow]; first [exact I|eexists; reflexivity]|cbn; assumption]
        | apply wt_stop; [intros _; reflexivity|cbn [follow]; first [exact I|eexists; reflexivity]|cbn; assumption]
        | apply wt_handle; [reflexivity|cbn; first [reflexivity|exact I]|cbn; assumption] ].

Lemma dispatch_wf : forall strict cfg o l, forallb safe (l_stack l) = true -> WF strict (dispatch cfg o l).
Proof.
  intros strict cfg o l S. unfold WF, dispatch.
  destruct (l_cur l) eqn:C; destruct o;
    cbn [invalid_state services_created comm_initializing comm_initialized ready_to_run running paused stopping stopped
         shutting_down shut_down aborting error default_op invalid process_abort set_and_forward push set_stack set_abort set_exec
         l_cur l_exec l_stack app];
    repeat match goal with |- context [if ?b then _ else _] => destruct b | |- context [match c_mode cfg with _ => _ end] => destruct (c_mode cfg) end;
    cbn [invalid_state services_created comm_initializing comm_initialized ready_to_run running paused stopping stopped
         shutting_down shut_down aborting error default_op invalid process_abort set_and_forward push set_stack set_abort set_exec
         l_cur l_exec l_stack app];
    rewrite ?C; wf_tac.
Qed.

Lemma new_sys_wf : forall strict cfg s l, forallb safe (l_stack l) = true -> WF strict (new_system_state cfg s l).
Proof.
  intros strict cfg s l S. unfold WF, new_system_state. destruct (c_mode cfg); [|apply wt_rest; assumption].
  destruct s; try (destruct (l_stop_by_sys l)); try (destruct (l_cur l) eqn:C); apply wt_rest; cbn; assumption.
Qed.
Lemma after_handler_wf : forall strict h r l, l_cur l = home h -> forallb safe (l_stack l) = true -> WF strict (after_handler h r l).
Proof.
  intros strict h r l C S. unfold WF, after_handler.
  destruct h, r;
    cbn [process_abort set_and_forward push set_stack set_abort set_exec l_cur l_exec l_stack l_abort app home] in *;
    repeat match goal with |- context [if ?b then _ else _] => destruct b end;
    cbn [process_abort set_and_forward push set_stack set_abort set_exec l_cur l_exec l_stack l_abort app home] in *;
    rewrite ?C; wf_tac.
Qed.
Lemma complete_wf : forall strict c l, forallb safe (l_stack l) = true ->
  (strict = true -> match c with CServices => l_cur l = ServicesCreated | CSubs => l_cur l = CommunicationInitializing | _ => True end) ->
  WF strict (complete c l).
Proof.
  intros strict c l S F. unfold WF, complete. destruct c; cbn [set_and_forward push set_stack l_cur l_exec l_stack app];
    try (apply wt_rest; cbn; assumption).
  - apply wt_set; [intros E; rewrite (F E); reflexivity|exact I|cbn; assumption].
  - apply wt_set; [intros E; rewrite (F E); reflexivity|exact I|cbn; assumption].
Qed.
Lemma call_handler_wf : forall strict cfg h e l, l_cur l = home h -> hx h (l_exec l) -> forallb safe (l_stack l) = true ->
  WF strict (snd (call_handler cfg h e l)).
Proof.
  intros strict cfg h e l C X S. unfold call_handler.
  assert (INV : forall r l', l_cur l' = home h -> hx h (l_exec l') -> forallb safe (l_stack l') = true ->
    WF strict (push ((if e_abort e then [IOp OAbort] else []) ++ [IAfter h r]) l')).
  { intros r l' C' X' S'. unfold WF. destruct (e_abort e); cbn [push set_stack l_cur l_exec l_stack app].
    - apply wt_abort; assumption.
    - apply wt_after; assumption. }
  destruct h; cbn [snd]; try (apply INV; assumption).
  - destruct (c_ready cfg) as [[]|]; cbn [snd].
    + destruct (l_invoked l); cbn [snd].
      * unfold WF. cbn. apply wt_after; assumption.
      * apply INV; cbn; assumption.
    + apply INV; assumption.
    + unfold WF; cbn. apply wt_after; assumption.
  - destruct (l_before l); cbn [snd]; [apply INV; assumption|]. apply wt_rest. assumption.
Qed.
Lemma abort_in_handler : forall cfg h r k l, l_cur l = home h -> hx h (l_exec l) -> l_stack l = IAfter h r :: k ->
  l_stack (dispatch cfg OAbort l) = IAfter h r :: k /\ l_cur (dispatch cfg OAbort l) = home h /\ l_exec (dispatch cfg OAbort l) = l_exec l.
Proof.
  intros cfg h r k l C X S. unfold dispatch. rewrite C.
  destruct h; cbn [home comm_initialized ready_to_run stopping shutting_down aborting hx] in *; rewrite ?X; cbn; rewrite ?S, ?C; auto.
Qed.

Lemma exec_wf : forall strict cfg e i l, wf_top strict (l_cur l) (l_exec l) (i :: l_stack l) ->
  (strict = true -> fresh (fst (exec cfg e i l))) -> WF strict (snd (exec cfg e i l)).
Proof.
  intros strict cfg e i l W F. inversion W as [k K|n k E1 E2 K|n k E1 E2 K|h k C X K|h r k C X K|h r k C X K]; subst.
  - cbn in K. apply andb_prop in K. destruct K as [K1 K]. destruct i; try discriminate; cbn [exec snd].
    + apply dispatch_wf, K.
    + apply wt_rest. cbn. assumption.
    + apply wt_rest. cbn. assumption.
    + apply wt_rest. cbn. assumption.
    + destruct (l_subs_pending l); cbn [snd]; apply wt_rest; cbn; assumption.
    + destruct (l_cur l) eqn:C; cbn [snd]; try (destruct (l_promise l); cbn [snd]); apply wt_rest; cbn; assumption.
    + apply new_sys_wf, K.
    + apply wt_rest; cbn; assumption.
    + apply complete_wf; [assumption|]. intros E. specialize (F E). cbn [exec fst] in F.
      specialize (F c (l_cur l) (or_introl eq_refl)). exact F.
    + apply wt_rest; cbn; assumption.
    + apply wt_rest; cbn; assumption.
  - cbn [exec snd]. apply wt_rest. cbn. destruct (e_sys e); cbn; assumption.
  - cbn [exec snd]. unfold WF. match goal with H : _ = l_stack l |- _ => rewrite <- H end. apply wt_set; assumption.
  - cbn [exec snd]. apply call_handler_wf; assumption.
  - cbn [exec snd]. apply after_handler_wf; assumption.
  - cbn [exec snd]. match goal with H : _ = l_stack l |- _ => destruct (abort_in_handler cfg h r k l C X (eq_sym H)) as (A & B & D) end. unfold WF. rewrite A, B, D.
    apply wt_after; [reflexivity|assumption|assumption].
Qed.
Lemma idle_stack : forall l, idle l = true -> l_stack l = [].
Proof. unfold idle. intros l. destruct (l_stack l); [reflexivity|discriminate]. Qed.
Lemma lstep_wf : forall strict cfg ev l, WF strict l -> (strict = true -> fresh (fst (lstep cfg ev l))) -> WF strict (snd (lstep cfg ev l)).
Proof.
  intros strict cfg ev l W F. destruct ev; cbn [lstep snd]; try exact W.
  - cbn [set_flags l_aborted]. destruct (l_aborted l); [exact W|]. destruct valid; cbn [negb snd]; [destruct (c_mode cfg)|]; exact W.
  - destruct (_ && _); exact W.
  - destruct (l_started l); exact W.
  - destruct (l_stack l) as [|i r] eqn:S; [exact W|]. cbn [snd]. apply exec_wf.
    + unfold WF in W. rewrite S in W. exact W.
    + cbn [lstep] in F. rewrite S in F. exact F.
  - destruct (idle l) eqn:I; [|exact W]. apply idle_stack in I. destruct (l_queue l) as [|t q]; [exact W|].
    assert (R : forall l', forallb safe (l_stack l') = true -> WF strict l') by (intros; apply wt_rest; assumption).
    destruct t; cbn [run_task snd]; try (apply R; cbn; rewrite ?I; reflexivity);
      cbn [set_queue l_cur l_started l_barrier l_others];
      repeat match goal with |- context [if ?b then _ else _] => destruct b | |- context [match ?b with _ => _ end] => destruct b end;
      apply R; cbn; rewrite ?I; reflexivity.
  - destruct (idle l) eqn:I; [|exact W]. apply idle_stack in I. apply wt_rest. cbn. rewrite I. reflexivity.
  - destruct (idle l) eqn:I; [|exact W]. apply idle_stack in I. destruct (l_barrier l); [|exact W]. apply wt_rest. cbn. rewrite I. reflexivity.
  - destruct (idle l) eqn:I; [|exact W]. apply idle_stack in I. apply wt_rest. cbn. rewrite I, app_nil_r.
    induction (l_subs l) as [|n IH]; cbn; [reflexivity|exact IH].
Qed.

(** * Traces *)
Lemma fresh_app : forall a b, fresh (a ++ b) <-> fresh a /\ fresh b.
Proof.
  intros a b. unfold fresh. split.
  - intros H. split; intros c s I; apply (H c s); apply in_or_app; auto.
  - intros [A B] c s I. apply in_app_or in I. destruct I as [I|I]; [exact (A c s I)|exact (B c s I)].
Qed.
Lemma published_app : forall a b, published (a ++ b) = published a ++ published b.
Proof. induction a as [|x a IH]; intros b; [reflexivity|]. destruct x; cbn; rewrite IH; reflexivity. Qed.
Lemma path_app : forall f a b s, path f s (a ++ b) <-> path f s a /\ path f (last a s) b.
Proof.
  intros f. induction a as [|x a IH]; intros b s; [cbn; tauto|].
  cbn [app path]. rewrite IH. replace (last (x :: a) s) with (last a x); [tauto|].
  clear. revert x s; induction a as [|y a IH]; intros x s; [reflexivity|]. change (last (x :: y :: a) s) with (last (y :: a) s).
  rewrite <- (IH y s), <- (IH y x). reflexivity.
Qed.
Lemma dispatch_cur : forall cfg o l, l_cur (dispatch cfg o l) = l_cur l /\ l_before (dispatch cfg o l) = l_before l.
Proof.
  intros cfg o l. unfold dispatch.
  destruct (l_cur l) eqn:C; destruct o;
    cbn [invalid_state services_created comm_initializing comm_initialized ready_to_run running paused stopping stopped
         shutting_down shut_down aborting error default_op invalid process_abort set_and_forward push set_stack set_abort set_exec
         l_cur l_before];
    repeat match goal with |- context [if ?b then _ else _] => destruct b | |- context [match c_mode cfg with _ => _ end] => destruct (c_mode cfg) end;
    cbn; rewrite ?C; auto.
Qed.
Lemma new_sys_cur : forall cfg s l, l_cur (new_system_state cfg s l) = l_cur l /\ l_before (new_system_state cfg s l) = l_before l.
Proof.
  intros cfg s l. unfold new_system_state. destruct (c_mode cfg); [|auto].
  destruct s; try (destruct (l_stop_by_sys l)); try (destruct (l_cur l) eqn:C); cbn; auto.
Qed.
Lemma call_handler_cur : forall cfg h e l, l_cur (snd (call_handler cfg h e l)) = l_cur l /\ l_before (snd (call_handler cfg h e l)) = l_before l /\
  published (fst (call_handler cfg h e l)) = [].
Proof.
  intros cfg h e l. unfold call_handler.
  destruct h; cbn; auto.
  - destruct (c_ready cfg) as [[]|]; cbn; auto. destruct (l_invoked l); cbn; auto.
  - destruct (l_before l) eqn:B; cbn; auto.
Qed.
Lemma after_handler_cur : forall h r l, l_cur (after_handler h r l) = l_cur l /\ l_before (after_handler h r l) = l_before l.
Proof.
  intros h r l. unfold after_handler. destruct h, r; cbn; repeat match goal with |- context [if ?b then _ else _] => destruct b end; cbn; auto.
Qed.
Lemma complete_cur : forall c l, l_cur (complete c l) = l_cur l /\ l_before (complete c l) = l_before l.
Proof. intros [] l; cbn; auto. Qed.

(** Only [ISet] publishes and changes the state. *)
Lemma exec_cur : forall cfg e i l,
  match i with
  | ISet n => published (fst (exec cfg e i l)) = [n] /\ l_cur (snd (exec cfg e i l)) = n /\
              l_before (snd (exec cfg e i l)) = match n with Aborting => Some (l_cur l) | _ => l_before l end
  | _ => published (fst (exec cfg e i l)) = [] /\ l_cur (snd (exec cfg e i l)) = l_cur l /\ l_before (snd (exec cfg e i l)) = l_before l
  end.
Proof.
  intros cfg e i l. destruct i; cbn [exec fst snd]; auto.
  - destruct (dispatch_cur cfg o l); auto.
  - destruct (call_handler_cur cfg h e l) as (A & B & C); auto.
  - destruct (after_handler_cur h r l); auto.
  - destruct (l_subs_pending l); cbn; auto.
  - destruct (l_cur l) eqn:C; cbn; auto; destruct (l_promise l); cbn; auto.
  - destruct (new_sys_cur cfg s l); auto.
  - destruct (complete_cur c l); auto.
Qed.
Lemma run_task_cur : forall cfg t l, published (fst (run_task cfg t l)) = [] /\ l_cur (snd (run_task cfg t l)) = l_cur l /\ l_before (snd (run_task cfg t l)) = l_before l.
Proof.
  intros cfg t l. destruct t; cbn; auto; repeat match goal with |- context [if ?b then _ else _] => destruct b | |- context [match ?b with _ => _ end] => destruct b eqn:? end; cbn; auto.
Qed.

(** A step publishes at most one state, the new current one. *)
Lemma lstep_pub : forall cfg ev l, WF true l ->
  (published (fst (lstep cfg ev l)) = [] /\ l_cur (snd (lstep cfg ev l)) = l_cur l) \/
  (exists n, published (fst (lstep cfg ev l)) = [n] /\ l_cur (snd (lstep cfg ev l)) = n /\ edge (l_cur l) n = true).
Proof.
  intros cfg ev l W. destruct ev; cbn [lstep]; try (left; split; reflexivity).
  - left. cbn [set_flags l_aborted]. destruct (l_aborted l); [auto|]. destruct valid; cbn [negb]; [destruct (c_mode cfg)|]; auto.
  - left. destruct (_ && _); auto.
  - left. destruct (l_started l); auto.
  - unfold WF in W. destruct (l_stack l) as [|i r] eqn:S; [left; auto|].
    pose proof (exec_cur cfg e i (set_stack r l)) as X.
    destruct i; try (left; destruct X as (A & B & _); rewrite A, B; split; reflexivity).
    right. exists s. destruct X as (A & B & _). rewrite A, B. split; [reflexivity|]. split; [reflexivity|].
    inversion W as [k K|n k E1 E2 K| | | | ]; subst; [discriminate|apply E1; reflexivity].
  - left. destruct (idle l); [|auto]. destruct (l_queue l) as [|t q]; [auto|].
    destruct (run_task_cur cfg t (set_queue q l)) as (A & B & _). auto.
  - left. destruct (idle l); auto.
  - left. destruct (idle l); [|auto]. destruct (l_barrier l); auto.
  - left. destruct (idle l); auto.
Qed.
Lemma lrun_path : forall cfg evs l, WF true l -> fresh (fst (lrun cfg evs l)) ->
  path edge (l_cur l) (published (fst (lrun cfg evs l))).
Proof.
  intros cfg. induction evs as [|ev evs IH]; intros l W F; [exact I|]. cbn [lrun] in *.
  pose proof (lstep_wf true cfg ev l W) as W'. pose proof (lstep_pub cfg ev l W) as P.
  destruct (lstep cfg ev l) as [o l1]. cbn [fst snd] in *. specialize (IH l1). destruct (lrun cfg evs l1) as [o' l2]. cbn [fst snd] in *.
  apply fresh_app in F. destruct F as [F1 F2]. specialize (IH (W' (fun _ => F1)) F2).
  rewrite published_app, path_app. destruct P as [[P1 P2]|(n & P1 & P2 & P3)]; rewrite P1; cbn.
  - rewrite P2 in IH. auto.
  - rewrite P2 in IH. auto.
Qed.
Lemma init_wf : forall strict, WF strict life_init.
Proof. intros. apply wt_rest. reflexivity. Qed.
Lemma path_weaken : forall (f g : lstate -> lstate -> bool) l s, (forall a b, f a b = true -> g a b = true) -> path f s l -> path g s l.
Proof. intros f g l. induction l as [|x r IH]; intros s H P; [exact I|]. destruct P as [P1 P2]. split; [apply H, P1|apply IH; assumption]. Qed.
Lemma path_documented : forall cfg evs, fresh (outs cfg evs) -> path documented Invalid (published (outs cfg evs)).
Proof.
  intros cfg evs F. apply path_weaken with (f := edge).
  - intros a b E. unfold edge in E. apply andb_prop in E. apply E.
  - apply (lrun_path cfg evs life_init); [apply init_wf|exact F].
Qed.
Lemma shutdown_last : forall cfg evs a b, fresh (outs cfg evs) -> published (outs cfg evs) = a ++ Shutdown :: b -> b = [].
Proof.
  intros cfg evs a b F E.
  assert (P : path edge Invalid (published (outs cfg evs))) by (apply (lrun_path cfg evs life_init); [apply init_wf|exact F]).
  rewrite E, path_app in P. destruct P as [_ P]. destruct b as [|y b]; [reflexivity|]. cbn in P.
  destruct P as (_ & P & _). unfold edge in P. rewrite andb_false_r in P. discriminate.
Qed.

(** * Handlers *)
Definition track (p s : lstate) (l : life) : Prop := l_cur l = s /\ (s = Aborting -> l_before l = Some p).
Fixpoint walk (p s : lstate) (o : list lout) : lstate * lstate :=
  match o with
  | [] => (p, s)
  | Published x :: r => walk s x r
  | _ :: r => walk p s r
  end.
Lemma calls_ok_app : forall a b p s, calls_ok p s (a ++ b) <-> calls_ok p s a /\ calls_ok (fst (walk p s a)) (snd (walk p s a)) b.
Proof.
  induction a as [|x a IH]; intros b p s; [cbn; tauto|].
  destruct x; cbn; rewrite ?IH; try tauto.
Qed.
Lemma calls_quiet : forall o p s, published o = [] -> (forall h a, ~ In (Called h a) o) -> calls_ok p s o /\ walk p s o = (p, s).
Proof.
  induction o as [|x o IH]; intros p s P N; [split; reflexivity|].
  assert (N' : forall h a, ~ In (Called h a) o) by (intros h a X; apply (N h a); right; exact X).
  destruct x; cbn in *; try discriminate; try (apply IH; assumption).
  exfalso. apply (N h s0). left; reflexivity.
Qed.
Lemma exec_calls : forall cfg e i l p s, wf_top false (l_cur l) (l_exec l) (i :: l_stack l) -> track p s l ->
  calls_ok p s (fst (exec cfg e i l)) /\
  track (fst (walk p s (fst (exec cfg e i l)))) (snd (walk p s (fst (exec cfg e i l)))) (snd (exec cfg e i l)).
Proof.
  intros cfg e i l p s W [T1 T2]. pose proof (exec_cur cfg e i l) as X.
  destruct i; cbn [exec fst snd calls_ok walk] in *.
  - split; [exact I|]. destruct X as (_ & B & D). split; [rewrite B; exact T1|rewrite D; exact T2].
  - split; [exact I|]. destruct X as (_ & B & D). split; [exact B|]. intros E. rewrite D, E, T1. reflexivity.
  - assert (C : l_cur l = home h /\ hx h (l_exec l)) by (inversion W; subst; [discriminate|auto]). destruct C as [C HX].
    assert (T : forall l', l_cur l' = l_cur l -> l_before l' = l_before l -> track p s l').
    { intros l' A B. split; [congruence|]. rewrite B. exact T2. }
    destruct X as (_ & B & D). unfold call_handler in *.
    destruct h; cbn [home] in C; cbn [fst snd calls_ok walk] in *;
      try (rewrite T1 in C; split; [split; [exact C|exact I]|apply T; assumption]).
    + destruct (c_ready cfg) as [[]|]; cbn [fst snd calls_ok walk] in *.
      * destruct (l_invoked l); cbn [fst snd calls_ok walk] in *.
        -- split; [exact I|apply T; assumption].
        -- rewrite T1 in C. split; [split; [exact C|exact I]|apply T; assumption].
      * rewrite T1 in C. split; [split; [exact C|exact I]|apply T; assumption].
      * split; [exact I|apply T; assumption].
    + rewrite T1 in C. specialize (T2 C). rewrite T2 in *. cbn [fst snd calls_ok walk] in *. split; [auto|].
      split; [congruence|]. intros _. rewrite D. reflexivity.
  - split; [exact I|]. destruct X as (_ & B & D). split; [rewrite B; exact T1|rewrite D; exact T2].
  - split; [exact I|]. split; [exact T1|exact T2].
  - split; [exact I|]. split; [exact T1|exact T2].
  - split; [exact I|]. split; [exact T1|exact T2].
  - split; [exact I|]. split; [exact T1|exact T2].
  - destruct (l_subs_pending l); cbn; (split; [exact I|]; split; [exact T1|exact T2]).
  - destruct X as (A & B & D).
    assert (N : forall h a, ~ In (Called h a) (fst (exec cfg e IFinal l))).
    { intros h a. cbn [exec]. destruct (l_cur l); try (destruct (l_promise l)); cbn; intuition discriminate. }
    destruct (calls_quiet _ p s A N) as [C1 C2]. cbn [exec] in C1, C2. rewrite C2. split; [exact C1|].
    split; cbn [fst snd]; [rewrite B; exact T1|rewrite D; exact T2].
  - split; [exact I|]. destruct X as (_ & B & D). split; [rewrite B; exact T1|rewrite D; exact T2].
  - split; [exact I|]. split; [exact T1|exact T2].
  - split; [exact I|]. destruct X as (_ & B & D). split; [rewrite B; exact T1|rewrite D; exact T2].
  - split; [exact I|]. split; [exact T1|exact T2].
  - split; [exact I|]. split; [exact T1|exact T2].
Qed.
Lemma lstep_calls : forall cfg ev l p s, WF false l -> track p s l ->
  calls_ok p s (fst (lstep cfg ev l)) /\
  track (fst (walk p s (fst (lstep cfg ev l)))) (snd (walk p s (fst (lstep cfg ev l)))) (snd (lstep cfg ev l)).
Proof.
  intros cfg ev l p s W T.
  assert (Q : forall l', l_cur l' = l_cur l -> l_before l' = l_before l -> calls_ok p s [] /\ track (fst (walk p s [])) (snd (walk p s [])) l').
  { intros l' A B. split; [exact I|]. destruct T as [T1 T2]. split; cbn; [congruence|rewrite B; exact T2]. }
  destruct ev; cbn [lstep fst snd]; try (apply Q; reflexivity).
  - cbn [set_flags l_aborted]. destruct (l_aborted l); [apply Q; reflexivity|]. destruct valid; cbn [negb]; [destruct (c_mode cfg)|]; apply Q; reflexivity.
  - destruct (_ && _); apply Q; reflexivity.
  - destruct (l_started l); apply Q; reflexivity.
  - unfold WF in W. destruct (l_stack l) as [|i r] eqn:S; [apply Q; reflexivity|]. apply exec_calls; [exact W|exact T].
  - destruct (idle l); [|apply Q; reflexivity]. destruct (l_queue l) as [|t q]; [apply Q; reflexivity|].
    destruct (run_task_cur cfg t (set_queue q l)) as (A & B & D).
    assert (N : forall h a, ~ In (Called h a) (fst (run_task cfg t (set_queue q l)))).
    { intros h a. destruct t; cbn; try tauto; repeat match goal with |- context [if ?b then _ else _] => destruct b | |- context [match ?b with _ => _ end] => destruct b end; cbn; intuition discriminate. }
    destruct (calls_quiet _ p s A N) as [C1 C2]. rewrite C2. split; [exact C1|]. cbn. destruct T as [T1 T2].
    split; [rewrite B; exact T1|rewrite D; exact T2].
  - destruct (idle l); apply Q; reflexivity.
  - destruct (idle l); [|apply Q; reflexivity]. destruct (l_barrier l); apply Q; reflexivity.
  - destruct (idle l); apply Q; reflexivity.
Qed.
Lemma lrun_calls : forall cfg evs l p s, WF false l -> track p s l -> calls_ok p s (fst (lrun cfg evs l)).
Proof.
  intros cfg. induction evs as [|ev evs IH]; intros l p s W T; [exact I|]. cbn [lrun].
  pose proof (lstep_calls cfg ev l p s W T) as [A B].
  assert (W' : WF false (snd (lstep cfg ev l))) by (apply lstep_wf; [exact W|discriminate]).
  destruct (lstep cfg ev l) as [o l1]. cbn [fst snd] in *. specialize (IH l1 _ _ W' B).
  destruct (lrun cfg evs l1) as [o' l2]. cbn [fst] in *. apply calls_ok_app. auto.
Qed.

(** * The final state future *)
Definition is_final_i (i : instr) : bool :=
  match i with IRequest CFinal | IResume CFinal | IFinal => true | _ => false end.
Definition is_final_t (t : task) : bool := match t with TBarrier CFinal => true | _ => false end.
Definition tokens (l : life) : bool :=
  existsb is_final_i (l_stack l) || existsb is_final_t (l_queue l) || match l_barrier l with Some CFinal => true | _ => false end.
Definition pending (l : life) : Prop :=
  l_promise l = Some Shutdown \/ In (IOp OShutdown) (l_stack l) \/ existsb is_final_i (l_stack l) = true \/
  existsb is_final_t (l_queue l) = true \/ (l_barrier l = Some CFinal /\ ~ In IBarrierOff (l_stack l)).
Record FI (l : life) : Prop := mkFI {
  fi_wf : WF true l;
  fi_tok : tokens l = true -> l_cur l = Shutdown;
  fi_val : forall s, l_promise l = Some s -> s = Shutdown /\ l_cur l = Shutdown;
  fi_pend : l_cur l = Shutdown -> pending l }.
Lemma in_final_push : forall i is r (cur_shut : Prop),
  (existsb is_final_i is = true -> cur_shut) -> (existsb is_final_i (i :: r) = true -> cur_shut) ->
  existsb is_final_i (is ++ r) = true -> cur_shut.
Proof.
  intros i is r P A B E. rewrite existsb_app in E. apply orb_prop in E. destruct E as [E|E]; [auto|].
  apply B. cbn. rewrite E. apply orb_true_r.
Qed.
Lemma FI_push : forall i is r l l', FI l -> l_stack l = i :: r ->
  l_stack l' = is ++ r -> l_cur l' = l_cur l -> l_queue l' = l_queue l -> l_barrier l' = l_barrier l -> l_promise l' = l_promise l ->
  WF true l' ->
  (existsb is_final_i is = true -> l_cur l = Shutdown) -> ~ In IBarrierOff is ->
  (l_cur l = Shutdown -> i = IOp OShutdown \/ is_final_i i = true ->
     l_promise l = Some Shutdown \/ existsb is_final_i is = true \/ In (IOp OShutdown) is) ->
  FI l'.
Proof.
  intros i is r l l' [W T V P] S S' C Q B PR W' A NB G. constructor.
  - exact W'.
  - intros H. rewrite C. unfold tokens in *. rewrite S', Q, B in H. rewrite S in T.
    apply orb_prop in H. destruct H as [H|H]; [apply orb_prop in H; destruct H as [H|H]|].
    + apply (in_final_push i is r (l_cur l = Shutdown)); auto. intros E. apply T. rewrite E. reflexivity.
    + apply T. rewrite H, orb_true_r. reflexivity.
    + apply T. rewrite H, orb_true_r. reflexivity.
  - rewrite PR, C. exact V.
  - rewrite C. intros H. specialize (P H). specialize (G H). unfold pending in *. rewrite S', Q, B, PR. rewrite S in P.
    destruct P as [P|[P|[P|[P|[P1 P2]]]]].
    + left; exact P.
    + destruct P as [P|P].
      * destruct (G (or_introl P)) as [E|[E|E]]; [left; exact E| |].
        -- right; right; left. rewrite existsb_app, E. reflexivity.
        -- right; left. apply in_or_app; left; exact E.
      * right; left. apply in_or_app; right; exact P.
    + cbn in P. apply orb_prop in P. destruct P as [P|P].
      * destruct (G (or_intror P)) as [E|[E|E]]; [left; exact E| |].
        -- right; right; left. rewrite existsb_app, E. reflexivity.
        -- right; left. apply in_or_app; left; exact E.
      * right; right; left. rewrite existsb_app, P. apply orb_true_r.
    + right; right; right; left; exact P.
    + right; right; right; right. split; [exact P1|]. intros H'. apply in_app_or in H'. destruct H' as [H'|H']; [exact (NB H')|].
      apply P2. right; exact H'.
Qed.
Ltac shape l :=
  unfold process_abort, set_and_forward, push, set_stack, set_abort, set_exec, set_flags; cbn [l_stack l_cur l_exec l_abort l_queue l_barrier l_promise app];
    match goal with
    | |- exists is, ?a :: ?b :: ?c :: ?d :: l_stack l = _ /\ _ => exists [a; b; c; d]
    | |- exists is, ?a :: ?b :: ?c :: l_stack l = _ /\ _ => exists [a; b; c]
    | |- exists is, ?a :: ?b :: l_stack l = _ /\ _ => exists [a; b]
    | |- exists is, ?a :: l_stack l = _ /\ _ => exists [a]
    | |- exists is, l_stack l = _ /\ _ => exists []
    end; cbn; intuition (congruence || discriminate).
Lemma dispatch_shape : forall cfg o l, exists is, l_stack (dispatch cfg o l) = is ++ l_stack l /\
  (existsb is_final_i is = true -> l_cur l = Shutdown) /\ ~ In IBarrierOff is /\
  (l_cur l = Shutdown -> o = OShutdown -> existsb is_final_i is = true) /\
  l_queue (dispatch cfg o l) = l_queue l /\ l_barrier (dispatch cfg o l) = l_barrier l /\ l_promise (dispatch cfg o l) = l_promise l.
Proof.
  intros cfg o l. unfold dispatch.
  destruct (l_cur l) eqn:C; destruct o;
    cbn [invalid_state services_created comm_initializing comm_initialized ready_to_run running paused stopping stopped
         shutting_down shut_down aborting error default_op invalid process_abort set_and_forward push set_stack set_abort set_exec
         l_cur l_exec l_stack l_queue l_barrier l_promise];
    repeat match goal with |- context [if ?b then _ else _] => destruct b | |- context [match c_mode cfg with _ => _ end] => destruct (c_mode cfg) end;
    cbn [invalid_state services_created comm_initializing comm_initialized ready_to_run running paused stopping stopped
         shutting_down shut_down aborting error default_op invalid process_abort set_and_forward push set_stack set_abort set_exec
         l_cur l_exec l_stack l_queue l_barrier l_promise];
    shape l.
Qed.
Lemma new_sys_shape : forall cfg s l, exists is, l_stack (new_system_state cfg s l) = is ++ l_stack l /\
  existsb is_final_i is = false /\ ~ In IBarrierOff is /\
  l_queue (new_system_state cfg s l) = l_queue l /\ l_barrier (new_system_state cfg s l) = l_barrier l /\
  l_promise (new_system_state cfg s l) = l_promise l.
Proof.
  intros cfg s l. unfold new_system_state. destruct (c_mode cfg); [|exists []; cbn; intuition].
  destruct s; try (destruct (l_stop_by_sys l)); try (destruct (l_cur l));
    shape l.
Qed.
Lemma call_handler_shape : forall cfg h e l, exists is, l_stack (snd (call_handler cfg h e l)) = is ++ l_stack l /\
  existsb is_final_i is = false /\ ~ In IBarrierOff is /\
  l_queue (snd (call_handler cfg h e l)) = l_queue l /\ l_barrier (snd (call_handler cfg h e l)) = l_barrier l /\
  l_promise (snd (call_handler cfg h e l)) = l_promise l.
Proof.
  intros cfg h e l. unfold call_handler.
  destruct h; try (destruct (c_ready cfg) as [[]|]); try (destruct (l_invoked l)); try (destruct (l_before l)); destruct (e_abort e);
    cbn [snd];
    shape l.
Qed.
Lemma after_handler_shape : forall h r l, exists is, l_stack (after_handler h r l) = is ++ l_stack l /\
  existsb is_final_i is = false /\ ~ In IBarrierOff is /\
  l_queue (after_handler h r l) = l_queue l /\ l_barrier (after_handler h r l) = l_barrier l /\
  l_promise (after_handler h r l) = l_promise l.
Proof.
  intros h r l. unfold after_handler.
  destruct h, r; cbn [push set_stack l_abort];
    repeat match goal with |- context [if ?b then _ else _] => destruct b end;
    shape l.
Qed.
Lemma exec_FI : forall cfg e i l, FI l -> forall r, l_stack l = i :: r ->
  fresh (fst (exec cfg e i (set_stack r l))) -> FI (snd (exec cfg e i (set_stack r l))).
Proof.
  intros cfg e i l F r S FR.
  assert (W' : WF true (snd (exec cfg e i (set_stack r l)))).
  { apply exec_wf; [|intros _; exact FR]. pose proof (fi_wf l F) as W. unfold WF in W. rewrite S in W. exact W. }
  pose proof (exec_cur cfg e i (set_stack r l)) as X.
  assert (Z : forall h, l_cur l = home h -> l_cur l = Shutdown -> False) by (intros [] A B; rewrite B in A; discriminate).
  assert (N : forall (l' : life), WF true l' -> l_stack l' = r -> l_cur l' = l_cur l -> l_queue l' = l_queue l -> l_barrier l' = l_barrier l ->
     l_promise l' = l_promise l -> is_final_i i = false -> i <> IOp OShutdown -> FI l').
  { intros l' A1 A2 A3 A4 A5 A6 A7 A8. apply (FI_push i [] r l l'); auto; cbn; try tauto; try discriminate.
    intros _ [E|E]; congruence. }
  destruct i.
  - cbn [exec fst snd] in *. destruct (dispatch_shape cfg o (set_stack r l)) as (is & A1 & A2 & A3 & A4 & A5 & A6 & A7).
    destruct X as (_ & X & _). apply (FI_push (IOp o) is r l); auto. intros C [E|E]; [|discriminate]. injection E as E. right; left. apply A4; auto.
  - destruct X as (_ & C & _). cbn [exec fst snd] in *.
    assert (E : edge (l_cur l) s = true /\ follow s r).
    { pose proof (fi_wf l F) as W. unfold WF in W. rewrite S in W. inversion W; subst; [discriminate|auto]. }
    destruct E as [E1 E2]. assert (NS : l_cur l <> Shutdown).
    { intros E. rewrite E in E1. unfold edge in E1. rewrite andb_false_r in E1. discriminate. }
    constructor.
    + exact W'.
    + intros T. exfalso. apply NS. apply (fi_tok l F). unfold tokens in *. rewrite S. cbn [existsb is_final_i].
      destruct (e_sys e); cbn in T |- *; exact T.
    + intros s' E. exfalso. apply NS. apply (fi_val l F s' E).
    + intros CS. rewrite C in CS. rewrite CS in E2. destruct E2 as [k' ->]. right; left. destruct (e_sys e); cbn; auto.
  - cbn [exec] in *. destruct (call_handler_shape cfg h e (set_stack r l)) as (is & A1 & A2 & A3 & A5 & A6 & A7).
    assert (CH : l_cur l = home h). { pose proof (fi_wf l F) as W. unfold WF in W. rewrite S in W. inversion W; subst; [discriminate|auto]. }
    destruct X as (_ & X & _). apply (FI_push (IHandle h) is r l); auto.
    + intros E; rewrite A2 in E; discriminate.
    + intros C. exfalso. exact (Z h CH C).
  - cbn [exec fst snd] in *. destruct (after_handler_shape h r0 (set_stack r l)) as (is & A1 & A2 & A3 & A5 & A6 & A7).
    assert (CH : l_cur l = home h). { pose proof (fi_wf l F) as W. unfold WF in W. rewrite S in W. inversion W; subst; [discriminate|auto]. }
    destruct X as (_ & X & _). apply (FI_push (IAfter h r0) is r l); auto.
    + intros E; rewrite A2 in E; discriminate.
    + intros C. exfalso. exact (Z h CH C).
  - apply N; try reflexivity; [exact W'|discriminate].
  - apply N; try reflexivity; [exact W'|discriminate].
  - apply N; try reflexivity; [exact W'|discriminate].
  - cbn [exec fst snd] in *. destruct F as [W T V P]. constructor.
    + exact W'.
    + intros H. apply T. unfold tokens in *. cbn [post set_stack set_queue l_stack l_queue l_barrier] in H. rewrite S. cbn [existsb].
      rewrite existsb_app in H. cbn [existsb] in H. destruct c; cbn [is_final_i is_final_t] in *; rewrite ?orb_false_r in H; cbn; try exact H. reflexivity.
    + exact V.
    + intros H. specialize (P H). unfold pending in *. rewrite S in P. cbn [post set_stack set_queue l_stack l_queue l_barrier l_promise] in *.
      rewrite existsb_app. destruct P as [P|[[P|P]|[P|[P|[P1 P2]]]]]; try discriminate; auto.
      * cbn in P. apply orb_prop in P. destruct P as [P|P]; [|auto]. right; right; right; left. destruct c; try discriminate. cbn. apply orb_true_r.
      * right; right; right; left. rewrite P. reflexivity.
      * right; right; right; right. split; [exact P1|]. intros Q. apply P2. right; exact Q.
  - cbn [exec] in *. cbn [set_stack l_subs_pending] in *. destruct (l_subs_pending l) eqn:SP; cbn [fst snd] in *.
    + apply N; try reflexivity; [exact W'|discriminate].
    + apply (FI_push IAddSubs [IResume CSubs] r l); auto; cbn; try discriminate; intuition discriminate.
  - pose proof (fi_tok l F) as T. assert (CS : l_cur l = Shutdown). { apply T. unfold tokens. rewrite S. reflexivity. }
    cbn [exec] in *. cbn [set_stack l_cur l_promise] in *. rewrite CS in *. destruct (l_promise l) as [s|] eqn:PR; cbn [fst snd] in *.
    + assert (s = Shutdown) by (apply (fi_val l F); exact PR). subst s.
      apply (FI_push IFinal [] r l); auto; try discriminate.
    + constructor.
      * exact W'.
      * intros _. exact CS.
      * cbn. intros s E. injection E as <-. auto.
      * intros _. left. reflexivity.
  - cbn [exec fst snd] in *. destruct (new_sys_shape cfg s (set_stack r l)) as (is & A1 & A2 & A3 & A5 & A6 & A7).
    destruct X as (_ & X & _). apply (FI_push (ISys s) is r l); auto.
    + intros E; rewrite A2 in E; discriminate.
    + intros _ [E|E]; discriminate.
  - apply N; try reflexivity; [exact W'|discriminate].
  - cbn [exec fst snd] in *. destruct c.
    + apply (FI_push (IResume CServices) [ISet CommunicationInitializing; IOp OServices] r l); auto; cbn; try discriminate; intuition discriminate.
    + apply (FI_push (IResume CStopped) [IOp OShutdown] r l); auto; cbn; try discriminate; intuition discriminate.
    + apply (FI_push (IResume CFinal) [IFinal] r l); auto; cbn; try discriminate; intuition try discriminate.
      apply (fi_tok l F). unfold tokens. rewrite S. reflexivity.
    + apply (FI_push (IResume CSubs) [ISet CommunicationInitialized; IOp OCommInitializing] r l); auto; cbn; try discriminate; intuition discriminate.
  - destruct F as [W T V P]. constructor.
    + exact W'.
    + intros H. apply T. unfold tokens in *. cbn [exec snd set_barrier set_stack l_stack l_queue l_barrier] in H. rewrite orb_false_r in H.
      rewrite S. cbn [existsb is_final_i]. rewrite orb_false_l, H. reflexivity.
    + exact V.
    + intros H. specialize (P H). unfold pending in *. rewrite S in P. cbn [exec snd set_barrier set_stack l_stack l_queue l_barrier l_promise] in *.
      destruct P as [P|[[P|P]|[P|[P|[P1 P2]]]]]; try discriminate; auto.
      exfalso. apply P2. left; reflexivity.
  - apply N; try reflexivity; [exact W'|discriminate].
Qed.
Lemma FI_post : forall t l l', FI l -> is_final_t t = false ->
  l_stack l' = l_stack l -> l_cur l' = l_cur l -> l_exec l' = l_exec l -> l_queue l' = l_queue l ++ [t] -> l_barrier l' = l_barrier l ->
  l_promise l' = l_promise l -> FI l'.
Proof.
  intros t l l' [W T V P] N S C X Q B PR. constructor.
  - unfold WF in *. rewrite S, C, X. exact W.
  - intros H. rewrite C. apply T. unfold tokens in *. rewrite S, Q, B, existsb_app in H. cbn [existsb] in H. rewrite N, !orb_false_r in H. exact H.
  - rewrite PR, C. exact V.
  - rewrite C. intros H. specialize (P H). unfold pending in *. rewrite S, Q, B, PR, existsb_app. cbn [existsb]. rewrite N, !orb_false_r. exact P.
Qed.
Lemma FI_same : forall l l', FI l -> 
  l_stack l' = l_stack l -> l_cur l' = l_cur l -> l_exec l' = l_exec l -> l_queue l' = l_queue l -> l_barrier l' = l_barrier l ->
  l_promise l' = l_promise l -> FI l'.
Proof.
  intros l l' [W T V P] S C X Q B PR. constructor.
  - unfold WF in *. rewrite S, C, X. exact W.
  - unfold tokens. rewrite C, S, Q, B. exact T.
  - rewrite PR, C. exact V.
  - unfold pending. rewrite C, S, Q, B, PR. exact P.
Qed.
(** Starting something when the IO thread is idle: [t] the task taken from the queue, if any. *)
Lemma FI_idle : forall is l l', FI l -> l_stack l = [] ->
  l_stack l' = is -> forallb safe is = true -> l_cur l' = l_cur l -> l_barrier l' = l_barrier l -> l_promise l' = l_promise l ->
  (existsb is_final_i is = true -> l_cur l = Shutdown) -> (In IBarrierOff is -> existsb is_final_i is = true \/ l_barrier l <> Some CFinal) ->
  (existsb is_final_t (l_queue l') = true -> existsb is_final_t (l_queue l) = true) ->
  (existsb is_final_t (l_queue l) = true -> existsb is_final_t (l_queue l') = true \/ existsb is_final_i is = true) ->
  FI l'.
Proof.
  intros is l l' [W T V P] S0 S SF C B PR A NB Q1 Q2. constructor.
  - apply wt_rest. rewrite S. exact SF.
  - intros H. rewrite C. unfold tokens in *. rewrite S, B in H. rewrite S0 in T. cbn [existsb orb] in T.
    apply orb_prop in H. destruct H as [H|H]; [apply orb_prop in H; destruct H as [H|H]|].
    + apply A, H.
    + apply T. rewrite (Q1 H). reflexivity.
    + apply T. rewrite H. apply orb_true_r.
  - rewrite PR, C. exact V.
  - rewrite C. intros H. specialize (P H). unfold pending in *. rewrite S, B, PR. rewrite S0 in P. cbn [In existsb] in P.
    destruct P as [P|[[]|[P|[P|[P1 P2]]]]]; [auto|discriminate| |].
    + destruct (Q2 P) as [E|E]; auto 6.
    + destruct (existsb is_final_i is) eqn:E; [auto|]. right; right; right; right. split; [exact P1|].
      intros I. destruct (NB I) as [NB'|NB']; [discriminate|exact (NB' P1)].
Qed.
Lemma lstep_FI : forall cfg ev l, FI l -> fresh (fst (lstep cfg ev l)) -> ~ In (Dropped CFinal) (fst (lstep cfg ev l)) ->
  FI (snd (lstep cfg ev l)).
Proof.
  intros cfg ev l F FR ND.
  assert (PO : forall t l', is_final_t t = false -> 
    l_stack l' = l_stack l -> l_cur l' = l_cur l -> l_exec l' = l_exec l -> l_queue l' = l_queue l ++ [t] -> l_barrier l' = l_barrier l ->
    l_promise l' = l_promise l -> FI l') by (intros t l'; apply FI_post; exact F).
  destruct ev; cbn [lstep snd fst] in *; try (match goal with |- FI (post ?t ?l') => apply (PO t); reflexivity end); try (apply (FI_same l); auto; reflexivity).
  - cbn [set_flags l_aborted] in *. destruct (l_aborted l); [apply (PO TAbort); reflexivity|]. destruct valid; cbn [negb snd] in *.
    + destruct (c_mode cfg); [apply (PO TInit); reflexivity|].
      eapply (FI_post TStartAuto (post TInit (set_flags true (l_aborted l) (l_invoked l) (l_completed l) (l_stop_by_sys l) l))); try reflexivity.
      apply (PO TInit); reflexivity.
    + apply (PO TError); reflexivity.
  - destruct (_ && _); cbn [snd]; [apply (PO TComplete); reflexivity|exact F].
  - destruct (l_started l); cbn [snd]; [apply (PO TAbort); reflexivity|apply (FI_same l); auto; reflexivity].
  - destruct (l_stack l) as [|i r] eqn:S; [exact F|]. apply exec_FI; auto.
  - destruct (idle l) eqn:I; [|exact F]. apply idle_stack in I. destruct (l_queue l) as [|t q] eqn:Q; [exact F|].
    assert (G : forall is l', l_stack l' = is -> forallb safe is = true -> l_cur l' = l_cur l -> l_barrier l' = l_barrier l ->
      l_promise l' = l_promise l -> existsb is_final_i is = is_final_t t -> ~ In IBarrierOff is ->
      (existsb is_final_t (l_queue l') = existsb is_final_t q) -> FI l').
    { intros is l' A1 A2 A3 A4 A5 A6 A7 A8. apply (FI_idle is l l' F I A1 A2 A3 A4 A5).
      - intros E. apply (fi_tok l F). unfold tokens. rewrite I, Q. cbn. rewrite <- A6, E. reflexivity.
      - intros E; contradiction.
      - rewrite A8, Q. cbn. intros ->. apply orb_true_r.
      - rewrite A8, Q, A6. cbn. intros E. apply orb_prop in E. tauto. }
    destruct t; cbn [run_task snd] in *.
    + apply (G [IOp OInit]); cbn; rewrite ?I; auto; intuition discriminate.
    + apply (G [IOp OServices]); cbn; rewrite ?I; auto; intuition discriminate.
    + apply (G [IOp OStop]); cbn; rewrite ?I; auto; intuition discriminate.
    + cbn [set_queue l_cur]. destruct (l_cur l) eqn:C; cbn [snd];
        try (apply (G []); cbn; rewrite ?existsb_app, ?I; cbn; rewrite ?orb_false_r; auto; fail).
      apply (G [IOp OPause]); cbn; rewrite ?I; auto; intuition discriminate.
    + cbn [set_queue l_cur]. destruct (l_cur l) eqn:C; cbn [snd];
        try (apply (G []); cbn; rewrite ?existsb_app, ?I; cbn; rewrite ?orb_false_r; auto; fail).
      apply (G [IOp OContinue; INextStep]); cbn; rewrite ?I; auto; intuition discriminate.
    + apply (G [IOp OAbort]); cbn; rewrite ?I; auto; intuition discriminate.
    + apply (G [IOp OComplete]); cbn; rewrite ?I; auto; intuition discriminate.
    + cbn [set_queue l_cur l_started]. destruct (l_started l); [|apply (G []); cbn; rewrite ?I; auto].
      destruct (l_cur l) eqn:C; cbn [snd];
        try (apply (G [IOp OError]); cbn; rewrite ?I; auto; intuition discriminate).
      apply (G []); cbn; rewrite ?I; auto.
    + cbn [set_queue l_barrier l_others] in *. destruct (l_barrier l) as [b|] eqn:B; cbn [fst snd] in *.
      * assert (c <> CFinal) by (intros ->; apply ND; left; reflexivity).
        apply (G []); cbn; rewrite ?I; auto. destruct c; try reflexivity; contradiction.
      * destruct (l_others l); cbn [snd] in *.
        -- destruct F as [W T V P]. constructor.
           ++ apply wt_rest. cbn. rewrite I. reflexivity.
           ++ intros H. apply T. unfold tokens in *. cbn in H |- *. rewrite I in *. rewrite Q. cbn in *. destruct c; cbn in *; try reflexivity; rewrite orb_false_r in H; rewrite H; reflexivity.
           ++ exact V.
           ++ intros H. specialize (P H). unfold pending in *. cbn. rewrite I in *. rewrite Q in P. cbn in P.
              destruct P as [P|[[]|[P|[P|[P1 P2]]]]]; [auto|discriminate| |].
              ** destruct c; cbn in P; auto. right; right; right; right. split; [reflexivity|tauto].
              ** congruence.
        -- apply (G [IResume c]); cbn; rewrite ?I; auto; destruct c; cbn; auto; intuition discriminate.
  - destruct (idle l) eqn:I; [|exact F]. apply idle_stack in I. cbn [snd]. apply (FI_idle [ISys s] l); cbn; rewrite ?I; auto; intuition discriminate.
  - destruct (idle l) eqn:I; [|exact F]. apply idle_stack in I. destruct (l_barrier l) as [c|] eqn:B; [|exact F]. cbn [snd].
    apply (FI_idle [IResume c; IBarrierOff] l); cbn; rewrite ?I; auto.
    + intros E. apply (fi_tok l F). unfold tokens. rewrite B. destruct c; try discriminate. apply orb_true_r.
    + intros _. rewrite B. destruct c; auto; right; discriminate.
  - destruct (idle l) eqn:I; [|exact F]. apply idle_stack in I. cbn [snd].
    assert (NF : existsb is_final_i (repeat (IResume CSubs) (l_subs l) ++ [ISubsOff]) = false).
    { clear. induction (l_subs l) as [|n IH]; [reflexivity|exact IH]. }
    apply (FI_idle (repeat (IResume CSubs) (l_subs l) ++ [ISubsOff]) l); cbn; rewrite ?I, ?app_nil_r; auto.
    + clear. induction (l_subs l) as [|n IH]; [reflexivity|exact IH].
    + rewrite NF. discriminate.
    + intros E. exfalso. apply in_app_or in E. destruct E as [E|[E|[]]]; [|discriminate]. apply repeat_spec in E. discriminate.
Qed.
Lemma init_FI : FI life_init.
Proof. constructor; [apply init_wf|discriminate|discriminate|discriminate]. Qed.
Lemma lrun_FI : forall cfg evs l, FI l -> fresh (fst (lrun cfg evs l)) -> ~ In (Dropped CFinal) (fst (lrun cfg evs l)) -> FI (snd (lrun cfg evs l)).
Proof.
  intros cfg. induction evs as [|ev evs IH]; intros l F FR ND; [exact F|]. cbn [lrun] in *.
  pose proof (lstep_FI cfg ev l F) as F1. destruct (lstep cfg ev l) as [o l1]. cbn [fst snd] in *. specialize (IH l1).
  destruct (lrun cfg evs l1) as [o' l2]. cbn [fst snd] in *. apply fresh_app in FR. destruct FR as [FR1 FR2].
  apply IH; [apply F1; [exact FR1|]|exact FR2|]; intros X; apply ND, in_or_app; auto.
Qed.
Lemma final_promise : forall cfg evs, fresh (outs cfg evs) -> ~ In (Dropped CFinal) (outs cfg evs) ->
  l_cur (after cfg evs) = Shutdown -> quiescent (after cfg evs) -> l_promise (after cfg evs) = Some Shutdown.
Proof.
  intros cfg evs FR ND C (S & Q & B). pose proof (lrun_FI cfg evs life_init init_FI FR ND) as F. fold (after cfg evs) in F.
  pose proof (fi_pend _ F C) as P. unfold pending in P. rewrite S, Q, B in P. cbn in P.
  destruct P as [P|[[]|[P|[P|[P _]]]]]; [exact P|discriminate|discriminate|discriminate].
Qed.
Lemma promise_value : forall cfg evs, fresh (outs cfg evs) -> ~ In (Dropped CFinal) (outs cfg evs) ->
  forall s, l_promise (after cfg evs) = Some s -> s = Shutdown /\ l_cur (after cfg evs) = Shutdown.
Proof.
  intros cfg evs FR ND. pose proof (lrun_FI cfg evs life_init init_FI FR ND) as F. exact (fi_val _ F).
Qed.

(** * The future is fulfilled at most once *)
Definition is_promised (x : lout) : bool := match x with Promised _ => true | _ => false end.
Definition promises (o : list lout) : nat := length (filter is_promised o).
Lemma promises_app : forall a b, promises (a ++ b) = promises a + promises b.
Proof. intros. unfold promises. rewrite filter_app, app_length. reflexivity. Qed.
Definition left_promises (l : life) : nat := match l_promise l with None => 1 | Some _ => 0 end.
Lemma dispatch_promise : forall cfg o l, l_promise (dispatch cfg o l) = l_promise l.
Proof. intros cfg o l. destruct (dispatch_shape cfg o l) as (is & _ & _ & _ & _ & _ & _ & H). exact H. Qed.
Lemma exec_promise : forall cfg e i l, promises (fst (exec cfg e i l)) + left_promises (snd (exec cfg e i l)) = left_promises l.
Proof.
  intros cfg e i l. unfold left_promises. destruct i; cbn [exec fst snd]; try reflexivity.
  - rewrite dispatch_promise. reflexivity.
  - destruct (call_handler_shape cfg h e l) as (is & _ & _ & _ & _ & _ & ->). unfold call_handler.
    destruct h; try (destruct (c_ready cfg) as [[]|]); try (destruct (l_invoked l)); try (destruct (l_before l)); reflexivity.
  - destruct (after_handler_shape h r l) as (is & _ & _ & _ & _ & _ & ->). reflexivity.
  - destruct (l_subs_pending l); reflexivity.
  - destruct (l_promise l) eqn:P; destruct (l_cur l); cbn; rewrite ?P; reflexivity.
  - destruct (new_sys_shape cfg s l) as (is & _ & _ & _ & _ & _ & ->). reflexivity.
  - destruct c; reflexivity.
Qed.
Lemma run_task_promise : forall cfg t l, promises (fst (run_task cfg t l)) + left_promises (snd (run_task cfg t l)) = left_promises l.
Proof.
  intros cfg t l. destruct t; cbn; try reflexivity;
    repeat match goal with |- context [if ?b then _ else _] => destruct b | |- context [match ?b with _ => _ end] => destruct b eqn:? end; reflexivity.
Qed.
Lemma lstep_promise : forall cfg ev l, promises (fst (lstep cfg ev l)) + left_promises (snd (lstep cfg ev l)) = left_promises l.
Proof.
  intros cfg ev l. destruct ev; cbn [lstep]; try reflexivity.
  - cbn [set_flags l_aborted]. destruct (l_aborted l); [reflexivity|]. destruct valid; cbn [negb]; [destruct (c_mode cfg)|]; reflexivity.
  - destruct (_ && _); reflexivity.
  - destruct (l_started l); reflexivity.
  - destruct (l_stack l) as [|i r]; [reflexivity|]. rewrite exec_promise. reflexivity.
  - destruct (idle l); [|reflexivity]. destruct (l_queue l) as [|t q]; [reflexivity|]. rewrite run_task_promise. reflexivity.
  - destruct (idle l); reflexivity.
  - destruct (idle l); [|reflexivity]. destruct (l_barrier l); reflexivity.
  - destruct (idle l); reflexivity.
Qed.
Lemma promised_once : forall cfg evs l, promises (fst (lrun cfg evs l)) + left_promises (snd (lrun cfg evs l)) = left_promises l.
Proof.
  intros cfg. induction evs as [|ev evs IH]; intros l; [reflexivity|]. cbn [lrun]. pose proof (lstep_promise cfg ev l) as S.
  destruct (lstep cfg ev l) as [o l1]. specialize (IH l1). destruct (lrun cfg evs l1) as [o' l2]. cbn [fst snd] in *. rewrite promises_app. lia.
Qed.

(** * The abort handler is called at most once per abort *)
Open Scope Z_scope.
Definition aw (i : instr) : Z := match i with IOp OResolve | IHandle HAbort => 1 | ISet Aborting => -1 | _ => 0 end.
Fixpoint aws (k : list instr) : Z := match k with [] => 0 | i :: r => aw i + aws r end.
Lemma aws_app : forall a b, aws (a ++ b) = aws a + aws b.
Proof. induction a as [|i a IH]; intros b; cbn [app aws]; [lia|rewrite IH; lia]. Qed.
Definition ao (x : lout) : Z := match x with Called HAbort _ => 1 | Published Aborting => -1 | _ => 0 end.
Fixpoint aos (k : list lout) : Z := match k with [] => 0 | i :: r => ao i + aos r end.
Lemma aos_app : forall a b, aos (a ++ b) = aos a + aos b.
Proof. induction a as [|i a IH]; intros b; cbn [app aos]; [lia|rewrite IH; lia]. Qed.
Lemma dispatch_aws : forall cfg o l, aws (l_stack (dispatch cfg o l)) <= aw (IOp o) + aws (l_stack l).
Proof.
  intros cfg o l. unfold dispatch.
  destruct (l_cur l) eqn:C; destruct o;
    cbn [invalid_state services_created comm_initializing comm_initialized ready_to_run running paused stopping stopped
         shutting_down shut_down aborting error default_op invalid process_abort set_and_forward push set_stack set_abort set_exec
         l_cur l_exec l_stack];
    repeat match goal with |- context [if ?b then _ else _] => destruct b | |- context [match c_mode cfg with _ => _ end] => destruct (c_mode cfg) end;
    cbn [aws aw aos ao app set_cur set_subs set_promise set_barrier set_queue post complete push set_stack set_abort set_exec set_flags set_and_forward process_abort l_stack l_abort l_exec fst snd]; lia.
Qed.
Lemma exec_aws : forall cfg e i l, aos (fst (exec cfg e i l)) + aws (l_stack (snd (exec cfg e i l))) <= aw i + aws (l_stack l).
Proof.
  intros cfg e i l. destruct i; cbn [exec fst snd aos]; try (cbn [aws aw aos ao app set_cur set_subs set_promise set_barrier set_queue post complete push set_stack set_abort set_exec set_flags set_and_forward process_abort l_stack l_abort l_exec fst snd]; lia).
  - pose proof (dispatch_aws cfg o l). lia.
  - destruct s, (e_sys e); cbn [aws aw aos ao app set_cur set_subs set_promise set_barrier set_queue post complete push set_stack set_abort set_exec set_flags set_and_forward process_abort l_stack l_abort l_exec fst snd]; lia.
  - unfold call_handler. destruct h; try (destruct (c_ready cfg) as [[]|]); try (destruct (l_invoked l)); try (destruct (l_before l)); destruct (e_abort e); cbn [aws aw aos ao app set_cur set_subs set_promise set_barrier set_queue post complete push set_stack set_abort set_exec set_flags set_and_forward process_abort l_stack l_abort l_exec fst snd]; lia.
  - unfold after_handler. destruct h, r; cbn [push set_stack l_abort]; repeat match goal with |- context [if ?b then _ else _] => destruct b end; cbn [aws aw aos ao app set_cur set_subs set_promise set_barrier set_queue post complete push set_stack set_abort set_exec set_flags set_and_forward process_abort l_stack l_abort l_exec fst snd]; lia.
  - destruct (l_subs_pending l); cbn [aws aw aos ao app set_cur set_subs set_promise set_barrier set_queue post complete push set_stack set_abort set_exec set_flags set_and_forward process_abort l_stack l_abort l_exec fst snd]; lia.
  - destruct (l_cur l), (l_promise l); cbn [aws aw aos ao app set_cur set_subs set_promise set_barrier set_queue post complete push set_stack set_abort set_exec set_flags set_and_forward process_abort l_stack l_abort l_exec fst snd]; lia.
  - unfold new_system_state. destruct (c_mode cfg); [|cbn [aws aw aos ao app set_cur set_subs set_promise set_barrier set_queue post complete push set_stack set_abort set_exec set_flags set_and_forward process_abort l_stack l_abort l_exec fst snd]; lia]. destruct s; try (destruct (l_stop_by_sys l)); try (destruct (l_cur l)); cbn [aws aw aos ao app set_cur set_subs set_promise set_barrier set_queue post complete push set_stack set_abort set_exec set_flags set_and_forward process_abort l_stack l_abort l_exec fst snd]; lia.
  - destruct c; cbn [aws aw aos ao app set_cur set_subs set_promise set_barrier set_queue post complete push set_stack set_abort set_exec set_flags set_and_forward process_abort l_stack l_abort l_exec fst snd]; lia.
Qed.
Lemma lstep_aws : forall cfg ev l, aos (fst (lstep cfg ev l)) + aws (l_stack (snd (lstep cfg ev l))) <= aws (l_stack l).
Proof.
  intros cfg ev l. destruct ev; cbn [lstep]; try (cbn; lia).
  - cbn [set_flags l_aborted]. destruct (l_aborted l); [cbn; lia|]. destruct valid; cbn [negb]; [destruct (c_mode cfg)|]; cbn; lia.
  - destruct (_ && _); cbn; lia.
  - destruct (l_started l); cbn; lia.
  - destruct (l_stack l) as [|i r] eqn:S; [cbn; rewrite S; cbn; lia|]. pose proof (exec_aws cfg e i (set_stack r l)) as X. cbn [set_stack l_stack] in X. cbn [aws]. exact X.
  - destruct (idle l) eqn:I; [|cbn; lia]. apply idle_stack in I. destruct (l_queue l) as [|t q]; [cbn; lia|]. destruct t; cbn; rewrite ?I; cbn; try lia;
      repeat match goal with |- context [if ?b then _ else _] => destruct b | |- context [match ?b with _ => _ end] => destruct b end; cbn; rewrite ?I; cbn; lia.
  - destruct (idle l) eqn:I; cbn; lia.
  - destruct (idle l); [|cbn; lia]. destruct (l_barrier l); cbn; lia.
  - destruct (idle l); cbn [fst snd aos]; [|lia]. cbn [push set_stack l_stack]. rewrite !aws_app. cbn [aws aw].
    assert (Z0 : aws (repeat (IResume CSubs) (l_subs l)) = 0) by (induction (l_subs l) as [|n IH]; cbn; [lia|exact IH]). lia.
Qed.
Lemma lrun_aws : forall cfg evs l, aos (fst (lrun cfg evs l)) + aws (l_stack (snd (lrun cfg evs l))) <= aws (l_stack l).
Proof.
  intros cfg. induction evs as [|ev evs IH]; intros l; [cbn; lia|]. cbn [lrun]. pose proof (lstep_aws cfg ev l) as S.
  destruct (lstep cfg ev l) as [o l1]. specialize (IH l1). destruct (lrun cfg evs l1) as [o' l2]. cbn [fst snd] in *. rewrite aos_app. lia.
Qed.
(** At the end of a trace at most one abort is still waiting for its handler, the last published one. *)
Lemma wf_aws : forall x, WF false x -> 0 <= aws (l_stack x).
Proof.
  intros l W. assert (S : forall k, forallb safe k = true -> 0 <= aws k).
  { induction k as [|i k IH]; intros H; cbn [aws]; [lia|]. cbn in H. apply andb_prop in H. destruct H as [H1 H2]. specialize (IH H2).
    destruct i; try discriminate; cbn; try lia. destruct o; lia. }
  unfold WF in W. inversion W as [k K|n k E1 E2 K|n k E1 E2 K|h k C X K|h r k C X K|h r k C X K]; subst; cbn [aws]; pose proof S as S0; specialize (S _ K).
  - lia.
  - destruct n; cbn [follow] in E2; try (cbn; lia). destruct E2 as [k' ->]. cbn [forallb safe andb] in K. apply S0 in K. cbn [aws aw]. lia.
  - destruct n; cbn [follow] in E2; try (cbn; lia). destruct E2 as [k' ->]. cbn [forallb safe andb] in K. apply S0 in K. cbn [aws aw]. lia.
  - destruct h; cbn [aw]; lia.
  - cbn [aw]; lia.
  - cbn [aw aws]; lia.
Qed.
Definition abort_calls (o : list lout) : nat := length (filter (fun x => match x with Called HAbort _ => true | _ => false end) o).
Definition abort_states (o : list lout) : nat := length (filter (fun x => match x with Published Aborting => true | _ => false end) o).
Lemma aos_count : forall o, aos o = Z.of_nat (abort_calls o) - Z.of_nat (abort_states o).
Proof.
  unfold abort_calls, abort_states. induction o as [|x o IH]; [reflexivity|]. cbn [aos filter]. rewrite IH.
  destruct x; cbn [ao]; try lia; [destruct s|destruct h]; cbn [length]; lia.
Qed.
Close Scope Z_scope.

Lemma abort_once : forall cfg evs, abort_calls (outs cfg evs) <= abort_states (outs cfg evs).
Proof.
  intros cfg evs. pose proof (lrun_aws cfg evs life_init) as A. cbn in A.
  assert (W : forall evs l, WF false l -> WF false (snd (lrun cfg evs l))).
  { clear. induction evs as [|ev evs IH]; intros l W; [exact W|]. cbn [lrun].
    assert (W' : WF false (snd (lstep cfg ev l))) by (apply lstep_wf; [exact W|discriminate]).
    destruct (lstep cfg ev l) as [o l1]. specialize (IH l1 W'). destruct (lrun cfg evs l1). exact IH. }
  specialize (W evs life_init (init_wf false)). apply wf_aws in W. rewrite aos_count in A. unfold outs. lia.
Qed.
