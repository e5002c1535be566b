(** C35: joining a simulation reports success exactly when every known participant has replied, and
    failure exactly when one of them cannot be connected, under every interleaving of the thread of the
    user with the I/O thread. *)
From Coq Require Import List Arith Bool Lia.
From Verif Require Import Base ConnectModel ConnectProofs.
Import ListNotations.

(** A participant joining with two others: both connect directly and reply. *)
Definition ev_then (e : ioev) : list step_of := SEvent e :: repeat SIo 40.
Definition happy : list step_of :=
  repeat SUser 40 ++ ev_then (EvConnected 0) ++ ev_then (EvConnected 1) ++
  ev_then (EvReply 1) ++ ev_then (EvReply 0).

Example ex_happy : k_log (run 2 happy) = [LWaiting; LReply 1; LReply 0; LAll] /\
  k_done (run 2 happy) = Some true /\ k_wait (run 2 happy) = Some true.
Proof. vm_compute. auto. Qed.

(** One participant fails. *)
Definition unhappy : list step_of :=
  repeat SUser 40 ++ ev_then (EvConnected 0) ++ ev_then (EvConnectFailed 1 true true) ++
  ev_then (EvReply 0) ++ ev_then (EvFailedToConnect 1 false) ++ ev_then (EvTimer 1 true).
Example ex_unhappy : k_log (run 2 unhappy) = [LReply 0; LFail] /\
  k_done (run 2 unhappy) = Some false /\ k_wait (run 2 unhappy) = Some false.
Proof. vm_compute. auto. Qed.

(** 1. The completion of all handshakes is reported only after the reply of every known participant was
    received; for any number of participants and any interleaving. *)
Theorem C35_complete_only_after_all_replies : forall n xs a b,
  k_log (run n xs) = a ++ LAll :: b -> forall i, i < n -> In (LReply i) a.
Proof.
  intros n xs a b E i Hi. pose proof (inv_run n xs) as HI.
  destruct (k_user (run n xs)) eqn:Eu.
  - rewrite (i_init _ HI Eu) in E. cbn in E. destruct a; discriminate.
  - assert (HG := i_G _ HI ltac:(rewrite Eu; discriminate)).
    apply (g_all _ _ _ HG a b E). rewrite run_n. exact Hi.
  - assert (HG := i_G _ HI ltac:(rewrite Eu; discriminate)).
    apply (g_all _ _ _ HG a b E). rewrite run_n. exact Hi.
Qed.
Print Assumptions C35_complete_only_after_all_replies.

Lemma ev_dec : forall a b : ev, {a = b} + {a <> b}.
Proof. repeat decide equality. Qed.

Lemma reach_G : forall n xs, (k_log (run n xs) <> [] \/ k_stage (run n xs) <> CInvalid \/ k_user (run n xs) <> TInit) ->
  G (run n xs) (upos_pc (k_user (run n xs))) (iopos_pc (k_io (run n xs))).
Proof.
  intros n xs H. pose proof (inv_run n xs) as HI. apply (i_G _ HI). intros Eu.
  rewrite (i_init _ HI Eu) in H. cbn in H. intuition.
Qed.
Lemma reach_G_in : forall n xs e, In e (k_log (run n xs)) ->
  G (run n xs) (upos_pc (k_user (run n xs))) (iopos_pc (k_io (run n xs))).
Proof. intros n xs e H. apply reach_G. left. intros E. rewrite E in H. contradiction. Qed.

(** 2. Completion and failure are never both reported. *)
Theorem C35_complete_excludes_failure : forall n xs,
  ~ (In LAll (k_log (run n xs)) /\ In LFail (k_log (run n xs))).
Proof.
  intros n xs [H1 H2]. pose proof (reach_G_in _ _ _ H1) as HG.
  apply (fail_not_all (run n xs)); [apply (g_fail _ _ _ HG H2)|apply (g_allrep _ _ _ HG H1)].
Qed.
Print Assumptions C35_complete_excludes_failure.

(** 3. What the joining thread gets to see: the future of the handshakes becomes ready with a value
    only if every known participant has replied, with an exception only if the connection to one of
    them failed; the two futures never change once they are ready. *)
Theorem C35_future_truthful : forall n xs,
  (k_done (run n xs) = Some true -> forall i, i < n -> In (LReply i) (k_log (run n xs))) /\
  (k_done (run n xs) = Some false -> exists i, i < n /\ k_peer (run n xs) i = PFailure) /\
  (k_wait (run n xs) = Some false -> exists i, i < n /\ k_peer (run n xs) i = PFailure).
Proof.
  intros n xs. split; [|split].
  - intros H i Hi.
    assert (HG : G (run n xs) (upos_pc (k_user (run n xs))) (iopos_pc (k_io (run n xs)))).
    { apply reach_G. right; right. intros Eu. rewrite (i_init _ (inv_run n xs) Eu) in H. discriminate. }
    pose proof (g_done1 _ _ _ HG H) as HL. apply (g_reply _ _ _ HG). apply (g_allrep _ _ _ HG HL).
    rewrite run_n. exact Hi.
  - intros H.
    assert (HG : G (run n xs) (upos_pc (k_user (run n xs))) (iopos_pc (k_io (run n xs)))).
    { apply reach_G. right; right. intros Eu. rewrite (i_init _ (inv_run n xs) Eu) in H. discriminate. }
    pose proof (g_fail _ _ _ HG (g_done2 _ _ _ HG H)) as (i & Hi & E). rewrite run_n in Hi. eauto.
  - intros H.
    assert (HG : G (run n xs) (upos_pc (k_user (run n xs))) (iopos_pc (k_io (run n xs)))).
    { apply reach_G. right; right. intros Eu. rewrite (i_init _ (inv_run n xs) Eu) in H. discriminate. }
    pose proof (g_fail _ _ _ HG (g_wait2 _ _ _ HG H)) as (i & Hi & E). rewrite run_n in Hi. eauto.
Qed.
Print Assumptions C35_future_truthful.

Lemma step_done : forall s x b, k_done s = Some b -> k_done (step s x) = Some b.
Proof.
  assert (Hu : forall p s b, k_done s = Some b -> k_done (fst (ustep p s)) = Some b).
  { intros p s b H. destruct p; cbn; try exact H; rewrite H; reflexivity. }
  intros s x b H. destruct x as [| |e]; cbn [step].
  - unfold user_step. destruct (k_user s); try exact H; try (destruct (k <? k_n s); exact H).
    specialize (Hu p s b H). destruct (ustep p s); exact Hu.
  - unfold io_step. destruct (k_io s) as [|[]|p]; try exact H.
    specialize (Hu p s b H). destruct p; try (destruct (ustep _ s); exact Hu). exact H.
  - unfold io_event. destruct (k_io s), (k_user s); try exact H;
      (destruct (io_begin e (note_reply e s)) as [[s2 a]|] eqn:E; [|destruct e; exact H]);
      destruct e; cbn in *; repeat match type of E with (if ?c then _ else _) = _ => destruct c end;
      try discriminate; injection E as <- <-; try exact H; destruct remote; exact H.
Qed.
Lemma step_wait : forall s x b, k_wait s = Some b -> k_wait (step s x) = Some b.
Proof.
  assert (Hu : forall p s b, k_wait s = Some b -> k_wait (fst (ustep p s)) = Some b).
  { intros p s b H. destruct p; cbn; try exact H; rewrite H; reflexivity. }
  intros s x b H. destruct x as [| |e]; cbn [step].
  - unfold user_step. destruct (k_user s); try exact H; try (destruct (k <? k_n s); exact H).
    specialize (Hu p s b H). destruct (ustep p s); exact Hu.
  - unfold io_step. destruct (k_io s) as [|[]|p]; try exact H.
    specialize (Hu p s b H). destruct p; try (destruct (ustep _ s); exact Hu). exact H.
  - unfold io_event. destruct (k_io s), (k_user s); try exact H;
      (destruct (io_begin e (note_reply e s)) as [[s2 a]|] eqn:E; [|destruct e; exact H]);
      destruct e; cbn in *; repeat match type of E with (if ?c then _ else _) = _ => destruct c end;
      try discriminate; injection E as <- <-; try exact H; destruct remote; exact H.
Qed.

Theorem C35_future_stable : forall n xs ys b,
  (k_done (run n xs) = Some b -> k_done (run n (xs ++ ys)) = Some b) /\
  (k_wait (run n xs) = Some b -> k_wait (run n (xs ++ ys)) = Some b).
Proof.
  intros n xs ys b. unfold run. rewrite fold_left_app. generalize (fold_left step xs (init n)).
  induction ys as [|y ys IH]; intros s; cbn; [auto|].
  destruct (IH (step s y)) as [H1 H2]. split; intros H; [apply H1, step_done, H|apply H2, step_wait, H].
Qed.
Print Assumptions C35_future_stable.

(** 4. Nothing is lost: whenever both threads have finished and all known participants have been
    accepted as replied, completion has been reported and the future is ready; whenever one has failed,
    failure has been reported.  No update of the stages can be missed because of the interleaving. *)
Theorem C35_completion_reported : forall n xs,
  k_user (run n xs) = TUpd UDone -> k_io (run n xs) = IIdle ->
  (forall i, i < n -> k_peer (run n xs) i = PReplied) ->
  In LAll (k_log (run n xs)) /\ k_done (run n xs) = Some true /\ k_wait (run n xs) = Some true.
Proof.
  intros n xs Hu Hio Hall.
  assert (HG := reach_G n xs ltac:(right; right; rewrite Hu; discriminate)). rewrite Hu, Hio in HG. cbn in HG.
  assert (Ha : all_replied (run n xs)). { intros i Hi. rewrite run_n in Hi. auto. }
  assert (HL : In LAll (k_log (run n xs))).
  { destruct (in_dec ev_dec LAll (k_log (run n xs))) as [H|H]; [exact H|].
    destruct (g_live _ _ _ HG Ha H) as [Hx|Hx]; contradiction. }
  assert (HW : In LWaiting (k_log (run n xs))).
  { destruct (in_dec ev_dec LWaiting (k_log (run n xs))) as [H|H]; [exact H|].
    destruct (g_lwait _ _ _ HG (all_all_waiting _ Ha) H) as [Hx|Hx]; contradiction. }
  assert (HnF : ~ In LFail (k_log (run n xs))).
  { intros H. apply (fail_not_all (run n xs)); auto. apply (g_fail _ _ _ HG H). }
  split; [exact HL|]. split.
  - destruct (k_done (run n xs)) as [[]|] eqn:E; [reflexivity| |].
    + exfalso. apply HnF, (g_done2 _ _ _ HG E).
    + destruct (g_done3 _ _ _ HG E); contradiction.
  - destruct (k_wait (run n xs)) as [[]|] eqn:E; [reflexivity| |].
    + exfalso. apply HnF, (g_wait2 _ _ _ HG E).
    + destruct (g_wait3 _ _ _ HG E); contradiction.
Qed.
Print Assumptions C35_completion_reported.

Theorem C35_failure_reported : forall n xs i,
  k_user (run n xs) = TUpd UDone -> k_io (run n xs) = IIdle ->
  i < n -> k_peer (run n xs) i = PFailure ->
  In LFail (k_log (run n xs)) /\ k_done (run n xs) = Some false.
Proof.
  intros n xs i Hu Hio Hi Hp.
  assert (HG := reach_G n xs ltac:(right; right; rewrite Hu; discriminate)).
  assert (Hf : some_failed (run n xs)) by (exists i; rewrite run_n; auto).
  assert (HL : In LFail (k_log (run n xs))).
  { destruct (in_dec ev_dec LFail (k_log (run n xs))) as [H|H]; [exact H|].
    destruct (i_sees _ (inv_run n xs) Hf H) as [Hx|Hx].
    - rewrite Hio in Hx. contradiction.
    - rewrite Hu in Hx. destruct Hx; discriminate. }
  split; [exact HL|].
  assert (HnA : ~ In LAll (k_log (run n xs))).
  { intros H. apply (fail_not_all (run n xs)); auto. apply (g_allrep _ _ _ HG H). }
  destruct (k_done (run n xs)) as [[]|] eqn:E; [|reflexivity|].
  - exfalso. apply HnA, (g_done1 _ _ _ HG E).
  - destruct (g_done3 _ _ _ HG E); contradiction.
Qed.
Print Assumptions C35_failure_reported.

(** 5. JoinSimulation does not wait for ever: once both threads have finished, no connection attempt is
    under way, no timer is armed and no participant has merely announced that it is connecting, the
    future JoinSimulation waits for is ready. *)
Theorem C35_join_decided : forall n xs,
  k_user (run n xs) = TUpd UDone -> k_io (run n xs) = IIdle ->
  (forall i, i < n -> k_conn (run n xs) i = false /\ k_timer (run n xs) i = false /\
                      k_peer (run n xs) i <> PConnecting) ->
  k_wait (run n xs) <> None.
Proof.
  intros n xs Hu Hio Hq Hw.
  assert (HG := reach_G n xs ltac:(right; right; rewrite Hu; discriminate)).
  pose proof (inv_run n xs) as HI.
  destruct (g_wait3 _ _ _ HG Hw) as [HnW HnF].
  assert (Hna : forall i, ~ acting (run n xs) i) by (intros i (y & a & H); congruence).
  assert (Haw : all_waiting (run n xs)).
  { intros i Hi. rewrite run_n in Hi. destruct (Hq i Hi) as (Hc & Ht & Hp).
    destruct (k_peer (run n xs) i) eqn:E; try reflexivity; exfalso.
    - apply (i_valid _ HI UDone Hu i); [rewrite run_n; exact Hi|exact E].
    - apply HnF. apply (C35_failure_reported n xs i); auto.
    - destruct (i_direct _ HI i E) as [H|H]; [congruence|]. exact (Hna i H).
    - destruct (i_requested _ HI i E) as [H|H]; [congruence|]. exact (Hna i H).
    - apply Hp; reflexivity. }
  destruct (g_lwait _ _ _ HG Haw HnW) as [Hx|Hx]; apply Hx; [rewrite Hu|rewrite Hio]; reflexivity.
Qed.
Print Assumptions C35_join_decided.

(** Without the last condition the statement is false: a participant which has announced that it is
    connecting and never does (it crashed, or its connection attempt got lost) leaves JoinSimulation
    waiting for ever: the timer of the request has no effect in that stage, and whatever the joining
    participant does by itself afterwards, the future never becomes ready. *)
Definition hang : list step_of :=
  repeat SUser 40 ++ ev_then (EvConnectFailed 0 true true) ++ ev_then (EvIsConnecting 0).
Definition own (x : step_of) : bool :=
  match x with
  | SUser | SIo | SEvent (EvConnected _) | SEvent (EvConnectFailed _ _ _) | SEvent (EvTimer _ _) => true
  | _ => false
  end.

Lemma own_stuck : forall s y, k_user s = TUpd UDone -> k_io s = IIdle -> (forall i, k_conn s i = false) ->
  (forall i, k_peer s i <> PRequested) -> own y = true -> step s y = s.
Proof.
  intros s y Hu Hi Hc Hp Hy. destruct y as [| |e]; cbn [step].
  - unfold user_step. rewrite Hu. cbn. apply set_user_eta, Hu.
  - unfold io_step. rewrite Hi. reflexivity.
  - unfold io_event. rewrite Hi, Hu. destruct e; try discriminate; cbn; rewrite ?Hc; try reflexivity.
    destruct (k_timer s i); [|reflexivity].
    destruct (pstage_eqb (k_peer s i) PRequested) eqn:E; [|reflexivity].
    apply pstage_eqb_eq in E. exfalso. apply (Hp i E).
Qed.
Lemma own_stuck_all : forall ys s, k_user s = TUpd UDone -> k_io s = IIdle -> (forall i, k_conn s i = false) ->
  (forall i, k_peer s i <> PRequested) -> forallb own ys = true -> fold_left step ys s = s.
Proof.
  induction ys as [|y ys IH]; intros s Hu Hi Hc Hp Hy; cbn; [reflexivity|].
  cbn in Hy. apply andb_prop in Hy. destruct Hy as [Hy Hys]. rewrite (own_stuck s y); auto.
Qed.
Lemma run_app : forall n xs ys, run n (xs ++ ys) = fold_left step ys (run n xs).
Proof. intros. apply fold_left_app. Qed.
Definition hang_state : st := Eval vm_compute in run 1 hang.
Lemma hang_state_eq : run 1 hang = hang_state.
Proof. vm_compute. reflexivity. Qed.

Theorem C35_join_decided_refuted :
  exists n xs, k_user (run n xs) = TUpd UDone /\ k_io (run n xs) = IIdle /\
  forall ys, forallb own ys = true -> k_wait (run n (xs ++ ys)) = None /\ k_done (run n (xs ++ ys)) = None.
Proof.
  exists 1, hang. rewrite hang_state_eq. split; [reflexivity|]. split; [reflexivity|].
  intros ys Hy.
  assert (E : run 1 (hang ++ ys) = hang_state).
  { rewrite run_app, hang_state_eq.
    apply own_stuck_all; auto; intros [|i]; cbn; try reflexivity; discriminate. }
  rewrite E. split; reflexivity.
Qed.
Print Assumptions C35_join_decided_refuted.

(** 6. If StartConnecting is not overtaken by the I/O thread, every report is made at most once. *)
Theorem C35_reports_once_if_not_overtaken : forall n m ys,
  k_user (run n (repeat SUser m)) = TUpd UDone ->
  let l := k_log (run n (repeat SUser m ++ ys)) in
  times LAll l <= 1 /\ times LFail l <= 1 /\ times LWaiting l <= 1.
Proof.
  intros n m ys Hu. cbv zeta. destruct (SQ_run n m ys Hu) as [_ HS]. destruct HS as [_ H2 H3 H4].
  rewrite H2, H3. clear H2 H3.
  destruct (k_stage (run n (repeat SUser m ++ ys))), (iopos_pc (k_io (run n (repeat SUser m ++ ys)))); lia.
Qed.
Print Assumptions C35_reports_once_if_not_overtaken.

Example ex_not_overtaken : k_user (run 3 (repeat SUser 40)) = TUpd UDone.
Proof. vm_compute. reflexivity. Qed.

(** In general they are not: the user thread and the I/O thread can both find that all replies have been
    received, or that a participant failed; the second call is absorbed by the promise. *)
Definition overtake_all : list step_of :=
  repeat SUser 3 (* stage, peer 0, end of the loop: now at U0 *) ++
  ev_then (EvConnected 0) ++ (SEvent (EvReply 0) :: repeat SIo 1) ++
  repeat SUser 9 (* up to UStoreAll *) ++ repeat SIo 40 ++ repeat SUser 40.
Example ex_overtake : k_log (run 1 overtake_all) = [LWaiting; LReply 0; LAll; LAll].
Proof. vm_compute. reflexivity. Qed.

Theorem C35_reports_once_refuted :
  (exists n xs, times LAll (k_log (run n xs)) = 2) /\ (exists n xs, times LFail (k_log (run n xs)) = 2).
Proof.
  split.
  - exists 1, overtake_all. vm_compute. reflexivity.
  - exists 1, (repeat SUser 3 ++ (SEvent (EvConnectFailed 0 false false) :: repeat SIo 3) ++
       repeat SUser 4 ++ repeat SIo 40 ++ repeat SUser 40).
    vm_compute. reflexivity.
Qed.
Print Assumptions C35_reports_once_refuted.
