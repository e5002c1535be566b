(** C50: the queue between the registry and the dashboard worker. C60: what the dashboard reports about simulations. *)
From Coq Require Import NArith List Arith Bool Lia.
From Verif Require Import Base SystemStateModel DashboardModel DashboardProofs.
Import ListNotations.
Open Scope N_scope.

(** ** C50 *)
(** For every interleaving of any number of producers, a stopper and the consumer: what has been dequeued followed by what is
    still queued is exactly what was enqueued before the first Stop. *)
Theorem C50_dequeued_exactly_once_in_order : forall T (l : list (nop T)),
  n_got (nrun l net0) ++ q_items (n_q (nrun l net0)) = before_stop T l.
Proof. intros T l. apply (queue_inv T l). Qed.
Print Assumptions C50_dequeued_exactly_once_in_order.
Example C50_dequeued_case :
  let s := nrun [NConsume; NEnqueue 1; NEnqueue 2; NNotify; NConsume; NStop; NEnqueue 3; NConsume] net0 in n_got s = [1; 2] /\ q_items (n_q s) = [].
Proof. vm_compute. auto. Qed.

(** The consumer never sleeps while there is something to dequeue, or after a stop, unless a notification is on its way. *)
Theorem C50_no_lost_wakeup : forall T (l : list (nop T)),
  n_waiting (nrun l net0) = true -> n_pending (nrun l net0) = O ->
  q_items (n_q (nrun l net0)) = [] /\ stopped T l = false.
Proof. intros T l W P. destruct (queue_inv T l) as (_ & B & C). destruct (C W P) as (D & E). split; [exact D|congruence]. Qed.
Print Assumptions C50_no_lost_wakeup.
Example C50_no_lost_wakeup_case : let s := nrun [NEnqueue 1; NConsume; NConsume; NNotify; NConsume] (@net0 N) in n_waiting s = true /\ n_pending s = O.
Proof. vm_compute. auto. Qed.

(** After a stop, once the notifications are out, one more call hands over everything that was enqueued before the stop, and the call
    after that reports the end. *)
Theorem C50_after_stop_drained_then_end : forall T (l : list (nop T)), stopped T l = true -> n_pending (nrun l net0) = O ->
  let s := nrun (l ++ [NConsume]) net0 in
  n_got s = before_stop T l /\ dequeue_all [] (n_q s) = Some (false, [], mkQ [] true).
Proof.
  intros T l H P. cbv zeta. rewrite nrun_snoc. destruct (queue_inv T l) as (A & B & C).
  destruct (nrun l net0) as [[it st] pe wa go]. cbn in *. subst st. rewrite H in *. destruct wa.
  - destruct (C eq_refl P). discriminate.
  - unfold dequeue_all. cbn. destruct it; cbn; rewrite <- A; auto.
Qed.
Print Assumptions C50_after_stop_drained_then_end.
Example C50_after_stop_case : let l := [NEnqueue 7; NStop; NNotify; NNotify] in stopped N l = true /\ n_pending (nrun l net0) = O.
Proof. vm_compute. auto. Qed.

(** A call reports the end only after a stop, with nothing left. *)
Theorem C50_end_only_after_stop : forall T (l : list (nop T)) ev q,
  dequeue_all [] (n_q (nrun l net0)) = Some (false, ev, q) -> stopped T l = true /\ n_got (nrun l net0) = before_stop T l.
Proof.
  intros T l ev q. destruct (queue_inv T l) as (A & B & _). unfold dequeue_all. destruct (q_items (n_q (nrun l net0))) as [|x r].
  - rewrite B. destruct (stopped T l); [|discriminate]. intros _. rewrite app_nil_r in A. auto.
  - cbn. discriminate.
Qed.
Print Assumptions C50_end_only_after_stop.
Example C50_end_case : dequeue_all [] (n_q (nrun [NEnqueue 1; NConsume; NStop] (@net0 N))) = Some (false, [], mkQ [] true).
Proof. reflexivity. Qed.

(** ** C60 *)
(** However the events are cut into batches: for every simulation id, the connections, system states, participant states and services
    reported under it are those of the events that belong to it, each exactly once and in order; likewise the metrics; and the end is
    reported iff the simulation ended. *)
Theorem C60_reports_are_the_events_of_the_simulation : forall bs ids id,
  let rs := snd (wbatches None bs (worker0 ids)) in
  let es := of_id id (attrib no_names ids (concat bs)) in
  (forall k, reported k id rs = filter (of_kind k) es) /\ reported_metrics id rs = metrics_of es /\ reported_stop id rs = ends es.
Proof.
  intros bs ids id. cbv zeta. destruct (wbatches_spec bs (worker0 ids)) as (att & H).
  { constructor. } { intros i. reflexivity. }
  destruct (wbatches None bs (worker0 ids)) as [w rs]. destruct H as (_ & DN & A & B). cbn [snd].
  specialize (A []). rewrite app_nil_r in A. change (names_fun (worker0 ids)) with no_names in A. change (w_ids (worker0 ids)) with ids in A.
  cbn [attrib] in A. rewrite app_nil_r in A. rewrite A.
  destruct (B id) as (X & Y & Z). rewrite DN in X, Z. split; [|split; [exact Y|]].
  - intros k. specialize (X k). destruct k; cbn in X; rewrite app_nil_r in X; exact X.
  - cbn in Z. rewrite orb_false_r in Z. exact Z.
Qed.
Print Assumptions C60_reports_are_the_events_of_the_simulation.
Example C60_reports_case :
  let bs := [[(1, PStart); (1, PConnected 10); (2, PStart); (2, PConnected 20)]; [(1, PService 3); (2, PMetric 4); (1, PEnd); (1, PStart); (1, PService 5)]] in
  let rs := snd (wbatches None bs (worker0 [100; 200; 101])) in
  reported KServ 100 rs = [PService 3] /\ reported KServ 101 rs = [PService 5] /\ reported_metrics 200 rs = [4]
  /\ reported_stop 100 rs = true /\ reported_stop 101 rs = false.
Proof. vm_compute. auto. Qed.

(** When the worker is aborted, what it has reported are the first of these. *)
Theorem C60_aborted_reports_are_a_prefix : forall bs ids id k a,
  exists rest, filter (of_kind k) (of_id id (attrib no_names ids (concat bs))) = reported k id (snd (wbatches (Some a) bs (worker0 ids))) ++ rest.
Proof.
  intros bs ids id k a. destruct (wbatches_abort bs a (worker0 ids)) as (att & rest & H); [constructor|].
  destruct (wbatches (Some a) bs (worker0 ids)) as [w rs]. destruct H as (_ & A & B). cbn [snd].
  change (names_fun (worker0 ids)) with no_names in A. change (w_ids (worker0 ids)) with ids in A. rewrite A, of_id_app, filter_app.
  destruct (B id) as (X & _ & _). specialize (X k). unfold sel in X.
  replace (b_of k (bulk_get id (w_bulks (worker0 ids)))) with (@nil payload) in X by (destruct k; reflexivity). cbn [app] in X.
  rewrite <- X, <- app_assoc. eauto.
Qed.
Print Assumptions C60_aborted_reports_are_a_prefix.
Example C60_aborted_case : reported KServ 7 (snd (wbatches (Some 3%nat) [[(1, PStart); (1, PService 1)]; [(1, PService 2); (1, PService 3)]] (worker0 [7]))) = [PService 1].
Proof. reflexivity. Qed.

(** Every update is sent after the creation of the simulation with its id. *)
Theorem C60_creation_precedes_updates : forall bs ids a, ordered [] (snd (wbatches a bs (worker0 ids))).
Proof.
  intros bs ids a. assert (W : winv [] (worker0 ids)) by (split; intros x []).
  pose proof (wbatches_ordered bs a [] _ W) as H. destruct (wbatches a bs (worker0 ids)) as [w rs]. exact (proj1 H).
Qed.
Print Assumptions C60_creation_precedes_updates.
Example C60_creation_case : snd (wbatches None [[(1, PStart); (1, PConnected 2)]] (worker0 [9])) = [RCreate 1 9; RBulk 9 (mkBulk [PConnected 2] [] [] [] false)].
Proof. reflexivity. Qed.

(** If the server hands out distinct ids, no two simulations share an id, and each event goes to an id created under the name of its own
    simulation. *)
Theorem C60_ids_are_not_mixed_up : forall bs ids, NoDup ids ->
  let att := attrib no_names ids (concat bs) in
  (forall n m i p q, In (n, i, p) att -> In (m, i, q) att -> n = m)
  /\ (forall n i p, In (n, i, p) att -> In (RCreate n i) (snd (wbatches None bs (worker0 ids)))).
Proof.
  intros bs ids ND. split.
  - apply attrib_unique; [exact ND|discriminate|discriminate].
  - intros n i p H. apply attrib_created in H. destruct H as [H|H]; [discriminate|].
    pose proof (wbatches_created bs (worker0 ids)) as E. change (names_fun (worker0 ids)) with no_names in E. change (w_ids (worker0 ids)) with ids in E.
    rewrite E in H. unfold creates in H. apply in_flat_map in H. destruct H as (r & A & B). destruct r; try contradiction.
    destruct B as [B|[]]. injection B as -> ->. exact A.
Qed.
Print Assumptions C60_ids_are_not_mixed_up.
Example C60_ids_case : attrib no_names [7; 8] [(1, PStart); (2, PStart); (2, PService 1); (1, PService 2)] = [(2, 8, PService 1); (1, 7, PService 2)].
Proof. reflexivity. Qed.

(** If, whenever a participant leaves and others stay, one of these has published a status, and the server creates every simulation, then
    no event but the start events is dropped. *)
Theorem C60_no_event_dropped_partial : forall l ids, regular (fun _ => []) (fun _ => []) l ->
  Forall (fun i => i <> 0) ids -> (length (filter (fun e => negb (not_start e)) (snd (drun l []))) <= length ids)%nat ->
  map (fun x => (fst (fst x), snd x)) (attrib no_names ids (snd (drun l []))) = filter not_start (snd (drun l [])).
Proof.
  intros l ids R NZ LN. apply (regular_attributed l (fun _ => []) (fun _ => []) [] no_names ids); auto.
  - intros n p. reflexivity.
  - intros n. split; reflexivity.
Qed.
Print Assumptions C60_no_event_dropped_partial.
Example C60_no_event_dropped_case :
  let l := [DConnected 1 10; DService 1 3 false; DStatus 1 10 (Some Running) 0; DConnected 1 11; DDisconnected 1 11 0; DDisconnected 1 10 0; DConnected 1 12] in
  regular (fun _ => []) (fun _ => []) l /\
  snd (drun l []) = [(1, PStart); (1, PConnected 10); (1, PService 3); (1, PStatus 10 Running 0); (1, PConnected 11); (1, PEnd); (1, PStart); (1, PConnected 12)].
Proof. vm_compute. intuition discriminate. Qed.

(** the participants of a simulation connected after the callbacks *)
Definition connected (l : list dinput) (n : N) : list N :=
  fold_left (fun c i => match i with DConnected m p => if m =? n then p :: c else c | DDisconnected m p _ => if m =? n then rm p c else c | _ => c end) l [].
(** Without that: a simulation is reported as ended although a participant is connected, and what this participant does afterwards is
    dropped. *)
Theorem C60_end_means_nobody_is_connected_refuted : exists l n ids d,
  connected l n <> [] /\ Forall (fun i => i <> 0) ids /\ last (snd (drun l [])) (n, PStart) = (n, PEnd)
  /\ attrib no_names ids (snd (drun (l ++ [DService n d false]) [])) = attrib no_names ids (snd (drun l [])).
Proof.
  exists [DConnected 1 10; DConnected 1 11; DDisconnected 1 10 0], 1, [7; 8; 9], 3.
  split; [discriminate|]. split; [repeat constructor; discriminate|]. vm_compute. auto.
Qed.
Print Assumptions C60_end_means_nobody_is_connected_refuted.
(** If that participant then publishes a status, participants that connect later are not reported at all. *)
Theorem C60_connected_participants_are_reported_refuted : exists l n ids q,
  In q (connected l n) /\ Forall (fun i => i <> 0) ids /\ In (n, PConnected q) (snd (drun l []))
  /\ forall id, ~ In (PConnected q) (reported KConn id (snd (wbatches None [snd (drun l [])] (worker0 ids)))).
Proof.
  exists [DConnected 1 10; DConnected 1 11; DDisconnected 1 10 0; DStatus 1 11 (Some Running) 0; DConnected 1 12], 1, [7; 8; 9], 12.
  split; [vm_compute; auto|]. split; [repeat constructor; discriminate|]. split; [vm_compute; auto 9|].
  intros id. destruct (C60_reports_are_the_events_of_the_simulation [snd (drun [DConnected 1 10; DConnected 1 11; DDisconnected 1 10 0; DStatus 1 11 (Some Running) 0; DConnected 1 12] [])] [7; 8; 9] id) as (A & _).
  rewrite A. intros H. apply filter_In in H. destruct H as (H & _). unfold of_id in H. apply in_map_iff in H. destruct H as (x & X & H).
  apply filter_In in H. destruct H as (H & _). vm_compute in H. destruct H as [<-|[<-|[<-|[]]]]; discriminate X.
Qed.
Print Assumptions C60_connected_participants_are_reported_refuted.
(** A failed creation is not repeated while the simulation runs: later participants are not reported either. *)
Theorem C60_failed_creation_is_repeated_refuted : exists l n q ids,
  regular (fun _ => []) (fun _ => []) l /\ In q (connected l n) /\ (forall i, In i (tl ids) -> i <> 0) /\ (length (snd (drun l [])) <= length ids)%nat
  /\ snd (wbatches None [snd (drun l [])] (worker0 ids)) = [].
Proof.
  exists [DConnected 1 10; DStatus 1 10 (Some Running) 0; DConnected 1 11], 1, 11, [0; 7; 8; 9].
  split; [vm_compute; intuition discriminate|]. split; [vm_compute; auto|]. split; [cbn; intros i [<-|[<-|[<-|[]]]]; discriminate|].
  split; [vm_compute; auto|reflexivity].
Qed.
Print Assumptions C60_failed_creation_is_repeated_refuted.
(** Destroying the dashboard drops events that were queued before, for instance the end of a simulation. *)
Theorem C60_events_before_destruction_are_reported_refuted : exists bs ids id a,
  ends (of_id id (attrib no_names ids (concat bs))) = true /\ reported_stop id (snd (wbatches (Some a) bs (worker0 ids))) = false.
Proof. exists [[(1, PStart); (1, PConnected 2); (1, PEnd)]], [7], 7, 2%nat. vm_compute. auto. Qed.
Print Assumptions C60_events_before_destruction_are_reported_refuted.
