(** Properties of the network simulator (C62) and of the controllers it simulates (C63). *)
From Coq Require Import List Arith Bool ZArith Lia.
From Verif Require Import Base NetSimModel NetSimProofs.
Import ListNotations.
Open Scope nat_scope.

(** The events of one more operation. *)
Definition fresh (me : nat) (provide : ntype * nat -> nat -> option nat) (ops : list op) (o : op) : list ev :=
  skipn (length (s_log (run me provide ops))) (s_log (run me provide (ops ++ [o]))).
Lemma fresh_eq me provide ops o l : s_log (step me provide (run me provide ops) o) = s_log (run me provide ops) ++ l -> fresh me provide ops o = l.
Proof. intros H. unfold fresh. rewrite run_snoc, H, skipn_app, skipn_all, Nat.sub_diag. reflexivity. Qed.

(** *** A concrete simulation *)
Definition can (p net sid : nat) : desc :=
  {| d_part := p; d_net := net; d_type := TCan; d_kind := KController; d_sid := sid; d_named := true; d_typed := true |}.
Definition lin (p net sid : nat) : desc :=
  {| d_part := p; d_net := net; d_type := TLin; d_kind := KController; d_sid := sid; d_named := true; d_typed := true |}.
Definition link (p net : nat) (t : ntype) : desc :=
  {| d_part := p; d_net := net; d_type := t; d_kind := KLink; d_sid := 99; d_named := true; d_typed := true |}.
(** the user simulates all controllers but the third; controller [i] is called [100 + i] *)
Definition user (n : ntype * nat) (i : nat) : option nat := if i =? 3 then None else Some (100 + i).
Definition ops1 : list op :=
  [OSimulate (TCan, 1); OSimulate (TCan, 2); OStart [can 10 1 5; can 10 2 6]; ODiscover true (can 11 1 5);
   ODiscover true (can 12 1 5); ODiscover true (can 13 3 7); ODiscover false (can 10 1 5)].
Ltac wf_op := vm_compute; first [exact I | solve [repeat constructor; cbn; intuition congruence] | solve [cbn; intuition congruence]].
Ltac wf_all :=
  let a := fresh "a" in let o := fresh "o" in let b := fresh "b" in let H := fresh "H" in
  intros a o b H; repeat (destruct a as [|? a]; [injection H as <- <-; wf_op | injection H as ? H; subst]); destruct a; discriminate.
Lemma ops1_wf : wf 7 user ops1.
Proof.
  wf_all.
Qed.
Example ops1_log : s_log (run 7 user ops1) =
  [EProducer (TCan, 1); EProvide (TCan, 1) 1; EProducer (TCan, 2); EProvide (TCan, 2) 2; EProvide (TCan, 1) 3;
   EProvide (TCan, 1) 4; ERemoved (TCan, 1) 1].
Proof. vm_compute. reflexivity. Qed.


Lemma receive_log n p sid x m s : s_log (receive n p sid x m s) = s_log s ++
  (if x then [] else match lookup n s with Some w => match get pair_eqb (p, sid) (n_ctl w) with Some u => [ERequest u m] | None => [] end | None => [] end) ++
  (if existsb (net_eqb n) (s_dead s) then [EUb] else []).
Proof.
  unfold receive. destruct (lookup n s) as [w|]; destruct x; cbn [app]; try (destruct existsb; cbn; now rewrite ?app_nil_r).
  destruct get; cbn [app s_dead emit]; destruct existsb; cbn; rewrite <- ?app_assoc, ?app_nil_r; reflexivity.
Qed.
(** A message of a controller reaches the user's controller provided for it, and no other: the one that is
    present under the participant and service id of the sender on that network. *)
Theorem C62_request_routed : forall me provide ops n p sid m, wf me provide ops ->
  forall u m', In (ERequest u m') (fresh me provide ops (OReceive n p sid false m)) <->
    m' = m /\ simulated n (abs_run me provide ops) = true /\
    exists i d, In (i, d) (a_alive (abs_run me provide ops)) /\ d_part d = p /\ d_sid d = sid /\ net_of d = n /\
                d_typed d = true /\ provide n i = Some u.
Proof.
  intros me provide ops n p sid m W u m'. destruct (inv_run me provide ops W) as [I1 _].
  rewrite (fresh_eq me provide ops (OReceive _ _ _ _ _) _ (receive_log _ _ _ _ _ _)). rewrite in_app_iff.
  assert (X : ~ In (ERequest u m') (if existsb (net_eqb n) (s_dead (run me provide ops)) then [EUb] else [])).
  { destruct existsb; cbn; intuition discriminate. }
  rewrite (v_sims _ _ _ I1). destruct (lookup n (run me provide ops)) as [w|] eqn:L.
  - pose proof (o_ctl _ _ _ _ (v_nets _ _ _ I1 _ _ L) (p, sid)) as K. split.
    + intros [H|H]; [|tauto]. destruct (get _ _ _) eqn:G; [|destruct H]. destruct H as [[= <- <-]|[]]. spl; auto.
      destruct (proj1 (K n0) eq_refl) as (i & d & A & B & C). exists i, d. unfold addr in B. injection B as <- <-. tauto.
    + intros (-> & _ & i & d & A & <- & <- & B). left. assert (G : get pair_eqb (d_part d, d_sid d) (n_ctl w) = Some u).
      { apply K. exists i, d. unfold addr. tauto. } rewrite G. cbn. auto.
  - split; [intros [[]|H]; tauto|intros (_ & H & _); discriminate].
Qed.
Print Assumptions C62_request_routed.
(** At most one function of the user is called for a message, and none for messages of simulated controllers. *)
Theorem C62_request_once : forall me provide ops n p sid x m,
  length (filter (fun e => match e with ERequest _ _ => true | _ => false end) (fresh me provide ops (OReceive n p sid x m))) <= 1.
Proof.
  intros. rewrite (fresh_eq me provide ops (OReceive _ _ _ _ _) _ (receive_log _ _ _ _ _ _)), filter_app, app_length.
  assert (E : length (filter (fun e => match e with ERequest _ _ => true | _ => false end) (if existsb (net_eqb n) (s_dead (run me provide ops)) then [EUb] else [])) = 0) by (destruct existsb; auto).
  rewrite E. destruct x; cbn; auto. destruct lookup; cbn; auto. destruct get; cbn; auto.
Qed.
Print Assumptions C62_request_once.
Theorem C62_simulator_messages_ignored : forall me provide ops n p sid m u m',
  ~ In (ERequest u m') (fresh me provide ops (OReceive n p sid true m)).
Proof. intros. rewrite (fresh_eq me provide ops (OReceive _ _ _ _ _) _ (receive_log _ _ _ _ _ _)). destruct existsb; cbn; intuition discriminate. Qed.
Print Assumptions C62_simulator_messages_ignored.

Lemma fold_log (t : list (nat * (nat * nat))) m rs : forall s,
  s_log (fold_left (fun s r => match get Nat.eqb r t with Some (p, sid) => emit (ESend p sid m) s | None => s end) rs s) =
  s_log s ++ flat_map (fun r => match get Nat.eqb r t with Some (p, sid) => [ESend p sid m] | None => [] end) rs.
Proof.
  induction rs as [|r rs IH]; intros s; cbn [fold_left flat_map]. { now rewrite app_nil_r. }
  rewrite IH. destruct (get Nat.eqb r t) as [[p q]|]; cbn; auto. now rewrite <- app_assoc.
Qed.
(** An event produced for some controllers is sent to the participant of each of them that is present on the network
    and simulated, under its service id, in the given order, and to no other. *)
Theorem C62_events_routed : forall me provide ops n rs m, wf me provide ops -> In (EProducer n) (s_log (run me provide ops)) ->
  fresh me provide ops (OProduce n rs m) =
  flat_map (fun r => match find (fun x => fst x =? r) (a_alive (abs_run me provide ops)) with
    | Some (_, d) => if net_eqb (net_of d) n && d_typed d && match provide n r with Some _ => true | None => false end
                     then [ESend (d_part d) (d_sid d) m] else []
    | None => [] end) rs.
Proof.
  intros me provide ops n rs m W P. destruct (inv_run me provide ops W) as [I1 _]. apply (v_prod _ _ _ I1) in P as (w & L & P).
  apply fresh_eq. cbn [step]. unfold produce. rewrite L, P, fold_log. f_equal. apply flat_map_ext. intros r.
  pose proof (o_tgt _ _ _ _ (v_nets _ _ _ I1 _ _ L) r) as K.
  destruct (find (fun x => fst x =? r) _) as [[j d]|] eqn:F.
  - apply find_some in F as [F1 F2]. cbn in F2. apply Nat.eqb_eq in F2. subst j.
    assert (U : forall e, In (r, e) (a_alive (abs_run me provide ops)) -> e = d).
    { intros e He. pose proof (v_ids _ _ _ I1) as N. eapply nodup_inj with (f := fst) in N; [|exact He|exact F1|reflexivity]. congruence. }
    destruct (net_eqb (net_of d) n && d_typed d && _) eqn:C.
    + rewrite !andb_true_iff in C. destruct C as [[C1 C2] C3]. apply net_eqb_eq in C1.
      assert (G : get Nat.eqb r (n_tgt w) = Some (addr d)). { apply K. exists d. spl; auto. destruct (provide n r); congruence. }
      rewrite G. reflexivity.
    + destruct (get Nat.eqb r (n_tgt w)) as [x|] eqn:G; auto. exfalso. destruct (proj1 (K x) eq_refl) as (e & A & B & C' & D & E). apply U in A. subst e.
      rewrite (proj2 (net_eqb_eq _ _) C'), D in C. destruct (provide n r); [discriminate|tauto].
  - destruct (get Nat.eqb r (n_tgt w)) as [x|] eqn:G; auto. exfalso. destruct (proj1 (K x) eq_refl) as (e & A & _). apply (find_none _ _ F) in A.
    cbn in A. rewrite Nat.eqb_refl in A. discriminate.
Qed.
Print Assumptions C62_events_routed.
(** Without an event producer nothing is sent. *)
Theorem C62_events_need_producer : forall me provide ops n rs m, wf me provide ops -> ~ In (EProducer n) (s_log (run me provide ops)) ->
  fresh me provide ops (OProduce n rs m) = [].
Proof.
  intros me provide ops n rs m W P. destruct (inv_run me provide ops W) as [I1 _]. apply fresh_eq. cbn [step]. rewrite app_nil_r. unfold produce.
  destruct (lookup n _) as [w|] eqn:L; auto. destruct (n_prod w) eqn:Q; auto. exfalso. apply P. apply (v_prod _ _ _ I1). eauto.
Qed.
Print Assumptions C62_events_need_producer.

(** Every descriptor is given out once, is not 0, and belongs to one network. *)
Theorem C62_descriptor_unique : forall me provide ops n i l1 l2, wf me provide ops -> s_log (run me provide ops) = l1 ++ EProvide n i :: l2 ->
  1 <= i /\ forall m, ~ In (EProvide m i) (l1 ++ l2).
Proof.
  intros me provide ops n i l1 l2 W H. destruct (inv_run me provide ops W) as [I1 _]. pose proof (v_hist _ _ _ I1) as V. pose proof (V _ _ _ H) as [A B].
  split; auto. intros m X. apply in_app_iff in X as [X|X]; [now apply B in X|]. apply in_split in X as (l3 & l4 & ->).
  rewrite app_comm_cons, app_assoc in H. apply V in H as [_ H]. apply (H n). apply in_or_app. right. left. reflexivity.
Qed.
Print Assumptions C62_descriptor_unique.
(** The user is asked for every controller present on a simulated network. *)
Theorem C62_present_is_provided : forall me provide ops i d, wf me provide ops -> In (i, d) (a_alive (abs_run me provide ops)) ->
  simulated (net_of d) (abs_run me provide ops) = true -> In (EProvide (net_of d) i) (s_log (run me provide ops)).
Proof. intros me provide ops i d W. apply (v_alive _ _ _ (proj1 (inv_run me provide ops W))). Qed.
Print Assumptions C62_present_is_provided.
(** The removal of a controller is reported to the network it was provided on, once, and exactly if it is not present any more. *)
Theorem C62_removed_once : forall me provide ops n i l1 l2, wf me provide ops -> s_log (run me provide ops) = l1 ++ ERemoved n i :: l2 ->
  In (EProvide n i) l1 /\ forall m, ~ In (ERemoved m i) (l1 ++ l2).
Proof.
  intros me provide ops n i l1 l2 W H. destruct (inv_run me provide ops W) as [I1 _]. pose proof (v_hist _ _ _ I1) as V. pose proof (V _ _ _ H) as [A B].
  split; auto. intros m X. apply in_app_iff in X as [X|X]; [now apply B in X|]. apply in_split in X as (l3 & l4 & ->).
  rewrite app_comm_cons, app_assoc in H. apply V in H as [_ H]. apply (H n). apply in_or_app. right. left. reflexivity.
Qed.
Print Assumptions C62_removed_once.
Theorem C62_removed_iff_gone : forall me provide ops n i, wf me provide ops -> In (EProvide n i) (s_log (run me provide ops)) ->
  (In (ERemoved n i) (s_log (run me provide ops)) <-> ~ exists d, In (i, d) (a_alive (abs_run me provide ops))).
Proof.
  intros me provide ops n i W H. destruct (inv_run me provide ops W) as [I1 _]. split.
  - intros R (d & D). eapply (v_rem _ _ _ I1); eauto.
  - intros N. destruct (v_prov _ _ _ I1 _ _ H) as [X|(d & X & _)]; auto. exfalso. apply N. eauto.
Qed.
Print Assumptions C62_removed_iff_gone.
(** A network gets its event producer at most once, and only if it is simulated. *)
Theorem C62_producer_once : forall me provide ops n l1 l2, wf me provide ops -> s_log (run me provide ops) = l1 ++ EProducer n :: l2 ->
  simulated n (abs_run me provide ops) = true /\ ~ In (EProducer n) (l1 ++ l2).
Proof.
  intros me provide ops n l1 l2 W H. destruct (inv_run me provide ops W) as [I1 _]. pose proof (v_hist _ _ _ I1) as V. split.
  - rewrite (v_sims _ _ _ I1). assert (X : In (EProducer n) (s_log (run me provide ops))) by (rewrite H; apply in_or_app; cbn; auto).
    apply (v_prod _ _ _ I1) in X as (w & -> & _). auto.
  - intros X. apply in_app_iff in X as [X|X]; [apply (V _ _ _ H X)|]. apply in_split in X as (l3 & l4 & ->).
    rewrite app_comm_cons, app_assoc in H. apply V in H. apply H. apply in_or_app. right. left. reflexivity.
Qed.
Print Assumptions C62_producer_once.
(** If networks of different types have different names, then a network has its event producer before the user is asked
    for its first controller. *)
Definition mentioned (ops : list op) (d : desc) : Prop :=
  (exists c, In (ODiscover c d) ops) \/ exists l, In (OStart l) ops /\ In d l.
Theorem C62_producer_first : forall me provide ops, wf me provide ops ->
  (forall n d, In (OSimulate n) ops -> mentioned ops d -> d_net d = snd n -> d_type d = fst n) ->
  forall n i l1 l2, s_log (run me provide ops) = l1 ++ EProvide n i :: l2 -> In (EProducer n) l1.
Proof.
  intros me provide ops W H n i l1 l2 E.
  assert (X : Inv3 (mentioned ops) (fun n => In (OSimulate n) ops) (run me provide ops) (abs_run me provide ops)).
  { apply inv3_run; auto.
    - intros m d A B C. unfold net_of. rewrite (H m d A B C), C. now destruct m.
    - apply Forall_forall. intros o Ho. destruct o; cbn; auto.
      + apply Forall_forall. intros d Hd. right. eauto.
      + left. eauto. }
  exact (w_hist _ _ _ _ X _ _ _ E).
Qed.
Print Assumptions C62_producer_first.

(** As long as no network is simulated twice, no destroyed router is called. *)
Theorem C62_no_dangling_router : forall me provide ops, NoDup (flat_map (fun o => match o with OSimulate n => [n] | _ => [] end) ops) ->
  ~ In EUb (s_log (run me provide ops)).
Proof. intros me provide ops H. apply (no_ub me provide ops H). Qed.
Print Assumptions C62_no_dangling_router.
(** Another simulator of a simulated network is found: the discovery of its link ends with an exception, and so it is if
    it exists at the start. *)
Theorem C62_second_simulator_found : forall me provide ops p nm t, wf me provide ops -> a_reg (abs_run me provide ops) = true ->
  simulated (t, nm) (abs_run me provide ops) = true -> p <> me ->
  fresh me provide ops (ODiscover true (link p nm t)) = [EThrow].
Proof.
  intros me provide ops p nm t W R S0 P. destruct (inv_run me provide ops W) as [I1 _]. apply fresh_eq. cbn [step]. unfold discover. rewrite (v_reg _ _ _ I1), R.
  unfold discovery_handler. cbn. rewrite (v_sims _ _ _ I1) in S0. unfold net_of in *. destruct (lookup (t, nm) _); [|discriminate].
  rewrite (proj2 (Nat.eqb_neq _ _) P). reflexivity.
Qed.
Print Assumptions C62_second_simulator_found.

(** *** The theorems on the concrete simulation *)
Example C62_request_example : map (fun x => fresh 7 user ops1 (OReceive (TCan, 1) (fst x) (snd x) false 77)) [(12, 5); (11, 5); (10, 5); (10, 6); (13, 7)] =
  [[ERequest 104 77]; []; []; []; []].
Proof. vm_compute. reflexivity. Qed.
Example C62_events_example : fresh 7 user ops1 (OProduce (TCan, 1) [1; 2; 3; 4; 5; 4] 77) = [ESend 12 5 77; ESend 12 5 77].
Proof. vm_compute. reflexivity. Qed.
Example C62_producer_example :
  forall n d, In (OSimulate n) ops1 -> mentioned ops1 d -> d_net d = snd n -> d_type d = fst n.
Proof.
  intros n d A B _. assert (X : fst n = TCan). { cbn in A. intuition (try discriminate); match goal with H : OSimulate _ = OSimulate _ |- _ => now injection H as <- end. }
  rewrite X. destruct B as [[c B]|[l [B D]]]; cbn in B; intuition (try discriminate);
    match goal with H : _ = _ |- _ => injection H as <- end; subst; auto. destruct D as [<-|[<-|[]]]; auto.
Qed.
Example C62_second_example : fresh 7 user ops1 (ODiscover true (link 8 1 TCan)) = [EThrow].
Proof. vm_compute. reflexivity. Qed.
Example C62_removed_example : In (EProvide (TCan, 1) 1) (s_log (run 7 user ops1)) /\ In (ERemoved (TCan, 1) 1) (s_log (run 7 user ops1)) /\
  ~ In (ERemoved (TCan, 1) 4) (s_log (run 7 user ops1)).
Proof. vm_compute. intuition discriminate. Qed.

(** *** What does not hold *)
(** Two networks of different type with the same name: the second one never gets an event producer, its user is asked for
    controllers and nothing can be sent to them. *)
Definition ops2 : list op :=
  [OSimulate (TCan, 1); OSimulate (TLin, 1); OStart []; ODiscover true (can 10 1 5); ODiscover true (lin 10 1 6)].
Lemma ops2_wf : wf 7 user ops2.
Proof.
  wf_all.
Qed.
Theorem C62_producer_first_refuted : exists me provide ops n i, wf me provide ops /\
  NoDup (flat_map (fun o => match o with OSimulate n => [n] | _ => [] end) ops) /\
  In (EProvide n i) (s_log (run me provide ops)) /\ provide n i <> None /\ ~ In (EProducer n) (s_log (run me provide ops)) /\
  forall rs m, fresh me provide ops (OProduce n rs m) = [].
Proof.
  exists 7, user, ops2, (TLin, 1), 2. spl.
  - apply ops2_wf.
  - cbn. repeat constructor; cbn; intuition discriminate.
  - vm_compute. tauto.
  - discriminate.
  - vm_compute. intuition discriminate.
  - intros. apply C62_events_need_producer; [apply ops2_wf|]. vm_compute. intuition discriminate.
Qed.
Print Assumptions C62_producer_first_refuted.
(** Simulating a network twice throws an exception, but the router of the destroyed network stays registered, and the next
    message on the network uses it. *)
Theorem C62_simulate_twice_refuted : exists me provide ops n p sid m, wf me provide ops /\
  s_log (run me provide ops) = [EThrow] /\ In EUb (fresh me provide ops (OReceive n p sid false m)).
Proof.
  exists 7, user, [OSimulate (TCan, 1); OSimulate (TCan, 1)], (TCan, 1), 10, 5, 77. spl; [wf_all| |]; vm_compute; tauto.
Qed.
Print Assumptions C62_simulate_twice_refuted.
(** The exception for another simulator is also thrown when the other simulator leaves. *)
Theorem C62_second_simulator_leaving_refuted : exists me provide ops d, wf me provide ops /\ d_kind d = KLink /\
  fresh me provide ops (ODiscover false d) = [EThrow].
Proof. exists 7, user, ops1, (link 8 1 TCan). spl; [apply ops1_wf| |]; vm_compute; reflexivity. Qed.
Print Assumptions C62_second_simulator_leaving_refuted.
(** An exception during the start leaves a simulator that counts as started, discovers nothing and can not be started again. *)
Theorem C62_start_again_refuted : exists me provide l1 l2 ops, wf me provide (OSimulate (TCan, 1) :: OStart l1 :: OStart l2 :: ops) /\
  (forall d, In d l2 -> d_kind d = KController /\ proper d = true) /\ ops <> [] /\
  s_log (run me provide (OSimulate (TCan, 1) :: OStart l1 :: OStart l2 :: ops)) = [EThrow].
Proof.
  exists 7, user, [link 8 1 TCan], [can 10 1 5], [ODiscover true (can 11 1 5)]. spl; try discriminate; try (vm_compute; reflexivity).
  - wf_all.
  - intros d [<-|[]]. split; reflexivity.
Qed.
Print Assumptions C62_start_again_refuted.

(** ** Controllers (C63) *)
(** An event sent to a participant under a service id is accepted by the controller with that service id
    and by no other, if the controllers of the participant on that network are simulated by the sender. *)
Theorem C63_event_reaches_its_controller : forall cs n from sid t,
  NoDup (map (fun c => (c_part c, c_sid c)) cs) ->
  (forall c, In c cs -> c_part c = t -> c_net c = n -> c_sim c = Some from) ->
  (forall c, In c (accepting cs n from sid t) <-> In c cs /\ c_part c = t /\ c_net c = n /\ c_sid c = sid) /\
  length (accepting cs n from sid t) <= 1.
Proof.
  intros cs n from sid t N D.
  assert (A : forall c, In c (accepting cs n from sid t) <-> In c cs /\ c_part c = t /\ c_net c = n /\ c_sid c = sid).
  { intros c. unfold accepting. rewrite filter_In, !andb_true_iff, Nat.eqb_eq, net_eqb_eq. unfold allow. split.
    - intros (A & [B C] & E). spl; auto. rewrite (D c A B C) in E. apply andb_true_iff in E as [_ E]. now apply Nat.eqb_eq in E.
    - intros (A & B & C & E). spl; auto. rewrite (D c A B C), E, !Nat.eqb_refl. reflexivity. }
  split; auto.
  assert (M : NoDup (map (fun c => (c_part c, c_sid c)) (accepting cs n from sid t))).
  { unfold accepting. clear - N. induction cs as [|c cs IH]; cbn; [constructor|]. inversion N; subst. destruct (_ && _); cbn; auto. constructor; auto.
    intros X. apply H1. apply in_map_iff in X as (y & Y1 & Y2). apply filter_In in Y2 as [Y2 _]. apply in_map_iff. eauto. }
  destruct (accepting cs n from sid t) as [|c1 [|c2 r]]; cbn; auto. exfalso.
  destruct (proj1 (A c1)) as (_ & E1 & _ & F1); [cbn; auto|]. destruct (proj1 (A c2)) as (_ & E2 & _ & F2); [cbn; auto|].
  cbn in M. inversion M; subst. apply H1. left. congruence.
Qed.
Print Assumptions C63_event_reaches_its_controller.
Definition ctl (p sid : nat) (n : ntype * nat) (s : option nat) : ctrl := {| c_part := p; c_sid := sid; c_net := n; c_sim := s |}.
Example C63_event_example :
  accepting [ctl 10 5 (TCan, 1) (Some 7); ctl 10 6 (TCan, 1) (Some 7); ctl 11 6 (TCan, 1) (Some 7)] (TCan, 1) 7 6 10 = [ctl 10 6 (TCan, 1) (Some 7)].
Proof. reflexivity. Qed.
(** A controller that has not discovered the simulator yet accepts the events addressed to the other controllers of its participant. *)
Theorem C63_event_reaches_its_controller_refuted : exists cs n from sid t c,
  NoDup (map (fun c => (c_part c, c_sid c)) cs) /\ In c (accepting cs n from sid t) /\ c_sid c <> sid.
Proof.
  exists [ctl 10 5 (TCan, 1) (Some 7); ctl 10 6 (TCan, 1) None], (TCan, 1), 7, 5, 10, (ctl 10 6 (TCan, 1) None). spl.
  - repeat constructor; cbn; intuition congruence.
  - cbn. auto.
  - discriminate.
Qed.
Print Assumptions C63_event_reaches_its_controller_refuted.

(** The simulator of a controller after some discoveries. *)
Definition discovered (c : ctrl) (l : list (bool * desc)) : ctrl := fold_left (fun c x => ctrl_discover (fst x) (snd x) c) l c.
(** The simulators present: those that link to the network, in the order of their creation. *)
Definition links (n : ntype * nat) (l : list (bool * desc)) : list nat :=
  fold_left (fun r (x : bool * desc) => let (cr, d) := x in
    if kind_eqb (d_kind d) KLink && net_eqb (net_of d) n then
      if cr then r ++ [d_part d] else filter (fun p => negb (p =? d_part d)) r
    else r) l [].
Lemma discovered_snoc c l x : discovered c (l ++ [x]) = ctrl_discover (fst x) (snd x) (discovered c l).
Proof. unfold discovered. now rewrite fold_left_app. Qed.
Lemma links_snoc n l cr d : links n (l ++ [(cr, d)]) =
  if kind_eqb (d_kind d) KLink && net_eqb (net_of d) n then if cr then links n l ++ [d_part d] else filter (fun p => negb (p =? d_part d)) (links n l) else links n l.
Proof. unfold links. now rewrite fold_left_app. Qed.
Lemma ctrl_same cr d c : c_part (ctrl_discover cr d c) = c_part c /\ c_sid (ctrl_discover cr d c) = c_sid c /\ c_net (ctrl_discover cr d c) = c_net c.
Proof. unfold ctrl_discover. destruct (c_sim c); destruct (_ && _); auto. Qed.
Lemma discovered_same c l : c_part (discovered c l) = c_part c /\ c_sid (discovered c l) = c_sid c /\ c_net (discovered c l) = c_net c.
Proof.
  induction l as [|x l (A & B & C)] using rev_ind; auto. rewrite discovered_snoc. destruct (ctrl_same (fst x) (snd x) (discovered c l)) as (A' & B' & C').
  rewrite A', B', C'. auto.
Qed.
(** A controller is detailed exactly while a simulator of its network is present, and its simulator is that one; provided that networks
    of different types have different names, and that there is at most one simulator at a time. *)
Theorem C63_mode_follows_simulator : forall p sid n l,
  (forall cr d, In (cr, d) l -> d_kind d = KLink -> d_net d = snd n -> d_type d = fst n) ->
  (forall l1 l2, l = l1 ++ l2 -> length (links n l1) <= 1) ->
  (forall l1 d l2, l = l1 ++ (false, d) :: l2 -> d_kind d = KLink -> net_of d = n -> In (d_part d) (links n l1)) ->
  c_sim (discovered (ctl p sid n None) l) = hd_error (links n l).
Proof.
  intros p sid n l T. induction l as [|[cr d] l IH] using rev_ind; intros O R. { reflexivity. }
  assert (IH' : c_sim (discovered (ctl p sid n None) l) = hd_error (links n l)).
  { apply IH.
    - intros cr' d' X. apply (T cr'). apply in_or_app. auto.
    - intros l1 l2 ->. apply (O l1 (l2 ++ [(cr, d)])). now rewrite app_assoc.
    - intros l1 d' l2 ->. apply (R l1 d' (l2 ++ [(cr, d)])). now rewrite <- app_assoc. }
  clear IH. rewrite discovered_snoc, links_snoc. cbn [fst snd]. unfold ctrl_discover, relevant. rewrite IH'. destruct (discovered_same (ctl p sid n None) l) as (_ & _ & ->). cbn [c_net ctl].
  assert (E : kind_eqb (d_kind d) KLink && (d_net d =? snd n) = kind_eqb (d_kind d) KLink && net_eqb (net_of d) n).
  { destruct (d_kind d) eqn:K; auto. cbn [kind_eqb andb]. unfold net_eqb, net_of. cbn. destruct (d_net d =? snd n) eqn:Y; [|now rewrite andb_false_r].
    rewrite (T cr d); auto; [|apply in_or_app; cbn; auto|now apply Nat.eqb_eq]. rewrite (proj2 (ntype_eqb_eq _ _) eq_refl). reflexivity. }
  rewrite E. destruct (kind_eqb (d_kind d) KLink && net_eqb (net_of d) n) eqn:B.
  - pose proof (O (l ++ [(cr, d)]) [] (eq_sym (app_nil_r _))) as O1. rewrite links_snoc, B in O1.
    assert (O2 : length (links n l) <= 1) by (apply (O l [(cr, d)]); reflexivity).
    destruct cr.
    + rewrite app_length in O1. cbn in O1. destruct (links n l); [|cbn in O1; lia]. reflexivity.
    + apply andb_true_iff in B as [B1 B2]. apply net_eqb_eq in B2.
      assert (I : In (d_part d) (links n l)). { apply (R l d []); auto. destruct (d_kind d); auto; discriminate. }
      destruct (links n l) as [|q [|? ?]]; [destruct I| |cbn in O2; lia]. destruct I as [->|[]]. cbn. rewrite Nat.eqb_refl. reflexivity.
  - rewrite !andb_false_r. destruct (hd_error (links n l)) eqn:X; rewrite ?IH'; auto.
Qed.
Print Assumptions C63_mode_follows_simulator.
Example C63_mode_example :
  c_sim (discovered (ctl 10 5 (TCan, 1) None) [(true, link 7 2 TLin); (true, link 7 1 TCan); (false, link 7 1 TCan); (true, link 8 1 TCan)]) = Some 8.
Proof. reflexivity. Qed.
(** The simulator of a LIN network captures the CAN controllers on the network of the same name, and then no
    simulator receives their frames nor sends them events. *)
Theorem C63_mode_other_type_refuted : exists p sid n l, links n l = [] /\ c_sim (discovered (ctl p sid n None) l) <> None /\
  forall sid', allow (discovered (ctl p sid n None) l) p sid' = false.
Proof.
  exists 10, 5, (TCan, 1), [(true, link 7 1 TLin)]. spl; try reflexivity; try discriminate.
Qed.
Print Assumptions C63_mode_other_type_refuted.
(** When another simulator of the network leaves, the controller turns to the trivial behaviour though its simulator is present. *)
Theorem C63_mode_second_simulator_refuted : exists p sid n l q, In q (links n l) /\
  (forall cr d, In (cr, d) l -> d_kind d = KLink -> d_net d = snd n -> d_type d = fst n) /\
  c_sim (discovered (ctl p sid n None) l) = None.
Proof.
  exists 10, 5, (TCan, 1), [(true, link 7 1 TCan); (true, link 8 1 TCan); (false, link 8 1 TCan)], 7. spl; try reflexivity.
  - cbn. auto.
  - intros cr d [X|[X|[X|[]]]]; injection X as <- <-; reflexivity.
Qed.
Print Assumptions C63_mode_second_simulator_refuted.

(** *** States of CAN controllers *)
(** What the handlers of controller [r] should be called with: the changes of the states produced for it. *)
Fixpoint changes (r ctl err : nat) (l : list (bool * nat * list nat)) : list (bool * nat) :=
  match l with
  | [] => []
  | (b, v, rs) :: l =>
    if existsb (Nat.eqb r) rs then
      if b then (if v =? ctl then [] else [(true, v)]) ++ changes r v err l else (if v =? err then [] else [(false, v)]) ++ changes r ctl v l
    else changes r ctl err l
  end.
Lemma status_idem c e k : receive_status c e (receive_status c e k) = receive_status c e k.
Proof.
  unfold receive_status. destruct (k_ctl k =? c) eqn:A; cbn; destruct (k_err k =? e) eqn:B; cbn; rewrite ?A, ?B, ?Nat.eqb_refl; cbn; rewrite ?B, ?Nat.eqb_refl; reflexivity.
Qed.
Lemma fold_status c e r rs : forall f, fold_left (fun f r => fun y => if y =? r then receive_status c e (f y) else f y) rs f r =
  if existsb (Nat.eqb r) rs then receive_status c e (f r) else f r.
Proof.
  induction rs as [|q rs IH]; intros f; cbn [fold_left existsb]; auto. rewrite IH. destruct (r =? q); cbn; auto. destruct existsb; auto using status_idem.
Qed.
(** Each controller is told exactly the changes of its states, if the states are always produced for all controllers. *)
Theorem C63_can_states : forall r l, Forall (fun o => In r (snd o)) l -> k_log (snd (produce_all l) r) = changes r 0 0 l.
Proof.
  intros r l F. unfold produce_all.
  enough (X : forall q f, k_ctl (f r) = q_ctl q -> k_err (f r) = q_err q ->
    k_log (snd (fold_left (fun x o => produce_state (fst (fst o)) (snd (fst o)) (snd o) x) l (q, f)) r) = k_log (f r) ++ changes r (q_ctl q) (q_err q) l).
  { now rewrite X. }
  induction F as [|[[b v] rs] l H F IH]; intros q f A B; cbn [fold_left changes]. { now rewrite app_nil_r. }
  cbn in H. assert (E : existsb (Nat.eqb r) rs = true). { apply existsb_exists. exists r. rewrite Nat.eqb_refl. auto. } rewrite E.
  cbn [fst snd produce_state]. set (q' := if b then _ else _).
  assert (S0 : forall f', f' r = receive_status (q_ctl q') (q_err q') (f r) -> k_ctl (f' r) = q_ctl q' /\ k_err (f' r) = q_err q' /\
     k_log (f' r) = k_log (f r) ++ (if b then if v =? q_ctl q then [] else [(true, v)] else if v =? q_err q then [] else [(false, v)])).
  { intros f' ->. unfold receive_status. rewrite A. subst q'. destruct b; cbn [q_ctl q_err].
    - rewrite (Nat.eqb_sym (q_ctl q) v). destruct (v =? q_ctl q) eqn:V.
      + rewrite B, Nat.eqb_refl. apply Nat.eqb_eq in V. rewrite app_nil_r. cbn. spl; auto. congruence.
      + cbn [k_err]. rewrite B, Nat.eqb_refl. cbn. auto.
    - rewrite Nat.eqb_refl, B. rewrite (Nat.eqb_sym (q_err q) v). destruct (v =? q_err q) eqn:V; cbn; spl; auto.
      + apply Nat.eqb_eq in V. congruence.
      + now rewrite app_nil_r. }
  set (f' := fold_left _ rs f). destruct (S0 f') as (S1 & S2 & S3). { subst f'. rewrite fold_status, E. reflexivity. }
  rewrite IH; auto. rewrite S3, <- app_assoc. f_equal. subst q'. destruct b; reflexivity.
Qed.
Print Assumptions C63_can_states.
Example C63_can_states_example : k_log (snd (produce_all [(true, 2, [1; 2]); (false, 3, [1; 2; 2]); (true, 2, [2; 1]); (true, 1, [1])]) 1) = [(true, 2); (false, 3); (true, 1)].
Proof. reflexivity. Qed.
(** The event producer remembers one state for all controllers: a controller is told the error state of another. *)
Theorem C63_can_states_refuted : exists r l, k_log (snd (produce_all l) r) = [(true, 2); (false, 4)] /\ changes r 0 0 l = [(true, 2)].
Proof. exists 1, [(false, 4, [2]); (true, 2, [1])]. split; reflexivity. Qed.
Print Assumptions C63_can_states_refuted.
