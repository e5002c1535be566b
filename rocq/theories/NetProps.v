From Coq Require Import String List Arith Bool Lia.
Import ListNotations.
From Verif Require Import Base NetModel NetSpec NetProofs NetOrder NetRecv NetReach NetFinal.
Open Scope nat_scope.
Open Scope list_scope.

Lemma ids : forall hash ops, distinct_ids hash ops -> inj_on (fun x => In x (names ops)) hash /\ named_ops (fun x => In x (names ops)) ops.
Proof. intros hash ops D. split; [exact D|]. intros x I. exact I. Qed.

(** ** C33 *)
(** What reaches the link of a subscriber: the messages of the publisher since the subscription, preceded by the history. *)
Lemma arrives : forall hash throws ops a b k t0 t1,
  distinct_ids hash ops -> a <> b -> unique_type (fst k) ->
  n_trace (run hash throws ops) = t0 ++ ESub a b k :: t1 -> ~ In (ESub a b k) t0 ->
  let tr := n_trace (run hash throws ops) in
  let expected := hist_of k (tracked a b k t0) ++ sent_to a b k t1 in
  prefix (ins b k a tr) expected /\
  (~ In (ELeft a b) tr -> n_chan (run hash throws ops) a b = [] -> ins b k a tr = expected).
Proof.
  intros hash throws ops a b k t0 t1 D N U E F tr expected. destruct (ids hash ops D) as [Hinj NO]. pose proof (ord_run hash throws _ Hinj a b k N U ops NO) as (_ & _ & O).
  rewrite E, (tracked_sub a b k N t0 t1 F), <- E in O. fold tr in O. fold expected in O. destruct O as [[r O1] O2]. split.
  - exists (pend (run hash throws ops) a b k ++ r). now rewrite app_assoc.
  - intros NL C. destruct (O2 NL) as [O3 _]. unfold pend in O3. rewrite C in O3. cbn in O3. now rewrite app_nil_r in O3.
Qed.
Lemma first_receiver : forall hash throws ops a b k s u0 u1,
  a <> b -> n_trace (run hash throws ops) = u0 ++ EReg b k s :: u1 -> (forall s', ~ In (EReg b k s') u0) ->
  received b k s a (n_trace (run hash throws ops)) = ins b k a (n_trace (run hash throws ops)).
Proof.
  intros hash throws ops a b k s u0 u1 N E F. destruct (rec_run hash throws ops) as [R _]. rewrite (rc_remote _ R b k s a N), E, since_out by apply F. cbn [since]. rewrite (proj2 (is_reg_iff b k s _) eq_refl).
  destruct (late_run hash throws ops) as [_ L]. specialize (L b k a). rewrite E, before_out in L by exact F. cbn [before] in L. rewrite is_refl, app_nil_r in L. rewrite ins_app, L. reflexivity.
Qed.

(** The first receiver on a link: everything sent after the subscription exactly once and in order, preceded by the last message
    before it. At any time it has received an initial part of that, and all of it once nothing is in transit. *)
Theorem C33_subscriber_receives_all_in_order : forall hash throws ops a b k s t0 t1 u0 u1,
  distinct_ids hash ops -> a <> b -> unique_type (fst k) -> has_history (fst k) = true ->
  let tr := n_trace (run hash throws ops) in
  tr = t0 ++ ESub a b k :: t1 -> ~ In (ESub a b k) t0 -> history_on a k t0 ->
  tr = u0 ++ EReg b k s :: u1 -> (forall s', ~ In (EReg b k s') u0) ->
  prefix (received b k s a tr) (last_of (sent a k t0) ++ sent_to a b k t1) /\
  (~ In (ELeft a b) tr -> n_chan (run hash throws ops) a b = [] ->
   received b k s a tr = last_of (sent a k t0) ++ sent_to a b k t1).
Proof.
  intros hash throws ops a b k s t0 t1 u0 u1 D N U HH tr E F HO E' F'. subst tr. rewrite (first_receiver hash throws ops a b k s u0 u1 N E' F'), <- (hist_on a b k t0 HH HO). now apply (arrives hash throws ops a b k t0 t1).
Qed.
Print Assumptions C33_subscriber_receives_all_in_order.

(** Without history (switched off, or a message type that has none) only what is sent after the subscription. *)
Theorem C33_subscriber_without_history : forall hash throws ops a b k s t0 t1 u0 u1,
  distinct_ids hash ops -> a <> b -> unique_type (fst k) -> has_history (fst k) = false \/ history_off a k t0 ->
  let tr := n_trace (run hash throws ops) in
  tr = t0 ++ ESub a b k :: t1 -> ~ In (ESub a b k) t0 ->
  tr = u0 ++ EReg b k s :: u1 -> (forall s', ~ In (EReg b k s') u0) ->
  prefix (received b k s a tr) (sent_to a b k t1) /\
  (~ In (ELeft a b) tr -> n_chan (run hash throws ops) a b = [] -> received b k s a tr = sent_to a b k t1).
Proof.
  intros hash throws ops a b k s t0 t1 u0 u1 D N U HH tr E F E' F'. subst tr. rewrite (first_receiver hash throws ops a b k s u0 u1 N E' F').
  assert (H : hist_of k (tracked a b k t0) = []) by (destruct HH as [HH|HH]; [now apply hist_no|now apply hist_off]).
  pose proof (arrives hash throws ops a b k t0 t1 D N U E F) as A. rewrite H in A. exact A.
Qed.
Print Assumptions C33_subscriber_without_history.

(** Any receiver: it gets what arrives at the link after its registration, so that what arrived before and what it gets are together
    an initial part of what was sent. Missing: the last message before its registration, see the refutations. *)
Theorem C33_later_subscriber_partial : forall hash throws ops a b k s t0 t1 u0 u1,
  distinct_ids hash ops -> a <> b -> unique_type (fst k) -> has_history (fst k) = true ->
  let tr := n_trace (run hash throws ops) in
  tr = t0 ++ ESub a b k :: t1 -> ~ In (ESub a b k) t0 -> history_on a k t0 ->
  tr = u0 ++ EReg b k s :: u1 -> ~ In (EReg b k s) u0 ->
  prefix (ins b k a u0 ++ received b k s a tr) (last_of (sent a k t0) ++ sent_to a b k t1) /\
  (~ In (ELeft a b) tr -> n_chan (run hash throws ops) a b = [] ->
   ins b k a u0 ++ received b k s a tr = last_of (sent a k t0) ++ sent_to a b k t1).
Proof.
  intros hash throws ops a b k s t0 t1 u0 u1 D N U HH tr E F HO E' F'. subst tr. destruct (rec_run hash throws ops) as [R _]. rewrite (rc_remote _ R b k s a N).
  assert (X : ins b k a u0 ++ ins b k a (since b k s (n_trace (run hash throws ops))) = ins b k a (n_trace (run hash throws ops))).
  { rewrite E', since_out by exact F'. cbn [since]. rewrite (proj2 (is_reg_iff b k s _) eq_refl). rewrite ins_app. reflexivity. }
  rewrite X, <- (hist_on a b k t0 HH HO). now apply (arrives hash throws ops a b k t0 t1).
Qed.
Print Assumptions C33_later_subscriber_partial.

(** Every receiver of a participant is subscribed at every participant it is connected with, once nothing is in transit. *)
Theorem C33_subscriptions_reach_every_participant : forall hash throws ops a b k s,
  distinct_ids hash ops ->
  let n := run hash throws ops in
  In (EReg b k s) (n_trace n) -> In (EJoined a b) (n_trace n) \/ In (EJoined b a) (n_trace n) ->
  ~ In (ELeft a b) (n_trace n) -> ~ In (ELeft b a) (n_trace n) -> n_chan n a b = [] -> n_chan n b a = [] ->
  In (ESub a b k) (n_trace n).
Proof.
  intros hash throws ops a b k s D n Reg J L1 L2 C1 C2. destruct (ids hash ops D) as [Hinj NO]. destruct (reach_run hash throws _ Hinj ops NO) as [C S]. fold n in C, S. destruct (wf_run hash throws _ Hinj ops NO) as [W _]. fold n in W.
  assert (M : met n a b) by (destruct J as [J|J]; apply (sr_join n S) in J; [exact J|destruct J; [now right|now left]]).
  assert (M' : met n b a) by (destruct M; [now right|now left]).
  destruct (cn_peer n C a b M) as [P1|]; [|contradiction]. destruct (cn_peer n C b a M') as [P2|]; [|contradiction].
  destruct (rec_run hash throws ops) as [R _]. apply (rc_reg _ R) in Reg. destruct (wf_local n W b k s Reg) as (_ & x & Ix & Sx). apply In_nth_error in Ix as [i Ex]. apply same_id_iff in Sx as [S1 S2].
  destruct (cn_sub n C a b i x (fst k) P1 P2 Ex) as [H|[H|[(subs & H & _)|H]]]; [now symmetry| | | |]; try (rewrite C1 in H; destruct H); try (rewrite C2 in H; destruct H).
  apply (sr_sub n S) in H. rewrite S2 in H. now destruct k.
Qed.
Print Assumptions C33_subscriptions_reach_every_participant.

Definition W := WireDataMessageEvent.
Definition kW : key := (W, 5).
Definition same (x : nat) := x.
Definition quiet : handlers := fun _ _ _ _ => false.
(** 1 publishes 7 and 8 before 0 subscribes, and 9 afterwards *)
Definition ops1 := [OConnect 1 0; ODeliver 1 0; ODeliver 0 1; ORegister 1 5 1 [] [W]; OSend 1 0 W 7; OSend 1 0 W 8; ORegister 0 5 2 [W] []; ODeliver 0 1; OSend 1 0 W 9;
                    ODeliver 1 0; ODeliver 1 0; ODeliver 1 0].
Lemma unique_W : unique_type W.
Proof. intros u. destruct u; intros E; try reflexivity; vm_compute in E; discriminate. Qed.
Example C33_subscriber_receives_all_in_order_example :
  let n := run same quiet ops1 in let tr := n_trace n in
  (exists t0 t1, tr = t0 ++ ESub 1 0 kW :: t1 /\ ~ In (ESub 1 0 kW) t0 /\ history_on 1 kW t0 /\ last_of (sent 1 kW t0) = [(0, 8)] /\ sent_to 1 0 kW t1 = [(0, 9)]) /\
  (exists u0 u1, tr = u0 ++ EReg 0 kW 0 :: u1 /\ forall s', ~ In (EReg 0 kW s') u0) /\
  n_chan n 1 0 = [] /\ received 0 kW 0 1 tr = [(0, 8); (0, 9)].
Proof.
  cbv zeta. split; [|split; [|split]].
  - exists [EJoined 1 0; EPub 1 kW (0, 7); EPub 1 kW (0, 8); EReg 0 kW 0]. eexists. split; [vm_compute; reflexivity|]. split; [cbn; intuition discriminate|]. split; [intros h; cbn; intuition discriminate|]. split; reflexivity.
  - exists [EJoined 1 0; EPub 1 kW (0, 7); EPub 1 kW (0, 8)]. eexists. split; [vm_compute; reflexivity|]. intros s'. cbn. intuition discriminate.
  - vm_compute. reflexivity.
  - vm_compute. reflexivity.
Qed.
Definition ops1' := [OConnect 1 0; ODeliver 1 0; ODeliver 0 1; ORegister 1 5 1 [] [W]; OSetHistory 1 kW 0; OSend 1 0 W 7; ORegister 0 5 2 [W] []; ODeliver 0 1; OSend 1 0 W 9; ODeliver 1 0; ODeliver 1 0].
Example C33_subscriber_without_history_example :
  let n := run same quiet ops1' in let tr := n_trace n in
  (exists t0 t1, tr = t0 ++ ESub 1 0 kW :: t1 /\ ~ In (ESub 1 0 kW) t0 /\ history_off 1 kW t0 /\ sent 1 kW t0 = [(0, 7)]) /\ n_chan n 1 0 = [] /\ received 0 kW 0 1 tr = [(0, 9)].
Proof.
  cbv zeta. split; [|split; vm_compute; reflexivity]. exists [EJoined 1 0; EHist 1 kW 0; EPub 1 kW (0, 7); EReg 0 kW 0]. eexists. split; [vm_compute; reflexivity|]. split; [cbn; intuition discriminate|].
  split; [|reflexivity]. exists [EJoined 1 0], [EPub 1 kW (0, 7); EReg 0 kW 0]. split; [reflexivity|]. split; [reflexivity|]. intros h. cbn. intuition discriminate.
Qed.
(** a second subscriber of the same participant, registered after 9 was handled *)
Definition ops2 := ops1 ++ [ORegister 0 5 2 [W] []; OSend 1 0 W 10; ODeliver 1 0].
Example C33_later_subscriber_example :
  let n := run same quiet ops2 in received 0 kW 0 1 (n_trace n) = [(0, 8); (0, 9); (0, 10)] /\ received 0 kW 1 1 (n_trace n) = [(0, 10)] /\ n_chan n 1 0 = [].
Proof. vm_compute. auto. Qed.
Example C33_subscriptions_reach_every_participant_example :
  let n := run same quiet ops1 in In (EReg 0 kW 0) (n_trace n) /\ In (EJoined 1 0) (n_trace n) /\ n_chan n 1 0 = [] /\ n_chan n 0 1 = [] /\ In (ESub 1 0 kW) (n_trace n).
Proof. vm_compute. intuition. Qed.

(** The last value is sent once for each receiving link, not for each subscriber: a second subscriber on the same participant, with the
    history on and nothing in transit, gets nothing of what was published before its registration. *)
Theorem C33_second_subscriber_gets_last_value_refuted : exists ops a b k s u0 u1,
  let n := run same quiet ops in
  distinct_ids same ops /\ a <> b /\ unique_type (fst k) /\ has_history (fst k) = true /\ n_trace n = u0 ++ EReg b k s :: u1 /\
  history_on a k (n_trace n) /\ In (ESub a b k) (n_trace n) /\ n_chan n a b = [] /\ n_chan n b a = [] /\
  last_of (sent a k u0) = [(0, 9)] /\ received b k s a (n_trace n) = [].
Proof.
  exists (ops1 ++ [ORegister 0 5 2 [W] []; ODeliver 0 1; ODeliver 1 0]), 1, 0, kW, 1. eexists (n_trace (run same quiet ops1)), []. cbv zeta.
  split; [intros x y _ _ E; exact E|]. split; [discriminate|]. split; [exact unique_W|]. split; [reflexivity|]. split; [vm_compute; reflexivity|].
  split; [intros h; vm_compute; intuition discriminate|]. split; [vm_compute; intuition|]. repeat split; vm_compute; reflexivity.
Qed.
Print Assumptions C33_second_subscriber_gets_last_value_refuted.

(** Nor does a subscriber on the participant of the publisher. *)
Theorem C33_local_subscriber_gets_last_value_refuted : exists ops a k s u0 u1,
  let n := run same quiet ops in
  has_history (fst k) = true /\ n_trace n = u0 ++ EReg a k s :: u1 /\ (forall s', ~ In (EReg a k s') u0) /\ history_on a k (n_trace n) /\
  last_of (sent a k u0) = [(0, 7)] /\ received a k s a (n_trace n) = [].
Proof.
  exists [ORegister 1 5 1 [] [W]; OSend 1 0 W 7; ORegister 1 5 2 [W] []], 1, kW, 1, [EPub 1 kW (0, 7)], []. cbv zeta.
  split; [reflexivity|]. split; [vm_compute; reflexivity|]. split; [cbn; intuition discriminate|]. split; [intros h; vm_compute; intuition discriminate|]. split; vm_compute; reflexivity.
Qed.
Print Assumptions C33_local_subscriber_gets_last_value_refuted.

(** If the ids of two participants collide, the departure of one ends the deliveries to the other. *)
Definition collide (x : nat) : nat := if x =? 2 then 1 else x.
Theorem C33_delivery_with_colliding_ids_refuted : exists ops a b k s t0 t1,
  let n := run collide quiet ops in
  a <> b /\ unique_type (fst k) /\ n_trace n = t0 ++ ESub a b k :: t1 /\ In (EReg b k s) t0 /\ ~ In (ELeft a b) (n_trace n) /\ ~ In (ELeft b a) (n_trace n) /\
  n_chan n a b = [] /\ n_chan n b a = [] /\ sent_to a b k t1 = [(0, 7)] /\ received b k s a (n_trace n) = [].
Proof.
  exists [OConnect 1 0; ODeliver 1 0; ODeliver 0 1; OConnect 2 0; ODeliver 2 0; ODeliver 0 2; ORegister 0 5 1 [] [W]; ORegister 1 5 2 [W] []; ODeliver 1 0; ODeliver 0 1;
          ORegister 2 5 2 [W] []; ODeliver 2 0; OClose 2 0; OSend 0 0 W 7], 0, 1, kW, 0, [EJoined 1 0; EJoined 2 0; EReg 1 kW 0]. eexists. cbv zeta.
  split; [discriminate|]. split; [exact unique_W|]. split; [vm_compute; reflexivity|]. split; [cbn; intuition|]. split; [vm_compute; intuition discriminate|]. split; [vm_compute; intuition discriminate|]. repeat split; vm_compute; reflexivity.
Qed.
Print Assumptions C33_delivery_with_colliding_ids_refuted.

(** ** C34 *)
(** A service receives what the services of its participant send on the link after its registration, each message exactly once and in
    order: not its own, except status messages and LIN header requests, and no system commands. Whatever handlers throw. *)
Theorem C34_local_delivery : forall hash throws ops b k s,
  let tr := n_trace (run hash throws ops) in
  received b k s b tr = filter (hears k s) (sent_to b b k (since b k s tr)).
Proof. intros hash throws ops b k s. destruct (rec_run hash throws ops) as [R _]. apply (rc_self _ R). Qed.
Print Assumptions C34_local_delivery.

(** In particular never its own messages. *)
Theorem C34_no_own_messages : forall hash throws ops b k s v,
  fst k <> ParticipantStatus -> fst k <> LinSendFrameHeaderRequest -> ~ In (s, v) (received b k s b (n_trace (run hash throws ops))).
Proof.
  intros hash throws ops b k s v N1 N2. destruct (rec_run hash throws ops) as [R _]. rewrite (rc_self _ R), filter_In. intros [_ H]. unfold hears in H. cbn [fst] in H. rewrite Nat.eqb_refl in H. destruct (fst k); try discriminate; contradiction.
Qed.
Print Assumptions C34_no_own_messages.

Theorem C34_no_local_system_commands : forall hash throws ops b w s, received b (SystemCommand, w) s b (n_trace (run hash throws ops)) = [].
Proof.
  intros. destruct (rec_run hash throws ops) as [R _]. rewrite (rc_self _ R). induction (sent_to _ _ _ _) as [|m l IH]; [reflexivity|exact IH].
Qed.
Print Assumptions C34_no_local_system_commands.

(** From another participant a service receives what arrives at the link after its registration, exactly once and in order. *)
Theorem C34_remote_delivery : forall hash throws ops a b k s, a <> b ->
  let tr := n_trace (run hash throws ops) in received b k s a tr = ins b k a (since b k s tr).
Proof. intros hash throws ops a b k s N. destruct (rec_run hash throws ops) as [R _]. now apply (rc_remote _ R). Qed.
Print Assumptions C34_remote_delivery.

(** three services of one participant, the handler of the second throws *)
Definition loud : handlers := fun b s k m => s =? 1.
Definition ops3 := [ORegister 0 5 1 [W] [W]; ORegister 0 5 2 [W] [W]; ORegister 0 5 2 [W] []; OSend 0 0 W 7; OSend 0 1 W 8; OSendTo 0 0 W 0 9].
Example C34_local_delivery_example :
  let tr := n_trace (run same loud ops3) in
  received 0 kW 0 0 tr = [(1, 8)] /\ received 0 kW 1 0 tr = [(0, 7); (0, 9)] /\ received 0 kW 2 0 tr = [(0, 7); (1, 8); (0, 9)] /\ In (ERecv 0 kW 1 0 (0, 7) true) tr.
Proof. vm_compute. intuition. Qed.
Definition ops3' := [ORegister 0 5 1 [ParticipantStatus; SystemCommand] [ParticipantStatus; SystemCommand]; OSend 0 0 ParticipantStatus 7; OSend 0 0 SystemCommand 8].
Example C34_no_own_messages_example :
  let tr := n_trace (run same quiet ops3') in received 0 (ParticipantStatus, 5) 0 0 tr = [(0, 7)] /\ received 0 (SystemCommand, 5) 0 0 tr = [] /\ In (EPub 0 (SystemCommand, 5) (0, 8)) tr.
Proof. vm_compute. intuition. Qed.
Example C34_remote_delivery_example : let tr := n_trace (run same loud ops2) in received 0 kW 1 1 tr = [(0, 10)] /\ ins 0 kW 1 tr = [(0, 8); (0, 9); (0, 10)].
Proof. vm_compute. auto. Qed.

(** ** C57 *)
(** Whatever arrives at a link was sent by that participant on the same link, no message has a receiver index that is unknown, and a
    message is decoded as a wrong type only between the two configuration messages of LIN and FlexRay. *)
Lemma serdes_unique : forall t u, serdes_name t = serdes_name u -> t = u \/ (t = WireLinControllerConfig /\ u = FlexrayControllerConfig) \/ (t = FlexrayControllerConfig /\ u = WireLinControllerConfig).
Proof.
  intros t u E. assert (X : forallb (fun t => forallb (fun u => implb (String.eqb (serdes_name t) (serdes_name u)) (mtype_beq t u || (mtype_beq t WireLinControllerConfig && mtype_beq u FlexrayControllerConfig) || (mtype_beq t FlexrayControllerConfig && mtype_beq u WireLinControllerConfig))) all_types) all_types = true) by (vm_compute; reflexivity).
  rewrite forallb_forall in X. specialize (X t (all_types_all t)). cbn beta in X. rewrite forallb_forall in X. specialize (X u (all_types_all u)). cbn beta in X. rewrite E, String.eqb_refl in X. cbn [implb] in X. rewrite !orb_true_iff, !andb_true_iff in X.
  destruct X as [[X|[X Y]]|[X Y]]; repeat match goal with H : mtype_beq _ _ = true |- _ => apply internal_mtype_dec_bl in H end; auto.
Qed.
Theorem C57_messages_are_routed_correctly : forall hash throws ops, distinct_ids hash ops ->
  let tr := n_trace (run hash throws ops) in
  (forall b k a m, In (EIn b k a m) tr -> was_sent a k m tr) /\ (forall b a, ~ In (EIgnored b a) tr) /\
  (forall b k a t m, In (EMisread b k a t m) tr ->
     was_sent a (t, snd k) m tr /\
     (t = WireLinControllerConfig /\ fst k = FlexrayControllerConfig \/ t = FlexrayControllerConfig /\ fst k = WireLinControllerConfig)).
Proof.
  intros hash throws ops D tr. destruct (ids hash ops D) as [Hinj NO]. destruct (reach_run hash throws _ Hinj ops NO) as [_ S]. split; [exact (sr_in _ S)|]. split; [exact (sr_ign _ S)|].
  intros b k a t m I. destruct (sr_mis _ S _ _ _ _ _ I) as (N & E & WS). split; [exact WS|]. destruct (serdes_unique t (fst k) E) as [H|H]; [contradiction|exact H].
Qed.
Print Assumptions C57_messages_are_routed_correctly.
Example C57_messages_are_routed_correctly_example : let tr := n_trace (run same quiet ops2) in In (EIn 0 kW 1 (0, 8)) tr /\ was_sent 1 kW (0, 8) tr.
Proof. split; [vm_compute; intuition|]. left. vm_compute. intuition. Qed.

(** The names of the serializers of the two are the same: with a LIN and a FlexRay controller on networks of the same name, the
    configuration of one is decoded as the configuration of the other. *)
Theorem C57_no_message_is_misread_refuted : exists ops b k a t m,
  distinct_ids same ops /\ In (EMisread b k a t m) (n_trace (run same quiet ops)) /\ fst k <> t.
Proof.
  exists [OConnect 1 0; ODeliver 1 0; ODeliver 0 1; ORegister 0 5 1 [WireLinControllerConfig] []; ODeliver 0 1; ORegister 1 5 2 [] [FlexrayControllerConfig]; OSend 1 0 FlexrayControllerConfig 7; ODeliver 1 0; ODeliver 1 0],
    0, (WireLinControllerConfig, 5), 1, FlexrayControllerConfig, (0, 7). split; [intros x y _ _ E; exact E|]. split; [vm_compute; intuition|discriminate].
Qed.
Print Assumptions C57_no_message_is_misread_refuted.
