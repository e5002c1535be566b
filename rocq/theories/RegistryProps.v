(** C36: the registry. *)
From Coq Require Import List Arith Bool Lia.
From Verif Require Import Base RegistryModel RegistryProofs RegistryIso.
Import ListNotations.

Lemma left_dec : forall q a, {In (ELeft q) a} + {~ In (ELeft q) a}.
Proof.
  intros q a. induction a as [|e a IH]; [right; intros []|]. destruct IH as [IH|IH]; [left; right; exact IH|].
  destruct e as [| | |p| | | | | |]; try (right; intros [H|H]; [discriminate|contradiction]).
  destruct (Nat.eq_dec p q) as [->|H]; [left; left; reflexivity|]. right. intros [E|E]; [congruence|contradiction].
Qed.

Lemma named_check : forall ops,
  forallb (fun o => match o with OAnnounce _ y _ => negb (y =? 0) | _ => true end) ops = true -> named ops.
Proof.
  intros ops H p y n Hin. rewrite forallb_forall in H. apply H in Hin. cbn in Hin.
  apply negb_true_iff, Nat.eqb_neq in Hin. exact Hin.
Qed.
Lemma plain_check : forall ops,
  forallb (fun o => match o with OProxy _ _ _ e => negb e | _ => true end) ops = true ->
  forall p' src' dst' e', In (OProxy p' src' dst' e') ops -> e' = false.
Proof.
  intros ops H p s d e Hin. rewrite forallb_forall in H. apply H in Hin. cbn in Hin.
  apply negb_true_iff in Hin. exact Hin.
Qed.

(** Two simulations (1 and 2), a rejected participant, a departure and a successor of the same name. *)
Definition ex_ops : list op :=
  [OConnect 1; OAnnounce 1 1 10; OConnect 2; OAnnounce 2 1 20; OConnect 3; OAnnounce 3 2 10;
   OProxy 1 10 20 false; OConnect 4; OAnnounce 4 1 10; ODisconnect 1; OConnect 5; OAnnounce 5 1 10;
   ODisconnect 2; ODisconnect 5; ODisconnect 3].
Example ex_run : r_log (run ex_ops) =
  [EKnown 1 1 []; EJoin 1 1 10; EKnown 2 1 [10]; EJoin 2 1 20; EKnown 3 2 []; EJoin 3 2 10;
   EDeliver 1 2 1 10 20 false; ERejected 4 1 10; ELeft 1; EDeliver 1 2 1 10 20 true; EGone 1 10;
   EKnown 5 1 [20]; EJoin 5 1 10; ELeft 2; EGone 1 20; ELeft 5; EGone 1 10; ELeft 3; EGone 2 10; EAllGone].
Proof. vm_compute. reflexivity. Qed.
Example ex_once : NoDup (announcers ex_ops).
Proof. cbn. repeat constructor; cbn; intuition discriminate. Qed.

(** 1. Unique names, for every history whatever the peers do: between two successful announcements of the
    same name in the same simulation the first participant has disconnected. *)
Theorem C36_names_unique : forall ops a b c p q s n,
  r_log (run ops) = a ++ EJoin p s n :: b ++ EJoin q s n :: c -> In (ELeft p) b.
Proof. intros ops. apply (u_unique _ (U_run ops)). Qed.
Print Assumptions C36_names_unique.

(** 2. Every participant joining is told exactly the names of the participants which have joined its
    simulation before and have not left, each once. *)
Theorem C36_known_exactly_the_others : forall ops a b p s l,
  NoDup (announcers ops) -> r_log (run ops) = a ++ EKnown p s l :: b ->
  NoDup l /\ forall n, In n l <-> exists q, In (EJoin q s n) a /\ ~ In (ELeft q) a.
Proof. intros ops a b p s l H E. exact (T_run ops H a _ b E). Qed.
Print Assumptions C36_known_exactly_the_others.

(** 3. A participant is rejected exactly if its name is taken at that time; hence a name becomes free
    when its participant disconnects. *)
Theorem C36_rejected_iff_taken : forall ops p s n,
  NoDup (announcers (ops ++ [OAnnounce p s n])) -> In p (r_alive (run ops)) ->
  let log := r_log (run ops) in
  let log' := r_log (run (ops ++ [OAnnounce p s n])) in
  ((exists q, In (EJoin q s n) log /\ ~ In (ELeft q) log) -> log' = log ++ [ERejected p s n]) /\
  ((forall q, In (EJoin q s n) log -> In (ELeft q) log) -> In (EJoin p s n) log').
Proof.
  intros ops p s n H Hp. cbv zeta. rewrite announcers_snoc in H. pose proof (nodup_app_l _ _ H) as H0.
  pose proof (O_run ops H0) as HO. pose proof (U_run ops) as HU. rewrite run_snoc. unfold step.
  rewrite (o_ub _ _ HO). apply mem_In in Hp. cbn [op_peer]. rewrite Hp.
  rewrite (announce_spec (announcers ops) (run ops) p s n HO). split.
  - intros (q & H1 & H2). assert (Hc : In ((s, n), q) (r_conn (run ops))).
    { apply (conn_member (announcers ops)); auto. split; auto. }
    apply find_in in Hc; [|apply (u_nodup _ HU)]. rewrite Hc. reflexivity.
  - intros Hn. destruct (find (s, n) (r_conn (run ops))) as [q|] eqn:Ef.
    + apply find_some in Ef. apply (conn_member (announcers ops)) in Ef; auto. destruct Ef as [E1 E2].
      exfalso. apply E2, Hn, E1.
    + unfold joined_state. cbn. apply in_or_app. right. left. reflexivity.
Qed.
Print Assumptions C36_rejected_iff_taken.

(** 4. No use of a deleted peer. *)
Theorem C36_no_dangling_peer : forall ops, NoDup (announcers ops) -> r_ub (run ops) = false.
Proof. intros ops H. apply (o_ub _ _ (O_run ops H)). Qed.
Print Assumptions C36_no_dangling_peer.

(** 5. Isolation: what happens in a simulation (with a non-empty name) does not depend on the peers of
    other simulations: joins, rejections, lists of known participants, relayed and lost messages,
    departures are the same as if the other peers did not exist. *)
Theorem C36_simulations_isolated : forall (f : nat -> nat) x ops,
  x <> 0 -> NoDup (announcers ops) -> (forall p y n, In (OAnnounce p y n) ops -> y = f p) ->
  view f x (r_log (run ops)) = view f x (r_log (run (filter (fun o => f (op_peer o) =? x) ops))).
Proof. intros f x ops Hx H1 H2. apply (n_log _ _ _ _ (NI_run f x Hx ops H1 H2)). Qed.
Print Assumptions C36_simulations_isolated.

Definition ex_sim (p : nat) : nat := if p =? 3 then 2 else 1.
Example ex_isolated : view ex_sim 2 (r_log (run ex_ops)) = [EKnown 3 2 []; EJoin 3 2 10; ELeft 3; EGone 2 10].
Proof. vm_compute. reflexivity. Qed.

(** 6. The handler for "all participants disconnected" is called only when nobody is left, and it is
    called when the last participant leaves. *)
Theorem C36_all_gone_only_if_empty : forall ops a b,
  NoDup (announcers ops) -> r_log (run ops) = a ++ EAllGone :: b ->
  forall q s n, In (EJoin q s n) a -> In (ELeft q) a.
Proof.
  intros ops a b H E q s n Hj. pose proof (T_run ops H a _ b E) as HT. cbn in HT.
  destruct (left_dec q a) as [Hl|Hl]; auto.
  exfalso. apply (HT q s n). split; auto.
Qed.
Print Assumptions C36_all_gone_only_if_empty.

Theorem C36_all_gone_called : forall ops p s n,
  NoDup (announcers ops) -> In (EJoin p s n) (r_log (run ops)) -> ~ In (ELeft p) (r_log (run ops)) ->
  (forall q s' n', In (EJoin q s' n') (r_log (run ops)) -> q <> p -> In (ELeft q) (r_log (run ops))) ->
  exists l, r_log (run (ops ++ [ODisconnect p])) = r_log (run ops) ++ l ++ [EAllGone].
Proof.
  intros ops p s n H H1 H2 H3. pose proof (O_run ops H) as HO. pose proof (U_run ops) as HU.
  assert (Hc : In ((s, n), p) (r_conn (run ops))) by (apply (conn_member (announcers ops)); auto; split; auto).
  pose proof (o_conn _ _ HO _ _ Hc) as [Ha Hi].
  rewrite run_snoc. unfold step. rewrite (o_ub _ _ HO). apply mem_In in Ha. cbn [op_peer]. rewrite Ha.
  destruct (disconnect_spec (run ops) p) as [(_ & En & _)|(es & tl & En & El & _ & _ & _ & _ & _ & _ & Ec)].
  { destruct (notify_some _ (run ops) p (r_info (run ops) p) (r_dests (run ops)) HO). congruence. }
  rewrite El. rewrite Hi in Ec. apply find_in in Hc; [|apply (u_nodup _ HU)].
  destruct Ec as [(_ & _ & ->)|(Hf & _)]; [|congruence].
  assert (Ee : erase (s, n) (r_conn (run ops)) = []).
  { destruct (erase (s, n) (r_conn (run ops))) as [|[k q] l] eqn:E; auto. exfalso.
    assert (Hin : In (k, q) (erase (s, n) (r_conn (run ops)))) by (rewrite E; left; reflexivity).
    apply in_erase in Hin. destruct Hin as [Hin Hk]. cbn in Hk.
    assert (q <> p). { intros ->. apply (o_conn _ _ HO) in Hin. destruct Hin. congruence. }
    destruct k as [s' n']. apply (conn_member (announcers ops)) in Hin; auto. destruct Hin as [E1 E2].
    apply E2. eapply H3; eauto. }
  rewrite Ee. exists (ELeft p :: es ++ [EGone s n]). cbn. rewrite <- app_assoc. reflexivity.
Qed.
Print Assumptions C36_all_gone_called.

(** 7. Relaying: a proxy message is delivered only to the participant which holds the name of the
    destination in the simulation of the sender. *)
Theorem C36_relay_only_to_holder : forall ops a b p q s src dst e,
  NoDup (announcers ops) -> r_log (run ops) = a ++ EDeliver p q s src dst e :: b ->
  In (EJoin q s dst) a /\ (~ In (ELeft q) a \/ (q = p /\ e = true)).
Proof. intros ops a b p q s src dst e H E. exact (T_run ops H a _ b E). Qed.
Print Assumptions C36_relay_only_to_holder.

Theorem C36_requests_only_to_holder : forall ops a b q s x org tgt,
  NoDup (announcers ops) -> r_log (run ops) = a ++ ERequest q s x org tgt :: b ->
  ~ In (ELeft q) a /\
  ((x = RRequest /\ In (EJoin q s tgt) a) \/ ((x = RConnecting \/ x = RFailed) /\ In (EJoin q s org) a)).
Proof.
  intros ops a b q s x org tgt H E. destruct (T_run ops H a _ b E) as [(H1 & H2 & H3)|(H1 & H2 & H3)]; auto.
Qed.
Print Assumptions C36_requests_only_to_holder.

(** If no announcement was rejected: a message is lost only if nobody holds the name of the destination,
    and relayed messages and departure notices come from the participant they name as their source. *)
Theorem C36_relay_complete_without_rejection : forall ops a b p s src dst,
  NoDup (announcers ops) -> named ops -> no_rejects (r_log (run ops)) ->
  r_log (run ops) = a ++ ELost p s src dst :: b ->
  forall q, In (EJoin q s dst) a -> In (ELeft q) a.
Proof.
  intros ops a b p s src dst H1 H2 H3 E q Hj. pose proof (s_truth _ (S_run ops H1 H2 H3) a _ b E) as HT. cbn in HT.
  destruct (left_dec q a) as [Hl|Hl]; auto.
  exfalso. apply (HT q). split; auto.
Qed.
Print Assumptions C36_relay_complete_without_rejection.

Theorem C36_relay_authentic_without_rejection : forall ops a b p q s src dst e,
  NoDup (announcers ops) -> named ops -> no_rejects (r_log (run ops)) ->
  r_log (run ops) = a ++ EDeliver p q s src dst e :: b ->
  In (EJoin p s src) a /\ (In (ELeft p) a -> e = true).
Proof.
  intros ops a b p q s src dst e H1 H2 H3 E. exact (s_truth _ (S_run ops H1 H2 H3) a _ b E).
Qed.
Print Assumptions C36_relay_authentic_without_rejection.

Theorem C36_departure_notice_truthful_without_rejection : forall ops a b p q s src dst,
  NoDup (announcers ops) -> named ops -> no_rejects (r_log (run ops)) ->
  (forall p' src' dst' e', In (OProxy p' src' dst' e') ops -> e' = false) ->
  r_log (run ops) = a ++ EDeliver p q s src dst true :: b ->
  In (EJoin p s src) a /\ In (ELeft p) a.
Proof.
  intros ops a b p q s src dst H1 H2 H3 H4 E. split.
  - apply (s_truth _ (S_run ops H1 H2 H3) a _ b E).
  - exact (T3_run ops H4 a _ b E).
Qed.
Print Assumptions C36_departure_notice_truthful_without_rejection.

Definition ex_ok : list op :=
  [OConnect 1; OAnnounce 1 1 10; OConnect 2; OAnnounce 2 1 20; OProxy 1 10 20 false; OProxy 1 10 30 false;
   ORequest 2 RRequest 0 10; ODisconnect 1; ODisconnect 2].
Example ex_ok_hyps : NoDup (announcers ex_ok) /\ named ex_ok /\ no_rejects (r_log (run ex_ok)) /\
  r_log (run ex_ok) = [EKnown 1 1 []; EJoin 1 1 10; EKnown 2 1 [10]; EJoin 2 1 20; EDeliver 1 2 1 10 20 false;
    ELost 1 1 10 30; ERequest 1 1 RRequest 20 10; ELeft 1; EDeliver 1 2 1 10 20 true; EGone 1 10; ELeft 2; EGone 1 20; EAllGone].
Proof.
  assert (E : r_log (run ex_ok) = [EKnown 1 1 []; EJoin 1 1 10; EKnown 2 1 [10]; EJoin 2 1 20; EDeliver 1 2 1 10 20 false;
    ELost 1 1 10 30; ERequest 1 1 RRequest 20 10; ELeft 1; EDeliver 1 2 1 10 20 true; EGone 1 10; ELeft 2; EGone 1 20; EAllGone])
    by (vm_compute; reflexivity).
  split; [cbn; repeat constructor; cbn; intuition discriminate|]. split.
  - apply named_check; vm_compute; reflexivity.
  - split; [|exact E]. rewrite E. intros p s n H. cbn in H. intuition discriminate.
Qed.

(** Refuted without that condition.  A client announcing a name that is taken is rejected; when it
    disconnects, the registry forgets the peer of the participant which holds the name: messages and
    connection requests to it are dropped although it is connected ... *)
Definition impostor : list op :=
  [OConnect 1; OAnnounce 1 1 10; OConnect 2; OAnnounce 2 1 20; OProxy 1 10 20 false;
   OConnect 3; OAnnounce 3 1 10].
Theorem C36_relay_complete_refuted :
  exists ops a b p s src dst q,
    NoDup (announcers ops) /\ named ops /\
    r_log (run ops) = a ++ ELost p s src dst :: b /\ In (EJoin q s dst) a /\ ~ In (ELeft q) a.
Proof.
  exists (impostor ++ [ODisconnect 3; OProxy 2 20 10 false]),
    [EKnown 1 1 []; EJoin 1 1 10; EKnown 2 1 [10]; EJoin 2 1 20; EDeliver 1 2 1 10 20 false; ERejected 3 1 10; ELeft 3;
     EDeliver 3 2 1 10 20 true], [], 2, 1, 20, 10, 1.
  split; [cbn; repeat constructor; cbn; intuition discriminate|]. split.
  - apply named_check; vm_compute; reflexivity.
  - split; [vm_compute; reflexivity|]. split; [cbn; tauto|]. cbn. intuition discriminate.
Qed.
Print Assumptions C36_relay_complete_refuted.

(** ... its other participants are told that the holder of the name has disconnected although it has
    not ... *)
Theorem C36_departure_notice_truthful_refuted :
  exists ops a b p q s src dst,
    NoDup (announcers ops) /\ named ops /\ (forall p' src' dst' e', In (OProxy p' src' dst' e') ops -> e' = false) /\
    r_log (run ops) = a ++ EDeliver p q s src dst true :: b /\
    (exists h, h <> p /\ In (EJoin h s src) a /\ ~ In (ELeft h) (r_log (run ops))).
Proof.
  exists (impostor ++ [ODisconnect 3]),
    [EKnown 1 1 []; EJoin 1 1 10; EKnown 2 1 [10]; EJoin 2 1 20; EDeliver 1 2 1 10 20 false; ERejected 3 1 10; ELeft 3],
    [], 3, 2, 1, 10, 20.
  split; [cbn; repeat constructor; cbn; intuition discriminate|]. split.
  { apply named_check; vm_compute; reflexivity. }
  split. { apply plain_check; vm_compute; reflexivity. }
  split; [vm_compute; reflexivity|]. exists 1. split; [discriminate|]. split; [cbn; tauto|].
  vm_compute. intuition discriminate.
Qed.
Print Assumptions C36_departure_notice_truthful_refuted.

(** ... and before it disconnects, the rejected client can send in the name of the holder. *)
Theorem C36_relay_authentic_refuted :
  exists ops a b p q s src dst,
    NoDup (announcers ops) /\ named ops /\ r_log (run ops) = a ++ EDeliver p q s src dst false :: b /\
    ~ In (EJoin p s src) a.
Proof.
  exists (impostor ++ [OProxy 3 10 20 false]),
    [EKnown 1 1 []; EJoin 1 1 10; EKnown 2 1 [10]; EJoin 2 1 20; EDeliver 1 2 1 10 20 false; ERejected 3 1 10],
    [], 3, 2, 1, 10, 20.
  split; [cbn; repeat constructor; cbn; intuition discriminate|]. split.
  { apply named_check; vm_compute; reflexivity. }
  split; [vm_compute; reflexivity|]. cbn. intuition discriminate.
Qed.
Print Assumptions C36_relay_authentic_refuted.

(** Refuted without the condition that peers announce themselves once: a peer announcing itself under two
    names keeps the first one after its departure for ever, and the next participant joining makes the
    registry use the deleted peer. *)
Theorem C36_name_freed_refuted : exists ops p q s n,
  In (ELeft p) (r_log (run ops)) /\ (forall h, In (EJoin h s n) (r_log (run ops)) -> h = p) /\
  r_log (run (ops ++ [OConnect q; OAnnounce q s n])) = r_log (run ops) ++ [ERejected q s n].
Proof.
  exists [OConnect 1; OAnnounce 1 1 10; OAnnounce 1 1 11; ODisconnect 1], 1, 2, 1, 10.
  split; [vm_compute; tauto|]. split; [|vm_compute; reflexivity].
  intros h. vm_compute. intros H. repeat (destruct H as [H|H]; [congruence|]). contradiction.
Qed.
Print Assumptions C36_name_freed_refuted.
Theorem C36_no_dangling_peer_refuted : exists ops, r_ub (run ops) = true.
Proof.
  exists [OConnect 1; OAnnounce 1 1 10; OAnnounce 1 1 11; ODisconnect 1; OConnect 2; OAnnounce 2 1 20].
  vm_compute. reflexivity.
Qed.
Print Assumptions C36_no_dangling_peer_refuted.
