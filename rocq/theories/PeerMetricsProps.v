(** C91: the metrics of a peer. *)
From Coq Require Import List NArith Arith Bool Lia.
From Verif Require Import Base PeerSendModel PeerSendSpec PeerSendProofs RingBufferModel RingBufferSpec PeerRecvModel PeerRecvSpec
  PeerRecvProofs PeerE2E PeerMetricsModel PeerMetricsProofs PeerMetricsEnds.
Import ListNotations.

(** Metrics do not change what a peer sends, when, or in which order. *)
Theorem C91_no_influence : forall thr l p, m_run thr l (tx_new, pm_new) = Ok p -> tx_run thr (strip l) tx_new = Ok (fst p).
Proof. intros thr l p H. rewrite <- (run_fst thr l (tx_new, pm_new) : _ = tx_run thr (strip l) tx_new), H. reflexivity. Qed.
Print Assumptions C91_no_influence.

(** Exactly the messages passed to SendSilKitMsg after the metrics were initialised are counted, each once with all its
    bytes, modulo 2^64; initialising again changes nothing. *)
Theorem C91_sent_counted : forall thr before after p, ~ In MInit before ->
  m_run thr (before ++ MInit :: after) (tx_new, pm_new) = Ok p ->
  m_txp (snd p) = (N.of_nat (length (sent (strip after))) mod 2 ^ 64)%N /\
  m_txb (snd p) = (N.of_nat (length (bytes_of (sent (strip after)))) mod 2 ^ 64)%N.
Proof.
  intros thr before after p N H.
  assert (S : exists p0, m_run thr before (tx_new, pm_new) = Ok p0 /\ m_run thr (MInit :: after) p0 = Ok p).
  { revert H. generalize (tx_new, pm_new) as q. induction before as [|e r IH]; intros q; cbn [app m_run]; [eauto|].
    destruct (m_step thr e q); cbn [bind]; try discriminate. apply IH. intro X; apply N; right; exact X. }
  destruct S as (p0 & S1 & S2). pose proof (before_init thr before (tx_new, pm_new) p0 N eq_refl S1) as C. unfold counts in C. injection C as C1 C2 _.
  cbn [m_run m_step bind] in S2. pose proof (after_init thr after (fst p0, pm_initialize (snd p0)) p eq_refl) as A.
  cbn [snd pm_initialize m_txb m_txp] in A, C1, C2. rewrite C1, C2 in A. specialize (A eq_refl eq_refl S2).
  unfold counts in A. injection A as A1 A2 _. rewrite size_bytes. split; assumption.
Qed.
Print Assumptions C91_sent_counted.
(** Nothing is counted before. *)
Theorem C91_nothing_before : forall thr l p, ~ In MInit l -> m_run thr l (tx_new, pm_new) = Ok p ->
  m_txp (snd p) = 0%N /\ m_txb (snd p) = 0%N.
Proof.
  intros thr l p N H. pose proof (before_init thr l (tx_new, pm_new) p N eq_refl H) as C. unfold counts in C. injection C as C1 C2 _. auto.
Qed.
Print Assumptions C91_nothing_before.

(** As long as nobody ends the connection: a peer that counts from the start has counted what was written, plus what is
    waiting in the queue or the aggregation buffer. *)
Theorem C91_bytes_conserved : forall thr l p, quiet (strip l) -> m_run thr (MInit :: l) (tx_new, pm_new) = Ok p ->
  m_txb (snd p) = (N.of_nat (length (t_wire (fst p)) + length (t_cur (fst p)) + length (concat (t_queue (fst p)))
                             + length (t_agg (fst p))) mod 2 ^ 64)%N.
Proof.
  intros thr l p Q H. destruct (C91_sent_counted thr [] l p (fun x => x) H) as [_ ->].
  pose proof (C91_no_influence thr (MInit :: l) p H) as T. change (strip (MInit :: l)) with (strip l) in T.
  rewrite size_bytes, <- (quiet_size thr (strip l) (fst p) Q T). unfold outgoing. rewrite !app_length.
  f_equal. f_equal. lia.
Qed.
Print Assumptions C91_bytes_conserved.

(** Finding: after a shutdown messages are still counted though none of them is sent. *)
Theorem C91_shutdown_refuted : forall thr l s m k blob, m_run thr l (tx_new, pm_new) = Ok (s, m) -> t_down s = true ->
  m_init m = true ->
  exists s' m', m_step thr (MEv (ESend k blob)) (s, m) = Ok (s', m') /\ outgoing s' = outgoing s /\ t_down s' = true /\
    m_txp m' = ((m_txp m + 1) mod 2 ^ 64)%N /\ m_txb m' = ((m_txb m + N.of_nat (length blob)) mod 2 ^ 64)%N.
Proof.
  intros thr l s m k blob _ D I. exists (fst (m_send thr k blob (s, m))), (snd (m_send thr k blob (s, m))).
  split; [cbn [m_step]; rewrite <- surjective_pairing; reflexivity|].
  rewrite send_fst. destruct (send_down thr k blob s D) as [A B]. split; [exact A|]. split; [exact B|].
  pose proof (send_counts thr k blob (s, m)) as C. cbn [fst snd] in C. unfold tx_packet, tx_bytes in C. rewrite I in C.
  cbn [m_init counts m_txb m_txp] in C. unfold counts in C. injection C as C1 C2 _. auto.
Qed.
Print Assumptions C91_shutdown_refuted.

(** The size of the queue is taken whenever a message is queued, with the message itself. *)
Theorem C91_queue_size : forall thr k blob s m, m_init m = true -> t_down s = false -> t_useagg s = false \/ k = KOther ->
  m_tq (snd (m_send thr k blob (s, m))) = m_tq m ++ [length (t_queue (fst (m_send thr k blob (s, m))))] /\
  t_queue (fst (m_send thr k blob (s, m))) = t_queue s ++ [blob].
Proof.
  intros thr k blob s m I D U.
  assert (E : m_send thr k blob (s, m) = m_internal blob (s, tx_packet (tx_bytes blob m))).
  { unfold m_send. cbn [fst snd]. destruct U as [-> | ->]; [reflexivity|destruct (t_useagg s); reflexivity]. }
  rewrite E. assert (Q : t_queue (fst (m_internal blob (s, tx_packet (tx_bytes blob m)))) = t_queue s ++ [blob]).
  { cbn [m_internal fst]. unfold send_internal. rewrite D. reflexivity. }
  rewrite Q. split; [|reflexivity]. rewrite internal_sizes; [|cbn [snd]; unfold tx_packet, tx_bytes; rewrite I; reflexivity|exact D].
  cbn [fst snd]. unfold tx_packet, tx_bytes. rewrite I. cbn [m_init m_tq]. rewrite app_length, Nat.add_1_r. reflexivity.
Qed.
Print Assumptions C91_queue_size.

(** On the receiving side the messages after the one that initialised the metrics are counted, and no others. *)
Theorem C91_received_counted : forall inits a x b, (forall c y d, a = c ++ y :: d -> inits c y = false) -> inits a x = true ->
  let m := m_receive inits [] (a ++ x :: b) pm_new in
  m_rxp m = (N.of_nat (length b) mod 2 ^ 64)%N /\ m_rxb m = (N.of_nat (length (concat b)) mod 2 ^ 64)%N.
Proof.
  intros inits a x b N X m. unfold m. rewrite receive_app, (receive_before inits a [] pm_new eq_refl N). cbn [app m_receive].
  rewrite X. destruct (receive_counts inits b (a ++ [x]) (pm_initialize (rx_packet (rx_bytes x pm_new))) eq_refl eq_refl eq_refl) as [-> ->].
  split; reflexivity.
Qed.
Print Assumptions C91_received_counted.

(** Whatever bytes arrive, in whatever pieces, and whatever the listener does: a peer that counts from the start has
    counted the bytes that arrived, but for those still in its buffer. *)
Theorem C91_received_bytes : forall hd cap l stream inits, 4 <= cap ->
  exists s rest, rx_conn hd cap l stream = Ok (Some (s, rest)) /\
    length (content (rx_ring s)) + length rest <= length stream /\
    m_rxb (m_receive inits [] (rx_out s) (pm_initialize pm_new)) =
      (N.of_nat (length stream - length rest - length (content (rx_ring s))) mod 2 ^ 64)%N.
Proof.
  intros hd cap l stream inits C. destruct (recv_any hd cap l stream C) as (s & rest & R & K).
  exists s, rest. split; [exact R|].
  assert (E : length stream = length (concat (rx_out s)) + (length (content (rx_ring s)) + length rest)).
  { rewrite <- app_length. exact (cuts_length _ _ _ K). }
  split; [lia|]. destruct (receive_counts inits (rx_out s) [] (pm_initialize pm_new) eq_refl eq_refl eq_refl) as [-> _].
  cbn [pm_initialize pm_new m_rxb]. unfold total. rewrite N.add_0_l. f_equal. f_equal. lia.
Qed.
Print Assumptions C91_received_bytes.

(** From the node that connects to the node that accepts: the former initialises its metrics after it sent its
    announcement (VAsioConnection.cpp 1142-1158), the latter while it handles the announcement (693-773). When everything
    was written and received, both have counted the same. *)
Theorem C91_both_ends : forall thr ann evs p hd cap l inits,
  let before := [MEv (ESend KOther ann)] in
  quiet (strip (before ++ MInit :: evs)) -> m_run thr (before ++ MInit :: evs) (tx_new, pm_new) = Ok p ->
  t_cur (fst p) = [] -> t_queue (fst p) = [] -> t_agg (fst p) = [] ->
  Forall (fun m => is_frame (snd m)) (sent (strip (before ++ MInit :: evs))) ->
  4 <= cap -> accepts hd -> only_chunks l -> length (t_wire (fst p)) <= length l -> inits [] ann = true ->
  exists r, rx_conn hd cap l (t_wire (fst p)) = Ok (Some (r, [])) /\
    m_rxp (m_receive inits [] (rx_out r) pm_new) = m_txp (snd p) /\
    m_rxb (m_receive inits [] (rx_out r) pm_new) = m_txb (snd p).
Proof.
  intros thr ann evs p hd cap l inits before Q H H1 H2 H3 F C A O L I.
  destruct (first_received thr ann (strip evs) (fst p) hd cap l Q (C91_no_influence thr _ p H) H1 H2 H3 F C A O L)
    as (r & out & R & RO & T1 & T2).
  exists r. split; [exact R|]. rewrite RO.
  destruct (C91_received_counted inits [] ann out) as [X1 X2]; [intros [|] ? ? X; discriminate X|exact I|].
  cbv zeta in X1, X2. cbn [app] in X1, X2. rewrite X1, X2.
  destruct (C91_sent_counted thr before evs p) as [-> ->]; [intros [X|X]; [discriminate X|exact X]|exact H|].
  unfold total in T2. rewrite T1, T2, size_bytes. split; reflexivity.
Qed.
Print Assumptions C91_both_ends.

(** Finding: in the other direction they differ. The registry sends the known participants before it initialises its
    metrics (the receivers of announcements run before AssociateParticipantNameAndPeer, 751-771), while the node that
    connected counts already: it counts one message more than the registry. *)
Theorem C91_known_participants_refuted : forall thr known evs p hd cap l,
  let before := [MEv (ESend KOther known)] in
  quiet (strip (before ++ MInit :: evs)) -> m_run thr (before ++ MInit :: evs) (tx_new, pm_new) = Ok p ->
  t_cur (fst p) = [] -> t_queue (fst p) = [] -> t_agg (fst p) = [] ->
  Forall (fun m => is_frame (snd m)) (sent (strip (before ++ MInit :: evs))) ->
  4 <= cap -> accepts hd -> only_chunks l -> length (t_wire (fst p)) <= length l ->
  exists r, rx_conn hd cap l (t_wire (fst p)) = Ok (Some (r, [])) /\ forall inits,
    m_rxp (m_receive inits [] (rx_out r) (pm_initialize pm_new)) = ((m_txp (snd p) + 1) mod 2 ^ 64)%N /\
    m_rxb (m_receive inits [] (rx_out r) (pm_initialize pm_new)) = ((m_txb (snd p) + N.of_nat (length known)) mod 2 ^ 64)%N.
Proof.
  intros thr known evs p hd cap l before Q H H1 H2 H3 F C A O L.
  destruct (first_received thr known (strip evs) (fst p) hd cap l Q (C91_no_influence thr _ p H) H1 H2 H3 F C A O L)
    as (r & out & R & RO & T1 & T2).
  exists r. split; [exact R|]. intro inits. rewrite RO.
  destruct (receive_counts inits (known :: out) [] (pm_initialize pm_new) eq_refl eq_refl eq_refl) as [-> ->].
  destruct (C91_sent_counted thr before evs p) as [-> ->]; [intros [X|X]; [discriminate X|exact X]|exact H|].
  cbn [pm_initialize pm_new m_rxb m_rxp]. unfold total in *. rewrite !N.add_mod_idemp_l by discriminate. cbn [concat length].
  rewrite app_length, Nat2N.inj_add, T1, T2, size_bytes, !N.add_0_l.
  split; [rewrite Nat2N.inj_succ, <- N.add_1_r|rewrite N.add_comm]; reflexivity.
Qed.
Print Assumptions C91_known_participants_refuted.

Definition ex_msg (n : N) : list N := [5; 0; 0; 0; n]%N.
Definition ex_evs : list mev := [MEv EDispatch; MEv (EWrote 3); MEv (EWrote 9); MEv (ESend KUser (ex_msg 7)); MEv (ESend KUser (ex_msg 8));
  MEv EDispatch; MEv (EWrote 9); MEv (EWrote 9)].
(** The hypotheses of both theorems about two ends. *)
Example C91_example : exists p, m_run 100 ([MEv (ESend KOther (ex_msg 1))] ++ MInit :: ex_evs) (tx_new, pm_new) = Ok p /\
  t_cur (fst p) = [] /\ t_queue (fst p) = [] /\ t_agg (fst p) = [] /\ t_wire (fst p) = ex_msg 1 ++ ex_msg 7 ++ ex_msg 8 /\
  m_txp (snd p) = 2%N /\ m_txb (snd p) = 10%N /\ m_tq (snd p) = [1; 2] /\
  quiet (strip ([MEv (ESend KOther (ex_msg 1))] ++ MInit :: ex_evs)) /\
  Forall (fun m => is_frame (snd m)) (sent (strip ([MEv (ESend KOther (ex_msg 1))] ++ MInit :: ex_evs))).
Proof.
  eexists. split; [vm_compute; reflexivity|]. do 7 (split; [reflexivity|]).
  split; [split; intro X; cbn in X; repeat (destruct X as [X|X]; [discriminate X|]); exact X|].
  repeat constructor; vm_compute; repeat constructor; discriminate.
Qed.
Example C91_received_example : let inits := fun (ms : list (list N)) (_ : list N) => match ms with [] => true | _ => false end in
  let m := m_receive inits [] [ex_msg 1; ex_msg 7; ex_msg 8] pm_new in m_rxp m = 2%N /\ m_rxb m = 10%N.
Proof. split; reflexivity. Qed.
Example C91_shutdown_example : exists s m, m_run 100 [MInit; MEv (ESend KUser (ex_msg 1)); MEv PeerSendModel.EShut] (tx_new, pm_new) = Ok (s, m) /\
  t_down s = true /\ m_init m = true /\ outgoing s = [] /\ m_txp m = 1%N.
Proof. eexists. eexists. split; [vm_compute; reflexivity|]. repeat split. Qed.
(** With aggregation bytes wait in the buffer. *)
Example C91_conserved_example : exists p, m_run 100 [MInit; MEv EEnable; MEv (ESend KUser (ex_msg 1)); MEv (ESend KOther (ex_msg 2))] (tx_new, pm_new) = Ok p /\
  m_txb (snd p) = 10%N /\ t_agg (fst p) = ex_msg 1 /\ t_queue (fst p) = [ex_msg 2].
Proof. eexists. split; [vm_compute; reflexivity|]. repeat split. Qed.
(** The same with aggregation: the order changes, the counters do not. *)
Definition ex_agg : list mev := [MEv EEnable; MEv (ESend KUser (ex_msg 7)); MEv (ESend KOther (ex_msg 9)); MEv (ESend KFlush (ex_msg 8));
  MEv EDispatch; MEv (EWrote 9); MEv (EWrote 9); MEv (EWrote 20)].
Example C91_aggregated_example : exists p, m_run 100 ([MEv (ESend KOther (ex_msg 1))] ++ MInit :: ex_agg) (tx_new, pm_new) = Ok p /\
  t_cur (fst p) = [] /\ t_queue (fst p) = [] /\ t_agg (fst p) = [] /\
  t_wire (fst p) = ex_msg 1 ++ ex_msg 9 ++ ex_msg 7 ++ ex_msg 8 /\ m_txp (snd p) = 3%N /\ m_txb (snd p) = 15%N /\
  quiet (strip ([MEv (ESend KOther (ex_msg 1))] ++ MInit :: ex_agg)).
Proof.
  eexists. split; [vm_compute; reflexivity|]. do 6 (split; [reflexivity|]).
  split; intro X; cbn in X; repeat (destruct X as [X|X]; [discriminate X|]); exact X.
Qed.
(** Two messages and the beginning of a third one. *)
Example C91_received_bytes_example : exists s, rx_conn (fun _ _ => VOk) 4 (map EChunk [3; 4; 9; 9; 9; 9]) (ex_msg 1 ++ ex_msg 2 ++ [5; 0; 0]%N) = Ok (Some (s, [])) /\
  rx_out s = [ex_msg 1; ex_msg 2] /\ length (content (rx_ring s)) = 3 /\
  m_rxb (m_receive (fun _ _ => false) [] (rx_out s) (pm_initialize pm_new)) = 10%N.
Proof. eexists. split; [vm_compute; reflexivity|]. repeat split. Qed.
