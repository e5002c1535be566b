From Coq Require Import List NArith Arith Bool Lia.
From Verif Require Import Base MessageBufferModel RingBufferModel RingBufferSpec PeerRecvModel PeerRecvSpec PeerRecvProofs PeerRecvStall
  PeerSendModel PeerSendSpec PeerSendProofs ByteStreamModel ByteStreamProofs PeerE2E.
Import ListNotations.

(** C06: whatever the listener does and however the bytes arrive, the messages handed over are a prefix of the messages
    sent; if the listener accepts everything and the connection stays up, a read is always outstanding with room in the
    buffer, and when all bytes have arrived (at the latest after as many completed reads as there are bytes) exactly the
    messages sent have been handed over. *)
Theorem C06_frames_in_order : forall hd cap l msgs, 4 <= cap -> Forall is_frame msgs ->
  exists s rest, rx_conn hd cap l (concat msgs) = Ok (Some (s, rest)) /\ prefix (rx_out s) msgs /\
    (accepts hd -> only_chunks l ->
       rx_pending s = false /\ rx_reading s = true /\ rb_size (rx_ring s) < rb_cap (rx_ring s) /\
       (rest = [] -> rx_out s = msgs) /\ (length (concat msgs) <= length l -> rest = [])).
Proof. exact recv_frames. Qed.
Print Assumptions C06_frames_in_order.

(** The buffer size of the code, VAsioPeer.cpp 39. *)
Theorem C06_all_delivered : forall hd l msgs, Forall is_frame msgs -> accepts hd -> only_chunks l ->
  length (concat msgs) <= length l ->
  exists s, rx_conn hd (N.to_nat 4096) l (concat msgs) = Ok (Some (s, [])) /\ rx_out s = msgs.
Proof. intros hd l msgs. apply recv_prefix_ok. lia. Qed.
Print Assumptions C06_all_delivered.

(** For arbitrary bytes: what is handed over is what the length fields say, and no byte is dropped or read twice. *)
Theorem C06_any_bytes : forall hd cap l stream, 4 <= cap ->
  exists s rest, rx_conn hd cap l stream = Ok (Some (s, rest)) /\
    cuts stream (rx_out s) (content (rx_ring s) ++ rest).
Proof. exact recv_any. Qed.
Print Assumptions C06_any_bytes.

Definition ex_m1 : list N := [5;0;0;0;7]%N.
Definition ex_m2 : list N := [9;0;0;0;1;2;3;4;5]%N.
Definition ex_m3 : list N := [4;0;0;0]%N.
Lemma ex_frames : Forall is_frame [ex_m1; ex_m2; ex_m3].
Proof.
  repeat constructor; unfold ex_m1, ex_m2, ex_m3, max_msg; cbn [length]; try (vm_compute; repeat constructor; fail);
    try (vm_compute; discriminate).
Qed.
Definition ex_chunks : list rxev := map EChunk [1; 2; 1; 3; 1; 1; 5; 2; 2; 3; 7].
Example C06_ex : exists s, rx_conn (fun _ _ => VOk) 4 ex_chunks (concat [ex_m1; ex_m2; ex_m3]) = Ok (Some (s, [])) /\
  rx_out s = [ex_m1; ex_m2; ex_m3] /\ rb_cap (rx_ring s) = 9 /\ only_chunks ex_chunks /\ Forall is_frame [ex_m1; ex_m2; ex_m3].
Proof.
  eexists. split; [vm_compute; reflexivity|]. split; [reflexivity|]. split; [reflexivity|]. split; [|exact ex_frames].
  intros e He. cbn in He. repeat (destruct He as [<-|He]; [eexists; reflexivity|]). destruct He.
Qed.
(** A message for which the listener throws is the last one that is handed over, whatever arrives or happens later: no
    further read is started. *)
Theorem C06_throwing_is_last : forall hd cap l stream s rest, rx_conn hd cap l stream = Ok (Some (s, rest)) ->
  forall ms m ms', rx_out s = ms ++ m :: ms' -> hd ms m = VThrow -> ms' = [] /\ rx_reading s = false.
Proof. exact conn_halted. Qed.
Print Assumptions C06_throwing_is_last.
(** A listener that throws stops the connection after the message; nothing later is handed over. *)
Example C06_ex_throw : exists s rest,
  rx_conn (fun _ m => if length m =? 9 then VThrow else VOk) 4 ex_chunks (concat [ex_m1; ex_m2; ex_m3]) = Ok (Some (s, rest)) /\
  rx_out s = [ex_m1; ex_m2] /\ rx_reading s = false /\ rest = ex_m3.
Proof. eexists. eexists. split; [vm_compute; reflexivity|]. repeat split. Qed.

(** C08: a corrupt length prefix after the messages [msgs]. *)
Theorem C08_corrupt_length : forall hd cap l msgs p tail, 4 <= cap -> Forall is_frame msgs -> is_corrupt p ->
  exists s rest, rx_conn hd cap l (concat msgs ++ p ++ tail) = Ok (Some (s, rest)) /\ prefix (rx_out s) msgs /\
    (accepts hd -> only_chunks l ->
       (length rest <= length tail -> rx_down s = true /\ rx_pending s = true /\ rx_reading s = false /\ rx_out s = msgs) /\
       (length (concat msgs) + 4 <= length l -> length rest <= length tail)).
Proof. exact recv_corrupt. Qed.
Print Assumptions C08_corrupt_length.

(** After a shutdown, whoever caused it, nothing is handed over and nothing is read any more. *)
Theorem C08_nothing_after_shutdown : forall hd cap l l' stream s rest, 4 <= cap ->
  rx_conn hd cap l stream = Ok (Some (s, rest)) -> rx_pending s = true ->
  exists s', rx_run hd l' s rest = Ok (Some (s', rest)) /\ rx_out s' = rx_out s.
Proof. exact recv_after_shutdown. Qed.
Print Assumptions C08_nothing_after_shutdown.

Example C08_ex : exists s, rx_conn (fun _ _ => VOk) 4 (map EChunk [3; 7; 4; 4; 4])
    (concat [ex_m1] ++ [1;0;0;64]%N ++ ex_m3 ++ ex_m2) = Ok (Some (s, ex_m3 ++ ex_m2)) /\
  rx_out s = [ex_m1] /\ rx_down s = true /\ is_corrupt [1;0;0;64]%N /\ is_corrupt [0;0;0;0]%N.
Proof. eexists. split; [vm_compute; reflexivity|]. repeat split; vm_compute; auto. Qed.
(** Lengths 1 to 3 cannot belong to a message but are not treated as corrupt: a message of three bytes is handed over
    and the stream is read on from inside the length field. *)
Example C08_short_length_not_detected : exists s, rx_conn (fun _ _ => VOk) 4 (map EChunk [4; 4])
    ([3;0;0;0] ++ ex_m3)%N = Ok (Some (s, [0]%N)) /\ rx_out s = [[3;0;0]%N] /\ rx_cur s = (256 * 4)%N.
Proof. eexists. split; [vm_compute; reflexivity|]. split; reflexivity. Qed.

(** C09, without aggregation: what has been written, is being written and is queued is what was sent, in call order. *)
Theorem C09_in_call_order : forall thr l, quiet l -> ~ In EEnable l ->
  exists s, tx_run thr l tx_new = Ok s /\ outgoing s = bytes_of (sent l).
Proof. exact send_plain. Qed.
Print Assumptions C09_in_call_order.

(** With aggregation enabled at any time: nothing lost or duplicated, each of the two classes in call order. *)
Theorem C09_aggregation_keeps_class_order : forall thr l, quiet l ->
  exists s L A, tx_run thr l tx_new = Ok s /\ outgoing s = bytes_of L /\ t_agg s = bytes_of A /\
    filter aggregated (L ++ A) = filter aggregated (sent l) /\
    filter (fun m => negb (aggregated m)) (L ++ A) = filter (fun m => negb (aggregated m)) (sent l).
Proof. exact send_aggregated. Qed.
Print Assumptions C09_aggregation_keeps_class_order.

(** Sending a time step (or status) message empties the aggregation buffer; all user data sent before goes first. *)
Theorem C09_time_step_flushes : forall thr l b s, quiet l -> tx_run thr l tx_new = Ok s -> t_useagg s = true ->
  exists L, outgoing (send thr KFlush b s) = bytes_of L /\ t_agg (send thr KFlush b s) = [] /\
    filter aggregated L = filter aggregated (sent l) ++ [(KFlush, b)] /\
    filter (fun m => negb (aggregated m)) L = filter (fun m => negb (aggregated m)) (sent l).
Proof. exact send_flushes. Qed.
Print Assumptions C09_time_step_flushes.

Theorem C09_buffer_bounded : forall thr l, quiet l ->
  exists s, tx_run thr l tx_new = Ok s /\ length (t_agg s) <= thr.
Proof. exact send_buffer_bounded. Qed.
Print Assumptions C09_buffer_bounded.

(** No wake-up is lost: one posted StartAsyncWrite and enough write completions put everything on the wire. *)
Theorem C09_queue_drains : forall thr l ns, quiet l -> Forall (fun n => 0 < n) ns ->
  exists s, tx_run thr l tx_new = Ok s /\
    (writes_needed s <= length ns ->
     exists s', tx_run thr (l ++ EDispatch :: map EWrote ns) tx_new = Ok s' /\
       t_wire s' = outgoing s /\ t_cur s' = [] /\ t_queue s' = []).
Proof. exact send_drains. Qed.
Print Assumptions C09_queue_drains.

(** Sender and receiver together. *)
Theorem C09_end_to_end : forall thr evs s hd cap l, quiet evs -> tx_run thr evs tx_new = Ok s ->
  t_cur s = [] -> t_queue s = [] -> t_agg s = [] -> Forall (fun m => is_frame (snd m)) (sent evs) ->
  4 <= cap -> accepts hd -> only_chunks l -> length (t_wire s) <= length l ->
  exists r L, rx_conn hd cap l (t_wire s) = Ok (Some (r, [])) /\ rx_out r = map snd L /\
    filter aggregated L = filter aggregated (sent evs) /\
    filter (fun m => negb (aggregated m)) L = filter (fun m => negb (aggregated m)) (sent evs) /\
    (~ In EEnable evs -> L = sent evs).
Proof. exact end_to_end. Qed.
Print Assumptions C09_end_to_end.

(** The kinds: the messages that end a time step flush, and frames, data and calls are user data. *)
Theorem C09_kinds : forall t, aggregation_kind t = KFlush <-> t = TNextSimTask \/ t = TParticipantStatus.
Proof. intros []; cbn; split; intro H; try discriminate; auto; destruct H; discriminate. Qed.
Print Assumptions C09_kinds.

Definition ex_send : list txev :=
  [ESend KOther ex_m3; EEnable; ESend KUser ex_m1; EDispatch; EWrote 2; ESend KOther ex_m3; ESend KFlush ex_m2;
   EWrote 9; EDispatch; EWrote 1; EWrote 3; EWrote 20; EWrote 20].
Example C09_ex : exists s, tx_run 100 ex_send tx_new = Ok s /\ t_cur s = [] /\ t_queue s = [] /\ t_agg s = [] /\
  t_wire s = ex_m3 ++ ex_m3 ++ ex_m1 ++ ex_m2 /\ quiet ex_send.
Proof. eexists. split; [vm_compute; reflexivity|]. repeat split; intro H; cbn in H; intuition discriminate. Qed.
(** With a small threshold the user data is flushed twice, leaving an empty blob in the queue that is written too. *)
Example C09_ex_threshold : exists s, tx_run 6 [EEnable; ESend KUser ex_m1; ESend KFlush ex_m2] tx_new = Ok s /\
  t_queue s = [ex_m1 ++ ex_m2; []] /\ t_agg s = [] /\ writes_needed s = 16.
Proof. eexists. split; [vm_compute; reflexivity|]. repeat split. Qed.

(** Order across the classes is not kept: with aggregation a message of another type overtakes user data. *)
Theorem C09_order_across_classes_refuted : exists l s, quiet l /\
  sent l = [(KUser, ex_m1); (KOther, ex_m2)] /\
  tx_run aggregation_threshold l tx_new = Ok s /\ t_queue s = [] /\ t_agg s = [] /\ t_wire s = ex_m2 ++ ex_m1.
Proof.
  exists [EEnable; ESend KUser ex_m1; ESend KOther ex_m2; EDispatch; EWrote 9; ETimer; EDispatch; EWrote 5].
  eexists. split; [split; intro H; cbn in H; intuition discriminate|]. split; [reflexivity|].
  split; [vm_compute; reflexivity|]. repeat split.
Qed.
Print Assumptions C09_order_across_classes_refuted.

(** C51: the flush timer does not guarantee that buffered user data leaves: once the timer has expired with an empty
    buffer it is never armed by new user data. The message below stays in the buffer whatever the I/O thread does. *)
Theorem C51_flush_timer_refuted : exists l s, quiet l /\ tx_run aggregation_threshold l tx_new = Ok s /\
  t_agg s = ex_m2 /\
  forall l', Forall io_event l' ->
    exists s', tx_run aggregation_threshold l' s = Ok s' /\ t_agg s' = ex_m2 /\ outgoing s' = outgoing s.
Proof.
  set (l := [EEnable; ESend KUser ex_m1; ETimer; ETimer; ESend KUser ex_m2]).
  assert (Q : quiet l) by (split; intro H; cbn in H; intuition discriminate).
  destruct (run_inv aggregation_threshold l tx_new [] [] [] Q inv_new) as (s & L & A & E1 & E2 & _).
  exists l, s. split; [exact Q|]. split; [exact E1|].
  assert (Hs : t_agg s = ex_m2 /\ t_armed s = false).
  { vm_compute in E1. inversion E1; subst s. split; reflexivity. }
  destruct Hs as [Hs Ha]. split; [exact Hs|]. intros l' HF.
  destruct (disarmed_stays aggregation_threshold l' s _ L A E2 Ha HF) as (s' & F1 & F2 & F3).
  exists s'. rewrite <- Hs. auto.
Qed.
Print Assumptions C51_flush_timer_refuted.

(** What does hold: an armed timer flushes the buffer when it expires, and flushing arms it again. *)
Theorem C51_armed_timer_flushes_partial : forall thr l s, quiet l -> tx_run thr l tx_new = Ok s ->
  t_armed s = true -> t_agg s <> [] ->
  exists s', tx_step thr ETimer s = Ok s' /\ t_agg s' = [] /\ outgoing s' = outgoing s ++ t_agg s /\ t_armed s' = true.
Proof.
  intros thr l s Q H Ha Hne. destruct (run_inv thr l tx_new [] [] [] Q inv_new) as (s1 & L & A & E1 & E2 & _).
  rewrite E1 in H. inversion H; subst s1. cbn [tx_step]. rewrite Ha. tcbn.
  destruct (t_agg s) as [|x r] eqn:Eg; [congruence|]. eexists. split; [reflexivity|]. unfold flush. tcbn.
  destruct E2. unfold arm, send_internal, outgoing. tcbn. rewrite v_down. tcbn. rewrite ?Eg. repeat split; auto.
  rewrite concat_app. cbn. rewrite app_nil_r. now rewrite !app_assoc.
Qed.
Print Assumptions C51_armed_timer_flushes_partial.
Example C51_ex : exists s, tx_run aggregation_threshold [EEnable; ESend KUser ex_m1] tx_new = Ok s /\
  t_armed s = true /\ t_agg s <> [].
Proof. eexists. split; [vm_compute; reflexivity|]. split; [reflexivity|discriminate]. Qed.

(** C52: the end of a connection is reported exactly once, after asio has returned every operation that refers to the
    stream, and no operation is started afterwards. *)
Theorem C52_shutdown_reported_once : forall l, exists s, bs_run l bs_new = Ok s /\
  shutdowns s <= 1 /\
  (shutdowns s = 1 -> outstanding s = 0 /\ s_pending s = true /\ s_closed s = true /\
     forall l', exists s', bs_run l' s = Ok s' /\ outstanding s' = 0 /\ s_calls s' = s_calls s) /\
  (In BShutdown l -> outstanding s = 0 -> shutdowns s = 1).
Proof. exact stream_shutdown. Qed.
Print Assumptions C52_shutdown_reported_once.
Example C52_ex : exists s, bs_run [BRead; BWrite; BReadDone ROk; BRead; BShutdown; BWriteDone ROk; BRead; BReadDone RErr; BShutdown] bs_new = Ok s /\
  s_calls s = [CShutdown; CReadDone] /\ outstanding s = 0.
Proof. eexists. split; [vm_compute; reflexivity|]. split; reflexivity. Qed.
