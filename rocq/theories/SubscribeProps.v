(** C56: registering services at the connection. *)
From Coq Require Import List Arith Bool Lia.
From Verif Require Import Base SubscribeModel SubscribeProofs.
Import ListNotations.

(** Two peers; a synchronous registration with two receivers, an asynchronous one sharing a receiver, a
    second synchronous one; one peer leaves instead of answering. *)
Definition ex_ops : list op :=
  [IJoin 1; IJoin 2; USync [10; 11]; IJob; IAck 1 0; UAsync [11; 12]; IAck 2 0; IJob; UAddNow 5; IAck 1 1; UReturn 1;
   ILeave 2; UReturn 1; IAck 1 2; INext; INext; INext; USync [13]; IJob; IAck 1 3; UReturn 2].
Example ex_run : s_log (run ex_ops) =
  [EJoin 1; EJoin 2; EReq 1 [10; 11]; EStart false 1 [10; 11] [1; 2] [(10, 0); (11, 1)]; EAck 1 0; EReqA 1 [11; 12];
   EAck 2 0; EStart true 1 [11; 12] [1; 2] [(12, 2)]; EAsk 5; EAck 1 1; ELeave 2; EDone 1; EReturn 1; EAck 1 2;
   EInvoke 5 false; EReq 2 [13]; EStart false 2 [13] [1] [(13, 3)]; EAck 1 3; EDone 2; EReturn 2].
Proof. vm_compute. reflexivity. Qed.
(** Deciding [serial]. *)
Fixpoint serialb (s : st) (ops : list op) : bool :=
  match ops with
  | [] => true
  | o :: l =>
      match o with USync _ | ISync _ =>
        forallb (fun e => match e with EReq r _ => returned r (s_log s) | _ => true end) (s_log s)
      | _ => true end && serialb (step s o) l
  end.
Lemma serial_check : forall ops, serialb init ops = true -> serial ops.
Proof.
  assert (H : forall ops pre, serialb (run pre) ops = true -> forall a o b ks, ops = a ++ o :: b -> o = USync ks \/ o = ISync ks ->
    forall r ks', In (EReq r ks') (s_log (run (pre ++ a))) -> In (EReturn r) (s_log (run (pre ++ a)))).
  { induction ops as [|x ops IH]; intros pre Hb a o b ks E Ho r ks' Hr; [destruct a; discriminate|].
    cbn in Hb. apply andb_true_iff in Hb. destruct Hb as [Hb1 Hb2]. destruct a as [|y a]; cbn in E.
    - injection E as -> ->. rewrite app_nil_r in *.
      assert (Hf : forallb (fun e => match e with EReq r _ => returned r (s_log (run pre)) | _ => true end) (s_log (run pre)) = true)
        by (destruct Ho as [-> | ->]; exact Hb1).
      rewrite forallb_forall in Hf. apply Hf in Hr. unfold returned in Hr. apply existsb_exists in Hr.
      destruct Hr as (e & He & Ee). destruct e; try discriminate. apply Nat.eqb_eq in Ee. subst. exact He.
    - injection E as -> E. replace (pre ++ y :: a) with ((pre ++ [y]) ++ a) in * by (rewrite <- app_assoc; reflexivity).
      eapply IH; eauto. rewrite run_snoc. exact Hb2. }
  intros ops Hb a o b ks. apply (H ops [] Hb).
Qed.
Example ex_serial : serial ex_ops.
Proof. apply serial_check. vm_compute. reflexivity. Qed.

(** 1. When a registration runs, a subscription goes to exactly the peers connected at that time, for
    every message type of the service that has not been subscribed before (by an earlier registration), each
    with an index never used before. *)
Theorem C56_subscribes_exactly : forall ops a c b r ks ps ns,
  s_log (run ops) = a ++ EStart b r ks ps ns :: c ->
  (forall p, In p ps <-> In (EJoin p) a /\ ~ In (ELeave p) a) /\
  (forall k, In k ks -> (exists b' r' ks' ps' ns' i, In (EStart b' r' ks' ps' ns') a /\ In (k, i) ns') \/ exists i, In (k, i) ns) /\
  (forall k i, In (k, i) ns -> In k ks /\
     forall b' r' ks' ps' ns' k' i', In (EStart b' r' ks' ps' ns') a -> In (k', i') ns' -> k' <> k /\ i' <> i) /\
  NoDup (map snd ns).
Proof. intros ops a c b r ks ps ns E. exact (u_truth _ (U_run ops) _ _ _ E). Qed.
Print Assumptions C56_subscribes_exactly.

(** 2. If synchronous registrations are made one after the other, RegisterSilKitService returns only
    after its own registration ran and every peer asked has acknowledged every subscription or has left. *)
Theorem C56_sync_returns_acknowledged : forall ops a c r,
  serial ops -> s_log (run ops) = a ++ EReturn r :: c ->
  exists a1 ks ps ns a2, a = a1 ++ EStart false r ks ps ns :: a2 /\ In (EReq r ks) a1 /\
    forall p k i, In p ps -> In (k, i) ns -> In (EAck p i) a2 \/ In (ELeave p) a2.
Proof.
  intros ops a c r Hs E. destruct (K_run ops Hs) as [HK _].
  pose proof (k_truth _ HK _ _ _ E) as Hd. cbn in Hd. apply in_split in Hd. destruct Hd as (b1 & b2 & Eb).
  rewrite Eb in E. rewrite <- app_assoc in E. cbn in E.
  destruct (k_truth _ HK _ _ _ E) as (_ & a1 & ks & ps & ns & a2 & E1 & H).
  exists a1, ks, ps, ns, (a2 ++ EDone r :: b2). split; [rewrite Eb, E1, <- app_assoc; reflexivity|]. split.
  - assert (Hin : In (EStart false r ks ps ns) (s_log (run ops))) by (rewrite E, E1, !in_app_iff; left; right; left; reflexivity).
    apply (started_after ops a1 (a2 ++ EDone r :: b2 ++ EReturn r :: c) false r ks ps ns). rewrite E, E1, <- app_assoc. reflexivity.
  - intros p k i Hp Hi. destruct (H p k i Hp Hi) as [Hx|Hx]; [left|right]; apply in_or_app; auto.
Qed.
Print Assumptions C56_sync_returns_acknowledged.

(** 3. Nothing else is waited for: once the registration ran and all its subscriptions are settled, the
    promise is fulfilled. *)
Theorem C56_sync_completes : forall ops a c r ks ps ns,
  serial ops -> s_log (run ops) = a ++ EStart false r ks ps ns :: c ->
  (forall p k i, In p ps -> In (k, i) ns -> In (EAck p i) c \/ In (ELeave p) c) ->
  In (EDone r) (s_log (run ops)).
Proof.
  intros ops a c r ks ps ns Hs E Hset. destruct (K_run ops Hs) as [HK HL]. pose proof (P_run ops) as HP.
  assert (Hin : In (EStart false r ks ps ns) (s_log (run ops))) by (rewrite E, in_app_iff; right; left; reflexivity).
  pose proof (p_start _ HP _ _ _ _ _ Hin) as Hq. apply (p_req _ HP) in Hq. cbn in Hq. destruct Hq as [Hr _].
  apply (k_set _ HK). destruct (Nat.eq_dec r (s_nreq (run ops))) as [Er|Hne]; [|apply (k_old _ HK); lia].
  destruct (in_dec Nat.eq_dec r (s_set (run ops))) as [|Hn]; auto. exfalso.
  assert (Hj : sjobs (run ops) = []).
  { destruct (k_jobs _ HK) as [H|(l & H & _)]; auto. exfalso.
    assert (Hj : In (mkJob false (s_nreq (run ops)) l) (sjobs (run ops))) by (rewrite H; left; reflexivity).
    apply filter_In in Hj. destruct Hj as [Hj _]. apply (p_jobs _ HP) in Hj. cbn in Hj. destruct Hj as [_ Hj].
    rewrite <- Er in Hj. exact (Hj _ _ _ Hin). }
  rewrite Er in Hn. assert (Hp : s_sync (run ops) <> []) by (apply HL; auto; lia).
  destruct (s_sync (run ops)) as [|[p i] l] eqn:Es; [congruence|].
  destruct (p_pend _ HP false p i) as (a' & c' & r' & ks' & ps' & ns' & k & E' & H1 & H2 & H3); [cbn; rewrite Es; left; reflexivity|].
  assert (Hin' : In (EStart false r' ks' ps' ns') (s_log (run ops))) by (rewrite E', in_app_iff; right; left; reflexivity).
  pose proof (p_start _ HP _ _ _ _ _ Hin') as Hq. apply (p_req _ HP) in Hq. cbn in Hq. destruct Hq as [Hr' _].
  destruct (Nat.eq_dec r' r) as [->|Hne].
  - destruct (start_unique _ _ _ _ _ _ _ _ _ _ _ _ _ E E') as (_ & <- & _ & <- & <-). apply H3. eapply Hset; eauto.
  - assert (Hd : In (EDone r') (s_log (run ops))) by (apply (k_set _ HK), (k_old _ HK); lia).
    apply in_split in Hd. destruct Hd as (b1 & b2 & Eb). destruct (k_truth _ HK _ _ _ Eb) as (_ & a1 & ks1 & ps1 & ns1 & a2 & E1 & H).
    assert (Eb' : s_log (run ops) = a1 ++ EStart false r' ks1 ps1 ns1 :: (a2 ++ EDone r' :: b2)) by (rewrite Eb, E1, <- app_assoc; reflexivity).
    destruct (start_unique _ _ _ _ _ _ _ _ _ _ _ _ _ E' Eb') as (_ & -> & _ & -> & ->).
    apply H3. destruct (H p k i H1 H2) as [Hx|Hx]; [left|right]; apply in_or_app; auto.
Qed.
Print Assumptions C56_sync_completes.

(** and then the waiting thread can return. *)
Theorem C56_sync_can_return : forall ops r,
  In (EDone r) (s_log (run ops)) ->
  serial ops -> In (EReturn r) (s_log (run (ops ++ [UReturn r]))).
Proof.
  intros ops r Hd Hs. destruct (K_run ops Hs) as [HK _]. rewrite run_snoc. cbn [step].
  assert (Hreq : requested r (s_log (run ops)) = true).
  { pose proof Hd as Hd'. apply in_split in Hd'. destruct Hd' as (b1 & b2 & Eb).
    destruct (k_truth _ HK _ _ _ Eb) as (_ & a1 & ks & ps & ns & a2 & E1 & _).
    assert (Hin : In (EStart false r ks ps ns) (s_log (run ops))) by (rewrite Eb, E1, !in_app_iff; left; right; left; reflexivity).
    apply (p_start _ (P_run ops)) in Hin. unfold requested. apply existsb_exists. eexists; (split; [exact Hin|apply Nat.eqb_refl]). }
  rewrite Hreq. destruct (returned r (s_log (run ops))) eqn:Er.
  - cbn. unfold returned in Er. apply existsb_exists in Er. destruct Er as (e & He & Ee). destruct e; try discriminate.
    apply Nat.eqb_eq in Ee. subst. exact He.
  - assert (Hr : ready r (run ops) = true). { unfold ready. apply orb_true_iff. left. apply mem_In, (k_set _ HK), Hd. }
    rewrite Hr. cbn. destruct (s_pc (run ops)); try destruct (_ =? r); cbn; apply in_or_app; right; left; reflexivity.
Qed.
Print Assumptions C56_sync_can_return.

(** 4. No std::future_error on the I/O thread, no failing assertion, the promise is fulfilled once. *)
Theorem C56_no_error_if_serial : forall ops, serial ops -> ~ In EError (s_log (run ops)) /\ ~ In EAssert (s_log (run ops)).
Proof. intros ops Hs. apply (k_noerr _ (proj1 (K_run ops Hs))). Qed.
Print Assumptions C56_no_error_if_serial.
Theorem C56_done_once : forall ops a c r, serial ops -> s_log (run ops) = a ++ EDone r :: c -> ~ In (EDone r) a.
Proof. intros ops a c r Hs E. apply (k_truth _ (proj1 (K_run ops Hs)) _ _ _ E). Qed.
Print Assumptions C56_done_once.

(** 5. Completion handlers of asynchronous registrations: called at most once, whatever the threads do;
    the calls by the I/O thread happen when every subscription of every asynchronous registration that ran
    before is settled. *)
Theorem C56_handler_at_most_once : forall ops a c h x,
  s_log (run ops) = a ++ EInvoke h x :: c -> In (EAsk h) a /\ forall y, ~ In (EInvoke h y) a.
Proof. intros ops a c h x E. destruct (u_truth _ (U_run ops) _ _ _ E) as (H1 & H2 & _). auto. Qed.
Print Assumptions C56_handler_at_most_once.
Theorem C56_handler_after_acknowledges : forall ops a c h,
  s_log (run ops) = a ++ EInvoke h false :: c ->
  forall a1 a2 r ks ps ns, a = a1 ++ EStart true r ks ps ns :: a2 ->
  forall p k i, In p ps -> In (k, i) ns -> In (EAck p i) a2 \/ In (ELeave p) a2.
Proof. intros ops a c h E. destruct (u_truth _ (U_run ops) _ _ _ E) as (_ & _ & H). apply H. reflexivity. Qed.
Print Assumptions C56_handler_after_acknowledges.

(** Every handler gets called, provided it is not handed over while the I/O thread is about to finish: when
    the I/O thread is idle, all requested registrations ran and all subscriptions are settled, then every handler has
    been called. *)
Theorem C56_every_handler_called : forall ops,
  atomic_adds ops -> s_pc (run ops) = PIdle ->
  (forall r ks, In (EReqA r ks) (s_log (run ops)) -> exists ps ns, In (EStart true r ks ps ns) (s_log (run ops))) ->
  (forall a c r ks ps ns, s_log (run ops) = a ++ EStart true r ks ps ns :: c ->
     forall p k i, In p ps -> In (k, i) ns -> In (EAck p i) c \/ In (ELeave p) c) ->
  forall h, In (EAsk h) (s_log (run ops)) -> exists x, In (EInvoke h x) (s_log (run ops)).
Proof.
  intros ops Ha Hpc Hreq Hset h Hh. pose proof (HI_run ops Ha) as HH. pose proof (P_run ops) as HP.
  destruct (h_asked _ HH h Hh) as [Hin|H]; auto. exfalso.
  assert (Hne : s_hs (run ops) <> []) by (intros E; rewrite E in Hin; contradiction).
  destruct (h_hs _ HH Hne) as [[Hb|Hb]|[Hb|Hb]]; try congruence.
  - destruct (ajobs (run ops)) as [|j l] eqn:Ej; [congruence|].
    assert (Hj : In j (ajobs (run ops))) by (rewrite Ej; left; reflexivity). apply filter_In in Hj. destruct Hj as [Hj Hja].
    destruct (p_jobs _ HP j Hj) as [H1 H2]. rewrite Hja in *. cbn in H1. destruct (Hreq _ _ H1) as (ps & ns & H). exact (H2 _ _ _ H).
  - destruct (s_async (run ops)) as [|[p i] l] eqn:Es; [congruence|].
    destruct (p_pend _ HP true p i) as (a & c & r & ks & ps & ns & k & E & H1 & H2 & H3); [cbn; rewrite Es; left; reflexivity|].
    apply H3. eapply Hset; eauto.
Qed.
Print Assumptions C56_every_handler_called.
Example ex_every_handler : atomic_adds ex_ops /\ s_pc (run ex_ops) = PIdle /\ In (EInvoke 5 false) (s_log (run ex_ops)).
Proof.
  split; [|split; [vm_compute; reflexivity|vm_compute; tauto]].
  intros h. unfold ex_ops. cbn. intuition discriminate.
Qed.

(** Refuted: the same if the calls of the user thread may be interleaved with the I/O thread.  The thread
    reads _hasPendingAsyncSubscriptions as true, the I/O thread calls the handlers known so far, clears them and resets the
    flag, then the thread adds its handler: it is not called any more. *)
Theorem C56_every_handler_called_refuted : exists ops h,
  s_pc (run ops) = PIdle /\ s_read (run ops) = [] /\
  (forall r ks, In (EReqA r ks) (s_log (run ops)) -> exists ps ns, In (EStart true r ks ps ns) (s_log (run ops))) /\
  (forall a c r ks ps ns, s_log (run ops) = a ++ EStart true r ks ps ns :: c ->
     forall p k i, In p ps -> In (k, i) ns -> In (EAck p i) c \/ In (ELeave p) c) /\
  In (EAsk h) (s_log (run ops)) /\ forall x, ~ In (EInvoke h x) (s_log (run ops)).
Proof.
  exists [UAsync [10]; URead 7; IJob; INext; INext; INext; UAdd 7], 7.
  assert (E : s_log (run [UAsync [10]; URead 7; IJob; INext; INext; INext; UAdd 7]) =
    [EReqA 1 [10]; EAsk 7; EStart true 1 [10] [] [(10, 0)]]) by (vm_compute; reflexivity).
  split; [vm_compute; reflexivity|]. split; [vm_compute; reflexivity|]. rewrite E. split; [|split; [|split]].
  - intros r ks [H|[H|[H|[]]]]; try discriminate. injection H as <- <-. exists [], [(10, 0)]. right. right. left. reflexivity.
  - intros a c r ks ps ns Ea p k i Hp _. exfalso.
    assert (Hin : In (EStart true r ks ps ns) [EReqA 1 [10]; EAsk 7; EStart true 1 [10] [] [(10, 0)]]) by (rewrite Ea, in_app_iff; right; left; reflexivity).
    destruct Hin as [H|[H|[H|[]]]]; try discriminate. injection H as _ _ <- _. contradiction.
  - right. left. reflexivity.
  - intros x [H|[H|[H|[]]]]; discriminate.
Qed.
Print Assumptions C56_every_handler_called_refuted.

(** Refuted: a handler is called only when the registrations made before are complete.  The first
    registration completing resets the flag although the second one is still in progress; a handler
    handed over then (e.g. by the lifecycle, which takes this as the completion of all
    subscriptions) is called at once. *)
Theorem C56_handler_after_acknowledges_refuted : exists ops h a c r ks ps ns p k i a1 a2,
  atomic_adds ops /\ s_log (run ops) = a ++ EInvoke h true :: c /\ a = a1 ++ EStart true r ks ps ns :: a2 /\
  In p ps /\ In (k, i) ns /\ ~ In (EAck p i) a2 /\ ~ In (ELeave p) a2.
Proof.
  exists [IJoin 1; UAsync [10]; UAsync [11]; IJob; IAck 1 0; INext; INext; INext; IJob; UAddNow 7], 7,
    [EJoin 1; EReqA 1 [10]; EReqA 2 [11]; EStart true 1 [10] [1] [(10, 0)]; EAck 1 0; EStart true 2 [11] [1] [(11, 1)]; EAsk 7], [],
    2, [11], [1], [(11, 1)], 1, 11, 1,
    [EJoin 1; EReqA 1 [10]; EReqA 2 [11]; EStart true 1 [10] [1] [(10, 0)]; EAck 1 0], [EAsk 7].
  split; [intros h; cbn; intuition discriminate|]. split; [vm_compute; reflexivity|]. split; [reflexivity|].
  cbn. intuition discriminate.
Qed.
Print Assumptions C56_handler_after_acknowledges_refuted.

(** Refuted without [serial]: two threads registering at the same time.  The second call replaces the
    promise of the first one, whose future becomes ready ("broken promise", which wait() does not report): it
    returns without any acknowledge; and the promise of the second one is fulfilled twice. *)
Theorem C56_sync_returns_acknowledged_refuted : exists ops r,
  In (EReturn r) (s_log (run ops)) /\ (forall p i, ~ In (EAck p i) (s_log (run ops))) /\
  (forall ks ps ns, ~ In (EStart false r ks ps ns) (s_log (run ops))) /\ In (EJoin 1) (s_log (run ops)) /\
  (forall p, ~ In (ELeave p) (s_log (run ops))).
Proof.
  exists [IJoin 1; USync [10]; USync [11]; UReturn 1], 1.
  assert (E : s_log (run [IJoin 1; USync [10]; USync [11]; UReturn 1]) = [EJoin 1; EReq 1 [10]; EReq 2 [11]; EReturn 1]) by (vm_compute; reflexivity).
  rewrite E. cbn. intuition discriminate.
Qed.
Print Assumptions C56_sync_returns_acknowledged_refuted.
Theorem C56_no_error_refuted : exists ops, In EError (s_log (run ops)).
Proof. exists [IJoin 1; USync [10]; USync [11]; IJob; IAck 1 0; IJob; IAck 1 1]. vm_compute. tauto. Qed.
Print Assumptions C56_no_error_refuted.

(** 6. A callback running on the I/O thread which registers a synchronous service never returns: the
    thread waits for a job only it can run (unless another thread breaks the promise by registering as well). *)
Theorem C56_register_in_callback_hangs : forall ops ks r ops',
  s_log (run (ops ++ [ISync ks])) = s_log (run ops) ++ [EReq r ks] ->
  (forall l, ~ In (USync l) ops') ->
  ~ In (EReturn r) (s_log (run (ops ++ ISync ks :: ops'))).
Proof.
  intros ops ks r ops' E Hn. replace (ops ++ ISync ks :: ops') with ((ops ++ [ISync ks]) ++ ops') by (rewrite <- app_assoc; reflexivity).
  unfold run. rewrite fold_left_app. fold (run (ops ++ [ISync ks])).
  apply (g_ret r). apply Hang_run; auto. rewrite run_snoc in *. cbn [step] in *.
  destruct (is_idle (s_pc (run ops))) eqn:Ep.
  - destruct (request_sync ks (run ops)) as [[q s']|] eqn:Er.
    + destruct (B_request _ _ _ _ (B_run ops) Er) as (HB & Eq & Ec & H1 & H2 & El). cbn in E. rewrite El in E.
      apply app_inv_head in E. injection E as ->. constructor; cbn; auto.
      intros H. rewrite El in H. apply in_snoc_neq in H; [|discriminate]. apply (b_ret _ (B_run ops)) in H. lia.
    + cbn in E. apply app_inv_head in E. discriminate.
  - exfalso. rewrite <- (app_nil_r (s_log (run ops))) in E at 1. apply app_inv_head in E. discriminate.
Qed.
Print Assumptions C56_register_in_callback_hangs.
Example ex_hang : s_log (run ([IJoin 1] ++ [ISync [10]])) = s_log (run [IJoin 1]) ++ [EReq 1 [10]] /\
  s_log (run ([IJoin 1] ++ ISync [10] :: [IJob; IAck 1 0; UReturn 1])) = [EJoin 1; EReq 1 [10]].
Proof. vm_compute. split; reflexivity. Qed.
