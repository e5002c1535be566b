(** C88: connecting to a known participant by a direct connection, a request to be connected, or the registry.
    Model: RemoteModel.v. *)
From Coq Require Import List Arith Bool Lia.
From Verif Require Import Base RemoteModel RemoteProofs RemoteEnd RemoteLog RemoteOrder.
From Verif Require ConnectModel.
Import ListNotations.

(** ** C88 *)

(** Everything is supported, and known to be. *)
Definition full : cfg := mkCfg true true (Some (true, true)) true true true true.
(** The target cannot be reached by requests: the registry does not forward them. *)
Definition no_requests : cfg := mkCfg true true (Some (true, true)) true true false true.
(** The target does not accept proxy connections. *)
Definition no_proxy : cfg := mkCfg true true (Some (true, false)) true false true true.

(** How often an event occurs. *)
Definition times (p : ev -> bool) (s : st) : nat := length (filter p (s_log s)).
Definition announces (e : ev) : bool := match e with LAnnounce _ => true | _ => false end.
Definition expires (e : ev) : bool := match e with LExpired => true | _ => false end.
Definition accepts (e : ev) : bool := match e with LAccept => true | _ => false end.
Definition answers (e : ev) : bool := match e with LNotice | LRefuse => true | _ => false end.
(** Only what can happen happens: [one_by_one c s ops s']. *)
Inductive one_by_one (c : cfg) : st -> list op -> st -> Prop :=
| obo_nil s : one_by_one c s [] s
| obo_cons s o ops s' : enabled s o -> one_by_one c (step c s o) ops s' -> one_by_one c s (o :: ops) s'.
Lemma obo_possible c s ops s' : one_by_one c s ops s' -> possible c s ops.
Proof. induction 1; cbn; auto. Qed.
Lemma possible_obo c ops : forall s, possible c s ops -> one_by_one c s ops (fold_left (step c) ops s).
Proof. induction ops as [|o ops IH]; intros s H; cbn in *; [constructor|]. destruct H. constructor; auto. Qed.

Ltac calc := cbn zeta; repeat match goal with |- context [run ?c ?o] =>
  let y := eval vm_compute in (run c o) in
  let E := fresh in assert (E : run c o = y) by (vm_compute; reflexivity); rewrite E; clear E end.

(** In every order of events and whatever fails, unless the target disappears: once nothing is under way,
    the origin has either received the reply of the target or given up, and the thread that joins knows
    which. *)
Theorem C88_settles : forall c ops,
  (forall a, c_caps c = Some (a, true) -> c_tproxy c = true /\ c_rproxy c = true) -> c_caps c <> None ->
  ~ In Gone ops -> settled (run c ops) ->
  (s_stage (run c ops) = PReplied /\ s_join (run c ops) = Some true)
  \/ (s_stage (run c ops) = PFailure /\ s_join (run c ops) = Some false).
Proof. intros c ops H N G S. apply (settled_ends c); auto. now apply run_inv. Qed.
Print Assumptions C88_settles.
Example C88_settles_example :
  let ops := [DirectFail; RtoT; FromR false; RtoO; ToO; TFail; RtoO; ToO; RtoT; FromR false; RtoO; ToO; Timer] in
  let s := run full ops in
  (settled s /\ s_stage s = PReplied /\ s_join s = Some true
   /\ s_log s = [LDirectFailed; LAccept; LRefuse; LRefused; LAnnounce None; LReply None])
  /\ let ops := [DirectFail; RtoT; FromR false; TFail; RtoO; ToO; RtoO; ToO; Timer] in
     let s := run no_proxy ops in
     settled s /\ s_stage s = PFailure /\ s_join s = Some false.
Proof. calc. repeat split; cbn; intros; try contradiction. Qed.

(** It gives up only if the direct attempt failed and, where the target accepts proxy connections and the
    origin has the capability, never. *)
Theorem C88_proxy_never_fails : forall c ops,
  c_oproxy c = true -> (exists a, c_caps c = Some (a, true)) -> s_stage (run c ops) <> PFailure.
Proof.
  intros c ops O (a & C).
  assert (U : forall s, s_stage (update s) = s_stage s) by (intros s; unfold update; destruct (s_stage s) eqn:E; cbn; auto).
  assert (HC : forall k s, s_stage (handle_connected k s) = s_stage s).
  { intros k s. unfold handle_connected. now rewrite (sm_stage _ _ (o_send_same k MAnn _)). }
  assert (V : forall s, s_stage (via_proxy c s) = PWaiting).
  { intros s. unfold via_proxy. rewrite O, C. cbn zeta. now rewrite U, HC. }
  assert (R : forall k m s, s_stage s <> PFailure -> s_stage (o_recv c k m s) <> PFailure).
  { intros k m s H. destruct m; cbn [o_recv]; auto.
    - destruct (s_stage s) eqn:E; cbn; try congruence.
    - cbn zeta. destruct (s_stage (say LRefused s)) eqn:E; cbn in E; rewrite ?V; try discriminate; cbn; congruence.
    - cbn zeta. rewrite HC. destruct (s_stage s) eqn:E; rewrite ?U; cbn; congruence.
    - unfold o_reply. cbn zeta. destruct (existsb _ _); cbn; destruct (s_stage s) eqn:E; rewrite ?U; cbn; congruence. }
  assert (T : forall b k m s, s_stage (t_recv c b k m s) = s_stage s).
  { intros b k m s. destruct m; cbn [t_recv]; auto.
    - unfold t_request. destruct (c_treq c), b; reflexivity.
    - destruct k; [reflexivity|]. destruct (c_tproxy c); reflexivity.
    - destruct k; [reflexivity|]. destruct (c_tproxy c); reflexivity. }
  induction ops as [|o ops IH] using rev_ind; [discriminate|]. rewrite run_snoc. set (s := run c ops) in *. clearbody s.
  destruct o; cbn [step].
  - destruct (_ && _); auto. unfold direct_ok. cbn zeta. rewrite U, HC. discriminate.
  - destruct (s_pend s); auto. unfold direct_fail. destruct (can_request c); [discriminate|]. now rewrite V.
  - destruct (s_timer s); auto. unfold timer. destruct (s_stage s) eqn:E; rewrite ?V; cbn; congruence.
  - destruct (s_or s); auto. cbn zeta. destruct (_ && _); exact IH.
  - destruct (s_tr s); auto. cbn zeta. destruct (forwards _ _); exact IH.
  - destruct (s_rt s); auto. now rewrite T.
  - destruct (s_tries s); auto.
  - destruct (s_tries s); auto.
  - destruct (s_ro s); auto.
  - destruct (to_o k s); auto.
  - destruct (to_t k s); auto. now rewrite T.
  - now rewrite (sm_stage _ _ (publish_same s)).
  - exact IH.
Qed.
Print Assumptions C88_proxy_never_fails.
Example C88_proxy_never_fails_example :
  let s := run no_requests [DirectFail; RtoT; Timer] in
  c_oproxy no_requests = true /\ s_stage s = PWaiting /\ s_or s = [MAnn].
Proof. calc. repeat split. Qed.

(** From every state of the exchange only boundedly many further steps are possible without further
    messages being published ... *)
Theorem C88_terminates : forall c ops, exists bound, forall more s',
  one_by_one c (run c ops) more s' -> length more <= bound.
Proof. intros c ops. exists (measure (run c ops)). intros more s' H. apply (possible_length c). eauto using obo_possible. Qed.
Print Assumptions C88_terminates.
Example C88_terminates_example : exists s',
  one_by_one full (run full [DirectFail]) [RtoT; FromR false; TOk; LinkO 0; LinkT 0; LinkO 0; RtoO; ToO; Timer] s'
  /\ settled s' /\ s_stage s' = PReplied.
Proof. eexists. split; [apply possible_obo; cbn; repeat split; discriminate|]. repeat split; cbn. intros l [<-|[]]. reflexivity. Qed.

(** ... and when no further step is possible, it has settled. *)
Theorem C88_stuck_means_settled : forall c ops more s',
  one_by_one c (run c ops) more s' -> (forall o, ~ enabled s' o) -> settled s'.
Proof. intros c ops more s' _ H. destruct (progress s') as [S|(o & E)]; [exact S|]. destruct (H o E). Qed.
Print Assumptions C88_stuck_means_settled.
Example C88_stuck_means_settled_example :
  let s := run full [DirectOk; LinkT 0; LinkO 0] in
  (forall o, ~ enabled s o) /\ settled s.
Proof.
  calc. split.
  - intros [] H; cbn in H; auto; try discriminate H; try (destruct H; discriminate); try (now apply H); destruct k as [|[|k]]; apply H; reflexivity.
  - repeat split; cbn. intros l [<-|[]]. reflexivity.
Qed.

(** Hence every continuation in which the steps that are possible are taken comes to an end in which the
    thread that joins is told the result. *)
Theorem C88_join_is_told : forall c ops more s',
  (forall a, c_caps c = Some (a, true) -> c_tproxy c = true /\ c_rproxy c = true) -> c_caps c <> None ->
  ~ In Gone ops -> one_by_one c (run c ops) more s' -> (forall o, ~ enabled s' o) ->
  s_join s' = Some true \/ s_join s' = Some false.
Proof.
  intros c ops more s' H N G O E.
  assert (S : s' = run c (ops ++ more)).
  { rewrite run_app. clear - O. revert O. generalize (run c ops). intros s0 O. induction O; cbn [fold_left]; auto. }
  assert (ST : settled s') by (eapply C88_stuck_means_settled; eauto).
  rewrite S in ST |- *.
  destruct (C88_settles c (ops ++ more)) as [[_ X]|[_ X]]; auto.
  intros X. apply in_app_or in X as [X|X]; [auto|]. eapply possible_not_gone; eauto using obo_possible.
Qed.
Print Assumptions C88_join_is_told.
Example C88_join_is_told_example : exists s',
  one_by_one no_proxy (run no_proxy [DirectFail; RtoT]) [Timer; FromR true; RtoO; ToO; RtoO; ToO] s'
  /\ s_join s' = Some false.
Proof. eexists. split; [apply possible_obo; cbn; repeat split; discriminate|]. reflexivity. Qed.

(** Each request that the target accepts is answered once, or the attempt is still under way. *)
Theorem C88_answered : forall c ops, ~ In Gone ops ->
  times accepts (run c ops) = s_tries (run c ops) + times answers (run c ops).
Proof. intros c ops G. exact (run_l c ops G). Qed.
Print Assumptions C88_answered.
Example C88_answered_example :
  let s := run full [DirectFail; RtoT; FromR false; RtoO; ToO] in
  times accepts s = 1 /\ s_tries s = 1 /\ times answers s = 0.
Proof. calc. repeat split. Qed.

(** The origin announces itself once at most, and once more only if its timer had expired. *)
Theorem C88_announcements : forall c ops,
  times announces (run c ops) <= 1 + times expires (run c ops) /\ times expires (run c ops) <= 1.
Proof.
  intros c ops. destruct (b_late _ (run_b c ops)) as [A B]. change (times announces (run c ops)) with (nl e_ann (s_log (run c ops))).
  change (times expires (run c ops)) with (nl e_exp (s_log (run c ops))). lia.
Qed.
Print Assumptions C88_announcements.
Example C88_announcements_example :
  let s := run full [DirectFail; RtoT; FromR false; RtoO; ToO; TOk; Timer; LinkO 0; LinkT 0; LinkO 0] in
  times announces s = 1 /\ times expires s = 0 /\ s_stage s = PReplied.
Proof. calc. repeat split. Qed.

(** So the target receives each published message once at most if the timer did not expire. *)
Theorem C88_received_once : forall c ops n,
  count_occ Nat.eq_dec (s_got (run c ops)) n <= 1 + times expires (run c ops).
Proof.
  intros c ops n. pose proof (run_b c ops) as B.
  pose proof (b_copies _ B n) as C. pose proof (b_rcv _ B) as R. pose proof (b_flight _ B) as F. destruct (b_late _ B) as [L _].
  change (times expires (run c ops)) with (nl e_exp (s_log (run c ops))). unfold copies in C. clear - C R F L. lia.
Qed.
Print Assumptions C88_received_once.
Example C88_received_once_example :
  s_got (run full [DirectFail; RtoT; FromR false; TOk; LinkO 0; LinkT 0; LinkO 0; Publish; Publish; LinkT 0; LinkT 0]) = [0; 1].
Proof. calc. reflexivity. Qed.

(** The target receives nothing that was not published. *)
Theorem C88_received_published : forall c ops n, In n (s_got (run c ops)) -> n < s_next (run c ops).
Proof.
  intros c ops n H. destruct (Nat.lt_ge_cases n (s_next (run c ops))) as [L|L]; [exact L|].
  pose proof (b_next _ (run_b c ops) n L) as C. unfold copies in C. apply (count_occ_In Nat.eq_dec) in H. lia.
Qed.
Print Assumptions C88_received_published.
Example C88_received_published_example :
  let s := run full [DirectOk; LinkT 0; LinkO 0; Publish; LinkT 0] in s_got s = [0] /\ s_next s = 1.
Proof. calc. split; reflexivity. Qed.

(** The registry is used only after the direct attempt failed and the request was not possible, not
    answered in time, or refused. *)
Theorem C88_proxy_last : forall c ops earlier later,
  s_log (run c ops) = earlier ++ LAnnounce None :: later ->
  In LDirectFailed earlier
  /\ (~ (c_oreq c = true /\ exists b, c_caps c = Some (true, b)) \/ In LExpired earlier \/ In LRefused earlier).
Proof.
  intros c ops a b H. destruct (d_ord _ _ (run_c c ops) a (LAnnounce None) b H) as [A [B|B]]; split; auto.
  left. intros (X & y & Y). unfold can_request in B. rewrite X, Y in B. discriminate B.
Qed.
Print Assumptions C88_proxy_last.
Example C88_proxy_last_example :
  s_log (run full [DirectFail; RtoT; FromR true; RtoO; Timer; ToO])
  = [LDirectFailed; LAccept; LRefuse; LExpired] ++ LAnnounce None :: [LRefused]
  /\ s_log (run full [DirectFail; RtoT; FromR true; RtoO; ToO])
     = [LDirectFailed; LAccept; LRefuse; LRefused] ++ LAnnounce None :: [].
Proof. calc. split; reflexivity. Qed.

(** The origin announces itself on a direct connection only as the first thing that happens (its own
    attempt succeeded) or because the target has connected to it. *)
Theorem C88_direct_origin : forall c ops k earlier later,
  s_log (run c ops) = earlier ++ LAnnounce (Some k) :: later -> earlier = [] \/ In LNotice earlier.
Proof. intros c ops k a b H. exact (d_ord _ _ (run_c c ops) a (LAnnounce (Some k)) b H). Qed.
Print Assumptions C88_direct_origin.
Example C88_direct_origin_example :
  s_log (run full [DirectOk]) = [] ++ [LAnnounce (Some 0)]
  /\ s_log (run full [DirectFail; RtoT; FromR false; TOk; LinkO 0]) = [LDirectFailed; LAccept; LNotice] ++ [LAnnounce (Some 0)].
Proof. calc. split; reflexivity. Qed.

(** A reply comes only on a connection on which the origin has announced itself before. *)
Theorem C88_reply_after_announcement : forall c ops k earlier later,
  s_log (run c ops) = earlier ++ LReply k :: later -> In (LAnnounce k) earlier.
Proof. intros c ops k a b H. exact (d_ord _ _ (run_c c ops) a (LReply k) b H). Qed.
Print Assumptions C88_reply_after_announcement.
Example C88_reply_after_announcement_example :
  s_log (run full [DirectOk; LinkT 0; LinkO 0]) = [LAnnounce (Some 0)] ++ [LReply (Some 0)].
Proof. calc. reflexivity. Qed.

(** The target connects only on request, and a refusal is reported only if it happened. *)
Theorem C88_only_on_request : forall c ops e earlier later,
  s_log (run c ops) = earlier ++ e :: later ->
  match e with
  | LAccept | LExpired => In LDirectFailed earlier
  | LNotice | LRefuse => In LAccept earlier
  | LRefused => In LRefuse earlier
  | LDirectFailed => earlier = []
  | _ => True
  end.
Proof. intros c ops e a b H. pose proof (d_ord _ _ (run_c c ops) a e b H) as K. destruct e; try exact K; exact I. Qed.
Print Assumptions C88_only_on_request.
Example C88_only_on_request_example :
  s_log (run full [DirectFail; RtoT; FromR false; TFail; RtoO; RtoO; ToO; ToO]) = [LDirectFailed; LAccept; LRefuse] ++ LRefused :: [LAnnounce None].
Proof. calc. reflexivity. Qed.

(** Nothing is used without the capabilities for it: requests need those of the origin and the target ... *)
Theorem C88_request_capabilities : forall c ops,
  In MReq (s_or (run c ops)) -> c_oreq c = true /\ exists b, c_caps c = Some (true, b).
Proof.
  intros c ops H. apply (e_req _ _ (run_d c ops)) in H. unfold can_request in H. apply andb_true_iff in H as [A B].
  split; [exact A|]. destruct (c_caps c) as [[[] b]|]; try discriminate. eauto.
Qed.
Print Assumptions C88_request_capabilities.
Example C88_request_capabilities_example : s_or (run full [DirectFail]) = [MReq].
Proof. calc. reflexivity. Qed.
(** ... the registry is used only if both support proxies ... *)
Theorem C88_proxy_capabilities : forall c ops,
  In (LAnnounce None) (s_log (run c ops)) -> c_oproxy c = true /\ exists a, c_caps c = Some (a, true).
Proof. intros c ops. exact (e_prx _ _ (run_d c ops)). Qed.
Print Assumptions C88_proxy_capabilities.
Example C88_proxy_capabilities_example :
  In (LAnnounce None) (s_log (run no_requests [DirectFail; Timer])) /\ ~ In (LAnnounce None) (s_log (run no_proxy [DirectFail; Timer])).
Proof. calc. cbn. intuition discriminate. Qed.
(** ... and the target connects only if it has the capability. *)
Theorem C88_accept_capability : forall c ops, In LAccept (s_log (run c ops)) -> c_treq c = true.
Proof. intros c ops. exact (e_trq _ _ (run_d c ops)). Qed.
Print Assumptions C88_accept_capability.
Example C88_accept_capability_example : In LAccept (s_log (run full [DirectFail; RtoT; FromR false])).
Proof. calc. cbn. tauto. Qed.

(** "Each published message is received once": refuted.  If the timer expires although the target has
    already accepted the request, the origin is connected to it twice and T receives each message twice. *)
Theorem C88_received_once_refuted : exists ops,
  ~ In Gone ops /\ count_occ Nat.eq_dec (s_got (run full ops)) 0 = 2 /\ s_next (run full ops) = 1
  /\ settled (run full ops) /\ s_stage (run full ops) = PReplied.
Proof.
  exists [DirectFail; RtoT; Timer; FromR false; TOk; LinkO 0; RtoT; FromR false; RtoO; RtoO; ToO; ToO; LinkT 0; LinkO 0;
          Publish; RtoT; FromR false; LinkT 0].
  calc. repeat split; cbn; try reflexivity; [intuition discriminate|]. intros l [<-|[]]. reflexivity.
Qed.
Print Assumptions C88_received_once_refuted.

(** "The thread that joins is always told the result": refuted if the target disappears after it has
    accepted the request; the stage then has no timer. *)
Theorem C88_join_is_told_refuted : exists ops,
  In Gone ops /\ settled (run full ops) /\ s_join (run full ops) = None /\ s_stage (run full ops) = PConnecting.
Proof.
  exists [DirectFail; RtoT; FromR false; RtoO; ToO; Gone; Timer].
  calc. repeat split; cbn; auto; [tauto|intros l []].
Qed.
Print Assumptions C88_join_is_told_refuted.
(** ... and if the capabilities of the target cannot be parsed. *)
Theorem C88_malformed_capabilities_refuted : forall a b d e f, exists ops,
  let c := mkCfg a true None b d e f in
  ~ In Gone ops /\ settled (run c ops) /\ s_join (run c ops) = None /\ s_exn (run c ops) = true.
Proof.
  intros a b d e f. exists [DirectFail]. destruct a, b, d, e, f; calc; repeat split; cbn; try reflexivity; try (intuition discriminate); intros l [].
Qed.
Print Assumptions C88_malformed_capabilities_refuted.
(** "The origin gets a reply or gives up": refuted if the registry does not forward proxy messages. *)
Theorem C88_settles_refuted : exists c ops,
  c_caps c = Some (true, true) /\ c_rproxy c = false /\ ~ In Gone ops /\ settled (run c ops) /\ s_stage (run c ops) = PWaiting.
Proof.
  exists (mkCfg true true (Some (true, true)) true true true false), [DirectFail; RtoT; Timer; FromR true; RtoO; RtoO; ToO; ToO; RtoT].
  calc. repeat split; cbn; try reflexivity; [intuition discriminate|intros l []].
Qed.
Print Assumptions C88_settles_refuted.
