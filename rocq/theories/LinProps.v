(** C41, C42, C43: LIN *)
From Coq Require Import NArith List Arith Bool Lia.
From Verif Require Import Base LinModel LinSpec LinProofs LinNet LinNetProofs LinDrain LinSleep.
Import ListNotations.
Open Scope N_scope.

(** * C41: headers *)
(** In a network of n statically configured controllers without network simulator, after any history of API calls and deliveries at the end of
    which nothing is on its way, the master sends a header and messages are delivered in any order that respects the order per connection. *)

(** Exactly one operational node is configured to respond: the frame of this node is all that is transmitted, once; when everything is delivered the
    responder has reported its success once and every other node has reported what its own configuration says about this frame, once. *)
Theorem C41_the_only_responder_answers_once : forall n ops s out0 m j id f ds,
  forallb static_nop ops = true -> lnrun ops (lnet0 n) = Some (s, out0) -> quiescent s ->
  (m < n)%nat -> c_mode (ln_c s m) = Master -> id < 64 ->
  (forall i, (i < n)%nat -> answer id (ln_c s i) <> None -> c_status (ln_c s i) = StOperational /\ (i = m \/ c_mode (ln_c s i) = Slave)) ->
  responders id s = [j] -> answer id (ln_c s j) = Some f -> f_len f <> 255 ->
  forallb is_deliver ds = true ->
  exists s' o, lnrun (NApi m (LSendHeader id) :: ds) s = Some (s', o) /\
    (transmissions o = [] \/ transmissions o = [(j, f, RxOk)]) /\
    (quiescent s' -> transmissions o = [(j, f, RxOk)] /\ statuses j o = [(f, TxOk)] /\
       forall i, (i < n)%nat -> i <> j -> statuses i o = reception (ln_c s i) f).
Proof.
  intros n ops s out0 m j id f ds ST RUN QU HM MM ID AO RE AJ LEN DL.
  destruct (net_run ops _ _ _ (net_ok0 n) ST RUN) as (NO & SZ). cbn in SZ.
  assert (HM' : (m < ln_size s)%nat) by lia.
  assert (AO' : answering_ok m id s) by (intros i Hi; apply AO; lia).
  pose proof (no_own s NO m HM') as OM.
  assert (HJ : (j < ln_size s)%nat /\ operational (ln_c s j) = true).
  { assert (X : In j (responders id s)) by (rewrite RE; left; reflexivity). apply filter_In in X. destruct X as (X & Y). apply in_seq in X. apply andb_prop in Y. split; [lia|tauto]. }
  destruct HJ as (HJ & OJ).
  assert (FI : f_id f = id) by (apply (answer_id id (ln_c s j)); [apply (no_own s NO j HJ)|exact AJ]).
  assert (NA : forall i, (i < ln_size s)%nat -> i <> j -> answer (f_id f) (ln_c s i) = None).
  { intros i Hi NE. rewrite FI. destruct (answer id (ln_c s i)) as [g|] eqn:E; [|reflexivity].
    assert (X : In i (responders id s)).
    { apply filter_In. split; [apply in_seq; lia|]. rewrite E. destruct (AO' i Hi) as (Y & _); [congruence|]. unfold operational. rewrite Y. reflexivity. }
    rewrite RE in X. destruct X as [X|[]]. congruence. }
  (* the master sends the header *)
  assert (SH : cexec (LSendHeader id) (ln_c s m) = (ln_c s m, OSend (MHeader id) :: hdr_out id (ln_c s m), LOk)).
  { cbn [cexec]. unfold send_frame_header, get. destruct (ow_state _ OM) as [(_ & X & _)|(X & _)]; [congruence|].
    replace (cstatus_eqb (c_status (ln_c s m)) StUnknown) with false by (destruct X as [X|X]; rewrite X; reflexivity). rewrite MM. cbn [cmode_eqb negb].
    unfold send_header, get. rewrite (ow_trivial _ OM).
    destruct (get_response_some id (c_nodes (ln_c s m)) (O, frame0 id) (ow_tables _ OM) ID) as (k & g & E & _). rewrite E.
    apply get_response_count in E. cbn [fst] in E. rewrite (count_responders s m id NO QU HM' MM AO'), RE in E. cbn in E. subst k. cbn [Nat.eqb orb].
    unfold seq, emit. rewrite (header_out id _ OM ID). reflexivity. }
  assert (STEP : exists s1, lnstep (NApi m (LSendHeader id)) s = Some (s1, map (pair m) (OSend (MHeader id) :: hdr_out id (ln_c s m))) /\
                 drain s m j f s1 (map (pair m) (OSend (MHeader id) :: hdr_out id (ln_c s m)))).
  { cbn [lnstep]. replace (m <? ln_size s)%nat with true by (symmetry; apply Nat.ltb_lt; lia). rewrite SH. eexists. split; [reflexivity|].
    assert (QQ : forall p q, ln_q (lnet_after m (ln_c s m) (OSend (MHeader id) :: hdr_out id (ln_c s m)) (ln_q s) s) p q =
        if (p =? m)%nat && negb (q =? m)%nat && (q <? ln_size s)%nat then MHeader id :: sent (hdr_out id (ln_c s m)) else []).
    { intros p q. cbn [lnet_after ln_q]. rewrite QU. reflexivity. }
    assert (QX : forall p q x, In x (ln_q (lnet_after m (ln_c s m) (OSend (MHeader id) :: hdr_out id (ln_c s m)) (ln_q s) s) p q) ->
        p = m /\ q <> m /\ (q < ln_size s)%nat /\ (x = MHeader id \/ In x (sent (hdr_out id (ln_c s m))))).
    { intros p q x. rewrite QQ. destruct (_ && _ && _) eqn:E; [|intros []]. apply andb_prop in E. destruct E as (E & E3). apply andb_prop in E. destruct E as (E1 & E2).
      apply Nat.eqb_eq in E1. apply negb_true_iff, Nat.eqb_neq in E2. apply Nat.ltb_lt in E3. intros [H|H]; auto. }
    constructor.
    - reflexivity.
    - intros i. cbn [lnet_after ln_c]. unfold fupd. destruct (Nat.eqb_spec i m) as [->|]; reflexivity.
    - intros a b H. destruct (ln_q (lnet_after m (ln_c s m) (OSend (MHeader id) :: hdr_out id (ln_c s m)) (ln_q s) s) a b) as [|x r] eqn:E; [congruence|].
      destruct (QX a b x) as (-> & A & B & _); [rewrite E; left; reflexivity|]. auto.
    - intros a b x H. apply QX in H. destruct H as (-> & _ & _ & [->|H]); [left; rewrite FI; auto|]. right.
      destruct (Nat.eq_dec m j) as [->|NE]; [|rewrite <- FI, (hdr_out_other s j f NA) in H by auto; destruct H].
      rewrite <- FI in H. rewrite (hdr_out_j s j f LEN) in H by (rewrite FI; exact AJ). destruct H as [<-|[]]. auto.
    - destruct (Nat.eq_dec m j) as [->|NE].
      + right. rewrite <- FI. rewrite (hdr_out_j s j f LEN) by (rewrite FI; exact AJ).
        rewrite FI.
        repeat split.
        * cbn [lnet_after ln_q]. rewrite QU, Nat.eqb_refl. reflexivity.
        * cbn. rewrite Nat.eqb_refl. reflexivity.
        * intros i Hi NI. left. split.
          -- cbn [lnet_after ln_q]. rewrite QU, Nat.eqb_refl. replace (i =? j)%nat with false by (symmetry; apply Nat.eqb_neq; auto).
             replace (i <? ln_size s)%nat with true by (symmetry; apply Nat.ltb_lt; lia). reflexivity.
          -- cbn. replace (j =? i)%nat with false by (symmetry; apply Nat.eqb_neq; auto). reflexivity.
      + left. assert (HO : hdr_out id (ln_c s m) = []) by (rewrite <- FI; apply (hdr_out_other s j f NA); auto). rewrite HO in *.
        repeat split.
        * rewrite QQ, Nat.eqb_refl. replace (j =? m)%nat with false by (symmetry; apply Nat.eqb_neq; auto).
          replace (j <? ln_size s)%nat with true by (symmetry; apply Nat.ltb_lt; lia). reflexivity.
        * intros i. cbn. destruct (m =? i)%nat; reflexivity.
        * intros i. rewrite QQ. replace (j =? m)%nat with false by (symmetry; apply Nat.eqb_neq; auto). reflexivity. }
  destruct STEP as (s1 & E1 & D1).
  destruct (drain_run s m j f (fun i H => no_own s NO i H) HJ ltac:(rewrite FI; exact ID) LEN ltac:(rewrite FI; exact AJ) NA ds s1 _ DL D1) as (s2 & o2 & E2 & D2).
  cbn [lnrun]. rewrite E1, E2. exists s2, (map (pair m) (OSend (MHeader id) :: hdr_out id (ln_c s m)) ++ o2). split; [reflexivity|].
  destruct D2 as [_ _ _ _ [(P1 & P2 & P3 & P4)|(P1 & P2 & P3 & P4)]].
  - split; [left; exact P2|]. intros QS. rewrite QS in P1. discriminate.
  - split; [right; exact P2|]. intros QS. split; [exact P2|]. split; [exact P3|]. intros i Hi NI. destruct (P4 i) as [(X & _)|(_ & X)]; [lia|exact NI| |exact X].
    rewrite QS in X. discriminate.
Qed.
Print Assumptions C41_the_only_responder_answers_once.

(** No node or several nodes respond: one error transmission of the master is all that is transmitted *)
Theorem C41_none_or_several_responders_is_an_error : forall n ops s out0 m id ds,
  forallb static_nop ops = true -> lnrun ops (lnet0 n) = Some (s, out0) -> quiescent s ->
  (m < n)%nat -> c_mode (ln_c s m) = Master -> id < 64 ->
  (forall i, (i < n)%nat -> answer id (ln_c s i) <> None -> c_status (ln_c s i) = StOperational /\ (i = m \/ c_mode (ln_c s i) = Slave)) ->
  length (responders id s) <> 1%nat ->
  forallb is_deliver ds = true ->
  exists s' o f, lnrun (NApi m (LSendHeader id) :: ds) s = Some (s', o) /\ f_id f = id /\
    transmissions o = [(m, f, if (length (responders id s) =? 0)%nat then RxNoResponse else RxError)].
Proof.
  intros n ops s out0 m id ds ST RUN QU HM MM ID AO RE DL.
  destruct (net_run ops _ _ _ (net_ok0 n) ST RUN) as (NO & SZ). cbn in SZ.
  assert (HM' : (m < ln_size s)%nat) by lia.
  assert (AO' : answering_ok m id s) by (intros i Hi; apply AO; lia).
  pose proof (no_own s NO m HM') as OM.
  assert (SH : exists f o, f_id f = id /\ sent o = [] /\
      cexec (LSendHeader id) (ln_c s m) = (ln_c s m, OSend (MTransmission f (if (length (responders id s) =? 0)%nat then RxNoResponse else RxError)) :: o, LOk)).
  { cbn [cexec]. unfold send_frame_header, get. destruct (ow_state _ OM) as [(_ & X & _)|(X & _)]; [congruence|].
    replace (cstatus_eqb (c_status (ln_c s m)) StUnknown) with false by (destruct X as [X|X]; rewrite X; reflexivity). rewrite MM. cbn [cmode_eqb negb].
    unfold send_header, get. rewrite (ow_trivial _ OM).
    destruct (get_response_some id (c_nodes (ln_c s m)) (O, frame0 id) (ow_tables _ OM) ID) as (k & g & E & _). rewrite E.
    pose proof (get_response_frame id _ _ _ _ (ow_tables _ OM) (eq_refl : f_id (snd (O, frame0 id)) = id) E) as GF.
    apply get_response_count in E. cbn [fst] in E. rewrite (count_responders s m id NO QU HM' MM AO') in E. cbn [Nat.add] in E. subst k.
    rewrite (own_nodyn _ OM), andb_false_r, orb_false_r. destruct (Nat.eqb_spec (length (responders id s)) 1) as [X1|X1]; [contradiction|].
    unfold send_error_transmission, seq, emit, get. rewrite GF.
    destruct (resp_at_some id (this_node (ln_c s m)) (get_node_ok _ _ (ow_tables _ OM)) ID) as (r & -> & _).
    exists g. destruct (length (responders id s)) as [|[|k]]; [| contradiction |]; cbn [Nat.eqb app]; eexists; (split; [exact GF|]); (split; [|reflexivity]); reflexivity. }
  destruct SH as (f & o & FI & SO & SH).
  cbn [lnrun lnstep]. replace (m <? ln_size s)%nat with true by (symmetry; apply Nat.ltb_lt; lia). rewrite SH.
  set (st := if (length (responders id s) =? 0)%nat then RxNoResponse else RxError).
  set (s1 := lnet_after m (ln_c s m) (OSend (MTransmission f st) :: o) (ln_q s) s).
  assert (QQ : forall p q, ln_q s1 p q = if (p =? m)%nat && negb (q =? m)%nat && (q <? ln_size s)%nat then [MTransmission f st] else []).
  { intros p q. cbn [s1 lnet_after ln_q]. rewrite QU. change (sent (OSend (MTransmission f st) :: o)) with (MTransmission f st :: sent o). rewrite SO. reflexivity. }
  destruct (drain_quiet ds s1 DL) as (s2 & o2 & E2 & T2).
  - intros i Hi. cbn [s1 lnet_after ln_c ln_size] in *. unfold fupd. destruct (Nat.eqb_spec i m) as [->|]; [exact OM|apply (no_own s NO i Hi)].
  - intros a b. rewrite QQ. destruct (_ && _ && _) eqn:E; [|congruence]. intros _. apply andb_prop in E. destruct E as (_ & E). apply Nat.ltb_lt in E. exact E.
  - intros a b x. rewrite QQ. destruct (_ && _ && _); [|intros []]. intros [<-|[]]. eauto.
  - rewrite E2. exists s2. eexists. exists f. split; [reflexivity|]. split; [exact FI|]. rewrite transmissions_app, T2, app_nil_r, transmissions_sent.
    change (sent (OSend (MTransmission f st) :: o)) with (MTransmission f st :: sent o). rewrite SO. reflexivity.
Qed.
Print Assumptions C41_none_or_several_responders_is_an_error.

(** The hypotheses are met: a master, a slave answering id 5 and one receiving it; and two slaves answering id 6. *)
Definition fr (id : N) (len : N) : frame := mkF id CsEnhanced len [1; 2; 3; 4; 5; 6; 7; 8].
Definition ex_setup : list lnop :=
  [NApi 0 (LInit Master [mkR (fr 7 4) RRx]); NApi 1 (LInit Slave [mkR (fr 5 4) RTx; mkR (fr 6 2) RTx]); NApi 2 (LInit Slave [mkR (fr 5 4) RRx]); NApi 2 (LSetResponse (mkR (fr 6 3) RTx));
   NDeliver 1 0; NDeliver 1 2; NDeliver 2 0; NDeliver 2 0; NDeliver 2 1; NDeliver 2 1].
Definition run_out (r : option (lnet * list (nat * lout))) : option (list (nat * frame * fstatus) * (nat -> list (frame * fstatus)) * (nat -> nat -> nat)) :=
  match r with Some (s, o) => Some (transmissions o, fun i => statuses i o, fun i j => length (ln_q s i j)) | None => None end.
Example ex_C41 :
  (match lnrun ex_setup (lnet0 3) with Some (s, _) => map (fun id => responders id s) [5; 6; 7] | None => [] end) = [[1%nat]; [1%nat; 2%nat]; []] /\
  (match lnrun (ex_setup ++ [NApi 0 (LSendHeader 5); NDeliver 0 2; NDeliver 0 1; NDeliver 1 0; NDeliver 1 2]) (lnet0 3) with
   | Some (s, o) => (transmissions o, map (fun i => statuses i o) [0%nat; 1%nat; 2%nat]) | None => ([], []) end)
  = ([(1%nat, fr 5 4, RxOk)], [[]; [(fr 5 4, TxOk)]; [(fr 5 4, RxOk)]]) /\
  (match lnrun (ex_setup ++ [NApi 0 (LSendHeader 6); NApi 0 (LSendHeader 7)]) (lnet0 3) with Some (s, o) => transmissions o | None => [] end)
  = [(0%nat, fr 6 3, RxError); (0%nat, frame0 7, RxNoResponse)].
Proof. vm_compute. repeat split. Qed.

(** Once nothing is on its way every controller knows which ids each slave responds to and whether it is awake *)
Theorem C41_controllers_know_the_slaves : forall n ops s out i j,
  forallb static_nop ops = true -> lnrun ops (lnet0 n) = Some (s, out) -> quiescent s -> (i < n)%nat -> (j < n)%nat -> i <> j ->
  let known := get_node (N.of_nat j) (ln_c s i) in
  if cmode_eqb (c_mode (ln_c s j)) Slave
  then nd_mode known = Slave /\ nd_status known = c_status (ln_c s j) /\ map r_mode (nd_resp known) = map r_mode (nd_resp (this_node (ln_c s j)))
  else nd_mode known = Inactive /\ map r_mode (nd_resp known) = repeat RUnused 64.
Proof.
  intros n ops s out i j ST RUN QU HI HJ NE. destruct (net_run ops _ _ _ (net_ok0 n) ST RUN) as (NO & SZ). cbn in SZ.
  pose proof (no_view s NO i j ltac:(lia) ltac:(lia) NE) as V. rewrite QU in V. cbn [view fold_left] in V. unfold matches in V. cbv zeta.
  destruct (c_mode (ln_c s j)); exact V.
Qed.
Print Assumptions C41_controllers_know_the_slaves.

(** Refuted: a slave that is asleep but configured for the same id answers as well, two frames follow one header although exactly one node is operational *)
Theorem C41_sleeping_slave_answers_too_refuted : exists ops s out0 s' o,
  forallb static_nop ops = true /\ lnrun ops (lnet0 3) = Some (s, out0) /\ quiescent s /\ c_mode (ln_c s 0) = Master /\ responders 5 s = [1%nat] /\
  lnrun [NApi 0 (LSendHeader 5); NDeliver 0 1; NDeliver 0 2] s = Some (s', o) /\
  transmissions o = [(1%nat, fr 5 4, RxOk); (2%nat, fr 5 4, RxOk)].
Proof.
  exists [NApi 0 (LInit Master []); NApi 1 (LInit Slave [mkR (fr 5 4) RTx]); NApi 2 (LInit Slave [mkR (fr 5 4) RTx]); NApi 2 LGoToSleepInternal;
          NDeliver 1 0; NDeliver 1 2; NDeliver 2 0; NDeliver 2 1; NDeliver 2 0; NDeliver 2 1].
  do 4 eexists. split; [reflexivity|]. split; [vm_compute; reflexivity|].
  split; [intros i j; do 3 (destruct i as [|i]; [do 3 (destruct j as [|j]; [reflexivity|]); reflexivity|]); do 3 (destruct j as [|j]; [reflexivity|]); reflexivity|].
  repeat split; vm_compute; reflexivity.
Qed.
Print Assumptions C41_sleeping_slave_answers_too_refuted.
(** Refuted: a controller that joins later learns the configuration a slave had when it was initialised, not the changes since: no response is reported although one operational slave is configured for the id *)
Theorem C41_late_joining_master_refuted : exists ops s out0 s' o,
  lnrun ops (lnet0 2) = Some (s, out0) /\ quiescent s /\ c_mode (ln_c s 2) = Master /\ responders 5 s = [1%nat] /\
  lnrun [NApi 2 (LSendHeader 5)] s = Some (s', o) /\ transmissions o = [(2%nat, frame0 5, RxNoResponse)].
Proof.
  exists [NApi 1 (LInit Slave []); NApi 1 (LSetResponse (mkR (fr 5 4) RTx)); NDeliver 1 0; NDeliver 1 0; NJoin; NApi 2 (LInit Master []); NDeliver 1 2].
  do 4 eexists. split; [vm_compute; reflexivity|].
  split; [intros i j; do 3 (destruct i as [|i]; [do 3 (destruct j as [|j]; [reflexivity|]); reflexivity|]); do 3 (destruct j as [|j]; [reflexivity|]); reflexivity|].
  repeat split; vm_compute; reflexivity.
Qed.
Print Assumptions C41_late_joining_master_refuted.
(** Refuted: a response configured with unknown length counts as an answer but is never sent: neither a frame nor an error follows the header *)
Theorem C41_unknown_length_response_is_silent_refuted : exists ops s out0 s' o,
  forallb static_nop ops = true /\ lnrun ops (lnet0 2) = Some (s, out0) /\ quiescent s /\ c_mode (ln_c s 0) = Master /\ responders 5 s = [1%nat] /\
  lnrun [NApi 0 (LSendHeader 5); NDeliver 0 1] s = Some (s', o) /\ quiescent s' /\ transmissions o = [] /\ statuses 0 o = [].
Proof.
  exists [NApi 0 (LInit Master []); NApi 1 (LInit Slave [mkR (fr 5 255) RTx]); NDeliver 1 0].
  do 4 eexists. split; [reflexivity|]. split; [vm_compute; reflexivity|].
  split; [intros i j; do 2 (destruct i as [|i]; [do 2 (destruct j as [|j]; [reflexivity|]); reflexivity|]); do 3 (destruct j as [|j]; [reflexivity|]); reflexivity|].
  split; [reflexivity|]. split; [reflexivity|]. split; [vm_compute; reflexivity|].
  split; [intros i j; do 2 (destruct i as [|i]; [do 2 (destruct j as [|j]; [reflexivity|]); reflexivity|]); do 3 (destruct j as [|j]; [reflexivity|]); reflexivity|].
  split; reflexivity.
Qed.
Print Assumptions C41_unknown_length_response_is_silent_refuted.

(** * C42: ids *)
(** No history makes a controller access memory outside of its response table, if the ids given to the functions that do not check them are valid;
    Init, SetFrameResponse and the received configurations, responses and transmissions may contain any id. *)
Theorem C42_valid_ids_never_access_outside_partial : forall a l,
  Forall (fun o => match o with
                   | LSendFrame f _ | LDynamicResponse f | LUpdateTx f => f_id f < 64
                   | LSendHeader id | LReceive _ _ (MHeader id) => id < 64
                   | _ => True end) l ->
  crun l (ctrl0 a) <> None.
Proof.
  intros a l H. destruct (crun_ok l (ctrl0 a)) as (c & os & E & _); [|constructor|congruence].
  eapply Forall_impl; [|exact H]. intros o X. exact X.
Qed.
Print Assumptions C42_valid_ids_never_access_outside_partial.
Example ex_C42 : crun [LInit Master [mkR (fr 200 4) RTx; mkR (fr 3 4) RTx]; LReceive 7 false (MConfig Slave false [mkR (fr 255 2) RTx]); LReceive 7 false (MTransmission (fr 99 4) RxOk);
                       LSetResponse (mkR (fr 64 4) RRx); LSendFrame (fr 3 4) MasterResponse; LSendHeader 63] (ctrl0 1) <> None.
Proof. vm_compute. discriminate. Qed.
(** Refuted: every function that does not check its id reads or writes outside of the table *)
Theorem C42_unchecked_ids_refuted :
  crun [LInit Master []; LReceive 7 false (MConfig Slave false []); LSendHeader 64] (ctrl0 1) = None /\
  crun [LInit Slave []; LUpdateTx (fr 64 4)] (ctrl0 1) = None /\
  crun [LInit Master []; LReceive 7 false (MConfig Slave false [mkR (fr 64 4) RTx]); LSendFrame (fr 64 4) SlaveResponse] (ctrl0 1) = None /\
  crun [LInit Master []; LSendFrame (fr 64 4) MasterResponse] (ctrl0 1) = None /\
  crun [LInitDynamic Slave; LDynamicResponse (fr 64 4)] (ctrl0 1) = None /\
  crun [LInit Slave []; LReceive 7 false (MHeader 64)] (ctrl0 1) = None.
Proof. vm_compute. repeat split. Qed.
Print Assumptions C42_unchecked_ids_refuted.

(** * C43: sleep mode and dynamic configuration *)
(** [first_init l]: the first call of Init or InitDynamic with a valid mode in the history. Before it, the functions of a controller are rejected without effect. *)
Theorem C43_uninitialised_is_rejected_partial : forall a l c os o,
  crun l (ctrl0 a) = Some (c, os) -> first_init l = None ->
  match o with LSendFrame _ _ | LSendHeader _ | LUpdateTx _ | LSetResponse _ | LGoToSleep | LGoToSleepInternal | LWakeup | LWakeupInternal => True | _ => False end ->
  cexec o c = (c, [], LThrow).
Proof.
  intros a l c os o R F K. destruct (run_init l (ctrl0 a) c os R) as (_ & I); [reflexivity|]. cbn in I. rewrite F in I. unfold init_of in I.
  destruct (unk c) eqn:U; [|discriminate]. unfold unk in U.
  destruct o; try contradiction; cbn [cexec];
    unfold send_frame, send_frame_header, update_tx_buffer, set_frame_response, go_to_sleep, go_to_sleep_internal, wakeup, wakeup_internal, if_uninit, get; rewrite U; reflexivity.
Qed.
Print Assumptions C43_uninitialised_is_rejected_partial.
(** After InitDynamic the functions for static configurations are rejected without effect *)
Theorem C43_dynamic_rejects_static_functions : forall a l c os o,
  crun l (ctrl0 a) = Some (c, os) -> first_init l = Some true ->
  match o with LSendFrame _ _ | LUpdateTx _ | LSetResponse _ => True | _ => False end ->
  cexec o c = (c, [], LThrow).
Proof.
  intros a l c os o R F K. destruct (run_init l (ctrl0 a) c os R) as (_ & I); [reflexivity|]. cbn in I. rewrite F in I. unfold init_of in I.
  destruct (unk c) eqn:U; [discriminate|]. injection I as D. unfold unk in U.
  destruct o; try contradiction; cbn [cexec]; unfold send_frame, update_tx_buffer, set_frame_response, if_uninit, if_not_dynamic, if_master, get; rewrite U, ?D; try reflexivity.
  destruct (cmode_eqb _ _); rewrite ?D; reflexivity.
Qed.
Print Assumptions C43_dynamic_rejects_static_functions.
Example ex_C43_init : exists c os, crun [LInit Inactive []; LReceive 7 false (MStatus StSleep); LInitDynamic Master; LInit Slave []; LWakeup] (ctrl0 1) = Some (c, os) /\
  first_init [LInit Inactive []; LReceive 7 false (MStatus StSleep); LInitDynamic Master; LInit Slave []; LWakeup] = Some true /\ c_mode c = Master.
Proof. do 2 eexists. split; [vm_compute; reflexivity|]. split; reflexivity. Qed.
(** After GoToSleepInternal, and until the next wake-up (or GoToSleep, which a network simulator completes), SendFrame transmits neither a header nor a frame *)
Theorem C43_no_frame_is_sent_while_asleep : forall a l1 l2 c1 os1 c os f t,
  crun (l1 ++ [LGoToSleepInternal]) (ctrl0 a) = Some (c1, os1) -> first_init l1 <> None ->
  forallb (fun o => match o with LWakeup | LWakeupInternal | LGoToSleep => false | _ => true end) l2 = true ->
  crun l2 c1 = Some (c, os) -> c_detailed c = false ->
  c_status c = StSleep /\
  forall x, In x (snd (fst (cexec (LSendFrame f t) c))) -> match x with OSend (MHeader _) | OSend (MTransmission _ _) => False | _ => True end.
Proof.
  intros a l1 l2 c1 os1 c os f t R1 F W R2 D.
  assert (S1 : c_status c1 = StSleep).
  { assert (SP : exists c0 os0, crun l1 (ctrl0 a) = Some (c0, os0) /\ crun [LGoToSleepInternal] c0 = Some (c1, skipn (length os0) os1)).
    { revert R1. generalize (ctrl0 a). clear. intros c. revert os1. revert c. induction l1 as [|o l IH]; intros c os1.
      - intros R. exists c, []. auto.
      - cbn [app crun]. destruct (cexec o c) as [[c' o'] r]. destruct r; try discriminate.
        all: destruct (crun (l ++ [LGoToSleepInternal]) c') as [[c2 os2]|] eqn:E; [|discriminate]; injection 1 as <- <-;
          destruct (IH c' os2 E) as (c0 & os0 & A & B); rewrite A; exists c0, (o' :: os0); auto. }
    destruct SP as (c0 & os0 & A & B). destruct (run_init l1 (ctrl0 a) c0 os0 A) as (_ & I); [reflexivity|]. cbn in I.
    assert (U : cstatus_eqb (c_status c0) StUnknown = false) by (unfold init_of, unk in I; destruct (cstatus_eqb (c_status c0) StUnknown); [congruence|reflexivity]).
    cbn [crun cexec] in B. unfold go_to_sleep_internal, if_uninit, get in B. rewrite U in B. cbn in B. injection B as <- _. reflexivity. }
  assert (S2 : c_status c = StSleep).
  { apply (run_sleep l2 c1 c os R2); [|exact S1]. rewrite forallb_forall in W |- *. intros o H. apply W in H. destruct o; auto. }
  split; [exact S2|]. intros x H. pose proof (sleep_send_frame f t c S2 D) as K. rewrite forallb_forall in K. apply K in H. destruct x; auto. destruct m; auto; discriminate.
Qed.
Print Assumptions C43_no_frame_is_sent_while_asleep.
Example ex_C43_sleep : exists c1 os1 c os, crun ([LInit Master []] ++ [LGoToSleepInternal]) (ctrl0 1) = Some (c1, os1) /\
  crun [LSetResponse (mkR (fr 5 4) RTx); LReceive 7 false (MConfig Slave false [mkR (fr 6 2) RTx])] c1 = Some (c, os) /\ c_detailed c = false /\
  c_status c = StSleep /\ c_mode c = Master /\
  snd (fst (cexec (LSendFrame (fr 5 4) MasterResponse) (set_status StOperational c))) = [OSend (MHeader 5); OSend (MTransmission (fr 5 4) RxOk); OFrameStatus (fr 5 4) TxOk].
Proof. do 4 eexists. split; [vm_compute; reflexivity|]. split; [vm_compute; reflexivity|]. repeat split; vm_compute; reflexivity. Qed.
(** Frames of other nodes are not reported while asleep *)
Theorem C43_no_frame_is_received_while_asleep : forall a l1 l2 c1 os1 c os from sim f st,
  crun (l1 ++ [LGoToSleepInternal]) (ctrl0 a) = Some (c1, os1) -> first_init l1 <> None ->
  forallb (fun o => match o with LWakeup | LWakeupInternal | LGoToSleep => false | _ => true end) l2 = true ->
  crun l2 c1 = Some (c, os) -> c_detailed c = false ->
  cexec (LReceive from sim (MTransmission f st)) c = (c, [], LOk).
Proof.
  intros a l1 l2 c1 os1 c os from sim f st R1 F W R2 D.
  destruct (C43_no_frame_is_sent_while_asleep a l1 l2 c1 os1 c os f MasterResponse R1 F W R2 D) as (S & _).
  cbn [cexec]. unfold catch, receive, receive_transmission, get. rewrite D, S. cbn. destruct (cmode_eqb (c_mode c) Inactive); reflexivity.
Qed.
Print Assumptions C43_no_frame_is_received_while_asleep.

(** Refuted: a sleeping slave answers headers; a sleeping master sends headers with SendFrameHeader, and answers them itself *)
Theorem C43_sleeping_nodes_transmit_refuted :
  (exists c os, crun [LInit Slave [mkR (fr 5 4) RTx]; LGoToSleepInternal] (ctrl0 1) = Some (c, os) /\ c_status c = StSleep /\
     cexec (LReceive 0 false (MHeader 5)) c = (c, [OSend (MTransmission (fr 5 4) RxOk); OFrameStatus (fr 5 4) TxOk], LOk)) /\
  (exists c os, crun [LInit Master [mkR (fr 5 4) RTx]; LGoToSleep] (ctrl0 1) = Some (c, os) /\ c_status c = StSleep /\
     cexec (LSendHeader 5) c = (c, [OSend (MHeader 5); OSend (MTransmission (fr 5 4) RxOk); OFrameStatus (fr 5 4) TxOk], LOk)).
Proof. split; do 2 eexists; (split; [vm_compute; reflexivity|]); split; vm_compute; reflexivity. Qed.
Print Assumptions C43_sleeping_nodes_transmit_refuted.
(** Refuted: SendDynamicResponse is accepted by a static controller, and even before the initialisation (ThrowIfNotDynamic does not throw there) *)
Theorem C43_dynamic_response_of_static_controller_refuted :
  (exists c os, crun [LInit Slave []] (ctrl0 1) = Some (c, os) /\ first_init [LInit Slave []] = Some false /\
     snd (cexec (LDynamicResponse (fr 5 4)) c) = LOk /\ answer 5 (fst (fst (cexec (LDynamicResponse (fr 5 4)) c))) = Some (fr 5 4)) /\
  snd (fst (cexec (LDynamicResponse (fr 5 4)) (ctrl0 1))) = [OSend (MTransmission (fr 5 4) RxOk); OFrameStatus (fr 5 4) TxOk].
Proof. split; [do 2 eexists; split; [vm_compute; reflexivity|]|]; repeat split; vm_compute; reflexivity. Qed.
Print Assumptions C43_dynamic_response_of_static_controller_refuted.
(** Refuted: SendFrame with a response from slave to slave reports success although the sleeping master sends nothing *)
Theorem C43_slave_to_slave_reported_while_asleep_refuted :
  exists c os, crun [LInit Master []; LReceive 7 false (MConfig Slave false [mkR (fr 5 4) RTx]); LGoToSleep] (ctrl0 1) = Some (c, os) /\ c_status c = StSleep /\
    cexec (LSendFrame (fr 5 4) SlaveToSlave) c = (c, [OFrameStatus (fr 5 4) TxOk], LOk).
Proof. do 2 eexists. split; [vm_compute; reflexivity|]. split; vm_compute; reflexivity. Qed.
Print Assumptions C43_slave_to_slave_reported_while_asleep_refuted.
