From Coq Require Import List NArith Arith Bool Lia Sorted Permutation.
From Verif Require Import Base DiscoveryModel DiscoverySpec DiscoveryProofs ServiceDiscoveryModel ServiceDiscoverySpec
  ServiceDiscoveryProofs HandlersModel HandlersSpec HandlersProofs.
From Verif Require DescriptorKey.
Import ListNotations.
Local Open Scope N_scope.

Definition opt (k v : N) := mkLabel k v false.
Definition man (k v : N) := mkLabel k v true.

(** * C10 *)
(** For lists without repeated keys the code decides the documented rule. *)
Theorem C10_match_rule : forall a b, unique_keys a -> unique_keys b -> (match_labels a b = true <-> labels_match a b).
Proof. intros a b Ua Ub. rewrite match_labels_first. apply match_first_unique; assumption. Qed.
Print Assumptions C10_match_rule.
(** In general: the rule with the first label of each key. *)
Theorem C10_match_rule_first : forall a b, match_labels a b = true <-> labels_match_first a b.
Proof. exact match_labels_first. Qed.
Print Assumptions C10_match_rule_first.
Theorem C10_symmetric : forall a b, match_labels a b = match_labels b a.
Proof. exact match_labels_sym. Qed.
Print Assumptions C10_symmetric.
Theorem C10_order_irrelevant : forall a a' b b', unique_keys a -> unique_keys b -> Permutation a a' -> Permutation b b' ->
  match_labels a b = match_labels a' b'.
Proof. exact match_labels_perm. Qed.
Print Assumptions C10_order_irrelevant.
Example C10_case : unique_keys [man 1 1; opt 2 5] /\ match_labels [man 1 1; opt 2 5] [opt 1 1; opt 3 7] = true /\
  match_labels [man 1 1; opt 2 5] [opt 1 1; opt 2 6] = false /\ match_labels [man 1 1] [] = false.
Proof. repeat split; try reflexivity. repeat constructor; cbn; intuition discriminate. Qed.
(** With a repeated key the order does matter. *)
Example C10_repeated_key : match_labels [opt 1 1; opt 1 2] [opt 1 1] = false /\ match_labels [opt 1 2] [opt 1 2; opt 1 3] = false.
Proof. split; reflexivity. Qed.

(** * C11 *)
Theorem C11_only_matching : forall l e n, wf_history l -> In n (fst (dstep e (drun l st_empty))) ->
  match e with
  | DCreated t k s => exists h, In h (handlers t k l) /\ n = (i_id h, true, i_id s) /\
                       (t = CRpcServerInternal \/ labels_match_first (i_labels h) (i_labels s))
  | DRemoved t k s => exists h, In h (handlers t k l) /\ n = (i_id h, false, i_id s) /\
                       (t = CRpcServerInternal \/ labels_match_first (i_labels h) (i_labels s))
  | DRegister t k h => exists s, In s (services t k l) /\ n = (i_id h, true, i_id s) /\
                       labels_match_first (i_labels h) (i_labels s)
  end.
Proof. exact sound_history. Qed.
Print Assumptions C11_only_matching.

(** A history used as a witness below: two services with label 2, a handler with label 1, a service with label 1. *)
Definition P1 := mkItem 1 [opt 2 1].
Definition P2 := mkItem 2 [opt 2 1].
Definition P3 := mkItem 3 [opt 1 1].
Definition H1 := mkItem 11 [opt 1 1].
Definition H2 := mkItem 12 [opt 1 1].
Definition missing : list dev :=
  [DCreated CDataPublisher 7 P1; DCreated CDataPublisher 7 P2; DRegister CDataPublisher 7 H1; DCreated CDataPublisher 7 P3].
Ltac wf_tac :=
  let l1 := fresh "l1" in let e := fresh "e" in let l2 := fresh "l2" in let E := fresh "E" in
  intros l1 e l2 E;
  repeat (destruct l1 as [|? l1]; [cbn in E; inversion E; subst; cbn; clear; intuition discriminate|]);
  cbn in E; try discriminate E; repeat (inversion E; clear E; subst; cbn in *; try discriminate).
Lemma wf_cons_check : forall l, (forall n, (n < length l)%nat -> match nth_error l n with Some e => wf_event (firstn n l) e | None => False end) -> wf_history l.
Proof.
  intros l H l1 e l2 E. specialize (H (length l1)). rewrite E in H. rewrite app_length in H. cbn in H.
  specialize (H ltac:(lia)). rewrite nth_error_app2, Nat.sub_diag in H by lia. cbn in H.
  rewrite firstn_app, Nat.sub_diag, firstn_O, app_nil_r, firstn_all in H. exact H.
Qed.
Ltac wf_check := apply wf_cons_check; intros n Hn; cbn in Hn;
  repeat (destruct n as [|n]; [cbn; intuition discriminate|]); exfalso; lia.
Example missing_wf : wf_history missing.
Proof. wf_check. Qed.
Example C11_case : exists n, In n (fst (dstep (DRegister CDataPublisher 7 H2) (drun missing st_empty))) /\
  ~ In n (fst (dstep (DRegister CDataPublisher 8 H2) (drun missing st_empty))).
Proof. exists (12, true, 3). split; [vm_compute; auto|vm_compute; auto]. Qed.

(** * C12 *)
(** Complete, unless an optional label of the one that arrives has a key that a labelled other side lacks. *)
Theorem C12_service_change_partial : forall l t k s h, wf_history l -> In h (handlers t k l) ->
  (t = CRpcServerInternal \/ (labels_match_first (i_labels h) (i_labels s) /\ ~ risky s h)) ->
  In (i_id h, true, i_id s) (fst (dstep (DCreated t k s) (drun l st_empty))) /\
  In (i_id h, false, i_id s) (fst (dstep (DRemoved t k s) (drun l st_empty))).
Proof. exact complete_created. Qed.
Print Assumptions C12_service_change_partial.
Theorem C12_registration_partial : forall l t k s h, wf_history l -> In s (services t k l) ->
  labels_match_first (i_labels h) (i_labels s) -> ~ risky h s ->
  In (i_id h, true, i_id s) (fst (dstep (DRegister t k h) (drun l st_empty))).
Proof. exact complete_registered. Qed.
Print Assumptions C12_registration_partial.
Example C12_case : In P3 (services CDataPublisher 7 missing) /\ labels_match_first (i_labels H2) (i_labels P3) /\ ~ risky H2 P3.
Proof.
  split; [cbn; auto|]. split; [apply match_labels_first; reflexivity|].
  intros (_ & l & [<-|[]] & _ & K). apply (K (opt 1 1)); [left; reflexivity|reflexivity].
Qed.
(** A handler is not told of two matching services that have been announced. *)
Theorem C12_complete_refuted : exists l t k h s, wf_history l /\ wf_event l (DRegister t k h) /\ In s (services t k l) /\
  labels_match (i_labels h) (i_labels s) /\ unique_keys (i_labels h) /\ unique_keys (i_labels s) /\
  ~ In (i_id h, true, i_id s) (fst (dstep (DRegister t k h) (drun l st_empty))).
Proof.
  exists missing, CDataPublisher, 7, H2, P1. split; [exact missing_wf|]. split; [cbn; intuition discriminate|].
  split; [cbn; auto|]. assert (U1 : unique_keys (i_labels H2)) by (repeat constructor; cbn; tauto).
  assert (U2 : unique_keys (i_labels P1)) by (repeat constructor; cbn; tauto).
  split; [apply match_first_unique; [assumption|assumption|]; apply match_labels_first; reflexivity|].
  split; [assumption|]. split; [assumption|]. vm_compute. intuition discriminate.
Qed.
Print Assumptions C12_complete_refuted.
(** Likewise a handler that is there is not told of a new service. *)
Definition missing2 : list dev :=
  [DRegister CDataPublisher 7 (mkItem 1 [opt 2 1]); DRegister CDataPublisher 7 (mkItem 2 [opt 2 1]);
   DCreated CDataPublisher 7 (mkItem 11 [opt 1 1]); DRegister CDataPublisher 7 (mkItem 3 [opt 1 1])].
Theorem C12_service_change_refuted : exists l t k h s, wf_history l /\ wf_event l (DCreated t k s) /\ In h (handlers t k l) /\
  labels_match (i_labels h) (i_labels s) /\ unique_keys (i_labels h) /\ unique_keys (i_labels s) /\ t = CDataPublisher /\
  ~ In (i_id h, true, i_id s) (fst (dstep (DCreated t k s) (drun l st_empty))).
Proof.
  exists missing2, CDataPublisher, 7, (mkItem 1 [opt 2 1]), (mkItem 12 [opt 1 1]).
  split; [wf_check|]. split; [cbn; intuition discriminate|]. split; [cbn; auto|].
  assert (U1 : unique_keys [opt 2 1]) by (repeat constructor; cbn; tauto).
  assert (U2 : unique_keys [opt 1 1]) by (repeat constructor; cbn; tauto).
  split; [apply match_first_unique; [assumption|assumption|]; apply match_labels_first; reflexivity|].
  split; [assumption|]. split; [assumption|]. split; [reflexivity|]. vm_compute. intuition discriminate.
Qed.
Print Assumptions C12_service_change_refuted.

(** * C13 *)
(** With mandatory labels only (or none): every handler is told of every matching service exactly as the history says,
    each creation and removal once, whichever came first. *)
Theorem C13_exactly_once_partial : forall t k h s l,
  wf_history l -> only_about t k h s l -> all_mandatory h -> all_mandatory s ->
  labels_match_first (i_labels h) (i_labels s) ->
  pair_log t k (i_id h) (i_id s) l st_empty = expected_log t k (i_id h) (i_id s) false false l.
Proof. intros t k h s l. exact (pair_log_matching t k h s l []). Qed.
Print Assumptions C13_exactly_once_partial.
(** With any labels: at most twice. *)
Theorem C13_at_most_twice_partial : forall l e n, wf_history l ->
  (count_occ note_eq_dec (fst (dstep e (drun l st_empty))) n <= 2)%nat.
Proof. exact at_most_twice. Qed.
Print Assumptions C13_at_most_twice_partial.
Definition PM := mkItem 1 [man 1 1].
Definition HM := mkItem 11 [man 1 1].
Definition once_hist : list dev :=
  [DRegister CDataPublisher 7 (mkItem 10 []); DCreated CDataPublisher 7 PM; DRegister CDataPublisher 7 HM; DRemoved CDataPublisher 7 PM;
   DCreated CDataPublisher 7 (mkItem 2 []); DCreated CDataPublisher 7 PM].
Example C13_case : wf_history once_hist /\ only_about CDataPublisher 7 HM PM once_hist /\ all_mandatory HM /\ all_mandatory PM /\
  labels_match_first (i_labels HM) (i_labels PM) /\ expected_log CDataPublisher 7 11 1 false false once_hist = [true; false; true].
Proof.
  split; [wf_check|]. split.
  - split; intros x I E; cbn in I; intuition; try discriminate;
      repeat match goal with H : _ = _ |- _ => progress (inversion H; subst; cbn in E; try discriminate E; try reflexivity; clear H) end.
  - split; [intros l [<-|[]]; reflexivity|]. split; [intros l [<-|[]]; reflexivity|].
    split; [apply match_labels_first; reflexivity|reflexivity].
Qed.
(** Told twice of the same service: one service with the label, two without, then a handler with the optional label. *)
Definition twice : list dev :=
  [DCreated CDataPublisher 7 (mkItem 1 [opt 1 1]); DCreated CDataPublisher 7 (mkItem 2 []); DCreated CDataPublisher 7 (mkItem 3 [])].
Theorem C13_once_refuted : exists l t k h s, wf_history l /\ wf_event l (DRegister t k h) /\ In s (services t k l) /\
  unique_keys (i_labels h) /\ unique_keys (i_labels s) /\
  count_occ note_eq_dec (fst (dstep (DRegister t k h) (drun l st_empty))) (i_id h, true, i_id s) = 2%nat.
Proof.
  exists twice, CDataPublisher, 7, (mkItem 11 [opt 1 1]), (mkItem 1 [opt 1 1]).
  split; [wf_check|]. split; [cbn; intuition|]. split; [cbn; auto|].
  split; [repeat constructor; cbn; tauto|]. split; [repeat constructor; cbn; tauto|]. vm_compute. reflexivity.
Qed.
Print Assumptions C13_once_refuted.

(** * C14 *)
(** What a handler is told of a service is what the history of that service says. *)
Theorem C14_told_as_announced : forall me h p k l, (forall e, In e l -> wf_ev e) -> (registrations h l <= 1)%nat ->
  told h p k (fst (sdrun me l sd_init)) = expected me h p k false false l /\
  knows p k (sd_known (snd (sdrun me l sd_init))) = known_after me p k false l.
Proof.
  intros me h p k l W R. apply (sdrun_told h p k me l sd_init SdInv_init); cbn; auto; [unfold once; cbn; lia|lia].
Qed.
Print Assumptions C14_told_as_announced.
(** It alternates, Created first. *)
Theorem C14_alternates : forall me h p k l, (forall e, In e l -> wf_ev e) -> (registrations h l <= 1)%nat ->
  alternating true (told h p k (fst (sdrun me l sd_init))).
Proof.
  intros me h p k l W R. rewrite (proj1 (C14_told_as_announced me h p k l W R)).
  apply (expected_alternates me h p k l false false). lia.
Qed.
Print Assumptions C14_alternates.
(** A registered handler's last notification of a service is Created iff the service is known now (also to GetServices). *)
Theorem C14_last_is_current : forall me h p k l, (forall e, In e l -> wf_ev e) -> registrations h l = 1%nat ->
  last (told h p k (fst (sdrun me l sd_init))) false = true <->
  exists d, In d (get_services (snd (sdrun me l sd_init))) /\ d_part d = p /\ d_key d = k.
Proof.
  intros me h p k l W R. destruct (C14_told_as_announced me h p k l W ltac:(lia)) as [A B]. rewrite A.
  rewrite (expected_last me h p k l false false) by lia. rewrite <- B.
  destruct (sdrun_inv me l sd_init SdInv_init eq_refl W) as [I _].
  unfold get_services, knows. rewrite existsb_exists. split.
  - intros (x & J & E). apply andb_true_iff in E. rewrite !N.eqb_eq in E. exists (snd x). split; [apply in_map, J|].
    rewrite (si_part _ I x J). tauto.
  - intros (d & J & <- & <-). apply in_map_iff in J. destruct J as (x & <- & J). exists x. split; [assumption|].
    rewrite (si_part _ I x J), !N.eqb_refl. reflexivity.
Qed.
Print Assumptions C14_last_is_current.
(** A participant that leaves: each of its known services is removed exactly once, nothing else happens. *)
Theorem C14_departure : forall me h p q k l, (forall e, In e l -> wf_ev e) -> registrations h l = 1%nat -> q <> me ->
  let s := snd (sdrun me l sd_init) in
  told h p k (fst (sdstep me (SLeave q) s)) = (if (q =? p) && knows p k (sd_known s) then [false] else []) /\
  knows p k (sd_known (snd (sdstep me (SLeave q) s))) = knows p k (sd_known s) && negb (q =? p).
Proof.
  intros me h p q k l W R Q s. pose proof (sdrun_inv me l sd_init SdInv_init eq_refl W) as [I D]. fold s in I, D.
  assert (W' : forall e, In e (l ++ [SLeave q]) -> wf_ev e).
  { intros e J. apply in_app_or in J. destruct J as [J|[<-|[]]]; [auto|exact Logic.I]. }
  assert (RUN : forall a b st, sdrun me (a ++ b) st = (fst (sdrun me a st) ++ fst (sdrun me b (snd (sdrun me a st))), snd (sdrun me b (snd (sdrun me a st))))).
  { clear. induction a as [|e a IH]; intros b st; cbn [sdrun app].
    - cbn [fst snd app]. destruct (sdrun me b st); reflexivity.
    - destruct (sdstep me e st) as [o s']. rewrite IH. destruct (sdrun me a s') as [o1 s1]. cbn [fst snd].
      destruct (sdrun me b s1). cbn. rewrite app_assoc. reflexivity. }
  assert (EXP : forall a b r kn, (registrations h a + (if r : bool then 1 else 0) = 1)%nat ->
     expected me h p k r kn (a ++ b) = expected me h p k r kn a ++ expected me h p k true (known_after me p k kn a) b).
  { clear. induction a as [|e a IH]; intros b r kn R; cbn [app].
    - destruct r; [reflexivity|cbn in R; lia].
    - unfold registrations in R. cbn [filter] in R.
      destruct e as [q0 ds|q0|d|d|d|d|h'|]; cbn [expected known_after effect];
        try (match goal with |- context [match ?x with Some _ => _ | None => _ end] => destruct x end; rewrite ?IH by exact R; rewrite ?app_assoc; reflexivity).
      + destruct (h' =? h); cbn in R.
        * destruct r; [lia|]. rewrite IH by (unfold registrations; lia). rewrite app_assoc. reflexivity.
        * apply IH. exact R.
      + apply IH. exact R. }
  assert (R2 : (registrations h (l ++ [SLeave q]) <= 1)%nat).
  { unfold registrations in *. rewrite filter_app, app_length. cbn. lia. }
  pose proof (C14_told_as_announced me h p k l W ltac:(lia)) as [A B].
  pose proof (C14_told_as_announced me h p k (l ++ [SLeave q]) W' R2) as [A' B'].
  rewrite RUN in A', B'. cbn [fst snd] in A', B'. fold s in A', B', B. rewrite told_app, A, EXP in A' by lia.
  apply app_inv_head in A'. cbn [sdrun] in A', B'. cbn [sdstep] in *. destruct (participant_removal me q s) as [o s'] eqn:PR. cbn [fst snd] in *.
  rewrite app_nil_r in A'. rewrite A'. cbn [expected effect].
  split.
  - destruct (N.eqb_spec q p) as [E|E]; cbn [andb]; [|reflexivity]. subst q.
    apply N.eqb_neq in Q. rewrite Q. cbn. rewrite <- B. destruct (knows p k (sd_known s)); reflexivity.
  - unfold participant_removal in PR. apply N.eqb_neq in Q. rewrite Q in PR. inversion PR; subst. apply knows_leave.
Qed.
Print Assumptions C14_departure.
(** The label based store (C11 to C13) is told of the changes of a service alternately, Created first, as it needs. *)
Theorem C14_store_alternates : forall me p k l, (forall e, In e l -> wf_ev e) ->
  alternating true (store_told p k (fst (sdrun me l sd_init))).
Proof.
  intros me p k l W. rewrite (sdrun_store p k me l sd_init SdInv_init eq_refl W).
  apply (expected_store_alternates me p k l false).
Qed.
Print Assumptions C14_store_alternates.
Definition dA := mkDesc 1 5 false 0.
Definition dB := mkDesc 2 6 false 0.
Definition sdhist := [SCreatedLocal dA; SParticipant 2 [dB; dB]; SRegister 9; SCreatedMsg dB; SLeave 2; SRemovedMsg dB; SCreatedMsg dB].
Example C14_case : (forall e, In e sdhist -> wf_ev e) /\ registrations 9 sdhist = 1%nat /\
  told 9 2 6 (fst (sdrun 1 sdhist sd_init)) = [true; false; true] /\ told 9 1 5 (fst (sdrun 1 sdhist sd_init)) = [true].
Proof.
  split; [|vm_compute; auto]. intros e I. cbn in I.
  repeat (destruct I as [<-|I]; [cbn; try exact Logic.I; try (intros d [<-|[<-|[]]]; reflexivity)|]). contradiction.
Qed.

(** * C15 *)
Theorem C15_registry : forall l o s, h_run l hs_init = HDone o s -> few o ->
  h_entries s = registered o /\ NoDup (added o) /\ invocations_current o /\
  (forall a i b, o = a ++ TUnknown i :: b -> ~ In i (map fst (registered a))) /\
  (forall a i b, o = a ++ TRemoved i :: b -> In i (map fst (registered a))).
Proof.
  intros l o s E F. pose proof (run_ok l [] hs_init HI_init) as H. rewrite E in H. specialize (H F). cbn in H.
  destruct H as [A B C D N T]. split; [exact A|]. split.
  { rewrite N. apply FinFun.Injective_map_NoDup; [intros x y; apply Nat2N.inj|apply seq_NoDup]. }
  split; [intros a i c b Q; apply (T _ _ _ Q)|]. split; intros a i b Q; apply (T _ _ _ Q).
Qed.
Print Assumptions C15_registry.
(** One event: whoever is registered and not removed meanwhile is invoked, once, in the order of registration. *)
Theorem C15_event : forall l o s fuel beh o' s', h_run l hs_init = HDone o s ->
  h_pass fuel 0 beh None s = HDone o' s' -> few (o ++ o') ->
  StronglySorted N.lt (invoked o') /\
  (forall i, In i (map fst (registered o)) -> In i (invoked o') \/ In i (removed o')) /\
  (forall i, In i (map fst (registered (o ++ o'))) -> In i (invoked o')) /\
  invocations_current (o ++ o').
Proof.
  intros l o s fuel beh o' s' E P F. pose proof (run_ok l [] hs_init HI_init) as H. rewrite E in H. specialize (H (few_app _ _ F)). cbn in H.
  pose proof (pass_ok fuel 0 beh None o s H) as Q. rewrite P in Q. destruct (Q F) as (A & B & _ & C & D).
  split; [exact B|]. split; [intros i I; apply C; [rewrite (hi_reg _ _ H); exact I|discriminate]|].
  split; [intros i I; apply D; [rewrite (hi_reg _ _ A); exact I|discriminate]|].
  intros a i c b X. apply (hi_tr _ _ A _ _ _ X).
Qed.
Print Assumptions C15_event.
(** Handlers that leave the registry alone: exactly all, in order. *)
Theorem C15_event_passive : forall l o s fuel beh, h_run l hs_init = HDone o s -> few o -> passive beh ->
  (length (registered o) < fuel)%nat ->
  h_pass fuel 0 beh None s = HDone (map (fun x => TInvoke (fst x) (snd x)) (registered o)) s.
Proof.
  intros l o s fuel beh E F P L. pose proof (run_ok l [] hs_init HI_init) as H. rewrite E in H. specialize (H F). cbn in H.
  rewrite <- (hi_reg _ _ H) in *. apply (pass_passive (h_entries s) fuel 0 beh None s []); auto. apply (hi_sort _ _ H).
Qed.
Print Assumptions C15_event_passive.
(** The only way to undefined behaviour is a handler that removes itself while it is invoked. *)
Theorem C15_ub_only_by_self_removal : forall l o, h_run l hs_init = HUB o -> few o ->
  exists a i c b, o = a ++ TInvoke i c :: b /\ In i (removed b) /\ invoked b = [].
Proof.
  intros l o E F. pose proof (run_ok l [] hs_init HI_init) as H. rewrite E in H. apply H, F.
Qed.
Print Assumptions C15_ub_only_by_self_removal.
(** A pass ends if the handlers add none. *)
Theorem C15_event_ends : forall l o s fuel beh, h_run l hs_init = HDone o s -> few o -> adds_nothing beh ->
  (length (registered o) < fuel)%nat -> h_pass fuel 0 beh None s <> HFuel.
Proof.
  intros l o s fuel beh E F P L. pose proof (run_ok l [] hs_init HI_init) as H. rewrite E in H. specialize (H F). cbn in H.
  apply pass_fuel; [exact P|apply (hi_sort _ _ H)|]. rewrite (hi_reg _ _ H). unfold later. rewrite filter_all. exact L.
Qed.
Print Assumptions C15_event_ends.
(** A handler that removes itself: undefined behaviour. *)
Theorem C15_self_removal_refuted : exists l beh o, h_run (l ++ [OInvokeAll 10 beh]) hs_init = HUB o /\ few o.
Proof.
  exists [OAct (HAdd 7)], (fun _ c => if c =? 7 then [HRemove 0] else []), [TAdded 0 7; TInvoke 0 7; TRemoved 0].
  split; [reflexivity|vm_compute; reflexivity].
Qed.
Print Assumptions C15_self_removal_refuted.
Example C15_case : exists o s o' s', h_run [OAct (HAdd 7); OAct (HAdd 8); OAct (HAdd 9); OAct (HRemove 1); OAct (HRemove 5)] hs_init = HDone o s /\
  h_pass 10 0 (fun _ c => if c =? 7 then [HAdd 4; HRemove 2] else []) None s = HDone o' s' /\ few (o ++ o') /\ invoked o' = [0; 3].
Proof. do 4 eexists. split; [reflexivity|]. split; [reflexivity|]. split; vm_compute; reflexivity. Qed.

(** * C53 *)
Theorem C53_keys_distinct_partial : forall a b k, DescriptorKey.clean a = true -> DescriptorKey.clean b = true ->
  DescriptorKey.to_key a = Some k -> DescriptorKey.to_key b = Some k -> DescriptorKey.same_service a b.
Proof. exact DescriptorKey.to_key_inj. Qed.
Print Assumptions C53_keys_distinct_partial.
Section C53.
Import Coq.Strings.String.
Local Open Scope string_scope.
Definition ca := DescriptorKey.mkSD "P" DescriptorKey.Controller "a/b" "" "c" (Some "CanController").
Definition cb := DescriptorKey.mkSD "P" DescriptorKey.Controller "a" "" "b/c" (Some "CanController").
Definition cc := DescriptorKey.mkSD "P" DescriptorKey.Controller "a" "" "c" (Some "CanController").
End C53.
(** Two controllers on different networks with the same key: the second one is never announced to anyone. *)
Theorem C53_keys_collide_refuted : exists a b, DescriptorKey.to_key a = DescriptorKey.to_key b /\
  DescriptorKey.to_key a <> None /\ DescriptorKey.sd_network a <> DescriptorKey.sd_network b.
Proof. exists ca, cb. split; [reflexivity|]. split; discriminate. Qed.
Print Assumptions C53_keys_collide_refuted.
Example C53_case : DescriptorKey.clean cc = true /\ DescriptorKey.to_key cc <> None.
Proof. split; [reflexivity|discriminate]. Qed.
