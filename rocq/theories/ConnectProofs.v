(** Invariants of the connection of a participant to the known participants. *)
From Coq Require Import List Arith Bool Lia.
From Verif Require Import Base ConnectModel.
Import ListNotations.

Definition all_replied (s : st) : Prop := forall i, i < k_n s -> k_peer s i = PReplied.
Definition all_waiting (s : st) : Prop := forall i, i < k_n s -> at_least_waiting (k_peer s i) = true.
Definition some_failed (s : st) : Prop := exists i, i < k_n s /\ k_peer s i = PFailure.

Lemma pstage_eqb_eq : forall a b, pstage_eqb a b = true <-> a = b.
Proof. intros a b; destruct a, b; cbn; split; intros; try reflexivity; discriminate. Qed.
Lemma cstage_eqb_eq : forall a b, cstage_eqb a b = true <-> a = b.
Proof. intros a b; destruct a, b; cbn; split; intros; try reflexivity; discriminate. Qed.

(** Where a thread is with its next UpdateStage. *)
Definition upos_pc (u : upos) : upc := match u with TUpd p => p | _ => U0 end.
Definition iopos_pc (i : iopos) : upc := match i with IIdle => UDone | IAct _ => U0 | IUpd p => p end.

Definition late (p : upc) : bool :=
  match p with U6 | UReplies _ | UStoreAll | UCallAll | UCallWaiting => true | _ => false end.
Definition reading (p : upc) : bool :=
  match p with UReplies _ | UStoreAll | UCallAll => true | _ => false end.
Definition pc_ok (s : st) (p : upc) : Prop :=
  match p with
  | UStoreFail | UCallFail => some_failed s
  | UReplies k => forall i, i < k -> i < k_n s -> k_peer s i = PReplied
  | UStoreAll | UCallAll => all_replied s
  | _ => True
  end.

(** Invariant of the stages, the log and two positions [p], [q] inside of UpdateStage. *)
Record G (s : st) (p q : upc) : Prop := {
  g_stage : k_stage s <> CInvalid;
  g_reply : forall i, k_peer s i = PReplied -> In (LReply i) (k_log s);
  g_all : forall a b, k_log s = a ++ LAll :: b -> forall i, i < k_n s -> In (LReply i) a;
  g_allrep : In LAll (k_log s) -> all_replied s;
  g_fail : In LFail (k_log s) -> some_failed s;
  g_sall : k_stage s = CAll -> all_replied s;
  g_sfail : k_stage s = CFail -> some_failed s;
  g_pc : pc_ok s p /\ pc_ok s q;
  g_call : k_stage s = CAll -> In LAll (k_log s) \/ p = UCallAll \/ q = UCallAll;
  g_cfail : k_stage s = CFail -> In LFail (k_log s) \/ p = UCallFail \/ q = UCallFail;
  g_late : late p = true \/ late q = true -> k_stage s <> CConnecting;
  g_live : all_replied s -> ~ In LAll (k_log s) -> p <> UDone \/ q <> UDone;
  g_cwait : k_stage s = CWaiting \/ k_stage s = CAll ->
     In LWaiting (k_log s) \/ p = UCallWaiting \/ q = UCallWaiting;
  g_reading : reading p = true \/ reading q = true ->
     In LWaiting (k_log s) \/ p = UCallWaiting \/ q = UCallWaiting;
  g_lwait : all_waiting s -> ~ In LWaiting (k_log s) -> p <> UDone \/ q <> UDone;
  g_done1 : k_done s = Some true -> In LAll (k_log s);
  g_done2 : k_done s = Some false -> In LFail (k_log s);
  g_done3 : k_done s = None -> ~ In LAll (k_log s) /\ ~ In LFail (k_log s);
  g_wait1 : k_wait s = Some true -> In LWaiting (k_log s);
  g_wait2 : k_wait s = Some false -> In LFail (k_log s);
  g_wait3 : k_wait s = None -> ~ In LWaiting (k_log s) /\ ~ In LFail (k_log s) }.

Lemma G_sym : forall s p q, G s p q -> G s q p.
Proof. intros s p q []; constructor; auto; try tauto; intros; intuition. Qed.

Lemma fail_not_all : forall s, some_failed s -> all_replied s -> False.
Proof. intros s (i & Hi & E) H. rewrite (H i Hi) in E. discriminate. Qed.
Lemma fail_not_waiting : forall s, some_failed s -> all_waiting s -> False.
Proof. intros s (i & Hi & E) H. specialize (H i Hi). rewrite E in H. discriminate. Qed.
Lemma all_all_waiting : forall s, all_replied s -> all_waiting s.
Proof. intros s H i Hi. rewrite (H i Hi). reflexivity. Qed.

Lemma snoc_mid : forall {A} (l : list A) x a e b, l ++ [x] = a ++ e :: b -> e <> x ->
  exists b', l = a ++ e :: b'.
Proof.
  intros A l x a e b H Hne. destruct (exists_last (l := e :: b)) as (b' & y & E); [discriminate|].
  rewrite E, app_assoc in H. apply app_inj_tail in H. destruct H as [H ->].
  destruct b' as [|z b'].
  - destruct b; [|destruct b; discriminate]. injection E as ->. contradiction.
  - injection E as -> E. exists b'. exact H.
Qed.
Lemma snoc_last : forall {A} (l : list A) x a e b, l ++ [x] = a ++ e :: b ->
  (exists b', l = a ++ e :: b') \/ l = a.
Proof.
  intros A l x a e b H. destruct (exists_last (l := e :: b)) as (b' & y & E); [discriminate|].
  rewrite E, app_assoc in H. apply app_inj_tail in H. destruct H as [H ->].
  destruct b' as [|z b'].
  - right. rewrite app_nil_r in H. exact H.
  - left. injection E as -> E. exists b'. exact H.
Qed.

(** A step inside of UpdateStage keeps the invariant. *)
Ltac gsolve :=
  solve [ assumption | discriminate | tauto
        | intros; cbn in *; try discriminate; try tauto; intuition (try discriminate; try congruence) ].

(** Only the position changes. *)
Lemma G_move : forall s p q p', G s p q ->
  pc_ok s p' ->
  (p = UCallAll -> k_stage s = CAll -> In LAll (k_log s) \/ p' = UCallAll) ->
  (p = UCallFail -> k_stage s = CFail -> In LFail (k_log s) \/ p' = UCallFail) ->
  (p = UCallWaiting -> In LWaiting (k_log s) \/ p' = UCallWaiting) ->
  (late p' = true -> k_stage s <> CConnecting) ->
  (reading p' = true -> reading p = true \/ In LWaiting (k_log s) \/ q = UCallWaiting) ->
  (p' = UDone -> all_replied s -> ~ In LAll (k_log s) -> q <> UDone) ->
  (p' = UDone -> all_waiting s -> ~ In LWaiting (k_log s) -> q <> UDone) ->
  G s p' q.
Proof.
  intros s p q p' HG Hpc H1 H2 H3 H4 H5 H6 H7.
  destruct HG as [a1 a2 a3 a4 a5 a6 a7 a8 a9 a10 a11 a12 a13 a14 a15 b1 b2 b3 b4 b5 b6].
  constructor; auto.
  - tauto.
  - intros Hs. destruct (a9 Hs) as [H|[H|H]]; auto. destruct (H1 H Hs); auto.
  - intros Hs. destruct (a10 Hs) as [H|[H|H]]; auto. destruct (H2 H Hs); auto.
  - intros [H|H]; auto.
  - intros Ha Hn. destruct p'; try (left; discriminate); right; apply H6; auto.
  - intros Hs. destruct (a13 Hs) as [H|[H|H]]; auto. destruct (H3 H); auto.
  - intros [H|H].
    + destruct (H5 H) as [Hr|[Hr|Hr]]; auto. destruct (a14 (or_introl Hr)) as [Hx|[Hx|Hx]]; auto.
      destruct (H3 Hx); auto.
    + destruct (a14 (or_intror H)) as [Hx|[Hx|Hx]]; auto. destruct (H3 Hx); auto.
  - intros Ha Hn. destruct p'; try (left; discriminate); right; apply H7; auto.
Qed.

Lemma in_snoc : forall {A} (l : list A) x y, In x (l ++ [y]) <-> In x l \/ y = x.
Proof. intros; rewrite in_app_iff; cbn; tauto. Qed.

Lemma once_true : forall b o, set_once b o = Some true -> o = Some true \/ (o = None /\ b = true).
Proof. intros b [[]|]; cbn; intros H; try discriminate; auto. injection H as ->; auto. Qed.
Lemma once_false : forall b o, set_once b o = Some false -> o = Some false \/ (o = None /\ b = false).
Proof. intros b [[]|]; cbn; intros H; try discriminate; auto. injection H as ->; auto. Qed.
Lemma once_none : forall b o, set_once b o <> None.
Proof. intros b [|]; cbn; discriminate. Qed.

Lemma ustep_G : forall p s q, G s p q -> G (fst (ustep p s)) (snd (ustep p s)) q.
Proof.
  intros p s q HG. pose proof HG as HG0.
  destruct HG as [a1 a2 a3 a4 a5 a6 a7 a8 a9 a10 a11 a12 a13 a14 a15 b1 b2 b3 b4 b5 b6].
  destruct p; cbn [ustep fst snd].
  - (* U0 *) destruct (cstage_eqb (k_stage s) CInvalid) eqn:E.
    { apply cstage_eqb_eq in E. contradiction. }
    eapply G_move; eauto; gsolve.
  - (* U1 *) destruct (cstage_eqb (k_stage s) CAll) eqn:E; [|eapply G_move; eauto; gsolve].
    apply cstage_eqb_eq in E. eapply G_move; eauto; [gsolve..| |].
    + intros _ _ Hn. destruct (a9 E) as [H|[H|H]]; [contradiction|discriminate|subst q; discriminate].
    + intros _ _ Hn. destruct (a13 (or_intror E)) as [H|[H|H]]; [contradiction|discriminate|subst q; discriminate].
  - (* U2 *) destruct (cstage_eqb (k_stage s) CFail) eqn:E; [|eapply G_move; eauto; gsolve].
    apply cstage_eqb_eq in E. eapply G_move; eauto; [gsolve..| |].
    + intros _ Ha _. exfalso. apply (fail_not_all s); auto.
    + intros _ Ha _. exfalso. apply (fail_not_waiting s); auto.
  - (* UFailed *) destruct (k <? k_n s) eqn:Ek; [|eapply G_move; eauto; gsolve].
    apply Nat.ltb_lt in Ek. destruct (pstage_eqb (k_peer s k) PFailure) eqn:E; [|eapply G_move; eauto; gsolve].
    apply pstage_eqb_eq in E. eapply G_move; eauto; try gsolve. exists k; auto.
  - (* UStoreFail *) destruct a8 as [a8 a8'].
    constructor; cbn; auto; try gsolve.
  - (* UCallFail *) destruct a8 as [a8 a8'].
    constructor; cbn [on_fail set_done set_wait add_log k_stage k_log k_peer k_n k_done k_wait]; auto.
    + intros i Hi. apply in_snoc. left; auto.
    + intros a b E. destruct (snoc_mid _ _ _ _ _ E) as [b' E']; [discriminate|]. apply (a3 a b' E').
    + intros H. apply in_snoc in H. destruct H as [H|H]; [|discriminate]. apply (a4 H).
    + split; [exact I|exact a8'].
    + intros Hs. destruct (a9 Hs) as [H|[H|H]]; [left; apply in_snoc; auto|discriminate|auto].
    + intros Hs. left. apply in_snoc; auto.
    + intros Ha _. exfalso. apply (fail_not_all s); auto.
    + intros Hs. destruct (a13 Hs) as [H|[H|H]]; [left; apply in_snoc; auto|discriminate|auto].
    + intros [H|H]; [discriminate|]. destruct (a14 (or_intror H)) as [Hx|[Hx|Hx]]; [left; apply in_snoc; auto|discriminate|auto].
    + intros Ha _. exfalso. apply (fail_not_waiting s); auto.
    + intros H. apply once_true in H. apply in_snoc. destruct H as [H|[_ H]]; [auto|discriminate].
    + intros H. apply in_snoc; auto.
    + intros H. exfalso; revert H; apply once_none.
    + intros H. apply once_true in H. apply in_snoc. destruct H as [H|[_ H]]; [auto|discriminate].
    + intros H. apply in_snoc; auto.
    + intros H. exfalso; revert H; apply once_none.
  - (* U4 *) destruct (cstage_eqb (k_stage s) CConnecting) eqn:E; eapply G_move; eauto; try gsolve.
    intros _ Hc. apply cstage_eqb_eq in Hc. congruence.
  - (* UWaitings *) destruct (k <? k_n s) eqn:Ek; [|eapply G_move; eauto; gsolve].
    apply Nat.ltb_lt in Ek. destruct (at_least_waiting (k_peer s k)) eqn:E; [eapply G_move; eauto; gsolve|].
    eapply G_move; eauto; [gsolve..| |].
    + intros _ Ha _. rewrite (Ha k Ek) in E. discriminate.
    + intros _ Ha _. rewrite (Ha k Ek) in E. discriminate.
  - (* UStoreWaiting *) destruct a8 as [a8 a8'].
    constructor; cbn; auto; try gsolve.
  - (* UCallWaiting *) destruct a8 as [a8 a8'].
    constructor; cbn [on_waiting set_wait add_log k_stage k_log k_peer k_n k_done k_wait]; auto.
    + intros i Hi. apply in_snoc. left; auto.
    + intros a b E. destruct (snoc_mid _ _ _ _ _ E) as [b' E']; [discriminate|]. apply (a3 a b' E').
    + intros H. apply in_snoc in H. destruct H as [H|H]; [|discriminate]. apply (a4 H).
    + intros H. apply in_snoc in H. destruct H as [H|H]; [|discriminate]. apply (a5 H).
    + intros Hs. destruct (a9 Hs) as [H|[H|H]]; [left; apply in_snoc; auto|discriminate|auto].
    + intros Hs. destruct (a10 Hs) as [H|[H|H]]; [left; apply in_snoc; auto|discriminate|auto].
    + intros _ _. left; discriminate.
    + intros _. left. apply in_snoc; auto.
    + intros _. left. apply in_snoc; auto.
    + intros _ _. left; discriminate.
    + intros H. apply in_snoc; auto.
    + intros H. apply in_snoc; auto.
    + intros H. destruct (b3 H) as [Hx Hy]. split; intros Hc; apply in_snoc in Hc; destruct Hc; try discriminate; auto.
    + intros H. apply in_snoc; auto.
    + intros H. apply in_snoc. apply once_false in H. destruct H as [H|[_ H]]; [auto|discriminate].
    + intros H. exfalso; revert H; apply once_none.
  - (* U6 *) destruct (cstage_eqb (k_stage s) CWaiting) eqn:E.
    + apply cstage_eqb_eq in E. eapply G_move; eauto; try gsolve.
      cbn. intros; lia.
    + assert (Hst : k_stage s = CAll \/ k_stage s = CFail).
      { specialize (a11 (or_introl eq_refl)). destruct (k_stage s); cbn in E; try discriminate; auto; contradiction. }
      eapply G_move; eauto; [gsolve..| |].
      * intros _ Ha Hn. destruct Hst as [Hst|Hst].
        -- destruct (a9 Hst) as [H|[H|H]]; [contradiction|discriminate|subst q; discriminate].
        -- exfalso. apply (fail_not_all s); auto.
      * intros _ Ha Hn. destruct Hst as [Hst|Hst].
        -- destruct (a13 (or_intror Hst)) as [H|[H|H]]; [contradiction|discriminate|subst q; discriminate].
        -- exfalso. apply (fail_not_waiting s); auto.
  - (* UReplies *) destruct a8 as [a8 a8'].
    destruct (k <? k_n s) eqn:Ek.
    + apply Nat.ltb_lt in Ek. destruct (pstage_eqb (k_peer s k) PReplied) eqn:E.
      * apply pstage_eqb_eq in E. eapply G_move; eauto; try gsolve.
        cbn. cbn in a8. intros i Hi Hn. destruct (Nat.eq_dec i k) as [->|]; [exact E|]. apply a8; lia.
      * eapply G_move; eauto; [gsolve..| |].
        -- intros _ Ha _. rewrite (Ha k Ek) in E. discriminate.
        -- intros _ Ha Hn. destruct (a14 (or_introl eq_refl)) as [H|[H|H]]; [contradiction|discriminate|subst q; discriminate].
    + apply Nat.ltb_ge in Ek. eapply G_move; eauto; try gsolve.
      cbn. intros i Hi. cbn in a8. apply a8; lia.
  - (* UStoreAll *) destruct a8 as [a8 a8'].
    constructor; cbn; auto; try gsolve.
  - (* UCallAll *) destruct a8 as [a8 a8'].
    constructor; cbn [on_all set_done add_log k_stage k_log k_peer k_n k_done k_wait]; auto.
    + intros i Hi. apply in_snoc. left; auto.
    + intros a b E i Hi. destruct (snoc_last _ _ _ _ _ E) as [[b' E']|E'].
      * apply (a3 a b' E' i Hi).
      * rewrite <- E'. apply a2. apply a8. exact Hi.
    + intros H. apply in_snoc in H. destruct H as [H|H]; [|discriminate]. apply (a5 H).
    + split; [exact I|exact a8'].
    + intros Hs. left. apply in_snoc; auto.
    + intros Hs. destruct (a10 Hs) as [H|[H|H]]; [left; apply in_snoc; auto|discriminate|auto].
    + intros _ Hn. exfalso. apply Hn, in_snoc; auto.
    + intros Hs. destruct (a13 Hs) as [H|[H|H]]; [left; apply in_snoc; auto|discriminate|auto].
    + intros [H|H]; [discriminate|]. destruct (a14 (or_intror H)) as [Hx|[Hx|Hx]]; [left; apply in_snoc; auto|discriminate|auto].
    + intros Ha Hn. right. destruct (a14 (or_introl eq_refl)) as [H|[H|H]].
      * exfalso. apply Hn, in_snoc; auto.
      * discriminate.
      * subst q; discriminate.
    + intros H. apply in_snoc; auto.
    + intros H. apply in_snoc. apply once_false in H. destruct H as [H|[_ H]]; [auto|discriminate].
    + intros H. exfalso; revert H; apply once_none.
    + intros H. apply in_snoc; auto.
    + intros H. apply in_snoc; auto.
    + intros H. destruct (b6 H) as [Hx Hy]. split; intros Hc; apply in_snoc in Hc; destruct Hc; try discriminate; auto.
  - (* UDone *) exact HG0.
Qed.

Definition terminal (x : pstage) : bool := match x with PFailure | PReplied => true | _ => false end.

Lemma upd_same : forall {A} i (x : A) f, upd i x f i = x.
Proof. intros; unfold upd; rewrite Nat.eqb_refl; reflexivity. Qed.
Lemma upd_other : forall {A} i (x : A) f k, k <> i -> upd i x f k = f k.
Proof. intros; unfold upd. destruct (Nat.eqb_spec k i); [contradiction|reflexivity]. Qed.

Lemma all_replied_peer : forall s i x, terminal (k_peer s i) = false -> i < k_n s ->
  all_replied s -> all_replied (set_peer i x s).
Proof. intros s i x Ht Hi H. specialize (H i Hi). rewrite H in Ht. discriminate. Qed.
Lemma some_failed_peer : forall s i x, terminal (k_peer s i) = false ->
  some_failed s -> some_failed (set_peer i x s).
Proof.
  intros s i x Ht (j & Hj & E). exists j. cbn. split; [exact Hj|]. rewrite upd_other; [exact E|].
  intros ->. rewrite E in Ht. discriminate.
Qed.

Lemma pc_ok_peer : forall s i x p, terminal (k_peer s i) = false -> i < k_n s ->
  pc_ok s p -> pc_ok (set_peer i x s) p.
Proof.
  intros s i x p Ht Hi H. destruct p; cbn in *; auto using some_failed_peer, all_replied_peer.
  intros j Hj Hn. rewrite upd_other; auto. intros ->. rewrite (H i Hj Hn) in Ht. discriminate.
Qed.

(** A peer which has not yet failed or replied changes its stage. *)
Lemma G_peer : forall s q i x, G s U0 q -> terminal (k_peer s i) = false -> i < k_n s ->
  (x = PReplied -> In (LReply i) (k_log s)) -> G (set_peer i x s) U0 q.
Proof.
  intros s q i x HG Ht Hi Hx.
  destruct HG as [a1 a2 a3 a4 a5 a6 a7 a8 a9 a10 a11 a12 a13 a14 a15 b1 b2 b3 b4 b5 b6].
  constructor; cbn [set_peer k_stage k_log k_peer k_n k_done k_wait]; auto.
  - intros j Hj. destruct (Nat.eq_dec j i) as [->|Hne].
    + rewrite upd_same in Hj. auto.
    + rewrite upd_other in Hj by exact Hne. auto.
  - intros H. apply all_replied_peer; auto.
  - intros H. apply some_failed_peer; auto.
  - intros H. apply all_replied_peer; auto.
  - intros H. apply some_failed_peer; auto.
  - split; [exact I|]. apply pc_ok_peer; tauto.
  - intros _ _. left; discriminate.
  - intros _ _. left; discriminate.
Qed.

(** Noting a reply. *)
Lemma G_note : forall s p q i, G s p q -> G (add_log (LReply i) s) p q.
Proof.
  intros s p q i HG.
  destruct HG as [a1 a2 a3 a4 a5 a6 a7 a8 a9 a10 a11 a12 a13 a14 a15 b1 b2 b3 b4 b5 b6].
  assert (Hin : forall e, (forall j, e <> LReply j) -> In e (k_log s ++ [LReply i]) <-> In e (k_log s)).
  { intros e He. rewrite in_snoc. split; [intros [H|H]; [exact H|]|auto]. exfalso. apply (He i). auto. }
  assert (HA := Hin LAll ltac:(discriminate)). assert (HF := Hin LFail ltac:(discriminate)).
  assert (HW := Hin LWaiting ltac:(discriminate)).
  constructor; cbn [add_log k_stage k_log k_peer k_n k_done k_wait]; rewrite ?HA, ?HF, ?HW; auto.
  - intros j Hj. apply in_snoc. auto.
  - intros a b E. destruct (snoc_mid _ _ _ _ _ E) as [b' E']; [discriminate|]. apply (a3 a b' E').
Qed.

(** Fields which the invariant does not mention. *)
Lemma G_irrel : forall s s' p q, k_n s' = k_n s -> k_stage s' = k_stage s -> k_peer s' = k_peer s ->
  k_log s' = k_log s -> k_wait s' = k_wait s -> k_done s' = k_done s -> G s p q -> G s' p q.
Proof.
  intros [n st pe co ti us io lg wa dn] [n' st' pe' co' ti' us' io' lg' wa' dn'] p q; cbn.
  intros -> -> -> -> -> -> H. destruct H; constructor; auto.
Qed.

(** What the I/O thread still has to do for a peer. *)
Fixpoint aok (s : st) (i : nat) (cur : pstage) (a : act) : Prop :=
  match a with
  | AUpdate => True
  | AStore j x a' =>
      j = i /\ terminal cur = false /\ cur <> PInvalid /\ x <> PInvalid /\ x <> PDirect /\
      (x = PReplied -> In (LReply i) (k_log s)) /\
      (x = PRequested -> k_timer s i = true \/ exists y a'', a' = AStore i y a'') /\
      aok s i x a'
  end.
Definition acting (s : st) (i : nat) : Prop := exists x a, k_io s = IAct (AStore i x a).

(** Where the I/O thread will still notice a failed peer. *)
Definition sees (s : st) (p : upc) : Prop :=
  match p with
  | U0 | U1 | U2 | UStoreFail | UCallFail => True
  | UFailed k => forall i, i < k -> i < k_n s -> k_peer s i <> PFailure
  | _ => False
  end.
Definition failing (p : upc) : Prop := p = UStoreFail \/ p = UCallFail.

Record Inv (s : st) : Prop := {
  i_bound : forall i, k_n s <= i -> k_peer s i = PInvalid;
  i_init : k_user s = TInit -> s = init (k_n s);
  i_start : forall k, k_user s = TStart k -> k <= k_n s /\ forall i, k <= i <-> k_peer s i = PInvalid;
  i_valid : forall p, k_user s = TUpd p -> forall i, i < k_n s -> k_peer s i <> PInvalid;
  i_conn : forall i, k_conn s i = true -> k_peer s i = PDirect;
  i_act : forall i x a, k_io s = IAct (AStore i x a) ->
     i < k_n s /\ aok s i (k_peer s i) (AStore i x a) /\ k_conn s i = false;
  i_direct : forall i, k_peer s i = PDirect -> k_conn s i = true \/ acting s i;
  i_requested : forall i, k_peer s i = PRequested -> k_timer s i = true \/ acting s i;
  i_G : k_user s <> TInit -> G s (upos_pc (k_user s)) (iopos_pc (k_io s));
  i_sees : some_failed s -> ~ In LFail (k_log s) ->
     sees s (iopos_pc (k_io s)) \/ failing (upos_pc (k_user s)) }.

Lemma inv_init : forall n, Inv (init n).
Proof.
  intros n. constructor; cbn; try discriminate; auto; try congruence.
  intros (i & _ & E). discriminate.
Qed.

Lemma ustep_frame : forall p s, let s' := fst (ustep p s) in
  k_n s' = k_n s /\ k_peer s' = k_peer s /\ k_conn s' = k_conn s /\ k_timer s' = k_timer s /\
  k_user s' = k_user s /\ k_io s' = k_io s /\ (forall e, In e (k_log s) -> In e (k_log s')).
Proof.
  intros p s s'; subst s'. destruct p; cbn; repeat split; auto; intros e He; apply in_or_app; auto.
Qed.

Lemma aok_log : forall s s' i a cur, k_timer s' = k_timer s -> (forall e, In e (k_log s) -> In e (k_log s')) ->
  aok s i cur a -> aok s' i cur a.
Proof.
  intros s s' i a. induction a as [j x a IH|]; intros cur Ht Hl H; cbn in *; [|exact I].
  rewrite Ht. intuition.
Qed.

Lemma set_user_eta : forall s p, k_user s = p -> set_user p s = s.
Proof. intros [] p; cbn; intros ->; reflexivity. Qed.

Lemma sees_ustep : forall s p q, G s q p ->
  (some_failed s -> ~ In LFail (k_log s) -> sees s p \/ failing q) ->
  let s' := fst (ustep p s) in
  some_failed s' -> ~ In LFail (k_log s') -> sees s' (snd (ustep p s)) \/ failing q.
Proof.
  intros s p q HG H s' Hf Hl. subst s'.
  assert (Hfr := ustep_frame p s). cbv zeta in Hfr. destruct Hfr as (En & Ep & _ & _ & _ & _ & Hlog).
  assert (Hf0 : some_failed s). { destruct Hf as (i & Hi & E). exists i. rewrite En in Hi. rewrite Ep in E. auto. }
  assert (Hl0 : ~ In LFail (k_log s)) by auto.
  specialize (H Hf0 Hl0). destruct H as [H|H]; [|right; exact H].
  destruct p; cbn [sees] in H; try contradiction; cbn [ustep fst snd] in *.
  - left. destruct (cstage_eqb (k_stage s) CInvalid) eqn:E; cbn; auto.
    apply cstage_eqb_eq in E. exfalso. apply (g_stage _ _ _ HG); auto.
  - left. destruct (cstage_eqb (k_stage s) CAll) eqn:E; cbn; auto.
    apply cstage_eqb_eq in E. exfalso. apply (fail_not_all s); auto. apply (g_sall _ _ _ HG); auto.
  - destruct (cstage_eqb (k_stage s) CFail) eqn:E; cbn; [|left; intros; lia].
    apply cstage_eqb_eq in E. destruct (g_cfail _ _ _ HG E) as [Hx|[Hx|Hx]]; [contradiction| |discriminate].
    right. right. exact Hx.
  - left. destruct (k <? k_n s) eqn:Ek.
    + destruct (pstage_eqb (k_peer s k) PFailure) eqn:E; cbn; auto.
      intros i Hi Hn. destruct (Nat.eq_dec i k) as [->|]; [|apply H; lia].
      intros Hc. apply pstage_eqb_eq in Hc. congruence.
    + apply Nat.ltb_ge in Ek. destruct Hf0 as (i & Hi & E). exfalso. apply (H i); auto; lia.
  - left. exact I.
  - exfalso. apply Hl. cbn. apply in_snoc; auto.
Qed.

Lemma inv_user : forall s, Inv s -> Inv (user_step s).
Proof.
  intros s HI. unfold user_step. destruct (k_user s) as [|k|p] eqn:Eu.
  - (* StartConnecting begins *)
    pose proof (i_init _ HI Eu) as Es. rewrite Es. set (n := k_n s). cbn.
    constructor; cbn; try discriminate; auto; try congruence.
    + intros k E. injection E as <-. split; [lia|]. intros i; split; intros; [reflexivity|lia].
    + intros _. constructor; cbn; try discriminate; try tauto; auto.
      * intros a b E. destruct a; discriminate.
      * intros [H|H]; discriminate.
      * intros _ _. left; discriminate.
      * intros [H|H]; discriminate.
      * intros [H|H]; discriminate.
      * intros _ _. left; discriminate.
    + intros (i & _ & E). discriminate.
  - destruct (i_start _ HI k Eu) as [Hk HP].
    assert (HG := i_G _ HI). rewrite Eu in HG. specialize (HG ltac:(discriminate)). cbn [upos_pc] in HG.
    destruct (k <? k_n s) eqn:Ek.
    + (* the next connection attempt *)
      apply Nat.ltb_lt in Ek.
      assert (Hk0 : k_peer s k = PInvalid) by (apply HP; lia).
      constructor; cbn [set_user set_conn set_peer k_n k_user k_peer k_conn k_timer k_io k_log].
      * intros i Hi. rewrite upd_other by lia. apply (i_bound _ HI); exact Hi.
      * discriminate.
      * intros k' E. injection E as <-. split; [lia|]. intros i.
        destruct (Nat.eq_dec i k) as [->|Hne]; [rewrite upd_same; split; [lia|discriminate]|].
        rewrite upd_other by lia. rewrite <- HP; lia.
      * discriminate.
      * intros i. destruct (Nat.eq_dec i k) as [->|Hne]; [rewrite !upd_same; auto|].
        rewrite !upd_other by exact Hne. apply (i_conn _ HI).
      * intros i x a E. destruct (i_act _ HI i x a E) as (Hi & Ha & Hc).
        destruct (Nat.eq_dec i k) as [->|Hne]; [exfalso; cbn in Ha; rewrite Hk0 in Ha; tauto|].
        rewrite !upd_other by exact Hne. split; [exact Hi|]. split; [|exact Hc].
        eapply aok_log; [| |exact Ha]; auto.
      * intros i Hi. destruct (Nat.eq_dec i k) as [->|Hne]; [left; apply upd_same|].
        rewrite upd_other in Hi by exact Hne. rewrite upd_other by exact Hne. apply (i_direct _ HI); exact Hi.
      * intros i Hi. destruct (Nat.eq_dec i k) as [->|Hne]; [rewrite upd_same in Hi; discriminate|].
        rewrite upd_other in Hi by exact Hne. apply (i_requested _ HI); exact Hi.
      * intros _. cbn [upos_pc].
        apply (G_irrel (set_peer k PDirect s)); try reflexivity.
        apply G_peer; auto; [rewrite Hk0; reflexivity|discriminate].
      * intros (i & Hi & E) Hl. cbn in Hi, E.
        destruct (Nat.eq_dec i k) as [->|Hne]; [rewrite upd_same in E; discriminate|].
        rewrite upd_other in E by exact Hne.
        destruct (i_sees _ HI) as [H|H]; [exists i; auto|exact Hl| |rewrite Eu in H; destruct H; discriminate].
        left. destruct (iopos_pc (k_io s)); cbn in *; auto.
        intros j Hj Hn. destruct (Nat.eq_dec j k) as [->|Hne']; [rewrite upd_same; discriminate|].
        rewrite upd_other by exact Hne'. auto.
    + (* UpdateStage begins *)
      apply Nat.ltb_ge in Ek. assert (Ekn : k = k_n s) by lia.
      destruct HI. constructor; cbn [set_user k_n k_user k_peer k_conn k_timer k_io k_log]; auto; try discriminate.
      * intros p _ i Hi Hc. apply HP in Hc. lia.
      * intros i x a E. destruct (i_act0 i x a E) as (Hi & Ha & Hc). split; [exact Hi|]. split; [|exact Hc].
        eapply (aok_log s); [reflexivity|auto|exact Ha].
      * intros _. cbn. apply (G_irrel s); auto.
      * intros Hf Hl. destruct i_sees0 as [H|H]; auto. rewrite Eu in H. destruct H; discriminate.
  - (* UpdateStage *)
    assert (HG := i_G _ HI). rewrite Eu in HG. specialize (HG ltac:(discriminate)). cbn [upos_pc] in HG.
    pose proof (ustep_G _ _ _ HG) as HG'.
    assert (Hfr := ustep_frame p s). cbv zeta in Hfr.
    destruct (ustep p s) as [s' p'] eqn:Es. cbn [fst snd] in *.
    destruct Hfr as (En & Ep & Ec & Et & Euu & Ei & Hl).
    constructor; cbn [set_user k_n k_user k_peer k_conn k_timer k_io k_log]; rewrite ?En, ?Ep, ?Ec, ?Et, ?Ei.
    + apply (i_bound _ HI).
    + discriminate.
    + discriminate.
    + intros p0 _. apply (i_valid _ HI p Eu).
    + apply (i_conn _ HI).
    + intros i x a E. destruct (i_act _ HI i x a E) as (Hi & Ha & Hc). split; [exact Hi|]. split; [|exact Hc].
      eapply aok_log; [exact Et|exact Hl|exact Ha].
    + intros i Hi. unfold acting. cbn. rewrite Ei. apply (i_direct _ HI i Hi).
    + intros i Hi. unfold acting. cbn. rewrite Ei. apply (i_requested _ HI i Hi).
    + intros _. cbn [upos_pc]. apply (G_irrel s'); auto.
    + intros Hf Hn. unfold some_failed in Hf. cbn [set_user k_n k_peer] in Hf. rewrite En, Ep in Hf.
      destruct (i_sees _ HI) as [H|H]; [exact Hf|auto| |].
      * left. destruct (iopos_pc (k_io s)); cbn in *; auto. rewrite En, Ep. exact H.
      * rewrite Eu in H. cbn in H. destruct H as [->| ->]; cbn in Es; injection Es as <- <-.
        -- right; right; reflexivity.
        -- exfalso. apply Hn. cbn. apply in_snoc; auto.
Qed.

Lemma inv_io : forall s, Inv s -> Inv (io_step s).
Proof.
  intros s HI. unfold io_step. destruct (k_io s) as [|[i x a|]|p] eqn:Eio.
  - exact HI.
  - (* a peer changes its stage *)
    destruct (i_act _ HI i x a Eio) as (Hi & Ha & Hc). cbn [aok] in Ha.
    destruct Ha as (_ & Ht & Hv & Hx1 & Hx2 & Hx3 & Hx4 & Ha).
    assert (Hu : k_user s <> TInit).
    { intros E. pose proof (i_init _ HI E) as Es. rewrite Es in Eio. discriminate. }
    assert (HG := i_G _ HI Hu). rewrite Eio in HG. cbn [iopos_pc] in HG.
    constructor; cbn [set_iopos set_peer k_n k_user k_peer k_conn k_timer k_io k_log].
    + intros j Hj. rewrite upd_other by lia. apply (i_bound _ HI); exact Hj.
    + intros E. contradiction.
    + intros k E. destruct (i_start _ HI k E) as [Hk HP]. split; [exact Hk|]. intros j.
      destruct (Nat.eq_dec j i) as [->|Hne].
      * rewrite upd_same. rewrite HP. tauto.
      * rewrite upd_other by exact Hne. apply HP.
    + intros p E j Hj. destruct (Nat.eq_dec j i) as [->|Hne]; [rewrite upd_same; exact Hx1|].
      rewrite upd_other by exact Hne. apply (i_valid _ HI p E j Hj).
    + intros j Hj. destruct (Nat.eq_dec j i) as [->|Hne]; [congruence|].
      rewrite upd_other by exact Hne. apply (i_conn _ HI j Hj).
    + intros j y a' E. injection E as ->. cbn [aok] in Ha. pose proof Ha as Ha0. destruct Ha as [-> Ha].
      rewrite upd_same. split; [exact Hi|]. split; [|exact Hc].
      eapply (aok_log s); [reflexivity|auto|]. exact Ha0.
    + intros j Hj. destruct (Nat.eq_dec j i) as [->|Hne]; [rewrite upd_same in Hj; congruence|].
      rewrite upd_other in Hj by exact Hne. destruct (i_direct _ HI j Hj) as [H|(y & a' & H)]; [left; exact H|].
      rewrite Eio in H. injection H as -> _ _. contradiction.
    + intros j Hj. destruct (Nat.eq_dec j i) as [->|Hne].
      * rewrite upd_same in Hj. destruct (Hx4 Hj) as [H|(y & a'' & ->)]; [left; exact H|].
        right. exists y, a''. reflexivity.
      * rewrite upd_other in Hj by exact Hne. destruct (i_requested _ HI j Hj) as [H|(y & a' & H)]; [left; exact H|].
        rewrite Eio in H. injection H as -> _ _. contradiction.
    + intros _. cbn [iopos_pc]. apply G_sym. apply (G_irrel (set_peer i x s)); try reflexivity.
      apply G_peer; auto. apply G_sym. exact HG.
    + intros _ _. left. exact I.
  - (* UpdateStage begins *)
    destruct HI. constructor; cbn [set_iopos k_n k_user k_peer k_conn k_timer k_io k_log]; auto; try discriminate.
    + intros E. rewrite (i_init0 E) in Eio. discriminate.
    + intros j Hj. destruct (i_direct0 j Hj) as [H|(y & a' & H)]; [left; exact H|]. congruence.
    + intros j Hj. destruct (i_requested0 j Hj) as [H|(y & a' & H)]; [left; exact H|]. congruence.
    + intros Hu. specialize (i_G0 Hu). rewrite Eio in i_G0. apply (G_irrel s); auto.
    + intros _ _. left. exact I.
  - (* UpdateStage *)
    assert (Hu : k_user s <> TInit).
    { intros E. pose proof (i_init _ HI E) as Es. rewrite Es in Eio. discriminate. }
    assert (HG := i_G _ HI Hu). rewrite Eio in HG. cbn [iopos_pc] in HG.
    assert (Hna : forall j, ~ acting s j) by (intros j (y & a & H); congruence).
    assert (Hd : p = UDone \/ p <> UDone) by (destruct p; auto; right; discriminate).
    destruct Hd as [->|Hd].
    + destruct HI. constructor; cbn [set_iopos k_n k_user k_peer k_conn k_timer k_io k_log]; auto; try discriminate.
      * intros E. contradiction.
      * intros j Hj. destruct (i_direct0 j Hj) as [H|H]; [left; exact H|]. apply Hna in H; contradiction.
      * intros j Hj. destruct (i_requested0 j Hj) as [H|H]; [left; exact H|]. apply Hna in H; contradiction.
      * intros _. apply (G_irrel s); auto.
      * intros Hf Hl. rewrite Eio in i_sees0. destruct (i_sees0 Hf Hl) as [H|H]; auto.
    + apply G_sym in HG. pose proof (ustep_G _ _ _ HG) as HG'. apply G_sym in HG.
      assert (Hfr := ustep_frame p s). cbv zeta in Hfr.
      assert (Hse := sees_ustep s p (upos_pc (k_user s)) HG). cbv zeta in Hse.
      replace (match p with
               | UDone => set_iopos IIdle s
               | _ => let '(s', p') := ustep p s in set_iopos (IUpd p') s' end)
        with (let '(s', p') := ustep p s in set_iopos (IUpd p') s') by (destruct p; auto; contradiction).
      destruct (ustep p s) as [s' p'] eqn:Es. cbn [fst snd] in *.
      destruct Hfr as (En & Ep & Ec & Et & Euu & Ei & Hl).
      constructor; cbn [set_iopos k_n k_user k_peer k_conn k_timer k_io k_log]; rewrite ?En, ?Ep, ?Ec, ?Et, ?Euu.
      * apply (i_bound _ HI).
      * intros E. contradiction.
      * apply (i_start _ HI).
      * apply (i_valid _ HI).
      * apply (i_conn _ HI).
      * discriminate.
      * intros j Hj. destruct (i_direct _ HI j Hj) as [H|H]; [left; exact H|]. apply Hna in H; contradiction.
      * intros j Hj. destruct (i_requested _ HI j Hj) as [H|H]; [left; exact H|]. apply Hna in H; contradiction.
      * intros _. cbn [iopos_pc]. apply G_sym. apply (G_irrel s'); auto.
      * intros Hf Hn. cbn [iopos_pc]. apply Hse; auto.
        intros H1 H2. assert (H3 := i_sees _ HI H1 H2). rewrite Eio in H3. exact H3.
Qed.

Lemma inv_note : forall s i, Inv s -> k_user s <> TInit -> Inv (add_log (LReply i) s).
Proof.
  intros s i HI Hu. destruct HI. constructor; cbn [add_log k_n k_user k_peer k_conn k_timer k_io k_log]; auto.
  - intros E; contradiction.
  - intros j x a E. destruct (i_act0 j x a E) as (Hi & Ha & Hc). split; [exact Hi|]. split; [|exact Hc].
    eapply (aok_log s); [reflexivity| |exact Ha]. intros e He. apply in_or_app; auto.
  - intros H. apply G_note. apply i_G0; exact H.
  - intros Hf Hl. destruct (i_sees0 Hf) as [H|H]; auto. intros Hx. apply Hl. apply in_or_app; auto.
Qed.

(** The I/O thread, which is idle, begins with a peer. *)
Lemma inv_begin : forall s s' i x a, Inv s -> k_user s <> TInit -> k_io s = IIdle ->
  k_n s' = k_n s -> k_stage s' = k_stage s -> k_peer s' = k_peer s -> k_log s' = k_log s ->
  k_wait s' = k_wait s -> k_done s' = k_done s -> k_user s' = k_user s ->
  (forall j, j <> i -> k_conn s' j = k_conn s j) -> (forall j, j <> i -> k_timer s' j = k_timer s j) ->
  i < k_n s -> k_conn s' i = false ->
  aok s' i (k_peer s i) (AStore i x a) ->
  Inv (set_iopos (IAct (AStore i x a)) s').
Proof.
  intros s s' i x a HI Hu Hid En Es Ep El Ew Ed Eu Hc Ht Hi Hci Ha.
  assert (HG := i_G _ HI Hu). rewrite Hid in HG. cbn [iopos_pc] in HG.
  constructor; cbn [set_iopos k_n k_user k_peer k_conn k_timer k_io k_log]; rewrite ?En, ?Ep, ?Eu, ?El.
  - apply (i_bound _ HI).
  - intros E; contradiction.
  - apply (i_start _ HI).
  - apply (i_valid _ HI).
  - intros j Hj. destruct (Nat.eq_dec j i) as [->|Hne]; [congruence|]. rewrite Hc in Hj by exact Hne.
    apply (i_conn _ HI j Hj).
  - intros j y a' E. injection E as <- <- <-. split; [exact Hi|]. split; [|exact Hci].
    eapply (aok_log s'); [reflexivity|auto|exact Ha].
  - intros j Hj. destruct (Nat.eq_dec j i) as [->|Hne]; [right; exists x, a; reflexivity|].
    rewrite Hc by exact Hne. destruct (i_direct _ HI j Hj) as [H|(y & a' & H)]; [auto|congruence].
  - intros j Hj. destruct (Nat.eq_dec j i) as [->|Hne]; [right; exists x, a; reflexivity|].
    rewrite Ht by exact Hne. destruct (i_requested _ HI j Hj) as [H|(y & a' & H)]; [auto|congruence].
  - intros _. cbn [iopos_pc]. apply G_sym. apply (G_irrel s); auto. apply G_sym in HG.
    eapply G_move; [exact HG|..]; try discriminate; try exact I.
  - intros _ _. left. exact I.
Qed.

Lemma inv_event : forall s e, Inv s -> Inv (io_event e s).
Proof.
  intros s e HI. unfold io_event.
  assert (Hcase : k_user s = TInit \/ k_user s <> TInit) by (destruct (k_user s); auto; right; discriminate).
  destruct Hcase as [Hu|Hu]; [rewrite Hu; destruct (k_io s); exact HI|].
  destruct (k_io s) eqn:Eio; [|destruct (k_user s); exact HI|destruct (k_user s); exact HI].
  assert (HI1 : Inv (note_reply e s)) by (destruct e; cbn; auto using inv_note).
  assert (Hu1 : k_user (note_reply e s) <> TInit) by (destruct e; exact Hu).
  assert (Hio1 : k_io (note_reply e s) = IIdle) by (destruct e; exact Eio).
  assert (Hrep : forall i, e = EvReply i -> In (LReply i) (k_log (note_reply e s))).
  { intros i ->. cbn. apply in_snoc; auto. }
  set (s1 := note_reply e s) in *. clearbody s1.
  replace (match k_user s with
    | TInit => s
    | _ => match io_begin e s1 with Some (s2, a) => set_iopos (IAct a) s2 | None => s1 end end)
    with (match io_begin e s1 with Some (s2, a) => set_iopos (IAct a) s2 | None => s1 end)
    by (destruct (k_user s); auto; contradiction).
  clear HI Hu Eio s.
  assert (Hlt : forall i, k_peer s1 i <> PInvalid -> i < k_n s1).
  { intros i Hi. destruct (Nat.lt_ge_cases i (k_n s1)); auto. exfalso. apply Hi. apply (i_bound _ HI1); auto. }
  assert (Hnc : forall i, k_peer s1 i <> PDirect -> k_conn s1 i = false).
  { intros i Hi. destruct (k_conn s1 i) eqn:E; auto. exfalso. apply Hi. apply (i_conn _ HI1); auto. }
  destruct e as [i|i remote proxy|i proxy|i|i proxy|i|i]; cbn [io_begin].
  - destruct (k_conn s1 i) eqn:E; [|exact HI1]. pose proof (i_conn _ HI1 i E) as Ep.
    eapply (inv_begin s1); try reflexivity; auto.
    + intros j Hj. cbn. apply upd_other; exact Hj.
    + apply Hlt. congruence.
    + cbn. apply upd_same.
    + cbn. rewrite Ep. cbn. repeat split; auto; discriminate.
  - destruct (k_conn s1 i) eqn:E; [|exact HI1]. pose proof (i_conn _ HI1 i E) as Ep.
    eapply (inv_begin s1); try (destruct remote; reflexivity); auto.
    + intros j Hj. destruct remote; cbn; apply upd_other; exact Hj.
    + intros j Hj. destruct remote; cbn; [apply upd_other; exact Hj|reflexivity].
    + apply Hlt. congruence.
    + destruct remote; cbn; apply upd_same.
    + rewrite Ep. destruct remote, proxy; cbn; repeat split; try discriminate; auto; intros _;
        first [left; apply upd_same | right; do 2 eexists; reflexivity].
  - destruct (k_timer s1 i); [|exact HI1].
    destruct (pstage_eqb (k_peer s1 i) PRequested) eqn:E; [|exact HI1]. apply pstage_eqb_eq in E.
    eapply (inv_begin s1); try reflexivity; auto.
    + intros j Hj. cbn. apply upd_other; exact Hj.
    + apply Hlt. congruence.
    + cbn. apply Hnc. congruence.
    + rewrite E. destruct proxy; cbn; repeat split; try discriminate; auto.
  - destruct ((i <? k_n s1) && pstage_eqb (k_peer s1 i) PRequested) eqn:E; [|exact HI1].
    apply andb_prop in E. destruct E as [_ E]. apply pstage_eqb_eq in E.
    eapply (inv_begin s1); try reflexivity; auto.
    + apply Hlt. congruence.
    + apply Hnc. congruence.
    + rewrite E. cbn; repeat split; try discriminate; auto.
  - destruct ((i <? k_n s1) && _) eqn:E; [|exact HI1].
    apply andb_prop in E. destruct E as [_ E]. apply orb_prop in E. rewrite !pstage_eqb_eq in E.
    eapply (inv_begin s1); try reflexivity; auto.
    + apply Hlt. destruct E; congruence.
    + apply Hnc. destruct E; congruence.
    + destruct E as [E|E]; rewrite E; destruct proxy; cbn; repeat split; try discriminate; auto.
  - destruct ((i <? k_n s1) && _) eqn:E; [|exact HI1].
    apply andb_prop in E. destruct E as [_ E]. apply orb_prop in E. rewrite !pstage_eqb_eq in E.
    eapply (inv_begin s1); try reflexivity; auto.
    + apply Hlt. destruct E; congruence.
    + apply Hnc. destruct E; congruence.
    + destruct E as [E|E]; rewrite E; cbn; repeat split; try discriminate; auto.
  - destruct ((i <? k_n s1) && pstage_eqb (k_peer s1 i) PWaiting) eqn:E; [|exact HI1].
    apply andb_prop in E. destruct E as [_ E]. apply pstage_eqb_eq in E.
    eapply (inv_begin s1); try reflexivity; auto.
    + apply Hlt. congruence.
    + apply Hnc. congruence.
    + rewrite E. cbn; repeat split; try discriminate; auto.
Qed.

Lemma inv_step : forall s x, Inv s -> Inv (step s x).
Proof. intros s [| |e] H; cbn; auto using inv_user, inv_io, inv_event. Qed.

Lemma inv_run : forall n xs, Inv (run n xs).
Proof.
  intros n xs. unfold run. assert (H := inv_init n). revert H. generalize (init n).
  induction xs as [|x xs IH]; intros s H; cbn; auto. apply IH, inv_step, H.
Qed.

Lemma step_n : forall s x, k_n (step s x) = k_n s.
Proof.
  intros s [| |e]; cbn [step].
  - unfold user_step. destruct (k_user s); auto.
    + destruct (k <? k_n s); reflexivity.
    + pose proof (ustep_frame p s) as H. cbv zeta in H. destruct (ustep p s); cbn in *; tauto.
  - unfold io_step. destruct (k_io s) as [|[]|p]; auto.
    pose proof (ustep_frame p s) as H. cbv zeta in H. destruct p; auto; destruct (ustep _ s); cbn in *; tauto.
  - unfold io_event. destruct (k_io s), (k_user s); auto;
      (destruct (io_begin e (note_reply e s)) as [[s2 a]|] eqn:E; [|destruct e; reflexivity]);
      destruct e; cbn in *; repeat match type of E with (if ?c then _ else _) = _ => destruct c end;
      try discriminate; injection E as <- <-; try reflexivity; destruct remote; reflexivity.
Qed.
Lemma run_n : forall n xs, k_n (run n xs) = n.
Proof.
  intros n xs. unfold run. change n with (k_n (init n)) at 2. generalize (init n).
  induction xs as [|x xs IH]; intros s; cbn; auto. rewrite IH. apply step_n.
Qed.

(** ---- Only one thread at a time ---- *)
Definition ev_eqb (a b : ev) : bool :=
  match a, b with
  | LReply i, LReply j => i =? j
  | LWaiting, LWaiting | LAll, LAll | LFail, LFail => true
  | _, _ => false
  end.
Definition times (e : ev) (l : list ev) : nat := length (filter (ev_eqb e) l).

Lemma times_snoc : forall e l x, times e (l ++ [x]) = times e l + (if ev_eqb e x then 1 else 0).
Proof. intros e l x. unfold times. rewrite filter_app, app_length. cbn. destruct (ev_eqb e x); reflexivity. Qed.

Global Arguments times : simpl never.

Record SQ (s : st) (p : upc) : Prop := {
  q_stage : match p with
            | U0 | U1 | UDone => k_stage s <> CInvalid
            | U2 => k_stage s <> CInvalid /\ k_stage s <> CAll
            | UFailed _ | UStoreFail | U4 => k_stage s = CConnecting \/ k_stage s = CWaiting
            | UCallFail => k_stage s = CFail
            | UWaitings _ | UStoreWaiting => k_stage s = CConnecting
            | UCallWaiting | U6 | UReplies _ | UStoreAll => k_stage s = CWaiting
            | UCallAll => k_stage s = CAll
            end;
  q_all : times LAll (k_log s) = match k_stage s, p with CAll, UCallAll => 0 | CAll, _ => 1 | _, _ => 0 end;
  q_fail : times LFail (k_log s) = match k_stage s, p with CFail, UCallFail => 0 | CFail, _ => 1 | _, _ => 0 end;
  q_wait : times LWaiting (k_log s) <= match k_stage s, p with CConnecting, _ => 0 | CWaiting, UCallWaiting => 0 | _, _ => 1 end }.

Lemma SQ_ustep : forall s p, SQ s p -> SQ (fst (ustep p s)) (snd (ustep p s)).
Proof.
  intros s p [H1 H2 H3 H4].
  destruct s as [n sg pe co ti us io lg wa dn]. cbn in *.
  destruct p; cbn;
    repeat match goal with
    | |- context[if ?c then _ else _] => destruct c eqn:?
    end;
    (destruct sg; cbn in *; try discriminate; try tauto; try (destruct H1; discriminate));
    constructor; cbn; rewrite ?times_snoc; cbn; try (rewrite Nat.add_0_r); auto; try lia; try discriminate; try (split; discriminate).
Qed.

Lemma SQ_irrel : forall s s' p, k_stage s' = k_stage s -> k_log s' = k_log s -> SQ s p -> SQ s' p.
Proof. intros s s' p E1 E2 [H1 H2 H3 H4]. constructor; rewrite ?E1, ?E2; auto. Qed.

Lemma SQ_restart : forall s, SQ s UDone -> SQ s U0.
Proof. intros s [H1 H2 H3 H4]. constructor; auto. Qed.
Lemma SQ_note : forall s p i, SQ s p -> SQ (add_log (LReply i) s) p.
Proof. intros s p i [H1 H2 H3 H4]. constructor; cbn; rewrite ?times_snoc; cbn; rewrite ?Nat.add_0_r; auto. Qed.

Lemma SQ_user : forall n m, let s := run n (repeat SUser m) in
  k_io s = IIdle /\ (k_user s = TInit -> s = init n) /\ (k_user s <> TInit -> SQ s (upos_pc (k_user s))).
Proof.
  intros n m. cbv zeta. induction m as [|m (IH1 & IH2 & IH3)].
  - cbn. split; [reflexivity|]. split; [reflexivity|]. intros H; contradiction.
  - replace (S m) with (m + 1) by lia. rewrite repeat_app. unfold run in *. rewrite fold_left_app.
    set (s := fold_left step (repeat SUser m) (init n)) in *. cbn [repeat fold_left step]. unfold user_step.
    destruct (k_user s) as [|k|p] eqn:Eu.
    + rewrite IH2 by reflexivity. cbn. split; [reflexivity|]. split; [discriminate|].
      intros _. constructor; cbn; auto. discriminate.
    + specialize (IH3 ltac:(discriminate)). cbn in IH3.
      destruct (k <? k_n s); cbn; (split; [exact IH1|]); (split; [discriminate|]); intros _;
        apply (SQ_irrel s); auto.
    + specialize (IH3 ltac:(discriminate)). cbn in IH3. pose proof (SQ_ustep _ _ IH3) as H.
      pose proof (ustep_frame p s) as Hf. cbv zeta in Hf.
      destruct (ustep p s) as [s' p']. cbn in *. split; [|split; [discriminate|]].
      * destruct Hf as (_ & _ & _ & _ & _ & -> & _). exact IH1.
      * intros _. apply (SQ_irrel s'); auto.
Qed.

Lemma SQ_io : forall s x, k_user s = TUpd UDone -> SQ s (iopos_pc (k_io s)) ->
  k_user (step s x) = TUpd UDone /\ SQ (step s x) (iopos_pc (k_io (step s x))).
Proof.
  intros s x Hu HS. destruct x as [| |e]; cbn [step].
  - unfold user_step. rewrite Hu. cbn. split; [reflexivity|]. apply (SQ_irrel s); auto.
  - unfold io_step. destruct (k_io s) as [|[i y a|]|p] eqn:Ei.
    + rewrite Ei. auto.
    + cbn. split; [exact Hu|]. apply (SQ_irrel s); auto.
    + cbn. split; [exact Hu|]. apply (SQ_irrel s); auto.
    + cbn in HS. pose proof (SQ_ustep _ _ HS) as H. pose proof (ustep_frame p s) as Hf. cbv zeta in Hf.
      destruct Hf as (_ & _ & _ & _ & Hu' & _ & _).
      destruct p; try solve [destruct (ustep _ s) as [s1 p1]; cbn in *; split; [congruence|]; apply (SQ_irrel s1); auto].
      cbn. split; [exact Hu|]. apply (SQ_irrel s); auto.
  - unfold io_event. rewrite Hu. destruct (k_io s) eqn:Ei; try (rewrite Ei; auto).
    assert (HN : SQ (note_reply e s) UDone) by (destruct e; cbn; auto using SQ_note).
    assert (HNu : k_user (note_reply e s) = TUpd UDone) by (destruct e; exact Hu).
    assert (HNi : k_io (note_reply e s) = IIdle) by (destruct e; exact Ei).
    set (s1 := note_reply e s) in *. clearbody s1.
    destruct (io_begin e s1) as [[s2 a]|] eqn:Eb; [|rewrite HNi; auto].
    assert (Hx : k_stage s2 = k_stage s1 /\ k_log s2 = k_log s1 /\ k_user s2 = k_user s1).
    { destruct e; cbn in Eb; repeat match type of Eb with (if ?c then _ else _) = _ => destruct c end;
        try discriminate; injection Eb as <- <-; auto; destruct remote; auto. }
    destruct Hx as (Hx1 & Hx2 & Hx3). cbn. split; [congruence|]. apply SQ_restart. apply (SQ_irrel s1); auto.
Qed.

Lemma SQ_run : forall n m ys, k_user (run n (repeat SUser m)) = TUpd UDone ->
  let s := run n (repeat SUser m ++ ys) in k_user s = TUpd UDone /\ SQ s (iopos_pc (k_io s)).
Proof.
  intros n m ys Hu. cbv zeta. destruct (SQ_user n m) as (H1 & _ & H3). rewrite Hu in H3.
  specialize (H3 ltac:(discriminate)). cbn in H3. unfold run in *. rewrite fold_left_app.
  set (s := fold_left step (repeat SUser m) (init n)) in *. clearbody s.
  assert (HS : SQ s (iopos_pc (k_io s))) by (rewrite H1; exact H3). clear H1 H3.
  revert s Hu HS. induction ys as [|y ys IH]; intros s Hu HS; cbn; auto.
  destruct (SQ_io s y Hu HS). apply IH; auto.
Qed.
