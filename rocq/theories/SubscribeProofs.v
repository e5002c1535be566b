(** Proofs about SubscribeModel.v. *)
From Coq Require Import List Arith Bool Lia.
From Verif Require Import Base SubscribeModel.
Import ListNotations.

Lemma mem_In : forall x l, mem x l = true <-> In x l.
Proof.
  intros x l. unfold mem. rewrite existsb_exists. split.
  - intros (y & H & E). apply Nat.eqb_eq in E. subst. exact H.
  - intros H. exists x. split; [exact H|apply Nat.eqb_refl].
Qed.
Lemma mem_false : forall x l, mem x l = false <-> ~ In x l.
Proof. intros x l. rewrite <- mem_In. destruct (mem x l); split; intros; congruence. Qed.
Lemma run_snoc : forall ops o, run (ops ++ [o]) = step (run ops) o.
Proof. intros. unfold run. rewrite fold_left_app. reflexivity. Qed.

Lemma app_split : forall {A} (l : list A) e a x b, l ++ [e] = a ++ x :: b ->
  (a = l /\ x = e /\ b = []) \/ (exists b', b = b' ++ [e] /\ l = a ++ x :: b').
Proof.
  intros A l e a x b H. destruct (exists_last (l := x :: b)) as (m & y & E); [discriminate|].
  rewrite E, app_assoc in H. apply app_inj_tail in H. destruct H as [H <-].
  destruct m as [|z m]; cbn in E.
  - injection E as -> ->. left. rewrite app_nil_r in H. auto.
  - injection E as -> ->. right. exists m. auto.
Qed.

Definition AllTruth (T : list ev -> ev -> Prop) (l : list ev) : Prop :=
  forall a e b, l = a ++ e :: b -> T a e.
Lemma truth_snoc : forall T l e, AllTruth T l -> T l e -> AllTruth T (l ++ [e]).
Proof.
  intros T l e H1 H2 a x b E. apply app_split in E. destruct E as [(-> & -> & ->)|(b' & -> & ->)]; auto.
  eapply H1; reflexivity.
Qed.

(** New receivers. *)
Lemma news_spec : forall ks seen n,
  (forall k i, In (k, i) (news seen n ks) -> In k ks /\ ~ In k seen /\ n <= i < n + length (news seen n ks)) /\
  (forall k, In k ks -> In k seen \/ exists i, In (k, i) (news seen n ks)) /\
  NoDup (map snd (news seen n ks)).
Proof.
  induction ks as [|k ks IH]; intros seen n; cbn [news].
  { cbn. repeat split; try contradiction. constructor. }
  destruct (mem k seen) eqn:Em.
  - apply mem_In in Em. destruct (IH seen n) as (H1 & H2 & H3). split; [|split; auto].
    + intros k' i H. destruct (H1 k' i H) as (E1 & E2 & E3). split; [right; exact E1|]. auto.
    + intros k' [->|H]; auto.
  - apply mem_false in Em. destruct (IH (k :: seen) (S n)) as (H1 & H2 & H3). split; [|split].
    + intros k' i [H|H]; cbn [length].
      * injection H as <- <-. split; [left; reflexivity|]. split; auto. lia.
      * destruct (H1 k' i H) as (E1 & E2 & E3). split; [right; exact E1|]. split; [|lia].
        intros Hs. apply E2. right. exact Hs.
    + intros k' [<-|H].
      * right. exists n. left. reflexivity.
      * destruct (H2 k' H) as [[<-|Hs]|(i & Hi)]; auto.
        -- right. exists n. left. reflexivity.
        -- right. exists i. right. exact Hi.
    + cbn [map snd]. apply NoDup_cons; auto. intros H. apply in_map_iff in H. destruct H as ([k' i] & E & H).
      cbn in E. subst i. destruct (H1 _ _ H) as (_ & _ & E). lia.
Qed.

Lemma peqb_eq : forall a b, peqb a b = true <-> a = b.
Proof.
  intros [a1 a2] [b1 b2]. unfold peqb. cbn. rewrite andb_true_iff, !Nat.eqb_eq. split; [intros [-> ->]; auto|intros H; injection H as -> ->; auto].
Qed.
Lemma remove1_in : forall x y l, In y l -> In y (remove1 x l) \/ y = x.
Proof.
  intros x y l. induction l as [|z l IH]; cbn; [tauto|]. intros [->|H].
  - destruct (peqb y x) eqn:E; [apply peqb_eq in E; auto|left; left; reflexivity].
  - destruct (peqb z x) eqn:E; auto. destruct (IH H); auto. left; right; auto.
Qed.
Lemma remove1_sub : forall x y l, In y (remove1 x l) -> In y l.
Proof.
  intros x y l. induction l as [|z l IH]; cbn; auto. destruct (peqb z x); cbn; tauto.
Qed.
Lemma after_true : forall l m, after_removal l m = true -> m = [].
Proof. intros l m. unfold after_removal. rewrite andb_true_iff. intros [_ H]. destruct m; [auto|discriminate]. Qed.
Lemma after_nonempty : forall l m, after_removal l m = true -> l <> [].
Proof. intros l m H E. pose proof (after_true _ _ H). subst. discriminate. Qed.
Lemma after_false : forall l m, after_removal l m = false -> l <> [] -> m <> [].
Proof.
  intros l m H Hl E. subst. unfold after_removal in H. cbn in H. rewrite andb_true_r in H.
  apply negb_false_iff, Nat.eqb_eq in H. destruct l; [congruence|discriminate].
Qed.

(** What the operations do to the fields. *)
Lemma sync_completed_core : forall s, let s' := sync_completed s in
  s_used s' = s_used s /\ s_peers s' = s_peers s /\ s_seen s' = s_seen s /\ s_next s' = s_next s /\
  s_sync s' = s_sync s /\ s_async s' = s_async s /\ s_hs s' = s_hs s /\ s_pc s' = s_pc s /\ s_read s' = s_read s /\
  s_flag s' = s_flag s /\ s_jobs s' = s_jobs s /\ s_cur s' = s_cur s /\ s_broken s' = s_broken s /\ s_nreq s' = s_nreq s.
Proof. intros s. unfold sync_completed. destruct (mem _ _); cbn; repeat split. Qed.

Definition same_core (s s' : st) : Prop :=
  s_used s' = s_used s /\ s_peers s' = s_peers s /\ s_seen s' = s_seen s /\ s_next s' = s_next s /\
  s_sync s' = s_sync s /\ s_async s' = s_async s /\ s_hs s' = s_hs s /\ s_pc s' = s_pc s /\ s_read s' = s_read s.

(** The invariant holding for all executions. *)
Definition Settled (l : list ev) (p i : nat) : Prop := In (EAck p i) l \/ In (ELeave p) l.
Definition Truth (a : list ev) (e : ev) : Prop :=
  match e with
  | EStart b r ks ps ns =>
      (forall p, In p ps <-> In (EJoin p) a /\ ~ In (ELeave p) a) /\
      (forall k, In k ks -> (exists b' r' ks' ps' ns' i, In (EStart b' r' ks' ps' ns') a /\ In (k, i) ns') \/
                            exists i, In (k, i) ns) /\
      (forall k i, In (k, i) ns -> In k ks /\
         forall b' r' ks' ps' ns' k' i', In (EStart b' r' ks' ps' ns') a -> In (k', i') ns' -> k' <> k /\ i' <> i) /\
      NoDup (map snd ns)
  | EInvoke h now =>
      In (EAsk h) a /\ (forall y, ~ In (EInvoke h y) a) /\
      (now = false -> forall a1 a2 r ks ps ns, a = a1 ++ EStart true r ks ps ns :: a2 ->
         forall p k i, In p ps -> In (k, i) ns -> Settled a2 p i)
  | _ => True
  end.

Record U (s : st) : Prop := {
  u_peers : forall p, In p (s_peers s) <-> In (EJoin p) (s_log s) /\ ~ In (ELeave p) (s_log s);
  u_used : forall p, In (EJoin p) (s_log s) \/ In (ELeave p) (s_log s) -> In p (s_used s);
  u_seen : forall k, In k (s_seen s) <-> exists b r ks ps ns i, In (EStart b r ks ps ns) (s_log s) /\ In (k, i) ns;
  u_next : forall b r ks ps ns k i, In (EStart b r ks ps ns) (s_log s) -> In (k, i) ns -> i < s_next s;
  u_pend : forall a c b r ks ps ns, s_log s = a ++ EStart b r ks ps ns :: c -> forall p k i, In p ps -> In (k, i) ns ->
    In (p, i) (if b then s_async s else s_sync s) \/ Settled c p i;
  u_pc : s_pc s = PInvoke -> s_async s = [];
  u_nodup : NoDup (s_hs s ++ s_read s);
  u_asked : forall h, In h (s_hs s ++ s_read s) -> In (EAsk h) (s_log s);
  u_inv : forall h x, In (EInvoke h x) (s_log s) -> In (EAsk h) (s_log s) /\ ~ In h (s_read s) /\
    (In h (s_hs s) -> s_pc s = PClear);
  u_truth : AllTruth Truth (s_log s) }.

Definition neutral (e : ev) : bool :=
  match e with EReq _ _ | EReturn _ | EAssert | EReqA _ _ | EDone _ | EError => true | _ => false end.

Lemma in_snoc_neq : forall (l : list ev) e x, x <> e -> In x (l ++ [e]) -> In x l.
Proof. intros l e x H Hin. apply in_app_or in Hin. destruct Hin as [|[->|[]]]; congruence. Qed.
Lemma in_snoc : forall (l : list ev) e x, In x l -> In x (l ++ [e]).
Proof. intros. apply in_or_app. auto. Qed.
Lemma settled_snoc : forall l e p i, Settled l p i -> Settled (l ++ [e]) p i.
Proof. intros l e p i [H|H]; [left|right]; apply in_snoc; auto. Qed.

Lemma U_neutral : forall s s' e, neutral e = true -> same_core s s' -> s_log s' = s_log s ++ [e] -> U s -> U s'.
Proof.
  intros s s' e Hn (E1 & E2 & E3 & E4 & E5 & E6 & E7 & E8 & E9) El [].
  constructor; rewrite ?E1, ?E2, ?E3, ?E4, ?E5, ?E6, ?E7, ?E8, ?E9, ?El; auto.
  - intros p. rewrite u_peers0. rewrite !in_app_iff. cbn. destruct e; try discriminate; intuition congruence.
  - intros p H. apply u_used0. rewrite !in_app_iff in H. cbn in H. destruct e; try discriminate; intuition congruence.
  - intros k. rewrite u_seen0. split; intros (b & r & ks & ps & ns & i & H & Hi).
    + exists b, r, ks, ps, ns, i. split; auto. apply in_snoc; auto.
    + exists b, r, ks, ps, ns, i. split; auto. eapply in_snoc_neq; eauto. intros <-. discriminate.
  - intros b r ks ps ns k i H. apply (u_next0 b r ks ps ns). eapply in_snoc_neq; eauto. intros <-. discriminate.
  - intros a c b r ks ps ns E p k i Hp Hk. apply app_split in E. destruct E as [(-> & <- & ->)|(c' & -> & E)]; [discriminate|].
    destruct (u_pend0 _ _ _ _ _ _ _ E p k i Hp Hk) as [H|H]; [left; exact H|right; apply settled_snoc; auto].
  - intros h H. apply in_snoc. auto.
  - intros h x H. apply in_snoc_neq in H; [|intros <-; discriminate]. destruct (u_inv0 _ _ H) as (H1 & H2 & H3).
    split; [apply in_snoc; auto|]. split; auto.
  - apply truth_snoc; auto. destruct e; try discriminate; exact I.
Qed.
Lemma U_same : forall s s', same_core s s' -> s_log s' = s_log s -> U s -> U s'.
Proof.
  intros s s' (E1 & E2 & E3 & E4 & E5 & E6 & E7 & E8 & E9) El [].
  constructor; rewrite ?E1, ?E2, ?E3, ?E4, ?E5, ?E6, ?E7, ?E8, ?E9, ?El; auto.
Qed.
Lemma U_sync_completed : forall s, U s -> U (sync_completed s).
Proof.
  intros s H. pose proof (sync_completed_core s) as Hc. cbv zeta in Hc.
  assert (E : exists e, neutral e = true /\ s_log (sync_completed s) = s_log s ++ [e]).
  { unfold sync_completed. destruct (mem _ _); cbn; [exists EError|exists (EDone (s_cur s))]; auto. }
  destruct E as (e & He & El). eapply U_neutral; eauto. unfold same_core. tauto.
Qed.
Lemma U_async_completed : forall s, U s -> s_async s = [] -> s_pc s <> PClear -> U (async_completed s).
Proof.
  intros s [] H H'. constructor; cbn; auto.
  intros h x Hi. destruct (u_inv0 _ _ Hi) as (H1 & H2 & H3). split; auto. split; auto. intros Hh. exfalso. auto.
Qed.

Lemma U_request_sync : forall s ks r s', request_sync ks s = Some (r, s') -> U s -> U s'.
Proof.
  intros s ks r s' H HU. unfold request_sync in H. destruct (s_sync s) eqn:E; [|discriminate]. injection H as <- <-.
  eapply U_neutral with (e := EReq (S (s_nreq s)) ks); eauto; [|reflexivity]. cbn. unfold same_core. cbn. rewrite ?E. tauto.
Qed.

(** Removing the pending acknowledges which event [e] settles. *)
Lemma U_remove : forall s f, U s -> s_pc s = PIdle ->
  (forall q i, In (q, i) (f (s_sync s)) -> In (q, i) (s_sync s)) ->
  (forall a c b r ks ps ns, s_log s = a ++ EStart b r ks ps ns :: c -> forall p k i, In p ps -> In (k, i) ns ->
    In (p, i) (f (if b then s_async s else s_sync s)) \/ Settled c p i) ->
  U (remove_pending f s).
Proof.
  intros s f HU Hpc _ Hf.
  assert (H1 : forall t, same_core (set_sync (f (s_sync s)) (set_async (f (s_async s)) s)) t -> s_log t = s_log s -> U t).
  { intros t (E1 & E2 & E3 & E4 & E5 & E6 & E7 & E8 & E9) El. cbn in *. destruct HU.
    constructor; rewrite ?E1, ?E2, ?E3, ?E4, ?E5, ?E6, ?E7, ?E8, ?E9, ?El; auto.
    - intros a c b r ks ps ns E p k i Hp Hk. pose proof (Hf _ _ _ _ _ _ _ E p k i Hp Hk). destruct b; auto.
    - congruence. }
  unfold remove_pending.
  set (s1 := set_sync (f (s_sync s)) s).
  set (s2 := if after_removal (s_sync s) (f (s_sync s)) then sync_completed s1 else s1).
  assert (Ea : s_async s2 = s_async s).
  { unfold s2. destruct (after_removal _ _); [|reflexivity]. apply (sync_completed_core s1). }
  rewrite Ea.
  assert (HU3 : U (set_async (f (s_async s)) s2)).
  { unfold s2. destruct (after_removal _ _).
    - assert (E : exists e, neutral e = true /\ s_log (sync_completed s1) = s_log s1 ++ [e]).
      { unfold sync_completed. destruct (mem _ _); cbn; [exists EError|exists (EDone (s_cur s))]; auto. }
      destruct E as (e & He & El).
      eapply U_neutral with (s := set_sync (f (s_sync s)) (set_async (f (s_async s)) s)) (e := e); auto.
      + pose proof (sync_completed_core s1) as Hc. cbv zeta in Hc. unfold same_core. unfold s1 in Hc. cbn in *. tauto.
      + apply H1; [|reflexivity]. unfold same_core. cbn. tauto.
    - apply H1; [|reflexivity]. unfold same_core. cbn. tauto. }
  destruct (after_removal (s_async s) (f (s_async s))) eqn:E; auto.
  apply U_async_completed; auto.
  - cbn. eapply after_true; eauto.
  - cbn. unfold s2. destruct (after_removal (s_sync s) _); [|cbn; congruence].
    destruct (sync_completed_core s1) as (_ & _ & _ & _ & _ & _ & _ & -> & _). cbn. congruence.
Qed.

Lemma U_ack : forall s p i, U s -> s_pc s = PIdle -> U (ack p i s).
Proof.
  intros s p i HU Hpc. unfold ack. destruct HU.
  assert (HU : U (out [EAck p i] s)).
  { constructor; cbn; auto.
    - intros q. rewrite u_peers0, !in_app_iff. cbn. intuition congruence.
    - intros q H. apply u_used0. rewrite !in_app_iff in H. cbn in H. intuition congruence.
    - intros k. rewrite u_seen0. split; intros (b & r & ks & ps & ns & j & H & Hi).
      + exists b, r, ks, ps, ns, j. split; auto. apply in_snoc; auto.
      + exists b, r, ks, ps, ns, j. split; auto. eapply in_snoc_neq; eauto. discriminate.
    - intros b r ks ps ns k j H. apply (u_next0 b r ks ps ns). eapply in_snoc_neq; eauto. discriminate.
    - intros a c b r ks ps ns E q k j Hp Hk. apply app_split in E. destruct E as [(-> & E & ->)|(c' & -> & E)]; [discriminate|].
      destruct (u_pend0 _ _ _ _ _ _ _ E q k j Hp Hk) as [H|H]; [left; exact H|right; apply settled_snoc; auto].
    - intros h H. apply in_snoc. auto.
    - intros h x H. apply in_snoc_neq in H; [|discriminate]. destruct (u_inv0 _ _ H) as (H1 & H2 & H3).
      split; [apply in_snoc; auto|]. split; auto.
    - apply truth_snoc; auto. exact I. }
  apply U_remove; auto.
  - intros q j. apply remove1_sub.
  - cbn. intros a c b r ks ps ns E q k j Hp Hk.
    pose proof (u_pend _ HU _ _ _ _ _ _ _ E q k j Hp Hk) as H. cbn in H. destruct H as [H|H]; auto.
    assert (Hs : In (q, j) (remove1 (p, i) (if b then s_async s else s_sync s)) \/ (q, j) = (p, i)) by (apply remove1_in; destruct b; auto).
    destruct Hs as [Hs|Hs]; [left; exact Hs|]. injection Hs as -> ->.
    apply app_split in E. destruct E as [(_ & E & _)|(c' & -> & E)]; [discriminate|].
    right. left. apply in_or_app. right. left. reflexivity.
Qed.

Lemma U_leave : forall s p, U s -> s_pc s = PIdle -> In p (s_peers s) -> U (leave p s).
Proof.
  intros s p HU Hpc Hp. unfold leave. destruct HU.
  set (s0 := out [ELeave p] (set_peers (s_used s) (filter (fun q => negb (q =? p)) (s_peers s)) s)).
  assert (HU : U s0).
  { unfold s0. constructor; cbn; auto.
    - intros q. rewrite filter_In, negb_true_iff, Nat.eqb_neq, u_peers0, !in_app_iff. cbn. intuition congruence.
    - intros q H. rewrite !in_app_iff in H. cbn in H.
      destruct H as [[H|[H|[]]]|[H|[H|[]]]]; try discriminate; try (apply u_used0; tauto).
      injection H as <-. apply u_used0. left. apply u_peers0. auto.
    - intros k. rewrite u_seen0. split; intros (b & r & ks & ps & ns & j & H & Hi).
      + exists b, r, ks, ps, ns, j. split; auto. apply in_snoc; auto.
      + exists b, r, ks, ps, ns, j. split; auto. eapply in_snoc_neq; eauto. discriminate.
    - intros b r ks ps ns k j H. apply (u_next0 b r ks ps ns). eapply in_snoc_neq; eauto. discriminate.
    - intros a c b r ks ps ns E q k j Hq Hk. apply app_split in E. destruct E as [(-> & E & ->)|(c' & -> & E)]; [discriminate|].
      destruct (u_pend0 _ _ _ _ _ _ _ E q k j Hq Hk) as [H|H]; [left; exact H|right; apply settled_snoc; auto].
    - intros h H. apply in_snoc. auto.
    - intros h x H. apply in_snoc_neq in H; [|discriminate]. destruct (u_inv0 _ _ H) as (H1 & H2 & H3).
      split; [apply in_snoc; auto|]. split; auto.
    - apply truth_snoc; auto. exact I. }
  apply U_remove; auto.
  - intros q j H. apply filter_In in H. tauto.
  - intros a c b r ks ps ns E q k j Hq Hk.
    destruct (u_pend _ HU _ _ _ _ _ _ _ E q k j Hq Hk) as [H|H]; auto.
    destruct (Nat.eqb_spec q p) as [->|Hne].
    + unfold s0 in E. cbn in E. apply app_split in E. destruct E as [(_ & E & _)|(c' & -> & E)]; [discriminate|].
      right. right. apply in_or_app. right. left. reflexivity.
    + left. destruct b; apply filter_In; (split; [exact H|]); cbn; apply negb_true_iff, Nat.eqb_neq; auto.
Qed.

Lemma in_add : forall p i (ps : list nat) (ns : list (nat * nat)),
  In (p, i) (flat_map (fun e => map (fun p => (p, snd e)) ps) ns) <-> In p ps /\ exists k, In (k, i) ns.
Proof.
  intros p i ps ns. rewrite in_flat_map. split.
  - intros ([k j] & H & Hi). apply in_map_iff in Hi. destruct Hi as (q & E & Hq). cbn in E. injection E as -> ->. eauto.
  - intros (Hp & k & Hk). exists (k, i). split; auto. apply in_map_iff. exists p. auto.
Qed.

Lemma U_register : forall s j, U s -> s_pc s = PIdle -> U (register j s).
Proof.
  intros s j HU Hpc. pose proof HU as HU0. destruct HU.
  set (ns := news (s_seen s) (s_next s) (j_keys j)).
  set (add := flat_map (fun e => map (fun p => (p, snd e)) (s_peers s)) ns).
  destruct (news_spec (j_keys j) (s_seen s) (s_next s)) as (N1 & N2 & N3). fold ns in N1, N2, N3.
  set (s1 := out [EStart (j_async j) (j_id j) (j_keys j) (s_peers s) ns]
              (set_seen (map fst ns ++ s_seen s) (s_next s + length ns) s)).
  assert (H : forall x y, x = s_sync s ++ (if j_async j then [] else add) -> y = s_async s ++ (if j_async j then add else []) ->
    U (set_sync x (set_async y s1))).
  { intros x y -> ->. unfold s1. constructor; cbn; auto.
    - intros q. rewrite u_peers0, !in_app_iff. cbn. intuition congruence.
    - intros q H. apply u_used0. rewrite !in_app_iff in H. cbn in H. intuition congruence.
    - intros k. rewrite in_app_iff, u_seen0. split.
      + intros [H|(b & r & ks & ps & ns' & i & H & Hi)].
        * apply in_map_iff in H. destruct H as ([k' i] & E & H). cbn in E. subst k'.
          exists (j_async j), (j_id j), (j_keys j), (s_peers s), ns, i. split; auto. apply in_or_app. right. left. reflexivity.
        * exists b, r, ks, ps, ns', i. split; auto. apply in_snoc; auto.
      + intros (b & r & ks & ps & ns' & i & H & Hi). apply in_app_or in H. destruct H as [H|[H|[]]].
        * right. exists b, r, ks, ps, ns', i. auto.
        * injection H as <- <- <- <- <-. left. apply in_map_iff. exists (k, i). auto.
    - intros b r ks ps ns' k i H Hi. apply in_app_or in H. destruct H as [H|[H|[]]].
      + pose proof (u_next0 _ _ _ _ _ _ _ H Hi). lia.
      + injection H as <- <- <- <- <-. apply N1 in Hi. lia.
    - intros a c b r ks ps ns' E p k i Hp Hk. apply app_split in E. destruct E as [(-> & E & ->)|(c' & -> & E)].
      + injection E as -> -> -> -> ->. left.
        assert (Hin : In (p, i) add) by (apply in_add; eauto).
        destruct (j_async j); apply in_or_app; auto.
      + destruct (u_pend0 _ _ _ _ _ _ _ E p k i Hp Hk) as [H|H]; [left|right; apply settled_snoc; auto].
        destruct b; apply in_or_app; auto.
    - congruence.
    - intros h H. apply in_snoc. auto.
    - intros h x H. apply in_snoc_neq in H; [|discriminate]. destruct (u_inv0 _ _ H) as (H1 & H2 & H3).
      split; [apply in_snoc; auto|]. split; auto.
    - apply truth_snoc; auto. cbn. split; [exact u_peers0|]. split; [|split].
      + intros k Hk. destruct (N2 k Hk) as [Hs|Hs]; [left|right; exact Hs]. apply u_seen0 in Hs.
        destruct Hs as (b & r & ks & ps & ns' & i & Hs). exists b, r, ks, ps, ns', i. exact Hs.
      + intros k i Hk. destruct (N1 k i Hk) as (E1 & E2 & E3). split; auto.
        intros b r ks ps ns' k' i' H Hi. split.
        * intros ->. apply E2, u_seen0. exists b, r, ks, ps, ns', i'. auto.
        * intros ->. pose proof (u_next0 _ _ _ _ _ _ _ H Hi). lia.
      + exact N3. }
  unfold register. fold ns. fold add. fold s1. destruct (j_async j) eqn:Ej.
  - specialize (H (s_sync s) (s_async s ++ add)). rewrite app_nil_r in H. specialize (H eq_refl eq_refl).
    assert (H' : U (set_async (s_async s ++ add) s1)) by (eapply U_same; [| |exact H]; [unfold same_core; cbn; tauto|reflexivity]).
    cbn [s_async set_async]. destruct (s_async s ++ add) eqn:Ea; auto. apply U_async_completed; auto. cbn. congruence.
  - specialize (H (s_sync s ++ add) (s_async s)). rewrite app_nil_r in H. specialize (H eq_refl eq_refl).
    assert (H' : U (set_sync (s_sync s ++ add) s1)) by (eapply U_same; [| |exact H]; [unfold same_core; cbn; tauto|reflexivity]).
    cbn [s_sync set_sync]. destruct (s_sync s ++ add) eqn:Ea; auto. apply U_sync_completed; auto.
Qed.

Lemma asked_In : forall h l, asked h l = true <-> In (EAsk h) l.
Proof.
  intros h l. unfold asked. rewrite existsb_exists. split.
  - intros (e & H & E). destruct e; try discriminate. apply Nat.eqb_eq in E. subst. exact H.
  - intros H. exists (EAsk h). split; auto. apply Nat.eqb_refl.
Qed.
Lemma asked_false : forall h l, asked h l = false <-> ~ In (EAsk h) l.
Proof. intros h l. rewrite <- asked_In. destruct (asked h l); split; intros; congruence. Qed.

Lemma U_ask : forall s h, U s -> ~ In (EAsk h) (s_log s) -> U (out [EAsk h] s).
Proof.
  intros s h [] Hn. constructor; cbn; auto.
  - intros q. rewrite u_peers0, !in_app_iff. cbn. intuition congruence.
  - intros q H. apply u_used0. rewrite !in_app_iff in H. cbn in H. intuition congruence.
  - intros k. rewrite u_seen0. split; intros (b & r & ks & ps & ns & j & H & Hi).
    + exists b, r, ks, ps, ns, j. split; auto. apply in_snoc; auto.
    + exists b, r, ks, ps, ns, j. split; auto. eapply in_snoc_neq; eauto. discriminate.
  - intros b r ks ps ns k j H. apply (u_next0 b r ks ps ns). eapply in_snoc_neq; eauto. discriminate.
  - intros a c b r ks ps ns E q k j Hp Hk. apply app_split in E. destruct E as [(-> & E & ->)|(c' & -> & E)]; [discriminate|].
    destruct (u_pend0 _ _ _ _ _ _ _ E q k j Hp Hk) as [H|H]; [left; exact H|right; apply settled_snoc; auto].
  - intros g H. apply in_snoc. auto.
  - intros g x H. apply in_snoc_neq in H; [|discriminate]. destruct (u_inv0 _ _ H) as (H1 & H2 & H3).
    split; [apply in_snoc; auto|]. split; auto.
  - apply truth_snoc; auto. exact I.
Qed.

Lemma U_invoke : forall s h x, U s -> In (EAsk h) (s_log s) -> (forall y, ~ In (EInvoke h y) (s_log s)) ->
  ~ In h (s_read s) -> (In h (s_hs s) -> s_pc s = PClear) -> (x = false -> s_async s = []) -> U (out [EInvoke h x] s).
Proof.
  intros s h x HU Hask Hn Hr Hh Hx. pose proof HU as HU0. destruct HU. constructor; cbn; auto.
  - intros q. rewrite u_peers0, !in_app_iff. cbn. intuition congruence.
  - intros q H. apply u_used0. rewrite !in_app_iff in H. cbn in H. intuition congruence.
  - intros k. rewrite u_seen0. split; intros (b & r & ks & ps & ns & j & H & Hi).
    + exists b, r, ks, ps, ns, j. split; auto. apply in_snoc; auto.
    + exists b, r, ks, ps, ns, j. split; auto. eapply in_snoc_neq; eauto. discriminate.
  - intros b r ks ps ns k j H. apply (u_next0 b r ks ps ns). eapply in_snoc_neq; eauto. discriminate.
  - intros a c b r ks ps ns E q k j Hp Hk. apply app_split in E. destruct E as [(-> & E & ->)|(c' & -> & E)]; [discriminate|].
    destruct (u_pend0 _ _ _ _ _ _ _ E q k j Hp Hk) as [H|H]; [left; exact H|right; apply settled_snoc; auto].
  - intros g H. apply in_snoc. auto.
  - intros g y H. apply in_app_or in H. destruct H as [H|[H|[]]].
    + destruct (u_inv0 _ _ H) as (H1 & H2 & H3). split; [apply in_snoc; auto|]. split; auto.
    + injection H as <- <-. split; [apply in_snoc; auto|]. auto.
  - apply truth_snoc; auto. cbn. split; auto. split; auto. intros -> a1 a2 r ks ps ns E p k i Hp Hk.
    destruct (u_pend0 _ _ _ _ _ _ _ E p k i Hp Hk) as [H|H]; auto. cbn in H. rewrite Hx in H; auto. contradiction.
Qed.

(** InvokeAll: the handlers one after the other. *)
Lemma out_app : forall l m s, out (l ++ m) s = out m (out l s).
Proof. intros l m s. unfold out. cbn. rewrite app_assoc. reflexivity. Qed.
Lemma U_invoke_all : forall hs s, U s -> s_pc s = PClear -> s_async s = [] -> NoDup hs ->
  (forall h, In h hs -> In h (s_hs s) /\ forall y, ~ In (EInvoke h y) (s_log s)) ->
  U (out (map (fun h => EInvoke h false) hs) s).
Proof.
  induction hs as [|h hs IH]; intros s HU Hpc Ha Hnd Hh; cbn [map].
  { eapply U_same; [| |exact HU]; [unfold same_core; cbn; tauto|cbn; apply app_nil_r]. }
  change (EInvoke h false :: map (fun h => EInvoke h false) hs) with ([EInvoke h false] ++ map (fun h => EInvoke h false) hs).
  rewrite out_app. apply NoDup_cons_iff in Hnd. destruct Hnd as [Hni Hnd]. apply IH; auto.
  - destruct (Hh h (or_introl eq_refl)) as [H1 H2]. apply U_invoke; auto.
    + apply (u_asked _ HU). apply in_or_app; auto.
    + intros Hr. pose proof (u_nodup _ HU) as Hnd'. apply in_split in H1. destruct H1 as (l1 & l2 & E). rewrite E in Hnd'.
      rewrite <- app_assoc in Hnd'. apply NoDup_remove_2 in Hnd'. apply Hnd'. rewrite !in_app_iff. auto.
  - intros g Hg. destruct (Hh g (or_intror Hg)) as [H1 H2]. cbn. split; auto.
    intros y H. apply in_app_or in H. destruct H as [H|[H|[]]]; [exact (H2 _ H)|]. injection H as -> _. contradiction.
Qed.

Lemma U_read : forall s h, U s -> ~ In (EAsk h) (s_log s) -> U (read_flag h s).
Proof.
  intros s h HU Hn. unfold read_flag.
  assert (Hnr : ~ In h (s_hs s ++ s_read s)) by (intros H; apply Hn, (u_asked _ HU); exact H).
  assert (Hni : forall y, ~ In (EInvoke h y) (s_log s)) by (intros y H; apply Hn; apply (u_inv _ HU) in H; tauto).
  pose proof (U_ask _ _ HU Hn) as HU1. destruct (s_flag s).
  - destruct HU1. constructor; cbn in *; auto.
    + apply NoDup_Add with (a := h) (l := s_hs s ++ s_read s); [apply Add_app|]. split; auto.
    + intros g H. rewrite in_app_iff in H. cbn in H. destruct H as [H|[<-|H]].
      * apply u_asked0. apply in_or_app; auto.
      * apply in_or_app. right. left. reflexivity.
      * apply u_asked0. apply in_or_app; auto.
    + intros g x H. destruct (u_inv0 _ _ H) as (H1 & H2 & H3). split; auto. split; auto. intros [<-|Hr]; [|auto].
      apply in_snoc_neq in H; [|discriminate]. exact (Hni _ H).
  - change [EAsk h; EInvoke h true] with ([EAsk h] ++ [EInvoke h true]). rewrite out_app. apply U_invoke; auto; cbn.
    + apply in_or_app. right. left. reflexivity.
    + intros y H. apply in_snoc_neq in H; [|discriminate]. exact (Hni _ H).
    + intros H. apply Hnr. apply in_or_app; auto.
    + intros H. exfalso. apply Hnr. apply in_or_app; auto.
    + discriminate.
Qed.

Lemma nodup_move : forall (h : nat) hs rd, NoDup (hs ++ rd) -> In h rd ->
  NoDup ((hs ++ [h]) ++ filter (fun g => negb (g =? h)) rd).
Proof.
  intros h hs rd Hnd Hin. rewrite <- app_assoc. cbn [app].
  assert (Hf : NoDup (hs ++ filter (fun g => negb (g =? h)) rd)).
  { clear Hin. induction hs as [|x hs IH]; cbn in *; [apply NoDup_filter; auto|].
    apply NoDup_cons_iff in Hnd. destruct Hnd as [H1 H2]. apply NoDup_cons; auto.
    rewrite in_app_iff in *. rewrite filter_In. tauto. }
  apply NoDup_Add with (a := h) (l := hs ++ filter (fun g => negb (g =? h)) rd); [apply Add_app|]. split; auto.
  rewrite in_app_iff, filter_In, negb_true_iff, Nat.eqb_neq. intros [H|[_ H]]; [|congruence].
  apply in_split in H. destruct H as (l1 & l2 & ->). rewrite <- app_assoc in Hnd. apply NoDup_remove_2 in Hnd.
  apply Hnd. rewrite !in_app_iff. auto.
Qed.
Lemma U_add : forall s h, U s -> In h (s_read s) -> U (add_handler h s).
Proof.
  intros s h [] Hr. unfold add_handler. constructor; cbn; auto.
  - apply nodup_move; auto.
  - intros g H. apply u_asked0. rewrite !in_app_iff, filter_In in H. cbn in H. rewrite in_app_iff.
    destruct H as [[H|[<-|[]]]|[H _]]; auto.
  - intros g x H. destruct (u_inv0 _ _ H) as (H1 & H2 & H3). split; auto. split.
    + rewrite filter_In. tauto.
    + intros Hg. apply in_app_or in Hg. destruct Hg as [Hg|[<-|[]]]; [auto|contradiction].
Qed.

Lemma is_idle_eq : forall x, is_idle x = true -> x = PIdle.
Proof. intros []; auto; discriminate. Qed.

Lemma U_step : forall s o, U s -> U (step s o).
Proof.
  intros s o HU. destruct o as [ks|r|ks|h|h|h| |p i|p|p| |ks]; cbn [step].
  - destruct (request_sync ks s) as [[r s']|] eqn:E; [eapply U_request_sync; eauto|].
    apply (U_neutral s _ EAssert); [reflexivity|unfold same_core; cbn; tauto|reflexivity|exact HU].
  - destruct (_ && _); auto.
    assert (H : U (out [EReturn r] s)) by (apply (U_neutral s _ (EReturn r)); [reflexivity|unfold same_core; cbn; tauto|reflexivity|exact HU]).
    destruct (s_pc s) eqn:E; auto. destruct (r0 =? r); auto. destruct H. constructor; cbn in *; auto; try congruence.
    intros g x Hg. destruct (u_inv0 _ _ Hg) as (H1 & H2 & H3). split; auto. split; auto. intros Hh. apply H3 in Hh. congruence.
  - unfold request_async. apply (U_neutral s _ (EReqA (S (s_nreqa s)) ks)); [reflexivity|unfold same_core; cbn; tauto|reflexivity|exact HU].
  - destruct (asked h (s_log s)) eqn:E; auto. apply asked_false in E. apply U_read; auto.
  - destruct (mem h (s_read s)) eqn:E; auto. apply mem_In in E. apply U_add; auto.
  - destruct (asked h (s_log s)) eqn:E; auto. apply asked_false in E. cbn [orb]. destruct (negb _); auto.
    pose proof (U_read _ _ HU E). cbv zeta. destruct (mem h (s_read (read_flag h s))) eqn:Em; auto.
    apply mem_In in Em. apply U_add; auto.
  - destruct (is_idle (s_pc s)) eqn:E; auto. apply is_idle_eq in E. destruct (s_jobs s) as [|j l]; auto.
    apply U_register; auto. eapply U_same; [| |exact HU]; [unfold same_core; cbn; tauto|reflexivity].
  - destruct (is_idle (s_pc s)) eqn:E; auto. apply is_idle_eq in E. destruct (mem p (s_peers s)); auto. apply U_ack; auto.
  - destruct (is_idle (s_pc s)) eqn:E; auto. apply is_idle_eq in E. destruct (mem p (s_peers s)) eqn:Em; auto.
    apply mem_In in Em. apply U_leave; auto.
  - destruct (is_idle (s_pc s)) eqn:E; auto. apply is_idle_eq in E. destruct (mem p (s_used s)) eqn:Em; auto.
    apply mem_false in Em. cbn [andb negb]. destruct HU. constructor; cbn; auto.
    + intros q. rewrite !in_app_iff, u_peers0. cbn. split.
      * intros [[H1 H2]|[<-|[]]]; [intuition congruence|]. split; [auto|]. intros [H|[H|[]]]; [|discriminate].
        apply Em, u_used0. auto.
      * intros [[H1|[H1|[]]] H2]; [left|right; left; congruence]. split; auto.
    + intros q H. rewrite !in_app_iff in H. cbn in H.
      destruct H as [[H|[H|[]]]|[H|[H|[]]]]; try discriminate; auto. injection H as <-. auto.
    + intros k. rewrite u_seen0. split; intros (b & r & ks & ps & ns & j & H & Hi).
      * exists b, r, ks, ps, ns, j. split; auto. apply in_snoc; auto.
      * exists b, r, ks, ps, ns, j. split; auto. eapply in_snoc_neq; eauto. discriminate.
    + intros b r ks ps ns k j H. apply (u_next0 b r ks ps ns). eapply in_snoc_neq; eauto. discriminate.
    + intros a c b r ks ps ns E' q k j Hp Hk. apply app_split in E'. destruct E' as [(-> & E' & ->)|(c' & -> & E')]; [discriminate|].
      destruct (u_pend0 _ _ _ _ _ _ _ E' q k j Hp Hk) as [H|H]; [left; exact H|right; apply settled_snoc; auto].
    + intros h H. apply in_snoc. auto.
    + intros h x H. apply in_snoc_neq in H; [|discriminate]. destruct (u_inv0 _ _ H) as (H1 & H2 & H3).
      split; [apply in_snoc; auto|]. split; auto.
    + apply truth_snoc; auto. exact I.
  - destruct (s_pc s) eqn:E; auto.
    + assert (HU1 : U (set_pc PClear s)).
      { destruct HU. constructor; cbn; auto; try congruence. intros h x H. destruct (u_inv0 _ _ H) as (H1 & H2 & H3). auto. }
      change (U (out (map (fun h => EInvoke h false) (s_hs s)) (set_pc PClear s))).
      apply U_invoke_all; auto.
      * cbn. apply (u_pc _ HU E).
      * pose proof (u_nodup _ HU) as H. clear - H. induction (s_hs s) as [|x l IH]; [constructor|]. cbn in H.
        apply NoDup_cons_iff in H. destruct H as [H1 H2]. apply NoDup_cons; auto. intros H. apply H1. apply in_or_app; auto.
      * intros h Hh. split; auto. intros y Hy. apply (u_inv _ HU) in Hy. destruct Hy as (_ & _ & Hy). apply Hy in Hh. congruence.
    + destruct HU. constructor; cbn; auto; try congruence.
      * clear - u_nodup0. induction (s_hs s) as [|x l IH]; auto. cbn in u_nodup0. apply NoDup_cons_iff in u_nodup0. tauto.
      * intros h H. apply u_asked0. apply in_or_app; auto.
      * intros h x H. destruct (u_inv0 _ _ H) as (H1 & H2 & H3). split; auto. split; auto. contradiction.
    + destruct HU. constructor; cbn; auto; try congruence.
      intros h x H. destruct (u_inv0 _ _ H) as (H1 & H2 & H3). split; auto. split; auto. intros Hh. apply H3 in Hh. congruence.
  - destruct (is_idle (s_pc s)) eqn:E; auto. apply is_idle_eq in E. destruct (request_sync ks s) as [[r s']|] eqn:Er.
    + pose proof (U_request_sync _ _ _ _ Er HU) as [].
      assert (Hp : s_pc s' = PIdle). { unfold request_sync in Er. destruct (s_sync s); [|discriminate]. injection Er as <- <-. exact E. }
      constructor; cbn; auto; try congruence.
      intros h x H. destruct (u_inv0 _ _ H) as (H1 & H2 & H3). split; auto. split; auto. intros Hh. apply H3 in Hh. congruence.
    + apply (U_neutral s _ EAssert); [reflexivity|unfold same_core; cbn; tauto|reflexivity|exact HU].
Qed.
Lemma U_run : forall ops, U (run ops).
Proof.
  intros ops. induction ops as [|o ops IH] using rev_ind; [|rewrite run_snoc; apply U_step; auto].
  constructor; cbn; try tauto; try congruence.
  - intros k. split; [contradiction|]. intros (b & r & ks & ps & ns & i & H & _). contradiction.
  - intros a c b r ks ps ns E. destruct a; discriminate.
  - constructor.
  - intros a e b E. destruct a; discriminate.
Qed.

(** Exactness: pending acknowledges are the unsettled ones, posted jobs the unstarted requests. *)
Definition req (b : bool) (r : nat) (ks : list nat) : ev := if b then EReqA r ks else EReq r ks.
Definition pend (b : bool) (s : st) : list (nat * nat) := if b then s_async s else s_sync s.
Definition num (b : bool) (s : st) : nat := if b then s_nreqa s else s_nreq s.
Definition jkey (j : job) : bool * nat := (j_async j, j_id j).
Record P (s : st) : Prop := {
  p_peers : NoDup (s_peers s);
  p_used : forall p, In p (s_peers s) -> In p (s_used s);
  p_nodup : forall b, NoDup (pend b s);
  p_next : forall b p i, In (p, i) (pend b s) -> i < s_next s;
  p_pend : forall b p i, In (p, i) (pend b s) -> exists a c r ks ps ns k,
    s_log s = a ++ EStart b r ks ps ns :: c /\ In p ps /\ In (k, i) ns /\ ~ Settled c p i;
  p_jobs : forall j, In j (s_jobs s) -> In (req (j_async j) (j_id j) (j_keys j)) (s_log s) /\
    forall ks ps ns, ~ In (EStart (j_async j) (j_id j) ks ps ns) (s_log s);
  p_jnodup : NoDup (map jkey (s_jobs s));
  p_req : forall b r ks, In (req b r ks) (s_log s) -> 1 <= r <= num b s /\ (In (mkJob b r ks) (s_jobs s) \/ exists ps ns, In (EStart b r ks ps ns) (s_log s));
  p_start : forall b r ks ps ns, In (EStart b r ks ps ns) (s_log s) -> In (req b r ks) (s_log s);
  p_fun : forall b r ks ks', In (req b r ks) (s_log s) -> In (req b r ks') (s_log s) -> ks = ks' }.

(** Events which do not matter for [P]. *)
Definition quiet (e : ev) : bool :=
  match e with EReturn _ | EAssert | EDone _ | EError | EAsk _ | EInvoke _ _ | EJoin _ => true | _ => false end.
Definition same_p (s s' : st) : Prop :=
  s_used s' = s_used s /\ s_peers s' = s_peers s /\ s_next s' = s_next s /\ s_sync s' = s_sync s /\ s_async s' = s_async s /\
  s_jobs s' = s_jobs s /\ s_nreq s' = s_nreq s /\ s_nreqa s' = s_nreqa s.
Lemma req_quiet : forall b r ks, quiet (req b r ks) = false.
Proof. intros []; reflexivity. Qed.
Lemma P_quiet1 : forall s e, quiet e = true -> P s -> P (out [e] s).
Proof.
  intros s e He [].
  assert (Hq : forall x, quiet x = false -> In x (s_log s ++ [e]) -> In x (s_log s)).
  { intros x Hx H. eapply in_snoc_neq; eauto. intros ->. congruence. }
  constructor; cbn; auto.
  - intros b p i H. destruct (p_pend0 b p i H) as (a & c & r & ks & ps & ns & k & E & H1 & H2 & H3).
    exists a, (c ++ [e]), r, ks, ps, ns, k. rewrite E, <- app_assoc. split; [reflexivity|]. split; auto. split; auto.
    intros [Hs|Hs]; apply H3; [left|right]; apply in_app_or in Hs; destruct Hs as [Hs|[->|[]]]; auto; discriminate He.
  - intros j H. destruct (p_jobs0 j H) as [H1 H2]. split; [apply in_snoc; auto|]. intros ks ps ns Hs. apply (H2 ks ps ns), Hq; auto.
  - intros b r ks H. apply Hq in H; [|apply req_quiet]. destruct (p_req0 b r ks H) as (H1 & [H2|(ps & ns & H2)]); split; auto.
    right. exists ps, ns. apply in_snoc; auto.
  - intros b r ks ps ns H. apply in_snoc. apply (p_start0 b r ks ps ns). apply Hq; auto.
  - intros b r ks ks' H H'. apply Hq in H; [|apply req_quiet]. apply Hq in H'; [|apply req_quiet]. eauto.
Qed.
Lemma P_same : forall s s', same_p s s' -> s_log s' = s_log s -> P s -> P s'.
Proof.
  intros s s' (E1 & E2 & E3 & E4 & E5 & E6 & E7 & E8) El [].
  assert (Ep : forall b, pend b s' = pend b s) by (intros []; cbn; auto).
  assert (En : forall b, num b s' = num b s) by (intros []; cbn; auto).
  constructor; rewrite ?E1, ?E2, ?E3, ?E6, ?El; auto.
  - intros b. rewrite Ep. auto.
  - intros b p i. rewrite Ep. apply p_next0.
  - intros b p i. rewrite Ep. apply p_pend0.
  - intros b r ks. rewrite En. apply p_req0.
Qed.
Lemma P_quiet : forall es s, Forall (fun e => quiet e = true) es -> P s -> P (out es s).
Proof.
  induction es as [|e es IH]; intros s H HP.
  - eapply P_same; [| |exact HP]; [unfold same_p; cbn; tauto|cbn; apply app_nil_r].
  - change (e :: es) with ([e] ++ es). rewrite out_app. inversion H; subst. apply IH; auto. apply P_quiet1; auto.
Qed.
Lemma P_ext : forall s s' es, same_p s s' -> s_log s' = s_log s ++ es -> Forall (fun e => quiet e = true) es -> P s -> P s'.
Proof.
  intros s s' es H1 H2 H3 HP. apply (P_same (out es s)); [exact H1|exact H2|]. apply P_quiet; auto.
Qed.

Lemma sync_completed_log : forall s, exists e, (e = EError \/ e = EDone (s_cur s)) /\ s_log (sync_completed s) = s_log s ++ [e].
Proof. intros s. unfold sync_completed. destruct (mem _ _); cbn; [exists EError|exists (EDone (s_cur s))]; auto. Qed.
Lemma sync_completed_p : forall s, same_p s (sync_completed s).
Proof. intros s. unfold sync_completed, same_p. destruct (mem _ _); cbn; tauto. Qed.
Lemma P_sync_completed : forall s, P s -> P (sync_completed s).
Proof.
  intros s HP. destruct (sync_completed_log s) as (e & He & El). eapply P_ext; eauto; [apply sync_completed_p|].
  constructor; [|constructor]. destruct He as [-> | ->]; reflexivity.
Qed.

Lemma P_request : forall b ks s s', P s ->
  s_used s' = s_used s /\ s_peers s' = s_peers s /\ s_next s' = s_next s /\ s_sync s' = s_sync s /\ s_async s' = s_async s ->
  s_jobs s' = s_jobs s ++ [mkJob b (S (num b s)) ks] -> num b s' = S (num b s) -> num (negb b) s' = num (negb b) s ->
  s_log s' = s_log s ++ [req b (S (num b s)) ks] -> P s'.
Proof.
  intros b ks s s' [] (E1 & E2 & E4 & E5 & E6) Ej En En' El.
  assert (Ep : forall b, pend b s' = pend b s) by (intros []; cbn; auto).
  assert (Hq : forall c r l ps ns, In (EStart c r l ps ns) (s_log s ++ [req b (S (num b s)) ks]) -> In (EStart c r l ps ns) (s_log s)).
  { intros c r l ps ns H. eapply in_snoc_neq; eauto. destruct b; cbn in *; discriminate. }
  assert (Hr : forall c r l, In (req c r l) (s_log s ++ [req b (S (num b s)) ks]) -> In (req c r l) (s_log s) \/ (c = b /\ r = S (num b s) /\ l = ks)).
  { intros c r l H. apply in_app_or in H. destruct H as [H|[H|[]]]; auto. right. destruct b, c; cbn in H; try discriminate; injection H as <- <-; auto. }
  assert (Hn : forall c, num c s <= num c s'). { intros c. destruct (bool_dec c b) as [->|Hc]; [lia|]. assert (c = negb b) by (destruct b, c; auto; congruence). subst. lia. }
  constructor; rewrite ?E1, ?E2, ?E4, ?Ej, ?El; auto.
  - intros c. rewrite Ep. auto.
  - intros c p i. rewrite Ep. apply p_next0.
  - intros c p i. rewrite Ep. intros H. destruct (p_pend0 c p i H) as (a & d & r & l & ps & ns & k & E & H1 & H2 & H3).
    exists a, (d ++ [req b (S (num b s)) ks]), r, l, ps, ns, k. rewrite E, <- app_assoc. split; [reflexivity|]. split; auto. split; auto.
    intros [Hs|Hs]; apply H3; [left|right]; apply in_app_or in Hs; destruct Hs as [Hs|[Hs|[]]]; auto; destruct b; cbn in *; discriminate.
  - intros j H. apply in_app_or in H. destruct H as [H|[<-|[]]].
    + destruct (p_jobs0 j H) as [H1 H2]. split; [apply in_snoc; auto|]. intros l ps ns Hs. apply (H2 l ps ns), Hq; auto.
    + cbn. split; [apply in_or_app; right; left; reflexivity|]. intros l ps ns Hs. apply Hq in Hs. apply p_start0 in Hs.
      apply p_req0 in Hs. lia.
  - rewrite map_app. cbn. apply NoDup_Add with (a := (b, S (num b s))) (l := map jkey (s_jobs s)).
    + rewrite <- (app_nil_r (map jkey (s_jobs s))) at 1. apply Add_app.
    + split; auto. intros H. apply in_map_iff in H. destruct H as (j & E & H). unfold jkey in E. injection E as E1' E2'.
      destruct (p_jobs0 j H) as [H1 _]. apply p_req0 in H1. rewrite E1', E2' in H1. lia.
  - intros c r l H. apply Hr in H. destruct H as [H|(-> & -> & ->)].
    + destruct (p_req0 c r l H) as (H1 & H2). specialize (Hn c). split; [lia|]. destruct H2 as [H2|(ps & ns & H2)].
      * left. apply in_or_app; auto.
      * right. exists ps, ns. apply in_snoc; auto.
    + split; [lia|]. left. apply in_or_app. right. left. reflexivity.
  - intros c r l ps ns H. apply in_snoc. eapply p_start0, Hq; eauto.
  - intros c r l l' H H'. apply Hr in H. apply Hr in H'. destruct H as [H|(-> & -> & ->)], H' as [H'|(E' & E'' & ->)]; eauto.
    + subst. apply p_req0 in H. lia.
    + apply p_req0 in H'. lia.
Qed.

Lemma P_remove : forall s f e, P s -> (quiet e = false) -> (forall b r ks, e <> req b r ks) -> (forall b r ks ps ns, e <> EStart b r ks ps ns) ->
  (forall l, incl (f l) l) -> (forall l, NoDup l -> NoDup (f l)) ->
  (forall b p i, In (p, i) (f (pend b s)) -> ~ Settled [e] p i) ->
  P (remove_pending f (out [e] s)).
Proof.
  intros s f e [] Hq He He' Hf Hnd Hs.
  set (s0 := set_async (f (s_async s)) (set_sync (f (s_sync s)) (out [e] s))).
  assert (HP : P s0).
  { assert (Ep : forall b, pend b s0 = f (pend b s)) by (intros []; reflexivity).
    assert (Hin : forall b r ks ps ns, In (EStart b r ks ps ns) (s_log s ++ [e]) -> In (EStart b r ks ps ns) (s_log s)).
    { intros b r ks ps ns H. apply in_snoc_neq in H; auto. }
    assert (Hr : forall b r ks, In (req b r ks) (s_log s ++ [e]) -> In (req b r ks) (s_log s)).
    { intros b r ks H. apply in_snoc_neq in H; auto. }
    constructor; auto.
    - intros b. rewrite Ep. auto.
    - intros b p i. rewrite Ep. intros H. apply (p_next0 b p i). apply Hf; auto.
    - intros b p i. rewrite Ep. intros H. destruct (p_pend0 b p i (Hf _ _ H)) as (a & d & r & l & ps & ns & k & E & H1 & H2 & H3).
      exists a, (d ++ [e]), r, l, ps, ns, k. cbn. rewrite E, <- app_assoc. split; [reflexivity|]. split; auto. split; auto.
      specialize (Hs _ _ _ H). intros [Hx|Hx]; apply in_app_or in Hx; destruct Hx as [Hx|Hx].
      + apply H3. left. auto.
      + apply Hs. left. auto.
      + apply H3. right. auto.
      + apply Hs. right. auto.
    - intros j H. cbn in *. destruct (p_jobs0 j H) as [H1 H2]. split; [apply in_snoc; auto|]. intros l ps ns Hx. apply (H2 l ps ns), Hin; auto.
    - intros b r ks H. cbn in *. apply Hr in H. destruct (p_req0 b r ks H) as (H1 & [H2|(ps & ns & H2)]); split; auto.
      right. exists ps, ns. apply in_snoc; auto.
    - intros b r ks ps ns H. cbn in *. apply in_snoc. eapply p_start0, Hin; eauto.
    - intros b r ks ks' H H'. cbn in *. apply Hr in H. apply Hr in H'. eauto. }
  unfold remove_pending. set (s1 := set_sync (f (s_sync (out [e] s))) (out [e] s)).
  set (s2 := if after_removal (s_sync (out [e] s)) (f (s_sync (out [e] s))) then sync_completed s1 else s1).
  assert (Ea : s_async s2 = s_async s). { unfold s2. destruct (after_removal _ _); [|reflexivity]. apply (sync_completed_p s1). }
  rewrite Ea.
  assert (HP3 : P (set_async (f (s_async s)) s2)).
  { unfold s2. destruct (after_removal _ _).
    - destruct (sync_completed_log s1) as (x & Hx & El). eapply (P_ext s0) with (es := [x]); auto.
      + destruct (sync_completed_p s1) as (E1 & E2 & E3 & E4 & E5 & E6 & E7 & E8). unfold same_p, s0. cbn in *. tauto.
      + constructor; [|constructor]. destruct Hx as [-> | ->]; reflexivity.
    - apply (P_same s0); [unfold same_p; cbn; tauto|reflexivity|exact HP]. }
  destruct (after_removal (s_async s) _); [|exact HP3].
  apply (P_same (set_async (f (s_async s)) s2)); [unfold same_p; cbn; tauto|reflexivity|exact HP3].
Qed.

Lemma remove1_nodup : forall x l, NoDup l -> NoDup (remove1 x l) /\ ~ In x (remove1 x l).
Proof.
  intros x l. induction l as [|y l IH]; cbn; intros H; [split; auto|]. apply NoDup_cons_iff in H. destruct H as [H1 H2].
  destruct (IH H2) as [H3 H4]. destruct (peqb y x) eqn:E.
  - apply peqb_eq in E. subst. auto.
  - split.
    + apply NoDup_cons; auto. intros H. apply H1. eapply remove1_sub; eauto.
    + intros [->|H]; auto. assert (peqb x x = true) by (apply peqb_eq; auto). congruence.
Qed.
Lemma P_ack : forall s p i, P s -> P (ack p i s).
Proof.
  intros s p i HP. unfold ack. apply P_remove; auto; try discriminate.
  - intros []; discriminate.
  - intros l [q j]. apply remove1_sub.
  - intros l H. apply remove1_nodup; auto.
  - intros b q j H [[Hs|[]]|[Hs|[]]]; [|discriminate]. injection Hs as <- <-.
    apply (remove1_nodup (p, i) _ (p_nodup _ HP b)) in H. exact H.
Qed.
Lemma P_leave : forall s p, P s -> P (leave p s).
Proof.
  intros s p HP. unfold leave. apply P_remove; try discriminate; auto.
  - destruct HP. constructor; cbn; auto.
    + apply NoDup_filter; auto.
    + intros q H. apply filter_In in H. apply p_used0; tauto.
  - intros []; discriminate.
  - intros l q H. apply filter_In in H. tauto.
  - intros l H. apply NoDup_filter; auto.
  - intros b q j H [[Hs|[]]|[Hs|[]]]; [discriminate|]. injection Hs as <-. apply filter_In in H. cbn in H.
    rewrite Nat.eqb_refl in H. destruct H; discriminate.
Qed.

Lemma nodup_add : forall (ps : list nat) (ns : list (nat * nat)), NoDup ps -> NoDup (map snd ns) ->
  NoDup (flat_map (fun e => map (fun p => (p, snd e)) ps) ns).
Proof.
  intros ps ns Hp. induction ns as [|[k i] ns IH]; cbn; intros H; [constructor|].
  apply NoDup_cons_iff in H. destruct H as [H1 H2].
  assert (G : forall l, NoDup l -> NoDup (map (fun p : nat => (p, i)) l)).
  { induction l as [|x l IHl]; intros Hl; cbn; [constructor|]. apply NoDup_cons_iff in Hl. destruct Hl as [Hl1 Hl2].
    apply NoDup_cons; auto. intros Hx. apply in_map_iff in Hx. destruct Hx as (y & E & Hy). injection E as ->. auto. }
  specialize (G ps Hp). specialize (IH H2). revert G.
  assert (D : forall x, In x (map (fun p : nat => (p, i)) ps) -> ~ In x (flat_map (fun e => map (fun p : nat => (p, snd e)) ps) ns)).
  { intros [p j] Hx Hx'. apply in_map_iff in Hx. destruct Hx as (q & E & _). injection E as _ <-.
    apply in_add in Hx'. destruct Hx' as (_ & k' & Hk). apply H1. apply in_map_iff. exists (k', i). auto. }
  induction (map (fun p : nat => (p, i)) ps) as [|x l IHl]; cbn; intros G; auto.
  apply NoDup_cons_iff in G. destruct G as [G1 G2]. apply NoDup_cons.
  - rewrite in_app_iff. intros [H|H]; [auto|]. apply (D x); [left; reflexivity|exact H].
  - apply IHl; auto. intros y Hy. apply D. right. exact Hy.
Qed.
Lemma nodup_app : forall {A} (l m : list A), NoDup l -> NoDup m -> (forall x, In x l -> ~ In x m) -> NoDup (l ++ m).
Proof.
  intros A l m Hl Hm Hd. induction l as [|x l IH]; cbn; auto. apply NoDup_cons_iff in Hl. destruct Hl as [H1 H2].
  apply NoDup_cons.
  - rewrite in_app_iff. intros [H|H]; [auto|]. apply (Hd x); [left; reflexivity|exact H].
  - apply IH; auto. intros y Hy. apply Hd. right. exact Hy.
Qed.

Lemma P_register : forall s j l, P s -> s_jobs s = j :: l -> P (register j (set_jobs l s)).
Proof.
  intros s j l HP Ej0. pose proof HP as HP0. destruct HP.
  set (ns := news (s_seen s) (s_next s) (j_keys j)).
  set (add := flat_map (fun e => map (fun p => (p, snd e)) (s_peers s)) ns).
  destruct (news_spec (j_keys j) (s_seen s) (s_next s)) as (N1 & N2 & N3). fold ns in N1, N2, N3.
  set (s1 := out [EStart (j_async j) (j_id j) (j_keys j) (s_peers s) ns]
              (set_seen (map fst ns ++ s_seen s) (s_next s + length ns) (set_jobs l s))).
  assert (Hadd : forall p i, In (p, i) add -> In p (s_peers s) /\ (exists k, In (k, i) ns) /\ s_next s <= i < s_next s + length ns).
  { intros p i H. apply in_add in H. destruct H as (H & k & Hk). split; auto. split; [eauto|]. destruct (N1 k i Hk) as (_ & _ & E). exact E. }
  assert (Hnd : NoDup add) by (apply nodup_add; auto).
  assert (Hjj : ~ In (jkey j) (map jkey l) /\ NoDup (map jkey l)).
  { rewrite Ej0 in p_jnodup0. cbn in p_jnodup0. apply NoDup_cons_iff in p_jnodup0. exact p_jnodup0. }
  destruct Hjj as [Hj1 Hj2].
  assert (H : forall t, (forall b, pend b t = pend b s ++ (if Bool.eqb b (j_async j) then add else [])) ->
     s_used t = s_used s -> s_peers t = s_peers s -> s_next t = s_next s + length ns -> s_jobs t = l ->
     (forall b, num b t = num b s) -> s_log t = s_log s1 -> P t).
  { intros t Ep E1 E2 E3 E6 En El.
    constructor; rewrite ?E1, ?E2, ?E3, ?E6, ?El; auto.
    - intros b. rewrite Ep. destruct (Bool.eqb b (j_async j)); [|rewrite app_nil_r; auto].
      apply nodup_app; auto. intros [p i] Hp Ha. apply Hadd in Ha. apply p_next0 in Hp. lia.
    - intros b p i. rewrite Ep, in_app_iff. intros [H|H]; [apply p_next0 in H; lia|].
      destruct (Bool.eqb b (j_async j)); [apply Hadd in H; lia|contradiction].
    - intros b p i. rewrite Ep, in_app_iff. intros [H|H].
      + destruct (p_pend0 b p i H) as (a & d & r & ks & ps & ns' & k & E & H1 & H2 & H3).
        exists a, (d ++ [EStart (j_async j) (j_id j) (j_keys j) (s_peers s) ns]), r, ks, ps, ns', k. cbn. rewrite E, <- app_assoc. split; [reflexivity|]. split; auto. split; auto.
        intros [Hs|Hs]; apply H3; [left|right]; apply in_app_or in Hs; destruct Hs as [Hs|[Hs|[]]]; auto; discriminate.
      + destruct (Bool.eqb b (j_async j)) eqn:Eb; [|contradiction]. apply eqb_prop in Eb. subst b.
        destruct (Hadd p i H) as (H1 & (k & H2) & _). exists (s_log s), [], (j_id j), (j_keys j), (s_peers s), ns, k.
        split; [reflexivity|]. split; auto. split; auto. intros [[]|[]].
    - intros j' H. assert (H' : In j' (s_jobs s)) by (rewrite Ej0; right; exact H). destruct (p_jobs0 j' H') as [H1 H2].
      split; [apply in_snoc; auto|]. intros ks ps ns' Hs. cbn in Hs. apply in_app_or in Hs. destruct Hs as [Hs|[Hs|[]]]; [exact (H2 _ _ _ Hs)|].
      injection Hs as E4 E5 _ _ _. apply Hj1. apply in_map_iff. exists j'. split; auto. unfold jkey. congruence.
    - intros b r ks H. cbn in H. apply in_snoc_neq in H; [|destruct b; cbn in *; discriminate]. rewrite En.
      destruct (p_req0 b r ks H) as (H1 & [H2|(ps & ns' & H2)]); split; auto.
      + rewrite Ej0 in H2. destruct H2 as [->|H2]; auto. right. exists (s_peers s), ns. cbn. apply in_or_app. right. left. reflexivity.
      + right. exists ps, ns'. cbn. apply in_snoc; auto.
    - intros b r ks ps ns' H. cbn in H. cbn. apply in_snoc. apply in_app_or in H. destruct H as [H|[H|[]]]; [eapply p_start0; eauto|].
      injection H as <- <- <- <- <-. apply p_jobs0. rewrite Ej0. left. reflexivity.
    - intros b r ks ks' H H'. cbn in H, H'. apply in_snoc_neq in H; [|destruct b; cbn in *; discriminate]. apply in_snoc_neq in H'; [|destruct b; cbn in *; discriminate]. eauto. }
  unfold register. cbn [set_jobs s_seen s_next s_peers s_async s_sync]. fold ns. fold add. fold s1. destruct (j_async j) eqn:Ej.
  - assert (H' : P (set_async (s_async s ++ add) s1)).
    { apply H; auto; intros []; cbn; rewrite ?app_nil_r; auto. }
    cbn [s_async set_async]. destruct (s_async s ++ add) eqn:Ea; auto.
    apply (P_same (set_async [] s1)); auto. unfold same_p; cbn; tauto.
  - assert (H' : P (set_sync (s_sync s ++ add) s1)).
    { apply H; auto; intros []; cbn; rewrite ?app_nil_r; auto. }
    cbn [s_sync set_sync]. destruct (s_sync s ++ add) eqn:Ea; auto. apply P_sync_completed; auto.
Qed.

Lemma P_step : forall s o, P s -> P (step s o).
Proof.
  intros s o HP. destruct o as [ks|r|ks|h|h|h| |p i|p|p| |ks]; cbn [step].
  - destruct (request_sync ks s) as [[r s']|] eqn:E.
    + unfold request_sync in E. destruct (s_sync s) eqn:Es; [|discriminate]. injection E as <- <-.
      apply (P_request false ks s); auto; cbn; rewrite ?Es; tauto.
    + apply (P_ext s _ [EAssert]); auto; unfold same_p; cbn; tauto.
  - destruct (_ && _); auto.
    assert (H : P (out [EReturn r] s)) by (apply P_quiet1; auto).
    destruct (s_pc s); auto. destruct (_ =? r); auto. apply (P_same (out [EReturn r] s)); auto; unfold same_p; cbn; tauto.
  - apply (P_request true ks s); auto; cbn; tauto.
  - destruct (asked h (s_log s)); auto. unfold read_flag. destruct (s_flag s).
    + apply (P_ext s _ [EAsk h]); auto; unfold same_p; cbn; tauto.
    + apply (P_ext s _ [EAsk h; EInvoke h true]); auto; unfold same_p; cbn; tauto.
  - destruct (mem h (s_read s)); auto. apply (P_same s); auto; unfold same_p; cbn; tauto.
  - destruct (_ || _); auto. cbv zeta. assert (H : P (read_flag h s)).
    { unfold read_flag. destruct (s_flag s).
      + apply (P_ext s _ [EAsk h]); auto; unfold same_p; cbn; tauto.
      + apply (P_ext s _ [EAsk h; EInvoke h true]); auto; unfold same_p; cbn; tauto. }
    destruct (mem _ _); auto. apply (P_same (read_flag h s)); auto; unfold same_p; cbn; tauto.
  - destruct (is_idle (s_pc s)); auto. destruct (s_jobs s) as [|j l] eqn:E; auto. apply P_register; auto.
  - destruct (_ && _); auto. apply P_ack; auto.
  - destruct (_ && _); auto. apply P_leave; auto.
  - destruct (is_idle (s_pc s)); auto. destruct (mem p (s_used s)) eqn:Em; auto. apply mem_false in Em. cbn [andb negb].
    apply P_quiet1; auto. destruct HP. constructor; cbn; auto.
    + apply NoDup_Add with (a := p) (l := s_peers s); [rewrite <- (app_nil_r (s_peers s)) at 1; apply Add_app|]. split; auto.
    + intros q H. apply in_app_or in H. destruct H as [H|[<-|[]]]; auto.
  - destruct (s_pc s); auto.
    + apply (P_ext s _ (map (fun h => EInvoke h false) (s_hs s))); auto; [unfold same_p; cbn; tauto|].
      apply Forall_forall. intros e He. apply in_map_iff in He. destruct He as (h & <- & _). reflexivity.
    + apply (P_same s); auto; unfold same_p; cbn; tauto.
    + apply (P_same s); auto; unfold same_p; cbn; tauto.
  - destruct (is_idle (s_pc s)); auto. destruct (request_sync ks s) as [[r s']|] eqn:E.
    + unfold request_sync in E. destruct (s_sync s) eqn:Es; [|discriminate]. injection E as <- <-.
      apply (P_request false ks s); auto; cbn; rewrite ?Es; tauto.
    + apply (P_ext s _ [EAssert]); auto; unfold same_p; cbn; tauto.
Qed.
Lemma P_run : forall ops, P (run ops).
Proof.
  intros ops. induction ops as [|o ops IH] using rev_ind; [|rewrite run_snoc; apply P_step; auto].
  constructor; cbn; try tauto; try constructor; try (intros []; cbn; try constructor; tauto).
Qed.

(** Executions in which a synchronous registration begins only after the earlier ones have returned. *)
Definition serial (ops : list op) : Prop :=
  forall a o b ks, ops = a ++ o :: b -> o = USync ks \/ o = ISync ks ->
  forall r ks', In (EReq r ks') (s_log (run a)) -> In (EReturn r) (s_log (run a)).
Lemma serial_snoc : forall ops o, serial (ops ++ [o]) -> serial ops.
Proof.
  intros ops o H a x b ks E. apply (H a x (b ++ [o]) ks). rewrite E, <- app_assoc. reflexivity.
Qed.

Definition sjobs (s : st) : list job := filter (fun j => negb (j_async j)) (s_jobs s).
Definition Truth2 (a : list ev) (e : ev) : Prop :=
  match e with
  | EDone r => ~ In (EDone r) a /\ exists a1 ks ps ns a2, a = a1 ++ EStart false r ks ps ns :: a2 /\
      forall p k i, In p ps -> In (k, i) ns -> Settled a2 p i
  | EReturn r => In (EDone r) a
  | _ => True
  end.
Record K (s : st) : Prop := {
  k_cur : s_cur s = s_nreq s;
  k_broken : forall x, In x (s_broken s) -> x = 0;
  k_old : forall r, 1 <= r < s_nreq s -> In r (s_set s);
  k_set : forall r, In r (s_set s) <-> In (EDone r) (s_log s);
  k_pos : forall r, In r (s_set s) -> 1 <= r;
  k_ret : forall r, In (EReturn r) (s_log s) -> In r (s_set s);
  k_noerr : ~ In EError (s_log s) /\ ~ In EAssert (s_log s);
  k_req : 1 <= s_nreq s -> exists ks, In (EReq (s_nreq s) ks) (s_log s);
  k_jobs : sjobs s = [] \/ exists ks, sjobs s = [mkJob false (s_nreq s) ks] /\ ~ In (s_nreq s) (s_set s) /\ s_sync s = [] /\ 1 <= s_nreq s;
  k_pend : s_sync s <> [] -> ~ In (s_nreq s) (s_set s) /\ sjobs s = [] /\ 1 <= s_nreq s;
  k_truth : AllTruth Truth2 (s_log s) }.
Definition Live (s : st) : Prop := 1 <= s_nreq s -> ~ In (s_nreq s) (s_set s) -> sjobs s = [] -> s_sync s <> [].

Definition foreign (e : ev) : bool :=
  match e with EReq _ _ | EReturn _ | EAssert | EDone _ | EError => false | _ => true end.
Definition same_k (s s' : st) : Prop :=
  s_cur s' = s_cur s /\ s_nreq s' = s_nreq s /\ s_broken s' = s_broken s /\ s_set s' = s_set s /\ sjobs s' = sjobs s.
Lemma truth2_foreign : forall es l, Forall (fun e => foreign e = true) es -> AllTruth Truth2 l -> AllTruth Truth2 (l ++ es).
Proof.
  induction es as [|e es IH]; intros l H HT; [rewrite app_nil_r; auto|]. inversion H; subst.
  change (e :: es) with ([e] ++ es). rewrite app_assoc. apply IH; auto. apply truth_snoc; auto. destruct e; try discriminate; exact I.
Qed.
Lemma in_foreign : forall es l x, Forall (fun e => foreign e = true) es -> foreign x = false -> In x (l ++ es) -> In x l.
Proof.
  intros es l x H Hx Hin. apply in_app_or in Hin. destruct Hin as [|Hin]; auto. rewrite Forall_forall in H. apply H in Hin. congruence.
Qed.
Lemma K_foreign : forall s s' es, same_k s s' -> s_sync s' = s_sync s -> s_log s' = s_log s ++ es ->
  Forall (fun e => foreign e = true) es -> K s -> K s'.
Proof.
  intros s s' es (E1 & E2 & E3 & E4 & E5) E6 El Hf [].
  constructor; rewrite ?E1, ?E2, ?E3, ?E4, ?E5, ?E6, ?El; auto.
  - intros r. rewrite k_set0. split; intros H; [apply in_or_app; auto|eapply in_foreign; eauto].
  - intros r H. apply k_ret0. eapply in_foreign; eauto.
  - destruct k_noerr0. split; intros H'; [apply H|apply H0]; eapply in_foreign; eauto.
  - intros H. destruct (k_req0 H) as (ks & Hk). exists ks. apply in_or_app; auto.
  - apply truth2_foreign; auto.
Qed.
Lemma Live_same : forall s s', same_k s s' -> s_sync s' = s_sync s -> Live s -> Live s'.
Proof. intros s s' (E1 & E2 & E3 & E4 & E5) E6 H. unfold Live. rewrite E2, E4, E5, E6. exact H. Qed.

(** The promise is fulfilled. *)
Lemma K_done : forall s s', K s -> U s' -> P s' -> s_sync s = [] -> ~ In (s_nreq s) (s_set s) -> sjobs s = [] -> 1 <= s_nreq s ->
  s_cur s' = s_cur s -> s_nreq s' = s_nreq s -> s_broken s' = s_broken s -> s_set s' = s_cur s :: s_set s ->
  s_sync s' = [] -> sjobs s' = [] -> s_log s' = s_log s ++ [EDone (s_cur s)] -> K s' /\ Live s'.
Proof.
  intros s s' HK HU HP Hs Hn Hj H1 E1 E2 E3 E4 E5 E6 El. destruct HK.
  assert (Hd : ~ In (EDone (s_nreq s)) (s_log s)) by (rewrite <- k_set0; exact Hn).
  split.
  - constructor; rewrite ?E1, ?E2, ?E3, ?E4, ?E5, ?E6, ?El; auto.
    + intros r H. right. auto.
    + intros r. rewrite in_app_iff. cbn. rewrite k_set0. split; [intros [->|H]; auto|intros [H|[H|[]]]; [auto|injection H; auto]].
    + intros r [<-|H]; [rewrite k_cur0; exact H1|auto].
    + intros r H. right. apply k_ret0. eapply in_snoc_neq; eauto. discriminate.
    + destruct k_noerr0. split; intros H'; apply in_snoc_neq in H'; auto; discriminate.
    + intros H. destruct (k_req0 H) as (ks & Hk). exists ks. apply in_snoc; auto.
    + apply truth_snoc; auto. cbn. rewrite k_cur0. split; auto.
      destruct (k_req0 H1) as (ks & Hk).
      assert (Hk' : In (req false (s_nreq s) ks) (s_log s')) by (rewrite El; apply in_snoc; exact Hk).
      destruct (p_req _ HP _ _ _ Hk') as [_ [Hx|(ps & ns & Hx)]].
      * exfalso. assert (Hx' : In (mkJob false (s_nreq s) ks) (sjobs s')) by (apply filter_In; auto). rewrite E6 in Hx'. contradiction.
      * rewrite El in Hx. apply in_snoc_neq in Hx; [|discriminate]. apply in_split in Hx. destruct Hx as (a1 & a2 & Ea).
        exists a1, ks, ps, ns, a2. split; auto. intros p k i Hp Hi.
        assert (Ea' : s_log s' = a1 ++ EStart false (s_nreq s) ks ps ns :: (a2 ++ [EDone (s_cur s)])) by (rewrite El, Ea, <- app_assoc; reflexivity).
        destruct (u_pend _ HU _ _ _ _ _ _ _ Ea' p k i Hp Hi) as [H|H]; [rewrite E5 in H; contradiction|].
        destruct H as [H|H]; [left|right]; (eapply in_snoc_neq; [|exact H]); discriminate.
  - intros _ H _. exfalso. apply H. rewrite E2, E4, k_cur0. left. reflexivity.
Qed.

Lemma sjobs_snoc_async : forall l r ks, filter (fun j => negb (j_async j)) (l ++ [mkJob true r ks]) = filter (fun j => negb (j_async j)) l.
Proof. intros. rewrite filter_app. cbn. apply app_nil_r. Qed.

Lemma K_remove : forall s f e, K s -> Live s -> foreign e = true -> (forall l, incl (f l) l) ->
  U (remove_pending f (out [e] s)) -> P (remove_pending f (out [e] s)) ->
  K (remove_pending f (out [e] s)) /\ Live (remove_pending f (out [e] s)).
Proof.
  intros s f e HK HL He Hf HU HP.
  set (s1 := set_sync (f (s_sync s)) (out [e] s)).
  assert (Hsub : f (s_sync s) <> [] -> s_sync s <> []).
  { intros H E. destruct (f (s_sync s)) as [|x l] eqn:Ef; auto. assert (Hx : In x (s_sync s)) by (apply Hf; rewrite Ef; left; auto).
    rewrite E in Hx. exact Hx. }
  assert (HK1 : K s1).
  { assert (HK0 : K (out [e] s)).
    { apply (K_foreign s _ [e]); auto. unfold same_k; cbn; tauto. }
    destruct HK0. constructor; cbn in *; auto.
    destruct k_jobs0 as [H|(ks & H1 & H2 & H3 & H4)]; [left; exact H|right]. exists ks. split; auto. split; auto. split; auto.
    destruct (f (s_sync s)) eqn:Ef; auto. exfalso. apply Hsub; [congruence|exact H3]. }
  assert (Hstep : exists s2, remove_pending f (out [e] s) = s2 /\ same_k (if after_removal (s_sync s) (f (s_sync s)) then sync_completed s1 else s1) s2 /\
     s_sync s2 = f (s_sync s) /\ s_log s2 = s_log (if after_removal (s_sync s) (f (s_sync s)) then sync_completed s1 else s1)).
  { exists (remove_pending f (out [e] s)). split; auto. unfold remove_pending. cbn [out s_sync]. change (set_sync (f (s_sync s)) (out [e] s)) with s1.
    set (s2 := if after_removal (s_sync s) (f (s_sync s)) then sync_completed s1 else s1).
    assert (Es : s_sync s2 = f (s_sync s)). { unfold s2. destruct (after_removal _ _); [|reflexivity]. apply (sync_completed_p s1). }
    destruct (after_removal (s_async s2) (f (s_async s2))); cbn; unfold same_k; cbn; tauto. }
  destruct Hstep as (s2 & E & Hsame & Es & El). rewrite E in *. clear E.
  destruct (after_removal (s_sync s) (f (s_sync s))) eqn:Ea.
  - pose proof (after_true _ _ Ea) as Ef. pose proof (after_nonempty _ _ Ea) as Hne.
    destruct (k_pend _ HK Hne) as (H1 & H2 & H3).
    assert (Em : mem (s_cur s1) (s_set s1) = false). { apply mem_false. cbn. rewrite (k_cur _ HK). exact H1. }
    unfold sync_completed in Hsame, El. rewrite Em in Hsame, El. destruct Hsame as (E1 & E2 & E3 & E4 & E5). cbn in *.
    apply (K_done s1 s2); auto; cbn; try congruence; try exact H2; rewrite E5; exact H2.
  - destruct Hsame as (E1 & E2 & E3 & E4 & E5). split.
    + apply (K_foreign s1 s2 []); auto; [unfold same_k; tauto|rewrite app_nil_r; exact El].
    + intros H1 H2 H3. rewrite Es. rewrite E2 in *. rewrite E4 in *. rewrite E5 in *. cbn in *.
      eapply after_false; eauto.
Qed.

Lemma K_request : forall s ks, K s -> Live s -> P s -> (forall r ks', In (EReq r ks') (s_log s) -> In (EReturn r) (s_log s)) ->
  exists s', request_sync ks s = Some (S (s_nreq s), s') /\ K s' /\ Live s'.
Proof.
  intros s ks HK HL HP Hser. destruct HK.
  assert (Hall : 1 <= s_nreq s -> In (s_nreq s) (s_set s)).
  { intros H. destruct (k_req0 H) as (l & Hl). apply k_ret0. eapply Hser; eauto. }
  assert (Hs : s_sync s = []). { destruct (s_sync s) eqn:E; auto. exfalso. destruct k_pend0 as (H1 & _ & H2); [congruence|]. auto. }
  assert (Hj : sjobs s = []). { destruct k_jobs0 as [H|(l & _ & H1 & _ & H2)]; auto. exfalso. auto. }
  unfold request_sync. rewrite Hs. eexists. split; [reflexivity|]. split.
  - constructor; cbn; auto.
    + intros x H. destruct (mem (s_cur s) (s_set s)) eqn:Em; auto. apply mem_false in Em. destruct H as [<-|H]; auto.
      rewrite k_cur0 in *. destruct (s_nreq s); auto. exfalso. apply Em, Hall. lia.
    + intros r H. destruct (Nat.eq_dec r (s_nreq s)) as [->|Hne]; [apply Hall; lia|apply k_old0; lia].
    + intros r. rewrite k_set0. split; intros H; [apply in_snoc; auto|eapply in_snoc_neq; eauto; discriminate].
    + intros r H. apply k_ret0. eapply in_snoc_neq; eauto; discriminate.
    + destruct k_noerr0. split; intros H'; apply in_snoc_neq in H'; auto; discriminate.
    + intros _. exists ks. apply in_or_app. right. left. reflexivity.
    + right. exists ks. unfold sjobs in *. cbn. rewrite filter_app, Hj. cbn. split; auto. split; [|split; [auto|lia]].
      rewrite k_set0. intros H.
      apply in_split in H. destruct H as (a & b & E). destruct (k_truth0 _ _ _ E) as (_ & a1 & l & ps & ns & a2 & E2 & _).
      assert (Hin : In (EStart false (S (s_nreq s)) l ps ns) (s_log s)). { rewrite E, E2. rewrite !in_app_iff. left. right. left. reflexivity. }
      apply (p_start _ HP) in Hin. apply (p_req _ HP) in Hin. cbn in Hin. lia.
    + intros H. congruence.
    + apply truth_snoc; auto. exact I.
  - intros _ _ H. unfold sjobs in H. cbn in H. rewrite filter_app in H. cbn in H. destruct (filter _ (s_jobs s)); discriminate.
Qed.

Lemma requested_In : forall r l, requested r l = true -> exists ks, In (EReq r ks) l.
Proof.
  intros r l H. unfold requested in H. apply existsb_exists in H. destruct H as (e & H & E). destruct e; try discriminate.
  apply Nat.eqb_eq in E. subst. eauto.
Qed.

Lemma K_step : forall s o, K s -> Live s -> U s -> P s ->
  (forall ks, o = USync ks \/ o = ISync ks -> forall r ks', In (EReq r ks') (s_log s) -> In (EReturn r) (s_log s)) ->
  K (step s o) /\ Live (step s o).
Proof.
  intros s o HK HL HU HP Hser. pose proof (U_step s o HU) as HU'. pose proof (P_step s o HP) as HP'.
  assert (Hsame : forall s' es, same_k s s' -> s_sync s' = s_sync s -> s_log s' = s_log s ++ es -> Forall (fun e => foreign e = true) es -> K s' /\ Live s').
  { intros s' es H1 H2 H3 H4. split; [eapply K_foreign; eauto|eapply Live_same; eauto]. }
  destruct o as [ks|r|ks|h|h|h| |p i|p|p| |ks]; cbn [step] in *.
  - destruct (K_request s ks HK HL HP (Hser ks (or_introl eq_refl))) as (s' & -> & H). exact H.
  - destruct (requested r (s_log s)) eqn:Er; [|auto]. destruct (returned r (s_log s)); [auto|]. destruct (ready r s) eqn:Ed; [|auto].
    cbn [andb negb] in *. apply requested_In in Er. destruct Er as (ks & Er).
    assert (Hr : In r (s_set s)).
    { unfold ready in Ed. apply orb_true_iff in Ed. rewrite !mem_In in Ed. destruct Ed as [H|H]; auto.
      apply (k_broken _ HK) in H. subst. apply (p_req _ HP false) in Er. lia. }
    assert (H : forall t, same_k s t -> s_sync t = s_sync s -> s_log t = s_log s ++ [EReturn r] -> K t /\ Live t).
    { intros t (E1 & E2 & E3 & E4 & E5) E6 El. split; [|apply (Live_same s); unfold same_k; tauto]. destruct HK.
      constructor; rewrite ?E1, ?E2, ?E3, ?E4, ?E5, ?E6, ?El; auto.
      - intros q. rewrite k_set0. split; intros H; [apply in_snoc; auto|eapply in_snoc_neq; eauto; discriminate].
      - intros q H. apply in_app_or in H. destruct H as [H|[H|[]]]; auto. injection H as <-. exact Hr.
      - destruct k_noerr0. split; intros H'; apply in_snoc_neq in H'; auto; discriminate.
      - intros H. destruct (k_req0 H) as (l & Hk). exists l. apply in_snoc; auto.
      - apply truth_snoc; auto. cbn. apply k_set0. exact Hr. }
    destruct (s_pc s); try destruct (_ =? r); apply H; unfold same_k; cbn; tauto.
  - apply (Hsame _ [EReqA (S (s_nreqa s)) ks]); auto. unfold same_k, sjobs; cbn. rewrite sjobs_snoc_async. tauto.
  - destruct (asked h (s_log s)); auto. unfold read_flag. destruct (s_flag s).
    + apply (Hsame _ [EAsk h]); auto; try solve [unfold same_k; cbn; tauto]; repeat constructor.
    + apply (Hsame _ [EAsk h; EInvoke h true]); auto; try solve [unfold same_k; cbn; tauto]; repeat constructor.
  - destruct (mem h (s_read s)); auto. apply (Hsame _ []); auto; try solve [unfold same_k; cbn; tauto]; cbn; rewrite app_nil_r; auto.
  - destruct (_ || _); auto. cbv zeta. unfold read_flag. destruct (s_flag s);
      match goal with |- context [if mem h ?l then _ else _] => destruct (mem h l) end.
    + apply (Hsame _ [EAsk h]); auto; try solve [unfold same_k; cbn; tauto]; repeat constructor.
    + apply (Hsame _ [EAsk h]); auto; try solve [unfold same_k; cbn; tauto]; repeat constructor.
    + apply (Hsame _ [EAsk h; EInvoke h true]); auto; try solve [unfold same_k; cbn; tauto]; repeat constructor.
    + apply (Hsame _ [EAsk h; EInvoke h true]); auto; try solve [unfold same_k; cbn; tauto]; repeat constructor.
  - destruct (is_idle (s_pc s)); auto. destruct (s_jobs s) as [|j l] eqn:Ej; auto.
    unfold register in *. cbn [set_jobs s_seen s_next s_peers s_async s_sync] in *.
    set (ns := news (s_seen s) (s_next s) (j_keys j)) in *.
    set (add := flat_map (fun e => map (fun p => (p, snd e)) (s_peers s)) ns) in *.
    set (s1 := out [EStart (j_async j) (j_id j) (j_keys j) (s_peers s) ns]
              (set_seen (map fst ns ++ s_seen s) (s_next s + length ns) (set_jobs l s))) in *.
    destruct (j_async j) eqn:Ea.
    + assert (El : sjobs s1 = sjobs s). { unfold sjobs, s1. cbn. rewrite Ej. cbn. rewrite Ea. reflexivity. }
      cbn [s_async set_async] in *. destruct (s_async s ++ add).
      * apply (Hsame _ [EStart true (j_id j) (j_keys j) (s_peers s) ns]); auto. unfold same_k. unfold sjobs in *. cbn in *. tauto.
      * apply (Hsame _ [EStart true (j_id j) (j_keys j) (s_peers s) ns]); auto. unfold same_k. unfold sjobs in *. cbn in *. tauto.
    + assert (Hj : sjobs s = j :: filter (fun j => negb (j_async j)) l). { unfold sjobs. rewrite Ej. cbn. rewrite Ea. reflexivity. }
      destruct (k_jobs _ HK) as [H|(ks & H & H1 & H2 & H3)]; [congruence|]. rewrite Hj in H. injection H as Ejj Ell.
      set (s2 := set_sync (s_sync s ++ add) s1) in *.
      assert (HK2 : K s2).
      { assert (HT : AllTruth Truth2 (s_log s ++ [EStart false (j_id j) (j_keys j) (s_peers s) ns])) by (apply truth2_foreign; [repeat constructor|apply HK]).
        destruct HK. unfold s2, s1. constructor; cbn; auto.
        - intros q. rewrite k_set0. split; intros H; [apply in_snoc; auto|eapply in_snoc_neq; eauto; discriminate].
        - intros q H. apply k_ret0. eapply in_snoc_neq; eauto; discriminate.
        - destruct k_noerr0. split; intros H'; apply in_snoc_neq in H'; auto; discriminate.
        - intros H. destruct (k_req0 H) as (l' & Hk). exists l'. apply in_snoc; auto. }
      cbn [s_sync set_sync] in HU', HP'. cbn [s_sync set_sync].
      change (match s_sync s ++ add with [] => sync_completed s2 | _ :: _ => s2 end) with (match s_sync s ++ add with [] => sync_completed s2 | _ :: _ => s2 end) in *.
      destruct (s_sync s ++ add) eqn:Es.
      * assert (Em : mem (s_cur s2) (s_set s2) = false). { apply mem_false. cbn. rewrite (k_cur _ HK). exact H1. }
        apply (K_done s2); auto; unfold sync_completed; rewrite Em; cbn; auto.
      * split; auto. intros _ _ _. cbn. congruence.
  - destruct (_ && _); auto. unfold ack in *. apply K_remove; auto. intros l [q j]. apply remove1_sub.
  - destruct (_ && _); auto. unfold leave in *.
    assert (H : K (set_peers (s_used s) (filter (fun q => negb (q =? p)) (s_peers s)) s) /\ Live (set_peers (s_used s) (filter (fun q => negb (q =? p)) (s_peers s)) s)).
    { apply (Hsame _ []); auto; try solve [unfold same_k; cbn; tauto]; cbn; rewrite app_nil_r; auto. }
    destruct H as [H1 H2]. apply K_remove; auto. intros l q H. apply filter_In in H. tauto.
  - destruct (_ && _); auto. apply (Hsame _ [EJoin p]); auto; try solve [unfold same_k; cbn; tauto]; repeat constructor.
  - destruct (s_pc s); auto.
    + apply (Hsame _ (map (fun h => EInvoke h false) (s_hs s))); auto; [unfold same_k; cbn; tauto|].
      apply Forall_forall. intros e He. apply in_map_iff in He. destruct He as (h & <- & _). reflexivity.
    + apply (Hsame _ []); auto; try solve [unfold same_k; cbn; tauto]; cbn; rewrite app_nil_r; auto.
    + apply (Hsame _ []); auto; try solve [unfold same_k; cbn; tauto]; cbn; rewrite app_nil_r; auto.
  - destruct (is_idle (s_pc s)); auto.
    destruct (K_request s ks HK HL HP (Hser ks (or_intror eq_refl))) as (s' & E & H1 & H2). rewrite E in *. split.
    + apply (K_foreign s' _ []); auto; try solve [unfold same_k; cbn; tauto]; cbn; rewrite app_nil_r; auto.
    + apply (Live_same s'); auto. unfold same_k; cbn; tauto.
Qed.
Lemma K_run : forall ops, serial ops -> K (run ops) /\ Live (run ops).
Proof.
  intros ops. induction ops as [|o ops IH] using rev_ind; intros Hs.
  - split; [|intros H; cbn in H; lia]. constructor; cbn; try tauto; try lia.
    intros a e b E. destruct a; discriminate.
  - destruct (IH (serial_snoc _ _ Hs)) as [H1 H2]. rewrite run_snoc. apply K_step; auto; [apply U_run|apply P_run|].
    intros ks Ho r ks' H. eapply (Hs ops o []); eauto.
Qed.

(** Handlers handed over while the I/O thread is not inside AsyncSubscriptionsCompleted. *)
Definition atomic_adds (ops : list op) : Prop := forall h, ~ In (URead h) ops /\ ~ In (UAdd h) ops.
Definition ajobs (s : st) : list job := filter j_async (s_jobs s).
Definition busy (s : st) : Prop := ajobs s <> [] \/ s_async s <> [].
Record HI (s : st) : Prop := {
  h_read : s_read s = [];
  h_flag : s_flag s = true -> busy s \/ s_pc s = PInvoke \/ s_pc s = PClear \/ s_pc s = PReset;
  h_hs : s_hs s <> [] -> busy s \/ s_pc s = PInvoke \/ s_pc s = PClear;
  h_asked : forall h, In (EAsk h) (s_log s) -> In h (s_hs s) \/ exists x, In (EInvoke h x) (s_log s);
  h_clear : s_pc s = PClear -> forall h, In h (s_hs s) -> exists x, In (EInvoke h x) (s_log s) }.

Lemma HI_same : forall s s' es, s_read s' = s_read s -> s_flag s' = s_flag s -> s_hs s' = s_hs s -> s_pc s' = s_pc s ->
  ajobs s' = ajobs s -> s_async s' = s_async s -> s_log s' = s_log s ++ es -> (forall h, ~ In (EAsk h) es) -> HI s -> HI s'.
Proof.
  intros s s' es E1 E2 E3 E4 E5 E6 El Hn []. constructor; unfold busy; rewrite ?E1, ?E2, ?E3, ?E4, ?E5, ?E6, ?El; auto.
  - intros h H. apply in_app_or in H. destruct H as [H|H]; [|exfalso; eapply Hn; eauto].
    destruct (h_asked0 h H) as [|(x & Hx)]; auto. right. exists x. apply in_or_app; auto.
  - intros Hp h H. destruct (h_clear0 Hp h H) as (x & Hx). exists x. apply in_or_app; auto.
Qed.

Lemma sync_completed_h : forall s, let s' := sync_completed s in
  s_read s' = s_read s /\ s_flag s' = s_flag s /\ s_hs s' = s_hs s /\ s_pc s' = s_pc s /\ ajobs s' = ajobs s /\ s_async s' = s_async s.
Proof. intros s. unfold sync_completed. destruct (mem _ _); cbn; repeat split. Qed.

Lemma HI_remove : forall s f e, HI s -> s_pc s = PIdle -> (forall h, e <> EAsk h) -> HI (remove_pending f (out [e] s)).
Proof.
  intros s f e [] Hpc He.
  unfold remove_pending. cbn [out s_sync]. set (s1 := set_sync (f (s_sync s)) (out [e] s)).
  set (s2 := if after_removal (s_sync s) (f (s_sync s)) then sync_completed s1 else s1).
  assert (Hs2 : s_read s2 = s_read s /\ s_flag s2 = s_flag s /\ s_hs s2 = s_hs s /\ s_pc s2 = s_pc s /\ ajobs s2 = ajobs s /\ s_async s2 = s_async s /\
    exists es, s_log s2 = s_log s ++ es /\ forall h, ~ In (EAsk h) es).
  { unfold s2. destruct (after_removal _ _).
    - destruct (sync_completed_h s1) as (E1 & E2 & E3 & E4 & E5 & E6). cbv zeta in *.
      destruct (sync_completed_log s1) as (x & Hx & El).
      rewrite E1, E2, E3, E4, E5, E6. repeat split. exists ([e] ++ [x]). rewrite El. cbn. rewrite <- app_assoc. split; auto.
      intros h [H|[H|[]]]; [exact (He h H)|]. destruct Hx as [-> | ->]; discriminate.
    - repeat split. exists [e]. split; auto. intros h [H|[]]. exact (He h H). }
  destruct Hs2 as (E1 & E2 & E3 & E4 & E5 & E6 & es & El & Hes).
  assert (Ha : forall h, In (EAsk h) (s_log s2) -> In h (s_hs s) \/ exists x, In (EInvoke h x) (s_log s2)).
  { intros h H. rewrite El in *. apply in_app_or in H. destruct H as [H|H]; [|exfalso; eapply Hes; eauto].
    destruct (h_asked0 h H) as [|(x & Hx)]; auto. right. exists x. apply in_or_app; auto. }
  assert (Hb : forall t, s_jobs t = s_jobs s2 -> s_async t = f (s_async s) -> after_removal (s_async s) (f (s_async s)) = false -> busy s -> busy t).
  { intros t Et Et' Hr [H|H]; [left|right].
    - unfold ajobs in *. rewrite Et. rewrite E5. exact H.
    - rewrite Et'. eapply after_false; eauto. }
  rewrite E6. destruct (after_removal (s_async s) (f (s_async s))) eqn:Er.
  - constructor; cbn; rewrite ?E1, ?E2, ?E3, ?E4; auto. discriminate.
  - constructor; cbn; rewrite ?E1, ?E2, ?E3, ?E4; auto; rewrite ?Hpc; try discriminate.
    + intros H. left. apply Hb; auto. destruct (h_flag0 H) as [H1|[H1|[H1|H1]]]; auto; congruence.
    + intros H. left. apply Hb; auto. destruct (h_hs0 H) as [H1|[H1|H1]]; auto; congruence.
Qed.

Lemma HI_step : forall s o, HI s -> (forall h, o <> URead h /\ o <> UAdd h) -> HI (step s o).
Proof.
  intros s o HH Ho. pose proof HH as HH0. destruct HH.
  destruct o as [ks|r|ks|h|h|h| |p i|p|p| |ks]; cbn [step].
  - destruct (request_sync ks s) as [[r s']|] eqn:E.
    + unfold request_sync in E. destruct (s_sync s); [|discriminate]. injection E as <- <-.
      apply (HI_same s _ [EReq (S (s_nreq s)) ks]); auto.
      * unfold ajobs. cbn. rewrite filter_app. cbn. apply app_nil_r.
      * intros h [H|[]]. discriminate.
    + apply (HI_same s _ [EAssert]); auto. intros h [H|[]]. discriminate.
  - destruct (_ && _); auto.
    assert (H : HI (out [EReturn r] s)) by (apply (HI_same s _ [EReturn r]); auto; intros h [H|[]]; discriminate).
    destruct (s_pc s) eqn:Ep; auto. destruct (_ =? r); auto. destruct H. constructor; cbn in *; auto; try discriminate.
    + intros H. destruct (h_flag0 H) as [H1|[H1|[H1|H1]]]; auto; congruence.
    + intros H. destruct (h_hs0 H) as [H1|[H1|H1]]; auto; congruence.
  - unfold request_async.
    assert (Hb : forall t, s_jobs t = s_jobs s ++ [mkJob true (S (s_nreqa s)) ks] -> busy t).
    { intros t Et. left. unfold ajobs. rewrite Et, filter_app. cbn. destruct (filter _ _); discriminate. }
    constructor; cbn; auto.
    + intros h H. apply in_app_or in H. destruct H as [H|[H|[]]]; [|discriminate].
      destruct (h_asked0 h H) as [|(x & Hx)]; auto. right. exists x. apply in_or_app; auto.
    + intros Hp h H. destruct (h_clear0 Hp h H) as (x & Hx). exists x. apply in_or_app; auto.
  - exfalso. destruct (Ho h) as [H _]. congruence.
  - exfalso. destruct (Ho h) as [_ H]. congruence.
  - destruct (asked h (s_log s)) eqn:Eh; auto. destruct (is_idle (s_pc s)) eqn:Ep; auto. apply is_idle_eq in Ep. cbn [orb negb].
    unfold read_flag. destruct (s_flag s) eqn:Ef; cbv zeta.
    + cbn [s_read set_read]. assert (Em : mem h (h :: s_read s) = true) by (apply mem_In; left; auto). rewrite Em.
      assert (Hb : busy s) by (destruct (h_flag0 eq_refl) as [H|[H|[H|H]]]; auto; congruence).
      unfold add_handler. constructor; cbn; rewrite ?Ef; auto; try congruence.
      * rewrite Nat.eqb_refl. cbn. rewrite h_read0. reflexivity.
      * intros g H. apply in_app_or in H. destruct H as [H|[H|[]]].
        -- destruct (h_asked0 g H) as [Hg|(x & Hx)]; [left; apply in_or_app; auto|]. right. exists x. apply in_or_app; auto.
        -- injection H as <-. left. apply in_or_app. right. left. reflexivity.
    + cbn [s_read out]. rewrite h_read0. cbn [mem existsb]. constructor; cbn; rewrite ?Ef, ?Ep; auto; try congruence.
      * rewrite <- Ep. exact h_hs0.
      * intros g H. apply in_app_or in H. destruct H as [H|[H|[H|[]]]]; [| |discriminate].
        -- destruct (h_asked0 g H) as [Hg|(x & Hx)]; auto. right. exists x. apply in_or_app; auto.
        -- injection H as <-. right. exists true. apply in_or_app. right. right. left. reflexivity.
  - destruct (is_idle (s_pc s)) eqn:Ep; auto. apply is_idle_eq in Ep. destruct (s_jobs s) as [|j l] eqn:Ej; auto.
    unfold register. cbn [set_jobs s_seen s_next s_peers s_async s_sync].
    set (ns := news (s_seen s) (s_next s) (j_keys j)).
    set (add := flat_map (fun e => map (fun p => (p, snd e)) (s_peers s)) ns).
    set (s1 := out [EStart (j_async j) (j_id j) (j_keys j) (s_peers s) ns]
              (set_seen (map fst ns ++ s_seen s) (s_next s + length ns) (set_jobs l s))).
    assert (Ha : forall h, In (EAsk h) (s_log s1) -> In h (s_hs s) \/ exists x, In (EInvoke h x) (s_log s1)).
    { intros h H. unfold s1 in *. cbn in *. apply in_app_or in H. destruct H as [H|[H|[]]]; [|discriminate].
      destruct (h_asked0 h H) as [|(x & Hx)]; auto. right. exists x. apply in_or_app; auto. }
    destruct (j_async j) eqn:Ea.
    + cbn [s_async set_async]. destruct (s_async s ++ add) as [|e m] eqn:Es.
      * constructor; cbn; auto; discriminate.
      * assert (Hb : busy (set_async (e :: m) s1)) by (right; discriminate).
        constructor; cbn; rewrite ?Ep; auto; discriminate.
    + assert (El : ajobs s1 = ajobs s). { unfold ajobs, s1. cbn. rewrite Ej. cbn. rewrite Ea. reflexivity. }
      assert (H : HI (set_sync (s_sync s ++ add) s1)).
      { apply (HI_same s _ [EStart false (j_id j) (j_keys j) (s_peers s) ns]); auto. intros h [H|[]]; discriminate. }
      cbn [s_sync set_sync]. destruct (s_sync s ++ add); auto.
      set (s2 := set_sync [] s1) in *. destruct (sync_completed_h s2) as (E1 & E2 & E3 & E4 & E5 & E6). cbv zeta in *.
      destruct (sync_completed_log s2) as (x & Hx & Ex). apply (HI_same s2 _ [x]); auto.
      intros h [Hh|[]]. destruct Hx as [-> | ->]; discriminate.
  - destruct (is_idle (s_pc s)) eqn:Ep; auto. apply is_idle_eq in Ep. destruct (mem p (s_peers s)); auto.
    apply HI_remove; auto. discriminate.
  - destruct (is_idle (s_pc s)) eqn:Ep; auto. apply is_idle_eq in Ep. destruct (mem p (s_peers s)); auto.
    unfold leave. apply HI_remove; auto; [|discriminate].
    apply (HI_same s _ []); auto. cbn. rewrite app_nil_r. auto.
  - destruct (_ && _); auto. apply (HI_same s _ [EJoin p]); auto. intros h [H|[]]; discriminate.
  - destruct (s_pc s) eqn:Ep; auto.
    + constructor; cbn; auto.
      * intros h H. apply in_app_or in H. destruct H as [H|H].
        -- destruct (h_asked0 h H) as [|(x & Hx)]; auto. right. exists x. apply in_or_app; auto.
        -- apply in_map_iff in H. destruct H as (g & H & _). discriminate.
      * intros _ h H. exists false. apply in_or_app. right. apply in_map_iff. eauto.
    + constructor; cbn; auto; try congruence. intros h H. destruct (h_asked0 h H) as [Hh|Hh]; auto.
    + constructor; cbn; auto; try congruence. intros H. destruct (h_hs0 H) as [H1|[H1|H1]]; auto; congruence.
  - destruct (is_idle (s_pc s)) eqn:Ep; auto. apply is_idle_eq in Ep. destruct (request_sync ks s) as [[r s']|] eqn:E.
    + unfold request_sync in E. destruct (s_sync s); [|discriminate]. injection E as <- <-.
      assert (Ea : forall t, s_jobs t = s_jobs s ++ [mkJob false (S (s_nreq s)) ks] -> s_async t = s_async s -> busy s -> busy t).
      { intros t Et Et' [H|H]; [left|right; congruence]. unfold ajobs in *. rewrite Et, filter_app. cbn. rewrite app_nil_r. exact H. }
      constructor; cbn; auto; try discriminate.
      * intros H. left. eapply Ea; auto. destruct (h_flag0 H) as [H1|[H1|[H1|H1]]]; auto; congruence.
      * intros H. left. eapply Ea; auto. destruct (h_hs0 H) as [H1|[H1|H1]]; auto; congruence.
      * intros h H. apply in_app_or in H. destruct H as [H|[H|[]]]; [|discriminate].
        destruct (h_asked0 h H) as [|(x & Hx)]; auto. right. exists x. apply in_or_app; auto.
    + apply (HI_same s _ [EAssert]); auto. intros h [H|[]]. discriminate.
Qed.
Lemma HI_run : forall ops, atomic_adds ops -> HI (run ops).
Proof.
  intros ops. induction ops as [|o ops IH] using rev_ind; intros H.
  - constructor; cbn; try tauto; try discriminate.
  - rewrite run_snoc. apply HI_step.
    + apply IH. intros h. destruct (H h) as [H1 H2]. rewrite in_app_iff in H1, H2. tauto.
    + intros h. destruct (H h) as [H1 H2]. rewrite in_app_iff in H1, H2. cbn in H1, H2. split; intros ->; tauto.
Qed.

(** Every registration runs once. *)
Definition starts (l : list ev) : list (bool * nat) :=
  flat_map (fun e => match e with EStart b r _ _ _ => [(b, r)] | _ => [] end) l.
Lemma starts_app : forall l m, starts (l ++ m) = starts l ++ starts m.
Proof. intros. unfold starts. apply flat_map_app. Qed.
Lemma in_starts : forall b r l, In (b, r) (starts l) <-> exists ks ps ns, In (EStart b r ks ps ns) l.
Proof.
  intros b r l. unfold starts. rewrite in_flat_map. split.
  - intros (e & H & Hi). destruct e; try contradiction. destruct Hi as [Hi|[]]. injection Hi as -> ->. eauto.
  - intros (ks & ps & ns & H). eexists. split; [exact H|]. left. reflexivity.
Qed.
Lemma starts_sync : forall s, starts (s_log (sync_completed s)) = starts (s_log s).
Proof.
  intros s. destruct (sync_completed_log s) as (e & He & El). rewrite El, starts_app.
  destruct He as [-> | ->]; cbn; apply app_nil_r.
Qed.
Lemma starts_remove : forall s f, starts (s_log (remove_pending f s)) = starts (s_log s).
Proof.
  intros s f. unfold remove_pending. destruct (after_removal (s_sync s) (f (s_sync s))); cbv zeta;
    match goal with |- context [if ?b then _ else _] => destruct b end; cbn; auto; apply (starts_sync (set_sync (f (s_sync s)) s)).
Qed.
Lemma step_starts : forall s o, starts (s_log (step s o)) = starts (s_log s) \/
  exists j l, s_jobs s = j :: l /\ starts (s_log (step s o)) = starts (s_log s) ++ [jkey j].
Proof.
  intros s o.
  assert (Hr : forall h, starts (s_log (read_flag h s)) = starts (s_log s)).
  { intros h. unfold read_flag. destruct (s_flag s); cbn; rewrite starts_app; cbn; apply app_nil_r. }
  destruct o as [ks|r|ks|h|h|h| |p i|p|p| |ks]; cbn [step].
  - left. unfold request_sync. destruct (s_sync s); cbn; rewrite starts_app; apply app_nil_r.
  - left. destruct (_ && _); auto. destruct (s_pc s); try destruct (_ =? r); cbn; rewrite starts_app; apply app_nil_r.
  - left. cbn. rewrite starts_app; apply app_nil_r.
  - left. destruct (asked h (s_log s)); auto.
  - left. destruct (mem h (s_read s)); auto.
  - left. destruct (_ || _); auto. cbv zeta. match goal with |- context [if mem h ?l then _ else _] => destruct (mem h l) end; cbn; auto.
  - destruct (is_idle (s_pc s)); auto. destruct (s_jobs s) as [|j l] eqn:Ej; auto. right. exists j, l. split; auto.
    unfold register. destruct (j_async j) eqn:Ea; cbv zeta.
    + cbn [s_async set_async]. destruct (_ ++ _); cbn; rewrite starts_app; cbn; unfold jkey; rewrite Ea; reflexivity.
    + cbn [s_sync set_sync]. destruct (_ ++ _); [rewrite starts_sync|]; cbn; rewrite starts_app; cbn; unfold jkey; rewrite Ea; reflexivity.
  - left. destruct (_ && _); auto. unfold ack. rewrite starts_remove. cbn. rewrite starts_app. apply app_nil_r.
  - left. destruct (_ && _); auto. unfold leave. rewrite starts_remove. cbn. rewrite starts_app. apply app_nil_r.
  - left. destruct (_ && _); auto. cbn. rewrite starts_app. apply app_nil_r.
  - left. destruct (s_pc s); auto. cbn. rewrite starts_app.
    assert (E : starts (map (fun h => EInvoke h false) (s_hs s)) = []) by (induction (s_hs s); cbn; auto). rewrite E. apply app_nil_r.
  - left. destruct (is_idle (s_pc s)); auto. unfold request_sync. destruct (s_sync s); cbn; rewrite starts_app; apply app_nil_r.
Qed.
Lemma starts_nodup : forall ops, NoDup (starts (s_log (run ops))).
Proof.
  intros ops. induction ops as [|o ops IH] using rev_ind; [constructor|]. rewrite run_snoc.
  destruct (step_starts (run ops) o) as [-> | (j & l & Ej & ->)]; auto.
  apply nodup_app; auto; [repeat constructor; intros []|]. intros [b r] H [E|[]]. apply in_starts in H. destruct H as (ks & ps & ns & H).
  assert (Hj : In j (s_jobs (run ops))) by (rewrite Ej; left; reflexivity).
  destruct (p_jobs _ (P_run ops) j Hj) as [_ Hn]. unfold jkey in E. injection E as <- <-. exact (Hn _ _ _ H).
Qed.
Lemma start_unique : forall ops a c a' c' b r ks ps ns ks' ps' ns',
  s_log (run ops) = a ++ EStart b r ks ps ns :: c -> s_log (run ops) = a' ++ EStart b r ks' ps' ns' :: c' ->
  a = a' /\ c = c' /\ ks = ks' /\ ps = ps' /\ ns = ns'.
Proof.
  intros ops a c a' c' b r ks ps ns ks' ps' ns' E E'. pose proof (starts_nodup ops) as Hnd. rewrite E in Hnd.
  rewrite starts_app in Hnd. cbn in Hnd. apply NoDup_remove_2 in Hnd. rewrite E in E'. clear E.
  revert a' E' Hnd. induction a as [|x a IH]; intros a' E' Hnd.
  - destruct a' as [|y a']; cbn in E'; [injection E' as -> -> -> ->; auto|].
    exfalso. injection E' as _ E'. apply Hnd. cbn. rewrite E', starts_app. cbn. apply in_or_app. right. left. reflexivity.
  - destruct a' as [|y a']; cbn in E'.
    + exfalso. injection E' as -> E'. apply Hnd. cbn. left. reflexivity.
    + injection E' as -> E'. destruct (IH a' E') as (-> & -> & -> & -> & ->); auto.
      intros H. apply Hnd. cbn. rewrite <- app_assoc. apply in_or_app. right. exact H.
Qed.

(** Bounds which hold in all executions. *)
Record B (s : st) : Prop := {
  b_cur : s_cur s <= s_nreq s;
  b_set : forall x, In x (s_set s) \/ In x (s_broken s) -> x <= s_nreq s;
  b_ret : forall r, In (EReturn r) (s_log s) -> r <= s_nreq s }.
Lemma B_sync : forall s, B s -> B (sync_completed s).
Proof.
  intros s []. unfold sync_completed. destruct (mem _ _); constructor; cbn; auto.
  - intros r H. apply b_ret0. eapply in_snoc_neq; eauto. discriminate.
  - intros x [[<-|H]|H]; auto.
  - intros r H. apply b_ret0. eapply in_snoc_neq; eauto. discriminate.
Qed.
Lemma B_ext : forall s s' es, B s -> s_cur s' = s_cur s -> s_nreq s' = s_nreq s -> s_set s' = s_set s -> s_broken s' = s_broken s ->
  s_log s' = s_log s ++ es -> (forall r, ~ In (EReturn r) es) -> B s'.
Proof.
  intros s s' es [] E1 E2 E3 E4 El H. constructor; rewrite ?E1, ?E2, ?E3, ?E4, ?El; auto.
  intros r Hr. apply in_app_or in Hr. destruct Hr as [Hr|Hr]; auto. exfalso. eapply H; eauto.
Qed.
Lemma B_remove : forall s f, B s -> B (remove_pending f s).
Proof.
  intros s f HB. unfold remove_pending. cbv zeta.
  assert (H : B (set_sync (f (s_sync s)) s)) by (apply (B_ext s _ []); auto; cbn; rewrite app_nil_r; auto).
  destruct (after_removal (s_sync s) (f (s_sync s))).
  - pose proof (B_sync _ H) as H1. match goal with |- context [if ?b then _ else _] => destruct b end;
      (apply (B_ext (sync_completed (set_sync (f (s_sync s)) s)) _ []); auto; cbn; rewrite app_nil_r; auto).
  - match goal with |- context [if ?b then _ else _] => destruct b end; (apply (B_ext s _ []); auto; cbn; rewrite app_nil_r; auto).
Qed.
Lemma B_request : forall s ks r s', B s -> request_sync ks s = Some (r, s') ->
  B s' /\ r = S (s_nreq s) /\ s_cur s' = r /\ ~ In r (s_set s') /\ ~ In r (s_broken s') /\ s_log s' = s_log s ++ [EReq r ks].
Proof.
  intros s ks r s' [] H. unfold request_sync in H. destruct (s_sync s); [|discriminate]. injection H as <- <-. cbn.
  assert (Hb : forall x, In x (if mem (s_cur s) (s_set s) then s_broken s else s_cur s :: s_broken s) -> x <= s_nreq s).
  { intros x H. destruct (mem _ _); auto. destruct H as [<-|H]; auto. }
  split; [|repeat split].
  - constructor; cbn; auto.
    + intros x [H|H]; [specialize (b_set0 x (or_introl H))|specialize (Hb x H)]; lia.
    + intros r H. apply in_snoc_neq in H; [|discriminate]. apply b_ret0 in H. lia.
  - intros H. specialize (b_set0 _ (or_introl H)). lia.
  - intros H. specialize (Hb _ H). lia.
Qed.
Lemma B_run : forall ops, B (run ops).
Proof.
  intros ops. induction ops as [|o ops IH] using rev_ind; [constructor; cbn; tauto || lia|]. rewrite run_snoc. set (s := run ops) in *.
  assert (Hr : forall h, B (read_flag h s)).
  { intros h. unfold read_flag. destruct (s_flag s); [apply (B_ext s _ [EAsk h])|apply (B_ext s _ [EAsk h; EInvoke h true])]; auto; intros r H; cbn in H; intuition discriminate. }
  destruct o as [ks|r|ks|h|h|h| |p i|p|p| |ks]; cbn [step].
  - destruct (request_sync ks s) as [[r s']|] eqn:E; [eapply B_request; eauto|].
    apply (B_ext s _ [EAssert]); auto. intros r [H|[]]; discriminate.
  - destruct (requested r (s_log s)) eqn:Er; [|exact IH]. destruct (returned r (s_log s)); [exact IH|]. destruct (ready r s); [|exact IH]. cbn [andb negb].
    apply requested_In in Er. destruct Er as (ks & Er). apply (p_req _ (P_run ops) false) in Er. cbn in Er. destruct Er as [Er _].
    assert (H : forall t, s_cur t = s_cur s -> s_nreq t = s_nreq s -> s_set t = s_set s -> s_broken t = s_broken s -> s_log t = s_log s ++ [EReturn r] -> B t).
    { intros t E1 E2 E3 E4 El. destruct IH. constructor; rewrite ?E1, ?E2, ?E3, ?E4, ?El; auto.
      intros q Hq. apply in_app_or in Hq. destruct Hq as [Hq|[Hq|[]]]; auto. injection Hq as <-. apply Er. }
    destruct (s_pc s); try destruct (_ =? r); apply H; reflexivity.
  - apply (B_ext s _ [EReqA (S (s_nreqa s)) ks]); auto. intros r [H|[]]; discriminate.
  - destruct (asked h (s_log s)); auto.
  - destruct (mem h (s_read s)); auto. apply (B_ext s _ []); auto. cbn. rewrite app_nil_r. auto.
  - destruct (_ || _); auto. cbv zeta. match goal with |- context [if mem h ?l then _ else _] => destruct (mem h l) end; auto.
    apply (B_ext (read_flag h s) _ []); auto. cbn. rewrite app_nil_r. auto.
  - destruct (is_idle (s_pc s)); auto. destruct (s_jobs s) as [|j l]; auto. unfold register. cbv zeta.
    assert (H : forall t, s_cur t = s_cur s -> s_nreq t = s_nreq s -> s_set t = s_set s -> s_broken t = s_broken s ->
      s_log t = s_log s ++ [EStart (j_async j) (j_id j) (j_keys j) (s_peers s) (news (s_seen s) (s_next s) (j_keys j))] -> B t).
    { intros t E1 E2 E3 E4 El. eapply B_ext; eauto. intros r [H|[]]; discriminate. }
    destruct (j_async j).
    + cbn [s_async set_async]. match goal with |- B (match ?x with _ => _ end) => destruct x end; apply H; reflexivity.
    + cbn [s_sync set_sync]. match goal with |- B (match ?x with _ => _ end) => destruct x end; [apply B_sync|]; apply H; reflexivity.
  - destruct (_ && _); auto. unfold ack. apply B_remove. apply (B_ext s _ [EAck p i]); auto. intros r [H|[]]; discriminate.
  - destruct (_ && _); auto. unfold leave. apply B_remove. apply (B_ext s _ [ELeave p]); auto. intros r [H|[]]; discriminate.
  - destruct (_ && _); auto. apply (B_ext s _ [EJoin p]); auto. intros r [H|[]]; discriminate.
  - destruct (s_pc s); auto.
    + apply (B_ext s _ (map (fun h => EInvoke h false) (s_hs s))); auto. intros r H. apply in_map_iff in H. destruct H as (h & H & _). discriminate.
    + apply (B_ext s _ []); auto. cbn. rewrite app_nil_r. auto.
    + apply (B_ext s _ []); auto. cbn. rewrite app_nil_r. auto.
  - destruct (is_idle (s_pc s)); auto. destruct (request_sync ks s) as [[r s']|] eqn:E.
    + destruct (B_request s ks r s' IH E) as (H & _). apply (B_ext s' _ []); auto. cbn. rewrite app_nil_r. auto.
    + apply (B_ext s _ [EAssert]); auto. intros r [H|[]]; discriminate.
Qed.

(** The I/O thread waits for itself. *)
Record Hang (r : nat) (s : st) : Prop := {
  g_pc : s_pc s = PWait r;
  g_set : ~ In r (s_set s);
  g_broken : ~ In r (s_broken s);
  g_ret : ~ In (EReturn r) (s_log s) }.
Lemma Hang_step : forall r s o, Hang r s -> (forall ks, o <> USync ks) -> Hang r (step s o).
Proof.
  intros r s o HH Ho. pose proof HH as HH0. destruct HH.
  assert (Hsame : forall s' es, s_pc s' = s_pc s -> s_set s' = s_set s -> s_broken s' = s_broken s -> s_log s' = s_log s ++ es -> ~ In (EReturn r) es -> Hang r s').
  { intros s' es E1 E2 E3 El H. constructor; rewrite ?E1, ?E2, ?E3, ?El; auto. rewrite in_app_iff. tauto. }
  assert (Hrd : forall h, Hang r (read_flag h s)).
  { intros h. unfold read_flag. destruct (s_flag s); [apply (Hsame _ [EAsk h])|apply (Hsame _ [EAsk h; EInvoke h true])]; auto; cbn; intuition discriminate. }
  destruct o as [ks|q|ks|h|h|h| |p i|p|p| |ks]; cbn [step]; rewrite ?g_pc0; cbn [is_idle andb negb orb]; auto.
  - exfalso. exact (Ho ks eq_refl).
  - destruct (requested q (s_log s)); [|exact HH0]. destruct (returned q (s_log s)); [exact HH0|]. destruct (ready q s) eqn:Er; [|exact HH0]. cbn [andb negb].
    destruct (Nat.eqb_spec r q) as [->|Hne].
    + exfalso. unfold ready in Er. apply orb_true_iff in Er. rewrite !mem_In in Er. tauto.
    + apply (Hsame _ [EReturn q]); auto. intros [H|[]]. congruence.
  - apply (Hsame _ [EReqA (S (s_nreqa s)) ks]); auto. intros [H|[]]. discriminate.
  - destruct (asked h (s_log s)); auto.
  - destruct (mem h (s_read s)); auto. apply (Hsame _ []); auto. cbn. rewrite app_nil_r. auto.
  - destruct (asked h (s_log s)); auto.
Qed.
Lemma Hang_run : forall r ops s, Hang r s -> (forall ks, ~ In (USync ks) ops) -> Hang r (fold_left step ops s).
Proof.
  intros r ops. induction ops as [|o ops IH]; intros s H Hn; cbn; auto. apply IH.
  - apply Hang_step; auto. intros ks ->. apply (Hn ks). left. reflexivity.
  - intros ks Hi. apply (Hn ks). right. exact Hi.
Qed.

(** A registration runs after it was requested. *)
Definition Truth3 (a : list ev) (e : ev) : Prop :=
  match e with EStart b r ks _ _ => In (req b r ks) a | _ => True end.
Lemma truth3_app : forall l es, AllTruth Truth3 l -> starts es = [] -> AllTruth Truth3 (l ++ es).
Proof.
  intros l es. revert l. induction es as [|e es IH]; intros l H Hs; [rewrite app_nil_r; exact H|].
  change (e :: es) with ([e] ++ es). rewrite app_assoc. apply IH.
  - apply truth_snoc; auto. destruct e; try exact I. discriminate.
  - destruct e; cbn in *; auto; discriminate.
Qed.
Lemma sync_completed_t3 : forall s, AllTruth Truth3 (s_log s) -> AllTruth Truth3 (s_log (sync_completed s)).
Proof.
  intros s H. destruct (sync_completed_log s) as (e & He & El). rewrite El. apply truth3_app; auto.
  destruct He as [-> | ->]; reflexivity.
Qed.
Lemma remove_t3 : forall s f, AllTruth Truth3 (s_log s) -> AllTruth Truth3 (s_log (remove_pending f s)).
Proof.
  intros s f H. unfold remove_pending. cbv zeta. destruct (after_removal (s_sync s) (f (s_sync s)));
    match goal with |- context [if ?b then _ else _] => destruct b end; cbn; auto; apply (sync_completed_t3 (set_sync (f (s_sync s)) s)); exact H.
Qed.
Lemma T3_run : forall ops, AllTruth Truth3 (s_log (run ops)).
Proof.
  intros ops. induction ops as [|o ops IH] using rev_ind; [intros a e b E; destruct a; discriminate|]. rewrite run_snoc.
  pose proof (P_run ops) as HP. set (s := run ops) in *.
  assert (Hr : forall h, AllTruth Truth3 (s_log (read_flag h s))) by (intros h; unfold read_flag; destruct (s_flag s); cbn; apply truth3_app; auto).
  destruct o as [ks|r|ks|h|h|h| |p i|p|p| |ks]; cbn [step].
  - unfold request_sync. destruct (s_sync s); cbn; apply truth3_app; auto.
  - destruct (_ && _); auto. destruct (s_pc s); try destruct (_ =? r); cbn; apply truth3_app; auto.
  - cbn. apply truth3_app; auto.
  - destruct (asked h (s_log s)); auto.
  - destruct (mem h (s_read s)); auto.
  - destruct (_ || _); auto. cbv zeta. match goal with |- context [if mem h ?l then _ else _] => destruct (mem h l) end; cbn; auto.
  - destruct (is_idle (s_pc s)); auto. destruct (s_jobs s) as [|j l] eqn:Ej; auto.
    assert (Hj : In j (s_jobs s)) by (rewrite Ej; left; reflexivity). apply (p_jobs _ HP) in Hj. destruct Hj as [Hj _].
    unfold register. cbv zeta.
    assert (H : forall t, s_log t = s_log s ++ [EStart (j_async j) (j_id j) (j_keys j) (s_peers s) (news (s_seen s) (s_next s) (j_keys j))] -> AllTruth Truth3 (s_log t)).
    { intros t ->. apply truth_snoc; auto. }
    destruct (j_async j) eqn:Ea.
    + cbn [s_async set_async]. match goal with |- context [match ?x with [] => _ | _ => _ end] => destruct x end; apply H; reflexivity.
    + cbn [s_sync set_sync]. match goal with |- context [match ?x with [] => _ | _ => _ end] => destruct x end; [apply sync_completed_t3|]; apply H; reflexivity.
  - destruct (_ && _); auto. unfold ack. apply remove_t3. cbn. apply truth3_app; auto.
  - destruct (_ && _); auto. unfold leave. apply remove_t3. cbn. apply truth3_app; auto.
  - destruct (_ && _); auto. cbn. apply truth3_app; auto.
  - destruct (s_pc s); auto. cbn. apply truth3_app; auto. induction (s_hs s); cbn; auto.
  - destruct (is_idle (s_pc s)); auto. unfold request_sync. destruct (s_sync s); cbn; apply truth3_app; auto.
Qed.
Lemma started_after : forall ops a c b r ks ps ns, s_log (run ops) = a ++ EStart b r ks ps ns :: c -> In (req b r ks) a.
Proof. intros ops a c b r ks ps ns E. exact (T3_run ops _ _ _ E). Qed.
