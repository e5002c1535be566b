(** Invariants of the registry. *)
From Coq Require Import List Arith Bool Lia.
From Verif Require Import Base RegistryModel.
Import ListNotations.

Lemma keqb_eq : forall a b, keqb a b = true <-> a = b.
Proof.
  intros [a b] [c d]. unfold keqb. cbn. rewrite andb_true_iff, !Nat.eqb_eq. split; [intros [-> ->]; auto|].
  intros H; injection H; auto.
Qed.
Lemma keqb_refl : forall a, keqb a a = true.
Proof. intros; apply keqb_eq; reflexivity. Qed.
Lemma keqb_neq : forall a b, keqb a b = false <-> a <> b.
Proof.
  intros a b. destruct (keqb a b) eqn:E.
  - apply keqb_eq in E. split; [discriminate|contradiction].
  - split; auto. intros _ ->. rewrite keqb_refl in E. discriminate.
Qed.
Lemma keqb_sym : forall a b, keqb a b = keqb b a.
Proof.
  intros a b. destruct (keqb a b) eqn:E; symmetry; [apply keqb_eq in E; subst; apply keqb_refl|].
  apply keqb_neq. apply keqb_neq in E. auto.
Qed.
Lemma mem_In : forall p l, mem p l = true <-> In p l.
Proof.
  intros p l. unfold mem. rewrite existsb_exists. split.
  - intros (x & H & E). apply Nat.eqb_eq in E. subst; exact H.
  - intros H. exists p. split; [exact H|apply Nat.eqb_refl].
Qed.
Lemma mem_false : forall p l, mem p l = false <-> ~ In p l.
Proof.
  intros p l. rewrite <- mem_In. destruct (mem p l); split; try discriminate; auto.
  intros H. exfalso. apply H. reflexivity.
Qed.

Lemma find_some : forall k l p, find k l = Some p -> In (k, p) l.
Proof.
  intros k l p. induction l as [|[k' q] l IH]; cbn; [discriminate|].
  destruct (keqb k k') eqn:E; [|auto]. apply keqb_eq in E. subst. intros H; injection H as ->; auto.
Qed.
Lemma find_none : forall k l, find k l = None -> forall p, ~ In (k, p) l.
Proof.
  intros k l. induction l as [|[k' q] l IH]; cbn; [auto|].
  destruct (keqb k k') eqn:E; [discriminate|]. intros H p [Hx|Hx].
  - injection Hx as -> ->. rewrite keqb_refl in E. discriminate.
  - exact (IH H p Hx).
Qed.
Lemma find_in : forall k l p, NoDup (map fst l) -> In (k, p) l -> find k l = Some p.
Proof.
  intros k l p. induction l as [|[k' q] l IH]; cbn; [contradiction|].
  intros Hnd Hin. apply NoDup_cons_iff in Hnd. destruct Hnd as [Hn Hnd].
  destruct Hin as [H|H].
  - injection H as -> ->. rewrite keqb_refl. reflexivity.
  - destruct (keqb k k') eqn:E; [|auto]. apply keqb_eq in E. subst k'.
    exfalso. apply Hn. apply (in_map fst) in H. exact H.
Qed.
Lemma nodup_key : forall (l : list (key * nat)) k p q, NoDup (map fst l) -> In (k, p) l -> In (k, q) l -> p = q.
Proof.
  intros l k p q Hnd H1 H2. apply find_in in H1; auto. apply find_in in H2; auto. congruence.
Qed.
Lemma in_erase : forall k l e, In e (erase k l) <-> In e l /\ fst e <> k.
Proof.
  intros k l e. unfold erase. rewrite filter_In, negb_true_iff, keqb_neq. intuition.
Qed.
Lemma nodup_map_filter : forall {A B} (f : A -> B) (g : A -> bool) l, NoDup (map f l) -> NoDup (map f (filter g l)).
Proof.
  intros A B f g l. induction l as [|x l IH]; cbn; auto. intros H. apply NoDup_cons_iff in H. destruct H as [H1 H2].
  destruct (g x); cbn; auto. apply NoDup_cons; auto. intros Hin. apply H1.
  apply in_map_iff in Hin. destruct Hin as (y & E & Hy). apply filter_In in Hy. apply in_map_iff. exists y. tauto.
Qed.

Lemma app_split : forall {A} (l1 l2 a b : list A) e, l1 ++ l2 = a ++ e :: b ->
  (exists b', l1 = a ++ e :: b' /\ b = b' ++ l2) \/ (exists a', a = l1 ++ a' /\ l2 = a' ++ e :: b).
Proof.
  intros A l1. induction l1 as [|x l1 IH]; intros l2 a b e H; cbn in *.
  - right. exists a. auto.
  - destruct a as [|y a]; cbn in *.
    + injection H as -> H. left. exists l1. auto.
    + injection H as -> H. destruct (IH _ _ _ _ H) as [(b' & -> & ->)|(a' & -> & ->)].
      * left. exists b'. auto.
      * right. exists a'. auto.
Qed.

Lemma run_snoc : forall ops o, run (ops ++ [o]) = step (run ops) o.
Proof. intros. unfold run. rewrite fold_left_app. reflexivity. Qed.

(** ---- The effect of each operation ---- *)
Definition is_join (e : ev) : Prop := exists p s n, e = EJoin p s n.
Definition is_left (e : ev) : Prop := exists p, e = ELeft p.

Lemma notify_spec : forall s p k l es, notify s p k l = Some es ->
  forall e, In e es -> exists q dst, e = EDeliver p q (fst k) (snd k) dst true /\ In (k, dst) l /\
                                     find (fst k, dst) (r_names s) = Some q /\ In q (r_alive s).
Proof.
  intros s p k l. induction l as [|[k' d] l IH]; cbn; intros es H e He.
  - injection H as <-. contradiction.
  - destruct (notify s p k l) as [es'|] eqn:En; [|discriminate].
    destruct (keqb k k') eqn:Ek.
    + apply keqb_eq in Ek. subst k'. destruct (find (fst k, d) (r_names s)) as [q|] eqn:Ef.
      * destruct (mem q (r_alive s)) eqn:Em; [|discriminate]. injection H as <-. destruct He as [<-|He].
        -- exists q, d. rewrite mem_In in Em. auto.
        -- destruct (IH _ eq_refl e He) as (q' & d' & H1 & H2 & H3). exists q', d'. auto.
      * injection H as <-. destruct (IH _ eq_refl e He) as (q' & d' & H1 & H2 & H3). exists q', d'. auto.
    + injection H as <-. destruct (IH _ eq_refl e He) as (q' & d' & H1 & H2 & H3). exists q', d'. auto.
Qed.

(** ---- Uniqueness, for all histories ---- *)
Record U (s : st) : Prop := {
  u_nodup : NoDup (map fst (r_conn s));
  u_joined : forall p a n, In (EJoin p a n) (r_log s) -> In (ELeft p) (r_log s) \/ In ((a, n), p) (r_conn s);
  u_conn : forall k p, In (k, p) (r_conn s) -> In (EJoin p (fst k) (snd k)) (r_log s);
  u_left : forall p, In (ELeft p) (r_log s) -> ~ In p (r_alive s) /\ In p (r_used s);
  u_alive : forall p, In p (r_alive s) -> In p (r_used s);
  u_order : forall a b p x n, r_log s = a ++ EJoin p x n :: b -> ~ In (ELeft p) a;
  u_unique : forall a b c p q x n, r_log s = a ++ EJoin p x n :: b ++ EJoin q x n :: c -> In (ELeft p) b }.

Lemma U_init : U init.
Proof.
  constructor; cbn; try contradiction; try constructor; intros; try contradiction; destruct a; discriminate.
Qed.

(** Nothing but harmless events is added to the log. *)
Lemma U_quiet : forall s s' es, U s ->
  (forall e, In e es -> ~ is_join e /\ ~ is_left e) ->
  r_log s' = r_log s ++ es -> r_conn s' = r_conn s ->
  (forall p, In p (r_used s) -> In p (r_used s')) ->
  (forall p, In p (r_alive s') -> In p (r_used s') /\ (In p (r_alive s) \/ ~ In p (r_used s))) ->
  U s'.
Proof.
  intros s s' es HU Hes El Ec Hu Ha. destruct HU.
  assert (Hj : forall p x n, ~ In (EJoin p x n) es).
  { intros p x n H. apply Hes in H. destruct H as [H _]. apply H. exists p, x, n. reflexivity. }
  assert (Hl : forall p, ~ In (ELeft p) es).
  { intros p H. apply Hes in H. destruct H as [_ H]. apply H. exists p. reflexivity. }
  assert (Hj2 : forall p x n, In (EJoin p x n) (r_log s') -> In (EJoin p x n) (r_log s)).
  { intros p x n H. rewrite El in H. apply in_app_or in H. destruct H as [H|H]; auto. apply Hj in H; contradiction. }
  constructor; rewrite ?Ec; auto.
  - intros p x n H. apply Hj2 in H. destruct (u_joined0 p x n H) as [Hx|Hx]; auto. left. rewrite El. apply in_or_app; auto.
  - intros k p H. rewrite El. apply in_or_app. left. auto.
  - intros p H. rewrite El in H. apply in_app_or in H. destruct H as [H|H]; [|apply Hl in H; contradiction].
    destruct (u_left0 p H) as [H1 H2]. split; auto. intros H3. apply Ha in H3. tauto.
  - intros p H. apply Ha in H. tauto.
  - intros a b p x n E. rewrite El in E. destruct (app_split _ _ _ _ _ E) as [(b' & E' & _)|(a' & _ & E')].
    + apply (u_order0 a b' p x n E').
    + exfalso. apply (Hj p x n). rewrite E'. apply in_elt.
  - intros a b c p q x n E. rewrite El in E. rewrite app_comm_cons, app_assoc in E.
    destruct (app_split _ _ _ _ _ E) as [(b' & E' & _)|(a' & _ & E')].
    + rewrite <- app_assoc in E'. apply (u_unique0 a b b' p q x n E').
    + exfalso. apply (Hj q x n). rewrite E'. apply in_elt.
Qed.

Lemma U_announce : forall s p x n, U s -> In p (r_alive s) -> U (announce p x n s).
Proof.
  intros s p x n HU Hp. unfold announce. cbn [set_info r_conn r_alive].
  destruct (find (x, n) (r_conn s)) as [q|] eqn:Ef.
  - apply (U_quiet s _ [ERejected p x n] HU); cbn; auto.
    + intros e [<-|[]]. split; intros H; [destruct H as (a & b & c & H)|destruct H as (a & H)]; discriminate.
    + intros q' Hq. split; auto. apply (u_alive _ HU); auto.
  - destruct (forallb _ _) eqn:Efa.
    2:{ apply (U_quiet s _ [] HU); cbn; auto; try (rewrite app_nil_r; reflexivity); try contradiction.
        intros q' Hq. split; auto. apply (u_alive _ HU); auto. }
    clear Efa. set (l := map _ _). clearbody l.
    assert (HU1 : U (out [EKnown p x l] s)).
    { apply (U_quiet s _ [EKnown p x l] HU); cbn; auto.
      - intros e [<-|[]]. split; intros H; [destruct H as (a & b & c & H)|destruct H as (a & H)]; discriminate.
      - intros q' Hq. split; auto. apply (u_alive _ HU); auto. }
    assert (Hgen : forall s', r_log s' = r_log (out [EKnown p x l] s) ++ [EJoin p x n] ->
      r_conn s' = ((x, n), p) :: r_conn s -> r_used s' = r_used s -> r_alive s' = r_alive s -> U s').
    { intros s' El Ec Eu Ea. destruct HU1. cbn [out r_conn r_used r_alive] in *.
      set (L := r_log (out [EKnown p x l] s)) in *.
      assert (Hnp : ~ In (ELeft p) L). { intros H. apply u_left0 in H. tauto. }
      constructor; rewrite ?El, ?Ec, ?Eu, ?Ea; auto.
      - cbn. apply NoDup_cons; auto. intros H. apply in_map_iff in H. destruct H as ([k q] & E & H). cbn in E. subst k.
        exact (find_none _ _ Ef q H).
      - intros p' a n' H. apply in_app_or in H. destruct H as [H|[H|[]]].
        + destruct (u_joined0 _ _ _ H) as [Hx|Hx]; [left; apply in_or_app; auto|right; right; exact Hx].
        + injection H as -> -> ->. right. left. reflexivity.
      - intros k p' [H|H]; apply in_or_app; [injection H as <- <-; right; left; reflexivity|left; apply u_conn0; exact H].
      - intros p' H. apply in_app_or in H. destruct H as [H|[H|[]]]; [|discriminate]. apply u_left0; exact H.
      - intros a b p' x' n' E. destruct (app_split _ _ _ _ _ E) as [(b' & E' & _)|(a' & -> & E')].
        + apply (u_order0 _ _ _ _ _ E').
        + destruct a' as [|y a']; [|destruct a'; discriminate]. injection E' as -> -> -> _. rewrite app_nil_r. exact Hnp.
      - intros a b c p' q x' n' E. rewrite app_comm_cons, app_assoc in E.
        destruct (app_split _ _ _ _ _ E) as [(b' & E' & _)|(a' & E2 & E')].
        + rewrite <- app_assoc in E'. apply (u_unique0 _ _ _ _ _ _ _ E').
        + destruct a' as [|y a']; [|destruct a'; discriminate]. injection E' as <- <- <- _.
          rewrite app_nil_r in E2.
          assert (Hin : In (EJoin p' x n) L) by (rewrite <- E2; apply in_elt).
          destruct (u_joined0 _ _ _ Hin) as [Hx|Hx].
          * assert (Ho := u_order0 a b p' x n (eq_sym E2)). rewrite <- E2 in Hx. apply in_app_or in Hx.
            destruct Hx as [Hx|[Hx|Hx]]; [contradiction|discriminate|exact Hx].
          * exfalso. exact (find_none _ _ Ef p' Hx). }
    cbn [set_conn out set_info r_names]. destruct (find (x, n) (r_names s)); apply Hgen; reflexivity.
Qed.

(** What a disconnect does, as one list of events. *)
Lemma disconnect_spec : forall s p, let k := r_info s p in
  (r_ub (disconnect p s) = true /\ notify s p k (r_dests s) = None /\
   disconnect p s = crash s) \/
  (exists es tl, notify s p k (r_dests s) = Some es /\
     r_log (disconnect p s) = r_log s ++ ELeft p :: es ++ tl /\
     r_used (disconnect p s) = r_used s /\
     r_alive (disconnect p s) = filter (fun q => negb (q =? p)) (r_alive s) /\
     r_info (disconnect p s) = r_info s /\
     r_names (disconnect p s) = erase k (r_names s) /\
     r_dests (disconnect p s) = r_dests s /\
     r_ub (disconnect p s) = r_ub s /\
     ((find k (r_conn s) = Some p /\ r_conn (disconnect p s) = erase k (r_conn s) /\
       tl = EGone (fst k) (snd k) :: match erase k (r_conn s) with [] => [EAllGone] | _ => [] end) \/
      (find k (r_conn s) <> Some p /\ r_conn (disconnect p s) = r_conn s /\ tl = []))).
Proof.
  intros s p k. unfold disconnect. fold k. cbn [out r_dests].
  destruct (notify s p k (r_dests s)) as [es|] eqn:En; [right|left; split; [|split]; reflexivity].
  exists es. cbn [out r_conn].
  destruct (find k (r_conn s)) as [q|] eqn:Ef.
  - destruct (q =? p) eqn:Eq.
    + apply Nat.eqb_eq in Eq. subst q.
      exists (EGone (fst k) (snd k) :: match erase k (r_conn s) with [] => [EAllGone] | _ => [] end). split; [reflexivity|].
      cbn [set_conn r_conn]. destruct (erase k (r_conn s)) eqn:Ee; cbn; rewrite ?Ee;
        (split; [rewrite <- ?app_assoc; cbn; rewrite <- ?app_assoc; reflexivity|]); repeat (split; [reflexivity|]); left; auto.
    + exists []. split; [reflexivity|]. cbn. split; [rewrite app_nil_r; reflexivity|].
      repeat (split; [reflexivity|]). right. split; [|auto]. intros H. injection H as ->.
      rewrite Nat.eqb_refl in Eq. discriminate.
  - exists []. split; [reflexivity|]. cbn. split; [rewrite app_nil_r; reflexivity|].
    repeat (split; [reflexivity|]). right. split; [|auto]. discriminate.
Qed.

Lemma U_disconnect : forall s p, U s -> In p (r_alive s) -> U (disconnect p s).
Proof.
  intros s p HU Hp.
  destruct (disconnect_spec s p) as [(_ & _ & E)|(es & tl & En & El & Eu & Ea & _ & _ & _ & _ & Ec)].
  { rewrite E. apply (U_quiet s _ [] HU); cbn; auto; try (rewrite app_nil_r; reflexivity); try contradiction.
    intros q' Hq. split; auto. apply (u_alive _ HU); auto. }
  assert (Hq : forall e, In e (es ++ tl) -> ~ is_join e /\ ~ is_left e).
  { intros e He. apply in_app_or in He. destruct He as [He|He].
    - destruct (notify_spec _ _ _ _ _ En e He) as (q & d & -> & _).
      split; intros H; [destruct H as (a & b & c & H)|destruct H as (a & H)]; discriminate.
    - destruct Ec as [(_ & _ & ->)|(_ & _ & ->)]; [|contradiction].
      destruct He as [<-|He].
      + split; intros H; [destruct H as (a & b & c & H)|destruct H as (a & H)]; discriminate.
      + destruct (erase _ _); [|contradiction]. destruct He as [<-|[]].
        split; intros H; [destruct H as (a & b & c & H)|destruct H as (a & H)]; discriminate. }
  assert (Hgen : forall s1, r_log s1 = r_log s ++ [ELeft p] -> r_used s1 = r_used s ->
    r_alive s1 = filter (fun q => negb (q =? p)) (r_alive s) -> r_conn s1 = r_conn (disconnect p s) -> U s1).
  { intros s1 El1 Eu1 Ea1 Ec1. destruct HU.
    assert (Hcin : forall e, In e (r_conn s1) -> In e (r_conn s)).
    { intros e. rewrite Ec1. destruct Ec as [(_ & -> & _)|(_ & -> & _)]; auto. rewrite in_erase. tauto. }
    constructor; rewrite ?Eu1, ?Ea1.
    - rewrite Ec1. destruct Ec as [(_ & -> & _)|(_ & -> & _)]; auto. apply nodup_map_filter. exact u_nodup0.
    - intros p' a n H. rewrite El1 in *. apply in_app_or in H. destruct H as [H|[H|[]]]; [|discriminate].
      destruct (u_joined0 _ _ _ H) as [Hx|Hx]; [left; apply in_or_app; auto|].
      destruct (Nat.eq_dec p' p) as [->|Hne]; [left; apply in_or_app; right; left; reflexivity|].
      right. rewrite Ec1. destruct Ec as [(Hf & -> & _)|(_ & -> & _)]; auto. apply in_erase. split; auto. cbn.
      intros E. rewrite E in Hx. apply find_in in Hx; auto. congruence.
    - intros k p' H. rewrite El1. apply in_or_app. left. apply u_conn0. auto.
    - intros p' H. rewrite El1 in H. apply in_app_or in H. rewrite filter_In, negb_true_iff, Nat.eqb_neq.
      destruct H as [H|[H|[]]].
      + apply u_left0 in H. tauto.
      + injection H as <-. split; [tauto|]. auto.
    - intros p' H. apply filter_In in H. apply u_alive0. tauto.
    - intros a b p' x n E. rewrite El1 in E. destruct (app_split _ _ _ _ _ E) as [(b' & E' & _)|(a' & -> & E')].
      + apply (u_order0 _ _ _ _ _ E').
      + destruct a' as [|y a']; [|destruct a']; discriminate.
    - intros a b c p' q x n E. rewrite El1 in E. rewrite app_comm_cons, app_assoc in E.
      destruct (app_split _ _ _ _ _ E) as [(b' & E' & _)|(a' & _ & E')].
      + rewrite <- app_assoc in E'. apply (u_unique0 _ _ _ _ _ _ _ E').
      + destruct a' as [|y a']; [|destruct a']; discriminate. }
  specialize (Hgen (mkSt (r_used s) (filter (fun q => negb (q =? p)) (r_alive s)) (r_info s)
    (r_conn (disconnect p s)) (r_names s) (r_dests s) (r_log s ++ [ELeft p]) (r_ub s))
    eq_refl eq_refl eq_refl eq_refl).
  eapply (U_quiet _ _ (es ++ tl) Hgen Hq).
  - rewrite El. cbn. rewrite <- app_assoc. reflexivity.
  - reflexivity.
  - rewrite Eu. auto.
  - rewrite Eu, Ea. cbn. intros q H. split; auto. apply filter_In in H. apply (u_alive _ HU). tauto.
Qed.

Ltac noev := intros e [<-|[]]; split; intros H;
  [destruct H as (? & ? & ? & H)|destruct H as (? & H)]; discriminate.

Lemma U_same : forall s s', U s -> r_log s' = r_log s -> r_conn s' = r_conn s -> r_used s' = r_used s ->
  r_alive s' = r_alive s -> U s'.
Proof.
  intros s s' HU E1 E2 E3 E4. destruct HU. constructor; rewrite ?E1, ?E2, ?E3, ?E4; auto.
Qed.

Lemma U_step : forall s o, U s -> U (step s o).
Proof.
  intros s o HU. unfold step. destruct (r_ub s); [exact HU|].
  assert (Hq : forall e s', ~ is_join e -> ~ is_left e -> r_log s' = r_log s ++ [e] -> r_conn s' = r_conn s ->
    r_used s' = r_used s -> r_alive s' = r_alive s -> U s').
  { intros e s' H1 H2 E1 E2 E3 E4. apply (U_quiet s _ [e] HU); rewrite ?E1, ?E2, ?E3, ?E4; auto.
    - intros e' [<-|[]]. auto.
    - intros p H. split; auto. apply (u_alive _ HU); auto. }
  destruct o as [p|p sim name|p|p src dst e|p x org tgt].
  - unfold connect. destruct (mem p (r_used s)) eqn:E; [exact HU|]. apply mem_false in E.
    apply (U_quiet s _ [] HU); cbn; auto; try contradiction.
    + rewrite app_nil_r; reflexivity.
    + intros q [<-|H]; auto. split; auto. right. apply (u_alive _ HU); auto.
  - destruct (mem _ _) eqn:E; [|exact HU]. apply mem_In in E. apply U_announce; auto.
  - destruct (mem _ _) eqn:E; [|exact HU]. apply mem_In in E. apply U_disconnect; auto.
  - destruct (mem _ _) eqn:E; [|exact HU]. unfold proxy. destruct (snd (r_info s p) =? src); [|exact HU].
    destruct (find _ _) as [q|].
    + destruct (mem q (r_alive s)); [|apply (U_same s); auto].
      eapply (Hq (EDeliver p q (fst (r_info s p)) src dst e));
        try (destruct (existsb _ _); reflexivity);
        intros H; [destruct H as (? & ? & ? & H)|destruct H as (? & H)]; discriminate.
    + eapply (Hq (ELost p (fst (r_info s p)) src dst)); try reflexivity;
        intros H; [destruct H as (? & ? & ? & H)|destruct H as (? & H)]; discriminate.
  - destruct (mem _ _) eqn:E; [|exact HU]. unfold request. destruct (match x with RAnnouncement => _ | _ => _ end) as [q|].
    + destruct (mem q (r_alive s)); [|apply (U_same s); auto].
      eapply Hq; [| |reflexivity..]; intros H; [destruct H as (? & ? & ? & H)|destruct H as (? & H)]; discriminate.
    + eapply Hq; [| |reflexivity..]; intros H; [destruct H as (? & ? & ? & H)|destruct H as (? & H)]; discriminate.
Qed.

Lemma U_run : forall ops, U (run ops).
Proof.
  intros ops. induction ops as [|o ops IH] using rev_ind; [apply U_init|]. rewrite run_snoc. apply U_step, IH.
Qed.

(** ---- Peers announcing themselves at most once ---- *)
Definition announcers (ops : list op) : list nat :=
  flat_map (fun o => match o with OAnnounce p _ _ => [p] | _ => [] end) ops.
Lemma announcers_snoc : forall ops o, announcers (ops ++ [o]) =
  announcers ops ++ match o with OAnnounce p _ _ => [p] | _ => [] end.
Proof. intros. unfold announcers. rewrite flat_map_app. cbn. rewrite app_nil_r. reflexivity. Qed.

Record O (A : list nat) (s : st) : Prop := {
  o_ub : r_ub s = false;
  o_conn : forall k p, In (k, p) (r_conn s) -> In p (r_alive s) /\ r_info s p = k;
  o_fresh : forall p, ~ In p A -> r_info s p = (0, 0) /\ forall k, ~ In (k, p) (r_conn s);
  o_names : forall k p, In (k, p) (r_names s) -> In (k, p) (r_conn s);
  o_unused : forall p, ~ In p (r_used s) -> r_info s p = (0, 0);
  o_namesnd : NoDup (map fst (r_names s));
  o_status : forall p, In p (r_alive s) -> r_info s p = (0, 0) \/ In (r_info s p, p) (r_conn s) \/
     In (ERejected p (fst (r_info s p)) (snd (r_info s p))) (r_log s) }.

Lemma O_init : O [] init.
Proof. constructor; cbn; try contradiction; auto. constructor. Qed.

(** Steps which change nothing of this but the log. *)
Lemma O_log : forall A s s', O A s -> r_ub s' = false -> r_conn s' = r_conn s -> r_alive s' = r_alive s ->
  r_info s' = r_info s -> r_names s' = r_names s -> r_used s' = r_used s -> (forall e, In e (r_log s) -> In e (r_log s')) -> O A s'.
Proof.
  intros A s s' H E0 E1 E2 E3 E4 E5 Hl. destruct H. constructor; rewrite ?E1, ?E2, ?E3, ?E4, ?E5; auto.
  intros p Hp. destruct (o_status0 p Hp) as [H|[H|H]]; auto.
Qed.

Lemma others_alive : forall A s p x, O A s ->
  forallb (fun e => mem (snd e) (r_alive s)) (others p x (r_conn s)) = true.
Proof.
  intros A s p x HO. apply forallb_forall. intros [k q] H. unfold others in H. apply filter_In in H.
  destruct H as [H _]. apply (o_conn _ _ HO) in H. cbn. apply mem_In. tauto.
Qed.
Lemma others_all : forall A s p x, O A s -> ~ In p A -> others p x (r_conn s) = filter (fun e => fst (fst e) =? x) (r_conn s).
Proof.
  intros A s p x HO Hp. unfold others. apply filter_ext_in. intros [k q] H. cbn.
  assert (q <> p). { intros ->. apply (o_fresh _ _ HO p Hp) in H. exact H. }
  destruct (Nat.eqb_spec q p); [contradiction|]. apply andb_true_r.
Qed.

(** An accepted announcement. *)
Definition joined_state (p x n : nat) (s : st) : st :=
  out [EJoin p x n]
    (let s1 := set_conn (((x, n), p) :: r_conn s) (out [EKnown p x (map (fun e => snd (fst e)) (others p x (r_conn s)))]
                 (set_info p (x, n) s)) in
     match find (x, n) (r_names s) with Some _ => s1 | None => set_names (((x, n), p) :: r_names s) s1 end).
Lemma announce_spec : forall A s p x n, O A s ->
  announce p x n s = match find (x, n) (r_conn s) with
                     | Some _ => out [ERejected p x n] (set_info p (x, n) s)
                     | None => joined_state p x n s
                     end.
Proof.
  intros A s p x n HO. unfold announce, joined_state. cbn [set_info r_conn r_alive].
  destruct (find (x, n) (r_conn s)); [reflexivity|]. rewrite (others_alive A s p x HO). reflexivity.
Qed.

Lemma O_announce : forall A s p x n, U s -> O A s -> ~ In p A -> In p (r_alive s) -> O (A ++ [p]) (announce p x n s).
Proof.
  intros A s p x n HU HO Hp Ha. rewrite (announce_spec A s p x n HO).
  destruct (o_fresh _ _ HO p Hp) as [Hi Hc].
  assert (Hfresh : forall q, ~ In q (A ++ [p]) -> ~ In q A /\ q <> p).
  { intros q H. split; intros Hx; apply H; apply in_or_app; [auto|right; left; auto]. }
  destruct (find (x, n) (r_conn s)) as [q0|] eqn:Ef.
  - destruct HO. constructor; cbn; auto.
    + intros k q H. destruct (o_conn0 k q H) as [H1 H2]. split; auto. destruct (Nat.eqb_spec q p) as [->|]; auto.
      exfalso. exact (Hc k H).
    + intros q Hq. apply Hfresh in Hq. destruct (Nat.eqb_spec q p); [tauto|]. apply o_fresh0; tauto.
    + intros q Hq. destruct (Nat.eqb_spec q p) as [->|]; auto. exfalso. apply Hq, (u_alive _ HU), Ha.
    + intros q Hq. destruct (Nat.eqb_spec q p) as [->|].
      * right; right. apply in_or_app. right. left. reflexivity.
      * destruct (o_status0 q Hq) as [H|[H|H]]; auto. right; right. apply in_or_app; auto.
  - assert (Hn : forall q, ~ In ((x, n), q) (r_names s)).
    { intros q H. apply (o_names _ _ HO) in H. exact (find_none _ _ Ef q H). }
    assert (En : find (x, n) (r_names s) = None).
    { destruct (find (x, n) (r_names s)) eqn:E; auto. apply find_some in E. exfalso. exact (Hn _ E). }
    unfold joined_state. rewrite En. destruct HO. constructor; cbn; auto.
    + intros k q [H|H].
      * injection H as <- <-. rewrite Nat.eqb_refl. auto.
      * destruct (o_conn0 k q H) as [H1 H2]. split; auto. destruct (Nat.eqb_spec q p) as [->|]; auto.
        exfalso. exact (Hc k H).
    + intros q Hq. apply Hfresh in Hq. destruct (Nat.eqb_spec q p); [tauto|]. destruct Hq as [Hq _].
      destruct (o_fresh0 q Hq) as [H1 H2]. split; auto. intros k [H|H]; [injection H as _ H; auto|exact (H2 k H)].
    + intros k q [H|H]; auto.
    + intros q Hq. destruct (Nat.eqb_spec q p) as [->|]; auto. exfalso. apply Hq, (u_alive _ HU), Ha.
    + apply NoDup_cons; auto. intros H. apply in_map_iff in H. destruct H as ([k q] & E & H). cbn in E. subst k.
      exact (Hn q H).
    + intros q Hq. destruct (Nat.eqb_spec q p) as [->|]; auto.
      destruct (o_status0 q Hq) as [H|[H|H]]; auto. right; right. rewrite <- app_assoc. apply in_or_app; auto.
Qed.

Lemma notify_some : forall A s p k l, O A s -> exists es, notify s p k l = Some es.
Proof.
  intros A s p k l HO. induction l as [|[k' d] l (es & IH)]; cbn; [eauto|]. rewrite IH.
  destruct (keqb k k'); [|eauto]. destruct (find (fst k, d) (r_names s)) as [q|] eqn:Ef; [|eauto].
  apply find_some in Ef. apply (o_names _ _ HO) in Ef. apply (o_conn _ _ HO) in Ef.
  destruct Ef as [Ef _]. apply mem_In in Ef. rewrite Ef. eauto.
Qed.

Lemma O_disconnect : forall A s p, U s -> O A s -> In p (r_alive s) -> O A (disconnect p s).
Proof.
  intros A s p HU HO Hp.
  destruct (disconnect_spec s p) as [(_ & En & _)|(es & tl & En & El & Eu & Ea & Ei & Enm & Ed & Eub & Ec)].
  { destruct (notify_some A s p (r_info s p) (r_dests s) HO). congruence. }
  assert (Hcin : forall e, In e (r_conn (disconnect p s)) -> In e (r_conn s)).
  { intros e. destruct Ec as [(_ & -> & _)|(_ & -> & _)]; auto. rewrite in_erase. tauto. }
  assert (Hnp : forall k, ~ In (k, p) (r_conn (disconnect p s))).
  { intros k H. pose proof (Hcin _ H) as H0. destruct (o_conn _ _ HO _ _ H0) as [_ Hk].
    destruct Ec as [(_ & E & _)|(Hf & E & _)].
    - rewrite E in H. apply in_erase in H. cbn in H. destruct H as [_ H]. congruence.
    - apply Hf. rewrite Hk. apply find_in; [apply (u_nodup _ HU)|exact H0]. }
  assert (Hkeep : forall k q, q <> p -> In (k, q) (r_conn s) -> In (k, q) (r_conn (disconnect p s))).
  { intros k q Hq H. destruct Ec as [(Hf & E & _)|(_ & E & _)]; rewrite E; auto. apply in_erase. split; auto.
    cbn. intros ->. apply find_in in H; [|apply (u_nodup _ HU)]. congruence. }
  assert (Hal : forall q, In q (r_alive (disconnect p s)) <-> In q (r_alive s) /\ q <> p).
  { intros q. rewrite Ea, filter_In, negb_true_iff, Nat.eqb_neq. tauto. }
  constructor; rewrite ?Eub, ?Ei.
  - apply (o_ub _ _ HO).
  - intros k q H. assert (q <> p) by (intros ->; exact (Hnp k H)). apply Hcin in H.
    destruct (o_conn _ _ HO k q H). rewrite Hal. auto.
  - intros q Hq. destruct (o_fresh _ _ HO q Hq) as [H1 H2]. split; auto. intros k H. apply Hcin in H. exact (H2 k H).
  - intros k q H. rewrite Enm in H. apply in_erase in H. destruct H as [H Hk]. cbn in Hk.
    apply (o_names _ _ HO) in H. apply Hkeep; auto. intros ->. destruct (o_conn _ _ HO _ _ H) as [_ H2]. congruence.
  - rewrite Eu. apply (o_unused _ _ HO).
  - rewrite Enm. apply nodup_map_filter. apply (o_namesnd _ _ HO).
  - intros q H. apply Hal in H. destruct H as [H Hq]. destruct (o_status _ _ HO q H) as [Hx|[Hx|Hx]]; auto.
    right; right. rewrite El. apply in_or_app; auto.
Qed.

Lemma names_alive : forall A s k q, O A s -> find k (r_names s) = Some q -> mem q (r_alive s) = true.
Proof.
  intros A s k q HO H. apply find_some in H. apply (o_names _ _ HO) in H. apply (o_conn _ _ HO) in H. apply mem_In. tauto.
Qed.

Lemma O_proxy : forall A s p src dst e, O A s -> O A (proxy p src dst e s).
Proof.
  intros A s p src dst e HO. unfold proxy. destruct (snd (r_info s p) =? src); [|exact HO].
  destruct (find _ (r_names s)) as [q|] eqn:Ef.
  - rewrite (names_alive A s _ q HO Ef). apply (O_log A s); auto; try (destruct (existsb _ _); reflexivity).
    + destruct (existsb _ _); apply (o_ub _ _ HO).
    + intros x Hx. destruct (existsb _ _); cbn; apply in_or_app; auto.
  - apply (O_log A s); auto; [apply (o_ub _ _ HO)|]. intros x Hx. cbn. apply in_or_app; auto.
Qed.
Lemma O_request : forall A s p x org tgt, O A s -> O A (request p x org tgt s).
Proof.
  intros A s p x org tgt HO. unfold request.
  destruct (match x with RAnnouncement => _ | _ => _ end) as [q|] eqn:Ef.
  - assert (Hm : mem q (r_alive s) = true) by (destruct x; try discriminate; eapply names_alive; eauto).
    rewrite Hm. apply (O_log A s); auto; [apply (o_ub _ _ HO)|]. intros y Hy. cbn. apply in_or_app; auto.
  - apply (O_log A s); auto; [apply (o_ub _ _ HO)|]. intros y Hy. cbn. apply in_or_app; auto.
Qed.

Lemma O_weaken : forall A B s, O A s -> O (A ++ B) s.
Proof. intros A B s H. destruct H. constructor; auto. intros p Hp. apply o_fresh0. intros H. apply Hp, in_or_app; auto. Qed.

Lemma nodup_app_l : forall {A} (l1 l2 : list A), NoDup (l1 ++ l2) -> NoDup l1.
Proof.
  intros A l1 l2. induction l1 as [|x l1 IH]; cbn; intros H; [constructor|].
  apply NoDup_cons_iff in H. destruct H as [H1 H2]. apply NoDup_cons; auto. intros H. apply H1, in_or_app; auto.
Qed.
Lemma nodup_snoc_notin : forall {A} (l : list A) x, NoDup (l ++ [x]) -> ~ In x l.
Proof. intros A l x H. apply NoDup_remove_2 in H. rewrite app_nil_r in H. exact H. Qed.

Lemma O_step : forall A s o, U s -> O A s ->
  NoDup (A ++ match o with OAnnounce p _ _ => [p] | _ => [] end) ->
  O (A ++ match o with OAnnounce p _ _ => [p] | _ => [] end) (step s o).
Proof.
  intros A s o HU HO Hnd. unfold step. rewrite (o_ub _ _ HO).
  destruct o as [p|p sim name|p|p src dst e|p x org tgt]; try (rewrite app_nil_r).
  - unfold connect. destruct (mem p (r_used s)) eqn:E; [exact HO|]. destruct HO. constructor; cbn; auto.
    + intros k q H. destruct (o_conn0 k q H); auto.
    + intros q [<-|H]; auto. left. apply o_unused0. apply mem_false in E. exact E.
  - destruct (mem _ _) eqn:E; [|apply O_weaken; exact HO]. apply mem_In in E. apply O_announce; auto.
    apply nodup_snoc_notin; auto.
  - destruct (mem _ _) eqn:E; [|exact HO]. apply mem_In in E. apply O_disconnect; auto.
  - destruct (mem _ _) eqn:E; [|exact HO]. apply O_proxy; auto.
  - destruct (mem _ _) eqn:E; [|exact HO]. apply O_request; auto.
Qed.

Lemma O_run : forall ops, NoDup (announcers ops) -> O (announcers ops) (run ops).
Proof.
  intros ops. induction ops as [|o ops IH] using rev_ind; intros H; [apply O_init|].
  rewrite run_snoc. rewrite announcers_snoc in *. apply O_step; auto; [apply U_run|].
  apply IH. eapply nodup_app_l; eauto.
Qed.

(** ---- Who is a member according to what was visible ---- *)
Definition member (a : list ev) (p s n : nat) : Prop := In (EJoin p s n) a /\ ~ In (ELeft p) a.

Lemma conn_member : forall A s p x n, U s -> O A s -> In ((x, n), p) (r_conn s) <-> member (r_log s) p x n.
Proof.
  intros A s p x n HU HO. split.
  - intros H. split; [apply (u_conn _ HU _ _ H)|]. intros Hl. apply (u_left _ HU) in Hl.
    apply (o_conn _ _ HO) in H. tauto.
  - intros [H1 H2]. destruct (u_joined _ HU _ _ _ H1); tauto.
Qed.

(** What must hold for an event after the events [a]. *)
Definition Truth (a : list ev) (e : ev) : Prop :=
  match e with
  | EKnown p s l => NoDup l /\ (forall n, In n l <-> exists q, member a q s n)
  | EJoin p s n => forall q, ~ member a q s n
  | ERejected p s n => exists q, member a q s n
  | EGone s n => (exists p, In (EJoin p s n) a /\ In (ELeft p) a) /\ forall q, ~ member a q s n
  | EAllGone => forall q s n, ~ member a q s n
  | EDeliver p q s src dst b => In (EJoin q s dst) a /\ (~ In (ELeft q) a \/ (q = p /\ b = true))
  | ERequest q s x org tgt =>
      (x = RRequest /\ member a q s tgt) \/ ((x = RConnecting \/ x = RFailed) /\ member a q s org)
  | _ => True
  end.
Definition AllTruth (T : list ev -> ev -> Prop) (l : list ev) : Prop := forall a e b, l = a ++ e :: b -> T a e.

Lemma truth_nil : forall T, AllTruth T [].
Proof. intros T a e b H. destruct a; discriminate. Qed.
Lemma truth_app : forall T l es, AllTruth T l -> (forall a e b, es = a ++ e :: b -> T (l ++ a) e) -> AllTruth T (l ++ es).
Proof.
  intros T l es H1 H2 a e b E. destruct (app_split _ _ _ _ _ E) as [(b' & E' & _)|(a' & -> & E')].
  - apply (H1 a e b' E').
  - apply (H2 a' e b E').
Qed.
Lemma truth_snoc : forall (T : list ev -> ev -> Prop) l e, AllTruth T l -> T l e -> AllTruth T (l ++ [e]).
Proof.
  intros T l e H1 H2. apply truth_app; auto. intros a e' b E. destruct a as [|y a]; [|destruct a; discriminate].
  injection E as <- _. rewrite app_nil_r. exact H2.
Qed.

Lemma member_snoc_other : forall a e p x n, (forall q y m, e <> EJoin q y m) -> (forall q, e <> ELeft q) ->
  member (a ++ [e]) p x n <-> member a p x n.
Proof.
  intros a e p x n H1 H2. unfold member. rewrite !in_app_iff. cbn. split.
  - intros [[H|[H|[]]] Hn]; [tauto|]. exfalso. apply (H1 p x n H).
  - intros [H Hn]. split; [auto|]. intros [Hx|[Hx|[]]]; auto. apply (H2 p Hx).
Qed.

Lemma nodup_map_snd : forall (l : list (key * nat)) x, NoDup (map fst l) ->
  NoDup (map (fun e => snd (fst e)) (filter (fun e => fst (fst e) =? x) l)).
Proof.
  intros l x. induction l as [|[[y n] p] l IH]; cbn; intros H; [constructor|].
  apply NoDup_cons_iff in H. destruct H as [H1 H2]. destruct (Nat.eqb_spec y x) as [->|]; cbn; auto.
  apply NoDup_cons; auto. intros Hin. apply in_map_iff in Hin. destruct Hin as ([[y m] q] & E & Hq). cbn in E. subst m.
  apply filter_In in Hq. cbn in Hq. destruct Hq as [Hq Hy]. apply Nat.eqb_eq in Hy. subst y.
  apply H1. apply in_map_iff. exists ((x, n), q). auto.
Qed.

Lemma T_announce : forall A s p x n, U s -> O A s -> ~ In p A -> AllTruth Truth (r_log s) ->
  AllTruth Truth (r_log (announce p x n s)).
Proof.
  intros A s p x n HU HO Hp HT. rewrite (announce_spec A s p x n HO).
  destruct (find (x, n) (r_conn s)) as [q0|] eqn:Ef.
  - cbn. apply truth_snoc; auto. cbn. exists q0. apply (conn_member A); auto. apply find_some; auto.
  - assert (El : r_log (joined_state p x n s) =
      (r_log s ++ [EKnown p x (map (fun e => snd (fst e)) (filter (fun e => fst (fst e) =? x) (r_conn s)))]) ++ [EJoin p x n]).
    { unfold joined_state. rewrite (others_all A s p x HO Hp). destruct (find (x, n) (r_names s)); reflexivity. }
    rewrite El. apply truth_snoc; [apply truth_snoc; auto|].
    + cbn. split; [apply nodup_map_snd, (u_nodup _ HU)|]. intros m. rewrite in_map_iff. split.
      * intros ([[y m'] q] & E & H). cbn in E. subst m'. apply filter_In in H. destruct H as [H E]. cbn in E.
        apply Nat.eqb_eq in E. subst y. exists q. apply (conn_member A); auto.
      * intros [q H]. apply (conn_member A) in H; auto. exists ((x, m), q). split; auto. apply filter_In. cbn.
        rewrite Nat.eqb_refl. auto.
    + cbn. intros q H. apply member_snoc_other in H; try discriminate. apply (conn_member A) in H; auto.
      exact (find_none _ _ Ef q H).
Qed.

Lemma T_disconnect : forall A s p, U s -> O A s -> In p (r_alive s) -> AllTruth Truth (r_log s) ->
  AllTruth Truth (r_log (disconnect p s)).
Proof.
  intros A s p HU HO Hp HT.
  destruct (disconnect_spec s p) as [(_ & En & _)|(es & tl & En & El & Eu & Ea & Ei & Enm & Ed & Eub & Ec)].
  { destruct (notify_some A s p (r_info s p) (r_dests s) HO). congruence. }
  assert (Hes : forall a, incl a es -> forall q y m, member (r_log s ++ ELeft p :: a) q y m <-> member (r_log s) q y m /\ q <> p).
  { intros a Ha q y m. unfold member. rewrite !in_app_iff. cbn.
    assert (Hx : forall e, In e a -> exists q' d, e = EDeliver p q' (fst (r_info s p)) (snd (r_info s p)) d true).
    { intros e He. destruct (notify_spec _ _ _ _ _ En e (Ha e He)) as (q' & d & -> & _). eauto. }
    split.
    - intros [[H|[H|H]] Hn]; [|discriminate|].
      + split; [split; tauto|]. intros ->. tauto.
      + apply Hx in H. destruct H as (? & ? & H); discriminate.
    - intros [[H Hn] Hne]. split; auto. intros [Hy|[Hy|Hy]]; auto.
      + injection Hy as ->. auto.
      + apply Hx in Hy. destruct Hy as (? & ? & Hy); discriminate. }
  rewrite El. replace (r_log s ++ ELeft p :: es ++ tl) with ((r_log s ++ ELeft p :: es) ++ tl)
    by (rewrite <- app_assoc; reflexivity).
  assert (HT2 : AllTruth Truth (r_log s ++ ELeft p :: es)).
  { apply truth_app; auto. intros a e b E. destruct a as [|y a].
    - injection E as <- _. exact I.
    - injection E as <- E.
      assert (Hin : In e es) by (rewrite E; apply in_elt).
      destruct (notify_spec _ _ _ _ _ En e Hin) as (q & d & -> & Hd & Hf & Hq). cbn.
      apply find_some in Hf. apply (o_names _ _ HO) in Hf. pose proof Hf as Hf2. apply (conn_member A) in Hf; auto.
      split; [apply in_or_app; left; apply Hf|].
      destruct (Nat.eq_dec q p) as [->|Hne]; [right; auto|left].
      assert (Hm : member (r_log s ++ ELeft p :: a) q (fst (r_info s p)) d).
      { apply (Hes a); [|split; auto]. rewrite E. apply incl_appl, incl_refl. }
      apply Hm. }
  destruct Ec as [(Hf & Ec & ->)|(_ & _ & ->)]; [|rewrite app_nil_r; exact HT2].
  set (k := r_info s p) in *. apply find_some in Hf.
  assert (Hk : In ((fst k, snd k), p) (r_conn s)) by (destruct k; exact Hf).
  assert (HT3 : AllTruth Truth ((r_log s ++ ELeft p :: es) ++ [EGone (fst k) (snd k)])).
  { apply truth_snoc; auto. cbn. split.
    - exists p. split; apply in_or_app; [left; apply (u_conn _ HU _ _ Hf)|right; left; reflexivity].
    - intros q H. apply Hes in H; [|apply incl_refl]. destruct H as [H Hne]. apply (conn_member A) in H; auto.
      apply Hne. eapply nodup_key; [apply (u_nodup _ HU)|exact H|exact Hk]. }
  destruct (erase k (r_conn s)) as [|z l] eqn:Ee; [|exact HT3].
  change [EGone (fst k) (snd k); EAllGone] with ([EGone (fst k) (snd k)] ++ [EAllGone]). rewrite app_assoc.
  apply truth_snoc; auto. cbn. intros q y m H. apply member_snoc_other in H; try discriminate.
  apply Hes in H; [|apply incl_refl]. destruct H as [H Hne]. apply (conn_member A) in H; auto.
  assert (Hin : In ((y, m), q) (erase k (r_conn s))).
  { apply in_erase. split; auto. cbn. intros E. apply Hne. eapply nodup_key; [apply (u_nodup _ HU)| |exact Hf].
    rewrite <- E. exact H. }
  rewrite Ee in Hin. exact Hin.
Qed.

Lemma T_step : forall A s o, U s -> O A s -> NoDup (A ++ match o with OAnnounce p _ _ => [p] | _ => [] end) ->
  AllTruth Truth (r_log s) -> AllTruth Truth (r_log (step s o)).
Proof.
  intros A s o HU HO Hnd HT. unfold step. rewrite (o_ub _ _ HO).
  destruct o as [p|p sim name|p|p src dst e|p x org tgt].
  - unfold connect. destruct (mem p (r_used s)); exact HT.
  - destruct (mem _ _) eqn:E; [|exact HT]. apply (T_announce A); auto. apply nodup_snoc_notin; auto.
  - destruct (mem _ _) eqn:E; [|exact HT]. apply mem_In in E. apply (T_disconnect A); auto.
  - destruct (mem _ _) eqn:E; [|exact HT]. unfold proxy. destruct (_ =? src); [|exact HT].
    destruct (find _ (r_names s)) as [q|] eqn:Ef.
    + rewrite (names_alive A s _ q HO Ef). apply find_some in Ef. apply (o_names _ _ HO) in Ef.
      apply (conn_member A) in Ef; auto.
      assert (HT2 : AllTruth Truth (r_log s ++ [EDeliver p q (fst (r_info s p)) src dst e])).
      { apply truth_snoc; auto. cbn. destruct Ef; auto. }
      destruct (existsb _ _); exact HT2.
    + cbn. apply truth_snoc; auto. exact I.
  - destruct (mem _ _) eqn:E; [|exact HT]. unfold request.
    destruct (match x with RAnnouncement => _ | _ => _ end) as [q|] eqn:Ef.
    + assert (Hm : mem q (r_alive s) = true) by (destruct x; try discriminate; eapply names_alive; eauto).
      rewrite Hm. cbn. apply truth_snoc; auto. cbn.
      destruct x; try discriminate; apply find_some in Ef; apply (o_names _ _ HO) in Ef; apply (conn_member A) in Ef; auto.
    + cbn. apply truth_snoc; auto. exact I.
Qed.

Lemma T_run : forall ops, NoDup (announcers ops) -> AllTruth Truth (r_log (run ops)).
Proof.
  intros ops. induction ops as [|o ops IH] using rev_ind; intros H; [apply truth_nil|].
  rewrite run_snoc. rewrite announcers_snoc in H. pose proof (nodup_app_l _ _ H) as H0.
  apply (T_step (announcers ops)); auto; [apply U_run|apply O_run; auto].
Qed.

(** ---- No rejected announcements ---- *)
Definition no_rejects (l : list ev) : Prop := forall p s n, ~ In (ERejected p s n) l.
Definition named (ops : list op) : Prop := forall p s n, In (OAnnounce p s n) ops -> s <> 0.

Lemma step_log : forall s o, exists es, r_log (step s o) = r_log s ++ es.
Proof.
  intros s o. unfold step. destruct (r_ub s); [exists []; rewrite app_nil_r; reflexivity|].
  assert (H0 : exists es, r_log s = r_log s ++ es) by (exists []; rewrite app_nil_r; reflexivity).
  destruct o as [p|p sim name|p|p src dst e|p x org tgt].
  - unfold connect. destruct (mem p (r_used s)); exact H0.
  - destruct (mem _ _); [|exact H0]. unfold announce. cbn [set_info r_conn r_alive].
    destruct (find _ (r_conn s)); [eexists; reflexivity|]. destruct (forallb _ _); [|exact H0].
    destruct (find _ _); cbn; rewrite <- app_assoc; eexists; reflexivity.
  - destruct (mem _ _); [|exact H0]. destruct (disconnect_spec s p) as [(_ & _ & E)|(es & tl & _ & El & _)].
    + rewrite E. exact H0.
    + eexists. exact El.
  - destruct (mem _ _); [|exact H0]. unfold proxy. destruct (_ =? src); [|exact H0].
    destruct (find _ _); [|eexists; reflexivity]. destruct (mem _ _); [|exact H0].
    destruct (existsb _ _); eexists; reflexivity.
  - destruct (mem _ _); [|exact H0]. unfold request. destruct (match x with RAnnouncement => _ | _ => _ end).
    + destruct (mem _ _); [eexists; reflexivity|exact H0].
    + eexists; reflexivity.
Qed.

Definition Truth2 (a : list ev) (e : ev) : Prop :=
  match e with
  | ELost p s src dst => forall q, ~ member a q s dst
  | EDeliver p q s src dst b => In (EJoin p s src) a /\ (In (ELeft p) a -> b = true)
  | _ => True
  end.

Record S (s : st) : Prop := {
  s_nz : forall k p, In (k, p) (r_conn s) -> fst k <> 0;
  s_complete : forall k p, In (k, p) (r_conn s) -> In (k, p) (r_names s);
  s_truth : AllTruth Truth2 (r_log s) }.

Lemma info_member : forall A s p, U s -> O A s -> S s -> no_rejects (r_log s) -> In p (r_alive s) ->
  fst (r_info s p) <> 0 -> In (r_info s p, p) (r_conn s).
Proof.
  intros A s p HU HO HS Hn Hp Hz. destruct (o_status _ _ HO p Hp) as [H|[H|H]]; auto.
  - rewrite H in Hz. cbn in Hz. contradiction.
  - exfalso. exact (Hn _ _ _ H).
Qed.

Lemma S_step : forall A s o, U s -> O A s -> NoDup (A ++ match o with OAnnounce p _ _ => [p] | _ => [] end) ->
  S s -> no_rejects (r_log (step s o)) -> (forall p x n, o = OAnnounce p x n -> x <> 0) -> S (step s o).
Proof.
  intros A s o HU HO Hnd HS Hn Hz.
  assert (Hn0 : no_rejects (r_log s)).
  { destruct (step_log s o) as [es E]. rewrite E in Hn. intros p x n H. apply (Hn p x n). apply in_or_app; auto. }
  revert Hn. unfold step. rewrite (o_ub _ _ HO).
  destruct o as [p|p sim name|p|p src dst e|p x org tgt].
  - intros _. unfold connect. destruct (mem p (r_used s)); [exact HS|]. destruct HS. constructor; auto.
  - destruct (mem _ _) eqn:E; [|intros; exact HS]. rewrite (announce_spec A s p sim name HO).
    destruct (find (sim, name) (r_conn s)) eqn:Ef.
    { intros Hn. exfalso. apply (Hn p sim name). cbn. apply in_or_app. right. left. reflexivity. }
    intros _. unfold joined_state.
    assert (En : find (sim, name) (r_names s) = None).
    { destruct (find (sim, name) (r_names s)) eqn:E2; auto. apply find_some in E2. apply (o_names _ _ HO) in E2.
      exfalso. exact (find_none _ _ Ef _ E2). }
    rewrite En. destruct HS. constructor; cbn.
    + intros k q [H|H]; [injection H as <- <-; cbn; eapply Hz; reflexivity|apply (s_nz0 _ _ H)].
    + intros k q [H|H]; auto.
    + apply truth_snoc; [apply truth_snoc; auto|]; exact I.
  - destruct (mem _ _) eqn:E; [|intros; exact HS]. apply mem_In in E. cbn in E. intros _.
    destruct (disconnect_spec s p) as [(_ & En & _)|(es & tl & En & El & Eu & Ea & Ei & Enm & Ed & Eub & Ec)].
    { destruct (notify_some A s p (r_info s p) (r_dests s) HO). congruence. }
    constructor.
    + intros k q H. apply (s_nz _ HS k q). destruct Ec as [(_ & E2 & _)|(_ & E2 & _)]; rewrite E2 in H; auto.
      apply in_erase in H. tauto.
    + intros k q H. rewrite Enm. apply in_erase. destruct Ec as [(_ & E2 & _)|(Hf & E2 & _)]; rewrite E2 in H.
      * apply in_erase in H. destruct H as [H H2]. split; auto. apply (s_complete _ HS); auto.
      * split; [apply (s_complete _ HS); auto|]. cbn. intros ->.
        apply Hf. apply find_in; [apply (u_nodup _ HU)|].
        apply (info_member A); auto. apply (s_nz _ HS _ _ H).
    + rewrite El. apply truth_app; [apply (s_truth _ HS)|]. intros a e b E2.
      destruct a as [|y a]; [injection E2 as <- _; exact I|]. injection E2 as <- E2.
      assert (Hin : In e (es ++ tl)) by (rewrite E2; apply in_elt). apply in_app_or in Hin.
      destruct Hin as [Hin|Hin].
      * destruct (notify_spec _ _ _ _ _ En e Hin) as (q & d & -> & Hd & Hf & Hq). cbn. split; auto.
        apply in_or_app. left. apply find_some in Hf. apply (o_names _ _ HO) in Hf. apply (s_nz _ HS) in Hf. cbn in Hf.
        pose proof (info_member A s p HU HO HS Hn0 E Hf) as Hm. apply (u_conn _ HU) in Hm. exact Hm.
      * destruct Ec as [(_ & _ & ->)|(_ & _ & ->)]; [|contradiction]. destruct Hin as [<-|Hin]; [exact I|].
        destruct (erase _ _); [|contradiction]. destruct Hin as [<-|[]]. exact I.
  - destruct (mem _ _) eqn:E; [|intros; exact HS]. apply mem_In in E. cbn in E. intros _. unfold proxy.
    destruct (Nat.eqb_spec (snd (r_info s p)) src) as [Es|]; [|exact HS].
    destruct (find _ (r_names s)) as [q|] eqn:Ef.
    + rewrite (names_alive A s _ q HO Ef). apply find_some in Ef. apply (o_names _ _ HO) in Ef.
      pose proof (s_nz _ HS _ _ Ef) as Hnz. cbn in Hnz.
      pose proof (info_member A s p HU HO HS Hn0 E Hnz) as Hm.
      assert (HT2 : AllTruth Truth2 (r_log s ++ [EDeliver p q (fst (r_info s p)) src dst e])).
      { apply truth_snoc; [apply (s_truth _ HS)|]. cbn. split.
        - rewrite <- Es. apply (u_conn _ HU _ _ Hm).
        - intros H. apply (u_left _ HU) in H. tauto. }
      destruct HS. destruct (existsb _ _); constructor; auto.
    + destruct HS. constructor; cbn; auto. apply truth_snoc; auto. cbn. intros q H.
      apply (conn_member A) in H; auto. apply s_complete0 in H. exact (find_none _ _ Ef q H).
  - intros _. destruct (mem _ _) eqn:E; [|exact HS]. unfold request.
    assert (HT2 : forall e, Truth2 (r_log s) e -> AllTruth Truth2 (r_log s ++ [e])).
    { intros e He. apply truth_snoc; auto. apply (s_truth _ HS). }
    destruct HS. destruct (match x with RAnnouncement => _ | _ => _ end) as [q|].
    + destruct (mem q (r_alive s)); constructor; cbn; auto. apply HT2. exact I.
    + constructor; cbn; auto. apply HT2. exact I.
Qed.

Lemma S_run : forall ops, NoDup (announcers ops) -> named ops -> no_rejects (r_log (run ops)) -> S (run ops).
Proof.
  intros ops. induction ops as [|o ops IH] using rev_ind; intros H Hz Hn.
  { constructor; cbn; try contradiction. apply truth_nil. }
  rewrite run_snoc in *. rewrite announcers_snoc in H. pose proof (nodup_app_l _ _ H) as H0.
  apply (S_step (announcers ops)); auto; [apply U_run|apply O_run; auto| |].
  - apply IH; auto.
    + intros p s n Hin. apply (Hz p s n). apply in_or_app; auto.
    + destruct (step_log (run ops) o) as [es E]. rewrite E in Hn. intros p x n Hx. apply (Hn p x n). apply in_or_app; auto.
  - intros p x n ->. apply (Hz p x n). apply in_or_app. right. left. reflexivity.
Qed.

(** ---- Departure notices ---- *)
Definition Truth3 (a : list ev) (e : ev) : Prop :=
  match e with EDeliver p _ _ _ _ true => In (ELeft p) a | _ => True end.
Lemma T3_run : forall ops, (forall p src dst e, In (OProxy p src dst e) ops -> e = false) ->
  AllTruth Truth3 (r_log (run ops)).
Proof.
  intros ops. induction ops as [|o ops IH] using rev_ind; intros He; [apply truth_nil|].
  rewrite run_snoc. set (s := run ops) in *.
  assert (HT : AllTruth Truth3 (r_log s)).
  { apply IH. intros p src dst e H. apply (He p src dst e). apply in_or_app; auto. }
  unfold step. destruct (r_ub s); [exact HT|].
  destruct o as [p|p sim name|p|p src dst e|p x org tgt].
  - unfold connect. destruct (mem p (r_used s)); exact HT.
  - destruct (mem _ _); [|exact HT]. unfold announce. cbn [set_info r_conn r_alive].
    destruct (find _ (r_conn s)); [cbn; apply truth_snoc; auto; exact I|]. destruct (forallb _ _); [|exact HT].
    destruct (find _ _); cbn; (apply truth_snoc; [apply truth_snoc; auto|]); exact I.
  - destruct (mem _ _); [|exact HT].
    destruct (disconnect_spec s p) as [(_ & _ & E)|(es & tl & En & El & Eu & Ea & Ei & Enm & Ed & Eub & Ec)].
    { rewrite E. exact HT. }
    rewrite El. apply truth_app; auto. intros a e b E2.
    destruct a as [|y a]; [injection E2 as <- _; exact I|]. injection E2 as <- E2.
    assert (Hin : In e (es ++ tl)) by (rewrite E2; apply in_elt). apply in_app_or in Hin.
    destruct Hin as [Hin|Hin].
    + destruct (notify_spec _ _ _ _ _ En e Hin) as (q & d & -> & _). cbn. apply in_or_app. right. left. reflexivity.
    + destruct Ec as [(_ & _ & ->)|(_ & _ & ->)]; [|contradiction]. destruct Hin as [<-|Hin]; [exact I|].
      destruct (erase _ _); [|contradiction]. destruct Hin as [<-|[]]. exact I.
  - rewrite (He p src dst e) by (apply in_or_app; right; left; reflexivity).
    destruct (mem _ _); [|exact HT]. unfold proxy. destruct (_ =? src); [|exact HT].
    destruct (find _ _); [|cbn; apply truth_snoc; auto; exact I]. destruct (mem _ _); [|exact HT].
    destruct (existsb _ _); cbn; apply truth_snoc; auto; exact I.
  - destruct (mem _ _); [|exact HT]. unfold request. destruct (match x with RAnnouncement => _ | _ => _ end).
    + destruct (mem _ _); [cbn; apply truth_snoc; auto; exact I|exact HT].
    + cbn; apply truth_snoc; auto; exact I.
Qed.
