(** Simulations sharing a registry do not influence each other. *)
From Coq Require Import List Arith Bool Lia.
From Verif Require Import Base RegistryModel RegistryProofs.
Import ListNotations.

(** The events of simulation [x]; [f] assigns to every peer the simulation it takes part in. *)
Definition of_sim (f : nat -> nat) (x : nat) (e : ev) : bool :=
  match e with
  | EKnown _ s _ | EJoin _ s _ | ERejected _ s _ | EGone s _ | EDeliver _ _ s _ _ _ | ELost _ s _ _
  | ERequest _ s _ _ _ | ERequestLost _ s => s =? x
  | ELeft p => f p =? x
  | EAllGone => false
  end.
Definition view (f : nat -> nat) (x : nat) (l : list ev) : list ev := filter (of_sim f x) l.
Definition of_key (x : nat) (e : key * nat) : bool := fst (fst e) =? x.
Definition part (x : nat) (l : list (key * nat)) : list (key * nat) := filter (of_key x) l.

Lemma part_cons : forall x e l, part x (e :: l) = if fst (fst e) =? x then e :: part x l else part x l.
Proof. reflexivity. Qed.
Lemma erase_cons : forall k e l, erase k (e :: l) = if keqb k (fst e) then erase k l else e :: erase k l.
Proof. intros. unfold erase. cbn. destruct (keqb k (fst e)); reflexivity. Qed.
Lemma view_cons : forall f x e l, view f x (e :: l) = if of_sim f x e then e :: view f x l else view f x l.
Proof. reflexivity. Qed.
Global Arguments part : simpl never.
Global Arguments view : simpl never.
Global Arguments erase : simpl never.
Lemma view_app : forall f x a b, view f x (a ++ b) = view f x a ++ view f x b.
Proof. intros. apply filter_app. Qed.

Lemma find_part : forall x n l, find (x, n) (part x l) = find (x, n) l.
Proof.
  intros x n l. induction l as [|[[y m] p] l IH]; auto. rewrite part_cons. cbn [fst].
  destruct (Nat.eqb_spec y x) as [->|Hne]; cbn.
  - destruct (keqb (x, n) (x, m)); auto.
  - rewrite IH. unfold keqb. cbn. destruct (Nat.eqb_spec x y); [subst; contradiction|reflexivity].
Qed.

Lemma part_erase : forall x k l, part x (erase k l) = erase k (part x l).
Proof.
  intros x k l. induction l as [|e l IH]; auto. rewrite part_cons, erase_cons.
  destruct (keqb k (fst e)) eqn:E1; destruct (fst (fst e) =? x) eqn:E2; rewrite ?part_cons, ?erase_cons, ?E1, ?E2, ?IH; reflexivity.
Qed.
Lemma erase_other : forall x k l, fst k <> x -> erase k (part x l) = part x l.
Proof.
  intros x k l Hk. induction l as [|e l IH]; auto. rewrite part_cons.
  destruct (Nat.eqb_spec (fst (fst e)) x) as [E2|E2]; auto. rewrite erase_cons, IH.
  destruct (keqb k (fst e)) eqn:E1; auto. apply keqb_eq in E1. subst k. contradiction.
Qed.
Lemma others_part : forall p x l, others p x (part x l) = others p x l.
Proof.
  intros p x l. unfold others. induction l as [|[[y n] q] l IH]; auto. rewrite part_cons. cbn.
  destruct (y =? x) eqn:E; cbn; rewrite ?E; cbn; [|exact IH]. rewrite IH. reflexivity.
Qed.

Lemma notify_part : forall s t p k l x, fst k = x -> part x (r_names s) = part x (r_names t) ->
  (forall n q, find (x, n) (r_names s) = Some q -> mem q (r_alive s) = true /\ mem q (r_alive t) = true) ->
  notify s p k l = notify t p k (part x l).
Proof.
  intros s t p k l x Hk Hn Ha. induction l as [|[k' d] l IH]; auto. rewrite part_cons. cbn [fst].
  destruct (Nat.eqb_spec (fst k') x) as [E|Hne]; cbn.
  - rewrite IH. destruct (notify t p k (part x l)); auto. destruct (keqb k k'); auto.
    rewrite Hk. rewrite <- (find_part x d (r_names s)), <- (find_part x d (r_names t)), Hn.
    destruct (find (x, d) (part x (r_names t))) as [q|] eqn:Ef; auto.
    rewrite <- Hn, find_part in Ef. destruct (Ha d q Ef) as [-> ->]. reflexivity.
  - rewrite IH. destruct (notify t p k (part x l)); auto. destruct (keqb k k') eqn:Ek; auto.
    apply keqb_eq in Ek. subst k'. contradiction.
Qed.

Lemma notify_view : forall f x s p k l es, notify s p k l = Some es ->
  view f x es = if fst k =? x then es else [].
Proof.
  intros f x s p k l es H.
  assert (Hall : forall e, In e es -> of_sim f x e = (fst k =? x)).
  { intros e He. destruct (notify_spec _ _ _ _ _ H e He) as (q & d & -> & _). reflexivity. }
  clear H. induction es as [|e es IH]; [destruct (fst k =? x); reflexivity|].
  rewrite view_cons, (Hall e (or_introl eq_refl)). rewrite IH by (intros; apply Hall; right; auto).
  destruct (fst k =? x); reflexivity.
Qed.

Record NI (f : nat -> nat) (x : nat) (s t : st) : Prop := {
  n_used : forall p, f p = x -> (In p (r_used s) <-> In p (r_used t));
  n_alive : forall p, f p = x -> (In p (r_alive s) <-> In p (r_alive t));
  n_info : forall p, f p = x -> r_info s p = r_info t p;
  n_conn : part x (r_conn s) = part x (r_conn t);
  n_names : part x (r_names s) = part x (r_names t);
  n_dests : part x (r_dests s) = part x (r_dests t);
  n_log : view f x (r_log s) = view f x (r_log t);
  n_sim : forall p, r_info s p = (0, 0) \/ fst (r_info s p) = f p }.

Lemma mem_iff : forall p a b, (In p a <-> In p b) -> mem p a = mem p b.
Proof.
  intros p a b H. destruct (mem p a) eqn:E1, (mem p b) eqn:E2; auto.
  - apply mem_In in E1. apply mem_false in E2. tauto.
  - apply mem_In in E2. apply mem_false in E1. tauto.
Qed.

Section Iso.
Variable f : nat -> nat.
Variable x : nat.
Hypothesis Hx : x <> 0.

Ltac vs := rewrite ?view_app, ?view_cons, ?part_cons; cbn [of_sim fst snd]; change (view f x []) with (@nil ev).

(** A step of a peer of another simulation. *)
Lemma NI_other : forall A s t o, U s -> O A s ->
  NoDup (A ++ match o with OAnnounce p _ _ => [p] | _ => [] end) ->
  (forall p y n, o = OAnnounce p y n -> y = f p) ->
  f (op_peer o) <> x -> NI f x s t -> NI f x (step s o) t.
Proof using Hx.
  intros A s t o HU HO Hnd Ho Hf HN. unfold step. rewrite (o_ub _ _ HO).
  assert (Hk : forall p, f p <> x -> fst (r_info s p) <> x).
  { intros p Hp E. destruct (n_sim _ _ _ _ HN p) as [H|H]; [rewrite H in E; cbn in E; auto|congruence]. }
  destruct o as [p|p y n|p|p src dst e|p r org tgt]; cbn [op_peer] in *.
  - unfold connect. destruct (mem p (r_used s)); [exact HN|]. destruct HN. constructor; cbn; auto.
    + intros q Hq. rewrite <- (n_used0 q Hq). split; [intros [->|H]; [contradiction|auto]|auto].
    + intros q Hq. rewrite <- (n_alive0 q Hq). split; [intros [->|H]; [contradiction|auto]|auto].
  - destruct (mem _ _) eqn:E; [|exact HN]. rewrite (announce_spec A s p y n HO).
    assert (Hy : y = f p) by (apply (Ho p y n); reflexivity).
    assert (Hyx : (y =? x) = false) by (apply Nat.eqb_neq; congruence).
    assert (Hinfo : forall q, f q = x -> (if q =? p then (y, n) else r_info s q) = r_info t q).
    { intros q Hq. destruct (Nat.eqb_spec q p) as [->|]; [contradiction|apply (n_info _ _ _ _ HN q Hq)]. }
    assert (Hsim : forall q, (if q =? p then (y, n) else r_info s q) = (0, 0) \/
                        fst (if q =? p then (y, n) else r_info s q) = f q).
    { intros q. destruct (Nat.eqb_spec q p) as [->|]; [right; exact Hy|apply (n_sim _ _ _ _ HN)]. }
    destruct (find (y, n) (r_conn s)).
    + destruct HN. constructor; cbn; auto. vs. rewrite Hyx, app_nil_r. exact n_log0.
    + unfold joined_state. destruct HN.
      destruct (find (y, n) (r_names s)); constructor; cbn; auto;
        vs; rewrite ?Hyx; cbn; rewrite ?app_nil_r; auto.
  - destruct (mem _ _) eqn:E; [|exact HN].
    destruct (disconnect_spec s p) as [(_ & En & _)|(es & tl & En & El & Eu & Ea & Ei & Enm & Ed & Eub & Ec)].
    { destruct (notify_some A s p (r_info s p) (r_dests s) HO). congruence. }
    specialize (Hk p Hf). destruct HN. constructor; rewrite ?Eu, ?Ea, ?Ei, ?Ed; auto.
    + intros q Hq. rewrite filter_In, negb_true_iff, Nat.eqb_neq. rewrite <- (n_alive0 q Hq).
      split; [tauto|]. intros H. split; auto. intros ->. contradiction.
    + destruct Ec as [(_ & -> & _)|(_ & -> & _)]; auto. rewrite part_erase, erase_other; auto.
    + rewrite Enm, part_erase, erase_other; auto.
    + rewrite El. vs. destruct (Nat.eqb_spec (f p) x); [contradiction|].
      apply Nat.eqb_neq in Hk. vs.
      rewrite (notify_view f x s p _ _ es En), Hk. cbn [app].
      destruct Ec as [(_ & _ & ->)|(_ & _ & ->)]; [|vs; rewrite app_nil_r; auto].
      destruct (erase _ _); vs; rewrite Hk, app_nil_r; auto.
  - destruct (mem _ _) eqn:E; [|exact HN]. specialize (Hk p Hf). apply Nat.eqb_neq in Hk. unfold proxy.
    destruct (_ =? src); [|exact HN]. destruct (find _ (r_names s)) as [q|] eqn:Ef.
    + rewrite (names_alive A s _ q HO Ef). destruct HN. destruct (existsb _ _); constructor; cbn; auto;
        vs; rewrite ?Hk; cbn; rewrite ?app_nil_r; auto.
    + destruct HN. constructor; cbn; auto. vs. rewrite Hk, app_nil_r. auto.
  - destruct (mem _ _) eqn:E; [|exact HN]. specialize (Hk p Hf). apply Nat.eqb_neq in Hk. unfold request.
    destruct (match r with RAnnouncement => _ | _ => _ end) as [q|].
    + destruct (mem q (r_alive s)); destruct HN; constructor; cbn; auto.
      vs. rewrite Hk, app_nil_r. auto.
    + destruct HN. constructor; cbn; auto. vs. rewrite Hk, app_nil_r. auto.
Qed.

(** A step of a peer of the same simulation. *)
Lemma NI_same : forall A B s t o, U s -> O A s -> U t -> O B t ->
  NoDup (A ++ match o with OAnnounce p _ _ => [p] | _ => [] end) ->
  (forall p y n, o = OAnnounce p y n -> y = f p) ->
  f (op_peer o) = x -> NI f x s t -> NI f x (step s o) (step t o).
Proof using Hx.
  intros A B s t o HU HO HU' HO' Hnd Ho Hf HN. unfold step. rewrite (o_ub _ _ HO), (o_ub _ _ HO').
  assert (Hfc : forall n, find (x, n) (r_conn s) = find (x, n) (r_conn t)).
  { intros n. rewrite <- (find_part x n (r_conn s)), <- (find_part x n (r_conn t)), (n_conn _ _ _ _ HN). reflexivity. }
  assert (Hfn : forall n, find (x, n) (r_names s) = find (x, n) (r_names t)).
  { intros n. rewrite <- (find_part x n (r_names s)), <- (find_part x n (r_names t)), (n_names _ _ _ _ HN). reflexivity. }
  assert (Hal : mem (op_peer o) (r_alive s) = mem (op_peer o) (r_alive t)).
  { apply mem_iff. apply (n_alive _ _ _ _ HN); auto. }
  assert (Hi : r_info t (op_peer o) = r_info s (op_peer o)) by (symmetry; apply (n_info _ _ _ _ HN); auto).
  assert (Hz : (0 =? x) = false) by (apply Nat.eqb_neq; auto).
  destruct o as [p|p y n|p|p src dst e|p r org tgt]; cbn [op_peer] in *.
  - unfold connect. rewrite <- (mem_iff p (r_used s) (r_used t)) by (apply (n_used _ _ _ _ HN); auto).
    destruct (mem p (r_used s)); [exact HN|]. destruct HN. constructor; cbn; auto.
    + intros q Hq. rewrite (n_used0 q Hq). tauto.
    + intros q Hq. rewrite (n_alive0 q Hq). tauto.
  - rewrite <- Hal. destruct (mem _ _); [|exact HN]. rewrite (announce_spec A s p y n HO), (announce_spec B t p y n HO').
    assert (Hy : y = x) by (rewrite <- Hf; apply (Ho p y n); reflexivity). subst y.
    rewrite <- (Hfc n).
    assert (Hinfo : forall q, f q = x -> (if q =? p then (x, n) else r_info s q) = (if q =? p then (x, n) else r_info t q)).
    { intros q Hq. destruct (q =? p); auto. apply (n_info _ _ _ _ HN q Hq). }
    assert (Hsim : forall q, (if q =? p then (x, n) else r_info s q) = (0, 0) \/
                        fst (if q =? p then (x, n) else r_info s q) = f q).
    { intros q. destruct (Nat.eqb_spec q p) as [->|]; [right; auto|apply (n_sim _ _ _ _ HN)]. }
    destruct (find (x, n) (r_conn s)).
    + destruct HN. constructor; cbn; auto. rewrite !view_app, n_log0. reflexivity.
    + unfold joined_state. rewrite <- (Hfn n).
      rewrite <- (others_part p x (r_conn s)), <- (others_part p x (r_conn t)), (n_conn _ _ _ _ HN). destruct HN.
      destruct (find (x, n) (r_names s)); constructor; cbn; auto;
        vs; rewrite ?Nat.eqb_refl; try (f_equal; auto; fail);
        rewrite ?n_log0; auto.
  - rewrite <- Hal. destruct (mem _ _) eqn:E; [|exact HN].
    assert (Hks := n_sim _ _ _ _ HN p). set (k := r_info s p) in *.
    destruct (disconnect_spec s p) as [(_ & En & _)|(es & tl & En & El & Eu & Ea & Ei & Enm & Ed & Eub & Ec)].
    { destruct (notify_some A s p (r_info s p) (r_dests s) HO). congruence. }
    destruct (disconnect_spec t p) as [(_ & En' & _)|(es' & tl' & En' & El' & Eu' & Ea' & Ei' & Enm' & Ed' & Eub' & Ec')].
    { destruct (notify_some B t p (r_info t p) (r_dests t) HO'). congruence. }
    fold k in En, Enm, Ec. rewrite Hi in En', Enm', Ec'.
    assert (Hv : view f x es = view f x es').
    { rewrite (notify_view f x _ _ _ _ _ En), (notify_view f x _ _ _ _ _ En').
      destruct (Nat.eqb_spec (fst k) x) as [Ek|]; [|reflexivity].
      assert (Eq : notify s p k (r_dests s) = notify t p k (r_dests t)).
      { assert (Ha : forall m q, find (x, m) (r_names s) = Some q -> mem q (r_alive s) = true /\ mem q (r_alive t) = true).
        { intros m q H. split; [eapply names_alive; eauto|]. rewrite Hfn in H. eapply names_alive; eauto. }
        rewrite (notify_part s t p k (r_dests s) x Ek (n_names _ _ _ _ HN) Ha).
        rewrite (notify_part t t p k (r_dests t) x Ek eq_refl).
        - rewrite (n_dests _ _ _ _ HN). reflexivity.
        - intros m q H. rewrite <- Hfn in H. destruct (Ha m q H); auto. }
      congruence. }
    assert (Hfind : fst k = x -> find k (r_conn s) = find k (r_conn t)).
    { intros Ek. destruct k as [y m]. cbn in Ek. subst y. apply Hfc. }
    destruct HN. constructor; rewrite ?Eu, ?Eu', ?Ei, ?Ei', ?Ed, ?Ed'; auto.
    + intros q Hq. rewrite Ea, Ea', !filter_In. rewrite (n_alive0 q Hq). tauto.
    + destruct Ec as [(Hf1 & E1 & _)|(Hf1 & E1 & _)], Ec' as [(Hf2 & E2 & _)|(Hf2 & E2 & _)];
        rewrite E1, E2, ?part_erase; try congruence.
      * rewrite n_conn0. rewrite erase_other; auto. intros Ek. apply Hf2. rewrite <- Hfind; auto.
      * rewrite <- n_conn0. rewrite erase_other; auto. intros Ek. apply Hf1. rewrite Hfind; auto.
    + rewrite Enm, Enm', !part_erase. congruence.
    + rewrite El, El'. vs. vs. rewrite Hf, Nat.eqb_refl. rewrite n_log0, Hv. f_equal. f_equal.
      f_equal.
      destruct (Nat.eqb_spec (fst k) x) as [Ek|Hne].
      * specialize (Hfind Ek).
        destruct Ec as [(Hf1 & _ & ->)|(Hf1 & _ & ->)], Ec' as [(Hf2 & _ & ->)|(Hf2 & _ & ->)]; try congruence.
        vs. destruct (fst k =? x); [f_equal|]; destruct (erase k (r_conn s)), (erase k (r_conn t)); reflexivity.
      * apply Nat.eqb_neq in Hne.
        destruct Ec as [(Hf1 & _ & ->)|(Hf1 & _ & ->)], Ec' as [(Hf2 & _ & ->)|(Hf2 & _ & ->)]; vs; rewrite ?Hne;
          repeat match goal with |- context[erase k ?c] => destruct (erase k c) end; reflexivity.
  - rewrite <- Hal. destruct (mem _ _) eqn:E; [|exact HN]. unfold proxy. rewrite Hi.
    destruct (_ =? src); [|exact HN].
    destruct (n_sim _ _ _ _ HN p) as [E0|E0].
    + (* not announced: nothing of this simulation is touched *)
      rewrite E0. cbn [fst].
      assert (Hq : forall s0 C, O C s0 -> let s1 := match find (0, dst) (r_names s0) with
        | Some q => if mem q (r_alive s0) then
             if existsb (fun e0 => keqb (0, src) (fst e0) && (dst =? snd e0)) (r_dests (out [EDeliver p q 0 src dst e] s0))
             then out [EDeliver p q 0 src dst e] s0
             else set_dests ((0, src, dst) :: r_dests (out [EDeliver p q 0 src dst e] s0)) (out [EDeliver p q 0 src dst e] s0)
             else crash s0
        | None => out [ELost p 0 src dst] s0 end in
        r_used s1 = r_used s0 /\ r_alive s1 = r_alive s0 /\ r_info s1 = r_info s0 /\ r_conn s1 = r_conn s0 /\
        r_names s1 = r_names s0 /\ part x (r_dests s1) = part x (r_dests s0) /\ view f x (r_log s1) = view f x (r_log s0)).
      { intros s0 C HO0. cbv zeta. destruct (find (0, dst) (r_names s0)) as [q|] eqn:Ef.
        - rewrite (names_alive C s0 _ q HO0 Ef). destruct (existsb _ _); cbn; vs; rewrite ?Hz; cbn; rewrite ?app_nil_r; repeat split; reflexivity.
        - cbn. vs. rewrite Hz, app_nil_r. repeat split; reflexivity. }
      destruct (Hq s A HO) as (q1 & q2 & q3 & q4 & q5 & q6 & q7).
      destruct (Hq t B HO') as (t1 & t2 & t3 & t4 & t5 & t6 & t7). clear Hq.
      destruct HN. constructor; rewrite ?q1, ?q2, ?q3, ?q4, ?q5, ?q6, ?q7, ?t1, ?t2, ?t3, ?t4, ?t5, ?t6, ?t7; auto.
    + rewrite E0, Hf. rewrite <- (Hfn dst). destruct (find (x, dst) (r_names s)) as [q|] eqn:Ef.
      * rewrite (names_alive A s _ q HO Ef). rewrite Hfn in Ef. rewrite (names_alive B t _ q HO' Ef).
        assert (Hex : forall l, existsb (fun e0 : key * nat => keqb (x, src) (fst e0) && (dst =? snd e0)) (part x l) =
                       existsb (fun e0 : key * nat => keqb (x, src) (fst e0) && (dst =? snd e0)) l).
        { intros l. induction l as [|[[y m] d] l IH]; auto. rewrite part_cons. cbn [fst].
          destruct (Nat.eqb_spec y x) as [->|Hne]; cbn; rewrite IH; auto.
          unfold keqb. cbn. destruct (Nat.eqb_spec x y); [subst; contradiction|]. reflexivity. }
        cbn [out r_dests]. rewrite <- (Hex (r_dests s)), <- (Hex (r_dests t)), (n_dests _ _ _ _ HN).
        destruct HN. destruct (existsb _ _); constructor; cbn; auto;
          vs; rewrite ?Nat.eqb_refl; try (f_equal; auto; fail); rewrite ?n_log0; auto.
      * destruct HN. constructor; cbn; auto. rewrite !view_app, n_log0. reflexivity.
  - rewrite <- Hal. destruct (mem _ _) eqn:E; [|exact HN]. unfold request. rewrite Hi.
    destruct (n_sim _ _ _ _ HN p) as [E0|E0].
    + rewrite E0. cbn [fst snd].
      assert (Hq : forall s0, let s1 := match
           match r with
           | RRequest => find (0, tgt) (r_names s0)
           | RConnecting | RFailed => find (0, org) (r_names s0)
           | _ => None end with
         | Some q => if mem q (r_alive s0) then out [ERequest q 0 r match r with RRequest => 0 | _ => org end tgt] s0 else crash s0
         | None => out [ERequestLost p 0] s0 end in
        r_used s1 = r_used s0 /\ r_alive s1 = r_alive s0 /\ r_info s1 = r_info s0 /\ r_conn s1 = r_conn s0 /\
        r_names s1 = r_names s0 /\ r_dests s1 = r_dests s0 /\ view f x (r_log s1) = view f x (r_log s0)).
      { intros s0. cbv zeta. destruct (match r with RAnnouncement => _ | _ => _ end) as [q|].
        - destruct (mem q (r_alive s0)); cbn; [vs; rewrite Hz, app_nil_r|]; repeat split; reflexivity.
        - cbn. vs; rewrite Hz, app_nil_r; repeat split; reflexivity. }
      destruct (Hq s) as (q1 & q2 & q3 & q4 & q5 & q6 & q7).
      destruct (Hq t) as (t1 & t2 & t3 & t4 & t5 & t6 & t7). clear Hq.
      destruct HN. constructor; rewrite ?q1, ?q2, ?q3, ?q4, ?q5, ?q6, ?q7, ?t1, ?t2, ?t3, ?t4, ?t5, ?t6, ?t7; auto.
    + rewrite E0, Hf. rewrite <- (Hfn tgt), <- (Hfn org).
      destruct (match r with RAnnouncement => _ | _ => _ end) as [q|] eqn:Ef.
      * assert (Hm1 : mem q (r_alive s) = true) by (destruct r; try discriminate; eapply names_alive; eauto).
        assert (Hm2 : mem q (r_alive t) = true) by (destruct r; try discriminate; rewrite Hfn in Ef; eapply names_alive; eauto).
        rewrite Hm1, Hm2. destruct HN. constructor; cbn; auto. rewrite !view_app, n_log0. reflexivity.
      * destruct HN. constructor; cbn; auto. rewrite !view_app, n_log0. reflexivity.
Qed.

Lemma announcers_filter : forall (g : op -> bool) ops, NoDup (announcers ops) -> NoDup (announcers (filter g ops)).
Proof using f x.
  intros g ops. induction ops as [|o ops IH]; intros H; [exact H|].
  assert (Hin : forall p, In p (announcers (filter g ops)) -> In p (announcers ops)).
  { intros p Hp. unfold announcers in *. apply in_flat_map in Hp. destruct Hp as (o' & Ho & Hp).
    apply filter_In in Ho. apply in_flat_map. exists o'. tauto. }
  unfold announcers in *. cbn in *.
  destruct o; cbn in *; destruct (g _); cbn; auto; apply NoDup_cons_iff in H; destruct H as [H1 H2]; auto.
  apply NoDup_cons; auto.
Qed.

Lemma NI_run : forall ops, NoDup (announcers ops) ->
  (forall p y n, In (OAnnounce p y n) ops -> y = f p) ->
  NI f x (run ops) (run (filter (fun o => f (op_peer o) =? x) ops)).
Proof using Hx.
  intros ops. induction ops as [|o ops IH] using rev_ind; intros Hnd Ho.
  { cbn. constructor; cbn; auto; tauto. }
  pose proof Hnd as Hnd'. rewrite announcers_snoc in Hnd'. pose proof (nodup_app_l _ _ Hnd') as Hnd0.
  assert (HN : NI f x (run ops) (run (filter (fun o => f (op_peer o) =? x) ops))).
  { apply IH; auto. intros p y n H. apply (Ho p y n). apply in_or_app; auto. }
  rewrite run_snoc, filter_app. cbn [filter].
  assert (Ho' : forall p y n, o = OAnnounce p y n -> y = f p).
  { intros p y n ->. apply (Ho p y n). apply in_or_app. right. left. reflexivity. }
  destruct (Nat.eqb_spec (f (op_peer o)) x) as [E|E].
  - rewrite run_snoc. eapply NI_same; eauto.
    + apply U_run.
    + apply O_run; auto.
    + apply U_run.
    + apply O_run. apply announcers_filter; auto.
  - rewrite app_nil_r. eapply NI_other; eauto.
    + apply U_run.
    + apply O_run; auto.
Qed.
End Iso.
