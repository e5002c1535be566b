(** Proofs about networks of LIN controllers, continued. *)
From Coq Require Import NArith List Arith Bool Lia Sorting.Sorted Sorting.Permutation.
From Verif Require Import Base LinModel LinSpec LinProofs LinNet.
Import ListNotations.
Open Scope N_scope.

Definition msg_static (m : lmsg) : Prop := match m with MConfig _ d _ => d = false | _ => True end.
Record net_ok (s : lnet) : Prop := mkNet {
  no_own : forall i, (i < ln_size s)%nat -> own (ln_c s i);
  no_self : forall i, (i < ln_size s)%nat -> c_self (ln_c s i) = N.of_nat i;
  no_addr : forall i n, (i < ln_size s)%nat -> In n (c_nodes (ln_c s i)) -> nd_addr n < N.of_nat (ln_size s);
  no_view : forall i j, (i < ln_size s)%nat -> (j < ln_size s)%nat -> i <> j ->
            matches (ln_c s j) (view (get_node (N.of_nat j) (ln_c s i)) (ln_q s j i));
  no_msgs : forall i j, Forall msg_static (ln_q s i j);
  no_queue : forall i j, ln_q s i j <> [] -> (i < ln_size s)%nat /\ (j < ln_size s)%nat /\ i <> j }.

Lemma net_ok0 n : net_ok (lnet0 n).
Proof.
  constructor; cbn; intros; try contradiction; auto.
  - constructor; cbn; auto; constructor.
Qed.
Lemma fupd_same {A} (f : nat -> A) i x : fupd f i x i = x.
Proof. unfold fupd. rewrite Nat.eqb_refl. reflexivity. Qed.
Lemma fupd_other {A} (f : nat -> A) i j x : j <> i -> fupd f i x j = f j.
Proof. unfold fupd. intros H. destruct (Nat.eqb_spec j i); [contradiction|reflexivity]. Qed.

Lemma net_api s k c' o : net_ok s -> (k < ln_size s)%nat -> api_ok (ln_c s k) c' o -> net_ok (lnet_after k c' o (ln_q s) s).
Proof.
  intros [A1 A2 A3 A4 A5 A6] K [B1 B2 B3 B4 B5 B6].
  assert (SS : c_self (ln_c s k) = N.of_nat k) by auto.
  constructor; cbn [lnet_after ln_size ln_c ln_q].
  - intros i H. destruct (Nat.eq_dec i k) as [->|E]; [rewrite fupd_same; auto|rewrite fupd_other by auto; auto].
  - intros i H. destruct (Nat.eq_dec i k) as [->|E]; [rewrite fupd_same; congruence|rewrite fupd_other by auto; auto].
  - intros i n H N. destruct (Nat.eq_dec i k) as [->|E]; [rewrite fupd_same in N|rewrite fupd_other in N by auto; eauto].
    apply (in_map nd_addr), B4 in N. destruct N as [N|N]; [lia|]. apply in_map_iff in N. destruct N as (n' & <- & N). eauto.
  - intros i j Hi Hj NE. destruct (Nat.eq_dec j k) as [->|E].
    + rewrite fupd_same, fupd_other by auto. rewrite Nat.eqb_refl. replace (i =? k)%nat with false by (symmetry; apply Nat.eqb_neq; auto).
      replace (i <? ln_size s)%nat with true by (symmetry; apply Nat.ltb_lt; auto). cbn [negb andb]. rewrite view_app. apply B5, A4; auto.
    + rewrite (fupd_other _ _ j) by auto. replace (j =? k)%nat with false by (symmetry; apply Nat.eqb_neq; auto). cbn [andb].
      destruct (Nat.eq_dec i k) as [->|F]; [rewrite fupd_same, B3 by lia; auto|rewrite fupd_other by auto; auto].
  - intros i j. destruct (_ && _); auto. apply Forall_app. split; auto.
  - intros i j. destruct (_ && _) eqn:E; auto. intros _. apply andb_prop in E. destruct E as (E & F). apply andb_prop in E. destruct E as (E & G).
    apply Nat.eqb_eq in E. apply Nat.ltb_lt in F. apply negb_true_iff, Nat.eqb_neq in G. subst i. auto.
Qed.
Lemma matches_same c c' n : c_mode c' = c_mode c -> c_status c' = c_status c -> this_node c' = this_node c -> matches c n -> matches c' n.
Proof. unfold matches. intros -> -> ->. auto. Qed.
Lemma net_rcv s a b m r c' o : net_ok s -> ln_q s a b = m :: r -> rcv_ok (N.of_nat a) m (ln_c s b) c' o ->
  net_ok (lnet_after b c' o (fun x y => if (x =? a)%nat && (y =? b)%nat then r else ln_q s x y) s).
Proof.
  intros [A1 A2 A3 A4 A5 A6] Q [B1 B2 B3 B4 B5 B6 B7 B8 B9].
  destruct (A6 a b) as (HA & HB & NAB); [congruence|].
  set (q := fun x y => if (x =? a)%nat && (y =? b)%nat then r else ln_q s x y).
  assert (QE : forall x y, ln_q s x y = (if (x =? a)%nat && (y =? b)%nat then [m] else []) ++ q x y).
  { intros x y. unfold q. destruct ((x =? a)%nat && (y =? b)%nat) eqn:E; [|reflexivity]. apply andb_prop in E. destruct E as (E & F).
    apply Nat.eqb_eq in E, F. subst. exact Q. }
  assert (QS : forall x y, Forall msg_static (q x y)).
  { intros x y. specialize (A5 x y). rewrite QE in A5. apply Forall_app in A5. tauto. }
  constructor; cbn [lnet_after ln_size ln_c ln_q].
  - intros i H. destruct (Nat.eq_dec i b) as [->|E]; [rewrite fupd_same; auto|rewrite fupd_other by auto; auto].
  - intros i H. destruct (Nat.eq_dec i b) as [->|E]; [rewrite fupd_same, B2; auto|rewrite fupd_other by auto; auto].
  - intros i n H N. destruct (Nat.eq_dec i b) as [->|E]; [rewrite fupd_same in N|rewrite fupd_other in N by auto; eauto].
    apply (in_map nd_addr), B8 in N. destruct N as [N|N]; [lia|]. apply in_map_iff in N. destruct N as (n' & <- & N). eauto.
  - intros i j Hi Hj NE. pose proof (A4 i j Hi Hj NE) as V. rewrite QE, view_app in V.
    assert (QV : forall n, view n (if (j =? b)%nat && negb (i =? b)%nat && (i <? ln_size s)%nat then q j i ++ sent o else q j i) = view n (q j i)).
    { intros n. destruct ((j =? b)%nat && negb (i =? b)%nat && (i <? ln_size s)%nat); [|reflexivity]. rewrite view_app. apply view_quiet, B9. }
    rewrite QV.
    assert (GE : get_node (N.of_nat j) (fupd (ln_c s) b c' i) = view (get_node (N.of_nat j) (ln_c s i)) (if (j =? a)%nat && (i =? b)%nat then [m] else [])).
    { destruct (Nat.eq_dec i b) as [->|E].
      - rewrite fupd_same, Nat.eqb_refl. destruct (Nat.eqb_spec j a) as [->|G]; [exact B6|]. cbn. apply B7. lia.
      - rewrite fupd_other by auto. replace (i =? b)%nat with false by (symmetry; apply Nat.eqb_neq; auto). rewrite andb_false_r. reflexivity. }
    rewrite GE. destruct (Nat.eq_dec j b) as [->|E].
    + rewrite fupd_same. eapply matches_same; eauto.
    + rewrite fupd_other by auto. exact V.
  - intros i j. destruct (_ && _); auto. apply Forall_app. split; auto.
    apply Forall_forall. intros x H. rewrite forallb_forall in B9. apply B9 in H. destruct x; cbn; auto; discriminate.
  - intros i j. destruct (_ && _) eqn:E.
    + intros _. apply andb_prop in E. destruct E as (E & F). apply andb_prop in E. destruct E as (E & G).
      apply Nat.eqb_eq in E. apply Nat.ltb_lt in F. apply negb_true_iff, Nat.eqb_neq in G. subst i. auto.
    + intros H. apply A6. rewrite QE. intros X. apply app_eq_nil in X. tauto.
Qed.
Lemma static_api i op : static_nop (NApi i op) = true -> (exists a b c, op = LReceive a b c) \/ (exists a, op = LSimulator a) \/ static_op op = true.
Proof. destruct op; cbn; intros H; try discriminate; eauto 6. Qed.
Lemma net_step o s s' out : net_ok s -> static_nop o = true -> lnstep o s = Some (s', out) -> net_ok s' /\ ln_size s' = ln_size s.
Proof.
  intros NO ST. destruct o as [i op|a b|]; [| |discriminate]; cbn [lnstep].
  - destruct (static_api i op ST) as [(x & y & z & ->)|[(x & ->)|SO]]; [injection 1 as <- <-; auto..|].
    assert (E : (match op with LReceive _ _ _ | LSimulator _ => Some (s, []) | _ =>
       if (i <? ln_size s)%nat then match cexec op (ln_c s i) with (_, _, LUB) => None | (c, out, _) => Some (lnet_after i c out (ln_q s) s, map (pair i) out) end else Some (s, []) end)
       = (if (i <? ln_size s)%nat then match cexec op (ln_c s i) with (_, _, LUB) => None | (c, out, _) => Some (lnet_after i c out (ln_q s) s, map (pair i) out) end else Some (s, [])))
      by (destruct op; try reflexivity; discriminate).
    rewrite E. clear E. destruct (Nat.ltb_spec i (ln_size s)) as [L|L]; [|injection 1 as <- <-; auto].
    pose proof (api_good op (ln_c s i) SO (no_own s NO i L)) as G. unfold goodp in G. destruct (cexec op (ln_c s i)) as [[c' o] r].
    assert (X : r <> LUB -> net_ok (lnet_after i c' o (ln_q s) s)).
    { intros NR. destruct G as [G|G]; [contradiction|]. apply net_api; auto. }
    destruct r; try discriminate; injection 1 as <- <-; split; auto; apply X; discriminate.
  - destruct (ln_q s a b) as [|m r] eqn:Q; [injection 1 as <- <-; auto|].
    destruct (no_queue s NO a b) as (HA & HB & NE); [congruence|].
    destruct (Nat.ltb_spec b (ln_size s)) as [L|L]; [|lia].
    cbn [cexec]. unfold catch.
    assert (MS : msg_static m) by (pose proof (no_msgs s NO a b) as F; rewrite Q in F; inversion F; auto).
    assert (NF : N.of_nat a <> c_self (ln_c s b)) by (rewrite (no_self s NO b HB); lia).
    pose proof (receive_good (N.of_nat a) m (ln_c s b) (no_own s NO b HB) NF MS) as G.
    destruct (receive (N.of_nat a) false m (ln_c s b)) as [[c' o] rr].
    assert (X : rr <> LUB -> net_ok (lnet_after b c' o (fun x y => if (x =? a)%nat && (y =? b)%nat then r else ln_q s x y) s)).
    { intros NR. destruct G as [G|G]; [contradiction|]. apply (net_rcv s a b m); auto. }
    destruct rr; try discriminate; injection 1 as <- <-; split; auto; apply X; discriminate.
Qed.
Lemma net_run l : forall s s' out, net_ok s -> forallb static_nop l = true -> lnrun l s = Some (s', out) -> net_ok s' /\ ln_size s' = ln_size s.
Proof.
  induction l as [|o l IH]; intros s s' out NO ST; cbn [lnrun]; [injection 1 as <- <-; auto|].
  cbn in ST. apply andb_prop in ST. destruct ST as (S1 & S2). destruct (lnstep o s) as [[s1 o1]|] eqn:E; [|discriminate].
  destruct (lnrun l s1) as [[s2 o2]|] eqn:F; [|discriminate]. injection 1 as <- <-.
  destruct (net_step o s s1 o1 NO S1 E) as (A & B). destruct (IH s1 s2 o2 A S2 F) as (C & D). split; [exact C|congruence].
Qed.

(** ** The master counts the responders *)
Definition cnt (id : N) (n : node) : bool :=
  negb (cmode_eqb (nd_mode n) Inactive || negb (cstatus_eqb (nd_status n) StOperational)) && tx_at id (modes (nd_resp n)).
Lemma tx_at_resp id n r : resp_at id n = Some r -> tx_at id (modes (nd_resp n)) = rmode_eqb (r_mode r) RTx.
Proof.
  unfold resp_at, tx_at, modes. destruct (_ <? _); [|discriminate]. intros H. rewrite (map_nth_error r_mode _ _ H). destruct (r_mode r); reflexivity.
Qed.
Lemma get_response_count id l : forall acc k f, get_response id l acc = Some (k, f) -> k = (fst acc + length (filter (cnt id) l))%nat.
Proof.
  induction l as [|n l IH]; intros acc k f; cbn [get_response filter].
  - injection 1 as ->. cbn. lia.
  - unfold cnt at 1. destruct (_ || _); cbn [negb andb]; [apply IH|].
    destruct (resp_at id n) as [x|] eqn:E; [|discriminate]. intros H. apply IH in H. rewrite (tx_at_resp _ _ _ E).
    destruct (rmode_eqb (r_mode x) RTx); cbn [fst length] in *; lia.
Qed.
Lemma get_response_frame id l : forall acc k f, Forall node_ok l -> f_id (snd acc) = id -> get_response id l acc = Some (k, f) -> f_id f = id.
Proof.
  induction l as [|n l IH]; intros acc k f FO A; cbn [get_response].
  - injection 1 as ->. exact A.
  - apply Forall_cons_iff in FO. destruct FO as (F1 & F2). destruct (_ || _); [apply IH; auto|].
    destruct (resp_at id n) as [x|] eqn:E; [|discriminate]. apply IH; auto. destruct (rmode_eqb (r_mode x) RTx) eqn:M; [|exact A]. cbn.
    eapply resp_at_id; eauto. destruct (r_mode x); discriminate.
Qed.
Lemma tx_at_answer id c : tx_at id (modes (nd_resp (this_node c))) = match answer id c with Some _ => true | None => false end.
Proof.
  unfold tx_at, modes, answer, entry. destruct (nth_error (nd_resp (this_node c)) (N.to_nat id)) as [[f md]|] eqn:E.
  - rewrite (map_nth_error r_mode _ _ E). destruct md; reflexivity.
  - rewrite (proj2 (nth_error_None _ _)); [reflexivity|]. rewrite map_length. apply nth_error_None. exact E.
Qed.
Lemma srt_nodup l : srt l -> NoDup (map nd_addr l).
Proof.
  unfold srt. induction 1 as [|y l Hl IH Hy]; cbn; constructor; auto. intros H. apply in_map_iff in H. destruct H as (n & E & H).
  eapply Forall_forall in Hy; [|exact H]. lia.
Qed.
Lemma filter_nodup_map (f : node -> bool) l : NoDup (map nd_addr l) -> NoDup (map nd_addr (filter f l)).
Proof.
  induction l as [|n l IH]; cbn; [auto|]. intros H. inversion H; subst. destruct (f n); cbn; auto. constructor; auto.
  intros X. apply H2. apply in_map_iff in X. destruct X as (y & E & X). apply filter_In in X. apply in_map_iff. exists y. tauto.
Qed.
Lemma NoDup_map_of_nat l : NoDup l -> NoDup (map N.of_nat l).
Proof. intros H. apply FinFun.Injective_map_NoDup; auto. intros a b E. lia. Qed.
(** every node that would answer is operational and is a slave or the master itself *)
Definition answering_ok (m : nat) (id : N) (s : lnet) : Prop :=
  forall i, (i < ln_size s)%nat -> answer id (ln_c s i) <> None -> c_status (ln_c s i) = StOperational /\ (i = m \/ c_mode (ln_c s i) = Slave).
Lemma count_responders s m id : net_ok s -> quiescent s -> (m < ln_size s)%nat -> c_mode (ln_c s m) = Master -> answering_ok m id s ->
  length (filter (cnt id) (c_nodes (ln_c s m))) = length (responders id s).
Proof.
  intros NO QU HM MM AO. set (c := ln_c s m). pose proof (no_own s NO m HM) as OW. fold c in OW.
  assert (KEY : forall i, (i < ln_size s)%nat -> cnt id (get_node (N.of_nat i) c) = operational (ln_c s i) && match answer id (ln_c s i) with Some _ => true | None => false end).
  { intros i Hi. destruct (Nat.eq_dec i m) as [->|NE].
    - unfold cnt. replace (N.of_nat m) with (c_self c) by (apply (no_self s NO m HM)). fold (this_node c). rewrite tx_at_answer. fold c.
      destruct (ow_state c OW) as [(_ & A & _)|(_ & _ & A & B)]; [unfold c in A; congruence|]. rewrite A, B. unfold c at 1. rewrite MM. cbn [cmode_eqb cstatus_eqb orb negb andb].
      destruct (answer id c) as [f|] eqn:E; [|rewrite andb_false_r; reflexivity]. destruct (AO m HM) as (X & _); [fold c; congruence|].
      unfold operational. fold c in X. rewrite X. reflexivity.
    - pose proof (no_view s NO m i HM Hi (not_eq_sym NE)) as V. rewrite QU in V. cbn [view fold_left] in V. fold c in V. unfold matches in V.
      unfold cnt. destruct (c_mode (ln_c s i)) eqn:CM.
      3: { destruct V as (A & B & C). rewrite A, B, C, tx_at_answer. cbn [cmode_eqb orb]. rewrite negb_involutive. reflexivity. }
      all: destruct V as (A & B); rewrite A; cbn [cmode_eqb orb negb andb];
        destruct (answer id (ln_c s i)) eqn:E; [|rewrite andb_false_r; reflexivity];
        destruct (AO i Hi) as (_ & [X|X]); [congruence|contradiction|congruence]. }
  rewrite <- (map_length nd_addr), <- (map_length N.of_nat (responders id s)). apply Permutation_length, NoDup_Permutation.
  - apply filter_nodup_map, srt_nodup, (ow_srt c OW).
  - apply NoDup_map_of_nat. unfold responders. apply NoDup_filter, seq_NoDup.
  - intros a. split; intros H.
    + apply in_map_iff in H. destruct H as (n & <- & H). apply filter_In in H. destruct H as (H1 & H2).
      pose proof (no_addr s NO m n HM H1) as L. apply in_map_iff. exists (N.to_nat (nd_addr n)). split; [lia|]. apply filter_In. split.
      * apply in_seq. lia.
      * rewrite <- KEY by lia. rewrite N2Nat.id. unfold get_node. rewrite (find_in n) by (auto; apply (ow_srt c OW)). exact H2.
    + apply in_map_iff in H. destruct H as (i & <- & H). apply filter_In in H. destruct H as (H1 & H2). apply in_seq in H1.
      rewrite <- KEY in H2 by lia. unfold get_node in H2. destruct (find_node (N.of_nat i) (c_nodes c)) as [n|] eqn:E; [|unfold cnt in H2; cbn in H2; discriminate].
      apply find_node_in in E. destruct E as (E1 & E2). apply in_map_iff. exists n. split; [exact E2|]. apply filter_In. auto.
Qed.
