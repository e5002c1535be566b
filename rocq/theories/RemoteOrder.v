(** Proofs about RemoteModel.v: what comes before what. *)
From Coq Require Import List Arith Bool Lia.
From Verif Require Import Base RemoteModel RemoteProofs RemoteEnd RemoteLog.
From Verif Require ConnectModel.
Import ListNotations.

(** What must come before [e] ([a]: the earlier events). *)
Definition ok (c : cfg) (a : list ev) (e : ev) : Prop :=
  match e with
  | LDirectFailed => a = []
  | LAnnounce None => In LDirectFailed a /\ (can_request c = false \/ In LExpired a \/ In LRefused a)
  | LAnnounce (Some _) => a = [] \/ In LNotice a
  | LExpired | LAccept => In LDirectFailed a
  | LNotice | LRefuse => In LAccept a
  | LRefused => In LRefuse a
  | LReply k => In (LAnnounce k) a
  end.
Definition ordered (c : cfg) (log : list ev) : Prop := forall a e b, log = a ++ e :: b -> ok c a e.
Lemma ordered_snoc c l e : ordered c l -> ok c l e -> ordered c (l ++ [e]).
Proof.
  intros O K a x b H. destruct b as [|y b] using rev_ind.
  - apply app_inj_tail in H as [-> ->]. exact K.
  - rewrite app_comm_cons, app_assoc in H. apply app_inj_tail in H as [H _]. eauto.
Qed.

(** What is known if a message is on its way. *)
Definition p_t (l : list ev) (m : msg) : Prop := match m with MAnn => In (LAnnounce None) l | MReq => In LDirectFailed l | _ => True end.
Definition p_o (l : list ev) (m : msg) : Prop :=
  match m with MRep => In (LAnnounce None) l | MNotice => False | MFail => In LRefuse l | _ => True end.
Definition p_tl (k : nat) (l : list ev) (m : msg) : Prop := match m with MAnn => In (LAnnounce (Some k)) l | MReq => False | _ => True end.
Definition p_ol (k : nat) (l : list ev) (m : msg) : Prop :=
  match m with MRep => In (LAnnounce (Some k)) l | MNotice => In LNotice l | MFail => False | _ => True end.

Record InvC (c : cfg) (s : st) : Prop := mkInvC {
  d_or : Forall (p_t (s_log s)) (s_or s);
  d_rt : Forall (p_t (s_log s)) (s_rt s);
  d_tr : Forall (p_o (s_log s)) (s_tr s);
  d_ro : Forall (p_o (s_log s)) (s_ro s);
  d_ol : forall k, Forall (p_ol k (s_log s)) (fst (nth k (s_links s) ([], [])));
  d_tl : forall k, Forall (p_tl k (s_log s)) (snd (nth k (s_links s) ([], [])));
  d_pend : s_pend s = true -> s_log s = [];
  d_stage : s_stage s = PRequested \/ s_stage s = PConnecting -> In LDirectFailed (s_log s);
  d_tries : s_tries s <> 0 -> In LAccept (s_log s);
  d_ord : ordered c (s_log s) }.

Lemma say_c c e s : InvC c s -> ok c (s_log s) e -> s_pend s = false -> InvC c (say e s).
Proof.
  intros [A1 A2 A3 A4 A5 A6 A7 A8 A9 A10] K P. constructor; proj.
  1-4: eapply Forall_impl; [|eassumption]; intros [| | | | | |d]; cbn; auto; intros; apply in_or_app; auto.
  1-2: intros k; eapply Forall_impl; [|eauto]; intros [| | | | | |d]; cbn; auto; intros; apply in_or_app; auto.
  - congruence.
  - intros H. apply in_or_app. auto.
  - intros H. apply in_or_app. auto.
  - now apply ordered_snoc.
Qed.
Lemma update_c c s : InvC c s -> InvC c (update s).
Proof. unfold update. destruct (s_stage s) eqn:E; auto; intros [A1 A2 A3 A4 A5 A6 A7 A8 A9 A10]; constructor; assumption. Qed.
Lemma stage_c c x s : InvC c s -> (x = PRequested \/ x = PConnecting -> In LDirectFailed (s_log s)) -> InvC c (set_stage x s).
Proof. intros [A1 A2 A3 A4 A5 A6 A7 A8 A9 A10] H. constructor; assumption. Qed.

Lemma nth_put_cases {A} k i (x : A) l d : nth i (put k x l) d = nth i l d \/ (i = k /\ nth i (put k x l) d = x).
Proof.
  destruct (Nat.eq_dec i k) as [->|N]; [|left; now apply nth_put_other].
  destruct (Nat.lt_ge_cases k (length l)); [right; split; auto; now apply nth_put|left; now rewrite put_out].
Qed.
Lemma to_t_c c k q s : InvC c s -> Forall (p_tl k (s_log s)) q -> InvC c (set_to_t k q s).
Proof.
  intros [A1 A2 A3 A4 A5 A6 A7 A8 A9 A10] H. unfold set_to_t. constructor; proj; try assumption.
  - intros i. destruct (nth_put_cases k i (to_o k s, q) (s_links s) ([], [])) as [->|[-> ->]]; [apply A5|]. cbn. apply A5.
  - intros i. destruct (nth_put_cases k i (to_o k s, q) (s_links s) ([], [])) as [->|[-> ->]]; [apply A6|]. exact H.
Qed.
Lemma to_o_c c k q s : InvC c s -> Forall (p_ol k (s_log s)) q -> InvC c (set_to_o k q s).
Proof.
  intros [A1 A2 A3 A4 A5 A6 A7 A8 A9 A10] H. unfold set_to_o. constructor; proj; try assumption.
  - intros i. destruct (nth_put_cases k i (q, to_t k s) (s_links s) ([], [])) as [->|[-> ->]]; [apply A5|]. exact H.
  - intros i. destruct (nth_put_cases k i (q, to_t k s) (s_links s) ([], [])) as [->|[-> ->]]; [apply A6|]. cbn. apply A6.
Qed.
Lemma new_link_c c x y s : InvC c s -> (forall k, Forall (p_ol k (s_log s)) x) -> (forall k, Forall (p_tl k (s_log s)) y) -> InvC c (new_link (x, y) s).
Proof.
  intros [A1 A2 A3 A4 A5 A6 A7 A8 A9 A10] H1 H2. constructor; proj; try assumption; intros k;
    (destruct (Nat.lt_ge_cases k (length (s_links s))); [rewrite app_nth1 by assumption; auto|rewrite app_nth2 by assumption]);
    destruct (k - length (s_links s)) as [|[|n]]; cbn; auto.
Qed.
Lemma o_send_c c k m s : InvC c s -> match k with None => p_t (s_log s) m | Some k => p_tl k (s_log s) m end -> InvC c (o_send k m s).
Proof.
  intros I H. destruct k as [k|]; cbn [o_send].
  - destruct (s_gone s); auto. apply to_t_c; auto. apply Forall_app. split; [apply (d_tl _ _ I)|]. auto.
  - destruct I as [A1 A2 A3 A4 A5 A6 A7 A8 A9 A10]. constructor; proj; try assumption. apply Forall_app. auto.
Qed.
Lemma handle_connected_c c k s : InvC c s -> s_pend s = false -> ok c (s_log s) (LAnnounce k) -> InvC c (handle_connected k s).
Proof.
  intros I P K. apply o_send_c; [now apply say_c|]. cbn. destruct k; cbn; apply in_or_app; cbn; auto.
Qed.
Lemma via_proxy_c c s : InvC c s -> s_pend s = false -> ok c (s_log s) (LAnnounce None) -> InvC c (via_proxy c s).
Proof.
  intros I P K. unfold via_proxy.
  assert (J : InvC c (set_stage PWaiting s)) by (apply stage_c; auto; intros [X|X]; discriminate).
  destruct (c_oproxy c); [destruct (c_caps c) as [[? []]|]|].
  - apply update_c, handle_connected_c; auto.
  - apply update_c. apply stage_c; auto. intros [X|X]; discriminate.
  - destruct J as [A1 A2 A3 A4 A5 A6 A7 A8 A9 A10]. constructor; assumption.
  - apply update_c. apply stage_c; auto. intros [X|X]; discriminate.
Qed.
Lemma not_pend c s e : InvC c s -> In e (s_log s) -> s_pend s = false.
Proof. intros I H. destruct (s_pend s) eqn:P; auto. rewrite (d_pend _ _ I P) in H. destruct H. Qed.

Definition p_any (k : option nat) (l : list ev) (m : msg) : Prop := match k with None => p_o l m | Some k => p_ol k l m end.
Lemma o_recv_c c k m s : InvC c s -> p_any k (s_log s) m -> InvC c (o_recv c k m s).
Proof.
  intros I P. destruct m; cbn [o_recv]; auto.
  - destruct (s_stage s) eqn:S; auto. apply stage_c; auto. intros _. apply (d_stage _ _ I). auto.
  - destruct k as [k|]; cbn in P; [destruct P|].
    assert (J : InvC c (say LRefused s)) by (apply say_c; auto; eapply not_pend; eauto).
    cbn zeta. destruct (s_stage (say LRefused s)) eqn:S; auto;
      (apply via_proxy_c; [exact J|proj; eapply not_pend; eauto|]; cbn; split;
        [apply in_or_app; left; apply (d_stage _ _ I); auto|right; right; apply in_or_app; right; now left]).
  - destruct k as [k|]; cbn in P; [|destruct P]. cbn zeta.
    pose proof (not_pend _ _ _ I P) as N.
    assert (J : InvC c (match s_stage s with PRequested | PConnecting => update (set_stage PWaiting s) | _ => s end)).
    { destruct (s_stage s); auto; apply update_c, stage_c; auto; intros [X|X]; discriminate. }
    apply handle_connected_c; [exact J|destruct (s_stage s); exact N|]. cbn. right. destruct (s_stage s); exact P.
  - assert (K : In (LAnnounce k) (s_log s)) by (destruct k; exact P).
    pose proof (not_pend _ _ _ I K) as N. unfold o_reply. cbn zeta.
    assert (J : InvC c (say (LReply k) s)) by (apply say_c; auto).
    set (s1 := if existsb (ceqb k) (s_rcv (say (LReply k) s)) then say (LReply k) s else set_rcv (s_rcv (say (LReply k) s) ++ [k]) (say (LReply k) s)).
    assert (J1 : InvC c s1).
    { unfold s1. destruct (existsb _ _); auto. destruct J as [A1 A2 A3 A4 A5 A6 A7 A8 A9 A10]. constructor; assumption. }
    clearbody s1. destruct (s_stage s1); auto. apply update_c, stage_c; auto. intros [X|X]; discriminate.
Qed.

Lemma publish_c c s : InvC c s -> InvC c (publish s).
Proof.
  intros I. unfold publish.
  assert (J : InvC c (set_next (S (s_next s)) s)) by (destruct I as [A1 A2 A3 A4 A5 A6 A7 A8 A9 A10]; constructor; assumption).
  revert J. generalize (set_next (S (s_next s)) s). generalize (s_rcv s). clear.
  induction l as [|k l IH]; intros s J; cbn [fold_left]; auto. apply IH. apply o_send_c; auto. now destruct k.
Qed.
Lemma t_request_c c now s : InvC c s -> In LDirectFailed (s_log s) -> InvC c (t_request c now s).
Proof.
  intros I D. pose proof (not_pend _ _ _ I D) as N. unfold t_request. destruct (c_treq c); auto. cbn zeta.
  assert (J : InvC c (say LAccept s)) by (apply say_c; auto).
  assert (A : In LAccept (s_log (say LAccept s))) by (cbn; apply in_or_app; right; now left).
  destruct now.
  - assert (J2 : InvC c (say LRefuse (say LAccept s))) by (apply say_c; auto).
    destruct J2 as [A1 A2 A3 A4 A5 A6 A7 A8 A9 A10]. constructor; try assumption. cbn [s_tr set_tr].
    apply Forall_app. split; [apply Forall_app; split; [exact A3|]|]; repeat constructor.
    cbn. apply in_or_app. right. now left.
  - destruct J as [A1 A2 A3 A4 A5 A6 A7 A8 A9 A10]. constructor; try assumption.
    + cbn [s_tr set_tr set_tries]. apply Forall_app. split; [exact A3|]. repeat constructor.
    + intros _. exact A.
Qed.

Lemma step_c c s o : InvC c s -> InvC c (step c s o).
Proof.
  intros I. destruct o; cbn [step].
  - destruct (s_pend s) eqn:P; cbn [andb]; [|exact I]. destruct (s_gone s); cbn [negb]; [exact I|].
    unfold direct_ok. cbn zeta. apply update_c, handle_connected_c; [|reflexivity|].
    + apply stage_c; [|intros [X|X]; discriminate]. apply new_link_c; auto.
      destruct I as [A1 A2 A3 A4 A5 A6 A7 A8 A9 A10]. constructor; try assumption. intros X. discriminate X.
    + left. exact (d_pend _ _ I P).
  - destruct (s_pend s) eqn:P; [|exact I]. unfold direct_fail. cbn zeta.
    assert (J : InvC c (set_pend false s)).
    { destruct I as [A1 A2 A3 A4 A5 A6 A7 A8 A9 A10]. constructor; try assumption. intros X. discriminate X. }
    assert (J2 : InvC c (say LDirectFailed (set_pend false s))) by (apply say_c; auto; exact (d_pend _ _ I P)).
    assert (D : In LDirectFailed (s_log (say LDirectFailed (set_pend false s)))) by (cbn; apply in_or_app; right; now left).
    destruct (can_request c) eqn:R.
    + assert (J3 : InvC c (o_send None MReq (set_stage PRequested (say LDirectFailed (set_pend false s))))).
      { apply o_send_c; auto. apply stage_c; auto. }
      destruct J3 as [A1 A2 A3 A4 A5 A6 A7 A8 A9 A10]. constructor; assumption.
    + apply via_proxy_c; auto. split; auto.
  - destruct (s_timer s); [|exact I]. unfold timer.
    assert (J : InvC c (set_timer false s)) by (destruct I as [A1 A2 A3 A4 A5 A6 A7 A8 A9 A10]; constructor; assumption).
    destruct (s_stage s) eqn:S; auto.
    assert (D : In LDirectFailed (s_log s)) by (apply (d_stage _ _ I); auto).
    pose proof (not_pend _ _ _ I D) as N.
    apply via_proxy_c; [apply say_c; auto|exact N|]. cbn. split; [apply in_or_app; auto|]. right. left. apply in_or_app. right. now left.
  - destruct (s_or s) as [|m q] eqn:Q; [exact I|]. cbn zeta.
    destruct I as [A1 A2 A3 A4 A5 A6 A7 A8 A9 A10]. rewrite Q in A1. apply Forall_cons_iff in A1 as [M A1].
    destruct (forwards c m && _); constructor; try assumption. cbn. apply Forall_app. auto.
  - destruct (s_tr s) as [|m q] eqn:Q; [exact I|]. cbn zeta.
    destruct I as [A1 A2 A3 A4 A5 A6 A7 A8 A9 A10]. rewrite Q in A3. apply Forall_cons_iff in A3 as [M A3].
    destruct (forwards c m); constructor; try assumption. cbn. apply Forall_app. auto.
  - destruct (s_rt s) as [|m q] eqn:Q; [exact I|].
    assert (J : InvC c (set_rt q s) /\ p_t (s_log s) m).
    { destruct I as [A1 A2 A3 A4 A5 A6 A7 A8 A9 A10]. rewrite Q in A2. apply Forall_cons_iff in A2 as [M A2]. split; [constructor; assumption|exact M]. }
    destruct J as [J M]. destruct m; cbn [t_recv]; auto.
    + apply t_request_c; auto.
    + destruct (c_tproxy c); auto. destruct J as [A1 A2 A3 A4 A5 A6 A7 A8 A9 A10]. constructor; try assumption.
      cbn. apply Forall_app. split; [exact A3|]. repeat constructor. exact M.
    + destruct (c_tproxy c); auto. destruct J as [A1 A2 A3 A4 A5 A6 A7 A8 A9 A10]. constructor; assumption.
  - destruct (s_tries s) as [|n] eqn:Q; [exact I|]. unfold t_ok.
    assert (A : In LAccept (s_log s)) by (apply (d_tries _ _ I); rewrite Q; discriminate).
    assert (J : InvC c (say LNotice (set_tries (s_tries s - 1) s))).
    { apply say_c; [|exact A|exact (not_pend _ _ _ I A)].
      destruct I as [A1 A2 A3 A4 A5 A6 A7 A8 A9 A10]. constructor; try assumption. intros _. exact A. }
    change (InvC c (new_link ([MNotice], []) (say LNotice (set_tries (s_tries s - 1) s)))).
    apply new_link_c; auto. intros k. repeat constructor. cbn. apply in_or_app. right. now left.
  - destruct (s_tries s) as [|n] eqn:Q; [exact I|]. unfold t_fail.
    assert (A : In LAccept (s_log s)) by (apply (d_tries _ _ I); rewrite Q; discriminate).
    assert (J : InvC c (say LRefuse (set_tries (s_tries s - 1) s))).
    { apply say_c; [|exact A|exact (not_pend _ _ _ I A)].
      destruct I as [A1 A2 A3 A4 A5 A6 A7 A8 A9 A10]. constructor; try assumption. intros _. exact A. }
    destruct J as [A1 A2 A3 A4 A5 A6 A7 A8 A9 A10]. constructor; try assumption.
    cbn. apply Forall_app. split; [exact A3|]. repeat constructor. cbn. apply in_or_app. right. now left.
  - destruct (s_ro s) as [|m q] eqn:Q; [exact I|].
    destruct I as [A1 A2 A3 A4 A5 A6 A7 A8 A9 A10]. rewrite Q in A4. apply Forall_cons_iff in A4 as [M A4].
    apply o_recv_c; [constructor; assumption|exact M].
  - destruct (to_o k s) as [|m q] eqn:Q; [exact I|].
    pose proof (d_ol _ _ I k) as M. unfold to_o in Q. rewrite Q in M. apply Forall_cons_iff in M as [M M2].
    apply o_recv_c; [now apply to_o_c|exact M].
  - destruct (to_t k s) as [|m q] eqn:Q; [exact I|].
    pose proof (d_tl _ _ I k) as M. unfold to_t in Q. rewrite Q in M. apply Forall_cons_iff in M as [M M2].
    assert (J : InvC c (set_to_t k q s)) by now apply to_t_c.
    destruct m; cbn [t_recv]; auto.
    + destruct M.
    + apply to_o_c; auto. apply Forall_app. split; [apply (d_ol _ _ J)|]. repeat constructor. exact M.
    + destruct J as [A1 A2 A3 A4 A5 A6 A7 A8 A9 A10]. constructor; assumption.
  - now apply publish_c.
  - destruct I as [A1 A2 A3 A4 A5 A6 A7 A8 A9 A10]. constructor; try assumption; cbn; auto; try lia; intros k;
      change ([] : list msg, [] : list msg) with ((fun _ : link => ([] : list msg, [] : list msg)) ([], [])); rewrite map_nth; constructor.
Qed.
Lemma run_c c ops : InvC c (run c ops).
Proof.
  induction ops as [|o ops IH] using rev_ind; [|rewrite run_snoc; now apply step_c].
  constructor; cbn; auto; try (intros [|k]; constructor); try (intros [X|X]; discriminate); try lia.
  intros [|x a] e b H; discriminate H.
Qed.

(** Each accepted request is answered once, or the attempt is under way. *)
Definition balanced (s : st) : Prop := nl e_acc (s_log s) = s_tries s + nl e_end (s_log s).
Lemma balanced_same s s' : balanced s -> s_tries s' = s_tries s -> nl e_acc (s_log s') = nl e_acc (s_log s) -> nl e_end (s_log s') = nl e_end (s_log s) -> balanced s'.
Proof. unfold balanced. intros H -> -> ->. exact H. Qed.
Ltac na := repeat (rewrite ?nl_app, ?nl_one; cbn [b2n e_acc e_end]); rewrite ?Nat.add_0_r.
Lemma update_l s : s_tries (update s) = s_tries s /\ s_log (update s) = s_log s.
Proof. unfold update. now destruct (s_stage s). Qed.
Lemma handle_connected_l k s : s_tries (handle_connected k s) = s_tries s /\ s_log (handle_connected k s) = s_log s ++ [LAnnounce k].
Proof. unfold handle_connected. pose proof (o_send_same k MAnn (say (LAnnounce k) s)) as [E1 E2 E3 E4 E5 E6 E7 E8 E9 E10 E11 E12 E13 E14 E15 E16 E17].
  cbn [say s_tries s_log] in *. split; congruence. Qed.
Lemma via_proxy_l c s : balanced s -> balanced (via_proxy c s).
Proof.
  intros B. unfold via_proxy. cbn zeta. destruct (c_oproxy c); [destruct (c_caps c) as [[? []]|]|]; try exact B.
  destruct (update_l (handle_connected None (set_stage PWaiting s))) as [U1 U2].
  destruct (handle_connected_l None (set_stage PWaiting s)) as [H1 H2].
  apply (balanced_same s); auto; rewrite ?U1, ?U2, ?H1, ?H2; na; reflexivity.
Qed.
Lemma o_recv_l c k m s : balanced s -> balanced (o_recv c k m s).
Proof.
  intros B. assert (A : forall e, e_acc e = false -> e_end e = false -> balanced (say e s)).
  { intros e X Y. apply (balanced_same s); auto; cbn; na; rewrite ?X, ?Y; cbn; lia. }
  destruct m; cbn [o_recv]; auto.
  - destruct (s_stage s); exact B.
  - cbn zeta. destruct (s_stage _); try apply via_proxy_l; apply A; reflexivity.
  - cbn zeta. set (s1 := match s_stage s with PRequested | PConnecting => update (set_stage PWaiting s) | _ => s end).
    assert (B1 : balanced s1) by (unfold s1; destruct (s_stage s); exact B). clearbody s1.
    destruct (handle_connected_l k s1) as [H1 H2]. apply (balanced_same s1); auto; rewrite ?H2; na; reflexivity.
  - unfold o_reply. cbn zeta. specialize (A (LReply k) eq_refl eq_refl).
    set (s1 := if existsb (ceqb k) _ then _ else _).
    assert (B1 : balanced s1) by (unfold s1; destruct (existsb _ _); exact A). clearbody s1.
    destruct (s_stage s1); exact B1.
Qed.
Lemma step_l c s o : o <> Gone -> balanced s -> balanced (step c s o).
Proof.
  intros G B. destruct o; cbn [step].
  - destruct (s_pend s && _); [|exact B]. unfold direct_ok. cbn zeta.
    match goal with |- balanced (update ?x) => destruct (update_l x) as [U1 U2] end.
    match goal with |- balanced (update (handle_connected ?k ?x)) => destruct (handle_connected_l k x) as [H1 H2] end.
    apply (balanced_same s); auto; rewrite ?U1, ?U2, ?H1, ?H2; proj; na; reflexivity.
  - destruct (s_pend s); [|exact B]. unfold direct_fail. cbn zeta.
    assert (X : balanced (say LDirectFailed (set_pend false s))) by (apply (balanced_same s); auto; proj; na; reflexivity).
    destruct (can_request c); [exact X|now apply via_proxy_l].
  - destruct (s_timer s); [|exact B]. unfold timer. destruct (s_stage s); try exact B.
    apply via_proxy_l. apply (balanced_same s); auto; proj; na; reflexivity.
  - destruct (s_or s); [exact B|]. cbn zeta. destruct (_ && _); exact B.
  - destruct (s_tr s); [exact B|]. cbn zeta. destruct (forwards _ _); exact B.
  - destruct (s_rt s) as [|m q]; [exact B|]. unfold balanced in *. destruct m; cbn [t_recv]; try exact B; [|destruct (c_tproxy c); exact B..].
    unfold t_request. destruct (c_treq c); [|exact B]. destruct now; cbn zeta; proj; na; lia.
  - destruct (s_tries s) as [|n] eqn:Q; [exact B|]. unfold balanced in *. unfold t_ok. proj. na. lia.
  - destruct (s_tries s) as [|n] eqn:Q; [exact B|]. unfold balanced in *. unfold t_fail. proj. na. lia.
  - destruct (s_ro s); [exact B|]. now apply o_recv_l.
  - destruct (to_o k s); [exact B|]. now apply o_recv_l.
  - destruct (to_t k s) as [|m q]; [exact B|]. unfold balanced in *. destruct m; cbn [t_recv]; try exact B.
    unfold t_request. destruct (c_treq c); [|exact B]. cbn zeta. proj. cbn [set_to_t set_links s_log s_tries]. na. lia.
  - pose proof (publish_same s) as [E1 E2 E3 E4 E5 E6 E7 E8 E9 E10 E11 E12 E13 E14 E15 E16 E17].
    cbn [set_next s_tries s_log] in *. apply (balanced_same s); auto; congruence.
  - congruence.
Qed.
Lemma run_l c ops : ~ In Gone ops -> balanced (run c ops).
Proof.
  induction ops as [|o ops IH] using rev_ind; intros H; [reflexivity|]. rewrite run_snoc. apply step_l.
  - intros ->. apply H, in_or_app. right. now left.
  - apply IH. intros X. apply H, in_or_app. now left.
Qed.

(** What is used only with the capabilities for it. *)
Record InvD (c : cfg) (s : st) : Prop := mkInvD {
  e_req : In MReq (s_or s) -> can_request c = true;
  e_prx : In (LAnnounce None) (s_log s) -> c_oproxy c = true /\ exists a, c_caps c = Some (a, true);
  e_trq : In LAccept (s_log s) -> c_treq c = true }.
Lemma invd_same c s s' : InvD c s -> s_or s' = s_or s -> s_log s' = s_log s -> InvD c s'.
Proof. intros [A1 A2 A3] E1 E2. constructor; rewrite ?E1, ?E2; assumption. Qed.
Lemma say_d c e s : InvD c s -> e <> LAnnounce None -> e <> LAccept -> InvD c (say e s).
Proof.
  intros [A1 A2 A3] N1 N2. constructor; proj; auto; intros H; apply in_app_or in H as [H|[H|[]]]; auto; congruence.
Qed.
Lemma o_send_d c k m s : InvD c s -> m <> MReq -> InvD c (o_send k m s).
Proof.
  intros [A1 A2 A3] N. pose proof (sm_log _ _ (o_send_same k m s)) as L. constructor; rewrite ?L; auto.
  destruct k as [k|]; [rewrite o_send_or; exact A1|]. cbn. intros H. apply in_app_or in H as [H|[H|[]]]; auto; congruence.
Qed.
Lemma update_d c s : InvD c s -> InvD c (update s).
Proof. intros [A1 A2 A3]. unfold update. destruct (s_stage s); constructor; assumption. Qed.
Lemma via_proxy_d c s : InvD c s -> InvD c (via_proxy c s).
Proof.
  intros I. unfold via_proxy. cbn zeta. destruct (c_oproxy c) eqn:O; [destruct (c_caps c) as [[a []]|] eqn:P|].
  - apply update_d. unfold handle_connected. apply o_send_d; [|discriminate]. destruct I as [A1 A2 A3]. constructor; proj; auto.
    + intros _. rewrite P. eauto.
    + intros H. apply in_app_or in H as [H|[H|[]]]; auto; congruence.
  - apply update_d. apply (invd_same c s); auto.
  - apply (invd_same c s); auto.
  - apply update_d. apply (invd_same c s); auto.
Qed.
Lemma o_recv_d c k m s : InvD c s -> p_any k (s_log s) m -> InvD c (o_recv c k m s).
Proof.
  intros I P. destruct m; cbn [o_recv]; auto.
  - destruct (s_stage s); auto. apply (invd_same c s); auto.
  - cbn zeta. assert (J : InvD c (say LRefused s)) by (apply say_d; auto; discriminate).
    destruct (s_stage (say LRefused s)); auto; now apply via_proxy_d.
  - destruct k as [k|]; cbn in P; [|destruct P]. cbn zeta. unfold handle_connected. apply o_send_d; [|discriminate].
    apply say_d; try discriminate. destruct (s_stage s); auto; apply update_d; apply (invd_same c s); auto.
  - unfold o_reply. cbn zeta. assert (J : InvD c (say (LReply k) s)) by (apply say_d; auto; discriminate).
    set (s1 := if existsb (ceqb k) _ then _ else _).
    assert (J1 : InvD c s1) by (unfold s1; destruct (existsb _ _); auto; now apply (invd_same c (say (LReply k) s))).
    clearbody s1. destruct (s_stage s1); auto. apply update_d. apply (invd_same c s1); auto.
Qed.
Lemma publish_d c s : InvD c s -> InvD c (publish s).
Proof.
  intros I. unfold publish. assert (J : InvD c (set_next (S (s_next s)) s)) by (now apply (invd_same c s)).
  revert J. generalize (set_next (S (s_next s)) s). generalize (s_rcv s). clear.
  induction l as [|k l IH]; intros s J; cbn [fold_left]; auto. apply IH. apply o_send_d; auto. discriminate.
Qed.
Lemma t_recv_d c b k m s : InvD c s -> InvD c (t_recv c b k m s).
Proof.
  intros I. destruct m; cbn [t_recv]; auto.
  - unfold t_request. destruct (c_treq c) eqn:T; auto. cbn zeta.
    assert (J : InvD c (say LAccept s)).
    { destruct I as [A1 A2 A3]. constructor; proj; auto. intros H. apply in_app_or in H as [H|[H|[]]]; auto; discriminate. }
    destruct b; [apply (invd_same c (say LRefuse (say LAccept s))); auto; apply say_d; auto; discriminate|apply (invd_same c (say LAccept s)); auto].
  - destruct k; [apply (invd_same c s); auto|]. destruct (c_tproxy c); auto. apply (invd_same c s); auto.
  - destruct k; [apply (invd_same c s); auto|]. destruct (c_tproxy c); auto. apply (invd_same c s); auto.
Qed.
Lemma step_d c s o : InvC c s -> InvD c s -> InvD c (step c s o).
Proof.
  intros C I. destruct o; cbn [step].
  - destruct (_ && _); auto. unfold direct_ok. cbn zeta. apply update_d. apply o_send_d; [|discriminate]. apply say_d; try discriminate.
    apply (invd_same c s); auto.
  - destruct (s_pend s); auto. unfold direct_fail. cbn zeta.
    assert (J : InvD c (say LDirectFailed (set_pend false s))) by (apply say_d; try discriminate; now apply (invd_same c s)).
    destruct (can_request c) eqn:R; [|now apply via_proxy_d].
    destruct J as [A1 A2 A3]. constructor; try assumption. intros _. exact R.
  - destruct (s_timer s); auto. unfold timer. destruct (s_stage s); try (now apply (invd_same c s)).
    apply via_proxy_d. apply say_d; try discriminate. now apply (invd_same c s).
  - destruct (s_or s) as [|m q] eqn:Q; auto. cbn zeta.
    assert (J : InvD c (set_or q s)).
    { destruct I as [A1 A2 A3]. constructor; try assumption. intros H. apply A1. rewrite Q. now right. }
    destruct (_ && _); auto. now apply (invd_same c (set_or q s)).
  - destruct (s_tr s); auto. cbn zeta. destruct (forwards _ _); now apply (invd_same c s).
  - destruct (s_rt s); auto. apply t_recv_d. now apply (invd_same c s).
  - destruct (s_tries s); auto. apply say_d; try discriminate. now apply (invd_same c s).
  - destruct (s_tries s); auto. apply say_d; try discriminate. now apply (invd_same c s).
  - destruct (s_ro s) as [|m q] eqn:Q; auto. apply o_recv_d; [now apply (invd_same c s)|].
    pose proof (d_ro _ _ C) as F. rewrite Q in F. now apply Forall_cons_iff in F as [F _].
  - destruct (to_o k s) as [|m q] eqn:Q; auto. apply o_recv_d; [now apply (invd_same c s)|].
    pose proof (d_ol _ _ C k) as F. unfold to_o in Q. rewrite Q in F. now apply Forall_cons_iff in F as [F _].
  - destruct (to_t k s); auto. apply t_recv_d. now apply (invd_same c s).
  - now apply publish_d.
  - now apply (invd_same c s).
Qed.
Lemma run_d c ops : InvD c (run c ops).
Proof.
  induction ops as [|o ops IH] using rev_ind; [constructor; intros []|]. rewrite run_snoc. apply step_d; auto. apply run_c.
Qed.
