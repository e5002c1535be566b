(** Proofs about RemoteModel.v: every exchange ends, and how. *)
From Coq Require Import List Arith Bool Lia.
From Verif Require Import Base RemoteModel RemoteProofs.
From Verif Require ConnectModel.
Import ListNotations.

Lemma settled_ends c s : c_caps c <> None -> Inv c s -> settled s ->
  (s_stage s = PReplied /\ s_join s = Some true) \/ (s_stage s = PFailure /\ s_join s = Some false).
Proof.
  intros CC I (P & T & TR & Q1 & Q2 & Q3 & Q4 & QL).
  assert (L : forall f, cl f (s_links s) = 0 /\ cr f (s_links s) = 0).
  { intros f. induction (s_links s) as [|x l IH]; [cbn; auto|].
    rewrite (QL x (or_introl eq_refl)). cbn. destruct IH as [A B]; [intros y H; apply QL; now right|]. rewrite cnt_nil. lia. }
  assert (EX : s_exn s = false).
  { destruct (s_exn s) eqn:E; [|reflexivity]. now apply (i_exn _ _ I) in E. }
  destruct (s_stage s) eqn:E.
  - now destruct (i_valid _ _ I).
  - right. split; [reflexivity|]. now apply (i_fail _ _ I).
  - apply (i_direct _ _ I) in E. congruence.
  - apply (i_timer _ _ I) in E. congruence.
  - pose proof (i_conn _ _ I (or_intror E) (or_introl E)) as X. rewrite TR, Q3, Q4, (proj1 (L _)), !cnt_nil in X. lia.
  - destruct (i_wait _ _ I E) as [X|X]; [congruence|].
    rewrite Q1, Q2, Q3, Q4, (proj1 (L _)), (proj2 (L _)), !cnt_nil in X. lia.
  - left. split; [reflexivity|]. apply (i_join _ _ I); auto.
Qed.

(** ** A measure *)
Definition is_dat m := match m with MData _ => true | _ => false end.
Definition w_or q := 11 * cnt is_req q + 2 * cnt is_conn q + 2 * cnt is_fail q + 2 * cnt is_notice q + 4 * cnt is_ann q + 2 * cnt is_rep q + 2 * cnt is_dat q.
Definition w_rt q := 10 * cnt is_req q + cnt is_conn q + cnt is_fail q + cnt is_notice q + 3 * cnt is_ann q + cnt is_rep q + cnt is_dat q.
Definition w_tr q := 2 * cnt is_req q + 2 * cnt is_conn q + 6 * cnt is_fail q + 6 * cnt is_notice q + 2 * cnt is_ann q + 2 * cnt is_rep q + 2 * cnt is_dat q.
Definition w_ro q := cnt is_req q + cnt is_conn q + 5 * cnt is_fail q + 5 * cnt is_notice q + cnt is_ann q + cnt is_rep q + cnt is_dat q.
Definition w_l l := cl is_req l + cl is_conn l + 5 * cl is_fail l + 3 * cl is_notice l + cl is_ann l + cl is_rep l + cl is_dat l.
Definition w_r l := 10 * cr is_req l + cr is_conn l + cr is_fail l + cr is_notice l + 2 * cr is_ann l + cr is_rep l + cr is_dat l.
Definition measure (s : st) : nat :=
  17 * b2n (s_pend s) + 5 * b2n (s_timer s) + 7 * s_tries s + w_or (s_or s) + w_rt (s_rt s) + w_tr (s_tr s) + w_ro (s_ro s)
  + w_l (s_links s) + w_r (s_links s).

(** The step is possible. *)
Definition enabled (s : st) (o : op) : Prop :=
  match o with
  | DirectOk => s_pend s = true /\ s_gone s = false
  | DirectFail => s_pend s = true
  | Timer => s_timer s = true
  | RtoT => s_or s <> []
  | RtoO => s_tr s <> []
  | FromR _ => s_rt s <> []
  | TOk | TFail => s_tries s <> 0
  | ToO => s_ro s <> []
  | LinkO k => to_o k s <> []
  | LinkT k => to_t k s <> []
  | Publish | Gone => False
  end.

Ltac nm := repeat (rewrite ?cnt_app, ?cnt_cons, ?cnt_nil, ?cl_app, ?cr_app, ?cl_one, ?cr_one in *; cbn [b2n is_req is_conn is_fail is_notice is_ann is_rep is_dat fst snd] in * ).
Ltac mm := unfold measure, w_or, w_rt, w_tr, w_ro, w_l, w_r; cbn [s_stage s_pend s_timer s_join s_exn s_or s_rt s_tr s_ro s_tries s_links s_rcv s_next s_got s_gone s_log
  set_stage set_pend set_timer set_join throw set_or set_rt set_tr set_ro set_tries set_links set_rcv set_next add_got set_gone say new_link o_send]; nm.

Lemma update_measure s : measure (update s) = measure s.
Proof. unfold update. destruct (s_stage s); reflexivity. Qed.
Lemma via_proxy_measure c s : measure (via_proxy c s) <= measure s + 4.
Proof.
  unfold via_proxy, handle_connected. destruct (c_oproxy c); [destruct (c_caps c) as [[a []]|]|]; rewrite ?update_measure; mm; lia.
Qed.
Lemma o_send_ann_measure k s : k < length (s_links s) -> measure (o_send (Some k) MAnn s) <= measure s + 2.
Proof.
  intros L. pose proof (o_send_same (Some k) MAnn s) as [E1 E2 E3 E4 E5 E6 E7 E8 E9 E10 E11 E12 E13 E14 E15 E16 E17].
  pose proof (o_send_cnt (Some k) MAnn s) as F. rewrite o_send_or in F.
  unfold measure. rewrite E2, E3, E6, E7, E8, E9, o_send_or. unfold w_l, w_r. rewrite !E16.
  pose proof (F is_req) as F1. pose proof (F is_conn) as F2. pose proof (F is_fail) as F3. pose proof (F is_notice) as F4.
  pose proof (F is_ann) as F5. pose proof (F is_rep) as F6. pose proof (F is_dat) as F7.
  cbn [b2n is_req is_conn is_fail is_notice is_ann is_rep is_dat] in *.
  clear - F1 F2 F3 F4 F5 F6 F7. lia.
Qed.
Lemma o_reply_measure c s : measure (o_reply c s) = measure s.
Proof.
  unfold o_reply. set (s1 := if existsb _ _ then _ else _).
  assert (E : measure s1 = measure s) by (unfold s1; destruct (existsb _ _); reflexivity).
  clearbody s1. destruct (s_stage s1); rewrite ?update_measure; rewrite <- E; reflexivity.
Qed.
Definition w_recv_o (c : option nat) (m : msg) : nat :=
  match m with MFail => 5 | MNotice => match c with None => 5 | Some _ => 3 end | _ => 1 end.
Lemma o_recv_measure c k m s : match k with None => True | Some k => k < length (s_links s) end ->
  measure (o_recv c k m s) < measure s + w_recv_o k m.
Proof.
  intros L. destruct m; cbn [o_recv w_recv_o]; try lia.
  - destruct (s_stage s); apply Nat.lt_add_pos_r; lia.
  - cbn zeta. set (s1 := say LRefused s). change (measure s) with (measure s1). clearbody s1.
    destruct (s_stage s1); try (apply Nat.lt_add_pos_r; lia); pose proof (via_proxy_measure c s1); lia.
  - set (s1 := match s_stage s with PRequested | PConnecting => update (set_stage PWaiting s) | _ => s end).
    assert (E : measure s1 = measure s) by (unfold s1; destruct (s_stage s); rewrite ?update_measure; reflexivity).
    assert (E2 : s_links s1 = s_links s) by (unfold s1, update; destruct (s_stage s); reflexivity).
    clearbody s1. unfold handle_connected. destruct k as [k|].
    + pose proof (o_send_ann_measure k (say (LAnnounce (Some k)) s1)) as X. cbn [say s_links] in X. rewrite E2 in X. specialize (X L).
      change (measure (say (LAnnounce (Some k)) s1)) with (measure s1) in X. cbn [w_recv_o]. lia.
    + rewrite <- E. mm. lia.
  - rewrite o_reply_measure. lia.
Qed.

Lemma step_measure c s o : enabled s o -> measure (step c s o) < measure s.
Proof.
  intros EN. destruct o; cbn [enabled] in EN; cbn [step].
  - destruct EN as [P G]. rewrite P, G. cbn [negb andb]. unfold direct_ok. rewrite update_measure. unfold handle_connected.
    set (s1 := say _ _). assert (E : measure s1 + 17 = measure s).
    { unfold s1. mm. rewrite P. cbn [b2n]. lia. }
    assert (L : length (s_links s) < length (s_links s1)) by (cbn; rewrite app_length; cbn; lia).
    clearbody s1. pose proof (o_send_ann_measure (length (s_links s)) s1 L). lia.
  - rewrite EN. unfold direct_fail. destruct (can_request c).
    + mm. rewrite EN. cbn [b2n]. destruct (s_timer s); cbn [b2n]; lia.
    + set (s1 := say _ _). assert (E : measure s1 + 17 = measure s) by (unfold s1; mm; rewrite EN; cbn [b2n]; lia).
      pose proof (via_proxy_measure c s1). lia.
  - rewrite EN. unfold timer.
    assert (E : measure (set_timer false s) + 5 = measure s) by (mm; rewrite EN; cbn [b2n]; lia).
    destruct (s_stage s); try lia.
    pose proof (via_proxy_measure c (say LExpired (set_timer false s))) as X.
    change (measure (say LExpired (set_timer false s))) with (measure (set_timer false s)) in X. lia.
  - destruct (s_or s) as [|m q] eqn:Q; [congruence|]. cbn zeta.
    destruct (forwards c m && _); destruct m; mm; rewrite Q; nm; lia.
  - destruct (s_tr s) as [|m q] eqn:Q; [congruence|]. cbn zeta.
    destruct (forwards c m); destruct m; mm; rewrite Q; nm; lia.
  - destruct (s_rt s) as [|m q] eqn:Q; [congruence|].
    destruct m; cbn [t_recv]; unfold t_request; try (destruct (c_treq c), now); try (destruct (c_tproxy c)); mm; rewrite Q; nm; lia.
  - destruct (s_tries s) as [|n] eqn:Q; [congruence|]. unfold t_ok. mm. rewrite Q. lia.
  - destruct (s_tries s) as [|n] eqn:Q; [congruence|]. unfold t_fail. mm. rewrite Q. lia.
  - destruct (s_ro s) as [|m q] eqn:Q; [congruence|].
    pose proof (o_recv_measure c None m (set_ro q s) Logic.I) as X.
    assert (E : measure (set_ro q s) + w_recv_o None m = measure s) by (destruct m; mm; rewrite Q; nm; cbn; lia). lia.
  - destruct (to_o k s) as [|m q] eqn:Q; [congruence|].
    destruct (take_o _ _ _ _ Q) as (T1 & T2 & T3).
    pose proof (o_recv_measure c (Some k) m (set_to_o k q s) T3) as X.
    assert (E : measure (set_to_o k q s) + w_recv_o (Some k) m = measure s); [|lia].
    unfold measure, w_l, w_r. rewrite !T1, !T2. destruct m; cbn; lia.
  - destruct (to_t k s) as [|m q] eqn:Q; [congruence|].
    destruct (take_t _ _ _ _ Q) as (T1 & T2 & T3).
    assert (E : measure (set_to_t k q s) + match m with MReq => 10 | MAnn => 2 | _ => 1 end = measure s).
    { unfold measure, w_l, w_r. rewrite !T1, !T2. destruct m; cbn; lia. }
    destruct m; cbn [t_recv]; try (rewrite <- E; lia).
    + rewrite <- E. generalize (set_to_t k q s). intros s1. unfold t_request. destruct (c_treq c); mm; lia.
    + destruct (give_o k (set_to_t k q s) MRep T3) as [G1 G2].
      rewrite <- E. set (s1 := set_to_t k q s) in *. clearbody s1.
      unfold measure, w_l, w_r. rewrite !G1, !G2. cbn. lia.
    + rewrite <- E. generalize (set_to_t k q s). intros s1. mm. lia.
  - contradiction.
  - contradiction.
Qed.

(** Some step is possible unless everything has settled. *)
Lemma links_dec (l : list link) : (forall x, In x l -> x = ([], [])) \/ exists k, k < length l /\ nth k l ([], []) <> ([], []).
Proof.
  induction l as [|x l [IH|(k & L & H)]].
  - left. intros x [].
  - destruct x as [a b]. destruct a as [|m a]; [destruct b as [|m b]|].
    + left. intros y [<-|H]; auto.
    + right. exists 0. cbn. split; [lia|discriminate].
    + right. exists 0. cbn. split; [lia|discriminate].
  - right. exists (S k). cbn. split; [lia|exact H].
Qed.
Lemma progress s : settled s \/ exists o, enabled s o.
Proof.
  destruct (s_pend s) eqn:P; [right; exists DirectFail; exact P|].
  destruct (s_timer s) eqn:T; [right; exists Timer; exact T|].
  destruct (s_tries s) as [|n] eqn:N; [|right; exists TOk; cbn; rewrite N; discriminate].
  destruct (s_or s) as [|m q] eqn:Q1; [|right; exists RtoT; cbn; rewrite Q1; discriminate].
  destruct (s_rt s) as [|m q] eqn:Q2; [|right; exists (FromR false); cbn; rewrite Q2; discriminate].
  destruct (s_tr s) as [|m q] eqn:Q3; [|right; exists RtoO; cbn; rewrite Q3; discriminate].
  destruct (s_ro s) as [|m q] eqn:Q4; [|right; exists ToO; cbn; rewrite Q4; discriminate].
  destruct (links_dec (s_links s)) as [H|(k & L & H)]; [left; repeat split; auto|right].
  destruct (to_o k s) as [|m q] eqn:Q5; [|exists (LinkO k); cbn; rewrite Q5; discriminate].
  exists (LinkT k). cbn. unfold to_o, to_t in *. destruct (nth k (s_links s) ([], [])) as [a b]. cbn in *. congruence.
Qed.
(** Every step of a sequence is possible. *)
Fixpoint possible (c : cfg) (s : st) (ops : list op) : Prop :=
  match ops with [] => True | o :: ops => enabled s o /\ possible c (step c s o) ops end.
Lemma possible_length c ops : forall s, possible c s ops -> length ops <= measure s.
Proof.
  induction ops as [|o ops IH]; intros s H; cbn [possible length] in *; [lia|]. destruct H as [E H].
  apply (step_measure c) in E. apply IH in H. lia.
Qed.
Lemma can_settle c n : forall s, measure s <= n -> exists more, possible c s more /\ settled (fold_left (step c) more s).
Proof.
  induction n as [|n IH]; intros s H.
  - destruct (progress s) as [S|(o & E)]; [exists []; cbn; auto|]. apply (step_measure c) in E. lia.
  - destruct (progress s) as [S|(o & E)]; [exists []; cbn; auto|].
    pose proof (step_measure c s o E) as M. destruct (IH (step c s o)) as (more & P & S); [lia|].
    exists (o :: more). cbn [possible fold_left]. auto.
Qed.
Lemma possible_not_gone c ops : forall s, possible c s ops -> ~ In Gone ops.
Proof.
  induction ops as [|o ops IH]; intros s H; cbn [possible In] in *; [auto|]. destruct H as [E H]. intros [->|X]; [exact E|]. exact (IH _ H X).
Qed.
