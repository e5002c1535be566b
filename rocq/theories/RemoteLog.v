(** Proofs about RemoteModel.v: how often O announces itself, and what comes before what. *)
From Coq Require Import List Arith Bool Lia.
From Verif Require Import Base RemoteModel RemoteProofs RemoteEnd.
From Verif Require ConnectModel.
Import ListNotations.

Definition nl (f : ev -> bool) (l : list ev) : nat := length (filter f l).
Arguments nl : simpl never.
Lemma nl_app f a b : nl f (a ++ b) = nl f a + nl f b.
Proof. unfold nl. now rewrite filter_app, app_length. Qed.
Lemma nl_one f e : nl f [e] = b2n (f e).
Proof. unfold nl. cbn. now destruct (f e). Qed.
Definition e_ann e := match e with LAnnounce _ => true | _ => false end.
Definition e_exp e := match e with LExpired => true | _ => false end.
Definition e_rep e := match e with LReply _ => true | _ => false end.
Definition e_acc e := match e with LAccept => true | _ => false end.
Definition e_end e := match e with LNotice | LRefuse => true | _ => false end.

Definition early (x : pstage) : bool := match x with PDirect | PRequested | PConnecting => true | _ => false end.
(** What can still make O announce itself. *)
Definition tokens (s : st) : nat :=
  b2n (s_pend s) + cnt is_req (s_or s) + cnt is_req (s_rt s) + cr is_req (s_links s) + s_tries s
  + cnt is_fail (s_tr s) + cnt is_fail (s_ro s) + cl is_fail (s_links s)
  + cnt is_notice (s_tr s) + cnt is_notice (s_ro s) + cl is_notice (s_links s).
Definition flight (s : st) : nat :=
  cnt is_ann (s_or s) + cnt is_ann (s_rt s) + cr is_ann (s_links s) + cnt is_rep (s_tr s) + cnt is_rep (s_ro s) + cl is_rep (s_links s).
Definition copies (n : nat) (s : st) : nat :=
  cnt (is_data n) (s_or s) + cnt (is_data n) (s_rt s) + cr (is_data n) (s_links s) + count_occ Nat.eq_dec (s_got s) n.

Record InvB (s : st) : Prop := mkInvB {
  b_early : early (s_stage s) = true -> nl e_ann (s_log s) = 0 /\ nl e_exp (s_log s) = 0 /\ tokens s <= 1;
  b_late : nl e_ann (s_log s) + tokens s <= 1 + nl e_exp (s_log s) /\ nl e_exp (s_log s) <= 1;
  b_flight : flight s + nl e_rep (s_log s) <= nl e_ann (s_log s);
  b_rcv : length (s_rcv s) <= nl e_rep (s_log s);
  b_pend : s_pend s = true <-> s_stage s = PDirect;
  b_copies : forall n, copies n s <= length (s_rcv s);
  b_next : forall n, s_next s <= n -> copies n s = 0 }.

Ltac nb := repeat (rewrite ?nl_app, ?nl_one, ?cnt_app, ?cnt_cons, ?cnt_nil, ?cl_app, ?cr_app, ?cl_one, ?cr_one, ?app_length, ?app_nil_r in *;
  cbn [b2n is_req is_conn is_fail is_notice is_ann is_rep is_data e_ann e_exp e_rep fst snd length early] in * ).
Ltac proj := cbn [s_stage s_pend s_timer s_join s_exn s_or s_rt s_tr s_ro s_tries s_links s_rcv s_next s_got s_gone s_log
  set_stage set_pend set_timer set_join throw set_or set_rt set_tr set_ro set_tries set_links set_rcv set_next add_got set_gone say new_link o_send].

(** [s'] differs from [s] in what does not matter, or has less. *)
Definition le_st (s' s : st) : Prop :=
  s_stage s' = s_stage s /\ s_log s' = s_log s /\ s_rcv s' = s_rcv s /\ s_next s' = s_next s /\
  s_pend s' = s_pend s /\ tokens s' <= tokens s /\ flight s' <= flight s /\ (forall n, copies n s' <= copies n s).
Lemma le_inv s s' : InvB s -> le_st s' s -> InvB s'.
Proof.
  intros [A1 A2 A3 A4 A5 A6 A7] (E1 & E2 & E3 & E4 & E5 & L1 & L2 & L3). constructor; rewrite ?E1, ?E2, ?E3, ?E4, ?E5.
  - intros X. destruct (A1 X) as (B1 & B2 & B3). clear - B1 B2 B3 L1. lia.
  - clear - A2 L1. lia.
  - clear - A3 L2. lia.
  - exact A4.
  - auto.
  - intros n. specialize (A6 n). specialize (L3 n). clear - A6 L3. lia.
  - intros n X. specialize (A7 n X). specialize (L3 n). clear - A7 L3. lia.
Qed.

(** The stage changes to a later one and O announces itself at most once for one token. *)
Lemma update_b s : InvB s -> InvB (update s).
Proof. unfold update. destruct (s_stage s); auto; intros [A1 A2 A3 A4 A5 A6 A7]; constructor; assumption. Qed.
Lemma stage_b x s : InvB s -> early x = false -> s_pend s = false -> InvB (set_stage x s).
Proof. intros [A1 A2 A3 A4 A5 A6 A7] E P. constructor; proj; try assumption; [rewrite E; discriminate|rewrite P; split; intros X; [discriminate|subst x; discriminate]]. Qed.
Lemma say_b e s : InvB s -> e_ann e = false -> e_exp e = false -> e_rep e = false -> InvB (say e s).
Proof.
  intros [A1 A2 A3 A4 A5 A6 A7] E1 E2 E3. constructor; proj; rewrite ?nl_app, ?nl_one, ?E1, ?E2, ?E3; cbn [b2n];
    unfold tokens, flight, copies in *; proj; rewrite ?Nat.add_0_r; assumption.
Qed.
(** The state without one token. *)
Definition spare (s : st) : Prop := nl e_ann (s_log s) + tokens s + 1 <= 1 + nl e_exp (s_log s).
Lemma handle_connected_b c s : InvB s -> early (s_stage s) = false -> spare s -> InvB (handle_connected c s).
Proof.
  intros B E SP. unfold handle_connected. set (s1 := say (LAnnounce c) s).
  pose proof (o_send_same c MAnn s1) as [E1 E2 E3 E4 E5 E6 E7 E8 E9 E10 E11 E12 E13 E14 E15 E16 E17].
  pose proof (fun f => o_send_cnt c MAnn s1 f) as F.
  pose proof (F is_req) as F1. pose proof (F is_ann) as F2. pose proof (fun n => F (is_data n)) as F3.
  set (s2 := o_send c MAnn s1) in *. clearbody s2. cbn in E1, E2, E3, E4, E5, E6, E7, E8, E9, E10, E11, E12, E13, E14, E16.
  cbn [s1 say s_or s_links b2n is_req is_ann is_data] in F1, F2, F3.
  assert (TK : tokens s2 <= tokens s) by (unfold tokens; rewrite E2, E6, E7, E8, E9, !E16; clear - F1; lia).
  assert (FL : flight s2 <= flight s + 1) by (unfold flight; rewrite E6, E7, E8, !E16; clear - F2; lia).
  assert (CP : forall n, copies n s2 <= copies n s) by (intros n; unfold copies; rewrite E6, E11; specialize (F3 n); clear - F3; lia).
  destruct B as [A1 A2 A3 A4 A5 A6 A7]. unfold spare in SP.
  constructor; rewrite ?E1, ?E13, ?E10, ?E14, ?nl_app, ?nl_one; cbn [b2n e_ann e_exp e_rep].
  - rewrite E. discriminate.
  - clear - A2 SP TK. lia.
  - clear - A3 FL. lia.
  - clear - A4. lia.
  - rewrite E2. exact A5.
  - intros n. specialize (A6 n). specialize (CP n). clear - A6 CP. lia.
  - intros n X. specialize (A7 n X). specialize (CP n). clear - A7 CP. lia.
Qed.
Lemma via_proxy_b c s : InvB s -> s_pend s = false -> spare s -> InvB (via_proxy c s).
Proof.
  intros B P SP. unfold via_proxy. destruct (c_oproxy c); [destruct (c_caps c) as [[a []]|]|].
  - apply update_b. apply handle_connected_b; [now apply stage_b|reflexivity|exact SP].
  - apply update_b. apply stage_b; auto. now apply stage_b.
  - pose proof (stage_b PWaiting s B eq_refl P) as [A1 A2 A3 A4 A5 A6 A7]. constructor; assumption.
  - apply update_b. apply stage_b; auto. now apply stage_b.
Qed.
Lemma o_reply_b c s : InvB s -> flight s + nl e_rep (s_log s) + 1 <= nl e_ann (s_log s) -> early (s_stage s) = false -> InvB (o_reply c s).
Proof.
  intros B F E. unfold o_reply. cbn zeta.
  set (s1 := if existsb _ _ then _ else _).
  assert (X : s_stage s1 = s_stage s /\ s_pend s1 = s_pend s /\ tokens s1 = tokens s /\ flight s1 = flight s /\ s_next s1 = s_next s
    /\ s_log s1 = s_log s ++ [LReply c] /\ (forall n, copies n s1 = copies n s) /\ length (s_rcv s) <= length (s_rcv s1) <= length (s_rcv s) + 1).
  { unfold s1. proj. destruct (existsb _ _); unfold tokens, flight, copies; proj; repeat split; auto; rewrite ?app_length; cbn; lia. }
  clearbody s1. destruct X as (X1 & X2 & X3 & X4 & X5 & X6 & X7 & X8).
  assert (B1 : InvB s1).
  { destruct B as [A1 A2 A3 A4 A5 A6 A7]. constructor; rewrite ?X1, ?X2, ?X3, ?X4, ?X5, ?X6, ?nl_app, ?nl_one; cbn [b2n e_ann e_exp e_rep].
    - rewrite E. discriminate.
    - clear - A2. lia.
    - clear - F. lia.
    - clear - A4 X8. lia.
    - exact A5.
    - intros n. rewrite X7. specialize (A6 n). clear - A6 X8. lia.
    - intros n. rewrite X7. apply A7. }
  destruct (s_stage s1) eqn:S1; auto. apply update_b, stage_b; auto.
  destruct (s_pend s1) eqn:P; [|reflexivity]. apply (b_pend _ B1) in P. congruence.
Qed.
(** A reply is on its way only after O has announced itself. *)
Lemma reply_late s : InvB s -> 0 < flight s -> early (s_stage s) = false.
Proof.
  intros B F. destruct (early (s_stage s)) eqn:E; [|reflexivity].
  destruct (b_early _ B E) as (N & _). pose proof (b_flight _ B). lia.
Qed.

Lemma o_recv_b c k m s0 s : InvB s0 -> s_stage s = s_stage s0 -> s_log s = s_log s0 -> s_rcv s = s_rcv s0 -> s_next s = s_next s0 ->
  s_pend s = s_pend s0 -> tokens s0 = tokens s + b2n (is_fail m) + b2n (is_notice m) -> flight s0 = flight s + b2n (is_rep m) ->
  (forall n, copies n s <= copies n s0) -> InvB (o_recv c k m s).
Proof.
  intros B E1 E2 E3 E4 E5 T F C.
  assert (BS : InvB s).
  { apply (le_inv s0); [exact B|]. unfold le_st. rewrite E1, E2, E3, E4, E5, T, F. repeat split; auto; lia. }
  assert (PF : forall x, s_stage s = x -> x <> PDirect -> s_pend s = false).
  { intros x X N. destruct (s_pend s) eqn:P; [|reflexivity]. apply (b_pend _ BS) in P. congruence. }
  destruct m; cbn [o_recv]; cbn [b2n is_fail is_notice is_rep] in T, F; auto.
  - destruct (s_stage s) eqn:S; auto.
    destruct BS as [A1 A2 A3 A4 A5 A6 A7]. constructor; proj; auto.
    + intros _. apply A1. rewrite S. reflexivity.
    + rewrite (PF _ eq_refl) by discriminate. split; discriminate.
  - cbn zeta. assert (B1 : InvB (say LRefused s)) by (now apply say_b). change (s_stage (say LRefused s)) with (s_stage s).
    destruct (s_stage s) eqn:S; auto.
    all: apply via_proxy_b; [exact B1|apply (PF _ eq_refl); discriminate|].
    all: unfold spare; proj; rewrite !nl_app, !nl_one; cbn [b2n e_ann e_exp]; rewrite E2.
    all: destruct (b_early _ B) as (N & X & K); [rewrite <- E1; reflexivity|].
    all: change (tokens (say LRefused s)) with (tokens s); clear - N X K T; lia.
  - destruct (early (s_stage s)) eqn:EE.
    + destruct (b_early _ B) as (N & X & K); [rewrite <- E1; exact EE|].
      assert (SP : spare s) by (unfold spare; rewrite E2; clear - N X K T; lia).
      destruct (s_stage s) eqn:S; try discriminate.
      * (* the token of the direct attempt is the only one *)
        exfalso. assert (P : s_pend s = true) by (now apply (b_pend _ BS)).
        unfold tokens in T at 2. rewrite P in T. cbn [b2n] in T. clear - T K. lia.
      * apply handle_connected_b; [apply update_b, stage_b; auto; apply (PF _ eq_refl); discriminate|unfold update; proj; reflexivity|].
        exact SP.
      * apply handle_connected_b; [apply update_b, stage_b; auto; apply (PF _ eq_refl); discriminate|unfold update; proj; reflexivity|].
        exact SP.
    + replace (match s_stage s with PRequested | PConnecting => update (set_stage PWaiting s) | _ => s end) with s by (destruct (s_stage s); auto; discriminate).
      apply handle_connected_b; auto. unfold spare. rewrite E2. pose proof (proj1 (b_late _ B)) as L. clear - L T. lia.
  - apply o_reply_b; auto.
    + rewrite E2. pose proof (b_flight _ B). lia.
    + rewrite E1. apply reply_late; [exact B|]. lia.
Qed.

Lemma init_b : InvB init.
Proof. constructor; unfold nl, tokens, flight, copies, cnt; cbn; intros; auto with arith; try lia; try tauto. Qed.

Lemma publish_copies n s : n <> s_next s -> copies n (publish s) <= copies n s.
Proof.
  intros H. pose proof (publish_same s) as [E1 E2 E3 E4 E5 E6 E7 E8 E9 E10 E11 E12 E13 E14 E15 E16 E17].
  unfold copies. rewrite E6, E11. proj.
  assert (X : cnt (is_data n) (s_or (publish s)) + cr (is_data n) (s_links (publish s)) <= cnt (is_data n) (s_or s) + cr (is_data n) (s_links s)); [|lia].
  unfold publish. change (s_or s) with (s_or (set_next (S (s_next s)) s)). change (s_links s) with (s_links (set_next (S (s_next s)) s)).
  assert (Y : s_next (set_next (S (s_next s)) s) = S (s_next s)) by reflexivity.
  revert Y. generalize (set_next (S (s_next s)) s). generalize (s_rcv s) as l.
  induction l as [|c l IH]; intros s0 Y; cbn [fold_left]; [lia|].
  etransitivity; [apply IH; rewrite (sm_next _ _ (o_send_same c _ s0)); exact Y|].
  etransitivity; [apply o_send_cnt|]. rewrite Y. cbn [is_data]. replace (S (s_next s) - 1 =? n) with false; [cbn; lia|].
  symmetry. apply Nat.eqb_neq. lia.
Qed.
Lemma publish_copies_new s : copies (s_next s) (publish s) <= copies (s_next s) s + length (s_rcv s).
Proof.
  pose proof (publish_same s) as [E1 E2 E3 E4 E5 E6 E7 E8 E9 E10 E11 E12 E13 E14 E15 E16 E17].
  unfold copies. rewrite E6, E11. proj.
  set (f := is_data (s_next s)).
  assert (X : cnt f (s_or (publish s)) + cr f (s_links (publish s)) <= cnt f (s_or s) + cr f (s_links s) + length (s_rcv s)); [|lia].
  unfold publish. change (s_or s) with (s_or (set_next (S (s_next s)) s)). change (s_links s) with (s_links (set_next (S (s_next s)) s)).
  generalize (set_next (S (s_next s)) s). generalize (s_rcv s) as l.
  induction l as [|c l IH]; intros s0; cbn [fold_left length]; [lia|].
  etransitivity; [apply IH|]. pose proof (o_send_cnt c (MData (s_next s0 - 1)) s0 f) as Y. destruct (f (MData (s_next s0 - 1))); cbn in Y; lia.
Qed.
Lemma publish_b s : InvB s -> InvB (publish s).
Proof.
  intros [A1 A2 A3 A4 A5 A6 A7].
  pose proof (publish_same s) as [E1 E2 E3 E4 E5 E6 E7 E8 E9 E10 E11 E12 E13 E14 E15 E16 E17].
  pose proof (fun f F => publish_or s f F) as PO. pose proof (fun f F => publish_cr s f F) as PC.
  cbn [set_next s_stage s_pend s_timer s_join s_exn s_or s_rt s_tr s_ro s_tries s_links s_rcv s_next s_got s_gone s_log] in *.
  assert (TK : tokens (publish s) = tokens s).
  { unfold tokens. rewrite E2, E6, E7, E8, E9, !E16, PO, PC by reflexivity. reflexivity. }
  assert (FL : flight (publish s) = flight s).
  { unfold flight. rewrite E6, E7, E8, !E16, PO, PC by reflexivity. reflexivity. }
  constructor; rewrite ?E1, ?E2, ?E10, ?E13, ?E14, ?TK, ?FL; auto.
  - intros n. destruct (Nat.eq_dec n (s_next s)) as [->|N].
    + pose proof (publish_copies_new s) as X. rewrite (A7 (s_next s)) in X by lia. lia.
    + pose proof (publish_copies n s N). specialize (A6 n). lia.
  - intros n H. pose proof (publish_copies n s ltac:(lia)). specialize (A7 n ltac:(lia)). lia.
Qed.

Lemma gone_links f (l : list link) : cl f (map (fun _ => ([], [])) l) = 0 /\ cr f (map (fun _ => ([], [])) l) = 0.
Proof. induction l as [|x l [A B]]; cbn; [auto|]. rewrite A, B. auto. Qed.

Lemma step_b c s o : InvB s -> InvB (step c s o).
Proof.
  intros B. destruct o; cbn [step].
  - destruct (s_pend s) eqn:P; cbn [andb]; [|exact B]. destruct (s_gone s); cbn [negb]; [exact B|].
    unfold direct_ok. apply update_b. pose proof (proj1 (b_pend _ B) P) as D.
    destruct (b_early _ B) as (N & X & K); [rewrite D; reflexivity|].
    assert (K2 : tokens (new_link ([], []) (set_pend false s)) = tokens s - 1).
    { unfold tokens. proj. rewrite !cl_app, !cr_app, !cl_one, !cr_one, P. cbn [fst snd b2n]. rewrite !cnt_nil. lia. }
    apply handle_connected_b; [|reflexivity|].
    + destruct B as [A1 A2 A3 A4 A5 A6 A7].
      constructor; proj; try assumption; try discriminate.
      * rewrite N, X. change (0 + tokens (new_link ([], []) (set_pend false s)) <= 1 + 0 /\ 0 <= 1). lia.
      * unfold flight in *. proj. nb. clear - A3. lia.
      * split; discriminate.
      * intros n. specialize (A6 n). unfold copies in *. proj. nb. clear - A6. lia.
      * intros n H. specialize (A7 n H). unfold copies in *. proj. nb. clear - A7. lia.
    + unfold spare. change (nl e_ann (s_log s) + tokens (new_link ([], []) (set_pend false s)) + 1 <= 1 + nl e_exp (s_log s)).
      assert (1 <= tokens s) by (unfold tokens; rewrite P; cbn; lia). lia.
  - destruct (s_pend s) eqn:P; [|exact B]. pose proof (proj1 (b_pend _ B) P) as D.
    destruct (b_early _ B) as (N & X & K); [rewrite D; reflexivity|].
    assert (K2 : tokens s = S (tokens (set_pend false s))) by (unfold tokens; proj; rewrite P; cbn [b2n]; lia).
    unfold direct_fail. destruct (can_request c).
    + assert (K3 : tokens (set_timer true (o_send None MReq (set_stage PRequested (say LDirectFailed (set_pend false s))))) = S (tokens (set_pend false s))).
      { unfold tokens. proj. nb. lia. }
      destruct B as [A1 A2 A3 A4 A5 A6 A7]. constructor; rewrite ?K3; proj; rewrite ?nl_app, ?nl_one; cbn [b2n e_ann e_exp e_rep].
      * intros _. clear - N X K K2. lia.
      * clear - N X K K2. lia.
      * unfold flight in *. proj. nb. clear - A3. lia.
      * clear - A4. lia.
      * split; discriminate.
      * intros n. specialize (A6 n). unfold copies in *. proj. nb. clear - A6. lia.
      * intros n H. specialize (A7 n H). unfold copies in *. proj. nb. clear - A7. lia.
    + (* without the token of the direct attempt *)
      assert (B1 : InvB (set_stage PWaiting (set_pend false s))).
      { destruct B as [A1 A2 A3 A4 A5 A6 A7]. constructor; proj; try assumption; try discriminate; [|split; discriminate].
        change (tokens (set_stage PWaiting (set_pend false s))) with (tokens (set_pend false s)). clear - N X K K2. lia. }
      assert (V : forall s, via_proxy c s = via_proxy c (set_stage PWaiting s)) by reflexivity.
      rewrite V. apply via_proxy_b; [|reflexivity|].
      * change (set_stage PWaiting (say LDirectFailed (set_pend false s))) with (say LDirectFailed (set_stage PWaiting (set_pend false s))). now apply say_b.
      * unfold spare. proj. rewrite !nl_app, !nl_one. cbn [b2n e_ann e_exp].
        change (tokens (set_stage PWaiting (say LDirectFailed (set_pend false s)))) with (tokens (set_pend false s)). clear - N X K K2. lia.
  - destruct (s_timer s); [|exact B]. unfold timer.
    assert (B1 : InvB (set_timer false s)) by (apply (le_inv s); [exact B|]; repeat split; auto).
    destruct (s_stage s) eqn:S; auto.
    destruct (b_early _ B) as (N & X & K); [rewrite S; reflexivity|].
    assert (P : s_pend s = false). { destruct (s_pend s) eqn:P; [|reflexivity]. apply (b_pend _ B) in P. congruence. }
    assert (V : forall s, via_proxy c s = via_proxy c (set_stage PWaiting s)) by reflexivity. rewrite V.
    assert (K2 : tokens (set_stage PWaiting (say LExpired (set_timer false s))) = tokens s) by reflexivity.
    apply via_proxy_b; [|exact P|].
    + destruct B as [A1 A2 A3 A4 A5 A6 A7]. constructor; rewrite ?K2; proj; rewrite ?nl_app, ?nl_one; cbn [b2n e_ann e_exp e_rep early]; try discriminate.
      * clear - N X K. lia.
      * change (flight (set_stage PWaiting (say LExpired (set_timer false s)))) with (flight s). clear - A3. lia.
      * clear - A4. lia.
      * rewrite P. split; discriminate.
      * exact A6.
      * exact A7.
    + unfold spare. rewrite K2. proj. rewrite !nl_app, !nl_one. cbn [b2n e_ann e_exp]. clear - N X K. lia.
  - destruct (s_or s) as [|m q] eqn:Q; [exact B|]. apply (le_inv s); [exact B|]. cbn zeta. unfold le_st, tokens, flight, copies.
    destruct (forwards c m && _); proj; rewrite Q; repeat split; intros; nb; try lia.
  - destruct (s_tr s) as [|m q] eqn:Q; [exact B|]. apply (le_inv s); [exact B|]. cbn zeta. unfold le_st, tokens, flight, copies.
    destruct (forwards c m); proj; rewrite Q; repeat split; intros; nb; try lia.
  - destruct (s_rt s) as [|m q] eqn:Q; [exact B|].
    destruct m as [| | | | | |d]; cbn [t_recv]; unfold t_request; try (destruct (c_treq c), now); try (destruct (c_tproxy c)).
    all: match goal with
         | |- context [LRefuse] => apply (le_inv (say LRefuse (say LAccept s))); [repeat apply say_b; auto|]
         | |- context [LAccept] => apply (le_inv (say LAccept s)); [repeat apply say_b; auto|]
         | _ => apply (le_inv s); [exact B|] end.
    all: unfold le_st, tokens, flight, copies; proj; rewrite Q; repeat split; intros; nb; rewrite ?count_occ_app; cbn [count_occ]; try lia.
    all: destruct (Nat.eq_dec d n) as [->|N]; [rewrite Nat.eqb_refl; cbn; lia|lia].
  - destruct (s_tries s) as [|n] eqn:Q; [exact B|]. unfold t_ok. apply say_b; auto.
    apply (le_inv s); [exact B|]. unfold le_st, tokens, flight, copies. proj. rewrite Q. repeat split; intros; nb; try lia.
  - destruct (s_tries s) as [|n] eqn:Q; [exact B|]. unfold t_fail. apply say_b; auto.
    apply (le_inv s); [exact B|]. unfold le_st, tokens, flight, copies. proj. rewrite Q. repeat split; intros; nb; try lia.
  - destruct (s_ro s) as [|m q] eqn:Q; [exact B|].
    apply (o_recv_b c None m s); auto; unfold tokens, flight, copies; proj; rewrite ?Q; nb; intros; lia.
  - destruct (to_o k s) as [|m q] eqn:Q; [exact B|]. destruct (take_o _ _ _ _ Q) as (T1 & T2 & T3).
    apply (o_recv_b c (Some k) m s); auto; unfold tokens, flight, copies; intros; rewrite ?T1, ?T2; cbn; lia.
  - destruct (to_t k s) as [|m q] eqn:Q; [exact B|]. destruct (take_t _ _ _ _ Q) as (T1 & T2 & T3).
    destruct m as [| | | | | |d]; cbn [t_recv]; unfold t_request; try match goal with |- context [c_treq c] => destruct (c_treq c) end.
    all: match goal with
         | |- context [LAccept] => apply (le_inv (say LAccept s)); [repeat apply say_b; auto|]
         | _ => apply (le_inv s); [exact B|] end.
    6: { destruct (give_o k (set_to_t k q s) MRep T3) as [G1 G2].
         unfold le_st, tokens, flight, copies. repeat split; intros; rewrite ?G1, ?G2, ?T1, <- ?T2; cbn; lia. }
    all: unfold le_st, tokens, flight, copies; repeat split; intros;
      match goal with |- _ <= _ => cbn [s_links s_pend s_or s_rt s_tr s_ro s_tries s_got set_tries set_tr say add_got] | _ => idtac end;
      rewrite ?T1, ?T2; cbn [b2n is_req is_conn is_fail is_notice is_ann is_rep is_data set_to_t set_links s_pend s_or s_rt s_tr s_ro s_tries s_got]; nb; rewrite ?count_occ_app; cbn [count_occ]; try lia.
    destruct (Nat.eq_dec d n) as [->|N]; [rewrite Nat.eqb_refl; cbn; lia|]. lia.
  - now apply publish_b.
  - apply (le_inv s); [exact B|]. unfold le_st, tokens, flight, copies. proj.
    repeat split; intros; rewrite ?(proj1 (gone_links _ _)), ?(proj2 (gone_links _ _)), ?cnt_nil; lia.
Qed.

Lemma run_b c ops : InvB (run c ops).
Proof. induction ops as [|o ops IH] using rev_ind; [exact init_b|]. rewrite run_snoc. now apply step_b. Qed.
