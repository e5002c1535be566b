From Coq Require Import List NArith Arith Bool Lia.
From Verif Require Import Base PeerSendModel PeerSendSpec.
Import ListNotations.

Ltac tcbn := cbn [t_useagg t_started t_armed t_agg t_queue t_sending t_cur t_down t_writing t_pending t_wire t_disp] in *.

Lemma bytes_app : forall a b, bytes_of (a ++ b) = bytes_of a ++ bytes_of b.
Proof. intros. unfold bytes_of. now rewrite map_app, concat_app. Qed.
Lemma bytes_one : forall k b, bytes_of [(k, b)] = b.
Proof. intros. cbn. apply app_nil_r. Qed.

Record TInv (s : tx) (snt L A : list msg) : Prop := {
  v_out : outgoing s = bytes_of L;
  v_agg : t_agg s = bytes_of A;
  v_cls : filter aggregated (L ++ A) = filter aggregated snt;
  v_oth : filter (fun m => negb (aggregated m)) L = filter (fun m => negb (aggregated m)) snt;
  v_A : Forall (fun m => aggregated m = true) A;
  v_plain : t_useagg s = false -> L = snt /\ A = [];
  v_down : t_down s = false;
  v_pend : t_pending s = false;
  v_write : t_writing s = t_sending s;
  v_cur : t_sending s = false -> t_cur s = [];
  v_wake : t_queue s <> [] -> t_sending s = true \/ 0 < t_disp s }.

Lemma inv_new : TInv tx_new [] [] [].
Proof. constructor; cbn; auto. Qed.

(** Appending a blob to the queue. *)
Lemma outgoing_send : forall s b, t_down s = false -> outgoing (send_internal b s) = outgoing s ++ b.
Proof.
  intros s b H. unfold outgoing, send_internal. rewrite H. tcbn. rewrite concat_app. cbn. rewrite app_nil_r.
  now rewrite !app_assoc.
Qed.

Lemma filter_all : forall A (f : A -> bool) l, Forall (fun x => f x = true) l -> filter f l = l.
Proof. induction 1; cbn; [reflexivity|]. rewrite H. now f_equal. Qed.
Lemma filter_none : forall A (f : A -> bool) l, Forall (fun x => f x = true) l -> filter (fun x => negb (f x)) l = [].
Proof. induction 1; cbn; [reflexivity|]. now rewrite H. Qed.

Lemma flush_inv : forall s snt L A, t_useagg s = true -> TInv s snt L A -> TInv (flush s) snt (L ++ A) [].
Proof.
  intros s snt L A Hu H. destruct H. unfold flush.
  set (s0 := mkTx _ _ _ [] _ _ _ _ _ _ _ _).
  assert (E : outgoing (arm (send_internal (t_agg s) s0)) = bytes_of (L ++ A)).
  { change (outgoing (arm (send_internal (t_agg s) s0))) with (outgoing (send_internal (t_agg s) s0)).
    rewrite outgoing_send by exact v_down0. rewrite bytes_app, <- v_agg0. f_equal. exact v_out0. }
  assert (Hs : send_internal (t_agg s) s0 = mkTx (t_useagg s0) (t_started s0) (t_armed s0) (t_agg s0)
     (t_queue s0 ++ [t_agg s]) (t_sending s0) (t_cur s0) (t_down s0) (t_writing s0) (t_pending s0) (t_wire s0) (S (t_disp s0))).
  { unfold send_internal. change (t_down s0) with (t_down s). now rewrite v_down0. }
  constructor; try exact E; rewrite ?Hs; unfold arm; tcbn; auto.
  - now rewrite app_nil_r.
  - rewrite filter_app, v_oth0, (filter_none _ aggregated A) by assumption. apply app_nil_r.
  - cbn [s0 t_useagg]. congruence.
  - intros _. right. lia.
Qed.

Lemma aggregate_inv : forall thr k b s snt L A, t_useagg s = true -> k <> KOther -> TInv s snt L A ->
  exists L' A', TInv (aggregate thr b s) (snt ++ [(k, b)]) L' A' /\ t_useagg (aggregate thr b s) = true /\
    length (t_agg (aggregate thr b s)) <= thr.
Proof.
  intros thr k b s snt L A Hu Hk H. unfold aggregate.
  assert (Hagg : aggregated (k, b) = true) by (destruct k; [reflexivity|reflexivity|congruence]).
  set (s1 := if t_started s then s else _).
  assert (H1 : TInv s1 snt L A /\ t_useagg s1 = true).
  { unfold s1. destruct (t_started s); [auto|]. destruct H. split; [constructor|]; unfold arm; tcbn; auto. }
  destruct H1 as [H1 Hu1]. clearbody s1.
  set (s2 := mkTx _ _ _ (t_agg s1 ++ b) _ _ _ _ _ _ _ _).
  assert (H2 : TInv s2 (snt ++ [(k, b)]) L (A ++ [(k, b)])).
  { destruct H1. constructor; unfold s2; tcbn; auto.
    - rewrite bytes_app, v_agg0, bytes_one. reflexivity.
    - rewrite app_assoc, (filter_app _ (L ++ A)), v_cls0, filter_app. reflexivity.
    - rewrite filter_app, v_oth0. cbn [filter]. rewrite Hagg. cbn. now rewrite app_nil_r.
    - apply Forall_app. split; [assumption|]. constructor; [assumption|constructor].
    - intro. congruence. }
  destruct (Nat.ltb_spec thr (length (t_agg s2))) as [Hl|Hl].
  - exists (L ++ A ++ [(k, b)]), []. split; [apply flush_inv; [exact Hu1|exact H2]|].
    unfold flush, arm, send_internal. tcbn. destruct (t_down s2); tcbn; split; auto; cbn; lia.
  - exists L, (A ++ [(k, b)]). split; [exact H2|]. split; [exact Hu1|]. lia.
Qed.

Lemma internal_inv : forall k b s snt L A, (t_useagg s = true -> k = KOther) -> TInv s snt L A ->
  TInv (send_internal b s) (snt ++ [(k, b)]) (L ++ [(k, b)]) A.
Proof.
  intros k b s snt L A Hk H.
  pose proof (outgoing_send s b (v_down _ _ _ _ H)) as Ho. destruct H.
  assert (Hs : send_internal b s = mkTx (t_useagg s) (t_started s) (t_armed s) (t_agg s)
     (t_queue s ++ [b]) (t_sending s) (t_cur s) (t_down s) (t_writing s) (t_pending s) (t_wire s) (S (t_disp s))).
  { unfold send_internal. now rewrite v_down0. }
  rewrite Hs in *. constructor; tcbn; auto.
  - rewrite Ho, v_out0, bytes_app, bytes_one. reflexivity.
  - destruct (t_useagg s) eqn:Eu.
    + rewrite (Hk eq_refl). rewrite !filter_app in *. cbn [filter aggregated fst]. rewrite !app_nil_r. assumption.
    + destruct (v_plain0 eq_refl) as [-> ->]. now rewrite app_nil_r.
  - rewrite !filter_app, v_oth0. reflexivity.
  - intro Hu. destruct (v_plain0 Hu) as [-> ->]. auto.
  - intros _. right. lia.
Qed.

Lemma send_inv : forall thr k b s snt L A, TInv s snt L A ->
  exists L' A', TInv (send thr k b s) (snt ++ [(k, b)]) L' A' /\ t_useagg (send thr k b s) = t_useagg s /\
    (t_useagg s = true -> k = KFlush -> A' = []).
Proof.
  intros thr k b s snt L A H. unfold send. destruct (t_useagg s) eqn:Hu.
  - destruct k.
    + destruct (aggregate_inv thr KUser b s snt L A Hu) as (L' & A' & H1 & H2 & _); [discriminate|exact H|].
      exists L', A'. split; [exact H1|]. split; [exact H2|discriminate].
    + destruct (aggregate_inv thr KFlush b s snt L A Hu) as (L' & A' & H1 & H2 & _); [discriminate|exact H|].
      exists (L' ++ A'), []. split; [apply flush_inv; assumption|]. split; [|reflexivity].
      unfold flush, arm, send_internal. tcbn. destruct (t_down _); exact H2.
    + exists (L ++ [(KOther, b)]), A. split; [apply internal_inv; auto|].
      split; [|discriminate]. unfold send_internal. destruct (t_down s); exact Hu.
  - exists (L ++ [(k, b)]), A. split; [apply internal_inv; [congruence|exact H]|].
    split; [|discriminate]. unfold send_internal. destruct (t_down s); exact Hu.
Qed.

(** Starting and completing writes do not change what is outgoing. *)
Lemma start_inv : forall s snt L A, t_pending s = false -> t_down s = false -> t_writing s = t_sending s ->
  (t_sending s = false -> t_cur s = []) ->
  outgoing s = bytes_of L -> t_agg s = bytes_of A ->
  filter aggregated (L ++ A) = filter aggregated snt ->
  filter (fun m => negb (aggregated m)) L = filter (fun m => negb (aggregated m)) snt ->
  Forall (fun m => aggregated m = true) A -> (t_useagg s = false -> L = snt /\ A = []) ->
  exists s', start_write s = Ok s' /\ TInv s' snt L A /\ outgoing s' = outgoing s /\ t_agg s' = t_agg s /\
    t_armed s' = t_armed s /\ (t_queue s <> [] -> t_sending s' = true) /\
    writes_needed s' = writes_needed s /\ (t_sending s = true -> s' = s) /\ t_useagg s' = t_useagg s.
Proof.
  intros s snt L A Hp Hd Hw Hc Ho Hag H1 H2 H3 H4. unfold start_write. destruct (t_sending s) eqn:Es.
  - exists s. split; [reflexivity|]. split; [constructor; auto; congruence|]. repeat split; auto.
  - destruct (t_queue s) as [|b q] eqn:Eq.
    + exists s. split; [reflexivity|]. split; [constructor; auto; congruence|]. repeat split; auto; congruence.
    + unfold write_some. tcbn. rewrite Hp, Hw. eexists. split; [reflexivity|].
      assert (Eo : forall a b0 c d e f g h, outgoing (mkTx a b0 c d q e b f g h (t_wire s) (t_disp s)) = outgoing s).
      { intros. unfold outgoing. tcbn. rewrite Eq, (Hc eq_refl). reflexivity. }
      split; [|split; [apply Eo|]].
      * constructor; rewrite ?Eo; tcbn; auto; discriminate.
      * tcbn. repeat split; auto; try discriminate. unfold writes_needed. tcbn. rewrite Es, Eq. reflexivity.
Qed.

Lemma wrote_inv : forall thr n s snt L A, TInv s snt L A ->
  exists s', tx_step thr (EWrote n) s = Ok s' /\ TInv s' snt L A /\ outgoing s' = outgoing s /\
    t_agg s' = t_agg s /\ t_armed s' = t_armed s /\ t_useagg s' = t_useagg s /\
    (t_sending s = false -> s' = s) /\ (t_sending s = true -> 0 < n -> writes_needed s' < writes_needed s) /\
    (t_sending s' = false -> t_sending s = false \/ t_queue s = []).
Proof.
  intros thr n s snt L A H. pose proof H as [V1 V2 V3 V4 V5 V6 V7 V8 V9 V10 V11]. cbn [tx_step].
  rewrite V9. destruct (t_sending s) eqn:Es; cbn [negb].
  2:{ exists s. split; [reflexivity|]. split; [exact H|]. repeat split; auto. discriminate. }
  rewrite V8. tcbn.
  destruct (Nat.ltb_spec (length (firstn n (t_cur s))) (length (t_cur s))) as [Hl|Hl].
  - unfold write_some. tcbn. try rewrite V8. eexists. split; [reflexivity|].
    match goal with |- TInv ?x _ _ _ /\ _ => assert (Eo : outgoing x = outgoing s) end.
    { unfold outgoing. tcbn. rewrite <- (firstn_skipn n (t_cur s)) at 3. now rewrite <- !app_assoc. }
    split; [|split; [exact Eo|]].
    + constructor; rewrite ?Eo; tcbn; auto; discriminate.
    + tcbn. repeat split; auto; try discriminate.
      intros _ Hn. unfold writes_needed. tcbn. rewrite Es. rewrite skipn_length. rewrite firstn_length in Hl. lia.
  - set (s1 := mkTx _ _ _ _ _ false _ _ _ _ _ _).
    assert (Hs : skipn n (t_cur s) = []).
    { apply skipn_all2. rewrite firstn_length in Hl. lia. }
    assert (Eo : outgoing s1 = outgoing s).
    { unfold outgoing, s1. tcbn. rewrite <- (firstn_skipn n (t_cur s)) at 3. now rewrite <- !app_assoc. }
    destruct (start_inv s1 snt L A) as (s' & E1 & E2 & E3 & E4 & E5 & E6 & E7 & E8 & E9); auto.
    { congruence. }
    exists s'. split; [exact E1|]. split; [exact E2|]. split; [congruence|]. split; [exact E4|]. split; [exact E5|].
    split; [exact E9|]. split; [discriminate|]. split.
    + intros _ _. rewrite E7. unfold writes_needed, s1. tcbn. rewrite Es. lia.
    + intro Hns. right. destruct (t_queue s) eqn:Eq; [reflexivity|]. exfalso.
      assert (t_sending s' = true) by (apply E6; cbn; congruence). congruence.
Qed.

Lemma dispatch_inv : forall thr s snt L A, TInv s snt L A ->
  exists s', tx_step thr EDispatch s = Ok s' /\ TInv s' snt L A /\ outgoing s' = outgoing s /\
    t_agg s' = t_agg s /\ t_armed s' = t_armed s /\ t_useagg s' = t_useagg s /\
    (t_queue s <> [] -> t_sending s' = true) /\ writes_needed s' = writes_needed s.
Proof.
  intros thr s snt L A H. pose proof H as [V1 V2 V3 V4 V5 V6 V7 V8 V9 V10 V11]. cbn [tx_step].
  destruct (t_disp s) eqn:Ed.
  - exists s. split; [reflexivity|]. split; [exact H|]. repeat split; auto. intro Hq. destruct (V11 Hq); [assumption|lia].
  - set (s1 := mkTx _ _ _ _ _ _ _ _ _ _ _ _).
    destruct (start_inv s1 snt L A) as (s' & E1 & E2 & E3 & E4 & E5 & E6 & E7 & E8 & E9); auto.
    exists s'. split; [exact E1|]. split; [exact E2|]. split; [exact E3|]. repeat split; auto.
Qed.

Lemma step_inv : forall thr e s snt L A, e <> EShut -> e <> EFail -> TInv s snt L A ->
  exists s' L' A', tx_step thr e s = Ok s' /\ TInv s' (snt ++ sent [e]) L' A' /\
    (t_useagg s = false -> e <> EEnable -> t_useagg s' = false).
Proof.
  intros thr e s snt L A N1 N2 H. destruct e as [k b| | |n| | |]; try congruence.
  - destruct (send_inv thr k b s snt L A H) as (L' & A' & H1 & H2 & _). exists (send thr k b s), L', A'.
    split; [reflexivity|]. split; [exact H1|]. congruence.
  - cbn [tx_step sent]. rewrite app_nil_r. destruct (t_armed s) eqn:Ea.
    + set (s1 := mkTx _ _ _ _ _ _ _ _ _ _ _ _).
      assert (H1 : TInv s1 snt L A) by (destruct H; constructor; unfold s1; tcbn; auto).
      change (t_agg s1) with (t_agg s). destruct (t_agg s) eqn:Eg.
      * exists s1, L, A. split; [reflexivity|]. split; [exact H1|auto].
      * destruct (t_useagg s) eqn:Eu.
        -- exists (flush s1), (L ++ A), []. split; [reflexivity|]. split; [now apply flush_inv|congruence].
        -- exfalso. destruct H. destruct (v_plain0 Eu) as [_ ->]. rewrite Eg in v_agg0. discriminate.
    + exists s, L, A. auto.
  - destruct (dispatch_inv thr s snt L A H) as (s' & E1 & E2 & E3 & E4 & E5 & E6 & _). exists s', L, A.
    cbn [sent]. rewrite app_nil_r. split; [exact E1|]. split; [exact E2|]. congruence.
  - destruct (wrote_inv thr n s snt L A H) as (s' & E1 & E2 & E3 & E4 & E5 & E6 & _). exists s', L, A.
    cbn [sent]. rewrite app_nil_r. split; [exact E1|]. split; [exact E2|]. congruence.
  - cbn [tx_step sent]. rewrite app_nil_r. eexists _, L, A. split; [reflexivity|]. split; [|congruence].
    destruct H. constructor; tcbn; auto. discriminate.
Qed.

Lemma sent_cons : forall e l, sent (e :: l) = sent [e] ++ sent l.
Proof. intros [] l; reflexivity. Qed.

Lemma run_inv : forall thr l s snt L A, quiet l -> TInv s snt L A ->
  exists s' L' A', tx_run thr l s = Ok s' /\ TInv s' (snt ++ sent l) L' A' /\
    (t_useagg s = false -> ~ In EEnable l -> t_useagg s' = false).
Proof.
  intros thr l. induction l as [|e l IH]; intros s snt L A [Q1 Q2] H; cbn [tx_run].
  - exists s, L, A. cbn [sent]. rewrite app_nil_r. auto.
  - destruct (step_inv thr e s snt L A) as (s1 & L1 & A1 & E1 & E2 & E3); auto.
    { intro; subst; apply Q1; now left. } { intro; subst; apply Q2; now left. }
    rewrite E1. cbn [bind].
    destruct (IH s1 (snt ++ sent [e]) L1 A1) as (s2 & L2 & A2 & F1 & F2 & F3); [split; intro; [apply Q1|apply Q2]; now right|exact E2|].
    exists s2, L2, A2. split; [exact F1|]. split.
    + rewrite sent_cons, app_assoc. exact F2.
    + intros Hu Hn. apply F3; [apply E3; [exact Hu|]|]; intro X; apply Hn; [subst e; now left|now right].
Qed.

Lemma send_plain : forall thr l, quiet l -> ~ In EEnable l ->
  exists s, tx_run thr l tx_new = Ok s /\ outgoing s = bytes_of (sent l).
Proof.
  intros thr l Q Hn. destruct (run_inv thr l tx_new [] [] [] Q inv_new) as (s & L & A & E1 & E2 & E3).
  exists s. split; [exact E1|]. destruct E2. destruct (v_plain0 (E3 eq_refl Hn)) as [-> _]. exact v_out0.
Qed.

Lemma send_aggregated : forall thr l, quiet l ->
  exists s L A, tx_run thr l tx_new = Ok s /\ outgoing s = bytes_of L /\ t_agg s = bytes_of A /\
    filter aggregated (L ++ A) = filter aggregated (sent l) /\
    filter (fun m => negb (aggregated m)) (L ++ A) = filter (fun m => negb (aggregated m)) (sent l).
Proof.
  intros thr l Q. destruct (run_inv thr l tx_new [] [] [] Q inv_new) as (s & L & A & E1 & E2 & _).
  exists s, L, A. destruct E2. repeat split; auto.
  rewrite filter_app, v_oth0, (filter_none _ aggregated A) by assumption. apply app_nil_r.
Qed.

Lemma send_flushes : forall thr l b s, quiet l -> tx_run thr l tx_new = Ok s -> t_useagg s = true ->
  exists L, outgoing (send thr KFlush b s) = bytes_of L /\ t_agg (send thr KFlush b s) = [] /\
    filter aggregated L = filter aggregated (sent l) ++ [(KFlush, b)] /\
    filter (fun m => negb (aggregated m)) L = filter (fun m => negb (aggregated m)) (sent l).
Proof.
  intros thr l b s Q H Hu. destruct (run_inv thr l tx_new [] [] [] Q inv_new) as (s' & L & A & E1 & E2 & _).
  rewrite E1 in H. inversion H; subst s'. cbn [app] in E2.
  unfold send. rewrite Hu.
  destruct (aggregate_inv thr KFlush b s (sent l) L A Hu) as (L' & A' & H1 & H2 & _); [discriminate|exact E2|].
  pose proof (flush_inv _ _ _ _ H2 H1) as HF. destruct HF. rewrite app_nil_r in v_cls0.
  exists (L' ++ A'). split; [exact v_out0|]. split; [exact v_agg0|].
  split. { rewrite v_cls0. rewrite filter_app. reflexivity. }
  rewrite v_oth0. rewrite filter_app. cbn. now rewrite app_nil_r.
Qed.

Lemma send_buffer_bounded : forall thr l, quiet l ->
  exists s, tx_run thr l tx_new = Ok s /\ length (t_agg s) <= thr.
Proof.
  intros thr l Q.
  assert (G : forall l s snt L A, quiet l -> TInv s snt L A -> length (t_agg s) <= thr ->
     exists s', tx_run thr l s = Ok s' /\ length (t_agg s') <= thr).
  { clear. induction l as [|e l IH]; intros s snt L A [Q1 Q2] H Hb; cbn [tx_run]; [eauto|].
    destruct (step_inv thr e s snt L A) as (s1 & L1 & A1 & E1 & E2 & E3); auto.
    { intro; subst; apply Q1; now left. } { intro; subst; apply Q2; now left. }
    rewrite E1. cbn [bind]. apply (IH s1 (snt ++ sent [e]) L1 A1); [split; intro; [apply Q1|apply Q2]; now right|exact E2|].
    assert (Hf : forall x, length (t_agg (flush x)) <= thr).
    { intro x. unfold flush, arm, send_internal. tcbn. destruct (t_down x); cbn; lia. }
    destruct e as [k b| | |n| | |]; cbn [tx_step] in E1.
    - inversion E1; subst s1. unfold send. destruct (t_useagg s) eqn:Eu.
      + destruct k; [|apply Hf|].
        * destruct (aggregate_inv thr KUser b s snt L A Eu) as (? & ? & _ & _ & ?); [discriminate|exact H|assumption].
        * unfold send_internal. destruct (t_down s); assumption.
      + unfold send_internal. destruct (t_down s); assumption.
    - destruct (t_armed s); inversion E1; subst s1; [|assumption]. tcbn. destruct (t_agg s) eqn:Eg; [cbn; lia|apply Hf].
    - destruct (dispatch_inv thr s snt L A H) as (s' & F1 & _ & _ & F2 & _). cbn [tx_step] in F1. rewrite F1 in E1.
      inversion E1; subst s1. now rewrite F2.
    - destruct (wrote_inv thr n s snt L A H) as (s' & F1 & _ & _ & F2 & _). cbn [tx_step] in F1. rewrite F1 in E1.
      inversion E1; subst s1. now rewrite F2.
    - inversion E1; subst s1. assumption.
    - exfalso. apply Q1. now left.
    - exfalso. apply Q2. now left. }
  apply (G l tx_new [] [] [] Q inv_new). cbn. lia.
Qed.

(** No lost wake-up: everything queued reaches the operating system. *)
Lemma writes_run : forall thr ns s snt L A, TInv s snt L A -> (t_queue s <> [] -> t_sending s = true) ->
  Forall (fun n => 0 < n) ns -> writes_needed s <= length ns ->
  exists s', tx_run thr (map EWrote ns) s = Ok s' /\ t_wire s' = outgoing s /\ t_cur s' = [] /\ t_queue s' = [].
Proof.
  intros thr ns. induction ns as [|n ns IH]; intros s snt L A H Hq HF Hn; cbn [map tx_run].
  - exists s. cbn [length] in Hn. unfold writes_needed in Hn. pose proof H as [V1 V2 V3 V4 V5 V6 V7 V8 V9 V10 V11].
    destruct (t_sending s) eqn:Es; [lia|].
    destruct (t_queue s) eqn:Eq; [|cbn in Hn; lia]. split; [reflexivity|]. unfold outgoing.
    rewrite (V10 eq_refl), Eq. cbn. now rewrite !app_nil_r.
  - inversion HF; subst. destruct (wrote_inv thr n s snt L A H) as (s1 & E1 & E2 & E3 & _ & _ & _ & E4 & E5 & E6).
    rewrite E1. cbn [bind]. destruct (IH s1 snt L A E2) as (s' & F1 & F2 & F3); auto.
    + intro Hq1. destruct (t_sending s1) eqn:Es1; [reflexivity|]. exfalso.
      destruct (E6 eq_refl) as [Hs|Hs].
      * rewrite (E4 Hs) in Hq1. rewrite (Hq Hq1) in Hs. discriminate.
      * (* the queue was empty and nothing is appended *)
        destruct (t_sending s) eqn:Es.
        -- cbn [tx_step] in E1. pose proof H as [V1 V2 V3 V4 V5 V6 V7 V8 V9 V10 V11]. rewrite V9, Es in E1. cbn [negb] in E1.
           rewrite V8 in E1. tcbn. unfold write_some, start_write in E1. tcbn. rewrite Hs in E1. try rewrite V8 in E1.
           destruct (_ <? _); inversion E1; subst s1; tcbn; congruence.
        -- rewrite (E4 eq_refl) in Hq1. congruence.
    + destruct (t_sending s) eqn:Es; [specialize (E5 eq_refl H2); cbn [length] in Hn; lia|].
      rewrite (E4 eq_refl) in *. unfold writes_needed in *. rewrite Es in *.
      destruct (t_queue s) eqn:Eq; [cbn; lia|]. discriminate Hq. congruence.
    + exists s'. rewrite E3 in F2. auto.
Qed.

Lemma send_drains : forall thr l ns, quiet l -> Forall (fun n => 0 < n) ns ->
  exists s, tx_run thr l tx_new = Ok s /\
    (writes_needed s <= length ns ->
     exists s', tx_run thr (l ++ EDispatch :: map EWrote ns) tx_new = Ok s' /\
       t_wire s' = outgoing s /\ t_cur s' = [] /\ t_queue s' = []).
Proof.
  intros thr l ns Q HF. destruct (run_inv thr l tx_new [] [] [] Q inv_new) as (s & L & A & E1 & E2 & _).
  exists s. split; [exact E1|]. intro Hn.
  assert (Happ : forall a b x, tx_run thr (a ++ b) x = bind (tx_run thr a x) (fun y => tx_run thr b y)).
  { clear. induction a as [|e a IH]; intros b x; cbn [app tx_run]; [reflexivity|].
    destruct (tx_step thr e x); cbn [bind]; auto. }
  rewrite Happ, E1. cbn [bind]. cbn [tx_run].
  destruct (dispatch_inv thr s _ L A E2) as (s1 & F1 & F2 & F3 & _ & _ & _ & F4 & F5). rewrite F1. cbn [bind].
  destruct (writes_run thr ns s1 _ L A F2) as (s' & G1 & G2 & G3 & G4); auto.
  - intro Hq. destruct (t_sending s1) eqn:Es; [reflexivity|]. exfalso.
    pose proof F2 as [V1 V2 V3 V4 V5 V6 V7 V8 V9 V10 V11].
    destruct (t_queue s) eqn:Eq; [|now discriminate F4].
    cbn [tx_step] in F1. unfold start_write in F1. tcbn. rewrite Eq in F1. 
    destruct (t_disp s); [inversion F1; subst; congruence|].
    destruct (t_sending s); inversion F1; subst s1; tcbn; congruence.
  - lia.
  - exists s'. rewrite <- F3. auto.
Qed.

(** The flush timer is not started again once it has found the aggregation buffer empty. *)
Lemma disarmed_stays : forall thr l s snt L A, TInv s snt L A -> t_armed s = false -> Forall io_event l ->
  exists s', tx_run thr l s = Ok s' /\ t_agg s' = t_agg s /\ outgoing s' = outgoing s.
Proof.
  intros thr l. induction l as [|e l IH]; intros s snt L A H Ha HF; cbn [tx_run]; [eauto|].
  inversion HF as [|? ? He HF']; subst. destruct e as [k b| | |n| | |]; cbn in He; try contradiction.
  - cbn [tx_step]. rewrite Ha. cbn [bind]. eapply IH; eauto.
  - destruct (dispatch_inv thr s snt L A H) as (s1 & F1 & F2 & F3 & F4 & F5 & _). rewrite F1. cbn [bind].
    destruct (IH s1 snt L A F2) as (s' & G1 & G2 & G3); [congruence|assumption|]. exists s'. rewrite G2, G3. auto.
  - destruct (wrote_inv thr n s snt L A H) as (s1 & F1 & F2 & F3 & F4 & F5 & _). rewrite F1. cbn [bind].
    destruct (IH s1 snt L A F2) as (s' & G1 & G2 & G3); [congruence|assumption|]. exists s'. rewrite G2, G3. auto.
Qed.
