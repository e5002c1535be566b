(** What both ends of a connection count. *)
From Coq Require Import List NArith Arith Bool Lia.
From Verif Require Import Base MessageBufferModel MessageBufferSpec MessageBufferProofs PeerSendModel PeerSendSpec PeerSendProofs PeerRecvModel PeerRecvSpec
  PeerE2E PeerMetricsModel PeerMetricsProofs.
Import ListNotations.
(** What is on its way is only ever extended. *)
Lemma grows_flush : forall s, t_down s = false -> prefix (outgoing s) (outgoing (flush s)) /\ t_down (flush s) = false.
Proof.
  intros s D. unfold flush.
  match goal with |- context [send_internal ?b ?x] => set (s0 := x); assert (E := outgoing_send s0 b D) end.
  split; [eexists; exact E|]. unfold arm, send_internal. cbn [t_down]. rewrite (D : t_down s0 = false). reflexivity.
Qed.
Lemma prefix_refl : forall A (l : list A), prefix l l.
Proof. intros A l. exists []. rewrite app_nil_r. reflexivity. Qed.
Lemma prefix_trans : forall A (a b c : list A), prefix a b -> prefix b c -> prefix a c.
Proof. intros A a b c [x ->] [y ->]. exists (x ++ y). rewrite app_assoc. reflexivity. Qed.
Lemma grows_aggregate : forall thr b s, t_down s = false ->
  prefix (outgoing s) (outgoing (aggregate thr b s)) /\ t_down (aggregate thr b s) = false.
Proof.
  intros thr b s D. unfold aggregate. destruct (t_started s), (thr <? _);
    match goal with |- context [flush ?x] => exact (grows_flush x D) | _ => split; [apply prefix_refl|exact D] end.
Qed.
Lemma grows_send : forall thr k b s, t_down s = false -> prefix (outgoing s) (outgoing (send thr k b s)).
Proof.
  intros thr k b s D. assert (I : prefix (outgoing s) (outgoing (send_internal b s))) by (eexists; apply outgoing_send, D).
  unfold send. destruct (t_useagg s); [destruct k|]; [apply grows_aggregate, D| |exact I|exact I].
  destruct (grows_aggregate thr b s D) as [A B]. eapply prefix_trans; [exact A|apply grows_flush, B].
Qed.
Lemma grows_step : forall thr e s snt L A s', e <> PeerSendModel.EShut -> e <> PeerSendModel.EFail -> TInv s snt L A ->
  tx_step thr e s = Ok s' -> prefix (outgoing s) (outgoing s').
Proof.
  intros thr e s snt L A s' N1 N2 T H. destruct e as [k b| | |n| | |]; try congruence.
  - cbn [tx_step] in H. injection H as <-. apply grows_send, T.
  - cbn [tx_step] in H. destruct (t_armed s); injection H as <-; [|apply prefix_refl]. cbn [t_agg].
    destruct (t_agg s); [apply prefix_refl|].
    match goal with |- context [flush ?x] => exact (proj1 (grows_flush x (v_down _ _ _ _ T))) end.
  - destruct (dispatch_inv thr s snt L A T) as (s1 & E & _ & O & _). rewrite H in E. injection E as <-. rewrite O. apply prefix_refl.
  - destruct (wrote_inv thr n s snt L A T) as (s1 & E & _ & O & _). rewrite H in E. injection E as <-. rewrite O. apply prefix_refl.
  - cbn [tx_step] in H. injection H as <-. apply prefix_refl.
Qed.
Lemma grows_run : forall thr l s snt L A s', quiet l -> TInv s snt L A -> tx_run thr l s = Ok s' -> prefix (outgoing s) (outgoing s').
Proof.
  intros thr l. induction l as [|e l IH]; intros s snt L A s' [Q1 Q2] T; cbn [tx_run].
  - intro H; injection H as <-. apply prefix_refl.
  - destruct (step_inv thr e s snt L A) as (s1 & L1 & A1 & E & T1 & _); [intros ->; apply Q1; left; reflexivity|intros ->; apply Q2; left; reflexivity|exact T|].
    rewrite E. cbn [bind]. intro H. eapply prefix_trans.
    + eapply grows_step; [| |exact T|exact E]; [intros ->; apply Q1; left; reflexivity|intros ->; apply Q2; left; reflexivity].
    + eapply IH; [split; intro X; [apply Q1|apply Q2]; right; exact X|exact T1|exact H].
Qed.
(** The first of several frames is determined by the bytes. *)
Lemma first_frame : forall a b x y, is_frame a -> is_frame b -> a ++ x = b ++ y -> a = b.
Proof.
  intros a b x y (A1 & A2 & A3) (B1 & B2 & B3) E.
  assert (F : firstn 4 a = firstn 4 b).
  { apply (f_equal (firstn 4)) in E. rewrite !firstn_app in E. replace (4 - length a) with 0 in E by lia.
    replace (4 - length b) with 0 in E by lia. cbn [firstn] in E. rewrite !app_nil_r in E. exact E. }
  rewrite A3, B3 in F. apply (f_equal of_le) in F.
  rewrite !of_le_bytes in F by (unfold is_u, max_msg in *; cbn; lia).
  assert (G : length a = length b) by lia.
  apply (f_equal (firstn (length a))) in E. rewrite firstn_app, firstn_all, Nat.sub_diag in E.
  rewrite G, firstn_app, firstn_all, Nat.sub_diag in E. cbn [firstn] in E. rewrite !app_nil_r in E. exact E.
Qed.

Lemma length_filter : forall (A : Type) (f : A -> bool) l, length l = length (filter f l) + length (filter (fun m => negb (f m)) l).
Proof. intros A f l. induction l as [|x l IH]; [reflexivity|]. cbn. destruct (f x); cbn; lia. Qed.
Lemma same_totals : forall L l : list msg, filter aggregated L = filter aggregated l ->
  filter (fun m => negb (aggregated m)) L = filter (fun m => negb (aggregated m)) l ->
  length L = length l /\ size_of L = size_of l.
Proof.
  intros L l E1 E2. split.
  - rewrite (length_filter _ aggregated L), (length_filter _ aggregated l), E1, E2. reflexivity.
  - rewrite (size_filter aggregated L), (size_filter aggregated l), E1, E2. reflexivity.
Qed.
(** The first message sent is the first received, also if aggregation is enabled later. *)
Lemma first_received : forall thr m evs s hd cap l, quiet (ESend KOther m :: evs) ->
  tx_run thr (ESend KOther m :: evs) tx_new = Ok s ->
  t_cur s = [] -> t_queue s = [] -> t_agg s = [] -> Forall (fun m => is_frame (snd m)) (sent (ESend KOther m :: evs)) ->
  4 <= cap -> accepts hd -> only_chunks l -> length (t_wire s) <= length l ->
  exists r out, rx_conn hd cap l (t_wire s) = Ok (Some (r, [])) /\ rx_out r = m :: out /\
    length out = length (sent evs) /\ total out = size_of (sent evs).
Proof.
  intros thr m evs s hd cap l Q H H1 H2 H3 F C A O L.
  destruct (end_to_end_wire thr _ s hd cap l Q H H1 H2 H3 F C A O L) as (r & M & R1 & R2 & R3 & R4 & _ & W & FM).
  destruct (same_totals M _ R3 R4) as [T1 T2]. cbn [sent length size_of fold_right snd] in T1, T2.
  fold (size_of (sent evs)) in T2.
  destruct M as [|[k x] M]; [discriminate T1|]. cbn [map snd length size_of fold_right] in *. fold (size_of M) in T2.
  assert (P : prefix m (t_wire s)).
  { destruct Q as [Q1 Q2].
    destruct (step_inv thr (ESend KOther m) tx_new [] [] []) as (s1 & L1 & A1 & E & T & _); [discriminate|discriminate|exact inv_new|].
    cbn [tx_run] in H. rewrite E in H. cbn [bind] in H.
    assert (G : prefix (outgoing s1) (outgoing s)).
    { eapply grows_run; [|exact T|exact H]. split; intro X; [apply Q1|apply Q2]; right; exact X. }
    unfold outgoing in G at 2. rewrite H1, H2 in G. cbn [concat app] in G. rewrite app_nil_r in G.
    cbn [tx_step] in E. injection E as <-. cbn in G. rewrite app_nil_r in G. exact G. }
  destruct P as [y P]. rewrite P in W. inversion F as [|? ? F1 _]; subst. inversion FM as [|? ? F2 _]; subst.
  cbn [snd concat] in *. pose proof (first_frame m x _ _ F1 F2 W) as E. subst x.
  exists r, (map snd M). split; [exact R1|]. split; [exact R2|]. rewrite map_length. split; [injection T1 as T1; exact T1|].
  unfold total. change (concat (map snd M)) with (bytes_of M). rewrite size_bytes. apply N.add_cancel_l in T2. exact T2.
Qed.
(** No byte is lost between messages. *)
Lemma cuts_length : forall s ms r, cuts s ms r -> length s = length (concat ms) + length r.
Proof.
  intros s ms r K. induction K as [s|m s ms r H1 H2 H3 H4 K IH]; [reflexivity|].
  cbn [concat]. rewrite !app_length. lia.
Qed.
