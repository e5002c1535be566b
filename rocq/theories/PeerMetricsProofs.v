From Coq Require Import List NArith Arith Bool Lia.
From Verif Require Import Base PeerSendModel PeerSendSpec PeerSendProofs PeerMetricsModel.
Import ListNotations.

Definition strip1 (e : mev) : list txev := match e with MInit => [] | MEv e => [e] end.
Definition strip (l : list mev) : list txev := concat (map strip1 l).
Definition size_of (l : list msg) : N := fold_right (fun m n => N.of_nat (length (snd m)) + n)%N 0%N l.

(** The peer behaves as without metrics. *)
Lemma internal_fst : forall b p, fst (m_internal b p) = send_internal b (fst p).
Proof. reflexivity. Qed.
Lemma flush_fst : forall p, fst (m_flush p) = flush (fst p).
Proof. reflexivity. Qed.
Lemma aggregate_fst : forall thr b p, fst (m_aggregate thr b p) = aggregate thr b (fst p).
Proof. intros thr b [s m]. unfold m_aggregate, aggregate. cbn [fst snd]. destruct (thr <? _); reflexivity. Qed.
Lemma send_fst : forall thr k b p, fst (m_send thr k b p) = send thr k b (fst p).
Proof.
  intros thr k b [s m]. unfold m_send, send. cbn [fst snd]. destruct (t_useagg s); [|reflexivity].
  destruct k; [apply aggregate_fst|rewrite flush_fst, aggregate_fst; reflexivity|reflexivity].
Qed.
Definition omap {A B} (f : A -> B) (r : res A) : res B := bind r (fun x => Ok (f x)).
Lemma step_fst : forall thr e p, omap fst (m_step thr (MEv e) p) = tx_step thr e (fst p).
Proof.
  intros thr e [s m]. destruct e; cbn [m_step fst snd];
    try (destruct (tx_step _ _ _) eqn:E; cbn [omap bind fst] in *; rewrite ?E; reflexivity).
  - cbn [omap bind tx_step]. rewrite send_fst. reflexivity.
  - cbn [tx_step]. destruct (t_armed s); cbn [omap bind t_agg]; [|reflexivity]. destruct (t_agg s); reflexivity.
Qed.
Lemma run_fst : forall thr l p, omap fst (m_run thr l p) = tx_run thr (strip l) (fst p).
Proof.
  intros thr l. induction l as [|e l IH]; intros p; [reflexivity|]. destruct e as [|e].
  - cbn [m_run m_step bind]. rewrite IH. reflexivity.
  - change (strip (MEv e :: l)) with (e :: strip l). cbn [m_run tx_run].
    rewrite <- step_fst. destruct (m_step thr (MEv e) p) as [p'| |]; cbn [omap bind]; [apply IH|reflexivity|reflexivity].
Qed.

(** The counters. *)
Definition counts (m : pm) : N * N * bool := (m_txb m, m_txp m, m_init m).
Lemma queue_counts : forall n m, counts (tx_queue_size n m) = counts m.
Proof. intros n m. unfold tx_queue_size, counts. destruct (m_init m) eqn:I; cbn; rewrite ?I; reflexivity. Qed.
Lemma internal_counts : forall b p, counts (snd (m_internal b p)) = counts (snd p).
Proof. intros b p. cbn [m_internal snd]. destruct (t_down _); [reflexivity|apply queue_counts]. Qed.
Lemma flush_counts : forall p, counts (snd (m_flush p)) = counts (snd p).
Proof. intros p. unfold m_flush. cbn [snd]. rewrite internal_counts. reflexivity. Qed.
Lemma aggregate_counts : forall thr b p, counts (snd (m_aggregate thr b p)) = counts (snd p).
Proof. intros thr b p. unfold m_aggregate. destruct (thr <? _); [rewrite flush_counts|]; reflexivity. Qed.
Lemma send_counts : forall thr k b p, counts (snd (m_send thr k b p)) = counts (tx_packet (tx_bytes b (snd p))).
Proof.
  intros thr k b p. unfold m_send. cbn [fst snd]. destruct (t_useagg _); [|rewrite internal_counts; reflexivity].
  destruct k; rewrite ?flush_counts, ?aggregate_counts, ?internal_counts; reflexivity.
Qed.
Lemma other_counts : forall thr e p p', m_step thr (MEv e) p = Ok p' -> (forall k b, e <> ESend k b) ->
  counts (snd p') = counts (snd p).
Proof.
  intros thr e p p' H N. destruct e; [exfalso; exact (N k blob eq_refl)| | | | | |]; cbn [m_step] in H;
    try (destruct (tx_step _ _ _); cbn [bind] in H; try discriminate; injection H as <-; reflexivity).
  destruct (t_armed _); injection H as <-; [|reflexivity]. cbn [t_agg].
  destruct (t_agg (fst p)); [reflexivity|rewrite flush_counts; reflexivity].
Qed.
Lemma before_init : forall thr l p p', ~ In MInit l -> m_init (snd p) = false -> m_run thr l p = Ok p' ->
  counts (snd p') = counts (snd p).
Proof.
  intros thr l. induction l as [|e l IH]; intros p p' N I; cbn [m_run]; [intro H; injection H as <-; reflexivity|].
  destruct e as [|e]; [exfalso; apply N; left; reflexivity|].
  destruct (m_step thr (MEv e) p) as [p1| |] eqn:E; cbn [bind]; try discriminate. intro H.
  assert (C : counts (snd p1) = counts (snd p)).
  { destruct e as [k b| | | | | |]; try (eapply other_counts; [exact E|intros; discriminate]).
    cbn [m_step] in E. injection E as <-. rewrite send_counts. unfold tx_packet, tx_bytes. rewrite I, I. reflexivity. }
  rewrite <- C. apply IH; [intro X; apply N; right; exact X| |exact H].
  apply (f_equal snd) in C. cbn [counts snd] in C. congruence.
Qed.
Lemma after_init : forall thr l p p', m_init (snd p) = true -> (m_txb (snd p) < 2 ^ 64)%N -> (m_txp (snd p) < 2 ^ 64)%N ->
  m_run thr l p = Ok p' ->
  counts (snd p') = ((m_txb (snd p) + size_of (sent (strip l))) mod 2 ^ 64,
                     (m_txp (snd p) + N.of_nat (length (sent (strip l)))) mod 2 ^ 64, true)%N.
Proof.
  intros thr l. induction l as [|e l IH]; intros p p' I B P; cbn [m_run].
  - intro H; injection H as <-. cbn [strip concat map sent size_of fold_right length]. unfold counts.
    rewrite !N.add_0_r, !N.mod_small by assumption. rewrite I. reflexivity.
  - destruct (m_step thr e p) as [p1| |] eqn:E; cbn [bind]; try discriminate. intro H.
    destruct e as [|e].
    { cbn [m_step] in E. injection E as <-. rewrite (IH (fst p, pm_initialize (snd p)) p' eq_refl B P H). reflexivity. }
    change (strip (MEv e :: l)) with (e :: strip l).
    assert (C : (exists k b, e = ESend k b) \/ sent (e :: strip l) = sent (strip l) /\ counts (snd p1) = counts (snd p)).
    { destruct e as [k b| | | | | |]; [left; eauto|..]; right; (split; [reflexivity|]);
        (eapply other_counts; [exact E|intros; discriminate]). }
    destruct C as [(k & b & ->)|[-> C]].
    + cbn [m_step] in E. injection E as E. pose proof (send_counts thr k b p) as C. rewrite E in C.
      unfold tx_packet, tx_bytes in C. rewrite I in C. cbn [m_init m_txb m_txp m_rxb m_rxp m_tq counts] in C.
      unfold counts in C at 1. injection C as C1 C2 C3.
      rewrite (IH p1 p' C3 ltac:(rewrite C1; apply N.mod_lt; discriminate) ltac:(rewrite C2; apply N.mod_lt; discriminate) H).
      rewrite C1, C2. cbn [sent size_of fold_right length snd]. unfold counter_add.
      rewrite !N.add_mod_idemp_l by discriminate. rewrite Nat2N.inj_succ, <- (N.add_1_l (N.of_nat _)), !N.add_assoc.
      reflexivity.
    + unfold counts in C. injection C as C1 C2 C3. rewrite <- C1, <- C2. apply IH; congruence.
Qed.

(** What was sent is on the wire or waiting. *)
Lemma size_filter : forall (f : msg -> bool) l, size_of l = (size_of (filter f l) + size_of (filter (fun m => negb (f m)) l))%N.
Proof.
  intros f l. induction l as [|x l IH]; [reflexivity|]. cbn [size_of fold_right filter].
  fold (size_of l). rewrite IH. destruct (f x); cbn [negb size_of fold_right];
    fold (size_of (filter f l)); fold (size_of (filter (fun m => negb (f m)) l)); lia.
Qed.
Lemma size_bytes : forall l, N.of_nat (length (bytes_of l)) = size_of l.
Proof.
  induction l as [|x l IH]; [reflexivity|]. unfold bytes_of in *. cbn [map concat size_of fold_right].
  rewrite app_length, Nat2N.inj_add, IH. reflexivity.
Qed.
Lemma quiet_size : forall thr l s, quiet l -> tx_run thr l tx_new = Ok s ->
  N.of_nat (length (outgoing s ++ t_agg s)) = size_of (sent l).
Proof.
  intros thr l s Q H. destruct (send_aggregated thr l Q) as (s' & L & A & E & O & G & F1 & F2).
  rewrite H in E. injection E as <-. rewrite O, G, <- bytes_app, size_bytes.
  rewrite (size_filter aggregated (L ++ A)), F1, F2, <- size_filter. reflexivity.
Qed.

(** After a shutdown nothing leaves any more. *)
Lemma internal_down : forall b s, t_down s = true -> send_internal b s = s.
Proof. intros b s H. unfold send_internal. rewrite H. reflexivity. Qed.
Lemma flush_down : forall s, t_down s = true -> outgoing (flush s) = outgoing s /\ t_down (flush s) = true.
Proof. intros s H. unfold flush. rewrite internal_down by exact H. split; [reflexivity|exact H]. Qed.
Lemma aggregate_down : forall thr b s, t_down s = true ->
  outgoing (aggregate thr b s) = outgoing s /\ t_down (aggregate thr b s) = true.
Proof.
  intros thr b s H. unfold aggregate. destruct (t_started s), (thr <? _);
    match goal with |- context [flush ?x] => exact (flush_down x H) | _ => split; [reflexivity|exact H] end.
Qed.
Lemma send_down : forall thr k b s, t_down s = true -> outgoing (send thr k b s) = outgoing s /\ t_down (send thr k b s) = true.
Proof.
  intros thr k b s H. unfold send.
  destruct (t_useagg s); [destruct k|]; rewrite ?internal_down by exact H; auto using aggregate_down.
  destruct (aggregate_down thr b s H) as [A B]. destruct (flush_down _ B) as [C D]. split; congruence.
Qed.

(** The sizes of the queue. *)
Lemma internal_sizes : forall b p, m_init (snd p) = true -> t_down (fst p) = false ->
  m_tq (snd (m_internal b p)) = m_tq (snd p) ++ [S (length (t_queue (fst p)))].
Proof.
  intros b [s m] I D. cbn [fst snd] in *. unfold m_internal, tx_queue_size, send_internal. cbn [fst snd]. rewrite D, I.
  cbn [m_tq t_queue]. rewrite app_length. cbn [length]. rewrite Nat.add_1_r. reflexivity.
Qed.

(** Receiving. *)
Definition total (l : list (list N)) : N := N.of_nat (length (concat l)).
Lemma receive_counts : forall inits out before m, m_init m = true -> (m_rxb m < 2 ^ 64)%N -> (m_rxp m < 2 ^ 64)%N ->
  m_rxb (m_receive inits before out m) = ((m_rxb m + total out) mod 2 ^ 64)%N /\
  m_rxp (m_receive inits before out m) = ((m_rxp m + N.of_nat (length out)) mod 2 ^ 64)%N.
Proof.
  intros inits out. induction out as [|x out IH]; intros before m I B P; cbn [m_receive].
  - unfold total. cbn [concat length N.of_nat]. rewrite !N.add_0_r, !N.mod_small by assumption. auto.
  - set (m1 := if inits before x then _ else _).
    assert (E : m_init m1 = true /\ m_rxb m1 = counter_add (N.of_nat (length x)) (m_rxb m) /\
                m_rxp m1 = counter_add 1 (m_rxp m)).
    { unfold m1, rx_packet, rx_bytes. rewrite I. destruct (inits before x); cbn; auto. }
    destruct E as (E1 & E2 & E3).
    destruct (IH (before ++ [x]) m1 E1) as [-> ->].
    + rewrite E2. apply N.mod_lt. discriminate.
    + rewrite E3. apply N.mod_lt. discriminate.
    + rewrite E2, E3. unfold counter_add, total. rewrite !N.add_mod_idemp_l by discriminate.
      cbn [concat length]. rewrite app_length, Nat2N.inj_add, Nat2N.inj_succ, <- (N.add_1_l (N.of_nat (length out))), !N.add_assoc.
      auto.
Qed.
Lemma receive_before : forall inits out before m, m_init m = false ->
  (forall a x b, out = a ++ x :: b -> inits (before ++ a) x = false) ->
  m_receive inits before out m = m.
Proof.
  intros inits out. induction out as [|x out IH]; intros before m I N; cbn [m_receive]; [reflexivity|].
  assert (E : inits before x = false) by (rewrite <- (app_nil_r before) at 1; apply (N [] x out); reflexivity).
  rewrite E. unfold rx_packet, rx_bytes. rewrite I, I. apply IH; [exact I|].
  intros a y b ->. rewrite <- app_assoc. apply (N (x :: a) y b). reflexivity.
Qed.
Lemma receive_app : forall inits a b before m,
  m_receive inits before (a ++ b) m = m_receive inits (before ++ a) b (m_receive inits before a m).
Proof.
  intros inits a. induction a as [|x a IH]; intros b before m; cbn [m_receive app]; [rewrite app_nil_r; reflexivity|].
  rewrite IH, <- app_assoc. reflexivity.
Qed.
