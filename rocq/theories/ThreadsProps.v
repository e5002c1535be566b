(** C85: the threads that wait for signals and for the next collection of metrics. *)
From Coq Require Import List Arith Bool Lia.
From Verif Require Import ThreadsModel ThreadsProofs.
Import ListNotations.

(** ** Signals
    For every interleaving of the main thread (which registers and removes functions), of the threads of the monitors and of signals. *)

(** A function is called at most once, whatever signals arrive. *)
Theorem C85_handled_once : forall di dt ops i a n b, log (run ops (init di dt)) = a ++ Handled i n :: b -> forall n', ~ In (Handled i n') a /\ ~ In (Handled i n') b.
Proof.
  intros di dt ops i a n b E n'. destruct (Inv_run ops _ (Inv_init di dt)) as (L & _). split.
  - destruct (L _ _ _ E) as (_ & _ & _ & h & _). exact (h n').
  - intro h. apply in_split in h. destruct h as (c & d & ->). assert (log (run ops (init di dt)) = (a ++ Handled i n :: c) ++ Handled i n' :: d) as E2 by (rewrite E, <- app_assoc; reflexivity).
    destruct (L _ _ _ E2) as (_ & _ & _ & h & _). apply (h n). rewrite in_app_iff. right; left; reflexivity.
Qed.
Print Assumptions C85_handled_once.
(** A function is called only after a signal was delivered to it. The number it is given is that of such a signal, unless the destructor has begun to stop the thread. *)
Theorem C85_handled_signalled : forall di dt ops i a n b, log (run ops (init di dt)) = a ++ Handled i n :: b ->
  (exists s, In (Delivered i s) a) /\ (n = None /\ In (Stopped i) a \/ exists s, n = Some s /\ In (Delivered i s) a).
Proof.
  intros di dt ops i a n b E. destruct (Inv_run ops _ (Inv_init di dt)) as (L & _). destruct (L _ _ _ E) as (h1 & h2 & h3 & _).
  split; [exact h1|]. destruct n as [s|]; [right; exists s; split; [reflexivity|exact (h2 s eq_refl)]|left; split; [reflexivity|exact (h3 eq_refl)]].
Qed.
Print Assumptions C85_handled_signalled.
(** When RegisterSignalHandler or ShutdownSignalHandler has returned, the function registered before is not called any more. *)
Theorem C85_not_after_join : forall di dt ops i a b, log (run ops (init di dt)) = a ++ Joined i :: b -> forall n, ~ In (Handled i n) b.
Proof.
  intros di dt ops i a b E n h. destruct (Inv_run ops _ (Inv_init di dt)) as (L & _). apply in_split in h. destruct h as (c & d & ->).
  assert (log (run ops (init di dt)) = (a ++ Joined i :: c) ++ Handled i n :: d) as E2 by (rewrite E, <- app_assoc; reflexivity).
  destruct (L _ _ _ E2) as (_ & _ & _ & _ & h). apply h. rewrite in_app_iff. right; left; reflexivity.
Qed.
Print Assumptions C85_not_after_join.
(** A delivered signal leads to a call as soon as the thread of the monitor took three steps, whatever else happens in between, unless the process ended or the function is removed. *)
Theorem C85_delivered_is_handled : forall di dt ops0 ops k s m,
  let x := run ops0 (init di dt) in let y := run ops x in
  In (Delivered k s) (log x) -> 3 <= length (filter (is_work k) ops) -> dead y = false -> ~ In (Stopped k) (log y) ->
  getm k (mons y) = Some m -> m_has m = true ->
  exists s', In (Handled k (Some s')) (log y) /\ In (Delivered k s') (log y).
Proof.
  intros di dt ops0 ops k s m x y T N D S E H. exact (delivered_handled ops k x s m (Inv_run ops0 _ (Inv_init di dt)) D T N S E H).
Qed.
Print Assumptions C85_delivered_is_handled.
(** When the first function is registered (or the first after a removal), signals that the process did not ignore reach it; ignored ones stay ignored. *)
Theorem C85_first_registered : forall di dt ops0 ops h,
  let x := run ops0 (init di dt) in let y := run ops (step x (Call (Register h))) in
  dead x = false -> prog x = [] -> g x = None -> (forall c, ~ In (Call c) ops) -> prog y = [] -> dead y = false ->
  forall s, (disp_of s x = Ign -> step y (Signal s) = y)
  /\ (disp_of s x <> Ign -> exists m, getm (length (mons x)) (mons y) = Some m /\ m_has m = h /\ log (step y (Signal s)) = log y ++ [Delivered (length (mons x)) s]).
Proof.
  intros di dt ops0 ops h x y D P G N E Dy s. destruct (registered x h ops y D P N eq_refl E) as (gy & hy & dy). specialize (dy s). rewrite G in dy. unfold step. rewrite Dy. unfold signal. rewrite dy. split.
  - intros ->. reflexivity.
  - intro d. unfold hasm in hy. rewrite gy. destruct (getm (length (mons x)) (mons y)) as [m|]; [|discriminate]. exists m. split; [reflexivity|]. split; [cbn in hy; congruence|].
    unfold up, set_disp. destruct (disp_of s x); [destruct (d eq_refl)|reflexivity|reflexivity].
Qed.
Print Assumptions C85_first_registered.
(** If there is already one, the new one never receives a signal: the old monitor's destructor runs after the new one's constructor and restores the default actions, so that the next signal ends the process. *)
Theorem C85_second_registered : forall di dt ops0 ops h i,
  let x := run ops0 (init di dt) in let y := run ops (step x (Call (Register h))) in
  dead x = false -> prog x = [] -> g x = Some i -> (forall c, ~ In (Call c) ops) -> prog y = [] -> dead y = false ->
  g y = Some (length (mons x)) /\ forall s, disp_of s x <> Ign -> dead (step y (Signal s)) = true /\ log (step y (Signal s)) = log y ++ [Killed].
Proof.
  intros di dt ops0 ops h i x y D P G N E Dy. destruct (registered x h ops y D P N eq_refl E) as (gy & hy & dy). split; [exact gy|]. intros s d. specialize (dy s). rewrite G in dy.
  unfold step. rewrite Dy. unfold signal. rewrite dy. unfold down, set_disp. destruct (disp_of s x); [destruct (d eq_refl)|split; reflexivity|split; reflexivity].
Qed.
Print Assumptions C85_second_registered.
Definition register : list op := Call (Register true) :: repeat Main 5.
Example C85_registered_example : let x := run register (init Dfl Ign) in
  prog x = [] /\ g x = Some 0 /\ log (run [Signal Term; Signal Int; Work 0; Signal Int; Work 0; Work 0; Work 0] x) = [Delivered 0 Int; Delivered 0 Int; Handled 0 (Some Int)].
Proof. vm_compute. repeat split. Qed.
Example C85_shutdown_example : log (run (register ++ [Call Shutdown; Main; Main; Main; Main; Main; Work 0; Work 0; Main; Signal Int]) (init Dfl Dfl)) = [Stopped 0; Joined 0; Killed].
Proof. vm_compute. reflexivity. Qed.
(** "A function that is registered is called on a signal": refuted by a second registration. *)
Theorem C85_registered_is_called_refuted : exists ops, log (run ops (init Dfl Dfl)) = [Stopped 0; Joined 0; Killed]
  /\ ops = register ++ register ++ [Main; Main; Main; Work 0; Work 0; Main; Signal Int].
Proof. eexists. split; [|reflexivity]. vm_compute. reflexivity. Qed.
Print Assumptions C85_registered_is_called_refuted.
(** "A delivered signal is handled before the function is removed": refuted; Notify(-1) of the destructor overwrites the number. *)
Theorem C85_delivered_lost_refuted : exists ops, log (run ops (init Dfl Dfl)) = [Delivered 0 Int; Stopped 0; Joined 0]
  /\ ops = register ++ [Signal Int; Call Shutdown; Main; Main; Main; Main; Work 0; Work 0; Main].
Proof. eexists. split; [|reflexivity]. vm_compute. reflexivity. Qed.
Print Assumptions C85_delivered_lost_refuted.
(** "A function is called with the number of a signal": refuted; the number is read twice. *)
Theorem C85_handled_number_refuted : exists ops, log (run ops (init Dfl Dfl)) = [Delivered 0 Int; Stopped 0; Handled 0 None; Joined 0]
  /\ ops = register ++ [Signal Int; Call Shutdown; Main; Main; Main; Work 0; Work 0; Main; Work 0; Main].
Proof. eexists. split; [|reflexivity]. vm_compute. reflexivity. Qed.
Print Assumptions C85_handled_number_refuted.
(** "A function is called for the first signal": refuted; a later one overwrites its number. *)
Theorem C85_first_signal_refuted : exists ops, log (run ops (init Dfl Dfl)) = [Delivered 0 Int; Delivered 0 Term; Handled 0 (Some Term)]
  /\ ops = register ++ [Signal Int; Work 0; Signal Term; Work 0; Work 0].
Proof. eexists. split; [|reflexivity]. vm_compute. reflexivity. Qed.
Print Assumptions C85_first_signal_refuted.
(** "Once the action for a signal is set, a signal reaches a function or ends the process": refuted; it is dropped while the pointer is not yet set. *)
Theorem C85_early_signal_refuted : exists ops, log (run ops (init Dfl Dfl)) = [Dropped Int] /\ ops = Call (Register true) :: [Main; Main; Main; Signal Int; Main; Main; Work 0; Work 0; Work 0].
Proof. eexists. split; [|reflexivity]. vm_compute. reflexivity. Qed.
Print Assumptions C85_early_signal_refuted.

(** ** The timer of metrics *)
(** Once the destructor has set done, no callback begins. *)
Theorem C85_no_callback_after_done : forall ops a b, snd (trun ops timer0) = a ++ TDoneD :: b -> ~ In TTimeout b.
Proof.
  intros ops a b E. apply trun_split in E. destruct E as (o1 & o2 & y & _ & T & <-). apply done_quiet. cbn in T. destruct (t_main _); try discriminate. injection T as <-. reflexivity.
Qed.
Print Assumptions C85_no_callback_after_done.
(** The thread of the timer goes on until the destructor has set done. *)
Theorem C85_timer_ends_only_after_done : forall ops a b, snd (trun ops timer0) = a ++ TReady :: b -> In TDoneD a.
Proof.
  intros ops a b E. apply trun_split in E. destruct E as (o1 & o2 & y & Ea & T & _).
  pose proof (TB_run o1 timer0 [] TB0) as I. cbn [app] in I. rewrite Ea in I. apply I.
  cbn in T. destruct (t_worker _); try discriminate. destruct (t_done _); [reflexivity|discriminate].
Qed.
Print Assumptions C85_timer_ends_only_after_done.
Example C85_timer_ends_example : snd (trun [TStart; TGot; TReady; TTimeout; TReady; TBack; TGoD; TReady; TDoneD; TReady] timer0)
  = [TStart; TGot; TTimeout; TBack; TGoD; TDoneD; TReady].
Proof. reflexivity. Qed.
(** The destructor returns only when the callback does not run, and none begins later. *)
Theorem C85_no_callback_after_destruction : forall ops a b, snd (trun ops timer0) = a ++ TJoin :: b ->
  ~ In TTimeout b /\ ~ In TBack b /\ (forall c d, a = c ++ TTimeout :: d -> In TBack d) /\ In TDoneD a.
Proof.
  intros ops a b E. apply trun_split in E. destruct E as (o1 & o2 & y & Ea & T & <-). pose proof (TI_run o1 timer0 [] TI0) as I. cbn [app] in I. rewrite Ea in I.
  assert (t_main (fst (trun o1 timer0)) = Finishing /\ t_worker (fst (trun o1 timer0)) = TEnd /\ y = mkTimer (t_started (fst (trun o1 timer0))) (t_go (fst (trun o1 timer0))) (t_done (fst (trun o1 timer0))) TEnd Gone) as (M & W & ->).
  { cbn in T. destruct (t_main _); try discriminate. destruct (t_worker _); try discriminate. injection T as <-. repeat split. }
  destruct I as (_ & _ & I3 & _). assert (t_done (fst (trun o1 timer0)) = true) as D by (apply I3; left; exact M).
  split; [|split; [|split]].
  - apply done_quiet. exact D.
  - generalize (t_started (fst (trun o1 timer0))) (t_go (fst (trun o1 timer0))). rewrite D. intros s g. clear. induction o2 as [|o o2 IH]; [intros []|]. destruct o; cbn; exact IH.
  - pose proof (TB_run o1 timer0 [] TB0) as (_ & B). cbn [app] in B. rewrite Ea in B. apply B. congruence.
  - pose proof (TB_run o1 timer0 [] TB0) as (B & _). cbn [app] in B. rewrite Ea in B. exact (B D).
Qed.
Print Assumptions C85_no_callback_after_destruction.
(** The callback begins only after Start was called or the destructor has begun; calls do not overlap. *)
Theorem C85_callback_started : forall ops a b, snd (trun ops timer0) = a ++ TTimeout :: b -> In TStart a \/ In TGoD a.
Proof.
  intros ops a b E. apply trun_split in E. destruct E as (o1 & o2 & y & Ea & T & _). pose proof (TI_run o1 timer0 [] TI0) as (H1 & H2 & _). cbn [app] in H1. rewrite Ea in H1.
  apply H1, H2. cbn in T. destruct (t_worker _); discriminate.
Qed.
Print Assumptions C85_callback_started.
Theorem C85_callbacks_in_turn : forall ops a b c, snd (trun ops timer0) = a ++ TTimeout :: b ++ TTimeout :: c -> In TBack b.
Proof.
  intros ops a b c E. apply trun_split in E. destruct E as (o1 & o2 & y & _ & T & Eb). apply (overlap o2 y) with (c := c); [|exact Eb].
  cbn in T. destruct (t_worker _); try discriminate. destruct (t_done _); try discriminate. injection T as <-. reflexivity.
Qed.
Print Assumptions C85_callbacks_in_turn.
(** Whatever was done before, the destructor can return: its steps and at most three steps of the thread are always possible, in this order. *)
Theorem C85_destructor_returns : forall ops, let x := fst (trun ops timer0) in t_main x <> Gone -> t_main (fst (trun [TGoD; TDoneD; TGot; TBack; TReady; TJoin] x)) = Gone.
Proof.
  intros ops x. pose proof (TI_run ops timer0 [] TI0) as (_ & H2 & H3 & _ & H5). fold x in H2, H3, H5. destruct x as [a b c w m]. cbn in *. intro N.
  destruct m; try congruence.
  - destruct c; [destruct (proj2 H3 eq_refl); discriminate|]. destruct w; reflexivity.
  - destruct c; [destruct (proj2 H3 eq_refl); discriminate|]. rewrite (H5 ltac:(discriminate)). destruct w; reflexivity.
  - rewrite (proj1 H3 (or_introl eq_refl)), (H5 ltac:(discriminate)). destruct w; reflexivity.
Qed.
Print Assumptions C85_destructor_returns.
Example C85_timer_example : snd (trun [TTimeout; TGot; TStart; TGot; TTimeout; TStart; TTimeout; TBack; TTimeout; TGoD; TDoneD; TJoin; TReady; TBack; TTimeout; TReady; TJoin; TStart] timer0)
  = [TStart; TGot; TTimeout; TStart; TBack; TTimeout; TGoD; TDoneD; TBack; TReady; TJoin].
Proof. reflexivity. Qed.
(** "The callback is called only if Start was called": refuted; the destructor lets the thread go before it sets done. *)
Theorem C85_callback_only_if_started_refuted : exists ops, In TTimeout (snd (trun ops timer0)) /\ ~ In TStart (snd (trun ops timer0)).
Proof. exists [TGoD; TGot; TTimeout; TDoneD; TBack; TReady; TJoin]. cbn. intuition discriminate. Qed.
Print Assumptions C85_callback_only_if_started_refuted.
