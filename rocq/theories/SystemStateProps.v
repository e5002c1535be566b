(** C16: the system state; C17: Shutdown is final in the system monitor. *)
From Coq Require Import List NArith Arith Bool.
From Verif Require Import Base SystemStateModel SystemStateSpec SystemStateProofs.
Import ListNotations.
Local Open Scope N_scope.

(** Participants 1 and 2 are required, 3 is not; with a system state handler and a status handler. *)
Definition hist : list mev :=
  [MAddSys 7; MConnected 1; MConnected 2; MRequired [1; 2] 0; MMsg 1 (Some ServicesCreated) 1; MMsg 3 (Some Running) 1;
   MMsg 2 (Some ServicesCreated) 2; MAddStatus 8; MMsg 1 (Some ReadyToRun) 3; MMsg 2 (Some ReadyToRun) 4; MMsg 1 (Some ReadyToRun) 5;
   MMsg 1 (Some Running) 6; MMsg 2 (Some Running) 7].

(** If all required participants report the same state, that is the system state - at any time, whatever came before,
    including disconnects and changes of the required set. *)
Theorem C16_unanimous : forall l s, required l <> [] -> s <> Invalid ->
  (forall p, In p (required l) -> reported p s l) -> system_state l = s.
Proof. exact unanimous_state. Qed.
Print Assumptions C16_unanimous.
Example unanimous_ex : required hist <> [] /\ (forall p, In p (required hist) -> reported p Running hist) /\ system_state hist = Running.
Proof.
  split; [vm_compute; discriminate|]. split; [|(vm_compute; reflexivity)].
  intros p I; vm_compute in I; destruct I as [<-|[<-|[]]]; [exists 6|exists 7]; (vm_compute; reflexivity).
Qed.

(** A required participant that enters Error or Aborting takes the system state with it at once. *)
Theorem C16_error_entered : forall l p s stamp, s = Error \/ s = Aborting -> In p (required l) ->
  ~ reported p Shutdown l -> ~ reported p s l ->
  system_state (l ++ [MMsg p (Some s) stamp]) = s.
Proof. exact dominant_entered. Qed.
Print Assumptions C16_error_entered.
Example error_entered_ex : In 1 (required hist) /\ ~ reported 1 Shutdown hist /\ ~ reported 1 Error hist /\
  system_state (hist ++ [MMsg 1 (Some Error) 9]) = Error.
Proof.
  split; [vm_compute; auto|]. split; [intros [x X]; vm_compute in X; congruence|].
  split; [intros [x X]; vm_compute in X; congruence|(vm_compute; reflexivity)].
Qed.

(** And it stays Error as long as that participant is in Error, the required set is not replaced, and no required
    participant aborts or shuts down. Missing: that ShuttingDown does not hide the error (false, see below). *)
Theorem C16_error_stays_partial : forall l2 l1 p, In p (required l1) -> reported p Error l1 -> system_state l1 = Error -> calm_hist l1 ->
  (forall a b, l2 = a ++ b -> reported p Error (l1 ++ a) /\ calm_hist (l1 ++ a)) ->
  (forall e, In e l2 -> not_required_msg e) ->
  system_state (l1 ++ l2) = Error.
Proof.
  intros l2. induction l2 as [|e l IH] using rev_ind; intros l1 p R X S C W NR; [rewrite app_nil_r; exact S|].
  rewrite app_assoc.
  assert (W1 : forall a b, l = a ++ b -> reported p Error (l1 ++ a) /\ calm_hist (l1 ++ a)).
  { intros a b ->. apply (W a (b ++ [e])). rewrite app_assoc. reflexivity. }
  assert (N1 : forall x, In x l -> not_required_msg x) by (intros; apply NR, in_or_app; auto).
  destruct (W l [e] eq_refl) as [X1 C1]. destruct (W (l ++ [e]) [] (eq_sym (app_nil_r _))) as [X2 C2].
  apply error_stays_step with (p := p).
  - clear - R N1. revert l1 R. induction l as [|x l IH]; intros l1 R; [rewrite app_nil_r; exact R|].
    change (x :: l) with ([x] ++ l). rewrite app_assoc. apply IH; [intros; apply N1; right; assumption|].
    rewrite required_snoc. specialize (N1 x (or_introl eq_refl)). destruct x; try exact R. contradiction.
  - exact X1.
  - rewrite <- app_assoc. exact X2.
  - apply NR, in_or_app. right; left; reflexivity.
  - exact C1.
  - rewrite <- app_assoc. exact C2.
  - apply IH with (p := p); assumption.
Qed.
Print Assumptions C16_error_stays_partial.
Definition err_tail : list mev := [MMsg 2 (Some Stopping) 10; MMsg 2 (Some Stopped) 11; MDisconnected 2 12 0; MMsg 2 (Some ServicesCreated) 13].
Example error_stays_ex :
  let l1 := hist ++ [MMsg 1 (Some Error) 9] in
  reported 1 Error l1 /\ system_state l1 = Error /\ reported 1 Error (l1 ++ err_tail) /\ system_state (l1 ++ err_tail) = Error.
Proof. cbn zeta. split; [exists 9; (vm_compute; reflexivity)|]. split; [(vm_compute; reflexivity)|]. split; [exists 9; (vm_compute; reflexivity)|(vm_compute; reflexivity)]. Qed.

(** An error of one required participant is hidden when another one shuts down. *)
Theorem C16_error_masked_refuted : exists l p, In p (required l) /\ reported p Error l /\ system_state l = ShuttingDown.
Proof.
  exists [MRequired [1; 2] 0; MMsg 1 (Some ReadyToRun) 1; MMsg 2 (Some ReadyToRun) 2; MMsg 1 (Some Error) 3; MMsg 2 (Some ShuttingDown) 4], 1.
  split; [vm_compute; auto|]. split; [exists 3; (vm_compute; reflexivity)|(vm_compute; reflexivity)].
Qed.
Print Assumptions C16_error_masked_refuted.

(** Until every required participant has reported, the system state is Invalid, Error or Aborting (required set given
    first, nobody disconnects). *)
Theorem C16_missing_partial : forall l ns c p,
  (forall e, In e l -> match e with MDisconnected _ _ _ => False | MRequired _ _ => False | _ => True end) ->
  In p ns -> view p (MRequired ns c :: l) = None ->
  In (system_state (MRequired ns c :: l)) [Invalid; Error; Aborting].
Proof. exact (fun l ns c p W => early_state l W ns c p). Qed.
Print Assumptions C16_missing_partial.
Example missing_ex : view 2 (MRequired [1; 2] 0 :: [MMsg 1 (Some ServicesCreated) 1; MMsg 1 (Some Running) 1]) = None /\
  system_state (MRequired [1; 2] 0 :: [MMsg 1 (Some ServicesCreated) 1; MMsg 1 (Some Running) 1]) = Invalid.
Proof. split; (vm_compute; reflexivity). Qed.
(** Not always Invalid: with one participant Running and the other one gone the system state stays at what it was, here
    Stopping, although nobody is stopping. *)
Theorem C16_missing_refuted : exists l p q, In p (required l) /\ In q (required l) /\ view q l = None /\ reported p Running l /\
  system_state l = Stopping.
Proof.
  exists (hist ++ [MMsg 2 (Some Stopping) 8; MMsg 2 (Some Stopped) 9; MMsg 2 (Some ShuttingDown) 10; MMsg 2 (Some Shutdown) 11; MDisconnected 2 12 0]), 1, 2.
  split; [vm_compute; auto|]. split; [vm_compute; auto|]. split; [(vm_compute; reflexivity)|]. split; [exists 6; (vm_compute; reflexivity)|(vm_compute; reflexivity)].
Qed.
Print Assumptions C16_missing_refuted.
(** A newly required participant that is in Error need not change the system state: the recomputation looks at whichever
    required participant the unordered set yields first. *)
Theorem C16_required_refuted : exists l p, In p (required l) /\ reported p Error l /\ system_state l = Running /\
  exists l', required l' = required l /\ (forall q, view q l' = view q l) /\ system_state l' = Error.
Proof.
  exists (hist ++ [MMsg 3 (Some Error) 8; MRequired [1; 2; 3] 0]), 3.
  split; [vm_compute; auto|]. split; [exists 8; (vm_compute; reflexivity)|]. split; [(vm_compute; reflexivity)|].
  exists (hist ++ [MMsg 3 (Some Error) 8; MRequired [1; 2; 3] 2]). split; [(vm_compute; reflexivity)|]. split; [|(vm_compute; reflexivity)].
  intros q. unfold view. rewrite !fold_left_app. reflexivity.
Qed.
Print Assumptions C16_required_refuted.

(** A system state handler is told the state at its registration and from then on each change exactly once: no state is
    announced twice in a row, and the last announcement is the current state. *)
Theorem C16_announced_on_change : forall h l1 l2, sys_registrations h l1 = 0%nat -> sys_registrations h l2 = 0%nat ->
  let log := sys_seen h (outputs (l1 ++ MAddSys h :: l2)) in
  no_repeat log /\ hd_error log = Some (system_state l1) /\ last log Invalid = system_state (l1 ++ MAddSys h :: l2).
Proof. exact sys_handler. Qed.
Print Assumptions C16_announced_on_change.
Example announced_ex : sys_registrations 7 (tl hist) = 0%nat /\
  sys_seen 7 (outputs hist) = [Invalid; ServicesCreated; ReadyToRun; Running].
Proof. split; (vm_compute; reflexivity). Qed.

(** After a participant reported Shutdown its status, and with it the system state and all handlers, are immune to
    further messages from it. *)
Theorem C17_shutdown_final : forall l p x st stamp, view p l = Some (Shutdown, x) ->
  final (l ++ [MMsg p st stamp]) = final l /\
  (forall o, In o (outputs (l ++ [MMsg p st stamp])) -> In o (outputs l) \/ o = MThrow).
Proof.
  intros l p x st stamp V. rewrite <- final_get in V.
  destruct (shutdown_final_step p st stamp (final l) x V) as [A B]. rewrite final_snoc. split; [exact A|].
  intros o. unfold outputs. rewrite mrun_app. cbn [fst mrun mstep]. fold (final l).
  destruct (mon_msg p st stamp (final l)) as [o1 m1]. cbn [fst]. rewrite app_nil_r. intros I.
  apply in_app_or in I. destruct I as [I|I]; [left; exact I|right; apply B, I].
Qed.
Print Assumptions C17_shutdown_final.
(** Only its disconnect makes it leave Shutdown; no other participant's messages do. *)
Theorem C17_until_disconnect : forall p l2 l1 x, view p l1 = Some (Shutdown, x) ->
  (forall e, In e l2 -> match e with MDisconnected q _ _ => q <> p | _ => True end) ->
  tr_get p (m_tr (final (l1 ++ l2))) = Some (Shutdown, x).
Proof. intros p l2 l1 x V W. rewrite final_get. apply shutdown_view; assumption. Qed.
Print Assumptions C17_until_disconnect.
Definition down : list mev :=
  [MAddStatus 8; MConnected 1; MRequired [1] 0; MMsg 1 (Some Running) 1; MMsg 1 (Some Running) 2; MMsg 1 (Some ShuttingDown) 3;
   MMsg 1 (Some Shutdown) 4; MMsg 1 (Some Running) 5; MMsg 1 (Some Error) 6].
Example shutdown_final_ex : view 1 (firstn 7 down) = Some (Shutdown, 4) /\ system_state down = Shutdown /\
  status_seen 8 1 (outputs down) = [(Running, 1); (ShuttingDown, 3); (Shutdown, 4)].
Proof. repeat split; vm_compute; reflexivity. Qed.
(** A status handler sees, per participant, the current status on registration if it is connected and then every
    reported change in order: repeats and anything after Shutdown are not passed on, and a connection lost before
    Shutdown is seen as Error. *)
Theorem C17_status_handler : forall h p l, (status_registrations h l <= 1)%nat ->
  status_seen h p (outputs l) = status_expected h p false false None l.
Proof.
  intros h p l R. unfold outputs. rewrite (mrun_status h p l mon_init); [reflexivity|unfold atmost1; cbn; apply Nat.le_0_l|constructor|].
  cbn. rewrite Nat.add_0_r. exact R.
Qed.
Print Assumptions C17_status_handler.
Example status_handler_ex : (status_registrations 8 (hist ++ [MDisconnected 2 20 0]) <= 1)%nat /\
  status_seen 8 2 (outputs (hist ++ [MDisconnected 2 20 0])) = [(ServicesCreated, 2); (ReadyToRun, 4); (Running, 7); (Error, 20)] /\
  status_seen 8 1 (outputs hist) = [(ServicesCreated, 1); (ReadyToRun, 3); (Running, 6)].
Proof. split; [vm_compute; apply le_n|]. split; (vm_compute; reflexivity). Qed.
(** A status message with state Invalid raises an exception out of the message handler instead of being ignored. *)
Theorem C17_invalid_state_refuted : exists l, In MThrow (outputs l) /\ l = [MMsg 1 (Some Invalid) 0].
Proof. exists [MMsg 1 (Some Invalid) 0]. split; [left; reflexivity|(vm_compute; reflexivity)]. Qed.
Print Assumptions C17_invalid_state_refuted.
