(** Proofs about the initialisation and the sleep mode of LIN controllers. *)
From Coq Require Import NArith List Arith Bool Lia.
From Verif Require Import Base LinModel LinSpec LinProofs.
Import ListNotations.
Open Scope N_scope.

(** ** Which calls change the status and the response mode *)
Definition unk (c : ctrl) : bool := cstatus_eqb (c_status c) StUnknown.
Definition keepp (a : act) (c : ctrl) : Prop :=
  match a c with (c', _, _) => c_dynamic c' = c_dynamic c /\ unk c' = unk c /\ (c_status c = StSleep -> c_status c' = StSleep) end.
Lemma k_seq a b c : keepp a c -> (forall c1 o1 r1, a c = (c1, o1, r1) -> keepp b c1) -> keepp (a ;; b) c.
Proof.
  unfold keepp, seq. destruct (a c) as [[c1 o1] r] eqn:E. intros (A & B & S) H. destruct r; auto. specialize (H c1 o1 LOk eq_refl).
  destruct (b c1) as [[c2 o2] r2]. destruct H as (C & D & T). split; [congruence|]. split; [congruence|auto].
Qed.
Lemma k_same a c : (match a c with (c', _, _) => c_dynamic c' = c_dynamic c /\ c_status c' = c_status c end) -> keepp a c.
Proof. unfold keepp, unk. destruct (a c) as [[c1 o] r]. intros (-> & ->). auto. Qed.
Lemma k_skip c : keepp skip c. Proof. apply k_same. split; reflexivity. Qed.
Lemma k_throw c : keepp throw c. Proof. apply k_same. split; reflexivity. Qed.
Lemma k_ub c : keepp ub c. Proof. apply k_same. split; reflexivity. Qed.
Lemma k_emit o c : keepp (emit o) c. Proof. apply k_same. split; reflexivity. Qed.
Lemma k_get f c : keepp (f c) c -> keepp (get f) c. Proof. exact (fun H => H). Qed.
Lemma k_modify f c : c_dynamic (f c) = c_dynamic c -> c_status (f c) = c_status c -> keepp (modify f) c.
Proof. intros A B. apply k_same. split; assumption. Qed.
Lemma k_catch a c : keepp a c -> keepp (catch a) c.
Proof. unfold keepp, catch. destruct (a c) as [[c1 o] r]. destruct r; auto. Qed.
Ltac k1 := lazymatch goal with
  | |- keepp skip _ => apply k_skip | |- keepp throw _ => apply k_throw | |- keepp ub _ => apply k_ub | |- keepp (emit _) _ => apply k_emit
  | |- keepp (seq _ _) _ => apply k_seq; [|intros ? ? ? _] | |- keepp (get _) _ => apply k_get; cbv beta | |- keepp (catch _) _ => apply k_catch
  | |- keepp (modify _) _ => apply k_modify; reflexivity
  | |- keepp (if ?b then _ else _) _ => destruct b
  | |- keepp (match ?b with _ => _ end) _ => destruct b
  end.
Lemma k_header id c : keepp (send_frame_header id) c.
Proof. unfold send_frame_header, send_header, send_error_transmission, receive_header, process_header. cbv zeta. repeat k1. Qed.
Lemma k_request f t c : keepp (send_request f t) c.
Proof. unfold send_request. repeat k1; apply k_header. Qed.
Lemma k_update r c : keepp (update_frame_response r) c.
Proof. unfold update_frame_response, send_if_slave. repeat k1. Qed.
Lemma add_slave_ids_state rs : forall c, c_dynamic (add_slave_ids rs c) = c_dynamic c /\ c_status (add_slave_ids rs c) = c_status c.
Proof. unfold add_slave_ids. induction rs as [|r rs IH]; intros c; [split; reflexivity|]. cbn [fold_left]. destruct (_ && _); [exact (IH (mkC _ _ _ _ _ _ _))|apply IH]. Qed.
Lemma k_handle from rs c : keepp (handle_responses from rs) c.
Proof.
  unfold handle_responses. k1. cbv zeta. k1; [k1|]. k1; [|k1]. destruct (cmode_eqb _ _); [|k1]. apply k_modify; apply add_slave_ids_state.
Qed.
Lemma k_pending c : keepp (get (fun c => if cstatus_eqb (c_status c) StSleepPending then modify (set_status StSleep) else skip)) c.
Proof. unfold keepp, modify, get, unk. destruct (c_status c) eqn:E; cbn; rewrite ?E; auto. Qed.
Lemma k_receive from sim m c : keepp (receive from sim m) c.
Proof.
  unfold receive. k1. cbv zeta. destruct m; cbn [cexec].
  - k1; [k1|]. k1; [k1|apply k_handle].
  - k1; [k1|apply k_handle].
  - k1.
  - unfold receive_header, process_header. repeat k1.
  - unfold receive_transmission. k1. k1; [k1|]. k1; [k1|]. destruct (c_status c) eqn:S; try solve [k1].
    all: cbv zeta; k1; [k1|]; k1; [k1|]; k1; [|k1]; k1; [repeat k1|]; k1; [|k1]; k1; [k1|apply k_pending|k1].
  - k1.
  - repeat k1.
Qed.

(** ** Initialisation *)
(** the first valid initialisation of a history; [true]: InitDynamic *)
Fixpoint first_init (l : list lop) : option bool :=
  match l with
  | [] => None
  | LInit m _ :: l => if cmode_eqb m Inactive then first_init l else Some false
  | LInitDynamic m :: l => if cmode_eqb m Inactive then first_init l else Some true
  | _ :: l => first_init l
  end.
(** the initialisation recorded in the state *)
Definition init_of (c : ctrl) : option bool := if unk c then None else Some (c_dynamic c).
Lemma exec_init o c : (unk c = true -> c_dynamic c = false) ->
  match cexec o c with (c', _, _) =>
    (unk c' = true -> c_dynamic c' = false) /\
    init_of c' = match init_of c with Some d => Some d | None => first_init [o] end end.
Proof.
  intros U.
  assert (K : forall a : act, keepp a c -> first_init [o] = None -> match a c with (c', _, _) => (unk c' = true -> c_dynamic c' = false) /\
    init_of c' = match init_of c with Some d => Some d | None => first_init [o] end end).
  { intros a H F. rewrite F. unfold keepp in H. destruct (a c) as [[c' o'] r]. destruct H as (A & B & _). unfold init_of. rewrite A, B.
    split; [exact U|]. destruct (unk c); reflexivity. }
  destruct o as [m rs|m|f t|id|f|f|r| | | | |from sim m|on]; cbn [cexec].
  - unfold init_ctrl, get. cbn [first_init]. destruct (cmode_eqb m Inactive).
    + unfold throw. split; [exact U|]. destruct (init_of c); reflexivity.
    + unfold unk in U. unfold init_of, unk. destruct (cstatus_eqb (c_status c) StUnknown) eqn:S; cbn [negb].
      * unfold seq, modify, send_if_slave, get. set (c1 := mkC _ _ _ _ _ _ _).
        assert (X : forall (o1 : list lout), (cstatus_eqb (c_status c1) StUnknown = true -> c_dynamic c1 = false) /\ (if cstatus_eqb (c_status c1) StUnknown then None else Some (c_dynamic c1)) = Some false).
        { intros _. cbn. split; [discriminate|]. rewrite U; reflexivity. }
        destruct (c_detailed c1); [exact (X [])|]. destruct (cmode_eqb _ _); exact (X []).
      * unfold throw. rewrite S. split; [discriminate|reflexivity].
  - unfold init_dynamic, get. cbn [first_init]. destruct (cmode_eqb m Inactive).
    + unfold throw. split; [exact U|]. destruct (init_of c); reflexivity.
    + unfold unk in U. unfold init_of, unk. destruct (cstatus_eqb (c_status c) StUnknown) eqn:S; cbn [negb].
      * unfold seq, modify, send_if_slave, get. set (c1 := mkC _ _ _ _ _ _ _).
        assert (X : forall (o1 : list lout), (cstatus_eqb (c_status c1) StUnknown = true -> c_dynamic c1 = false) /\ (if cstatus_eqb (c_status c1) StUnknown then None else Some (c_dynamic c1)) = Some true).
        { intros _. cbn. split; [discriminate|reflexivity]. }
        destruct (c_detailed c1); [exact (X [])|]. destruct (cmode_eqb _ _); exact (X []).
      * unfold throw. rewrite S. split; [discriminate|reflexivity].
  - apply K; [|reflexivity]. unfold send_frame, if_uninit, if_master, if_not_dynamic, send_frame_internal. repeat k1; first [apply k_update|apply k_request].
  - apply K; [|reflexivity]. apply k_header.
  - apply K; [|reflexivity]. unfold send_dynamic_response. k1. k1; [repeat k1|]. k1; [apply k_update|]. unfold process_header. repeat k1.
  - apply K; [|reflexivity]. unfold update_tx_buffer, if_uninit, if_not_dynamic. repeat k1.
  - apply K; [|reflexivity]. unfold set_frame_response, if_uninit, if_not_dynamic. repeat k1. apply k_update.
  - unfold go_to_sleep, go_to_sleep_internal, if_uninit, if_master, get. unfold init_of, unk in *. destruct (cstatus_eqb (c_status c) StUnknown) eqn:S.
    + cbn. rewrite S. auto.
    + destruct (cmode_eqb (c_mode c) Master); [|cbn; rewrite S; split; [discriminate|reflexivity]].
      destruct (c_detailed c); unfold seq, emit, set_controller_status, modify; cbn; rewrite ?S; cbn; split; try discriminate; reflexivity.
  - unfold go_to_sleep_internal, if_uninit, get. unfold init_of, unk in *. destruct (cstatus_eqb (c_status c) StUnknown) eqn:S; cbn; rewrite ?S; (split; [try discriminate; auto|reflexivity]).
  - unfold wakeup, wakeup_internal, if_uninit, get. unfold init_of, unk in *. destruct (cstatus_eqb (c_status c) StUnknown) eqn:S.
    + cbn. rewrite S. auto.
    + destruct (c_detailed c); unfold seq, emit, set_controller_status, modify; cbn; rewrite ?S; cbn; split; try discriminate; reflexivity.
  - unfold wakeup_internal, if_uninit, get. unfold init_of, unk in *. destruct (cstatus_eqb (c_status c) StUnknown) eqn:S; cbn; rewrite ?S; (split; [try discriminate; auto|reflexivity]).
  - apply K; [|reflexivity]. k1. apply k_receive.
  - apply K; [|reflexivity]. k1.
Qed.
Lemma first_init_cons o l : first_init (o :: l) = match first_init [o] with Some d => Some d | None => first_init l end.
Proof. destruct o; cbn; try reflexivity; destruct (cmode_eqb _ _); reflexivity. Qed.
Lemma run_init l : forall c c' os, crun l c = Some (c', os) -> (unk c = true -> c_dynamic c = false) ->
  (unk c' = true -> c_dynamic c' = false) /\ init_of c' = match init_of c with Some d => Some d | None => first_init l end.
Proof.
  induction l as [|o l IH]; intros c c' os; cbn [crun].
  - injection 1 as <- <-. intros U. split; [exact U|]. destruct (init_of c); reflexivity.
  - intros H U. pose proof (exec_init o c U) as E. destruct (cexec o c) as [[c1 o1] r].
    assert (R : exists os', crun l c1 = Some (c', os')) by (destruct r; [destruct (crun l c1) as [[? ?]|]; [|discriminate]; injection H as <- <-; eauto..|discriminate]).
    destruct R as (os' & R). destruct E as (U1 & E1). destruct (IH _ _ _ R U1) as (A & B). split; [exact A|]. rewrite B, E1, (first_init_cons o l).
    destruct (init_of c); [reflexivity|]. destruct (first_init [o]); reflexivity.
Qed.

(** ** Asleep *)
Definition wakes (o : lop) : bool := match o with LWakeup | LWakeupInternal => true | LGoToSleep => true | _ => false end.
Lemma exec_sleep o c : wakes o = false -> c_status c = StSleep -> c_status (fst (fst (cexec o c))) = StSleep.
Proof.
  intros W S. assert (K : forall a : act, keepp a c -> c_status (fst (fst (a c))) = StSleep).
  { intros a H. unfold keepp in H. destruct (a c) as [[c' o'] r]. apply H, S. }
  destruct o as [m rs|m|f t|id|f|f|r| | | | |from sim m|on]; try discriminate; cbn [cexec].
  - unfold init_ctrl, get. rewrite S. cbn. destruct (cmode_eqb m Inactive); exact S.
  - unfold init_dynamic, get. rewrite S. cbn. destruct (cmode_eqb m Inactive); exact S.
  - apply K. unfold send_frame, if_uninit, if_master, if_not_dynamic, send_frame_internal. repeat k1; first [apply k_update|apply k_request].
  - apply K, k_header.
  - apply K. unfold send_dynamic_response. k1. k1; [repeat k1|]. k1; [apply k_update|]. unfold process_header. repeat k1.
  - apply K. unfold update_tx_buffer, if_uninit, if_not_dynamic. repeat k1.
  - apply K. unfold set_frame_response, if_uninit, if_not_dynamic. repeat k1. apply k_update.
  - unfold go_to_sleep_internal, if_uninit, get. rewrite S. reflexivity.
  - apply K. k1. apply k_receive.
  - exact S.
Qed.
Lemma run_sleep l : forall c c' os, crun l c = Some (c', os) -> forallb (fun o => negb (wakes o)) l = true -> c_status c = StSleep -> c_status c' = StSleep.
Proof.
  induction l as [|o l IH]; intros c c' os; cbn [crun forallb].
  - injection 1 as <- <-. auto.
  - intros H W S. apply andb_prop in W. destruct W as (W1 & W2). apply negb_true_iff in W1. pose proof (exec_sleep o c W1 S) as E.
    destruct (cexec o c) as [[c1 o1] r]. cbn in E.
    destruct r; [destruct (crun l c1) as [[c2 os2]|] eqn:R; [|discriminate]; injection H as <- <-; eapply IH; eauto..|discriminate].
Qed.
(** a transmission or a header leaves the node *)
Definition transmits (x : lout) : bool :=
  match x with OSend (MHeader _) | OSend (MTransmission _ _) => true | _ => false end.
Lemma sleep_send_frame f t c : c_status c = StSleep -> c_detailed c = false ->
  forallb (fun x => negb (transmits x)) (snd (fst (cexec (LSendFrame f t) c))) = true.
Proof.
  intros S D. cbn [cexec]. unfold send_frame, if_uninit, if_master, if_not_dynamic, get. rewrite S. cbn [cstatus_eqb].
  destruct (cmode_eqb (c_mode c) Master) eqn:M; [|reflexivity]. destruct (c_dynamic c); [reflexivity|].
  assert (RQ : forall c1, c_status c1 = StSleep -> c_detailed c1 = false -> send_request f t c1 = (c1, [], LOk)).
  { intros c1 A B. unfold send_request, get. rewrite A, B. reflexivity. }
  assert (UP : forall r, forallb (fun x => negb (transmits x)) (snd (fst ((update_frame_response r ;; send_request f t) c))) = true).
  { intros r. unfold update_frame_response, send_if_slave, get, seq at 1 2, modify. change (c_detailed (set_node (node_responses [r] (this_node c)) c)) with (c_detailed c). rewrite D.
    change (c_mode (set_node (node_responses [r] (this_node c)) c)) with (c_mode c). destruct (cmode_eqb (c_mode c) Slave); unfold emit, skip; rewrite RQ by assumption; reflexivity. }
  unfold send_frame_internal. destruct t.
  - apply UP.
  - unfold get. destruct (_ && _); [reflexivity|]. destruct (resp_at _ _) as [r|]; [|reflexivity]. destruct (r_mode r); [apply UP|rewrite RQ by assumption; reflexivity|reflexivity].
  - unfold get. destruct (_ && _); [reflexivity|]. unfold seq, emit. rewrite RQ by assumption. reflexivity.
Qed.
