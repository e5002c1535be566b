From Coq Require Import List NArith ZArith Arith Bool Lia ZifyBool.
From Verif Require Import Base SystemStateModel TimeSyncModel TimeSyncSpec.
Import ListNotations.
Open Scope Z_scope.

(** * What a step may change *)
Lemma users_frame : forall us x, t_cur (users us x) = t_cur x /\ fst (t_next (users us x)) = fst (t_next x) /\
  t_others (users us x) = t_others x /\ t_peers (users us x) = t_peers x /\ t_hop (users us x) = t_hop x /\ t_exec (users us x) = t_exec x /\
  t_last (users us x) = t_last x /\ t_state (users us x) = t_state x /\ t_syserr (users us x) = t_syserr x /\ t_sync (users us x) = t_sync x.
Proof.
  induction us as [|u us IH]; intros x; [repeat split|]. cbn [users fold_left]. fold (users us (user u x)).
  specialize (IH (user u x)). destruct IH as (H1 & H2 & H3 & H4 & H5 & H6 & H7 & H8 & H9 & H10).
  rewrite H1, H2, H3, H4, H5, H6, H7, H8, H9, H10. clear.
  destruct u; cbn; unfold set_step_duration; try (destruct (d =? 0)); cbn; repeat split.
Qed.
Lemma users_stop : forall us x, t_stop x = true -> t_stop (users us x) = true.
Proof.
  induction us as [|u us IH]; intros x H; [exact H|]. apply (IH (user u x)).
  destruct u; cbn; unfold set_step_duration; try (destruct (d =? 0)); cbn; auto.
Qed.
Lemma users_pause : forall us x, ~ In UContinue us -> t_pause x = true -> t_pause (users us x) = true.
Proof.
  induction us as [|u us IH]; intros x N H; [exact H|]. apply (IH (user u x)); [intros I; apply N; right; exact I|].
  destruct u; cbn; unfold set_step_duration; try (destruct (d =? 0)); cbn; auto. exfalso. apply N. left; reflexivity.
Qed.
Lemma users_dur : forall us x, (forall d, In (UDuration d) us -> 0 < d) -> 0 < snd (t_next x) -> 0 < snd (t_next (users us x)).
Proof.
  induction us as [|u us IH]; intros x P H; [exact H|]. apply (IH (user u x)); [intros d I; apply P; right; exact I|].
  destruct u; cbn; unfold set_step_duration; try (destruct (d =? 0)); cbn; auto. apply P; left; reflexivity.
Qed.
Lemma users_def : forall us x, exists k, t_def (users us x) = t_def x ++ repeat DComplete k.
Proof.
  induction us as [|u us IH]; intros x; [exists 0%nat; cbn; rewrite app_nil_r; reflexivity|].
  destruct (IH (user u x)) as [k K]. cbn [users fold_left]. fold (users us (user u x)). rewrite K.
  destruct u; cbn; unfold set_step_duration; try (destruct (d =? 0)); cbn; eauto.
  exists (S k). rewrite <- app_assoc. reflexivity.
Qed.
Lemma request_frame : forall x, let x' := snd (request_next x) in
  t_cur x' = t_cur x /\ t_next x' = t_next x /\ t_others x' = t_others x /\ t_peers x' = t_peers x /\ t_hop x' = t_hop x /\
  t_exec x' = t_exec x /\ t_state x' = t_state x /\ t_pause x' = t_pause x /\ t_stop x' = t_stop x /\ t_syserr x' = t_syserr x /\ t_sync x' = t_sync x.
Proof.
  intros x. unfold request_next. destruct (_ && _); cbn; [destruct (t_last x =? _); cbn; repeat split|repeat split].
Qed.
Lemma request_out : forall x,
  (fst (request_next x) = [] /\ t_last (snd (request_next x)) = t_last x) \/
  (fst (request_next x) = [Sent (t_next x)] /\ t_last (snd (request_next x)) = fst (t_next x) /\ t_last x <> fst (t_next x)).
Proof.
  intros x. unfold request_next. destruct (_ && _); cbn; [|left; auto].
  destruct (t_last x =? fst (t_next x)) eqn:E; cbn; [left; auto|right]. apply Z.eqb_neq in E. auto.
Qed.

(** The time at which the next step of [x] starts, and its duration. *)
Definition start (x : node) : Z :=
  if t_hop x then fst (t_next x) else match hop_on x with Some m => m | None => fst (t_next x) end.
Definition dur (c : tcfg) (x : node) : Z :=
  if dyn_enabled c x then Z.min (snd (t_next x)) (min_aligned (start x) (t_others x)) else snd (t_next x).
Lemma advance_eq : forall c x, t_cur (advance c x) = (fst (t_next x), if dyn_enabled c x then Z.min (snd (t_next x)) (min_aligned (fst (t_next x)) (t_others x)) else snd (t_next x)) /\
  fst (t_next (advance c x)) = fst (t_cur (advance c x)) + snd (t_cur (advance c x)) /\ snd (t_next (advance c x)) = snd (t_next x).
Proof.
  intros c x. unfold advance. destruct (dyn_enabled c x); cbn; [|destruct (t_next x); auto].
  destruct (min_aligned _ _ <? snd (t_next x)) eqn:E; cbn; (split; [|split; reflexivity]).
  - f_equal. lia.
  - destruct (t_next x) as [a b]. cbn in *. f_equal. lia.
Qed.
(** What [execute] does from a running state: abort, or call the handler. *)
Inductive exec_case (c : tcfg) (us : list uop) (x : node) : list tout -> node -> Prop :=
| ec_abort m : t_hop x = false -> hop_on x = Some m -> c_coord c = true ->
    exec_case c us x [AbortSim] (set_times (t_cur x) (m, snd (t_next x)) (set_hop true x))
| ec_step y : (t_hop x = true \/ hop_on x = None \/ c_coord c = false) ->
    t_cur y = (start x, dur c x) -> t_next y = (start x + dur c x, snd (t_next x)) -> t_others y = t_others x -> t_peers y = t_peers x ->
    t_hop y = true -> t_exec y = t_exec x -> t_last y = t_last x -> t_state y = t_state x -> t_pause y = t_pause x -> t_stop y = t_stop x ->
    t_def y = t_def x ->
    exec_case c us x [Exec (start x) (dur c x)] (users us y).
Lemma execute_cases : forall c us x, t_state x = Running -> exec_case c us x (fst (execute c us x)) (snd (execute c us x)).
Proof.
  intros c us x R. unfold execute. rewrite R. cbn [lstate_eqb orb].
  assert (A : forall y, t_next y = (start x, snd (t_next x)) -> t_others y = t_others x -> t_peers y = t_peers x ->
    t_hop y = true -> t_exec y = t_exec x -> t_last y = t_last x -> t_state y = t_state x -> t_pause y = t_pause x -> t_stop y = t_stop x ->
    t_def y = t_def x -> (t_hop x = true \/ hop_on x = None \/ c_coord c = false) ->
    exec_case c us x [Exec (fst (t_cur (advance c y))) (snd (t_cur (advance c y)))] (users us (advance c y))).
  { intros y N O P H E L S PA ST D W. destruct (advance_eq c y) as (A1 & A2 & A3).
    assert (DN : dyn_enabled c y = dyn_enabled c x) by (unfold dyn_enabled; rewrite P; reflexivity).
    rewrite DN, N, O in A1. cbn [fst snd] in A1.
    assert (CU : t_cur (advance c y) = (start x, dur c x)) by (rewrite A1; unfold dur; reflexivity).
    rewrite CU. cbn [fst snd]. apply ec_step; try assumption.
    rewrite (surjective_pairing (t_next (advance c y))), A2, A3, CU, N. reflexivity. }
  destruct (t_hop x) eqn:H.
  - apply A; auto. unfold start. rewrite H. apply surjective_pairing.
  - assert (HO : hop_on (set_hop true x) = hop_on x) by reflexivity. rewrite HO. destruct (hop_on x) as [m|] eqn:M.
    + destruct (c_coord c) eqn:CO; cbn [fst snd].
      * exact (ec_abort c us x m H M CO).
      * apply A; destruct (c_wall c); cbn; auto; unfold start; rewrite H, M; reflexivity.
    + apply A; destruct (c_wall c); cbn; auto; unfold start; rewrite H, M; apply surjective_pairing.
Qed.
Lemma possible_running : forall c x, possible c x = true ->
  t_state x = Running /\ t_stop x = false /\ t_pause x = false /\ other_lower x = false /\ (c_coord c = true -> t_syserr x = false).
Proof.
  intros c x P. unfold possible in P. repeat (apply andb_prop in P; destruct P as [P ?]).
  destruct (t_state x); try discriminate. destruct (t_stop x), (t_pause x), (other_lower x), (c_coord c), (t_syserr x); try discriminate; repeat split; auto.
Qed.
(** The four outcomes of [process]. *)
Inductive proc_case (c : tcfg) (us : list uop) (x : node) : list tout -> node -> Prop :=
| pc_no : possible c x = false -> proc_case c us x [] x
| pc_others : possible c x = true -> c_block c = false -> t_exec x = true -> proc_case c us x [OthersDone] x
| pc_sync o y : possible c x = true -> c_block c = true -> exec_case c us x o y -> (t_pause y = true \/ c_wall c = true) ->
    proc_case c us x o y
| pc_sync_req o y : possible c x = true -> c_block c = true -> exec_case c us x o y -> t_pause y = false -> c_wall c = false ->
    proc_case c us x (o ++ fst (request_next y)) (snd (request_next y))
| pc_async o y : possible c x = true -> c_block c = false -> t_exec x = false -> exec_case c us (set_exec true x) o y ->
    proc_case c us x o y.
Lemma process_cases : forall c us x, proc_case c us x (fst (process c us x)) (snd (process c us x)).
Proof.
  intros c us x. unfold process. destruct (possible c x) eqn:P; [|apply pc_no; exact P].
  destruct (possible_running c x P) as (R & _).
  destruct (c_block c) eqn:B.
  - pose proof (execute_cases c us x R) as E. destruct (execute c us x) as [o y]. cbn [fst snd] in E.
    destruct (t_pause y || c_wall c) eqn:PW; cbn [fst snd].
    + apply pc_sync; auto. apply orb_prop in PW. exact PW.
    + apply orb_false_elim in PW. destruct PW as [P1 P2].
      pose proof (pc_sync_req c us x o y P B E P1 P2) as Q. destruct (request_next y) as [o' z]. exact Q.
  - destruct (t_exec x) eqn:X; [apply pc_others; auto|].
    pose proof (execute_cases c us (set_exec true x) R) as E. apply pc_async; auto.
Qed.
Lemma start_exec : forall b x, start (TimeSyncModel.set_exec b x) = start x.
Proof. reflexivity. Qed.
Lemma dur_exec : forall c b x, dur c (TimeSyncModel.set_exec b x) = dur c x.
Proof. reflexivity. Qed.

Lemma execs_app : forall a b, execs (a ++ b) = execs a ++ execs b.
Proof. intros. unfold execs. apply flat_map_app. Qed.
Lemma execs_request : forall x, execs (fst (request_next x)) = [].
Proof. intros x. destruct (request_out x) as [[-> _]|[-> _]]; reflexivity. Qed.

(** The effect of one event on the times of a participant. *)
Definition fires (c : tcfg) (y : node) : Prop := possible c y = true /\ (c_block c = false -> t_exec y = false).
Definition pre (e : tev) (x : node) : node :=
  match e with
  | ERecv p t _ => TimeSyncModel.set_others (on_next_step p t (t_others x)) x
  | EDeferred _ => set_def (tl (t_def x)) x
  | ERemove p _ => TimeSyncModel.set_others (remove_other p (t_others x)) (set_peers (filter (fun q => negb (Nat.eqb q p)) (t_peers x)) x)
  | _ => x
  end.
Inductive core_case (c : tcfg) (e : tev) (x : node) (o : list tout) (x' : node) : Prop :=
| cc_none : execs o = [] -> t_cur x' = t_cur x -> fst (t_next x') = fst (t_next x) -> t_hop x' = t_hop x -> core_case c e x o x'
| cc_abort m : execs o = [] -> t_cur x' = t_cur x -> t_hop x = false -> t_hop x' = true -> hop_on (pre e x) = Some m ->
    fires c (pre e x) -> In AbortSim o -> c_coord c = true -> fst (t_next x') = m -> core_case c e x o x'
| cc_exec : execs o = [(start (pre e x), dur c (pre e x))] -> fires c (pre e x) ->
    t_cur x' = (start (pre e x), dur c (pre e x)) -> fst (t_next x') = start (pre e x) + dur c (pre e x) -> t_hop x' = true ->
    (t_hop x = true \/ hop_on (pre e x) = None \/ c_coord c = false) -> core_case c e x o x'.
Lemma exec_case_core : forall c us y o z, exec_case c us y o z ->
  (execs o = [] /\ t_cur z = t_cur y /\ t_hop y = false /\ t_hop z = true /\ (exists m, hop_on y = Some m /\ fst (t_next z) = m) /\ In AbortSim o /\ c_coord c = true)
  \/ (execs o = [(start y, dur c y)] /\ t_cur z = (start y, dur c y) /\ fst (t_next z) = start y + dur c y /\ t_hop z = true /\
      (t_hop y = true \/ hop_on y = None \/ c_coord c = false)).
Proof.
  intros c us y o z H. inversion H as [m A1 A2 A3|y' A0 A1 A2 A3 A4 A5 A6 A7 A8 A9 A10 A11]; subst.
  - left. cbn. split; [reflexivity|]. split; [reflexivity|]. split; [exact A1|]. split; [reflexivity|]. split; [eauto|]. auto.
  - right. destruct (users_frame us y') as (U1 & U2 & U3 & U4 & U5 & _). rewrite U1, U2, U5, A1, A2. cbn. auto.
Qed.
Lemma process_core : forall c us e x, t_cur (pre e x) = t_cur x -> t_next (pre e x) = t_next x -> t_hop (pre e x) = t_hop x ->
  core_case c e x (fst (process c us (pre e x))) (snd (process c us (pre e x))).
Proof.
  intros c us e x E1 E2 E3. destruct (process_cases c us (pre e x)) as [P|P B X|o y P B EC W|o y P B EC W1 W2|o y P B X EC].
  - apply cc_none; cbn; auto; congruence.
  - apply cc_none; cbn; auto; congruence.
  - assert (F : fires c (pre e x)) by (split; [exact P|congruence]).
    apply exec_case_core in EC. destruct EC as [(A1 & A2 & A3 & A4 & (m & A5 & A6) & A7 & A8)|(A1 & A2 & A3 & A4 & A5)].
    + eapply cc_abort; eauto; congruence.
    + apply cc_exec; auto. rewrite <- E3. exact A5.
  - assert (F : fires c (pre e x)) by (split; [exact P|congruence]).
    destruct (request_frame y) as (R1 & R2 & _ & _ & R5 & _).
    apply exec_case_core in EC. destruct EC as [(A1 & A2 & A3 & A4 & (m & A5 & A6) & A7 & A8)|(A1 & A2 & A3 & A4 & A5)].
    + apply (cc_abort c e x _ _ m); try assumption; try congruence; [rewrite execs_app, A1, execs_request; reflexivity|].
      apply in_or_app; left; exact A7.
    + apply cc_exec; try assumption; try congruence. rewrite execs_app, A1, execs_request; reflexivity.
  - assert (F : fires c (pre e x)) by (split; [exact P|congruence]).
    apply exec_case_core in EC. rewrite start_exec, dur_exec in EC.
    destruct EC as [(A1 & A2 & A3 & A4 & (m & A5 & A6) & A7 & A8)|(A1 & A2 & A3 & A4 & A5)].
    + eapply cc_abort; eauto; cbn in *; congruence.
    + apply cc_exec; auto. rewrite <- E3. exact A5.
Qed.
Lemma tstep_core : forall c e x, core_case c e x (fst (tstep c e x)) (snd (tstep c e x)).
Proof.
  intros c e x. assert (RQ : forall y, t_cur y = t_cur x -> t_next y = t_next x -> t_hop y = t_hop x ->
    core_case c e x (fst (request_next y)) (snd (request_next y))).
  { intros y Y1 Y2 Y3. destruct (request_frame y) as (R1 & R2 & _ & _ & R5 & _). apply cc_none; [apply execs_request| | |]; congruence. }
  destruct e.
  - pose proof (process_core c us (ERecv p t us) x eq_refl eq_refl eq_refl) as PC. cbn [tstep]. cbn [pre] in *.
    destruct (t_state (TimeSyncModel.set_others (on_next_step p t (t_others x)) x)); try exact PC; apply cc_none; reflexivity.
  - pose proof (process_core c us (EDeferred us) x eq_refl eq_refl eq_refl) as PC. cbn [tstep]. cbn [pre] in *.
    destruct (t_def x) as [|[] r]; cbn [tl] in *.
    + apply cc_none; reflexivity.
    + exact PC.
    + apply RQ; reflexivity.
    + destruct (_ || _); [|apply cc_none; reflexivity].
      set (y := set_wall (t_sync (set_exec false (set_def r x))) false (set_exec false (set_def r x))).
      specialize (RQ y eq_refl eq_refl eq_refl). destruct (request_next y) as [o z]. cbn [fst snd] in *.
      inversion RQ; [apply cc_none; auto|eapply cc_abort; eauto; right; eauto|apply cc_exec; auto].
  - cbn [tstep]. apply cc_none; try (destruct dyn; reflexivity). destruct dyn; cbn; destruct (0 <=? _); reflexivity.
  - pose proof (process_core c us (ERemove p us) x eq_refl eq_refl eq_refl) as PC. cbn [tstep]. cbn [pre] in *.
    change (t_others (set_peers (filter (fun q : nat => negb (Nat.eqb q p)) (t_peers x)) x)) with (t_others x).
    destruct (lookup p (t_others x)); [exact PC|apply cc_none; reflexivity].
  - apply RQ; reflexivity.
  - apply cc_none; reflexivity.
  - destruct (users_frame [u] x) as (U1 & U2 & _ & _ & U5 & _). apply cc_none; auto.
  - apply cc_none; reflexivity.
  - apply cc_none; reflexivity.
  - cbn [tstep]. destruct (_ && _); [|apply cc_none; reflexivity]. cbn. destruct (t_exec x); apply cc_none; reflexivity.
Qed.

(** * C21: gap-free *)
Lemma gap_free_cons : forall t d l, gap_free ((t, d) :: l) <-> gap_free l /\ match l with [] => True | (t', _) :: _ => t' = t + d end.
Proof. intros t d [|[t' d'] l]; cbn; tauto. Qed.
Lemma trun_gap_free : forall c es x,
  gap_free (execs (fst (trun c es x))) /\
  (t_hop x = true -> match execs (fst (trun c es x)) with [] => True | (t, _) :: _ => t = fst (t_next x) end).
Proof.
  intros c. induction es as [|e es IH]; intros x; [cbn; auto|]. cbn [trun].
  pose proof (tstep_core c e x) as C. destruct (tstep c e x) as [o x1]. cbn [fst snd] in C. specialize (IH x1).
  destruct (trun c es x1) as [o' x2]. cbn [fst] in *. rewrite execs_app. destruct IH as [I1 I2].
  destruct C as [C1 C2 C3 C4|m C1 C2 C3 C4 C5 C6 C7 C8 C9|C1 C2 C3 C4 C5 C6]; rewrite C1; cbn [app].
  - split; [exact I1|]. intros H. rewrite <- C3. apply I2. congruence.
  - split; [exact I1|]. congruence.
  - specialize (I2 C5). rewrite C4 in I2. split; [apply gap_free_cons; auto|].
    intros H. assert (H' : t_hop (pre e x) = true) by (destruct e; exact H). unfold start. rewrite H'. destruct e; reflexivity.
Qed.
Lemma min_aligned_nonneg : forall now o, 0 <= min_aligned now o.
Proof.
  intros now o. unfold min_aligned. destruct o; [unfold tmax; lia|].
  destruct (earliest_after now (p :: o) - now <? 0) eqn:E; [unfold tmax; lia|lia].
Qed.
Lemma pre_next : forall e x, t_next (pre e x) = t_next x.
Proof. destruct e; reflexivity. Qed.
Lemma dur_nonneg : forall c x, 0 < snd (t_next x) -> 0 <= dur c x.
Proof. intros c x H. unfold dur. destruct (dyn_enabled c x); [|lia]. pose proof (min_aligned_nonneg (start x) (t_others x)). lia. Qed.
(** The configured duration stays positive. *)
Lemma exec_case_dur : forall c us y o z, exec_case c us y o z -> (forall d, In (UDuration d) us -> 0 < d) -> 0 < snd (t_next y) -> 0 < snd (t_next z).
Proof.
  intros c us y o z H U P. inversion H as [m A1 A2 A3|y' A0 A1 A2]; subst; [exact P|]. apply users_dur; [exact U|]. rewrite A2. exact P.
Qed.
Lemma process_dur : forall c us y, (forall d, In (UDuration d) us -> 0 < d) -> 0 < snd (t_next y) -> 0 < snd (t_next (snd (process c us y))).
Proof.
  intros c us y U P. destruct (process_cases c us y) as [Q|Q B X|o z Q B EC W|o z Q B EC W1 W2|o z Q B X EC]; auto.
  - eapply exec_case_dur; eauto.
  - destruct (request_frame z) as (_ & R2 & _). rewrite R2. eapply exec_case_dur; eauto.
  - eapply exec_case_dur; eauto.
Qed.
Lemma tstep_dur : forall c e x, positive e -> 0 < snd (t_next x) -> 0 < snd (t_next (snd (tstep c e x))).
Proof.
  intros c e x U P. assert (RQ : forall y, t_next y = t_next x -> 0 < snd (t_next (snd (request_next y)))).
  { intros y E. destruct (request_frame y) as (_ & R2 & _). rewrite R2, E. exact P. }
  destruct e; cbn [tstep].
  - destruct (t_state _); try exact P; apply process_dur; auto.
  - destruct (t_def x) as [|[] r]; [exact P|apply process_dur; auto|apply RQ; reflexivity|].
    destruct (_ || _); [|exact P].
    specialize (RQ (set_wall (t_sync (set_exec false (set_def r x))) false (set_exec false (set_def r x))) eq_refl).
    destruct (request_next _) as [o z]. exact RQ.
  - destruct dyn; exact P.
  - destruct (lookup _ _); [apply process_dur; auto|exact P].
  - apply RQ; reflexivity.
  - exact P.
  - apply (users_dur [u] x); auto.
  - exact P.
  - exact P.
  - destruct (_ && _); [|exact P]. cbn. destruct (t_exec x); exact P.
Qed.
Lemma trun_dur : forall c es x, Forall positive es -> 0 < snd (t_next x) -> Forall (fun s : Z * Z => 0 <= snd s) (execs (fst (trun c es x))).
Proof.
  intros c. induction es as [|e es IH]; intros x U P; [constructor|]. inversion U as [|a b U1 U2]; subst. cbn [trun].
  pose proof (tstep_core c e x) as C. pose proof (tstep_dur c e x U1 P) as P1. destruct (tstep c e x) as [o x1]. cbn [fst snd] in *.
  specialize (IH x1 U2 P1). destruct (trun c es x1) as [o' x2]. cbn [fst] in *. rewrite execs_app. apply Forall_app. split; [|exact IH].
  destruct C as [C1 C2 C3 C4|m C1 C2 C3 C4 C5 C6 C7 C8 C9|C1 C2 C3 C4 C5 C6]; rewrite C1; constructor; [|constructor].
  cbn. apply dur_nonneg. rewrite pre_next. exact P.
Qed.

(** * C25: dynamic steps *)
Lemma earliest_spec : forall o now e0 e, now < e0 ->
  e = fold_left (fun (e : Z) (x : nat * task) => let s := fst (snd x) in let en := fst (snd x) + snd (snd x) in
                        let e := if now <? s then Z.min e s else e in if now <? en then Z.min e en else e) o e0 ->
  now < e <= e0 /\ (forall p t d, In (p, (t, d)) o -> (now < t -> e <= t) /\ (now < t + d -> e <= t + d)) /\
  (e = e0 \/ exists p t d, In (p, (t, d)) o /\ (e = t \/ e = t + d)).
Proof.
  induction o as [|[p [t d]] o IH]; intros now e0 e H EQ; cbn [fold_left] in EQ.
  - subst e. split; [lia|]. split; [intros; contradiction|auto].
  - cbn [fst snd] in EQ.
    set (e1 := if now <? t then Z.min e0 t else e0) in *.
    set (e2 := if now <? t + d then Z.min e1 (t + d) else e1) in *.
    assert (E1 : now < e1 <= e0 /\ (now < t -> e1 <= t) /\ (e1 = e0 \/ e1 = t)) by (unfold e1; destruct (now <? t) eqn:E; lia).
    assert (E2 : now < e2 <= e1 /\ (now < t + d -> e2 <= t + d) /\ (e2 = e1 \/ e2 = t + d)) by (unfold e2; destruct (now <? t + d) eqn:E; lia).
    destruct (IH now e2 e) as (I1 & I2 & I3); [lia|exact EQ|]. split; [lia|]. split.
    + intros p' t' d' [E|E]; [injection E as <- <- <-; lia|apply (I2 p' t' d' E)].
    + destruct I3 as [I3|(p' & t' & d' & I3 & I4)].
      * rewrite I3. destruct E2 as (_ & _ & [E2|E2]); [destruct E1 as (_ & _ & [E1|E1])|].
        -- left; lia.
        -- right. exists p, t, d. split; [left; reflexivity|]. lia.
        -- right. exists p, t, d. split; [left; reflexivity|]. lia.
      * right. exists p', t', d'. split; [right; exact I3|exact I4].
Qed.
Lemma min_aligned_spec : forall now o, 0 <= now < tmax ->
  0 < min_aligned now o /\
  (forall p t d, In (p, (t, d)) o -> (now < t -> now + min_aligned now o <= t) /\ (now < t + d -> now + min_aligned now o <= t + d)) /\
  (tmax <= now + min_aligned now o \/ exists p t d, In (p, (t, d)) o /\ (now + min_aligned now o = t \/ now + min_aligned now o = t + d)).
Proof.
  intros now o H. unfold min_aligned. destruct o as [|a o].
  - split; [unfold tmax; lia|]. split; [intros; contradiction|]. left. lia.
  - destruct (earliest_spec (a :: o) now tmax (earliest_after now (a :: o))) as (E1 & E2 & E3); [lia|reflexivity|].
    destruct (earliest_after now (a :: o) - now <? 0) eqn:L; [lia|].
    replace (now + (earliest_after now (a :: o) - now)) with (earliest_after now (a :: o)) by lia.
    split; [lia|]. split; [exact E2|]. destruct E3 as [E3|E3]; [left; lia|right; exact E3].
Qed.
Lemma in_execs : forall t d o, In (Exec t d) o <-> In (t, d) (execs o).
Proof.
  intros t d o. unfold execs. rewrite in_flat_map. split.
  - intros H. exists (Exec t d). split; [exact H|left; reflexivity].
  - intros (x & H & I). destruct x; cbn in I; try contradiction. destruct I as [I|[]]. injection I as -> ->. exact H.
Qed.
Lemma fired : forall c e x t d, In (Exec t d) (fst (tstep c e x)) ->
  t = start (pre e x) /\ d = dur c (pre e x) /\ fires c (pre e x) /\ t_hop (snd (tstep c e x)) = true /\
  (t_hop x = true \/ hop_on (pre e x) = None \/ c_coord c = false).
Proof.
  intros c e x t d I. apply in_execs in I. destruct (tstep_core c e x) as [C1 C2 C3 C4|m C1 C2 C3 C4 C5 C6 C7 C8 C9|C1 C2 C3 C4 C5 C6]; rewrite C1 in I; try contradiction.
  destruct I as [I|[]]. injection I as <- <-. auto.
Qed.
Lemma exec_case_others : forall c us y o z, exec_case c us y o z -> t_others z = t_others y /\ t_peers z = t_peers y.
Proof.
  intros c us y o z H. inversion H as [m A1 A2 A3|y' A0 A1 A2 A3 A4 A5 A6 A7 A8 A9 A10 A11]; subst; [auto|].
  destruct (users_frame us y') as (_ & _ & U3 & U4 & _). rewrite U3, U4. auto.
Qed.
Lemma process_others : forall c us y, t_others (snd (process c us y)) = t_others y /\ t_peers (snd (process c us y)) = t_peers y.
Proof.
  intros c us y. destruct (process_cases c us y) as [Q|Q B X|o z Q B EC W|o z Q B EC W1 W2|o z Q B X EC]; auto.
  - eapply exec_case_others; eauto.
  - destruct (request_frame z) as (_ & _ & R3 & R4 & _). rewrite R3, R4. eapply exec_case_others; eauto.
  - destruct (exec_case_others _ _ _ _ _ EC) as [A B']. auto.
Qed.
Lemma exec_others : forall c e x t d, In (Exec t d) (fst (tstep c e x)) ->
  t_others (snd (tstep c e x)) = t_others (pre e x) /\ t_peers (snd (tstep c e x)) = t_peers (pre e x).
Proof.
  intros c e x t d I. assert (RQ : forall y, In (Exec t d) (fst (request_next y)) -> False).
  { intros y H. apply in_execs in H. rewrite execs_request in H. exact H. }
  destruct e; cbn [tstep pre] in *; try contradiction.
  - destruct (t_state _); try contradiction; apply process_others.
  - destruct (t_def x) as [|[] r]; cbn [tl] in *; [contradiction|apply process_others|destruct (RQ _ I)|].
    destruct (_ || _).
    + specialize (RQ (set_wall (t_sync (set_exec false (set_def r x))) false (set_exec false (set_def r x)))).
      destruct (request_next _) as [o z]. cbn [fst] in *. destruct I as [I|I]; [discriminate|destruct (RQ I)].
    + destruct I as [I|[]]; discriminate.
  - cbn [fst] in I. destruct (0 <=? _); [destruct I as [I|[]]; discriminate|contradiction].
  - destruct (lookup _ _); [|contradiction]. apply process_others.
  - destruct (RQ _ I).
  - destruct (_ && _); [|contradiction]. cbn in I. destruct (t_exec x); contradiction.
Qed.
Lemma dynamic_step : forall c e x t d, In (Exec t d) (fst (tstep c e x)) ->
  dyn_enabled c (snd (tstep c e x)) = true -> 0 < snd (t_next x) -> 0 <= t -> t + snd (t_next x) <= tmax ->
  0 < d <= snd (t_next x) /\
  (forall p s l, In (p, (s, l)) (t_others (snd (tstep c e x))) -> ~ (t < s < t + d) /\ ~ (t < s + l < t + d)) /\
  (d = snd (t_next x) \/ exists p s l, In (p, (s, l)) (t_others (snd (tstep c e x))) /\ (t + d = s \/ t + d = s + l)).
Proof.
  intros c e x t d I DY P T0 TM. destruct (exec_others c e x t d I) as [O PE]. destruct (fired c e x t d I) as (-> & -> & _).
  assert (DY' : dyn_enabled c (pre e x) = true) by (unfold dyn_enabled in *; rewrite PE in DY; exact DY). rewrite O.
  unfold dur. rewrite DY', pre_next. destruct (min_aligned_spec (start (pre e x)) (t_others (pre e x))) as (M1 & M2 & M3); [lia|].
  set (m := min_aligned (start (pre e x)) (t_others (pre e x))) in *. split; [lia|]. split.
  - intros p s l H. specialize (M2 p s l H). lia.
  - destruct (Z_le_gt_dec (snd (t_next x)) m) as [L|L]; [left; lia|right].
    destruct M3 as [M3|(p & s & l & M3 & M4)]; [lia|]. exists p, s, l. split; [exact M3|]. lia.
Qed.
Definition advertised (p : nat) (es : list tev) : bool :=
  fold_left (fun b e => match e with
                        | EAdd q true => if Nat.eqb q p then true else b
                        | ERemove q _ => if Nat.eqb q p then false else b
                        | _ => b end) es false.
Lemma tstep_peers : forall c e x p, In p (t_peers (snd (tstep c e x))) <->
  match e with
  | EAdd q true => q = p \/ In p (t_peers x)
  | ERemove q _ => q <> p /\ In p (t_peers x)
  | _ => In p (t_peers x)
  end.
Proof.
  intros c e x p. assert (RQ : forall y, t_peers (snd (request_next y)) = t_peers y) by (intros y; apply (request_frame y)).
  destruct e; cbn [tstep].
  - destruct (t_state _); try reflexivity; rewrite (proj2 (process_others _ _ _)); reflexivity.
  - destruct (t_def x) as [|[] r]; [reflexivity|rewrite (proj2 (process_others _ _ _)); reflexivity|rewrite RQ; reflexivity|].
    destruct (_ || _); [|reflexivity].
    specialize (RQ (set_wall (t_sync (set_exec false (set_def r x))) false (set_exec false (set_def r x)))).
    destruct (request_next _) as [o z]. cbn [snd] in *. rewrite RQ. reflexivity.
  - destruct dyn; cbn; reflexivity.
  - assert (F : In p (filter (fun q : nat => negb (Nat.eqb q p0)) (t_peers x)) <-> p0 <> p /\ In p (t_peers x)).
    { rewrite filter_In. destruct (Nat.eqb_spec p p0); cbn; intuition congruence. }
    destruct (lookup _ _); [rewrite (proj2 (process_others _ _ _))|]; exact F.
  - rewrite RQ. reflexivity.
  - reflexivity.
  - destruct (users_frame [u] x) as (_ & _ & _ & U4 & _). cbn [users fold_left] in U4. cbn [snd]. rewrite U4. reflexivity.
  - reflexivity.
  - reflexivity.
  - destruct (_ && _); [|reflexivity]. cbn. destruct (t_exec x); reflexivity.
Qed.
Lemma trun_app : forall c a b x, trun c (a ++ b) x = (fst (trun c a x) ++ fst (trun c b (snd (trun c a x))), snd (trun c b (snd (trun c a x)))).
Proof.
  intros c. induction a as [|e a IH]; intros b x; cbn [trun app fst snd]; [destruct (trun c b x); reflexivity|].
  destruct (tstep c e x) as [o x1]. rewrite IH. destruct (trun c a x1) as [o1 x2]. cbn [fst snd]. rewrite app_assoc. reflexivity.
Qed.
Lemma advertised_peers : forall c es p, advertised p es = true <-> In p (t_peers (tafter c es)).
Proof.
  intros c es p. induction es as [|e es IH] using rev_ind; [cbn; split; [discriminate|contradiction]|].
  unfold advertised, tafter in *. rewrite fold_left_app, trun_app. cbn [fold_left snd trun].
  destruct (tstep c e (snd (trun c es node_init))) as [o x1] eqn:S. cbn [snd].
  pose proof (tstep_peers c e (snd (trun c es node_init)) p) as T. rewrite S in T. cbn [snd] in T. rewrite T.
  destruct e; try exact IH.
  - destruct dyn; [|exact IH]. destruct (Nat.eqb_spec p0 p); [intuition|]. rewrite IH. intuition congruence.
  - destruct (Nat.eqb_spec p0 p); [intuition congruence|]. rewrite IH. intuition.
Qed.

(** * C26 *)
Lemma no_fire : forall c e x, t_state x <> Running \/ t_stop x = true \/ t_pause x = true -> execs (fst (tstep c e x)) = [].
Proof.
  intros c e x H. destruct (tstep_core c e x) as [C1 C2 C3 C4|m C1 C2 C3 C4 C5 C6 C7 C8 C9|C1 C2 C3 C4 C5 C6]; auto.
  exfalso. destruct C2 as [P _]. apply possible_running in P. destruct P as (P1 & P2 & P3 & _).
  assert (E : t_state (pre e x) = t_state x /\ t_stop (pre e x) = t_stop x /\ t_pause (pre e x) = t_pause x) by (destruct e; auto).
  destruct E as (E1 & E2 & E3). rewrite E1 in P1. rewrite E2 in P2. rewrite E3 in P3. intuition congruence.
Qed.
Lemma exec_case_stop : forall c us y o z, exec_case c us y o z ->
  (t_stop y = true -> t_stop z = true) /\ (~ In UContinue us -> t_pause y = true -> t_pause z = true).
Proof.
  intros c us y o z H. inversion H as [m A1 A2 A3|y' A0 A1 A2 A3 A4 A5 A6 A7 A8 A9 A10 A11]; subst; [auto|].
  split; [intros S; apply users_stop; congruence|intros N S; apply users_pause; [exact N|congruence]].
Qed.
Lemma process_stop : forall c us y,
  (t_stop y = true -> t_stop (snd (process c us y)) = true) /\ (~ In UContinue us -> t_pause y = true -> t_pause (snd (process c us y)) = true).
Proof.
  intros c us y. destruct (process_cases c us y) as [Q|Q B X|o z Q B EC W|o z Q B EC W1 W2|o z Q B X EC]; auto.
  - eapply exec_case_stop; eauto.
  - destruct (request_frame z) as (_ & _ & _ & _ & _ & _ & _ & R8 & R9 & _). rewrite R8, R9. eapply exec_case_stop; eauto.
  - destruct (exec_case_stop _ _ _ _ _ EC) as [A B']. auto.
Qed.
Lemma tstep_stop : forall c e x,
  (t_stop x = true -> t_stop (snd (tstep c e x)) = true) /\ (~ In UContinue (uops e) -> t_pause x = true -> t_pause (snd (tstep c e x)) = true).
Proof.
  intros c e x. assert (RQ : forall y, t_stop (snd (request_next y)) = t_stop y /\ t_pause (snd (request_next y)) = t_pause y).
  { intros y. destruct (request_frame y) as (_ & _ & _ & _ & _ & _ & _ & R8 & R9 & _). auto. }
  destruct e; cbn [tstep uops]; auto.
  - destruct (t_state _); auto; apply (process_stop c us (TimeSyncModel.set_others _ x)).
  - destruct (t_def x) as [|[] r]; auto.
    + apply (process_stop c us (set_def r x)).
    + destruct (RQ (set_def r x)) as [-> ->]. auto.
    + destruct (_ || _); [|auto].
      specialize (RQ (set_wall (t_sync (set_exec false (set_def r x))) false (set_exec false (set_def r x)))).
      destruct (request_next _) as [o z]. cbn [snd] in *. destruct RQ as [-> ->]. auto.
  - destruct dyn; auto.
  - destruct (lookup _ _); [|auto].
    apply (process_stop c us (TimeSyncModel.set_others (remove_other p (t_others x)) (set_peers (filter (fun q => negb (Nat.eqb q p)) (t_peers x)) x))).
  - destruct (RQ x) as [-> ->]. auto.
  - split; [intros S; apply (users_stop [u] x S)|intros N S; apply (users_pause [u] x N S)].
  - destruct (_ && _); [|auto]. cbn. destruct (t_exec x); auto.
Qed.
Lemma stopped_run : forall c es x, t_stop x = true -> execs (fst (trun c es x)) = [].
Proof.
  intros c. induction es as [|e es IH]; intros x S; [reflexivity|]. cbn [trun].
  pose proof (no_fire c e x (or_intror (or_introl S))) as N. pose proof (proj1 (tstep_stop c e x) S) as S1.
  destruct (tstep c e x) as [o x1]. cbn [fst snd] in *. specialize (IH x1 S1). destruct (trun c es x1) as [o' x2]. cbn [fst] in *.
  rewrite execs_app, N, IH. reflexivity.
Qed.
Lemma paused_run : forall c es x, (forall e, In e es -> ~ In UContinue (uops e)) -> t_pause x = true -> execs (fst (trun c es x)) = [].
Proof.
  intros c. induction es as [|e es IH]; intros x NC S; [reflexivity|]. cbn [trun].
  pose proof (no_fire c e x (or_intror (or_intror S))) as N. pose proof (proj2 (tstep_stop c e x) (NC e (or_introl eq_refl)) S) as S1.
  destruct (tstep c e x) as [o x1]. cbn [fst snd] in *. specialize (IH x1 (fun e I => NC e (or_intror I)) S1). destruct (trun c es x1) as [o' x2]. cbn [fst] in *.
  rewrite execs_app, N, IH. reflexivity.
Qed.
Lemma one_app : forall a b busy, one_at_a_time busy (a ++ b) <->
  one_at_a_time busy a /\ one_at_a_time (match in_progress (if busy then Some 0 else None) a with Some _ => true | None => false end) b.
Proof.
  assert (G : forall a b p, one_at_a_time (match p with Some _ => true | None => false end) (a ++ b) <->
    one_at_a_time (match p with Some _ => true | None => false end) a /\ one_at_a_time (match in_progress p a with Some _ => true | None => false end) b).
  { induction a as [|x a IH]; intros b p; [cbn; tauto|]. destruct x; cbn; try apply IH.
    - rewrite (IH b (Some t)). tauto.
    - apply (IH b None). }
  intros a b busy. specialize (G a b (if busy then Some 0 else None)). destruct busy; exact G.
Qed.
(** With an asynchronous handler: what is in progress is in the state. *)
Definition prog (p : option Z) (x : node) : Prop := forall t, p = Some t -> t_exec x = true /\ fst (t_cur x) = t.
Lemma quiet_prog : forall o p, execs o = [] -> ~ In Completed o -> in_progress p o = p /\ (forall b, one_at_a_time b o).
Proof.
  induction o as [|x o IH]; intros p E N; [cbn; auto|].
  destruct x; cbn in *; try discriminate; try (apply IH; [exact E|tauto]). exfalso. apply N. left; reflexivity.
Qed.
Lemma request_quiet : forall y, execs (fst (request_next y)) = [] /\ ~ In Completed (fst (request_next y)).
Proof. intros y. destruct (request_out y) as [[-> _]|[-> _]]; cbn; intuition discriminate. Qed.
Lemma process_prog : forall c us y p, c_block c = false -> prog p y ->
  one_at_a_time (match p with Some _ => true | None => false end) (fst (process c us y)) /\
  prog (in_progress p (fst (process c us y))) (snd (process c us y)).
Proof.
  intros c us y p B P. destruct (process_cases c us y) as [Q|Q B' X|o z Q B' EC W|o z Q B' EC W1 W2|o z Q B' X EC]; try congruence.
  - split; [exact I|exact P].
  - split; [exact I|exact P].
  - assert (PN : p = None) by (destruct p as [t|]; [destruct (P t eq_refl); congruence|reflexivity]). subst p.
    inversion EC as [m A1 A2 A3|y' A0 A1 A2 A3 A4 A5 A6 A7 A8 A9 A10 A11]; subst; cbn.
    + split; [exact I|]. intros t H. discriminate.
    + split; [auto|]. intros t H. injection H as <-. destruct (users_frame us y') as (U1 & _ & _ & _ & _ & U6 & _).
      rewrite U1, U6, A1, A6. auto.
Qed.
Lemma tstep_prog : forall c e x p, c_block c = false -> prog p x ->
  one_at_a_time (match p with Some _ => true | None => false end) (fst (tstep c e x)) /\
  prog (in_progress p (fst (tstep c e x))) (snd (tstep c e x)).
Proof.
  intros c e x p B P.
  assert (Q : forall o x', execs o = [] -> ~ In Completed o -> t_exec x' = t_exec x -> t_cur x' = t_cur x ->
    one_at_a_time (match p with Some _ => true | None => false end) o /\ prog (in_progress p o) x').
  { intros o x' E N E1 E2. destruct (quiet_prog o p E N) as [Q1 Q2]. split; [apply Q2|]. rewrite Q1. intros t H. rewrite E1, E2. apply P, H. }
  assert (RQ : forall y, t_exec y = t_exec x -> t_cur y = t_cur x ->
    one_at_a_time (match p with Some _ => true | None => false end) (fst (request_next y)) /\
    prog (in_progress p (fst (request_next y))) (snd (request_next y))).
  { intros y E1 E2. destruct (request_quiet y) as [A C]. destruct (request_frame y) as (R1 & _ & _ & _ & _ & R6 & _). apply Q; auto; congruence. }
  destruct e; cbn [tstep].
  - destruct (t_state _); try (apply Q; auto; fail); apply process_prog; auto.
  - destruct (t_def x) as [|[] r]; [apply Q; auto|apply process_prog; auto|apply RQ; reflexivity|].
    destruct (_ || _).
    + set (y := set_wall (t_sync (set_exec false (set_def r x))) false (set_exec false (set_def r x))).
      destruct (request_quiet y) as [A C]. destruct (request_next y) as [o z]. cbn [fst snd] in *.
      destruct (quiet_prog o None A C) as [Q1 Q2]. cbn. split; [apply (Q2 false)|]. rewrite Q1. intros t H. discriminate.
    + cbn. split; [exact I|]. intros t H. discriminate.
  - apply Q; try (destruct dyn; reflexivity); destruct dyn; cbn; destruct (0 <=? _); cbn; intuition discriminate.
  - destruct (lookup _ _); [apply process_prog; auto|apply Q; auto].
  - apply RQ; reflexivity.
  - apply Q; auto.
  - destruct (users_frame [u] x) as (U1 & _ & _ & _ & _ & U6 & _). apply Q; auto.
  - apply Q; auto.
  - apply Q; auto.
  - destruct (_ && _); [|apply Q; auto]. cbn. destruct (t_exec x) eqn:X; apply Q; auto.
Qed.
Lemma in_progress_app : forall a b p, in_progress p (a ++ b) = in_progress (in_progress p a) b.
Proof. induction a as [|x a IH]; intros b p; [reflexivity|]. destruct x; cbn; apply IH. Qed.
Lemma trun_prog : forall c es x p, c_block c = false -> prog p x ->
  one_at_a_time (match p with Some _ => true | None => false end) (fst (trun c es x)).
Proof.
  intros c. induction es as [|e es IH]; intros x p B P; [exact I|]. cbn [trun].
  destruct (tstep_prog c e x p B P) as [T1 T2]. destruct (tstep c e x) as [o x1]. cbn [fst snd] in *.
  specialize (IH x1 _ B T2). destruct (trun c es x1) as [o' x2]. cbn [fst] in *.
  pose proof (proj2 (one_app o o' (match p with Some _ => true | None => false end))) as G. apply G. split; [exact T1|].
  replace (match in_progress (if match p with Some _ => true | None => false end then Some 0 else None) o with Some _ => true | None => false end)
    with (match in_progress p o with Some _ => true | None => false end); [exact IH|].
  clear. destruct p as [t|]; [|reflexivity]. revert t.
  assert (G : forall w (a b : option Z), (match a with Some _ => true | None => false end) = (match b with Some _ => true | None => false end) ->
    (match in_progress a w with Some _ => true | None => false end) = (match in_progress b w with Some _ => true | None => false end)).
  { induction w as [|x w IH]; intros a b H; [exact H|]. destruct x; cbn; auto. }
  intros t. apply G. reflexivity.
Qed.

(** * The time up to which a participant is certainly done *)
Definition floor (x : node) : Z := if t_exec x && (0 <=? fst (t_cur x)) then fst (t_cur x) else fst (t_next x).
Record NI (c : tcfg) (x : node) : Prop := {
  ni_dur : 0 < snd (t_next x);
  ni_cur : (fst (t_cur x) = -1 /\ 0 <= fst (t_next x)) \/
           (0 <= fst (t_cur x) /\ 0 <= snd (t_cur x) /\ fst (t_next x) = fst (t_cur x) + snd (t_cur x) /\ t_hop x = true);
  ni_hop : t_hop x = false -> fst (t_next x) = 0;
  ni_last : t_last x <= fst (t_next x);
  ni_exec : c_block c = true -> t_exec x = false;
  ni_others : forall p t, In (p, t) (t_others x) -> 0 <= snd t
}.
Lemma NI_init : forall c, NI c node_init.
Proof. intros c. constructor; cbn; intros; try tauto; try lia. Qed.
Lemma floor_nonneg : forall c x, NI c x -> 0 <= floor x.
Proof. intros c x H. unfold floor. destruct (ni_cur c x H); destruct (t_exec x); cbn [andb]; try destruct (0 <=? fst (t_cur x)) eqn:E; lia. Qed.
Lemma floor_le_next : forall c x, NI c x -> floor x <= fst (t_next x).
Proof. intros c x H. unfold floor. destruct (ni_cur c x H); destruct (t_exec x); cbn [andb]; try destruct (0 <=? fst (t_cur x)) eqn:E; lia. Qed.
Lemma floor_free : forall x, t_exec x = false -> floor x = fst (t_next x).
Proof. intros x E. unfold floor. rewrite E. reflexivity. Qed.
Lemma hop_on_pos : forall x m, (forall p t, In (p, t) (t_others x) -> 0 <= snd t) -> hop_on x = Some m -> 0 < m.
Proof.
  intros x m N H. unfold hop_on in H. destruct (fst (t_cur x) =? -1); [|discriminate].
  match type of H with context [filter ?f ?l] => destruct (filter f l) as [|a l0] eqn:F end; [discriminate|]. injection H as <-.
  assert (G : forall (l : list (nat * task)) e, (forall o, In o l -> 0 < fst (snd o)) -> 0 < e ->
    0 < fold_left (fun (m : Z) (o : nat * task) => if fst (snd o) <? m then fst (snd o) else m) l e).
  { clear. induction l as [|o l IH]; intros e A P; [exact P|]. cbn [fold_left]. apply IH; [intros o' I; apply A; right; exact I|].
    specialize (A o (or_introl eq_refl)). destruct (_ <? _); lia. }
  apply (G (a :: l0)); [|unfold tmax; lia]. intros [q t] I. rewrite <- F in I. apply filter_In in I. destruct I as [I1 I2].
  specialize (N q t I1). cbn in *. lia.
Qed.
Lemma start_floor : forall c x, NI c x -> fst (t_next x) <= start x.
Proof.
  intros c x H. unfold start. destruct (t_hop x) eqn:E; [lia|]. rewrite (ni_hop c x H E).
  destruct (hop_on x) as [m|] eqn:M; [|lia]. pose proof (hop_on_pos x m (ni_others c x H) M). lia.
Qed.
(** A step of one participant, seen from outside; [q]: nothing is announced while a step is in progress. *)
Definition good (q : Prop) (c : tcfg) (x : node) (o : list tout) (x' : node) : Prop :=
  NI c x' /\ (floor x <= floor x' /\ fst (t_next x) <= fst (t_next x')) /\
  (forall t, In t (sents o) -> fst t <= fst (t_next x') /\ 0 <= snd t /\ (q -> fst t <= floor x')) /\
  (forall t d, In (Exec t d) o -> floor x <= t <= floor x').
Lemma good_mono : forall (p q : Prop) c x o x', (q -> p) -> good p c x o x' -> good q c x o x'.
Proof. intros p q c x o x' H (G1 & G2 & G3 & G4). split; [exact G1|]. split; [exact G2|]. split; [|exact G4]. intros t I. destruct (G3 t I). intuition. Qed.
Lemma good_same : forall q c x y o x', floor y = floor x -> fst (t_next y) = fst (t_next x) -> good q c y o x' -> good q c x o x'.
Proof.
  intros q c x y o x' H N (G1 & G2 & G3 & G4). rewrite H, N in G2. split; [exact G1|]. split; [exact G2|]. split; [exact G3|].
  intros t d I. rewrite <- H. apply (G4 t d I).
Qed.
Lemma sents_app : forall a b, sents (a ++ b) = sents a ++ sents b.
Proof. intros. apply flat_map_app. Qed.
Lemma good_quiet : forall q c x o x', NI c x' -> floor x <= floor x' -> fst (t_next x) <= fst (t_next x') -> sents o = [] -> execs o = [] -> good q c x o x'.
Proof.
  intros q c x o x' H F N S E. split; [exact H|]. split; [auto|]. split; [rewrite S; contradiction|].
  intros t d I. apply in_execs in I. rewrite E in I. destruct I.
Qed.
Lemma NI_same : forall c x y, NI c x -> t_cur y = t_cur x -> fst (t_next y) = fst (t_next x) -> 0 < snd (t_next y) -> t_hop y = t_hop x -> t_exec y = t_exec x ->
  t_last y = t_last x -> (forall p t, In (p, t) (t_others y) -> 0 <= snd t) -> NI c y /\ floor y = floor x.
Proof.
  intros c x y H E1 E2 E3 E4 E5 E6 E7. assert (F : floor y = floor x) by (unfold floor; rewrite E1, E2, E5; reflexivity).
  destruct H. split; [|exact F]. constructor; rewrite ?F, ?E1, ?E2, ?E4, ?E5, ?E6; auto.
Qed.
Lemma NI_request : forall c y, NI c y -> good (t_exec y = false) c y (fst (request_next y)) (snd (request_next y)).
Proof.
  intros c y H. destruct (request_frame y) as (R1 & R2 & R3 & R4 & R5 & R6 & _). pose proof (request_out y) as O.
  assert (F : floor (snd (request_next y)) = floor y) by (unfold floor; rewrite R1, R2, R6; reflexivity).
  assert (N : NI c (snd (request_next y))).
  { destruct H as [N1 N2 N3 N4 N5 N6]. constructor; rewrite ?R1, ?R2, ?R3, ?R5, ?R6; auto.
    destruct O as [[_ ->]|(_ & -> & _)]; [exact N4|]. lia. }
  split; [exact N|]. rewrite R2. split; [lia|]. rewrite F.
  assert (P : 0 < snd (t_next y)) by apply (ni_dur c y H).
  split; [intros t I|intros t d I]; destruct O as [[E _]|(E & _)]; rewrite E in I; cbn in I; try contradiction.
  - destruct I as [<-|[]]. split; [lia|]. split; [lia|]. intros X. rewrite (floor_free y X). lia.
  - destruct I as [I|[]]. discriminate.
Qed.
Lemma exec_case_NI : forall c us y o z b, NI c y -> t_exec y = false -> exec_case c us (TimeSyncModel.set_exec b y) o z -> (forall d, In (UDuration d) us -> 0 < d) ->
  (c_block c = true -> b = false) -> good True c y o z /\ t_exec z = b.
Proof.
  intros c us y o z b H X EC U CB. pose proof (exec_case_dur _ _ _ _ _ EC U (ni_dur c y H)) as DZ. pose proof (exec_case_others _ _ _ _ _ EC) as [OZ _].
  pose proof (ni_cur c y H) as NC. pose proof (ni_last c y H) as NL.
  inversion EC as [m A1 A2 A3|y' A0 A1 A2 A3 A4 A5 A6 A7 A8 A9 A10 A11]; subst; cbn in A1, OZ.
  - assert (M : 0 < m) by (apply (hop_on_pos y m (ni_others c y H)); exact A2).
    pose proof (ni_hop c y H A1) as HN. split; [|reflexivity]. destruct NC as [NC|NC]; [|destruct NC as (_ & _ & _ & NC); congruence].
    assert (F : floor (set_times (t_cur y) (m, snd (t_next y)) (set_hop true (TimeSyncModel.set_exec b y))) = m).
    { unfold floor. cbn. destruct NC as [-> _]. destruct b; reflexivity. }
    apply good_quiet; try reflexivity;
      [|change (floor y <= floor (set_times (t_cur y) (m, snd (t_next y)) (set_hop true (TimeSyncModel.set_exec b y)))); rewrite F, (floor_free y X); lia|cbn; lia].
    constructor; cbn; [apply (ni_dur c y H)|left; lia|discriminate|lia|exact CB|apply (ni_others c y H)].
  - rewrite start_exec, dur_exec in *. destruct (users_frame us y') as (U1 & U2 & U3 & U4 & U5 & U6 & U7 & _).
    pose proof (start_floor c y H) as SF. pose proof (dur_nonneg c y (ni_dur c y H)) as D0.
    clear EC A0. clear U A3 A4 A8 A9 A10 A11 U3 U4.
    assert (S0 : 0 <= start y) by lia.
    assert (F : floor (users us y') = if b then start y else start y + dur c y).
    { unfold floor. rewrite U1, U2, U6, A1, A2, A6. cbn. destruct b; cbn; [|reflexivity]. destruct (0 <=? start y) eqn:E; lia. }
    assert (FS : start y <= floor (users us y')) by (rewrite F; destruct b; lia).
    assert (FB : floor (users us y') <= start y + dur c y) by (rewrite F; destruct b; lia).
    cbn in A6, A7.
    split; [|rewrite U6; exact A6]. split; [|split; [|split]].
    + constructor; rewrite ?U1, ?U2, ?U5, ?U6, ?U7, ?A1, ?A2, ?A5, ?A6, ?A7, ?OZ; cbn; auto; try lia; try discriminate.
      apply (ni_others c y H).
    + rewrite (floor_free y X), U2, A2. cbn. lia.
    + intros t I. destruct I.
    + intros t d [I|[]]. injection I as <- <-. rewrite (floor_free y X). lia.
Qed.
Lemma set_exec_same : forall y b, t_exec y = b -> TimeSyncModel.set_exec b y = y.
Proof. intros [] b H. cbn in *. subst. reflexivity. Qed.
Lemma process_NI : forall c us y, NI c y -> (forall d, In (UDuration d) us -> 0 < d) -> good True c y (fst (process c us y)) (snd (process c us y)).
Proof.
  intros c us y H U. destruct (process_cases c us y) as [Q|Q B X|o z Q B EC W|o z Q B EC W1 W2|o z Q B X EC].
  - apply good_quiet; auto; lia.
  - apply good_quiet; auto; lia.
  - pose proof (ni_exec c y H B) as X. rewrite <- (set_exec_same y false X) in EC.
    apply (exec_case_NI c us y o z false); auto.
  - pose proof (ni_exec c y H B) as X. rewrite <- (set_exec_same y false X) in EC.
    destruct (exec_case_NI c us y o z false H X EC U (fun _ => eq_refl)) as [(G1 & G2 & G3 & G4) Z0].
    destruct (NI_request c z G1) as (R1 & R2 & R3 & R4). split; [exact R1|]. split; [lia|]. split.
    + intros t I. rewrite sents_app in I. apply in_app_or in I. destruct I as [I|I].
      * destruct (G3 t I) as (g1 & g2 & g3). specialize (g3 Logic.I). split; [lia|]. split; [exact g2|]. intros _. lia.
      * destruct (R3 t I) as (g1 & g2 & g3). auto.
    + intros t d I. apply in_app_or in I. destruct I as [I|I]; [specialize (G4 t d I); lia|].
      exfalso. apply in_execs in I. rewrite execs_request in I. exact I.
  - apply (exec_case_NI c us y o z true); auto. congruence.
Qed.
Lemma tstep_NI : forall c e x, NI c x -> positive e -> sane e -> good (calm e x) c x (fst (tstep c e x)) (snd (tstep c e x)).
Proof.
  intros c e x H P S.
  assert (SM : forall y, t_cur y = t_cur x -> t_next y = t_next x -> t_hop y = t_hop x -> t_exec y = t_exec x ->
    t_last y = t_last x -> (forall p t, In (p, t) (t_others y) -> 0 <= snd t) -> NI c y /\ floor y = floor x).
  { intros y E1 E2 E3 E4 E5 E6. apply NI_same; auto; rewrite E2; [reflexivity|apply (ni_dur c x H)]. }
  assert (QU : forall q o y, sents o = [] -> execs o = [] -> t_cur y = t_cur x -> t_next y = t_next x -> t_hop y = t_hop x -> t_exec y = t_exec x ->
    t_last y = t_last x -> t_others y = t_others x -> good q c x o y).
  { intros q o y A B E1 E2 E3 E4 E5 E6. destruct (SM y) as [N F]; auto; [rewrite E6; apply (ni_others c x H)|].
    apply good_quiet; auto; [lia|rewrite E2; lia]. }
  assert (PR : forall us y, t_cur y = t_cur x -> t_next y = t_next x -> t_hop y = t_hop x -> t_exec y = t_exec x ->
    t_last y = t_last x -> (forall p t, In (p, t) (t_others y) -> 0 <= snd t) -> (forall d, In (UDuration d) us -> 0 < d) ->
    good (calm e x) c x (fst (process c us y)) (snd (process c us y))).
  { intros us y E1 E2 E3 E4 E5 E6 U. destruct (SM y E1 E2 E3 E4 E5 E6) as [N F]. apply (good_same _ c x y); [exact F|rewrite E2; reflexivity|].
    apply (good_mono True); [auto|]. apply process_NI; auto. }
  assert (RQ : forall y, t_cur y = t_cur x -> t_next y = t_next x -> t_hop y = t_hop x -> t_exec y = t_exec x ->
    t_last y = t_last x -> t_others y = t_others x -> good (t_exec x = false) c x (fst (request_next y)) (snd (request_next y))).
  { intros y E1 E2 E3 E4 E5 E6. destruct (SM y) as [N F]; auto; [rewrite E6; apply (ni_others c x H)|].
    apply (good_same _ c x y); [exact F|rewrite E2; reflexivity|]. rewrite <- E4. apply NI_request, N. }
  destruct e; cbn [tstep].
  - assert (O : forall q r, In (q, r) (on_next_step p t (t_others x)) -> 0 <= snd r).
    { intros q r I. unfold on_next_step in I. apply in_map_iff in I. destruct I as ([q' r'] & I1 & I2). cbn in I1.
      destruct (Nat.eqb q' p); injection I1 as <- <-; [exact S|apply (ni_others c x H q' r' I2)]. }
    destruct (t_state _); try (apply PR; auto; fail);
      (destruct (SM (TimeSyncModel.set_others (on_next_step p t (t_others x)) x)) as [N F]; auto;
       apply good_quiet; [exact N|cbn [snd]; rewrite F; lia|cbn; lia|reflexivity|reflexivity]).
  - destruct (t_def x) as [|[] r] eqn:D.
    + apply QU; auto.
    + apply PR; auto. apply (ni_others c x H).
    + apply (good_mono (t_exec x = false)); [cbn [calm]; rewrite D; auto|]. apply RQ; reflexivity.
    + assert (N0 : NI c (TimeSyncModel.set_exec false (set_def r x))).
      { destruct H as [N1 N2 N3 N4 N5 N6]. constructor; cbn; auto. }
      assert (FL : floor x <= floor (TimeSyncModel.set_exec false (set_def r x))).
      { rewrite (floor_free (TimeSyncModel.set_exec false (set_def r x)) eq_refl). apply (floor_le_next c x H). }
      destruct (_ || _).
      * set (y := set_wall (t_sync (set_exec false (set_def r x))) false (set_exec false (set_def r x))).
        assert (N1 : NI c y) by (destruct N0 as [M1 M2 M3 M4 M5 M6]; constructor; auto).
        destruct (NI_request c y N1) as (R1 & R2 & R3 & R4). destruct (request_next y) as [o z]. cbn [fst snd] in *.
        split; [exact R1|]. change (floor (TimeSyncModel.set_exec false (set_def r x))) with (floor y) in FL.
        change (t_next y) with (t_next x) in R2. split; [lia|]. split.
        -- intros t I. destruct (R3 t I) as (g1 & g2 & g3). auto.
        -- intros t d [I|I]; [discriminate|]. specialize (R4 t d I). lia.
      * apply good_quiet; auto; cbn; lia.
  - assert (O : forall q t, In (q, t) (add_other p (t_others x)) -> 0 <= snd t).
    { intros q t I. unfold add_other in I. destruct (lookup p (t_others x)); [apply (ni_others c x H q t I)|].
      apply in_app_or in I. destruct I as [I|[I|[]]]; [apply (ni_others c x H q t I)|]. injection I as <- <-. cbn; lia. }
    set (y0 := if dyn then set_peers (p :: t_peers x) x else x). cbn [fst snd].
    set (y := TimeSyncModel.set_others (add_other p (t_others y0)) y0).
    destruct (SM y) as [N F]; try (destruct dyn; reflexivity); [destruct dyn; exact O|].
    assert (E1 : t_cur y = t_cur x) by (destruct dyn; reflexivity). assert (E2 : t_next y = t_next x) by (destruct dyn; reflexivity).
    assert (E3 : t_exec y = t_exec x) by (destruct dyn; reflexivity).
    split; [exact N|]. rewrite E2. split; [lia|]. split.
    + intros t I. rewrite E1, E3 in I. destruct (0 <=? fst (t_cur x)) eqn:EC; [|destruct I]. cbn in I. destruct I as [<-|[]].
      rewrite F. unfold floor. rewrite EC. pose proof (ni_cur c x H) as NC. pose proof (ni_dur c x H) as ND. destruct (t_exec x); cbn [andb]; lia.
    + intros t d I. destruct (0 <=? _); [destruct I as [I|[]]; discriminate|destruct I].
  - destruct (lookup _ _); [|apply QU; auto]. apply PR; auto. intros q r I. apply filter_In in I. apply (ni_others c x H q r). apply I.
  - apply (good_mono (t_exec x = false)); [auto|]. apply RQ; reflexivity.
  - apply QU; reflexivity.
  - destruct (users_frame [u] x) as (U1 & U2 & U3 & U4 & U5 & U6 & U7 & _). cbn [users fold_left] in *.
    destruct (NI_same c x (user u x) H) as [N F]; auto; [apply (users_dur [u] x P (ni_dur c x H))|rewrite U3; apply (ni_others c x H)|].
    apply good_quiet; auto; cbn [snd]; lia.
  - apply QU; reflexivity.
  - apply QU; reflexivity.
  - destruct (_ && _); [|apply QU; auto]. cbn. destruct (t_exec x) eqn:X; apply QU; auto.
Qed.

(** Announcements increase. *)
Lemma request_announced : forall y, announced (fst (request_next y)) = [] /\ t_last (snd (request_next y)) = t_last y \/
  announced (fst (request_next y)) = [fst (t_next y)] /\ t_last (snd (request_next y)) = fst (t_next y) /\ t_last y <> fst (t_next y).
Proof. intros y. destruct (request_out y) as [[-> H]|[-> H]]; cbn; auto. Qed.
Lemma process_announced : forall c us y, let z := snd (process c us y) in announced (fst (process c us y)) = [] /\ t_last z = t_last y \/
  announced (fst (process c us y)) = [fst (t_next z)] /\ t_last z = fst (t_next z) /\ t_last y <> fst (t_next z).
Proof.
  assert (EL : forall c us y o z, exec_case c us y o z -> announced o = [] /\ t_last z = t_last y).
  { intros c us y o z H. inversion H as [m A1 A2 A3|y' A0 A1 A2 A3 A4 A5 A6 A7 A8 A9 A10 A11]; subst; [auto|].
    destruct (users_frame us y') as (_ & _ & _ & _ & _ & _ & U7 & _). split; [reflexivity|congruence]. }
  intros c us y. destruct (process_cases c us y) as [Q|Q B X|o z Q B EC W|o z Q B EC W1 W2|o z Q B X EC]; cbn; auto.
  - left. eapply EL; eauto.
  - destruct (EL _ _ _ _ _ EC) as [E1 E2]. destruct (request_frame z) as (_ & R2 & _). rewrite R2.
    unfold announced. rewrite flat_map_app. fold (announced o). rewrite E1. cbn [app]. fold (announced (fst (request_next z))). rewrite <- E2. apply request_announced.
  - left. destruct (EL _ _ _ _ _ EC). auto.
Qed.
Lemma tstep_announced : forall c e x, let z := snd (tstep c e x) in announced (fst (tstep c e x)) = [] /\ t_last z = t_last x \/
  announced (fst (tstep c e x)) = [fst (t_next z)] /\ t_last z = fst (t_next z) /\ t_last x <> fst (t_next z).
Proof.
  intros c e x. assert (RQ : forall y, t_last y = t_last x -> t_next y = t_next x -> let z := snd (request_next y) in announced (fst (request_next y)) = [] /\ t_last z = t_last x \/
    announced (fst (request_next y)) = [fst (t_next z)] /\ t_last z = fst (t_next z) /\ t_last x <> fst (t_next z)).
  { intros y E1 E2. cbn. destruct (request_frame y) as (_ & R2 & _). rewrite R2, <- E1. apply request_announced. }
  destruct e; cbn [tstep].
  - destruct (t_state _); try (left; split; reflexivity); apply (process_announced c us (TimeSyncModel.set_others (on_next_step p t (t_others x)) x)).
  - destruct (t_def x) as [|[] r]; [left; split; reflexivity|apply (process_announced c us (set_def r x))|apply RQ; reflexivity|].
    destruct (_ || _); [|left; split; reflexivity].
    specialize (RQ (set_wall (t_sync (set_exec false (set_def r x))) false (set_exec false (set_def r x))) eq_refl eq_refl).
    destruct (request_next _) as [o z]. exact RQ.
  - left. destruct dyn; cbn; destruct (0 <=? _); split; reflexivity.
  - destruct (lookup _ _); [|left; split; reflexivity].
    apply (process_announced c us (TimeSyncModel.set_others (remove_other p (t_others x)) (set_peers (filter (fun q => negb (Nat.eqb q p)) (t_peers x)) x))).
  - apply RQ; reflexivity.
  - left; split; reflexivity.
  - destruct (users_frame [u] x) as (_ & _ & _ & _ & _ & _ & U7 & _). left. split; [reflexivity|exact U7].
  - left; split; reflexivity.
  - left; split; reflexivity.
  - left. destruct (_ && _); [|split; reflexivity]. cbn. destruct (t_exec x); split; reflexivity.
Qed.
Lemma trun_announced : forall c es x, NI c x -> Forall positive es -> Forall sane es -> chain Z.lt (t_last x :: announced (fst (trun c es x))).
Proof.
  intros c. induction es as [|e es IH]; intros x H P S; [exact I|]. inversion P; inversion S; subst. cbn [trun].
  pose proof (tstep_announced c e x) as A. pose proof (tstep_NI c e x H H2 H6) as (G1 & G2 & _). destruct (tstep c e x) as [o x1]. cbn [fst snd] in *.
  specialize (IH x1 G1 H3 H7). destruct (trun c es x1) as [o' x2]. cbn [fst] in *. unfold announced in *. rewrite flat_map_app.
  destruct A as [[A1 A2]|(A1 & A2 & A3)]; rewrite A1; cbn [app]; [rewrite <- A2; exact IH|].
  rewrite <- A2 in *. split; [|exact IH]. pose proof (ni_last c x H). lia.
Qed.
