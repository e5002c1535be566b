(** Proofs about ConnectorModel.v *)
From Coq Require Import List Arith Bool Lia.
From Verif Require Import ConnectorModel.
Import ListNotations.

Definition callback (e : event) : bool := match e with Success _ | Failure | NoListener => true | _ => false end.
Definition callbacks (l : list event) : nat := length (filter callback l).
Arguments callbacks : simpl never.
Arguments closed : simpl never.
Lemma callbacks_app : forall a b, callbacks (a ++ b) = callbacks a + callbacks b.
Proof. intros. unfold callbacks. now rewrite filter_app, app_length. Qed.
Lemma callbacks_other : forall l e, callback e = false -> callbacks (l ++ [e]) = callbacks l.
Proof. intros l e H. rewrite callbacks_app. unfold callbacks at 2. cbn. rewrite H. cbn. lia. Qed.
Lemma run_app : forall a b x, run (a ++ b) x = run b (run a x).
Proof. intros. apply fold_left_app. Qed.

Lemma closed_in : forall n x, closed n x = true <-> In n (k_closed x).
Proof. intros. unfold closed. rewrite existsb_exists. split; [intros (m & I & E); apply Nat.eqb_eq in E; now subst|intro I; exists n; split; [exact I|apply Nat.eqb_refl]]. Qed.

(** a number of a socket is given to at most one *)
Definition unanswered (x : st) : Prop := k_phase x = Pending -> k_conn x <> ONone -> callbacks (k_log x) = 0.
Record inv (x : st) : Prop := mkInv {
  i_idle : k_phase x = Idle -> k_conn x = ONone /\ k_timer x = ONone /\ callbacks (k_log x) = 0;
  i_conn : k_conn x <> ONone -> k_phase x = Pending /\ callbacks (k_log x) = 0;
  i_one : callbacks (k_log x) <= 1;
  i_bad : ~ In BadState (k_log x);
  i_sock : k_sock x < k_next x;
  i_closed : forall n, In n (k_closed x) -> n < k_next x;
  i_succ : forall n, In (Success n) (k_log x) -> n < k_next x /\ n <> k_sock x /\ ~ In n (k_closed x)
}.
Lemma inv_init : inv init.
Proof. constructor; cbn; auto; try tauto; try lia. Qed.
Ltac brk := repeat match goal with |- context [if ?b then _ else _] => destruct b eqn:? | |- context [match ?b with Idle => _ | Pending => _ | Connected => _ end] => destruct b eqn:? end.
Lemma inv_step : forall x o, inv x -> inv (step x o).
Proof.
  intros [p l ph s n c co ti cx lg] o [I1 I2 I3 I4 I5 I6 I7]. cbn in I1, I2, I3, I4, I5, I6, I7.
  destruct o as [|t f| | |ok| | | |]; cbn [step k_parent k_listener k_phase k_sock k_next k_closed k_conn k_timer k_ctx k_log].
  - destruct p; constructor; cbn; auto.
  - destruct p; [|constructor; cbn; auto]. unfold connect. cbn [k_phase]. destruct ph.
    + destruct (I1 eq_refl) as (-> & -> & C). destruct f.
      * unfold call, logged. cbn. constructor; cbn; rewrite ?callbacks_app, ?C; try discriminate; try tauto; try lia.
        -- destruct l; unfold callbacks; cbn; lia.
        -- intro I. apply in_app_or in I as [I|[I|[]]]; [tauto|destruct l; discriminate].
        -- intros m I. apply in_app_or in I as [I|[I|[]]]; [auto|destruct l; discriminate].
      * destruct (closed _ _) eqn:E; constructor; cbn; auto; try discriminate; try lia.
        -- intros m I. apply I6 in I. lia.
        -- intros m I. apply I7 in I. repeat split; try tauto; lia.
    + unfold logged. constructor; cbn; rewrite ?callbacks_other by reflexivity; auto; try discriminate.
      * intro I. apply in_app_or in I as [I|[I|[]]]; [tauto|discriminate].
      * intros m I. apply in_app_or in I as [I|[I|[]]]; [auto|discriminate].
    + unfold logged. constructor; cbn; rewrite ?callbacks_other by reflexivity; auto; try discriminate.
      * intro I. apply in_app_or in I as [I|[I|[]]]; [tauto|discriminate].
      * intros m I. apply in_app_or in I as [I|[I|[]]]; [auto|discriminate].
  - destruct p; [|constructor; cbn; auto]. unfold shutdown. constructor; cbn; auto.
    + intro H. apply I1 in H as (-> & -> & H). auto.
    + destruct co; cbn; auto; intros _; apply I2; discriminate.
    + intros m [<-|I]; auto.
    + intros m I. apply I7 in I as (A & B & C). repeat split; auto. intros [D|D]; [congruence|auto].
  - destruct p; [|constructor; cbn; auto]. unfold destroy, shutdown. constructor; cbn; auto.
    + intro H. apply I1 in H as (-> & -> & H). auto.
    + destruct co; cbn; auto; intros _; apply I2; discriminate.
    + intros m [<-|I]; auto.
    + intros m I. apply I7 in I as (A & B & C). repeat split; auto. intros [D|D]; [congruence|auto].
  - destruct co; constructor; cbn; auto.
    + intro H. apply I1 in H. destruct H. discriminate.
    + intros _. apply I2. discriminate.
  - destruct ti; constructor; cbn; auto. intro H. apply I1 in H as (_ & H & _). discriminate.
  - destruct co as [| |ok]; [constructor; cbn; auto..|]. destruct I2 as [-> C]; [discriminate|]. unfold on_connect. cbn [k_phase k_ctx k_parent k_sock k_listener k_next k_closed k_conn k_timer k_log].
    destruct ok; cbn [negb].
    + destruct cx; cbn [negb]; [|constructor; cbn; auto; try discriminate; congruence].
      destruct (closed _ _) eqn:E.
      * unfold logged. constructor; cbn; rewrite ?callbacks_other, ?C by reflexivity; cbn; try discriminate; try tauto; try lia.
        -- intro I. apply in_app_or in I as [I|[I|[]]]; [tauto|discriminate].
        -- intros m [<-|I]; [lia|]. apply I6 in I. lia.
        -- intros m I. apply in_app_or in I as [I|[I|[]]]; [|discriminate]. apply I7 in I as (A & B & D). repeat split; try lia. intros [F|F]; [lia|auto].
      * destruct p.
        -- unfold call, logged. cbn. constructor; cbn; rewrite ?callbacks_app, ?C; try discriminate; try congruence; try lia.
           ++ destruct l; unfold callbacks; cbn; lia.
           ++ intro I. apply in_app_or in I as [I|[I|[]]]; [tauto|destruct l; discriminate].
           ++ intros m [<-|I]; [lia|]. apply I6 in I. lia.
           ++ intros m I. apply in_app_or in I as [I|[I|[]]].
              ** apply I7 in I as (A & B & D). repeat split; try lia. intros [F|F]; [lia|auto].
              ** destruct l; [|discriminate]. injection I as <-. repeat split; try lia. intros [F|F]; [lia|]. assert (G : closed s (mkSt true true Connected s n c ONone ti true lg) = true) by (apply closed_in; exact F). unfold closed in *. cbn in *. congruence.
        -- constructor; cbn; try discriminate; try congruence; auto; try lia.
           ++ intros m [<-|[<-|I]]; try lia. apply I6 in I. lia.
           ++ intros m I. apply I7 in I as (A & B & D). repeat split; try lia. intros [F|[F|F]]; [congruence|lia|auto].
    + unfold call, logged. cbn. destruct p; constructor; cbn; rewrite ?callbacks_app, ?C; try discriminate; try congruence; auto; try lia.
      * destruct l; unfold callbacks; cbn; lia.
      * intro I. apply in_app_or in I as [I|[I|[]]]; [tauto|destruct l; discriminate].
      * intros m I. apply in_app_or in I as [I|[I|[]]]; [auto|destruct l; discriminate].
  - destruct ti as [| |ok]; [constructor; cbn; auto..|]. unfold on_timer. constructor; cbn; auto.
    + intro H. apply I1 in H as (_ & H & _). discriminate.
    + destruct ok, ph; cbn; auto. destruct co; cbn; auto. intros _. apply I2. discriminate.
  - constructor; cbn; auto.
Qed.
Lemma inv_run : forall ops x, inv x -> inv (run ops x).
Proof. induction ops as [|o ops IH]; intros x H; [exact H|]. apply IH. now apply inv_step. Qed.
Lemma reach : forall ops, inv (run ops init).
Proof. intro. apply inv_run, inv_init. Qed.

(** what is logged *)
Lemma log_step : forall x o, exists l, k_log (step x o) = k_log x ++ l /\ (k_parent x = false -> callbacks l = 0 /\ k_parent (step x o) = false).
Proof.
  intros [p l ph s n c co ti cx lg] o. destruct o as [|t f| | |ok| | | |]; cbn [step k_parent k_listener k_phase k_sock k_next k_closed k_conn k_timer k_ctx k_log].
  - exists []. rewrite app_nil_r. destruct p; cbn; auto.
  - destruct p; [|exists []; rewrite app_nil_r; auto]. unfold connect, call, logged. cbn. destruct ph; [|eexists; split; [reflexivity|discriminate]..]. destruct f; cbn; [eexists; split; [reflexivity|discriminate]|].
    exists []. rewrite app_nil_r. split; auto; discriminate.
  - exists []. rewrite app_nil_r. destruct p; cbn; auto.
  - exists []. rewrite app_nil_r. destruct p; cbn; auto.
  - exists []. rewrite app_nil_r. destruct co; cbn; auto.
  - exists []. rewrite app_nil_r. destruct ti; cbn; auto.
  - destruct co as [| |ok]; [exists []; rewrite app_nil_r; auto..|]. unfold on_connect, call, logged. cbn.
    destruct ph; [eexists; split; [reflexivity|cbn; auto]| |eexists; split; [reflexivity|cbn; auto]].
    destruct ok; cbn; [|destruct p; cbn; [eexists; split; [reflexivity|discriminate]|exists []; rewrite app_nil_r; auto]].
    destruct cx; cbn; [|exists []; rewrite app_nil_r; auto]. destruct (closed _ _); cbn; [eexists; split; [reflexivity|cbn; auto]|].
    destruct p; cbn; [eexists; split; [reflexivity|discriminate]|exists []; rewrite app_nil_r; auto].
  - exists []. rewrite app_nil_r. destruct ti; cbn; auto.
  - exists []. rewrite app_nil_r. auto.
Qed.
Lemma dead_run : forall ops x, k_parent x = false -> exists l, k_log (run ops x) = k_log x ++ l /\ callbacks l = 0.
Proof.
  induction ops as [|o ops IH]; intros x P; [exists []; rewrite app_nil_r; auto|]. destruct (log_step x o) as (l & E & F). destruct (F P) as [C D]. destruct (IH _ D) as (m & G & H).
  exists (l ++ m). change (run (o :: ops) x) with (run ops (step x o)). rewrite G, E, app_assoc, callbacks_app, C, H. auto.
Qed.

(** every request is answered *)
Definition answered (x : st) : Prop := k_phase x <> Idle -> k_conn x = ONone -> k_parent x = true -> k_ctx x = true -> ~ In NoEndpoint (k_log x) -> callbacks (k_log x) = 1.
Lemma callbacks_call : forall l e, callback e = true -> callbacks (l ++ [e]) = callbacks l + 1.
Proof. intros l e H. rewrite callbacks_app. unfold callbacks at 2. cbn. rewrite H. reflexivity. Qed.
Lemma answered_step : forall x o, inv x -> answered x -> answered (step x o).
Proof.
  intros [p l ph s n c co ti cx lg] o [I1 I2 I3 I4 I5 I6 I7] A. unfold answered in *. cbn in I1, I2, I3, I4, I5, I6, I7, A.
  destruct o as [|t f| | |ok| | | |]; cbn [step k_parent k_listener k_phase k_sock k_next k_closed k_conn k_timer k_ctx k_log].
  - destruct p; cbn; auto.
  - destruct p; [|cbn; auto]. unfold connect. cbn [k_phase]. destruct ph.
    + destruct (I1 eq_refl) as (-> & -> & C). destruct f; cbn; [|discriminate]. intros _ _ _ _ _. rewrite callbacks_call, C; [reflexivity|destruct l; reflexivity].
    + cbn. intros B D _ E F. rewrite callbacks_other by reflexivity. apply A; auto. intro G. apply F. apply in_or_app. auto.
    + cbn. intros B D _ E F. rewrite callbacks_other by reflexivity. apply A; auto. intro G. apply F. apply in_or_app. auto.
  - destruct p; cbn; auto. intros B D. destruct co; try discriminate. auto.
  - destruct p; cbn; [discriminate|auto].
  - destruct co; cbn; auto. discriminate.
  - destruct ti; cbn; auto.
  - destruct co as [| |ok]; [cbn; auto..|]. destruct I2 as [-> C]; [discriminate|]. unfold on_connect, call, logged. cbn. destruct ok; cbn.
    + destruct cx; cbn; [|discriminate]. destruct (closed _ _); cbn.
      * intros _ _ _ _ F. exfalso. apply F. apply in_or_app. right. now left.
      * destruct p; cbn; [|discriminate]. intros. rewrite callbacks_call, C; [reflexivity|destruct l; reflexivity].
    + destruct p; cbn; [|discriminate]. intros. rewrite callbacks_call, C; [reflexivity|destruct l; reflexivity].
  - destruct ti as [| |ok]; cbn; auto. destruct ok, ph; auto. destruct co; cbn; auto. discriminate.
  - cbn. discriminate.
Qed.
Lemma answered_run : forall ops x, inv x -> answered x -> answered (run ops x).
Proof. induction ops as [|o ops IH]; intros x H A; [exact A|]. apply IH; [now apply inv_step|now apply answered_step]. Qed.
Lemma keep_alive : forall ops x, ~ In Destroy ops -> ~ In Drop ops -> k_parent x = true -> k_ctx x = true -> k_parent (run ops x) = true /\ k_ctx (run ops x) = true.
Proof.
  induction ops as [|o ops IH]; intros x D E P C; [auto|]. apply IH; [intro; apply D; now right|intro; apply E; now right|..].
  - destruct x as [p l ph s n c co ti cx lg]. cbn in P, C. subst. destruct o; cbn; auto; try (exfalso; apply D; now left).
    + unfold connect, call, logged. cbn. destruct ph; cbn; auto. destruct fails; cbn; auto.
    + destruct co; auto.
    + destruct ti; auto.
    + destruct co as [| |[]]; auto; unfold on_connect, call, logged; cbn; destruct ph; cbn; auto. destruct (closed _ _); cbn; auto.
    + destruct ti; auto.
  - destruct x as [p l ph s n c co ti cx lg]. cbn in P, C. subst. destruct o; cbn; auto; try (exfalso; apply E; now left).
    + unfold connect, call, logged. cbn. destruct ph; cbn; auto. destruct fails; cbn; auto.
    + destruct co; auto.
    + destruct ti; auto.
    + destruct co as [| |[]]; auto; unfold on_connect, call, logged; cbn; destruct ph; cbn; auto. destruct (closed _ _); cbn; auto.
    + destruct ti; auto.
Qed.
Lemma phase_step : forall x o, k_phase x <> Idle -> k_phase (step x o) <> Idle.
Proof.
  intros [p l ph s n c co ti cx lg] o H. cbn in H. destruct o; cbn; try (destruct p; cbn; auto; fail); auto.
  - destruct p; auto. unfold connect, call, logged. cbn. destruct ph; cbn; auto.
  - destruct co; auto.
  - destruct ti; auto.
  - destruct co as [| |[]]; auto; unfold on_connect, call, logged; cbn; destruct ph, p, cx; cbn; auto; try discriminate; destruct (closed _ _); cbn; discriminate.
  - destruct ti; auto.
Qed.
Lemma phase_run : forall ops x, k_phase x <> Idle -> k_phase (run ops x) <> Idle.
Proof. induction ops as [|o ops IH]; intros x H; [exact H|]. apply IH. now apply phase_step. Qed.
Lemma connect_phase : forall x t f, k_parent x = true -> k_phase (step x (Connect t f)) <> Idle.
Proof. intros [p l ph s n c co ti cx lg] t f P. cbn in *. subst. unfold connect, call, logged. cbn. destruct ph; cbn; try discriminate. destruct f; cbn; discriminate. Qed.

(** no exception without Shutdown *)
Definition quiet (x : st) : Prop := (k_phase x = Idle \/ k_conn x <> ONone -> k_closed x = []) /\ ~ In NoEndpoint (k_log x).
Lemma quiet_step : forall x o, inv x -> o <> Shutdown -> o <> Destroy -> quiet x -> quiet (step x o).
Proof.
  intros [p l ph s n c co ti cx lg] o [I1 I2 I3 I4 I5 I6 I7] NS ND [Q1 Q2]. unfold quiet in *. cbn in I1, I2, I3, I4, I5, I6, I7, Q1, Q2.
  destruct o as [|t f| | |ok| | | |]; cbn [step k_parent k_listener k_phase k_sock k_next k_closed k_conn k_timer k_ctx k_log]; try congruence.
  - destruct p; cbn; auto.
  - destruct p; [|cbn; auto]. unfold connect. cbn [k_phase]. destruct ph.
    + destruct f; cbn; [|auto]. destruct (I1 eq_refl) as (-> & _). split; [intros [X|X]; [discriminate|congruence]|]. intro I. apply in_app_or in I as [I|[I|[]]]; [auto|destruct l; discriminate].
    + cbn. split; [auto|]. intro I. apply in_app_or in I as [I|[I|[]]]; [auto|discriminate].
    + cbn. split; [auto|]. intro I. apply in_app_or in I as [I|[I|[]]]; [auto|discriminate].
  - destruct co; cbn; auto. split; [|auto]. intros _. apply Q1. right. discriminate.
  - destruct ti; cbn; auto.
  - destruct co as [| |ok]; [cbn; auto..|]. destruct I2 as [-> C]; [discriminate|]. assert (c = []) as -> by (apply Q1; right; discriminate). unfold on_connect, call, logged. cbn. destruct ok; cbn.
    + destruct cx; cbn; [|split; [intros [X|X]; [discriminate|congruence]|auto]]. unfold closed. cbn.
      destruct p; cbn; (split; [intros [X|X]; [discriminate|congruence]|auto]). intro I. apply in_app_or in I as [I|[I|[]]]; [auto|destruct l; discriminate].
    + destruct p; cbn; (split; [intros [X|X]; [discriminate|congruence]|auto]). intro I. apply in_app_or in I as [I|[I|[]]]; [auto|destruct l; discriminate].
  - destruct ti as [| |ok]; cbn; auto. split; [|auto]. intros [X|X]; [auto|]. apply Q1. right. destruct ok, ph, co; cbn in X; auto; discriminate.
  - cbn. auto.
Qed.
Lemma quiet_run : forall ops x, inv x -> ~ In Shutdown ops -> ~ In Destroy ops -> quiet x -> quiet (run ops x).
Proof.
  induction ops as [|o ops IH]; intros x H A B Q; [exact Q|]. apply IH; [now apply inv_step|intro; apply A; now right|intro; apply B; now right|].
  apply quiet_step; auto; intro; subst; [apply A|apply B]; now left.
Qed.

(** the timeout *)
Definition timed (x : st) : Prop := k_phase x <> Idle /\ (k_conn x = OWait -> k_timer x = OWait \/ k_timer x = OReady true).
Lemma timed_step : forall x o, inv x -> timed x -> timed (step x o).
Proof.
  intros x o I [P T]. split; [now apply phase_step|]. destruct x as [p l ph s n c co ti cx lg], I as [I1 I2 I3 I4 I5 I6 I7]. cbn in P, T, I2.
  destruct o as [|t f| | |ok| | | |]; cbn [step k_parent k_listener k_phase k_sock k_next k_closed k_conn k_timer k_ctx k_log].
  - destruct p; cbn; auto.
  - destruct p; [|cbn; auto]. unfold connect. cbn [k_phase]. destruct ph; [congruence|cbn; auto..].
  - destruct p; cbn; auto. destruct co; discriminate.
  - destruct p; cbn; auto. destruct co; discriminate.
  - destruct co; cbn; auto; discriminate.
  - destruct ti; cbn; auto.
  - destruct co as [| |ok]; [cbn; auto..|]. destruct I2 as [-> C]; [discriminate|]. unfold on_connect, call, logged. cbn. destruct ok, cx, p; cbn; try discriminate; destruct (closed _ _); discriminate.
  - destruct ti as [| |ok]; cbn; auto. destruct ok.
    + destruct ph; cbn; auto; [congruence| |]; destruct co; try discriminate. exfalso. destruct I2 as [X _]; [discriminate|discriminate].
    + intro X. apply T in X. destruct X; discriminate.
  - cbn. auto.
Qed.
Lemma timed_run : forall ops x, inv x -> timed x -> timed (run ops x).
Proof. induction ops as [|o ops IH]; intros x H A; [exact A|]. apply IH; [now apply inv_step|now apply timed_step]. Qed.
Lemma timed_ends : forall x, inv x -> timed x -> k_conn (run [Expire; HTimer; HConnect] x) = ONone.
Proof.
  assert (HC : forall x, k_conn x <> OWait -> k_conn (step x HConnect) = ONone).
  { intros [p l ph s n c co ti cx lg] H. cbn in H. cbn. destruct co as [| |ok]; [reflexivity|congruence|]. unfold on_connect, call, logged. cbn. destruct ph; cbn; auto. destruct ok, cx, p; cbn; auto; destruct (closed _ _); reflexivity. }
  intros x I [P T]. change (run [Expire; HTimer; HConnect] x) with (step (step (step x Expire) HTimer) HConnect). apply HC.
  destruct x as [p l ph s n c co ti cx lg], I as [I1 I2 I3 I4 I5 I6 I7]. cbn in P, T, I2. destruct co as [| |ok].
  - cbn. destruct ti as [| |[]]; cbn; try discriminate; destruct ph; discriminate.
  - destruct I2 as [-> _]; [discriminate|]. destruct (T eq_refl) as [-> | ->]; cbn; discriminate.
  - cbn. destruct ti as [| |[]]; cbn; try discriminate; destruct ph; discriminate.
Qed.
Lemma idle_run : forall ops x, k_phase x = Idle -> k_parent x = true -> (forall t f, ~ In (Connect t f) ops) -> ~ In Destroy ops -> inv x -> k_phase (run ops x) = Idle /\ k_parent (run ops x) = true.
Proof.
  induction ops as [|o ops IH]; intros x P A N D I; [auto|].
  assert (k_phase (step x o) = Idle /\ k_parent (step x o) = true) as [P' A'].
  { destruct (i_idle x I P) as (C & T & _). destruct x as [p l ph s n c co ti cx lg]. cbn in *. subst. destruct o; cbn; auto; exfalso; first [eapply N; left; reflexivity|apply D; left; reflexivity]. }
  apply IH; auto; [intros t f X; eapply N; right; exact X|intro X; apply D; now right|now apply inv_step].
Qed.
(** the listener *)
Lemma listener_run : forall ops x, k_listener x = true -> ~ In NoListener (k_log x) -> ~ In NoListener (k_log (run ops x)).
Proof.
  induction ops as [|o ops IH]; intros x L N; [exact N|].
  assert (k_listener (step x o) = true /\ ~ In NoListener (k_log (step x o))) as [L' N'].
  { destruct x as [p l ph s n c co ti cx lg]. cbn in L, N. subst.
    assert (AP : forall e, e <> NoListener -> ~ In NoListener (lg ++ [e])) by (intros e E X; apply in_app_or in X as [X|[X|[]]]; [auto|congruence]).
    destruct o; cbn; auto; try (destruct p; cbn; auto; fail).
    - destruct p; auto. unfold connect, call, logged. cbn. destruct ph; cbn; auto; [|split; [reflexivity|apply AP; discriminate]..]. destruct fails; cbn; auto. split; [reflexivity|apply AP; discriminate].
    - destruct co; auto.
    - destruct ti; auto.
    - destruct co as [| |[]]; auto; unfold on_connect, call, logged; cbn; destruct ph; cbn; try (split; [reflexivity|apply AP; discriminate]).
      + destruct cx; cbn; auto. destruct (closed _ _); cbn; [split; [reflexivity|apply AP; discriminate]|]. destruct p; cbn; auto. split; [reflexivity|apply AP; discriminate].
      + destruct p; cbn; auto. split; [reflexivity|apply AP; discriminate].
    - destruct ti; auto. }
  now apply IH.
Qed.
