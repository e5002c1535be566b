(** Listening for connections (C84) *)
From Coq Require Import List Arith Bool Lia.
From Verif Require Import ListenModel ListenProofs.
Import ListNotations.

(** ** One acceptor *)
(** A call of AsyncAccept is refused iff one is pending, and every other is answered exactly once: calls and answers alternate. *)
Fixpoint alternating (pending : bool) (l : list event) : bool :=
  match l with
  | [] => true
  | EAccepted :: l => negb pending && alternating true l
  | EInvalid :: l => pending && alternating pending l
  | EDone _ :: l => pending && alternating false l
  end.
Lemma step_wellformed : forall a o, wellformed a -> wellformed (fst (step a o)).
Proof.
  intros [op pe ao tw tf] o W. unfold wellformed in *. destruct o as [t| |r| | |]; cbn in *.
  - unfold async_accept. destruct pe; cbn; [exact W|]. unfold start_op. cbn. destruct op; split; congruence.
  - rewrite W. destruct ao; cbn; split; congruence.
  - destruct ao; cbn in *; rewrite ?W; split; congruence.
  - destruct tw; exact W.
  - destruct ao as [| |r]; cbn; [exact W|exact W|]. assert (P : pe = true) by (apply W; discriminate). subst pe. unfold complete. cbn. destruct r as [|s]; [cbn; split; congruence|].
    destruct (s_opts s), (s_local s); cbn; split; congruence.
  - destruct (tf =? 0); [exact W|]. unfold expired. cbn. destruct pe; [|exact W]. destruct ao; cbn; split; try congruence; intros; apply W; congruence.
Qed.
Lemma run_alternating : forall ops a, wellformed a -> alternating (a_pending a) (snd (run ops a)) = true.
Proof.
  induction ops as [|o ops IH]; intros a W; [reflexivity|]. pose proof (IH _ (step_wellformed a o W)) as H. cbn [run].
  destruct (step a o) as [a1 e1] eqn:S. cbn [fst] in H. destruct (run ops a1) as [a2 e2]. cbn [snd] in *. destruct a as [op pe ao tw tf]. cbn [a_pending].
  destruct o as [t| |r| | |]; cbn in S.
  - unfold async_accept in S. cbn in S. destruct pe; injection S as <- <-; cbn in *; auto.
  - injection S as <- <-. exact H.
  - destruct ao; injection S as <- <-; exact H.
  - destruct tw; injection S as <- <-; exact H.
  - destruct ao as [| |r]; [injection S as <- <-; exact H|injection S as <- <-; exact H|]. assert (P : pe = true) by (apply W; discriminate). subst pe. unfold complete in S. cbn in S.
    destruct r as [|s]; [injection S as <- <-; exact H|]. destruct (s_opts s), (s_local s); cbn in S; injection S as <- <-; exact H.
  - destruct (tf =? 0); injection S as <- <-; exact H.
Qed.
Theorem C84_answered_once : forall ops, alternating false (snd (run ops acc0)) = true.
Proof. intros ops. apply (run_alternating ops acc0). unfold wellformed. cbn. split; congruence. Qed.
Print Assumptions C84_answered_once.
Example C84_answered_once_ex : snd (run [OAccept true; OAccept false; ONet RErr; ORunAccept; OAccept false; OShutdown; ORunAccept] acc0) = [EAccepted; EInvalid; EDone Failure; EAccepted; EDone Failure].
Proof. reflexivity. Qed.

(** An accept with a timeout ends: as long as it has not, its timer waits or has expired, and when that is handled it fails. *)
Theorem C84_timeout : forall ops1 ops2 a1 a2, run ops1 acc0 = (a1, snd (run ops1 acc0)) -> a_pending a1 = false -> fst (run (OAccept true :: ops2) a1) = a2 ->
  (forall o, ~ In (EDone o) (snd (run (OAccept true :: ops2) a1))) ->
  exists o, snd (run [OExpire; ORunTimer; ORunAccept] a2) = [EDone o].
Proof.
  intros ops1 ops2 a1 a2 _ P E N.
  assert (I : forall ops a, a_pending a = true -> (a_op a = AWait -> t_wait a = true \/ t_fired a <> 0) -> a_op a <> ANone -> (forall o, ~ In (EDone o) (snd (run ops a))) ->
            let a' := fst (run ops a) in a_pending a' = true /\ (a_op a' = AWait -> t_wait a' = true \/ t_fired a' <> 0) /\ a_op a' <> ANone).
  { clear. induction ops as [|o ops IH]; intros a P T O N; [now repeat split|]. cbn [run] in *. destruct (step a o) as [b e1] eqn:S. destruct (run ops b) as [b2 e2] eqn:R. cbn [fst snd] in *.
    assert (N1 : forall o, ~ In (EDone o) e1) by (intros x X; apply (N x); apply in_or_app; now left). assert (N2 : forall o, ~ In (EDone o) e2) by (intros x X; apply (N x); apply in_or_app; now right).
    specialize (IH b). rewrite R in IH. cbn [fst snd] in IH. destruct a as [op pe ao tw tf]. cbn in P, T, O. subst pe.
    destruct o as [t| |r| | |]; cbn in S.
    - injection S as <- <-. now apply IH.
    - injection S as <- <-. apply IH; cbn; auto; destruct ao; cbn; try congruence.
    - destruct ao; injection S as <- <-; apply IH; cbn; auto; congruence.
    - destruct tw; injection S as <- <-; apply IH; cbn; auto; congruence.
    - destruct ao as [| |r]; [injection S as <- <-; now apply IH|injection S as <- <-; now apply IH|]. exfalso. match type of S with (let '(_, _) := ?m in _) = _ => destruct m as [x y] end. injection S as <- <-. apply (N1 y). now left.
    - destruct (Nat.eqb_spec tf 0); injection S as <- <-; apply IH; cbn; auto; destruct ao; cbn; congruence. }
  cbn [run] in E, N. cbn [step] in E, N. unfold async_accept in E, N. rewrite P in E, N. cbn [app fst snd] in E, N.
  set (b := mkAcc (a_open a1) true (start_op a1) true (t_fired a1)) in *.
  specialize (I ops2 b eq_refl). destruct (run ops2 b) as [c e] eqn:R. cbn [fst snd] in *. subst c.
  destruct I as (I1 & I2 & I3); cbn; auto.
  { unfold start_op. now destruct (a_open a1). }
  { intros o X. apply (N o). now right. }
  destruct a2 as [op pe ao tw tf]. cbn in I1, I2, I3. subst pe. cbn [run step t_wait].
  assert (C : forall r x, a_pending x = true -> exists y z, complete r x = (y, z)) by (intros; destruct (complete r x); eauto).
  destruct tw; cbn [t_fired a_op a_pending].
  - cbn [Nat.eqb]. unfold expired. cbn [a_op a_pending a_open t_wait t_fired pred]. destruct ao as [| |r]; [congruence| |]; cbn [cancel]; [exists Failure; reflexivity|].
    cbn [a_op]. destruct (complete r _) as [y z]. exists z. reflexivity.
  - destruct ao as [| |r]; [congruence| |].
    + destruct (I2 eq_refl) as [|K]; [discriminate|]. destruct (Nat.eqb_spec tf 0); [congruence|]. exists Failure. reflexivity.
    + destruct (Nat.eqb_spec tf 0); unfold expired; cbn [a_op a_pending a_open t_wait t_fired cancel]; (match goal with |- context [complete r ?x] => destruct (complete r x) as [y z] end; exists z; reflexivity).
Qed.
Print Assumptions C84_timeout.
Example C84_timeout_ex : snd (run [OAccept true; OExpire; ORunTimer; ORunAccept] acc0) = [EAccepted; EDone Failure].
Proof. reflexivity. Qed.
(** Without timeouts an accept fails only if the network fails. *)
Definition fine (o : op) : Prop := match o with OAccept t => t = false | OShutdown => False | ONet r => exists s, r = RSock s /\ s_opts s = true /\ s_local s = true | _ => True end.
Theorem C84_untimed : forall ops, Forall fine ops -> ~ In (EDone Failure) (snd (run ops acc0)) /\ ~ In (EDone Thrown) (snd (run ops acc0)).
Proof.
  assert (I : forall ops a, Forall fine ops -> wellformed a -> a_open a = true -> t_wait a = false -> t_fired a = 0 -> (forall r, a_op a = ADone r -> exists s, r = RSock s /\ s_opts s = true /\ s_local s = true) ->
            ~ In (EDone Failure) (snd (run ops a)) /\ ~ In (EDone Thrown) (snd (run ops a))).
  { induction ops as [|o ops IH]; intros a F W O T1 T2 D; [cbn; tauto|]. inversion_clear F as [|? ? F0 F1]. cbn [run]. pose proof (step_wellformed a o W) as W'.
    destruct (step a o) as [b e1] eqn:S. cbn [fst] in W'. destruct (run ops b) as [b2 e2] eqn:R. cbn [snd]. specialize (IH b F1 W'). rewrite R in IH. cbn [snd] in IH.
    destruct a as [op pe ao tw tf]. cbn in O, T1, T2, D. subst op tw tf.
    enough (X : ~ In (EDone Failure) e1 /\ ~ In (EDone Thrown) e1 /\ a_open b = true /\ t_wait b = false /\ t_fired b = 0 /\ (forall r, a_op b = ADone r -> exists s, r = RSock s /\ s_opts s = true /\ s_local s = true)).
    { destruct X as (X1 & X2 & X3 & X4 & X5 & X6). destruct (IH X3 X4 X5 X6). split; intros Y; apply in_app_or in Y; tauto. }
    destruct o as [t| |r| | |]; cbn in F0, S.
    - subst t. unfold async_accept in S. cbn in S. destruct pe; injection S as <- <-; cbn; intuition discriminate.
    - destruct F0.
    - destruct ao; injection S as <- <-; cbn; repeat split; auto; try discriminate. intros x X. injection X as <-. exact F0.
    - injection S as <- <-. cbn. intuition.
    - destruct ao as [| |r]; [injection S as <- <-; cbn; intuition|injection S as <- <-; cbn; intuition|]. destruct (D r eq_refl) as (s & -> & S1 & S2). assert (P : pe = true) by (apply W; discriminate). subst pe.
      unfold complete in S. cbn in S. rewrite S1, S2 in S. cbn in S. injection S as <- <-. cbn. intuition discriminate.
    - injection S as <- <-. cbn. intuition. }
  intros ops F. apply I; auto; cbn; try discriminate. unfold wellformed. cbn. split; congruence.
Qed.
Print Assumptions C84_untimed.
(** With them one may: the timer of an accept that has failed is left running and ends a later accept, even one without timeout. *)
Theorem C84_stale_timer_refuted : ~ (forall ops1 ops2 a, fst (run ops1 acc0) = a -> a_pending a = false -> ~ In OShutdown ops1 -> Forall fine ops2 -> ~ In (EDone Failure) (snd (run ops2 a))).
Proof.
  intros H. refine (H [OAccept true; ONet RErr; ORunAccept] [OAccept false; OExpire; ORunTimer; ORunAccept] _ eq_refl eq_refl _ _ _).
  - cbn. intuition discriminate.
  - repeat constructor.
  - vm_compute. right. now left.
Qed.
Print Assumptions C84_stale_timer_refuted.

(** ** A participant or registry *)
(** As long as it is not shut down, every acceptor it has opened listens iff all connections handled so far were made peers. A failure to accept or to set options
    removes it; a connection without remote endpoint, or of which no peer can be made, leaves it announced but not listening. The peers are those made before. *)
Definition status (c : conn) (i : nat) (h : list result) : Prop :=
  exists g, Forall accepted g /\ count_occ Nat.eq_dec (c_peers c) i = length g /\
    ((h = g /\ exists a, lookup i (c_list c) = Some a /\ listening a) \/
     (exists r, h = g ++ [r] /\ refused r /\ lookup i (c_list c) = None) \/
     (exists r, h = g ++ [r] /\ broken r /\ exists a, lookup i (c_list c) = Some a /\ idle a)).
Lemma next_mono : forall c o, c_next (cstep c o) = match o with COpen => S (c_next c) | _ => c_next c end.
Proof.
  intros c [|j r|j|]; cbn; try reflexivity; [destruct (lookup j (c_list c)); reflexivity|]. destruct (lookup j (c_list c)) as [a|]; [|reflexivity]. destruct (a_op a); try reflexivity.
  destruct (complete r a) as [a' [s| |]]; try reflexivity. unfold on_success. destruct (negb (s_local s) || negb (s_remote s)), (negb (s_peer s)), (async_accept false a'); reflexivity.
Qed.
Lemma status_step : forall c o i h, o <> CShutdown -> i < c_next c -> status c i h -> status (cstep c o) i (h ++ results i (handled c o)).
Proof.
  intros c o i h NS L (g & G & C & S).
  assert (D : (forall r, o <> CNet i r) /\ o <> CRun i \/ (exists r, o = CNet i r) \/ o = CRun i).
  { destruct o as [|j r|j|]; try (left; split; congruence); destruct (Nat.eq_dec j i) as [->|]; try (left; split; congruence); eauto. }
  destruct D as [[N1 N2]|[(r & ->)| ->]].
  - destruct (run_other c o i N1 N2 NS) as (E1 & E2 & E3); [intros _; lia|]. exists g. rewrite E1, E2, E3, app_nil_r. auto.
  - cbn [handled]. change (results i []) with (@nil result). rewrite app_nil_r. exists g. split; [exact G|]. cbn [cstep]. destruct S as [(-> & a & A & Li)|[(x & -> & R & A)|(x & -> & R & a & A & Id)]]; rewrite A; cbn [c_list c_peers].
    + split; [exact C|]. left. split; [reflexivity|]. rewrite lookup_update, Nat.eqb_refl, A. destruct a as [op pe ao tw tf]. destruct Li as (L1 & L2 & L3). cbn in *. eexists. split; [reflexivity|].
      destruct ao; cbn; unfold listening; cbn; repeat split; auto; try congruence.
    + split; [exact C|]. right. left. eauto.
    + split; [exact C|]. right. right. exists x. repeat split; auto. rewrite lookup_update, Nat.eqb_refl, A. destruct a as [op pe ao tw tf]. destruct Id as [I1 I2]. cbn in *. subst. eexists. split; [reflexivity|]. split; reflexivity.
  - destruct S as [(-> & a & A & Li)|[(x & -> & R & A)|(x & -> & R & a & A & Id)]]; cbn [handled]; rewrite A.
    + destruct (a_op a) as [| |r] eqn:O.
      * exists g. cbn [cstep]. rewrite A, O. cbn. rewrite app_nil_r. split; [exact G|]. split; [exact C|]. left. split; [reflexivity|]. eauto.
      * exists g. cbn [cstep]. rewrite A, O. cbn. rewrite app_nil_r. split; [exact G|]. split; [exact C|]. left. split; [reflexivity|]. eauto.
      * assert (X : results i [(i, r)] = [r]) by (unfold results; cbn; now rewrite Nat.eqb_refl). rewrite X. destruct Li as (L1 & L2 & L3).
        destruct (run_handler c i a r A O L2) as (H1 & H2 & H3). destruct (result_cases r) as [K|[K|K]].
        -- destruct (H1 K) as (a' & B1 & B2 & B3 & B4 & B5). exists (g ++ [r]). split; [apply Forall_app; auto|]. rewrite B5, count_occ_app, app_length, C. cbn. destruct (Nat.eq_dec i i); [|congruence].
           split; [reflexivity|]. left. split; [reflexivity|]. exists a'. split; [exact B1|]. unfold listening. rewrite B2, B3, B4, L1. repeat split; discriminate.
        -- destruct (H2 K) as (B1 & B2). exists g. rewrite B2. split; [exact G|]. split; [exact C|]. right. left. exists r. auto.
        -- destruct (H3 K) as (a' & B1 & B2 & B3). exists g. rewrite B3. split; [exact G|]. split; [exact C|]. right. right. exists r. repeat split; auto. eauto.
    + exists g. cbn [cstep]. rewrite A. cbn. rewrite app_nil_r. split; [exact G|]. split; [exact C|]. right. left. eauto.
    + destruct Id as [I1 I2]. exists g. cbn [cstep]. rewrite A, I2. cbn. rewrite app_nil_r. split; [exact G|]. split; [exact C|]. right. right. exists x. repeat split; auto. exists a. now repeat split.
Qed.
Lemma unopened : forall ops i, c_next (crun ops conn0) <= i -> lookup i (c_list (crun ops conn0)) = None /\ count_occ Nat.eq_dec (c_peers (crun ops conn0)) i = 0 /\ results i (history ops conn0) = [].
Proof.
  induction ops as [|o ops IH] using rev_ind; intros i L; [cbn; auto|]. rewrite crun_app in *. rewrite history_app, results_app. cbn [crun fold_left history] in *. set (c := crun ops conn0) in *. fold (crun ops conn0) in L |- *. fold c in L |- *.
  rewrite next_mono in L. assert (L' : c_next c <= i) by (destruct o; lia). destruct (IH i L') as (I1 & I2 & I3). rewrite I3, app_nil_r. cbn [app].
  assert (D : o = CShutdown \/ (exists r, o = CNet i r) \/ o = CRun i \/ (forall r, o <> CNet i r) /\ o <> CRun i /\ o <> CShutdown).
  { destruct o as [|j r|j|]; auto; try (destruct (Nat.eq_dec j i) as [->|]; eauto); right; right; right; repeat split; congruence. }
  destruct D as [->|[(r & ->)|[->|(D1 & D2 & D3)]]]; cbn [cstep handled].
  - cbn. rewrite lookup_map, I1. auto.
  - rewrite I1. auto.
  - rewrite I1. auto.
  - destruct (run_other c o i D1 D2 D3) as (E1 & E2 & E3); [intros ->; lia|]. rewrite E1, E2, E3. auto.
Qed.
Theorem C84_listening : forall ops i, ~ In CShutdown ops -> i < c_next (crun ops conn0) -> status (crun ops conn0) i (results i (history ops conn0)).
Proof.
  induction ops as [|o ops IH] using rev_ind; intros i N L; [cbn in L; lia|]. rewrite crun_app in *. rewrite history_app, results_app. cbn [crun fold_left history] in *. fold (crun ops conn0) in L |- *. rewrite app_nil_r.
  rewrite next_mono in L. assert (NO : o <> CShutdown) by (intros ->; apply N; apply in_or_app; right; now left). assert (N' : ~ In CShutdown ops) by (intros X; apply N; apply in_or_app; now left).
  destruct (Nat.lt_ge_cases i (c_next (crun ops conn0))) as [K|K].
  - apply status_step; auto.
  - destruct o; try lia. assert (i = c_next (crun ops conn0)) by lia. destruct (unopened ops i K) as (U1 & U2 & U3). rewrite U3. cbn. exists []. repeat split; [constructor|cbn; exact U2|].
    left. split; [reflexivity|]. cbn [c_list]. rewrite lookup_app, U1. subst i. rewrite Nat.eqb_refl. eexists. split; [reflexivity|]. repeat split; discriminate.
Qed.
Print Assumptions C84_listening.
(** So it accepts everyone as long as nothing goes wrong: every acceptor listens, and every connection is a peer. *)
Definition smooth (o : cop) : Prop := match o with CNet _ r => accepted r | CShutdown => False | _ => True end.
Theorem C84_accepts_all : forall ops i, Forall smooth ops -> i < c_next (crun ops conn0) ->
  (exists a, lookup i (c_list (crun ops conn0)) = Some a /\ listening a) /\ count_occ Nat.eq_dec (c_peers (crun ops conn0)) i = length (results i (history ops conn0)).
Proof.
  intros ops i F L.
  assert (K : forall ops, Forall smooth ops -> (forall j a r, lookup j (c_list (crun ops conn0)) = Some a -> a_op a = ADone r -> accepted r) /\ Forall (fun x => accepted (snd x)) (history ops conn0)).
  { clear. induction ops as [|o ops IH] using rev_ind; intros F; [cbn; split; [discriminate|constructor]|]. apply Forall_app in F. destruct F as [F1 F2]. inversion_clear F2 as [|? ? FO _]. destruct (IH F1) as [I1 I2].
    assert (HO : Forall (fun x => accepted (snd x)) (handled (crun ops conn0) o)).
    { destruct o as [|j r|j|]; cbn; try constructor. destruct (lookup j (c_list (crun ops conn0))) as [a|] eqn:A; [|constructor]. destruct (a_op a) eqn:O; try constructor; [|constructor]. cbn. eapply I1; eauto. }
    split; [|rewrite history_app; apply Forall_app; split; [exact I2|cbn; rewrite app_nil_r; exact HO]].
    assert (ND : ~ In CShutdown ops) by (intros X; rewrite Forall_forall in F1; now elim (F1 _ X)).
    rewrite crun_app. cbn [crun fold_left]. fold (crun ops conn0). intros i a r A O.
    assert (D : (exists r, o = CNet i r) \/ o = CRun i \/ (forall r, o <> CNet i r) /\ o <> CRun i).
    { destruct o as [|j x|j|]; try (right; right; split; congruence); destruct (Nat.eq_dec j i) as [->|]; eauto; right; right; split; congruence. }
    destruct D as [(x & ->)|[->|[D1 D2]]].
    - cbn [cstep] in A. destruct (lookup i (c_list (crun ops conn0))) as [b|] eqn:B; [|congruence]. cbn in A. rewrite lookup_update, Nat.eqb_refl, B in A. injection A as <-. cbn in FO. destruct (a_op b) eqn:OB; cbn in O; try congruence.
      rewrite OB in O. injection O as <-. eapply I1; eauto.
    - destruct (lookup i (c_list (crun ops conn0))) as [b|] eqn:B; [|cbn in A; rewrite B in A; congruence]. destruct (Nat.lt_ge_cases i (c_next (crun ops conn0))) as [Lt|Ge]; [|destruct (unopened ops i Ge) as (U & _); congruence].
      destruct (C84_listening ops i ND Lt) as (g & _ & _ & S). destruct (a_op b) as [| |x] eqn:OB; [cbn in A; rewrite B, OB in A; congruence|cbn in A; rewrite B, OB in A; congruence|].
      destruct S as [(_ & a' & A' & Li)|[(y & _ & _ & A')|(y & _ & _ & a' & A' & [Id1 Id2])]]; try congruence. assert (a' = b) by congruence. subst a'. destruct Li as (L1 & L2 & _).
      destruct (run_handler _ i b x B OB L2) as (H & _ & _). destruct (H (I1 _ _ _ B OB)) as (a2 & B1 & _ & _ & B4 & _). rewrite A in B1. injection B1 as <-. rewrite O, L1 in B4. discriminate.
    - destruct (Nat.eq_dec i (c_next (crun ops conn0))) as [E|NE].
      + destruct o as [|j x|j|]; [|destruct (run_other (crun ops conn0) (CNet j x) i D1 D2) as (E1 & _); [discriminate|discriminate|]; rewrite E1 in A; eapply I1; eauto|destruct (run_other (crun ops conn0) (CRun j) i D1 D2) as (E1 & _); [discriminate|discriminate|]; rewrite E1 in A; eapply I1; eauto|destruct FO].
        cbn in A. rewrite lookup_app in A. destruct (unopened ops i) as (U & _); [lia|]. rewrite U in A. destruct (_ =? _); [|discriminate]. injection A as <-. discriminate.
      + assert (NS : o <> CShutdown) by (intros ->; exact FO). destruct (run_other (crun ops conn0) o i D1 D2 NS) as (E1 & _); [auto|]. rewrite E1 in A. eapply I1; eauto. }
  assert (ND : ~ In CShutdown ops) by (intros X; rewrite Forall_forall in F; now elim (F _ X)).
  destruct (C84_listening ops i ND L) as (g & G & C & S). destruct (K ops F) as [_ H].
  assert (HR : Forall accepted (results i (history ops conn0))).
  { apply Forall_forall. intros r R. unfold results in R. apply in_map_iff in R. destruct R as (x & <- & R). apply filter_In in R. rewrite Forall_forall in H. now apply H. }
  assert (NB : forall r, accepted r -> ~ refused r /\ ~ broken r).
  { intros r ->. split; [intros [X|(s & X & Y)]; [discriminate|injection X as <-; discriminate]|]. intros (s & X & Y & Z). injection X as <-. cbn in Z. destruct Z as [Z|[Z|Z]]; discriminate. }
  destruct S as [(-> & A)|[(r & E & R & _)|(r & E & R & _)]]; [auto| |]; rewrite E in HR; apply Forall_app in HR; destruct HR as [_ HR]; inversion_clear HR as [|? ? X _]; apply NB in X; tauto.
Qed.
Print Assumptions C84_accepts_all.
Example C84_accepts_all_ex : let c := crun [COpen; COpen; CNet 1 (RSock (mkSock true true true true)); CRun 1; CNet 0 (RSock (mkSock true true true true)); CRun 0; CNet 1 (RSock (mkSock true true true true)); CRun 1] conn0 in c_peers c = [1; 0; 1] /\ announced c = [0; 1].
Proof. split; reflexivity. Qed.

(** One connection that is reset before it is looked at ends listening for ever, without removing the acceptor from what is announced; *)
Theorem C84_reset_refuted : ~ (forall ops i, ~ In CShutdown ops -> (forall j r, In (CNet j r) ops -> exists s, r = RSock s /\ s_opts s = true /\ s_local s = true /\ s_peer s = true) -> i < c_next (crun ops conn0) ->
  exists a, lookup i (c_list (crun ops conn0)) = Some a /\ listening a).
Proof.
  intros H. destruct (H [COpen; CNet 0 (RSock (mkSock true true false true)); CRun 0] 0) as (a & A & _ & B & _).
  - cbn. intuition discriminate.
  - intros j r X. cbn in X. destruct X as [X|[X|[X|[]]]]; try discriminate. injection X as <- <-. eexists. split; [reflexivity|]. now cbn.
  - cbn. lia.
  - vm_compute in A. injection A as <-. discriminate.
Qed.
Print Assumptions C84_reset_refuted.
Theorem C84_never_again : forall c ops i a, lookup i (c_list c) = Some a -> idle a -> i < c_next c ->
  exists a', lookup i (c_list (crun ops c)) = Some a' /\ idle a' /\ In i (announced (crun ops c)) /\ count_occ Nat.eq_dec (c_peers (crun ops c)) i = count_occ Nat.eq_dec (c_peers c) i.
Proof.
  intros c ops. revert c. induction ops as [|o ops IH]; intros c i a A Id L.
  - exists a. repeat split; auto; try apply Id. unfold announced. apply in_map_iff. exists (i, a). split; [reflexivity|]. now apply find_in.
  - assert (X : exists b, lookup i (c_list (cstep c o)) = Some b /\ idle b /\ count_occ Nat.eq_dec (c_peers (cstep c o)) i = count_occ Nat.eq_dec (c_peers c) i).
    { assert (D : o = CShutdown \/ (exists r, o = CNet i r) \/ o = CRun i \/ (forall r, o <> CNet i r) /\ o <> CRun i /\ o <> CShutdown).
      { destruct o as [|j r|j|]; auto; try (destruct (Nat.eq_dec j i) as [->|]; eauto); right; right; right; repeat split; congruence. }
      destruct Id as [I1 I2]. destruct D as [->|[(r & ->)|[->|(D1 & D2 & D3)]]].
      - cbn. rewrite lookup_map, A. eexists. split; [reflexivity|]. unfold idle. cbn. now rewrite I2.
      - cbn. rewrite A. cbn. rewrite lookup_update, Nat.eqb_refl, A, I2. eexists. split; [reflexivity|]. now repeat split.
      - cbn. rewrite A, I2. exists a. now repeat split.
      - destruct (run_other c o i D1 D2 D3) as (E1 & E2 & E3); [intros ->; lia|]. rewrite E1, E2. exists a. now repeat split. }
    destruct X as (b & B & Bi & C). destruct (IH (cstep c o) i b B Bi) as (a' & H1 & H2 & H3 & H4); [rewrite next_mono; destruct o; lia|]. exists a'. repeat split; auto; try apply H2. cbn [crun fold_left]. fold (crun ops (cstep c o)). congruence.
Qed.
Print Assumptions C84_never_again.
(** one failure to accept, for instance because there are too many open files, removes it for good. *)
Theorem C84_removed_for_good : forall c ops i, lookup i (c_list c) = None -> i < c_next c ->
  lookup i (c_list (crun ops c)) = None /\ count_occ Nat.eq_dec (c_peers (crun ops c)) i = count_occ Nat.eq_dec (c_peers c) i.
Proof.
  intros c ops. revert c. induction ops as [|o ops IH]; intros c i A L; [auto|].
  assert (X : lookup i (c_list (cstep c o)) = None /\ count_occ Nat.eq_dec (c_peers (cstep c o)) i = count_occ Nat.eq_dec (c_peers c) i).
  { assert (D : o = CShutdown \/ (exists r, o = CNet i r) \/ o = CRun i \/ (forall r, o <> CNet i r) /\ o <> CRun i /\ o <> CShutdown).
    { destruct o as [|j r|j|]; auto; try (destruct (Nat.eq_dec j i) as [->|]; eauto); right; right; right; repeat split; congruence. }
    destruct D as [->|[(r & ->)|[->|(D1 & D2 & D3)]]]; [cbn; now rewrite lookup_map, A|cbn; now rewrite A|cbn; now rewrite A|]. destruct (run_other c o i D1 D2 D3) as (E1 & E2 & E3); [intros ->; lia|]. now rewrite E1, E2. }
  destruct X as [B C]. destruct (IH (cstep c o) i B) as (H1 & H2); [rewrite next_mono; destruct o; lia|]. cbn [crun fold_left]. fold (crun ops (cstep c o)). split; congruence.
Qed.
Print Assumptions C84_removed_for_good.
Theorem C84_failure_refuted : ~ (forall ops i, ~ In CShutdown ops -> i < c_next (crun ops conn0) -> In i (announced (crun ops conn0))).
Proof.
  intros H. specialize (H [COpen; CNet 0 RErr; CRun 0] 0). vm_compute in H. apply H; [intuition discriminate|lia].
Qed.
Print Assumptions C84_failure_refuted.

(** ** Shutdown *)
(** After it nothing waits for the network any more, and the handlers that run are at most two per acceptor: the thread can end. *)
Definition over (c : conn) : Prop := Forall (fun x => a_open (snd x) = false /\ a_op (snd x) <> AWait) (c_list c).
Definition weight (x : nat * acceptor) : nat := match a_op (snd x) with ADone (RSock _) => 2 | ADone RErr => 1 | _ => 0 end.
Definition total (c : conn) : nat := list_sum (map weight (c_list c)).
Lemma update_none : forall i a l, ~ In i (map fst l) -> update i a l = l.
Proof. intros i a l. unfold update. induction l as [|[j b] l IH]; cbn; intros N; [reflexivity|]. destruct (Nat.eqb_spec j i); [elim N; now left|]. rewrite IH; [reflexivity|tauto]. Qed.
Lemma erase_none : forall i l, ~ In i (map fst l) -> erase i l = l.
Proof. intros i l. unfold erase. induction l as [|[j b] l IH]; cbn; intros N; [reflexivity|]. destruct (Nat.eqb_spec j i); [elim N; now left|]. cbn. rewrite IH; [reflexivity|tauto]. Qed.
Lemma total_update : forall i a b l, NoDup (map fst l) -> lookup i l = Some b -> list_sum (map weight (update i a l)) + weight (i, b) = list_sum (map weight l) + weight (i, a).
Proof.
  intros i a b l. induction l as [|[j x] l IH]; cbn [map fst]; intros ND H; [discriminate|]. inversion_clear ND as [|? ? N1 N2]. unfold lookup in H. cbn in H. unfold update. cbn [map fst]. destruct (Nat.eqb_spec j i) as [->|K].
  - cbn in H. injection H as ->. fold (update i a l). rewrite update_none by exact N1. unfold list_sum. cbn [map fold_right]. lia.
  - fold (update i a l). specialize (IH N2 H). unfold list_sum in *. cbn [map fold_right]. lia.
Qed.
Lemma total_erase : forall i b l, NoDup (map fst l) -> lookup i l = Some b -> list_sum (map weight (erase i l)) + weight (i, b) = list_sum (map weight l).
Proof.
  intros i b l. induction l as [|[j x] l IH]; cbn [map fst]; intros ND H; [discriminate|]. inversion_clear ND as [|? ? N1 N2]. unfold lookup in H. cbn in H. unfold erase. cbn [filter fst]. destruct (Nat.eqb_spec j i) as [->|K]; cbn [negb].
  - cbn in H. injection H as ->. fold (erase i l). rewrite erase_none by exact N1. unfold list_sum. cbn [map fold_right]. lia.
  - fold (erase i l). specialize (IH N2 H). unfold list_sum in *. cbn [map fold_right]. lia.
Qed.
Lemma fst_update : forall i a l, map fst (update i a l) = map fst l.
Proof. intros i a l. unfold update. induction l as [|[j b] l IH]; cbn; [reflexivity|]. rewrite IH. destruct (Nat.eqb_spec j i) as [->|]; reflexivity. Qed.
Lemma NoDup_erase : forall i l, NoDup (map fst l) -> NoDup (map fst (erase i l)).
Proof.
  intros i l. unfold erase. induction l as [|[j b] l IH]; cbn; intros H; [constructor|]. inversion_clear H as [|? ? N1 N2]. destruct (j =? i); cbn; [auto|]. constructor; [|auto].
  intros X. apply N1. apply in_map_iff in X. destruct X as (x & E & X). apply filter_In in X. apply in_map_iff. exists x. tauto.
Qed.
Lemma ids : forall ops, NoDup (map fst (c_list (crun ops conn0))).
Proof.
  induction ops as [|o ops IH] using rev_ind; [constructor|]. rewrite crun_app. cbn [crun fold_left]. fold (crun ops conn0). destruct o as [|j r|j|]; cbn [cstep].
  - cbn. rewrite map_app. cbn. destruct (unopened ops (c_next (crun ops conn0))) as (U & _); [lia|]. apply lookup_none in U. revert IH U. generalize (c_next (crun ops conn0)) as n. generalize (map fst (c_list (crun ops conn0))) as l.
    clear. induction l as [|x l IH]; intros n N U; cbn; [repeat constructor; intros []|]. inversion_clear N as [|? ? N1 N2]. constructor; [|apply IH; [exact N2|intros X; apply U; now right]].
    intros X. apply in_app_or in X. destruct X as [X|[X|[]]]; [tauto|]. apply U. left. congruence.
  - destruct (lookup j (c_list (crun ops conn0))); [|exact IH]. cbn. now rewrite fst_update.
  - destruct (lookup j (c_list (crun ops conn0))) as [a|]; [|exact IH]. destruct (a_op a); [exact IH|exact IH|]. destruct (complete r a) as [a' [s| |]]; cbn; [|now apply NoDup_erase|now rewrite fst_update].
    unfold on_success. destruct (negb (s_local s) || negb (s_remote s)), (negb (s_peer s)), (async_accept false a'); cbn; rewrite fst_update; exact IH.
  - cbn. now rewrite map_map.
Qed.
Definition sound (c : conn) : Prop := NoDup (map fst (c_list c)) /\ Forall (fun x => wellformed (snd x)) (c_list c) /\ over c.
Lemma forall_update : forall (P : acceptor -> Prop) i a l, P a -> Forall (fun x => P (snd x)) l -> Forall (fun x => P (snd x)) (update i a l).
Proof. intros P i a l H F. unfold update. apply Forall_forall. intros x X. apply in_map_iff in X. destruct X as (y & <- & Y). rewrite Forall_forall in F. destruct (fst y =? i); [exact H|now apply F]. Qed.
Lemma forall_erase : forall (P : acceptor -> Prop) i l, Forall (fun x : nat * acceptor => P (snd x)) l -> Forall (fun x => P (snd x)) (erase i l).
Proof. intros P i l F. unfold erase. apply Forall_forall. intros x X. apply filter_In in X. rewrite Forall_forall in F. now apply F. Qed.
Lemma over_step : forall c o, sound c -> o <> COpen -> sound (cstep c o) /\ length (handled c o) + total (cstep c o) <= total c.
Proof.
  intros c o (ND & W & O) NO. destruct o as [|i r|i|]; [now elim NO| | |].
  - cbn [cstep handled]. destruct (lookup i (c_list c)) as [a|] eqn:A; [|cbn; repeat split; auto; lia].
    assert (I := find_in _ _ _ A). unfold over in O. rewrite Forall_forall in O. destruct (O _ I) as [O1 O2]. cbn in O1, O2.
    assert (E : fst (step a (ONet r)) = a) by (cbn; destruct (a_op a); congruence). rewrite E. repeat split.
    + cbn. now rewrite fst_update.
    + cbn. apply (forall_update wellformed); [|exact W]. rewrite Forall_forall in W. now apply (W _ I).
    + unfold over. cbn. apply (forall_update (fun a => a_open a = false /\ a_op a <> AWait)); auto. apply Forall_forall. auto.
    + unfold total. cbn [c_list length]. pose proof (total_update i a a _ ND A). lia.
  - cbn [cstep handled]. destruct (lookup i (c_list c)) as [a|] eqn:A; [|cbn; repeat split; auto; lia]. assert (I := find_in _ _ _ A).
    assert (O' := O). unfold over in O'. rewrite Forall_forall in O'. destruct (O' _ I) as [O1 O2]. cbn in O1, O2. assert (W' := W). rewrite Forall_forall in W'. specialize (W' _ I). cbn in W'.
    destruct (a_op a) as [| |r] eqn:OP; [cbn; repeat split; auto; lia|congruence|]. assert (P : a_pending a = true) by (apply W'; congruence).
    assert (WA : weight (i, a) = match r with RSock _ => 2 | RErr => 1 end) by (unfold weight; cbn; rewrite OP; now destruct r).
    assert (G1 : forall b, wellformed b -> a_open b = false -> a_op b <> AWait -> weight (i, b) < weight (i, a) -> forall ps n d,
              sound (mkConn (update i b (c_list c)) ps n d) /\ 1 + total (mkConn (update i b (c_list c)) ps n d) <= total c).
    { intros b B1 B2 B3 B4 ps n d. repeat split.
      - cbn. now rewrite fst_update.
      - cbn. now apply (forall_update wellformed).
      - unfold over. cbn. now apply (forall_update (fun a => a_open a = false /\ a_op a <> AWait)).
      - unfold total. cbn [c_list]. pose proof (total_update i b a _ ND A). lia. }
    assert (G2 : forall ps n d, sound (mkConn (erase i (c_list c)) ps n d) /\ 1 + total (mkConn (erase i (c_list c)) ps n d) <= total c).
    { intros ps n d. repeat split.
      - cbn. now apply NoDup_erase.
      - cbn. now apply (forall_erase wellformed).
      - unfold over. cbn. now apply (forall_erase (fun a => a_open a = false /\ a_op a <> AWait)).
      - unfold total. cbn [c_list]. pose proof (total_erase i a _ ND A). rewrite WA in H. destruct r; lia. }
    cbn [length]. unfold complete. rewrite P. cbn [negb]. destruct r as [|s]; [apply G2|]. destruct (s_opts s); cbn [negb]; [|apply G2].
    destruct (s_local s) eqn:SL; cbn [negb].
    + unfold on_success. rewrite SL. cbn [negb orb]. destruct (s_remote s); cbn [negb]; [destruct (s_peer s); cbn [negb]|].
      * unfold async_accept. cbn [a_pending]. apply G1; cbn; unfold start_op; cbn; rewrite ?O1; try congruence; [unfold wellformed; cbn; split; congruence|rewrite WA; unfold weight; cbn; lia].
      * apply G1; cbn; try congruence; [unfold wellformed; cbn; split; congruence|rewrite WA; unfold weight; cbn; lia].
      * apply G1; cbn; try congruence; [unfold wellformed; cbn; split; congruence|rewrite WA; unfold weight; cbn; lia].
    + apply G1; cbn; try congruence; [unfold wellformed; cbn; split; congruence|rewrite WA; unfold weight; cbn; lia].
  - cbn [cstep handled length]. repeat split.
    + cbn. now rewrite map_map.
    + cbn. apply Forall_map. cbn. eapply Forall_impl; [|exact W]. intros [j a] X. cbn in *. apply (step_wellformed a OShutdown X).
    + unfold over. cbn. apply Forall_map. cbn. apply Forall_forall. intros [j a] X. cbn. split; [reflexivity|]. destruct (a_op a); discriminate.
    + unfold total. cbn [c_list]. rewrite map_map. unfold over in O. clear - O. induction (c_list c) as [|[j a] l IH]; [cbn; lia|]. inversion_clear O as [|? ? [O1 O2] O3]. specialize (IH O3). unfold list_sum in *. cbn [map fold_right fst snd].
      assert (X : weight (j, shutdown a) = weight (j, a)) by (unfold weight; cbn in *; destruct (a_op a); cbn; congruence). lia.
Qed.
Theorem C84_shutdown : forall ops1 ops2, ~ In COpen ops2 ->
  let c := crun ops1 conn0 in
  Forall (fun x => a_op (snd x) <> AWait) (c_list (crun (CShutdown :: ops2) c)) /\ length (history (CShutdown :: ops2) c) <= 2 * length (c_list c).
Proof.
  intros ops1 ops2 NO c.
  assert (WF : forall ops, Forall (fun x => wellformed (snd x)) (c_list (crun ops conn0))).
  { clear. induction ops as [|o ops IH] using rev_ind; [constructor|]. rewrite crun_app. cbn [crun fold_left]. fold (crun ops conn0). destruct o as [|j r|j|]; cbn [cstep].
    - cbn. apply Forall_app. split; [exact IH|]. repeat constructor; cbn; congruence.
    - destruct (lookup j (c_list (crun ops conn0))) as [a|] eqn:A; [|exact IH]. cbn [c_list]. apply (forall_update wellformed); [|exact IH]. apply step_wellformed. rewrite Forall_forall in IH. apply (IH _ (find_in _ _ _ A)).
    - destruct (lookup j (c_list (crun ops conn0))) as [a|] eqn:A; [|exact IH]. assert (WA : wellformed a) by (rewrite Forall_forall in IH; apply (IH _ (find_in _ _ _ A))). destruct (a_op a) as [| |r] eqn:OP; [exact IH|exact IH|].
      pose proof (step_wellformed a ORunAccept WA) as WC. cbn in WC. rewrite OP in WC. destruct (complete r a) as [a' [s| |]] eqn:CE; cbn in WC; [|now apply (forall_erase wellformed)|now apply (forall_update wellformed)].
      unfold on_success. destruct (negb (s_local s) || negb (s_remote s)); [now apply (forall_update wellformed)|]. destruct (negb (s_peer s)); [now apply (forall_update wellformed)|].
      pose proof (step_wellformed a' (OAccept false) WC) as WD. cbn in WD. destruct (async_accept false a') as [b|]; cbn in WD; now apply (forall_update wellformed).
    - cbn. apply Forall_map. cbn. eapply Forall_impl; [|exact IH]. intros [j a] X. cbn in *. apply (step_wellformed a OShutdown X). }
  assert (S0 : sound (cstep c CShutdown)).
  { repeat split.
    - cbn. rewrite map_map. apply ids.
    - cbn. apply Forall_map. cbn. eapply Forall_impl; [|apply (WF ops1)]. intros [j a] X. cbn in *. apply (step_wellformed a OShutdown X).
    - unfold over. cbn. apply Forall_map. cbn. apply Forall_forall. intros [j a] X. cbn. split; [reflexivity|]. destruct (a_op a); discriminate. }
  assert (T0 : total (cstep c CShutdown) <= 2 * length (c_list c)).
  { unfold total. cbn [cstep c_list]. assert (W2 : forall x, weight x <= 2) by (intros x; unfold weight; destruct (a_op (snd x)) as [| |[|]]; lia).
    clear - W2. induction (c_list c) as [|x l IH]; [cbn; lia|]. unfold list_sum in *. cbn [map fold_right length]. specialize (W2 (fst x, shutdown (snd x))). lia. }
  assert (G : forall ops d, sound d -> ~ In COpen ops -> sound (crun ops d) /\ length (history ops d) <= total d).
  { clear. induction ops as [|o ops IH]; intros d S N; [cbn; split; [exact S|lia]|]. destruct (over_step d o S) as [S1 T1]; [intros ->; apply N; now left|]. destruct (IH _ S1) as [S2 T2]; [intros X; apply N; now right|].
    split; [exact S2|]. cbn. rewrite app_length. lia. }
  destruct (G ops2 _ S0 NO) as [(_ & _ & S2) T2]. split.
  - cbn [crun fold_left]. fold (crun ops2 (cstep c CShutdown)). eapply Forall_impl; [|exact S2]. intros x [_ X]. exact X.
  - change (history (CShutdown :: ops2) c) with ([] ++ history ops2 (cstep c CShutdown)). cbn [app]. lia.
Qed.
Print Assumptions C84_shutdown.
Example C84_shutdown_ex : let c := crun [COpen; COpen; CNet 0 (RSock (mkSock true true true true))] conn0 in
  history [CShutdown; CRun 0; CRun 1; CRun 0; CRun 0] c = [(0, RSock (mkSock true true true true)); (1, RErr); (0, RErr)].
Proof. reflexivity. Qed.
