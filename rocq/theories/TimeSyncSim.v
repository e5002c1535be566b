From Coq Require Import List NArith ZArith Arith Bool Lia ZifyBool.
From Verif Require Import Base SystemStateModel TimeSyncModel TimeSyncSpec TimeSyncProofs.
Import ListNotations.
Open Scope Z_scope.

(** * C22: nobody overtakes *)
Lemma tstep_others : forall c e x q t, In (q, t) (t_others (snd (tstep c e x))) ->
  In (q, t) (t_others x) \/ (exists us, e = ERecv q t us) \/ t = (-1, 0).
Proof.
  intros c e x q t. assert (RQ : forall y, t_others (snd (request_next y)) = t_others y) by (intros y; apply (request_frame y)).
  assert (ON : forall p r us, In (q, t) (on_next_step p r (t_others x)) -> In (q, t) (t_others x) \/ (exists us0, ERecv p r us = ERecv q t us0) \/ t = (-1, 0)).
  { intros p r us I. unfold on_next_step in I. apply in_map_iff in I. destruct I as ([q' r'] & I1 & I2). cbn in I1.
    destruct (Nat.eqb q' p); injection I1 as <- <-; [right; left; eauto|left; exact I2]. }
  destruct e; cbn [tstep].
  - destruct (t_state _); try (rewrite (proj1 (process_others _ _ _))); apply ON.
  - destruct (t_def x) as [|[] r]; [left; auto|rewrite (proj1 (process_others _ _ _)); left; auto|rewrite RQ; left; auto|].
    destruct (_ || _); [|left; auto].
    specialize (RQ (set_wall (t_sync (set_exec false (set_def r x))) false (set_exec false (set_def r x)))).
    destruct (request_next _) as [o z]. cbn [snd] in *. rewrite RQ. left; auto.
  - assert (A : In (q, t) (add_other p (t_others x)) -> In (q, t) (t_others x) \/ (exists us, EAdd p dyn = ERecv q t us) \/ t = (-1, 0)).
    { intros I. unfold add_other in I. destruct (lookup p (t_others x)); [left; exact I|].
      apply in_app_or in I. destruct I as [I|[I|[]]]; [left; exact I|]. injection I as <- <-. right; right; reflexivity. }
    destruct dyn; exact A.
  - destruct (lookup _ _); [rewrite (proj1 (process_others _ _ _))|]; cbn; [|left; auto].
    intros I. apply filter_In in I. left. apply I.
  - rewrite RQ. left; auto.
  - left; auto.
  - destruct (users_frame [u] x) as (_ & _ & U3 & _). cbn [snd]. cbn [users fold_left] in U3. rewrite U3. left; auto.
  - left; auto.
  - left; auto.
  - destruct (_ && _); [|left; auto]. cbn. destruct (t_exec x); left; auto.
Qed.
Record GI (c : nat -> tcfg) (s : sim) : Prop := {
  gi_node : forall i, NI (c i) (s_node s i);
  gi_chan : forall i j t, In t (s_chan s i j) -> fst t <= floor (s_node s i) /\ 0 <= snd t;
  gi_view : forall i j t, In (j, t) (t_others (s_node s i)) -> fst t <= floor (s_node s j)
}.
Lemma GI_init : forall c, GI c sim_init.
Proof. intros c. constructor; cbn; intros; try contradiction. apply NI_init. Qed.
Lemma upd_eq : forall {A} (f : nat -> A) i v, upd f i v i = v.
Proof. intros. unfold upd. rewrite Nat.eqb_refl. reflexivity. Qed.
Lemma upd_neq : forall {A} (f : nat -> A) i v j, j <> i -> upd f i v j = f j.
Proof. intros. unfold upd. destruct (Nat.eqb_spec j i); congruence. Qed.
Lemma apply_GI : forall c s i e, GI c s -> positive e -> calm e (s_node s i) ->
  (forall p t us, e = ERecv p t us -> 0 <= snd t /\ fst t <= floor (s_node s p)) ->
  GI c (snd (apply i (tstep (c i) e (s_node s i)) s)) /\
  (forall j, floor (s_node s j) <= floor (s_node (snd (apply i (tstep (c i) e (s_node s i)) s)) j)) /\
  (forall j t d, In (j, Exec t d) (fst (apply i (tstep (c i) e (s_node s i)) s)) -> floor (s_node s j) <= t).
Proof.
  intros c s i e G P C V. destruct (tstep_NI (c i) e (s_node s i) (gi_node c s G i) P) as (T1 & T2 & T3 & T4).
  { destruct e; cbn; auto. apply (V p t us eq_refl). }
  pose proof (tstep_others (c i) e (s_node s i)) as TO. set (r := tstep (c i) e (s_node s i)) in *.
  assert (FL : forall j, floor (s_node s j) <= floor (s_node (snd (apply i r s)) j)).
  { intros j. cbn. destruct (Nat.eq_dec j i) as [->|N]; [rewrite upd_eq; lia|rewrite upd_neq by exact N; lia]. }
  assert (NO : forall j, NI (c j) (s_node (snd (apply i r s)) j)).
  { intros j. cbn. destruct (Nat.eq_dec j i) as [->|N]; [rewrite upd_eq; exact T1|rewrite upd_neq by exact N; apply (gi_node c s G)]. }
  split; [constructor|split; [exact FL|]].
  - exact NO.
  - intros a b t I. cbn [apply snd s_chan] in I. unfold broadcast in I. destruct (Nat.eqb_spec a i) as [->|N].
    + apply in_app_or in I. destruct I as [I|I].
      * destruct (gi_chan c s G i b t I). specialize (FL i). split; [lia|assumption].
      * destruct (T3 t I) as (g1 & g2 & g3). cbn. rewrite upd_eq. auto.
    + destruct (gi_chan c s G a b t I). specialize (FL a). split; [lia|assumption].
  - intros a b t I. specialize (FL b). cbn [apply snd s_node] in I. destruct (Nat.eq_dec a i) as [->|N].
    + rewrite upd_eq in I. apply TO in I. destruct I as [I|[(us & ->)| ->]].
      * pose proof (gi_view c s G i b t I). lia.
      * destruct (V b t us eq_refl). lia.
      * pose proof (floor_nonneg _ _ (NO b)). cbn [fst]. lia.
    + rewrite upd_neq in I by exact N. pose proof (gi_view c s G a b t I). lia.
  - intros j t d I. cbn in I. apply in_map_iff in I. destruct I as (x & I1 & I2). injection I1 as <- ->. specialize (T4 t d I2). lia.
Qed.
Definition step_ok (c : nat -> tcfg) (e : sev) (s : sim) : Prop :=
  spositive e /\ match e with SLocal i e => calm e (s_node s i) | _ => True end.
Lemma sstep_GI : forall c e s, GI c s -> step_ok c e s ->
  GI c (snd (sstep c e s)) /\ (forall j, floor (s_node s j) <= floor (s_node (snd (sstep c e s)) j)) /\
  (forall j t d, In (j, Exec t d) (fst (sstep c e s)) -> floor (s_node s j) <= t).
Proof.
  intros c e s G [P C]. destruct e as [i e|i j us]; cbn [sstep].
  - destruct (local e) eqn:L; [|cbn; split; [exact G|split; [intros; lia|contradiction]]].
    apply apply_GI; auto. intros p t us ->. discriminate.
  - destruct (s_chan s i j) as [|t r] eqn:CH; [cbn; split; [exact G|split; [intros; lia|contradiction]]|].
    set (s' := mkSim (s_node s) (fun a b => if Nat.eqb a i && Nat.eqb b j then r else s_chan s a b)).
    assert (G' : GI c s').
    { destruct G as [G1 G2 G3]. constructor; [exact G1| |exact G3]. intros a b u I. cbn in I |- *.
      destruct (Nat.eqb_spec a i) as [->|]; cbn in I; [|apply (G2 a b u I)].
      destruct (Nat.eqb_spec b j) as [->|]; [|apply (G2 i b u I)]. apply (G2 i j u). rewrite CH. right; exact I. }
    apply (apply_GI c s' j (ERecv i t us) G' P I).
    intros p u us' E. injection E as <- <- <-. destruct (gi_chan c s G i j t); [rewrite CH; left; reflexivity|]. auto.
Qed.
Lemma srun_GI : forall c es s, GI c s -> undisturbed c es s ->
  GI c (snd (srun c es s)) /\ (forall j, floor (s_node s j) <= floor (s_node (snd (srun c es s)) j)) /\
  (forall j t d, In (j, Exec t d) (fst (srun c es s)) -> floor (s_node s j) <= t).
Proof.
  intros c. induction es as [|e es IH]; intros s G U; [cbn; split; [exact G|split; [intros; lia|contradiction]]|].
  destruct U as [U1 U2]. destruct (sstep_GI c e s G U1) as (S1 & S2 & S3). cbn [srun]. destruct (sstep c e s) as [o s1]. cbn [fst snd] in *.
  specialize (IH s1 S1 U2). destruct (srun c es s1) as [o' s2]. cbn [fst snd] in *. destruct IH as (I1 & I2 & I3).
  split; [exact I1|]. split; [intros j; specialize (S2 j); specialize (I2 j); lia|].
  intros j t d I. apply in_app_or in I. destruct I as [I|I]; [apply (S3 j t d I)|]. specialize (S2 j). specialize (I3 j t d I). lia.
Qed.
Lemma undisturbed_app : forall c a b s, undisturbed c (a ++ b) s <-> undisturbed c a s /\ undisturbed c b (snd (srun c a s)).
Proof.
  intros c. induction a as [|e a IH]; intros b s; [cbn; tauto|]. cbn [app undisturbed srun].
  destruct (sstep c e s) as [o s1]. cbn [snd]. rewrite IH. destruct (srun c a s1) as [o' s2]. cbn [snd]. tauto.
Qed.
Lemma srun_app : forall c a b s, srun c (a ++ b) s = (fst (srun c a s) ++ fst (srun c b (snd (srun c a s))), snd (srun c b (snd (srun c a s)))).
Proof.
  intros c. induction a as [|e a IH]; intros b s; cbn [srun app fst snd]; [destruct (srun c b s); reflexivity|].
  destruct (sstep c e s) as [o s1]. rewrite IH. destruct (srun c a s1) as [o1 s2]. cbn [fst snd]. rewrite app_assoc. reflexivity.
Qed.
(** Of each participant. *)
Lemma of_app : forall i a b, of i (a ++ b) = of i a ++ of i b.
Proof. intros. unfold of. rewrite filter_app, map_app. reflexivity. Qed.
Lemma of_tag : forall i j o, of i (map (fun x => (j, x)) o) = if Nat.eqb j i then o else [].
Proof.
  intros i j o. unfold of. induction o as [|x o IH]; [cbn; destruct (Nat.eqb j i); reflexivity|]. cbn [map filter fst].
  destruct (Nat.eqb j i) eqn:E; [cbn; f_equal; exact IH|exact IH].
Qed.
(** A step of the simulation is a step of one participant, or of none. *)
Lemma sstep_cases : forall c e s i,
  (of i (fst (sstep c e s)) = [] /\ s_node (snd (sstep c e s)) i = s_node s i) \/
  (exists ev, sstep c e s = sstep c e s /\ of i (fst (sstep c e s)) = fst (tstep (c i) ev (s_node s i)) /\ s_node (snd (sstep c e s)) i = snd (tstep (c i) ev (s_node s i)) /\
     (forall j, j <> i -> s_node (snd (sstep c e s)) j = s_node s j) /\
     (match e with SLocal _ e' => ev = e' | SDeliver p q us => q = i /\ exists t r, s_chan s p i = t :: r /\ ev = ERecv p t us end)).
Proof.
  intros c e s i.
  assert (AP : forall k ev s0, s_node s0 = s_node s ->
    (of i (fst (apply k (tstep (c k) ev (s_node s0 k)) s0)) = [] /\ s_node (snd (apply k (tstep (c k) ev (s_node s0 k)) s0)) i = s_node s i) \/
    (k = i /\ of i (fst (apply k (tstep (c k) ev (s_node s0 k)) s0)) = fst (tstep (c i) ev (s_node s i)) /\
     s_node (snd (apply k (tstep (c k) ev (s_node s0 k)) s0)) i = snd (tstep (c i) ev (s_node s i)) /\
     (forall j, j <> i -> s_node (snd (apply k (tstep (c k) ev (s_node s0 k)) s0)) j = s_node s j))).
  { intros k ev s0 E. rewrite E. unfold apply. cbn [fst snd s_node]. rewrite of_tag, E. destruct (Nat.eqb_spec k i) as [->|N].
    - right. rewrite upd_eq. repeat split. intros j N. apply upd_neq, N.
    - left. rewrite upd_neq by congruence. auto. }
  destruct e as [k e|p q us]; cbn [sstep].
  - destruct (local e); [|left; auto]. destruct (AP k e s eq_refl) as [A|(-> & A)]; [left; exact A|right]. exists e. intuition.
  - destruct (s_chan s p q) as [|t r] eqn:CH; [left; auto|].
    destruct (AP q (ERecv p t us) (mkSim (s_node s) (fun a b => if Nat.eqb a p && Nat.eqb b q then r else s_chan s a b)) eq_refl) as [A|(-> & A)]; [left; exact A|right].
    exists (ERecv p t us). cbn in *. intuition. eauto.
Qed.
(** What was executed is in the state. *)
Lemma srun_hop : forall c es s i, (t_hop (s_node s i) = true \/ exists t d, In (Exec t d) (of i (fst (srun c es s)))) -> t_hop (s_node (snd (srun c es s)) i) = true.
Proof.
  assert (TH : forall c e x, t_hop x = true -> t_hop (snd (tstep c e x)) = true).
  { intros c e x H. destruct (tstep_core c e x) as [C1 C2 C3 C4|m C1 C2 C3 C4 C5 C6 C7 C8 C9|C1 C2 C3 C4 C5 C6]; congruence. }
  intros c. induction es as [|e es IH]; intros s i H; [destruct H as [H|(t & d & [])]; exact H|].
  cbn [srun] in *. pose proof (sstep_cases c e s i) as SC. destruct (sstep c e s) as [o s1]. cbn [fst snd] in *.
  specialize (IH s1 i). destruct (srun c es s1) as [o' s2]. cbn [fst snd] in *. apply IH. destruct H as [H|(t & d & H)].
  - left. destruct SC as [[_ ->]|(ev & _ & _ & -> & _)]; [exact H|apply TH, H].
  - rewrite of_app in H. apply in_app_or in H. destruct H as [H|H]; [left|right; eauto].
    destruct SC as [[E _]|(ev & _ & E & -> & _)]; rewrite E in H; [destruct H|]. apply (fired (c i) ev (s_node s i) t d H).
Qed.
Lemma srun_prog : forall c es s i p, c_block (c i) = false -> prog p (s_node s i) ->
  prog (in_progress p (of i (fst (srun c es s)))) (s_node (snd (srun c es s)) i).
Proof.
  intros c. induction es as [|e es IH]; intros s i p B P; [exact P|].
  cbn [srun]. pose proof (sstep_cases c e s i) as SC. destruct (sstep c e s) as [o s1]. cbn [fst snd] in *.
  specialize (IH s1 i (in_progress p (of i o)) B). destruct (srun c es s1) as [o' s2]. cbn [fst snd] in *.
  rewrite of_app, in_progress_app. apply IH. destruct SC as [[-> ->]|(ev & _ & -> & -> & _)]; [exact P|]. apply tstep_prog; auto.
Qed.
Lemma in_of : forall i x o, In (i, x) o <-> In x (of i o).
Proof.
  intros i x o. unfold of. rewrite in_map_iff. split.
  - intros H. exists (i, x). split; [reflexivity|]. apply filter_In. split; [exact H|]. cbn. apply Nat.eqb_refl.
  - intros ([j y] & H1 & H2). apply filter_In in H2. destruct H2 as [H2 H3]. cbn in *. apply Nat.eqb_eq in H3. congruence.
Qed.
(** The core: a participant that starts a step is not ahead of anyone it knows. *)
Lemma step_floor : forall c e s i j t d, GI c s -> step_ok c e s -> In (i, Exec t d) (fst (sstep c e s)) ->
  (t = 0 \/ t_hop (s_node s i) = true) -> knows (snd (sstep c e s)) i j -> t <= floor (s_node s j).
Proof.
  intros c e s i j t d G OK I H K. apply in_of in I. destruct H as [-> |H]; [apply (floor_nonneg (c j)), (gi_node c s G)|].
  destruct (sstep_cases c e s i) as [[E _]|(ev & _ & E & E2 & _ & EV)]; rewrite E in I; [destruct I|].
  destruct (fired _ _ _ _ _ I) as (T & _ & [PO _] & _). apply possible_running in PO. destruct PO as (_ & _ & _ & OL & _).
  assert (HP : t_hop (pre ev (s_node s i)) = true) by (destruct ev; exact H). unfold start in T. rewrite HP in T.
  unfold knows in K. rewrite E2 in K. destruct (exec_others _ _ _ _ _ I) as [EO _]. rewrite EO in K. unfold lookup in K.
  destruct (find _ (t_others (pre ev (s_node s i)))) as [[j' tk]|] eqn:F; [|destruct (K eq_refl)].
  apply find_some in F. destruct F as [F1 F2]. cbn in F2. apply Nat.eqb_eq in F2. subst j'.
  unfold other_lower in OL. assert (LE : t <= fst tk).
  { destruct (Z_lt_ge_dec (fst tk) t) as [L|L]; [|lia]. exfalso. apply Bool.not_true_iff_false in OL. apply OL.
    apply existsb_exists. exists (j, tk). split; [exact F1|]. cbn. rewrite <- T. apply Z.ltb_lt, L. }
  assert (IN : In (j, tk) (t_others (s_node s i)) \/ exists us, ev = ERecv j tk us).
  { destruct ev; cbn in F1; auto.
    - unfold on_next_step in F1. apply in_map_iff in F1. destruct F1 as ([q r] & I1 & I2). cbn in I1.
      destruct (Nat.eqb q p); injection I1 as <- <-; eauto.
    - apply filter_In in F1. left. apply F1. }
  destruct IN as [IN|(us & ->)]; [pose proof (gi_view c s G i j tk IN); lia|].
  destruct e as [k e|p q us']; [|destruct EV as (-> & u & r & CH & EV); injection EV as <- <- <-; destruct (gi_chan c s G j i tk); [rewrite CH; left; reflexivity|lia]].
  subst e. assert (E' : [] = fst (tstep (c i) (ERecv j tk us) (s_node s i))) by exact E. rewrite <- E' in I. destruct I.
Qed.
Lemma no_overtaking : forall c es1 e es2 i j t d,
  undisturbed c (es1 ++ e :: es2) sim_init ->
  In (i, Exec t d) (fst (sstep c e (safter c es1))) ->
  (t = 0 \/ exists t0 d0, In (i, Exec t0 d0) (souts c es1)) ->
  knows (snd (sstep c e (safter c es1))) i j ->
  (forall t' d', In (j, Exec t' d') (fst (srun c es2 (snd (sstep c e (safter c es1))))) -> t <= t') /\
  (c_block (c j) = false -> forall t', in_progress None (of j (souts c es1)) = Some t' -> t <= t').
Proof.
  intros c es1 e es2 i j t d U I F K. apply undisturbed_app in U. destruct U as [U1 [U2 U3]].
  destruct (srun_GI c es1 sim_init (GI_init c) U1) as (G & _ & _). fold (safter c es1) in *.
  assert (FL : t <= floor (s_node (safter c es1) j)).
  { apply (step_floor c e (safter c es1) i j t d G U2 I); [|exact K]. destruct F as [F|(t0 & d0 & F)]; [left; exact F|right].
    apply srun_hop. right. exists t0, d0. apply in_of, F. }
  destruct (sstep_GI c e _ G U2) as (S1 & S2 & _). split.
  - intros t' d' H. destruct (srun_GI c es2 _ S1 U3) as (_ & _ & R). specialize (R j t' d' H). specialize (S2 j). lia.
  - intros B t' H. destruct (srun_prog c es1 sim_init j None B) with (t := t') as [X1 X2]; [intros ? ?; discriminate|exact H|].
    change (snd (srun c es1 sim_init)) with (safter c es1) in *. unfold floor in FL. rewrite X1 in FL. cbn [andb] in FL.
    pose proof (ni_cur _ _ (gi_node c _ G j)) as NC. destruct (0 <=? fst (t_cur (s_node (safter c es1) j))) eqn:Z0; [lia|].
    (* the first step was executed at a time >= 0 *)
    exfalso. assert (Q : 0 <= t'); [|lia]. clear - H U1.
    assert (IN : forall o p, in_progress p o = Some t' -> p = Some t' \/ exists d, In (Exec t' d) o).
    { induction o as [|x o IH]; intros p E; [left; exact E|]. destruct x; cbn in E; apply IH in E.
      all: try (destruct E as [E|(d & E)]; [left; exact E|right; exists d; right; exact E]).
      - destruct E as [E|(d' & E)]; [injection E as <-; right; exists d; left; reflexivity|right; exists d'; right; exact E].
      - destruct E as [E|(d' & E)]; [discriminate|right; exists d'; right; exact E]. }
    destruct (IN _ _ H) as [E|(d & E)]; [discriminate|]. apply in_of in E.
    destruct (srun_GI c es1 sim_init (GI_init c) U1) as (_ & _ & R). specialize (R j t' d E). cbn in R. exact R.
Qed.

(** * C23: a group of participants never gets stuck *)
Definition plain_t (e : tev) : Prop :=
  match e with
  | EDeferred us | ERecv _ _ us => Forall plain_u us
  | EStartTime => True
  | EUser u => plain_u u
  | _ => False
  end.
Definition alive (x : node) : Prop := t_state x = Running /\ t_pause x = false /\ t_stop x = false /\ t_syserr x = false.
Definition told (x : node) : Prop := t_exec x = false -> t_last x = fst (t_next x).
Definition woken (c : tcfg) (x : node) : Prop := t_exec x = true \/ t_def x <> [] \/ possible c x = false.
Lemma user_plain : forall u x, plain_u u -> alive x -> alive (user u x).
Proof.
  intros u x P (A1 & A2 & A3 & A4). destruct u; try contradiction; cbn; [|repeat split; auto].
  unfold set_step_duration. destruct (d =? 0); repeat split; auto.
Qed.
Lemma users_plain : forall us x, Forall plain_u us -> alive x -> alive (users us x).
Proof. induction us as [|u us IH]; intros x P A; [exact A|]. inversion P; subst. apply (IH (user u x)); auto. apply user_plain; auto. Qed.
Lemma request_alive : forall x, alive x -> alive (snd (request_next x)) /\ told (snd (request_next x)) /\ t_def (snd (request_next x)) <> [].
Proof.
  intros x (A1 & A2 & A3 & A4). unfold request_next. rewrite A1, A2, A3. cbn [lstate_eqb andb negb].
  destruct (t_last x =? fst (t_next x)) eqn:E; cbn; (split; [repeat split; auto|]).
  - split; [intros _; apply Z.eqb_eq, E|]. destruct (t_def x); discriminate.
  - split; [intros _; reflexivity|]. destruct (t_def x); discriminate.
Qed.
Lemma exec_case_alive : forall c us y o z, exec_case c us y o z -> alive y -> Forall plain_u us -> t_syserr z = t_syserr y -> alive z /\ t_exec z = t_exec y.
Proof.
  intros c us y o z H (A1 & A2 & A3 & A4) U SE. inversion H as [m B1 B2 B3|y' B0 B1 B2 B3 B4 B5 B6 B7 B8 B9 B10 B11]; subst.
  - split; [repeat split; auto|reflexivity].
  - destruct (users_frame us y') as (U1 & U2 & U3 & U4 & U5 & U6 & U7 & U8 & U9 & _). split; [|congruence].
    assert (AL : alive y') by (repeat split; congruence). apply users_plain; auto.
Qed.
Lemma execute_syserr : forall c us y, t_syserr (snd (execute c us y)) = t_syserr y.
Proof.
  intros c us y. unfold execute. destruct (_ || _); [|reflexivity].
  assert (G : forall w, t_syserr w = t_syserr y -> t_syserr (users us (advance c w)) = t_syserr y).
  { intros w E. destruct (users_frame us (advance c w)) as (_ & _ & _ & _ & _ & _ & _ & _ & U9 & _). rewrite U9. unfold advance. cbn. exact E. }
  destruct (t_hop y); [apply G; reflexivity|]. destruct (hop_on _) as [m|].
  - destruct (c_coord c); [reflexivity|]. apply G. destruct (c_wall c); reflexivity.
  - apply G. destruct (c_wall c); reflexivity.
Qed.
Lemma process_alive : forall c us y, c_wall c = false -> alive y -> Forall plain_u us ->
  alive (snd (process c us y)) /\ woken c (snd (process c us y)) /\ ((told y -> told (snd (process c us y)))).
Proof.
  intros c us y W A U. unfold process. destruct (possible c y) eqn:P; [|cbn; split; [exact A|split; [right; right; exact P|auto]]].
  destruct (possible_running c y P) as (R & _). destruct (c_block c) eqn:B.
  - pose proof (execute_cases c us y R) as EC. pose proof (execute_syserr c us y) as ES. destruct (execute c us y) as [o z]. cbn [fst snd] in *.
    destruct (exec_case_alive c us y o z EC A U ES) as [AZ _]. destruct (request_alive z AZ) as (R1 & R2 & R3).
    destruct AZ as (Z1 & Z2 & Z3 & Z4). rewrite Z2, W. cbn [orb]. destruct (request_next z) as [o' z']. cbn [snd] in *.
    split; [exact R1|]. split; [right; left; exact R3|auto].
  - destruct (t_exec y) eqn:X; [cbn; split; [exact A|split; [left; exact X|auto]]|].
    pose proof (execute_cases c us (TimeSyncModel.set_exec true y) R) as EC. pose proof (execute_syserr c us (TimeSyncModel.set_exec true y)) as ES.
    destruct (execute c us (TimeSyncModel.set_exec true y)) as [o z]. cbn [fst snd] in *.
    destruct (exec_case_alive c us _ o z EC A U ES) as [AZ EX]. cbn in EX.
    split; [exact AZ|]. split; [left; exact EX|]. intros _ E. congruence.
Qed.
Lemma user_woken : forall c u x, c_wall c = false -> plain_u u -> (told x -> told (user u x)) /\ (woken c x -> woken c (user u x)).
Proof.
  intros c u x W P. destruct u; try contradiction; cbn [user].
  - unfold set_step_duration. destruct (d =? 0); [auto|]. split; [intros T E; apply T, E|].
    intros [H|[H|H]]; [left; exact H|right; left; exact H|right; right]. unfold possible in *. rewrite W in *. exact H.
  - split; [intros T E; apply T, E|]. intros _. right; left. cbn. destruct (t_def x); discriminate.
Qed.
Lemma tstep_alive : forall c e x, c_wall c = false -> alive x -> plain_t e ->
  alive (snd (tstep c e x)) /\
  ((e = EStartTime \/ told x) -> told (snd (tstep c e x))) /\
  ((e = EStartTime \/ woken c x) -> woken c (snd (tstep c e x))).
Proof.
  intros c e x W A P. destruct e; try contradiction; cbn [tstep plain_t] in *.
  - assert (A' : alive (TimeSyncModel.set_others (on_next_step p t (t_others x)) x)) by exact A.
    destruct A as (A1 & A2 & A3 & A4). cbn [TimeSyncModel.set_others t_state]. rewrite A1.
    destruct (process_alive c us _ W A' P) as (P1 & P2 & P3). split; [exact P1|]. split; [|auto].
    intros [H|H]; [discriminate|]. apply P3. exact H.
  - destruct (t_def x) as [|[] r] eqn:D.
    + cbn. split; [exact A|]. split; (intros [H|H]; [discriminate|exact H]).
    + assert (A' : alive (set_def r x)) by exact A. destruct (process_alive c us _ W A' P) as (P1 & P2 & P3).
      split; [exact P1|]. split; [|auto]. intros [H|H]; [discriminate|]. apply P3. exact H.
    + assert (A' : alive (set_def r x)) by exact A. destruct (request_alive _ A') as (P1 & P2 & P3). split; [exact P1|]. split; [auto|]. intros _. right; left. exact P3.
    + rewrite W. cbn [negb orb]. set (y := set_wall (t_sync (set_exec false (set_def r x))) false (set_exec false (set_def r x))).
      assert (A' : alive y) by exact A. destruct (request_alive y A') as (P1 & P2 & P3).
      destruct (request_next y) as [o z]. cbn [snd] in *. split; [exact P1|]. split; [auto|]. intros _. right; left. exact P3.
  - destruct (request_alive x A) as (P1 & P2 & P3). split; [exact P1|]. split; [auto|]. intros _. right; left. exact P3.
  - destruct (user_woken c u x W P) as [U1 U2]. cbn [snd]. split; [apply user_plain; auto|].
    split; (intros [H|H]; [discriminate|auto]).
Qed.
Lemma tstep_plain_others : forall c e x, plain_t e ->
  t_others (snd (tstep c e x)) = match e with ERecv p t _ => on_next_step p t (t_others x) | _ => t_others x end /\
  map fst (sents (fst (tstep c e x))) = announced (fst (tstep c e x)).
Proof.
  intros c e x P. assert (RQ : forall y, t_others (snd (request_next y)) = t_others y /\ map fst (sents (fst (request_next y))) = announced (fst (request_next y))).
  { intros y. split; [apply (request_frame y)|]. destruct (request_out y) as [[-> _]|[-> _]]; reflexivity. }
  assert (PS : forall us y, map fst (sents (fst (process c us y))) = announced (fst (process c us y))).
  { assert (EC : forall us y o z, exec_case c us y o z -> map fst (sents o) = announced o) by (intros us y o z H; inversion H; reflexivity).
    intros us y. destruct (process_cases c us y) as [Q|Q B X|o z Q B C W|o z Q B C W1 W2|o z Q B X C]; try reflexivity; eauto.
    unfold announced. rewrite sents_app, map_app, flat_map_app. f_equal; [eapply EC; eauto|apply RQ]. }
  destruct e; try contradiction; cbn [tstep].
  - destruct (t_state _); try (split; reflexivity); rewrite (proj1 (process_others _ _ _)); (split; [reflexivity|apply PS]).
  - destruct (t_def x) as [|[] r]; [split; reflexivity|rewrite (proj1 (process_others _ _ _)); split; [reflexivity|apply PS]|apply (RQ (set_def r x))|].
    destruct (_ || _); [|split; reflexivity].
    specialize (RQ (set_wall (t_sync (set_exec false (set_def r x))) false (set_exec false (set_def r x)))).
    destruct (request_next _) as [o z]. exact RQ.
  - apply RQ.
  - destruct (users_frame [u] x) as (_ & _ & U3 & _). split; [exact U3|reflexivity].
Qed.
Definition view (s : sim) (i j : nat) : Z := match lookup j (t_others (s_node s i)) with Some t => fst t | None => -1 end.
Definition keys (n i : nat) : list nat := filter (fun j => negb (Nat.eqb j i)) (seq 0 n).
Record SI (n : nat) (c : nat -> tcfg) (es : list sev) (s : sim) : Prop := {
  si_alive : forall i, (i < n)%nat -> alive (s_node s i);
  si_keys : forall i, (i < n)%nat -> map fst (t_others (s_node s i)) = keys n i;
  si_told : forall i, (i < n)%nat -> In (SLocal i EStartTime) es -> told (s_node s i) /\ woken (c i) (s_node s i);
  si_view : forall i j, (i < n)%nat -> (j < n)%nat -> i <> j -> last (map fst (s_chan s j i)) (view s i j) = t_last (s_node s j)
}.
Lemma lookup_group : forall n i j, lookup j (group n i) = if existsb (Nat.eqb j) (keys n i) then Some (-1, 0) else None.
Proof.
  intros n i j. unfold lookup, group. fold (keys n i). induction (keys n i) as [|k l IH]; [reflexivity|]. cbn [map find existsb fst].
  rewrite (Nat.eqb_sym j k). destruct (Nat.eqb k j); [reflexivity|exact IH].
Qed.
Lemma SI_init : forall n c, SI n c [] (group_init n).
Proof.
  intros n c. constructor; cbn; intros; try contradiction; [repeat split| |].
  - unfold group. rewrite map_map. cbn. apply map_id.
  - unfold view. cbn [group_init s_node set_life TimeSyncModel.set_others t_others]. rewrite lookup_group. destruct (existsb _ _); reflexivity.
Qed.
Lemma lookup_on_next : forall p t o j, lookup j (on_next_step p t o) = if Nat.eqb j p then match lookup p o with Some _ => Some t | None => None end else lookup j o.
Proof.
  intros p t o j. unfold lookup, on_next_step. induction o as [|[k u] o IH]; [destruct (Nat.eqb j p); reflexivity|]. cbn [map find fst].
  destruct (Nat.eqb_spec k p) as [->|N]; cbn [fst].
  - rewrite (Nat.eqb_sym p j). destruct (Nat.eqb j p) eqn:E; [reflexivity|]. exact IH.
  - destruct (Nat.eqb_spec k j) as [->|N']; [destruct (Nat.eqb_spec j p); [congruence|reflexivity]|exact IH].
Qed.
Lemma lookup_key : forall o j, In j (map fst o) -> lookup j o <> None.
Proof.
  intros o j I. unfold lookup. apply in_map_iff in I. destruct I as ([k t] & <- & I). cbn [fst].
  destruct (find (fun x : nat * task => Nat.eqb (fst x) k) o) eqn:F; [discriminate|].
  pose proof (find_none _ _ F _ I) as X. cbn in X. rewrite Nat.eqb_refl in X. discriminate.
Qed.
Lemma in_keys : forall n i j, In j (keys n i) <-> (j < n)%nat /\ j <> i.
Proof.
  intros n i j. unfold keys. rewrite filter_In, in_seq. destruct (Nat.eqb_spec j i); cbn; intuition (try lia; try congruence).
Qed.
Lemma last_app_cons : forall (l : list Z) a d, last (l ++ [a]) d = a /\ last (a :: l) d = last l a.
Proof.
  intros l a d. split; [apply last_last|]. revert a d. induction l as [|b l IH]; intros a d; [reflexivity|].
  change (last (a :: b :: l) d) with (last (b :: l) d). rewrite (IH b d), (IH b a). reflexivity.
Qed.
Lemma apply_SI : forall n c es s i e se, (forall i, c_wall (c i) = false) -> (i < n)%nat -> plain_t e ->
  (forall j, (j < n)%nat -> In (SLocal j EStartTime) (es ++ [se]) -> In (SLocal j EStartTime) es \/ (j = i /\ e = EStartTime)) ->
  (forall k, (k < n)%nat -> alive (s_node s k)) -> (forall k, (k < n)%nat -> map fst (t_others (s_node s k)) = keys n k) ->
  (forall k, (k < n)%nat -> In (SLocal k EStartTime) es -> told (s_node s k) /\ woken (c k) (s_node s k)) ->
  (forall a b, (a < n)%nat -> (b < n)%nat -> a <> b -> last (map fst (s_chan s b a)) (match e with ERecv p t _ => if Nat.eqb a i && Nat.eqb b p then fst t else view s a b | _ => view s a b end) = t_last (s_node s b)) ->
  (forall p t us, e = ERecv p t us -> (p < n)%nat) ->
  SI n c (es ++ [se]) (snd (apply i (tstep (c i) e (s_node s i)) s)).
Proof.
  intros n c es s i e se W LI P ST AL KE TO VI RP.
  destruct (tstep_alive (c i) e (s_node s i) (W i) (AL i LI) P) as (T1 & T2 & T3).
  destruct (tstep_plain_others (c i) e (s_node s i) P) as [T4 T5]. pose proof (tstep_announced (c i) e (s_node s i)) as TA. cbv zeta in TA.
  set (r := tstep (c i) e (s_node s i)) in *. constructor; cbn [apply snd s_node s_chan].
  - intros k L. destruct (Nat.eq_dec k i) as [->|N]; [rewrite upd_eq; exact T1|rewrite upd_neq by exact N; auto].
  - intros k L. destruct (Nat.eq_dec k i) as [->|N]; [rewrite upd_eq|rewrite upd_neq by exact N; auto]. rewrite T4.
    rewrite <- (KE i LI). destruct e; try reflexivity. unfold on_next_step. rewrite map_map. apply map_ext. intros [q u]. cbn.
    destruct (Nat.eqb_spec q p); cbn; congruence.
  - intros k L I. destruct (ST k L I) as [J|[-> J]].
    + destruct (TO k L J) as [K1 K2]. destruct (Nat.eq_dec k i) as [->|N]; [rewrite upd_eq; auto|rewrite upd_neq by exact N; auto].
    + rewrite upd_eq. auto.
  - intros a b LA LB NE. specialize (VI a b LA LB NE).
    assert (VW : view (snd (apply i r s)) a b = match e with ERecv p t _ => if Nat.eqb a i && Nat.eqb b p then fst t else view s a b | _ => view s a b end).
    { unfold view. cbn [apply snd s_node]. destruct (Nat.eq_dec a i) as [->|N].
      - rewrite upd_eq, T4, Nat.eqb_refl. cbn [andb]. destruct e; try reflexivity. rewrite lookup_on_next.
        destruct (Nat.eqb_spec b p) as [BP|BP]; [|reflexivity]. destruct (lookup p (t_others (s_node s i))) eqn:LK; [reflexivity|].
        exfalso. apply (lookup_key (t_others (s_node s i)) p); [|exact LK]. rewrite (KE i LI). apply in_keys. split; [apply (RP p t us eq_refl)|congruence].
      - rewrite upd_neq by exact N. destruct e; try reflexivity. destruct (Nat.eqb_spec a i); [congruence|reflexivity]. }
    rewrite <- VW in VI. change (view (mkSim (upd (s_node s) i (snd r)) (broadcast i (fst r) (s_chan s))) a b) with (view (snd (apply i r s)) a b).
    unfold broadcast. destruct (Nat.eqb_spec b i) as [->|N]; [rewrite upd_eq|rewrite upd_neq by exact N; exact VI].
    rewrite map_app. assert (T6 : @map task Z fst (sents (fst r)) = announced (fst r)) by exact T5. rewrite T6. destruct TA as [[TA1 TA2]|(TA1 & TA2 & _)]; rewrite TA1.
    + rewrite app_nil_r, TA2. exact VI.
    + rewrite TA2. apply (last_app_cons (map fst (s_chan s i a))).
Qed.
Lemma sstep_SI : forall n c es s e, (forall i, c_wall (c i) = false) -> SI n c es s -> plain n e -> SI n c (es ++ [e]) (snd (sstep c e s)).
Proof.
  intros n c es s e W [AL KE TO VI] P. destruct e as [i e|i j us].
  - assert (PT : plain_t e /\ (i < n)%nat /\ local e = true) by (destruct e; cbn in *; tauto). destruct PT as (PT & LI & LO).
    cbn [sstep]. rewrite LO. apply apply_SI; auto.
    + intros k L I. apply in_app_or in I. destruct I as [I|[I|[]]]; [left; exact I|]. injection I as <- <-. right; auto.
    + intros a b LA LB NE. destruct e; try discriminate; apply VI; auto.
    + intros p t us ->. discriminate.
  - destruct P as (LI & LJ & U). cbn [sstep]. destruct (s_chan s i j) as [|t r] eqn:CH.
    + cbn. constructor; auto. intros k L I. apply in_app_or in I. destruct I as [I|[I|[]]]; [auto|discriminate].
    + apply (apply_SI n c es (mkSim (s_node s) (fun a b => if Nat.eqb a i && Nat.eqb b j then r else s_chan s a b)) j (ERecv i t us)); auto.
      * intros k L I. apply in_app_or in I. destruct I as [I|[I|[]]]; [auto|discriminate].
      * intros a b LA LB NE. specialize (VI a b LA LB NE). cbn [s_chan].
        destruct (Nat.eqb_spec a j) as [->|N1]; cbn [andb].
        -- destruct (Nat.eqb_spec b i) as [->|N2]; cbn [andb]; [|exact VI]. rewrite CH in VI. cbn [map] in VI.
           rewrite (proj2 (last_app_cons (map fst r) (fst t) (view s j i))) in VI. exact VI.
        -- rewrite andb_false_r. exact VI.
      * intros p u us' E. injection E as <- <- <-. exact LI.
Qed.
Lemma srun_SI : forall n c es, (forall i, c_wall (c i) = false) -> Forall (plain n) es -> SI n c es (snd (srun c es (group_init n))).
Proof.
  intros n c es W. induction es as [|e es IH] using rev_ind; intros P; [apply SI_init|].
  apply Forall_app in P. destruct P as [P1 P2]. rewrite srun_app. cbn [snd]. inversion P2; subst.
  cbn [srun]. destruct (sstep c e (snd (srun c es (group_init n)))) as [o s'] eqn:E. cbn [snd].
  pose proof (sstep_SI n c es _ e W (IH P1) H1) as S. rewrite E in S. exact S.
Qed.
Lemma minimal : forall (f : nat -> Z) n, (0 < n)%nat -> exists i, (i < n)%nat /\ forall j, (j < n)%nat -> f i <= f j.
Proof.
  intros f n. induction n as [|n IH]; intros L; [lia|]. destruct n as [|n]; [exists 0%nat; split; [lia|]; intros j H; replace j with 0%nat by lia; lia|].
  destruct IH as (i & L1 & M); [lia|]. destruct (Z_le_gt_dec (f i) (f (S n))) as [H|H].
  - exists i. split; [lia|]. intros j J. destruct (Nat.eq_dec j (S n)) as [->|]; [exact H|apply M; lia].
  - exists (S n). split; [lia|]. intros j J. destruct (Nat.eq_dec j (S n)) as [->|]; [lia|]. specialize (M j). lia.
Qed.
Lemma never_stuck : forall n c es, (0 < n)%nat -> (forall i, c_wall (c i) = false) -> Forall (plain n) es ->
  (forall i, (i < n)%nat -> In (SLocal i EStartTime) es) ->
  let s := snd (srun c es (group_init n)) in
  (exists i, (i < n)%nat /\ t_exec (s_node s i) = true) \/
  (exists i, (i < n)%nat /\ t_def (s_node s i) <> []) \/
  (exists i j, (i < n)%nat /\ (j < n)%nat /\ i <> j /\ s_chan s i j <> []).
Proof.
  intros n c es LN W P ST s. pose proof (srun_SI n c es W P) as [AL KE TO VI]. fold s in AL, KE, TO, VI. clearbody s.
  assert (D1 : (exists i, (i < n)%nat /\ t_exec (s_node s i) = true) \/ forall i, (i < n)%nat -> t_exec (s_node s i) = false).
  { clear. induction n as [|n IH]; [right; intros; lia|]. destruct IH as [(i & L & H)|H]; [left; exists i; split; [lia|exact H]|].
    destruct (t_exec (s_node s n)) eqn:E; [left; exists n; split; [lia|exact E]|right]. intros i L. destruct (Nat.eq_dec i n) as [->|]; [exact E|apply H; lia]. }
  destruct D1 as [D1|D1]; [left; exact D1|right].
  assert (D2 : (exists i, (i < n)%nat /\ t_def (s_node s i) <> []) \/ forall i, (i < n)%nat -> t_def (s_node s i) = []).
  { clear. induction n as [|n IH]; [right; intros; lia|]. destruct IH as [(i & L & H)|H]; [left; exists i; split; [lia|exact H]|].
    destruct (t_def (s_node s n)) eqn:E; [right|left; exists n; split; [lia|rewrite E; discriminate]]. intros i L. destruct (Nat.eq_dec i n) as [->|]; [exact E|apply H; lia]. }
  destruct D2 as [D2|D2]; [left; exact D2|right].
  destruct (minimal (fun i => fst (t_next (s_node s i))) n LN) as (i & LI & M).
  destruct (TO i LI (ST i LI)) as [T1 T2].
  assert (EX : exists j, (j < n)%nat /\ i <> j /\ view s i j <> t_last (s_node s j)).
  { destruct T2 as [T2|[T2|T2]]; [rewrite (D1 i LI) in T2; discriminate|rewrite (D2 i LI) in T2; congruence|].
    destruct (AL i LI) as (A1 & A2 & A3 & A4). unfold possible in T2. rewrite A1, A2, A3, A4, W in T2. cbn [lstate_eqb andb negb orb] in T2.
    rewrite andb_false_r, andb_true_r in T2. cbn [negb andb] in T2. apply negb_false_iff in T2. unfold other_lower in T2.
    apply existsb_exists in T2. destruct T2 as ([j tk] & I1 & I2). cbn in I2. apply Z.ltb_lt in I2.
    assert (J : In j (keys n i)) by (rewrite <- (KE i LI); apply in_map_iff; exists (j, tk); auto). apply in_keys in J.
    exists j. destruct J as [J1 J2]. split; [exact J1|]. split; [congruence|]. destruct (TO j J1 (ST j J1)) as [TJ _]. rewrite (TJ (D1 j J1)).
    specialize (M j J1). cbv beta in M. unfold view.
    assert (LK : lookup j (t_others (s_node s i)) = Some tk); [|rewrite LK; lia].
    assert (ND : NoDup (map fst (t_others (s_node s i)))) by (rewrite (KE i LI); apply NoDup_filter, seq_NoDup).
    clear - I1 ND. unfold lookup. induction (t_others (s_node s i)) as [|[k u] o IH]; [destruct I1|]. cbn [map fst] in ND. inversion ND; subst. cbn [find fst].
    destruct I1 as [I1|I1]; [injection I1 as -> ->; rewrite Nat.eqb_refl; reflexivity|].
    destruct (Nat.eqb_spec k j) as [->|]; [exfalso; apply H1, in_map_iff; exists (j, tk); auto|apply IH; auto]. }
  destruct EX as (j & LJ & NE & V). exists j, i. split; [exact LJ|]. split; [exact LI|]. split; [congruence|].
  intros E. specialize (VI i j LI LJ NE). rewrite E in VI. cbn in VI. congruence.
Qed.

(** Between two steps only finitely much happens. *)
Definition stepped (x : tout) : Prop := match x with Exec _ _ | AbortSim => True | _ => False end.
Definition weight (n : nat) (l : list dtask) : nat := list_sum (map (fun d => match d with DProcess => 1 | _ => n + 2 end)%nat l).
Lemma weight_app : forall n a b, weight n (a ++ b) = (weight n a + weight n b)%nat.
Proof. intros. unfold weight. rewrite map_app, list_sum_app. reflexivity. Qed.
Lemma process_idle : forall c us y, (forall x, In x (fst (process c us y)) -> ~ stepped x) -> snd (process c us y) = y /\ sents (fst (process c us y)) = [].
Proof.
  assert (EC : forall c us y o z, exec_case c us y o z -> exists x r, o = x :: r /\ stepped x) by (intros c us y o z H; inversion H; subst; do 2 eexists; (split; [reflexivity|exact I])).
  intros c us y H. destruct (process_cases c us y) as [Q|Q B X|o z Q B C W|o z Q B C W1 W2|o z Q B X C]; auto; exfalso;
    destruct (EC _ _ _ _ _ C) as (x & r & -> & S); apply (H x (or_introl eq_refl) S).
Qed.
Lemma request_weight : forall n y, (weight n (t_def (snd (request_next y))) + n * length (sents (fst (request_next y))) <= weight n (t_def y) + n + 1)%nat.
Proof.
  intros n y. unfold request_next. destruct (_ && _); cbn [fst snd]; [|cbn; lia].
  destruct (_ =? _); cbn [fst snd]; cbn [defer set_def set_last t_def]; rewrite weight_app; cbn; lia.
Qed.
Lemma tstep_weight : forall n c e x, (forall y, In y (fst (tstep c e x)) -> ~ stepped y) ->
  match e with
  | EDeferred _ => t_def x <> [] -> (weight n (t_def (snd (tstep c e x))) + n * length (sents (fst (tstep c e x))) < weight n (t_def x))%nat
  | ERecv _ _ _ => (weight n (t_def (snd (tstep c e x))) + n * length (sents (fst (tstep c e x))) <= weight n (t_def x))%nat
  | _ => True
  end.
Proof.
  intros n c e x H. destruct e; try exact I; cbn [tstep] in *.
  - destruct (t_state _); try (destruct (process_idle _ _ _ H) as [-> ->]);
      cbn [fst snd sents flat_map length TimeSyncModel.set_others t_def]; rewrite Nat.mul_0_r; lia.
  - intros D. destruct (t_def x) as [|[] r] eqn:E; [congruence| | |].
    + destruct (process_idle _ _ _ H) as [-> ->]. change (weight n (DProcess :: r)) with (1 + weight n r)%nat.
      cbn [length set_def t_def]. rewrite Nat.mul_0_r. lia.
    + pose proof (request_weight n (set_def r x)) as R. cbn [set_def t_def] in R. change (weight n (DRequest :: r)) with (n + 2 + weight n r)%nat. lia.
    + change (weight n (DComplete :: r)) with (n + 2 + weight n r)%nat. destruct (_ || _);
        [|cbn [fst snd sents flat_map length TimeSyncModel.set_exec set_def t_def]; rewrite Nat.mul_0_r; lia].
      pose proof (request_weight n (set_wall (t_sync (TimeSyncModel.set_exec false (set_def r x))) false (TimeSyncModel.set_exec false (set_def r x)))) as R.
      destruct (request_next _) as [o z]. cbn [fst snd] in *. change (sents (Completed :: o)) with (sents o).
      cbn [set_wall TimeSyncModel.set_exec set_def t_def] in R. lia.
Qed.
Lemma sum_upd : forall (f g : nat -> nat) n i, (i < n)%nat -> (forall j, j <> i -> f j = g j) ->
  (list_sum (map f (seq 0 n)) + g i = list_sum (map g (seq 0 n)) + f i)%nat.
Proof.
  intros f g n i. induction n as [|n IH]; intros L E; [lia|]. rewrite seq_S, !map_app, !list_sum_app. cbn [plus map list_sum fold_right].
  destruct (Nat.eq_dec i n) as [->|N].
  - rewrite (map_ext_in f g); [lia|]. intros j J. apply in_seq in J. apply E. lia.
  - specialize (IH ltac:(lia) E). rewrite (E n) by congruence. lia.
Qed.
Lemma sum_add : forall (f : nat -> nat) k n, list_sum (map (fun j => f j + k)%nat (seq 0 n)) = (list_sum (map f (seq 0 n)) + n * k)%nat.
Proof. intros f k n. induction n as [|n IH]; [reflexivity|]. rewrite seq_S, !map_app, !list_sum_app, IH. cbn. lia. Qed.
Definition row (n : nat) (s : sim) (i : nat) : nat := (weight n (t_def (s_node s i)) + list_sum (map (fun j => length (s_chan s i j)) (seq 0 n)))%nat.
Lemma backlog_row : forall n s, backlog n s = list_sum (map (row n s) (seq 0 n)).
Proof. reflexivity. Qed.
Lemma apply_backlog : forall n c i e s, (i < n)%nat ->
  (backlog n (snd (apply i (tstep (c i) e (s_node s i)) s)) + weight n (t_def (s_node s i)) =
   backlog n s + weight n (t_def (snd (tstep (c i) e (s_node s i)))) + n * length (sents (fst (tstep (c i) e (s_node s i)))))%nat.
Proof.
  intros n c i e s L. set (r := tstep (c i) e (s_node s i)). rewrite !backlog_row.
  assert (R : forall j, j <> i -> row n (snd (apply i r s)) j = row n s j).
  { intros j N. unfold row. cbn [apply snd s_node s_chan]. rewrite upd_neq by exact N. unfold broadcast. destruct (Nat.eqb_spec j i); [congruence|reflexivity]. }
  pose proof (sum_upd (row n (snd (apply i r s))) (row n s) n i L R) as S. clear R.
  assert (RI : row n (snd (apply i r s)) i = (weight n (t_def (snd r)) + (list_sum (map (fun j => length (s_chan s i j)) (seq 0 n)) + n * length (sents (fst r))))%nat).
  { unfold row. cbn [apply snd s_node s_chan]. rewrite upd_eq. unfold broadcast. rewrite Nat.eqb_refl. f_equal.
    rewrite <- sum_add. f_equal. apply map_ext. intros j. apply app_length. }
  rewrite RI in S. unfold row at 2 in S. lia.
Qed.
Lemma sstep_backlog : forall n c e s, effective n e s -> (forall i x, In (i, x) (fst (sstep c e s)) -> ~ stepped x) ->
  (backlog n (snd (sstep c e s)) < backlog n s)%nat.
Proof.
  intros n c e s EF H. destruct e as [i e|i j us].
  - destruct e; try contradiction. destruct EF as [L D]. cbn [sstep local] in *.
    pose proof (apply_backlog n c i (EDeferred us) s L) as A.
    pose proof (tstep_weight n (c i) (EDeferred us) (s_node s i)) as T. cbv beta iota in T.
    specialize (T (fun y I => H i y (in_map (fun o => (i, o)) _ _ I)) D). lia.
  - destruct EF as (LI & LJ & D). cbn [sstep] in *. destruct (s_chan s i j) as [|t r] eqn:CH; [congruence|].
    set (s' := mkSim (s_node s) (fun a b => if Nat.eqb a i && Nat.eqb b j then r else s_chan s a b)) in *.
    pose proof (apply_backlog n c j (ERecv i t us) s' LJ) as A.
    pose proof (tstep_weight n (c j) (ERecv i t us) (s_node s j)) as T. cbv beta iota in T.
    specialize (T (fun y I => H j y (in_map (fun o => (j, o)) _ _ I))).
    assert (B : (backlog n s' + 1 = backlog n s)%nat).
    { rewrite !backlog_row. pose proof (sum_upd (row n s') (row n s) n i LI) as S.
      assert (R : forall k, k <> i -> row n s' k = row n s k).
      { intros k N. unfold row, s'. cbn [s_node s_chan]. destruct (Nat.eqb_spec k i); [congruence|reflexivity]. }
      specialize (S R). assert (RI : (row n s' i + 1 = row n s i)%nat); [|lia].
      unfold row, s'. cbn [s_node s_chan]. rewrite Nat.eqb_refl.
      pose proof (sum_upd (fun b => length (if true && Nat.eqb b j then r else s_chan s i b)) (fun b => length (s_chan s i b)) n j LJ) as S2.
      cbv beta in S2. rewrite Nat.eqb_refl, CH in S2. cbn [andb length] in S2. cbn [andb].
      specialize (S2 ltac:(intros k N; destruct (Nat.eqb_spec k j); [congruence|reflexivity])). lia. }
    change (s_node s' j) with (s_node s j) in A. lia.
Qed.
Lemma livelock_free : forall n c es s, busy n c es s -> (backlog n s < length es)%nat -> exists i x, In (i, x) (fst (srun c es s)) /\ stepped x.
Proof.
  intros n c. induction es as [|e es IH]; intros s B L; [cbn in L; lia|]. destruct B as [B1 B2].
  assert (D : (exists i x, In (i, x) (fst (sstep c e s)) /\ stepped x) \/ (forall i x, In (i, x) (fst (sstep c e s)) -> ~ stepped x)).
  { induction (fst (sstep c e s)) as [|[i x] l IHl]; [right; intros ? ? []|].
    destruct IHl as [(i' & x' & I1 & I2)|IHl]; [left; exists i', x'; split; [right; exact I1|exact I2]|].
    assert (DX : stepped x \/ ~ stepped x) by (destruct x; cbn; tauto).
    destruct DX as [DX|DX]; [left; exists i, x; split; [left; reflexivity|exact DX]|right].
    intros i' x' [I|I]; [injection I as <- <-; exact DX|apply (IHl i' x' I)]. }
  cbn [srun]. destruct D as [(i & x & I1 & I2)|D].
  - exists i, x. destruct (sstep c e s) as [o s1]. destruct (srun c es s1). cbn [fst] in *. split; [apply in_or_app; left; exact I1|exact I2].
  - pose proof (sstep_backlog n c e s B1 D) as W. destruct (sstep c e s) as [o s1]. cbn [fst snd] in *.
    cbn [length] in L. destruct (IH s1 B2) as (i & x & I1 & I2); [lia|]. destruct (srun c es s1). cbn [fst] in *.
    exists i, x. split; [apply in_or_app; right; exact I1|exact I2].
Qed.

(** * C26: a completed step is announced *)
Lemma users_flags : forall us x, ~ In UPause us -> ~ In UStop us -> t_pause x = false -> t_stop x = false -> t_pause (users us x) = false /\ t_stop (users us x) = false.
Proof.
  induction us as [|u us IH]; intros x P S A B; [auto|].
  assert (P' : ~ In UPause us) by (intros I; apply P; right; exact I). assert (S' : ~ In UStop us) by (intros I; apply S; right; exact I).
  apply (IH (user u x) P' S'); destruct u; cbn; unfold set_step_duration; try (destruct (d =? 0)); cbn; auto; exfalso;
    [apply P|apply S]; left; reflexivity.
Qed.
Lemma process_announces : forall c us y t d, NI c y -> c_block c = true -> c_wall c = false -> 0 < d -> ~ In UPause us -> ~ In UStop us ->
  In (Exec t d) (fst (process c us y)) -> exists d', In (Sent (t + d, d')) (fst (process c us y)).
Proof.
  intros c us y t d N B W D NP NS I. destruct (process_cases c us y) as [Q|Q B' X|o z Q B' EC W'|o z Q B' EC W1 W2|o z Q B' X EC]; try congruence.
  - destruct I.
  - exfalso. destruct W' as [W'|W']; [|congruence]. destruct (possible_running c y Q) as (R1 & R2 & R3 & _).
    inversion EC as [m A1 A2 A3|y' A0 A1 A2 A3 A4 A5 A6 A7 A8 A9 A10 A11]; subst; [destruct I as [I|[]]; discriminate|].
    destruct (users_flags us y' NP NS) as [F1 _]; congruence.
  - destruct (possible_running c y Q) as (R1 & R2 & R3 & _).
    apply in_app_or in I. destruct I as [I|I]; [|exfalso; apply in_execs in I; rewrite execs_request in I; exact I].
    inversion EC as [m A1 A2 A3|y' A0 A1 A2 A3 A4 A5 A6 A7 A8 A9 A10 A11]; subst; [destruct I as [I|[]]; discriminate|].
    destruct I as [I|[]]. injection I as <- <-. destruct (users_frame us y') as (U1 & U2 & U3 & U4 & U5 & U6 & U7 & U8 & _).
    destruct (users_flags us y' NP NS) as [F1 F2]; [congruence|congruence|].
    set (z := users us y') in *. exists (snd (t_next z)).
    assert (SN : fst (request_next z) = [Sent (t_next z)]).
    { unfold request_next. rewrite U8, A8, R1, F1, F2. cbn [lstate_eqb andb negb].
      assert (NE : (t_last z =? fst (t_next z)) = false); [|rewrite NE; reflexivity].
      apply Z.eqb_neq. rewrite U7, A7, U2, A2. cbn [fst]. pose proof (ni_last c y N) as L1. pose proof (start_floor c y N) as L2. clear - L1 L2 D. lia. }
    rewrite SN. right. left. f_equal. rewrite (surjective_pairing (t_next z)), U2, A2. reflexivity.
Qed.
Lemma trun_NI : forall c es x, NI c x -> Forall positive es -> Forall sane es -> NI c (snd (trun c es x)).
Proof.
  intros c. induction es as [|e es IH]; intros x H P S; [exact H|]. inversion P; inversion S; subst. cbn [trun].
  destruct (tstep_NI c e x H H2 H6) as (G1 & _). destruct (tstep c e x) as [o x1]. cbn [fst snd] in *.
  specialize (IH x1 G1 H3 H7). destruct (trun c es x1) as [o' x2]. exact IH.
Qed.
Lemma step_announced : forall c es e t d, Forall positive es -> Forall sane es -> sane e -> c_block c = true -> c_wall c = false ->
  ~ In UPause (uops e) -> ~ In UStop (uops e) -> 0 < d ->
  In (Exec t d) (fst (tstep c e (tafter c es))) -> exists d', In (Sent (t + d, d')) (fst (tstep c e (tafter c es))).
Proof.
  intros c es e t d P S SE B W NP NS D I. pose proof (trun_NI c es node_init (NI_init c) P S) as N. fold (tafter c es) in N.
  set (x := tafter c es) in *. assert (RQ : forall y, ~ In (Exec t d) (fst (request_next y))).
  { intros y H. apply in_execs in H. rewrite execs_request in H. exact H. }
  assert (SM : forall y, t_cur y = t_cur x -> t_next y = t_next x -> t_hop y = t_hop x -> t_exec y = t_exec x ->
    t_last y = t_last x -> (forall p t, In (p, t) (t_others y) -> 0 <= snd t) -> NI c y).
  { intros y E1 E2 E3 E4 E5 E6. apply (NI_same c x); auto; rewrite E2; [reflexivity|apply (ni_dur c x N)]. }
  destruct e; cbn [tstep uops] in *; try contradiction.
  - assert (O : forall q r, In (q, r) (on_next_step p t0 (t_others x)) -> 0 <= snd r).
    { intros q r J. unfold on_next_step in J. apply in_map_iff in J. destruct J as ([q' r'] & I1 & I2). cbn in I1.
      destruct (Nat.eqb q' p); injection I1 as <- <-; [exact SE|apply (ni_others c x N q' r' I2)]. }
    destruct (t_state _); try contradiction; apply process_announces; auto.
  - destruct (t_def x) as [|[] r]; [contradiction| |destruct (RQ _ I)|].
    + apply process_announces; auto. apply SM; auto. apply (ni_others c x N).
    + destruct (_ || _); [|destruct I as [I|[]]; discriminate].
      specialize (RQ (set_wall (t_sync (TimeSyncModel.set_exec false (set_def r x))) false (TimeSyncModel.set_exec false (set_def r x)))).
      destruct (request_next _) as [o z]. cbn [fst] in *. destruct I as [I|I]; [discriminate|contradiction].
  - cbn [fst] in I. destruct (0 <=? _); [destruct I as [I|[]]; discriminate|contradiction].
  - destruct (lookup _ _); [|contradiction]. apply process_announces; auto. apply SM; auto.
    intros q r J. apply filter_In in J. apply (ni_others c x N q r). apply J.
  - destruct (RQ _ I).
  - destruct (_ && _); [|contradiction]. cbn in I. destruct (t_exec x); contradiction.
Qed.

(** * C24: hop-on *)
Lemma trun_hop_false : forall c es x, t_hop x = false -> execs (fst (trun c es x)) = [] -> ~ In AbortSim (fst (trun c es x)) -> t_hop (snd (trun c es x)) = false.
Proof.
  intros c. induction es as [|e es IH]; intros x H E A; [exact H|]. cbn [trun] in *.
  pose proof (tstep_core c e x) as C. destruct (tstep c e x) as [o x1]. cbn [fst snd] in C.
  specialize (IH x1). destruct (trun c es x1) as [o' x2]. cbn [fst snd] in *. rewrite execs_app in E. apply app_eq_nil in E. destruct E as [E1 E2].
  apply IH; [|exact E2|intros I; apply A, in_or_app; right; exact I].
  destruct C as [C1 C2 C3 C4|m C1 C2 C3 C4 C5 C6 C7 C8 C9|C1 C2 C3 C4 C5 C6]; [congruence|exfalso; apply A, in_or_app; left; exact C7|congruence].
Qed.
Lemma trun_next_zero : forall c es x, t_hop x = false -> execs (fst (trun c es x)) = [] -> ~ In AbortSim (fst (trun c es x)) ->
  fst (t_next (snd (trun c es x))) = fst (t_next x) /\ t_cur (snd (trun c es x)) = t_cur x.
Proof.
  intros c. induction es as [|e es IH]; intros x H E A; [auto|]. cbn [trun] in *.
  pose proof (tstep_core c e x) as C. destruct (tstep c e x) as [o x1]. cbn [fst snd] in C.
  specialize (IH x1). destruct (trun c es x1) as [o' x2]. cbn [fst snd] in *. rewrite execs_app in E. apply app_eq_nil in E. destruct E as [E1 E2].
  destruct C as [C1 C2 C3 C4|m C1 C2 C3 C4 C5 C6 C7 C8 C9|C1 C2 C3 C4 C5 C6]; [|exfalso; apply A, in_or_app; left; exact C7|congruence].
  destruct IH as [I1 I2]; [congruence|exact E2|intros I; apply A, in_or_app; right; exact I|]. rewrite I1, I2. auto.
Qed.
Lemma hop_on_spec : forall x m, hop_on x = Some m -> (forall p s l, In (p, (s, l)) (t_others x) -> s <= tmax) ->
  (forall p s l, In (p, (s, l)) (t_others x) -> l < s -> m <= s) /\ exists p l, In (p, (m, l)) (t_others x) /\ l < m.
Proof.
  intros x m H B. unfold hop_on in H. destruct (fst (t_cur x) =? -1); [|discriminate].
  match type of H with context [filter ?f ?l] => destruct (filter f l) as [|a l0] eqn:F end; [discriminate|]. injection H as H.
  assert (G : forall (l : list (nat * task)) e r, r = fold_left (fun (m : Z) (o : nat * task) => if fst (snd o) <? m then fst (snd o) else m) l e ->
    r <= e /\ (forall o, In o l -> r <= fst (snd o)) /\ (r = e \/ exists o, In o l /\ r = fst (snd o))).
  { clear. induction l as [|o l IH]; intros e r E; cbn [fold_left] in E; [subst; split; [lia|split; [contradiction|auto]]|].
    destruct (IH _ _ E) as (I1 & I2 & I3). clear IH E. destruct (fst (snd o) <? e) eqn:L.
    - split; [lia|]. split; [intros o' [<-|I]; [lia|auto]|]. destruct I3 as [I3|(o' & I3 & I4)]; right; [exists o; split; [left; reflexivity|exact I3]|exists o'; split; [right; exact I3|exact I4]].
    - split; [lia|]. split; [intros o' [<-|I]; [lia|auto]|]. destruct I3 as [I3|(o' & I3 & I4)]; [left; exact I3|right; exists o'; split; [right; exact I3|exact I4]]. }
  destruct (G (a :: l0) tmax m (eq_sym H)) as (G1 & G2 & G3).
  assert (IN : forall o, In o (a :: l0) <-> In o (t_others x) /\ snd (snd o) < fst (snd o)).
  { intros o. rewrite <- F. rewrite filter_In. rewrite Z.ltb_lt. tauto. }
  clear H G F. split.
  - intros p s l I L. apply (G2 (p, (s, l))). apply IN. auto.
  - destruct G3 as [G3|([p [s l]] & G3 & G4)].
    + assert (IA : In a (a :: l0)) by (left; reflexivity). pose proof (G2 a IA) as GA. apply IN in IA. destruct a as [p [s l]]. cbn in *. destruct IA as [IA1 IA2].
      specialize (B p s l IA1). exists p, l. assert (EQ : m = s) by lia. rewrite EQ. auto.
    + apply IN in G3. cbn in *. destruct G3 as [G31 G32]. exists p, l. rewrite G4. auto.
Qed.
Lemma first_step : forall c es e t d, execs (touts c es) = [] -> ~ In AbortSim (touts c es) -> In (Exec t d) (fst (tstep c e (tafter c es))) ->
  (forall p s l, In (p, (s, l)) (t_others (snd (tstep c e (tafter c es)))) -> s <= tmax) ->
  let o := t_others (snd (tstep c e (tafter c es))) in
  (t = 0 /\ forall p s l, In (p, (s, l)) o -> s <= l) \/
  (c_coord c = false /\ (forall p s l, In (p, (s, l)) o -> l < s -> t <= s) /\ exists p l, In (p, (t, l)) o /\ l < t).
Proof.
  intros c es e t d E A I B. destruct (exec_others _ _ _ _ _ I) as [EO _]. rewrite EO in *. cbv zeta.
  pose proof (trun_hop_false c es node_init eq_refl E A) as H. destruct (trun_next_zero c es node_init eq_refl E A) as [Z0 C0].
  fold (tafter c es) in H, Z0, C0. destruct (fired _ _ _ _ _ I) as (T & _ & _ & _ & D).
  set (x := tafter c es) in *. assert (HP : t_hop (pre e x) = false) by (destruct e; exact H). unfold start in T. rewrite HP in T.
  assert (CP : t_cur (pre e x) = t_cur x) by (destruct e; reflexivity).
  destruct (hop_on (pre e x)) as [m|] eqn:M.
  - right. subst t. destruct D as [D|[D|D]]; [congruence|discriminate|]. split; [exact D|]. apply hop_on_spec; auto.
  - left. rewrite pre_next, Z0 in T. split; [exact T|]. intros p s l J. unfold hop_on in M. rewrite CP, C0 in M. cbn in M.
    destruct (Z_le_gt_dec s l) as [L|L]; [exact L|exfalso].
    assert (J' : In (p, (s, l)) (filter (fun o : nat * (Z * Z) => snd (snd o) <? fst (snd o)) (t_others (pre e x)))) by (apply filter_In; split; [exact J|cbn; lia]).
    destruct (filter _ _); [destruct J'|discriminate].
Qed.
Lemma later_step : forall c e x t d, t_hop x = true -> In (Exec t d) (fst (tstep c e x)) ->
  forall p s l, In (p, (s, l)) (t_others (snd (tstep c e x))) -> t <= s.
Proof.
  intros c e x t d H I p s l J. destruct (exec_others _ _ _ _ _ I) as [EO _]. rewrite EO in J.
  destruct (fired _ _ _ _ _ I) as (T & _ & [PO _] & _). apply possible_running in PO. destruct PO as (_ & _ & _ & OL & _).
  assert (HP : t_hop (pre e x) = true) by (destruct e; exact H). unfold start in T. rewrite HP in T. subst t.
  destruct (Z_lt_ge_dec s (fst (t_next (pre e x)))) as [L|L]; [|lia]. exfalso. apply Bool.not_true_iff_false in OL. apply OL.
  apply existsb_exists. exists (p, (s, l)). split; [exact J|]. cbn. apply Z.ltb_lt, L.
Qed.
Lemma trun_hop : forall c es x, execs (fst (trun c es x)) <> [] -> t_hop (snd (trun c es x)) = true.
Proof.
  assert (TH : forall c e x, t_hop x = true -> t_hop (snd (tstep c e x)) = true).
  { intros c e x H. destruct (tstep_core c e x) as [C1 C2 C3 C4|m C1 C2 C3 C4 C5 C6 C7 C8 C9|C1 C2 C3 C4 C5 C6]; congruence. }
  intros c es. induction es as [|e es IH] using rev_ind; intros x H; [destruct (H eq_refl)|].
  rewrite trun_app in *. cbn [fst snd trun] in *. pose proof (tstep_core c e (snd (trun c es x))) as C. specialize (TH c e (snd (trun c es x))).
  destruct (tstep c e (snd (trun c es x))) as [o x1]. cbn [fst snd] in *. rewrite app_nil_r, execs_app in H.
  destruct (execs (fst (trun c es x))) as [|a l] eqn:EL; [|apply TH, IH; congruence]. cbn [app] in H.
  destruct C as [C1 C2 C3 C4|m C1 C2 C3 C4 C5 C6 C7 C8 C9|C1 C2 C3 C4 C5 C6]; try congruence.
Qed.
Lemma abort_no_exec : forall c e x t d, In AbortSim (fst (tstep c e x)) -> ~ In (Exec t d) (fst (tstep c e x)) /\ c_coord c = true.
Proof.
  assert (EC : forall c us y o z, exec_case c us y o z -> In AbortSim o -> execs o = [] /\ c_coord c = true).
  { intros c us y o z H I. inversion H; subst; [auto|]. destruct I as [I|[]]. discriminate. }
  assert (RA : forall y, ~ In AbortSim (fst (request_next y))).
  { intros y I. destruct (request_out y) as [[E _]|[E _]]; rewrite E in I; cbn in I; intuition discriminate. }
  assert (PA : forall c us y, In AbortSim (fst (process c us y)) -> execs (fst (process c us y)) = [] /\ c_coord c = true).
  { intros c us y I. destruct (process_cases c us y) as [Q|Q B X|o z Q B C W|o z Q B C W1 W2|o z Q B X C]; [destruct I|destruct I as [I|[]]; discriminate| | |]; eauto.
    apply in_app_or in I. destruct I as [I|I]; [|destruct (RA _ I)]. rewrite execs_app, execs_request, app_nil_r. eauto. }
  intros c e x t d I. assert (G : execs (fst (tstep c e x)) = [] /\ c_coord c = true); [|destruct G as [G1 G2]; split; [intros J; apply in_execs in J; rewrite G1 in J; exact J|exact G2]].
  destruct e; cbn [tstep] in *; try contradiction.
  - destruct (t_state _); try contradiction; apply PA, I.
  - destruct (t_def x) as [|[] r]; [contradiction|apply PA, I|destruct (RA _ I)|].
    destruct (_ || _); [|destruct I as [I|[]]; discriminate].
    specialize (RA (set_wall (t_sync (TimeSyncModel.set_exec false (set_def r x))) false (TimeSyncModel.set_exec false (set_def r x)))).
    destruct (request_next _) as [o z]. cbn [fst] in *. destruct I as [I|I]; [discriminate|contradiction].
  - cbn [fst] in I. destruct (0 <=? _); [destruct I as [I|[]]; discriminate|contradiction].
  - destruct (lookup _ _); [|contradiction]. apply PA, I.
  - destruct (RA _ I).
  - destruct (_ && _); [|contradiction]. cbn in I. destruct (t_exec x); contradiction.
Qed.
Lemma blocking_exec : forall c e x, c_block c = true -> t_exec x = false -> t_exec (snd (tstep c e x)) = false.
Proof.
  assert (EC : forall c us y o z, exec_case c us y o z -> t_exec z = t_exec y).
  { intros c us y o z H. inversion H as [m A1 A2 A3|y' A0 A1 A2 A3 A4 A5 A6 A7 A8 A9 A10 A11]; subst; [reflexivity|].
    destruct (users_frame us y') as (_ & _ & _ & _ & _ & U6 & _). congruence. }
  assert (RQ : forall y, t_exec (snd (request_next y)) = t_exec y) by (intros y; apply (request_frame y)).
  assert (PR : forall c us y, c_block c = true -> t_exec y = false -> t_exec (snd (process c us y)) = false).
  { intros c us y B X. destruct (process_cases c us y) as [Q|Q B' X'|o z Q B' C W|o z Q B' C W1 W2|o z Q B' X' C]; try congruence.
    - rewrite (EC _ _ _ _ _ C). exact X.
    - rewrite RQ, (EC _ _ _ _ _ C). exact X. }
  intros c e x B X. destruct e; cbn [tstep]; auto.
  - destruct (t_state _); auto; apply PR; auto.
  - destruct (t_def x) as [|[] r]; [exact X|apply PR; auto|rewrite RQ; exact X|].
    destruct (_ || _); [|reflexivity].
    specialize (RQ (set_wall (t_sync (TimeSyncModel.set_exec false (set_def r x))) false (TimeSyncModel.set_exec false (set_def r x)))).
    destruct (request_next _) as [o z]. cbn [snd] in *. rewrite RQ. reflexivity.
  - destruct dyn; exact X.
  - destruct (lookup _ _); auto. 
  - rewrite RQ. exact X.
  - destruct (users_frame [u] x) as (_ & _ & _ & _ & _ & U6 & _). cbn [snd]. cbn [users fold_left] in U6. congruence.
  - destruct (_ && _); [|exact X]. cbn [set_wall t_exec]. rewrite X. exact X.
Qed.
