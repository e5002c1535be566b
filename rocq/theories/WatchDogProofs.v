From Coq Require Import List ZArith Bool Lia Arith ZifyBool.
From Verif Require Import WatchDogModel WatchDogSpec.
Import ListNotations.
Open Scope Z_scope.

Lemma run_snoc : forall c evs e, run c (evs ++ [e]) =
  let (o, x) := step c (snd (run c evs)) e in (fst (run c evs) ++ o, x).
Proof. intros. unfold run. rewrite fold_left_app. reflexivity. Qed.

Fixpoint last_time (d : Z) (evs : list wev) : Z :=
  match evs with [] => d | e :: r => last_time (time_of e) r end.
Lemma last_time_snoc : forall evs d e, last_time d (evs ++ [e]) = time_of e.
Proof. induction evs; intros; cbn; auto. Qed.
Lemma clock_snoc : forall evs d e, clock d (evs ++ [e]) <-> clock d evs /\ last_time d evs <= time_of e.
Proof. induction evs as [|a evs IH]; intros d e; cbn; [intuition|]. rewrite IH. intuition. Qed.

Definition starts (evs : list wev) : nat := List.length (filter (fun e => match e with Start _ => true | _ => false end) evs).
Lemma starts_snoc : forall evs e, starts (evs ++ [e]) = (starts evs + match e with Start _ => 1 | _ => 0 end)%nat.
Proof. intros. unfold starts. rewrite filter_app, app_length. destruct e; cbn; lia. Qed.
Lemma started_snoc : forall evs k e, started_at k (evs ++ [e]) =
  match started_at k evs with Some t => Some t | None => match e with Start t => if Nat.eqb k (starts evs) then Some t else None | _ => None end end.
Proof.
  unfold starts. induction evs as [|a evs IH]; intros k e.
  - destruct e, k; reflexivity.
  - destruct a; cbn [app started_at filter List.length]; try apply IH.
    destruct k as [|k]; [reflexivity|]. rewrite IH. reflexivity.
Qed.
Lemma started_lt : forall evs k t, started_at k evs = Some t -> (k < starts evs)%nat.
Proof.
  unfold starts. induction evs as [|a evs IH]; intros k t H; cbn in *; [discriminate|].
  destruct a; cbn; eauto. destruct k as [|k]; [lia|]. apply IH in H. lia.
Qed.
Lemma started_none : forall evs, started_at (starts evs) evs = None.
Proof. intros. destruct (started_at (starts evs) evs) eqn:E; [apply started_lt in E; lia|reflexivity]. Qed.

Lemma warns_app : forall k a b, warns k (a ++ b) = (warns k a + warns k b)%nat.
Proof. intros. unfold warns. rewrite filter_app, app_length. reflexivity. Qed.
Lemma errors_app : forall k a b, errors k (a ++ b) = (errors k a + errors k b)%nat.
Proof. intros. unfold errors. rewrite filter_app, app_length. reflexivity. Qed.
Lemma warns_pos : forall k o, (warns k o > 0)%nat <-> exists d, In (CallWarn k d) o.
Proof.
  intros k o. unfold warns. split.
  - intros H. destruct (filter _ o) as [|x l] eqn:E; [cbn in H; lia|].
    assert (I : In x (x :: l)) by (left; reflexivity). rewrite <- E in I. apply filter_In in I. destruct I as [I J].
    destruct x; [|discriminate]. apply Nat.eqb_eq in J. subst. eauto.
  - intros [d I]. destruct (filter _ o) as [|x l] eqn:E; [|cbn; lia].
    exfalso. assert (J : In (CallWarn k d) []) by (rewrite <- E; apply filter_In; split; [assumption|cbn; apply Nat.eqb_refl]).
    destruct J.
Qed.
Lemma errors_pos : forall k o, (errors k o > 0)%nat <-> exists d, In (CallError k d) o.
Proof.
  intros k o. unfold errors. split.
  - intros H. destruct (filter _ o) as [|x l] eqn:E; [cbn in H; lia|].
    assert (I : In x (x :: l)) by (left; reflexivity). rewrite <- E in I. apply filter_In in I. destruct I as [I J].
    destruct x; [discriminate|]. apply Nat.eqb_eq in J. subst. eauto.
  - intros [d I]. destruct (filter _ o) as [|x l] eqn:E; [|cbn; lia].
    exfalso. assert (J : In (CallError k d) []) by (rewrite <- E; apply filter_In; split; [assumption|cbn; apply Nat.eqb_refl]).
    destruct J.
Qed.

Lemma ms_mono : forall a b, a <= b -> ms a <= ms b.
Proof. intros. unfold ms. apply Z.quot_le_mono; lia. Qed.
Lemma ms_gt : forall d m, 0 <= m -> m < ms d -> nanos m + 1000000 <= d.
Proof.
  intros d m M H. unfold ms, nanos in *.
  assert (D : 0 <= d). { destruct (Z.le_gt_cases 0 d); [assumption|]. assert (Z.quot d 1000000 <= Z.quot 0 1000000) by (apply Z.quot_le_mono; lia). cbn in *. lia. }
  rewrite Z.quot_div_nonneg in H by lia.
  assert (1000000 * (d / 1000000) <= d) by (apply Z.mul_div_le; lia). lia.
Qed.
Lemma ms_late : forall d m, 0 <= m -> nanos m + 1000000 <= d -> m < ms d.
Proof.
  intros d m M H. unfold ms, nanos in *. rewrite Z.quot_div_nonneg by lia.
  assert (m + 1 <= d / 1000000) by (apply Z.div_le_lower_bound; lia). lia.
Qed.

(** the invariant *)
Definition late (c : wcfg) (o : list wout) (st : wstate) (now : Z) (k : nat) (s : Z) : Prop :=
  ((warns k o > 0)%nat -> st <> Healthy /\ w_warn c < ms (now - s)) /\
  ((errors k o > 0)%nat -> st = Failed /\ w_error c < ms (now - s)).
Record winv (c : wcfg) (evs : list wev) (o : list wout) (x : wd) : Prop := {
  i_count : w_count x = starts evs;
  i_start : forall k s, w_start x = Some (k, s) -> S k = starts evs /\ started_at k evs = Some s /\ late c o (w_state x) (last_time 0 evs) k s;
  i_loaded : forall k s, w_loaded x = Some (k, s) -> (k < starts evs)%nat /\ started_at k evs = Some s /\
      late c o (w_state x) (last_time 0 evs) k s /\
      (forall j, (k < j)%nat -> warns j o = 0%nat /\ errors j o = 0%nat);
  i_calls : forall j, (starts evs <= j)%nat -> warns j o = 0%nat /\ errors j o = 0%nat;
  i_once : forall j, (warns j o <= 1)%nat /\ (errors j o <= 1)%nat }.

Lemma late_time : forall c o st n n' k s, n <= n' -> late c o st n k s -> late c o st n' k s.
Proof.
  intros c o st n n' k s L [A B]. assert (M : ms (n - s) <= ms (n' - s)) by (apply ms_mono; lia).
  split; intros H; [destruct (A H)|destruct (B H)]; split; auto; lia.
Qed.

Lemma check_cases : forall c d st wn er st', check c d st = (wn, er, st') ->
  (wn = true -> st = Healthy /\ w_warn c < d /\ d <= w_error c /\ st' = Warned) /\
  (er = true -> st <> Failed /\ w_error c < d /\ st' = Failed) /\
  (wn = true -> er = false) /\
  (w_error c < d -> st' = Failed /\ wn = false /\ (er = false -> st = Failed)) /\
  (w_warn c < d <= w_error c -> er = false /\ (wn = false -> st' = st /\ st <> Healthy)) /\
  (d <= w_warn c -> d <= w_error c -> st' = Healthy /\ wn = false /\ er = false).
Proof.
  intros c d st wn er st'. unfold check.
  destruct (w_warn c <? d) eqn:A, (d <=? w_error c) eqn:B, (w_error c <? d) eqn:C; cbn [andb]; try lia;
    destruct st; intros H; injection H as <- <- <-; repeat split; intros; try congruence; try lia.
Qed.

Lemma winv_run : forall c evs, clock 0 evs -> winv c evs (fst (run c evs)) (snd (run c evs)).
Proof.
  intros c evs. induction evs as [|e evs IH] using rev_ind; intros C.
  - split; cbn; try discriminate; auto.
  - apply clock_snoc in C. destruct C as [C T]. specialize (IH C). rewrite run_snoc.
    set (o := fst (run c evs)) in *. set (x := snd (run c evs)) in *. clearbody o x.
    destruct IH as [IC IS IL IK IO].
    destruct e as [t|t|t|t]; cbn [step time_of] in *.
    + rewrite app_nil_r. split; cbn [fst snd w_count w_start w_loaded w_state]; rewrite ?starts_snoc, ?last_time_snoc; cbn [time_of fst snd].
      * lia.
      * intros k s E. injection E as <- <-. rewrite IC. split; [lia|]. rewrite started_snoc, started_none, Nat.eqb_refl. split; [reflexivity|].
        destruct (IK (starts evs) ltac:(lia)) as [A B]. split; intros H; lia.
      * intros k s E. destruct (IL k s E) as (A & B & D & F). rewrite started_snoc, B. split; [lia|]. split; [reflexivity|].
        split; [eapply late_time; [exact T|exact D]|exact F].
      * intros j J. apply IK. lia.
      * apply IO.
    + rewrite app_nil_r. split; cbn [fst snd w_count w_start w_loaded w_state]; rewrite ?starts_snoc, ?last_time_snoc; cbn [time_of]; rewrite ?Nat.add_0_r; auto; try discriminate.
      intros k s E. destruct (IL k s E) as (A & B & D & F). rewrite started_snoc, B. split; [lia|]. split; [reflexivity|].
      split; [eapply late_time; [exact T|exact D]|exact F].
    + destruct (w_loaded x) as [l|] eqn:EL; [|destruct (w_start x) as [[k s]|] eqn:ES]; rewrite app_nil_r;
        (split; cbn [fst snd w_count w_start w_loaded w_state]; rewrite ?starts_snoc, ?last_time_snoc; cbn [time_of]; rewrite ?Nat.add_0_r; auto; try discriminate).
      * intros k s E. destruct (IS k s E) as (A & B & D). rewrite started_snoc, B. split; [lia|]. split; [reflexivity|eapply late_time; [exact T|exact D]].
      * intros k s E. rewrite EL in E. destruct (IL k s E) as (A & B & D & F). rewrite started_snoc, B. split; [lia|]. split; [reflexivity|].
        split; [eapply late_time; [exact T|exact D]|exact F].
      * intros k' s' E. destruct (IS k' s' E) as (A & B & D). rewrite started_snoc, B. split; [lia|]. split; [reflexivity|eapply late_time; [exact T|exact D]].
      * intros k' s' E. destruct (IS k' s' E) as (A & B & D). rewrite started_snoc, B. split; [lia|]. split; [reflexivity|].
        split; [eapply late_time; [exact T|exact D]|]. intros j J. apply IK. lia.
    + destruct (w_loaded x) as [[k s]|] eqn:EL.
      * destruct (IL k s eq_refl) as (A & B & D & F).
        destruct (check c (ms (t - s)) (w_state x)) as [[wn er] st'] eqn:EC.
        destruct (check_cases _ _ _ _ _ _ EC) as (P1 & P2 & P3 & P4 & P5 & P6).
        pose (new := (if wn then [CallWarn k (ms (t - s))] else []) ++ (if er then [CallError k (ms (t - s))] else [])).
        fold new.
        assert (NW : forall j, warns j new = if wn && Nat.eqb k j then 1%nat else 0%nat).
        { intros j. unfold new. rewrite warns_app. destruct wn, er; cbn; destruct (k =? j)%nat; reflexivity. }
        assert (NE : forall j, errors j new = if er && Nat.eqb k j then 1%nat else 0%nat).
        { intros j. unfold new. rewrite errors_app. destruct wn, er; cbn; destruct (k =? j)%nat; reflexivity. }
        clearbody new.
        assert (D' : late c o (w_state x) t k s) by (eapply late_time; [exact T|exact D]).
        destruct D' as [DW DE].
        assert (LK : late c (o ++ new) st' t k s).
        { split; intros H.
          - rewrite warns_app, NW, Nat.eqb_refl, andb_true_r in H.
            destruct wn; [destruct (P1 eq_refl) as (X & Y & Z0 & W); split; [congruence|assumption]|].
            destruct (DW ltac:(lia)) as [X Y]. split; [|assumption].
            destruct (Z.lt_ge_cases (w_error c) (ms (t - s))) as [V|V].
            + destruct (P4 V) as [-> _]. discriminate.
            + destruct (P5 ltac:(lia)) as (_ & K). destruct (K eq_refl) as [-> _]. assumption.
          - rewrite errors_app, NE, Nat.eqb_refl, andb_true_r in H.
            destruct er; [destruct (P2 eq_refl) as (X & Y & Z0); split; [congruence|assumption]|].
            destruct (DE ltac:(lia)) as [X Y]. split; [|assumption]. destruct (P4 Y) as [-> _]. reflexivity. }
        split; cbn [fst snd w_count w_start w_loaded w_state]; rewrite ?starts_snoc, ?last_time_snoc; cbn [time_of]; rewrite ?Nat.add_0_r; auto; try discriminate.
        -- intros k' s' E. destruct (IS k' s' E) as (A' & B' & _). rewrite started_snoc, B'. split; [lia|]. split; [reflexivity|].
           destruct (Nat.eq_dec k' k) as [->|NK].
           ++ assert (s' = s) by congruence. subst. exact LK.
           ++ assert (K : (k < k')%nat) by lia. destruct (F k' K) as [W1 W2].
              split; rewrite ?warns_app, ?errors_app, ?NW, ?NE, ?W1, ?W2; (replace (k =? k')%nat with false by (symmetry; apply Nat.eqb_neq; lia)); rewrite andb_false_r; lia.
        -- intros j J. destruct (IK j J) as [W1 W2]. rewrite warns_app, errors_app, NW, NE, W1, W2.
           replace (k =? j)%nat with false by (symmetry; apply Nat.eqb_neq; lia). rewrite !andb_false_r. auto.
        -- intros j. rewrite warns_app, errors_app, NW, NE. destruct (IO j) as [O1 O2].
           destruct (Nat.eqb_spec k j) as [<-|NJ]; [|rewrite !andb_false_r; lia]. rewrite !andb_true_r.
           split.
           ++ destruct wn; [|lia]. destruct (P1 eq_refl) as (X & _). destruct (warns k o) eqn:Wk; [lia|].
              destruct (DW ltac:(lia)) as [Y _]. congruence.
           ++ destruct er; [|lia]. destruct (P2 eq_refl) as (X & _). destruct (errors k o) eqn:Wk; [lia|].
              destruct (DE ltac:(lia)) as [Y _]. congruence.
      * rewrite app_nil_r. split; rewrite ?starts_snoc, ?last_time_snoc; cbn [time_of]; rewrite ?Nat.add_0_r; auto.
        -- intros k s E. destruct (IS k s E) as (A & B & D). rewrite started_snoc, B. split; [lia|]. split; [reflexivity|eapply late_time; [exact T|exact D]].
        -- intros k s E. cbn [snd] in E. congruence.
Qed.

Theorem once : forall c evs k, clock 0 evs -> (warns k (fst (run c evs)) <= 1)%nat /\ (errors k (fst (run c evs)) <= 1)%nat.
Proof. intros c evs k C. apply (i_once _ _ _ _ (winv_run c evs C)). Qed.

(** every call was made for a step that had been running longer than the timeout *)
Lemma loaded_started : forall c evs k s, (w_loaded (snd (run c evs)) = Some (k, s) -> started_at k evs = Some s) /\
  (w_start (snd (run c evs)) = Some (k, s) -> started_at k evs = Some s) /\ w_count (snd (run c evs)) = starts evs.
Proof.
  intros c evs. induction evs as [|e evs IH] using rev_ind; intros k s; [cbn; intuition discriminate|].
  rewrite run_snoc, started_snoc, starts_snoc.
  destruct (IH k s) as (A & B & D). set (x := snd (run c evs)) in *. clearbody x.
  destruct e as [t|t|t|t]; cbn [step].
  - cbn [snd w_loaded w_start w_count]. split; [|split; [|lia]].
    + intros E. rewrite (A E). reflexivity.
    + intros E. injection E as <- <-. rewrite D, started_none, Nat.eqb_refl. reflexivity.
  - cbn [snd w_loaded w_start w_count]. split; [|split; [discriminate|lia]]. intros E. rewrite (A E). reflexivity.
  - destruct (w_loaded x) as [l|] eqn:EL; [|destruct (w_start x) as [q|] eqn:ES]; cbn [snd w_loaded w_start w_count].
    + split; [|split; [|lia]]; intros E; [rewrite EL in E; rewrite (A E)|rewrite (B E)]; reflexivity.
    + split; [|split; [|lia]]; intros E; rewrite (B E); reflexivity.
    + split; [discriminate|split; [discriminate|lia]].
  - destruct (w_loaded x) as [[k0 s0]|] eqn:EL.
    + destruct (check _ _ _) as [[wn er] st]. cbn [snd w_loaded w_start w_count]. split; [discriminate|split; [|lia]].
      intros E. rewrite (B E). reflexivity.
    + cbn [snd]. rewrite EL. split; [discriminate|split; [|lia]]. intros E. rewrite (B E). reflexivity.
Qed.

Theorem warn_late : forall c evs k d, 0 <= w_warn c -> In (CallWarn k d) (fst (run c evs)) ->
  exists s now, started_at k evs = Some s /\ In (Check now) evs /\ d = (now - s) / 1000000 /\
    nanos (w_warn c) + 1000000 <= now - s /\ d <= w_error c.
Proof.
  intros c evs k d W. induction evs as [|e evs IH] using rev_ind; [cbn; tauto|]. rewrite run_snoc, started_snoc.
  destruct (step c (snd (run c evs)) e) as [o x] eqn:E. cbn [fst]. intros I. apply in_app_or in I. destruct I as [I|I].
  - destruct (IH I) as (s & now & A & B & C & D). exists s, now. rewrite A. split; [reflexivity|]. split; [apply in_or_app; auto|auto].
  - destruct e as [t|t|t|t]; cbn [step] in E.
    1,2: injection E as <- <-; destruct I.
    + destruct (w_loaded _); [|destruct (w_start _)]; injection E as <- <-; destruct I.
    + destruct (w_loaded (snd (run c evs))) as [[k0 s]|] eqn:EL; [|injection E as <- <-; destruct I].
      destruct (check _ _ _) as [[wn er] st] eqn:EC. injection E as <- <-.
      destruct (check_cases _ _ _ _ _ _ EC) as (P1 & _).
      destruct wn; [|destruct er; cbn in I; intuition discriminate].
      destruct (P1 eq_refl) as (X & Y & Z0 & _).
      assert (J : CallWarn k d = CallWarn k0 (ms (t - s))) by (destruct er; cbn in I; intuition congruence).
      injection J as -> ->. exists s, t.
      destruct (loaded_started c evs k0 s) as (S1 & _). rewrite (S1 EL).
      assert (G := ms_gt _ _ W Y). repeat split; auto; [apply in_or_app; right; left; reflexivity|].
      unfold ms, nanos in *. rewrite Z.quot_div_nonneg by lia. reflexivity.
Qed.
Theorem error_late : forall c evs k d, 0 <= w_error c -> In (CallError k d) (fst (run c evs)) ->
  exists s now, started_at k evs = Some s /\ In (Check now) evs /\ d = (now - s) / 1000000 /\ nanos (w_error c) + 1000000 <= now - s.
Proof.
  intros c evs k d W. induction evs as [|e evs IH] using rev_ind; [cbn; tauto|]. rewrite run_snoc, started_snoc.
  destruct (step c (snd (run c evs)) e) as [o x] eqn:E. cbn [fst]. intros I. apply in_app_or in I. destruct I as [I|I].
  - destruct (IH I) as (s & now & A & B & C & D). exists s, now. rewrite A. split; [reflexivity|]. split; [apply in_or_app; auto|auto].
  - destruct e as [t|t|t|t]; cbn [step] in E.
    1,2: injection E as <- <-; destruct I.
    + destruct (w_loaded _); [|destruct (w_start _)]; injection E as <- <-; destruct I.
    + destruct (w_loaded (snd (run c evs))) as [[k0 s]|] eqn:EL; [|injection E as <- <-; destruct I].
      destruct (check _ _ _) as [[wn er] st] eqn:EC. injection E as <- <-.
      destruct (check_cases _ _ _ _ _ _ EC) as (_ & P2 & _).
      destruct er; [|destruct wn; cbn in I; intuition discriminate].
      destruct (P2 eq_refl) as (X & Y & Z0).
      assert (J : CallError k d = CallError k0 (ms (t - s))) by (destruct wn; cbn in I; intuition congruence).
      injection J as -> ->. exists s, t.
      destruct (loaded_started c evs k0 s) as (S1 & _). rewrite (S1 EL).
      assert (G := ms_gt _ _ W Y). repeat split; auto; [apply in_or_app; right; left; reflexivity|].
      unfold ms, nanos in *. rewrite Z.quot_div_nonneg by lia. reflexivity.
Qed.

(** a step that was over before the timeout: undisturbed polls *)
Inductive poll_trace : list wev -> Prop :=
| pt_nil : poll_trace []
| pt_start : forall l t, poll_trace l -> poll_trace (l ++ [Start t])
| pt_reset : forall l t, poll_trace l -> poll_trace (l ++ [Reset t])
| pt_poll : forall l t, poll_trace l -> poll_trace (l ++ [Load t; Check t]).
Lemma poll_cons : forall l, poll_trace l -> forall h, undisturbed h -> poll_trace h -> poll_trace (h ++ l).
Proof. induction 1; intros h U P; rewrite ?app_nil_r, ?app_assoc; auto; constructor; auto. Qed.
Lemma undisturbed_poll : forall n l, (List.length l <= n)%nat -> undisturbed l -> poll_trace l.
Proof.
  induction n as [|n IH]; intros l L U; (destruct l as [|[t|t|t|t] r]; [constructor|..]); cbn in L; try lia; cbn in U.
  - change (Start t :: r) with ([Start t] ++ r). apply poll_cons; [apply IH; [lia|exact U]|exact I|apply (pt_start []); constructor].
  - change (Reset t :: r) with ([Reset t] ++ r). apply poll_cons; [apply IH; [lia|exact U]|exact I|apply (pt_reset []); constructor].
  - destruct r as [|[u|u|u|u] r]; try tauto. destruct U as [<- U]. cbn in L.
    change (Load t :: Check t :: r) with ([Load t; Check t] ++ r). apply poll_cons; [apply IH; [lia|exact U]|cbn; auto|apply (pt_poll []); constructor].
  - tauto.
Qed.

Lemma first_end_snoc : forall evs e, first_end (evs ++ [e]) =
  match first_end evs with Some t => Some t | None => match e with Start t | Reset t => Some t | _ => None end end.
Proof. induction evs as [|a evs IH]; intros e; [destruct e; reflexivity|]. destruct a; cbn; auto. Qed.
Lemma ended_snoc : forall evs k e, ended_at k (evs ++ [e]) =
  match ended_at k evs with Some t => Some t | None =>
    if (k <? starts evs)%nat then match e with Start t | Reset t => Some t | _ => None end else None end.
Proof.
  unfold starts. induction evs as [|a evs IH]; intros k e.
  - destruct e, k; reflexivity.
  - destruct a; cbn [app ended_at filter List.length]; try apply IH.
    destruct k as [|k]; [rewrite first_end_snoc; cbn [Nat.ltb Nat.leb]; reflexivity|]. rewrite IH. reflexivity.
Qed.
Lemma ended_running : forall c evs k s, poll_trace evs -> w_start (snd (run c evs)) = Some (k, s) -> ended_at k evs = None /\ S k = starts evs.
Proof.
  intros c evs k s P. revert k s. induction P as [|l t P IH|l t P IH|l t P IH]; intros k s.
  - discriminate.
  - rewrite run_snoc. cbn [step snd w_start]. intros E. injection E as <- <-.
    destruct (loaded_started c l 0 0) as (_ & _ & ->). rewrite ended_snoc, starts_snoc.
    assert (N : ended_at (starts l) l = None).
    { clear. unfold starts. induction l as [|a l IH]; [reflexivity|]. destruct a; cbn [filter List.length ended_at]; exact IH. }
    rewrite N. rewrite Nat.ltb_irrefl. split; [reflexivity|lia].
  - rewrite run_snoc. discriminate.
  - change [Load t; Check t] with ([Load t] ++ [Check t]). rewrite app_assoc, !run_snoc. intros E.
    assert (E' : w_start (snd (run c l)) = Some (k, s)).
    { revert E. destruct (step c (snd (run c l)) (Load t)) as [o x] eqn:EL. cbn [snd step]. cbn [step] in EL.
      destruct (w_loaded (snd (run c l))) eqn:A; [|destruct (w_start (snd (run c l))) eqn:B]; injection EL as <- <-; cbn [w_loaded w_start].
      - rewrite A. destruct p. destruct (check _ _ _) as [[? ?] ?]. cbn. auto.
      - destruct p. destruct (check _ _ _) as [[? ?] ?]. cbn. auto.
      - cbn. discriminate. }
    destruct (IH k s E') as [A B]. rewrite !ended_snoc, A, !starts_snoc. split; [|lia].
    destruct (k <? starts l)%nat, (k <? starts l + 0)%nat; reflexivity.
Qed.
Lemma poll_not_loaded : forall c evs, poll_trace evs -> w_loaded (snd (run c evs)) = None.
Proof.
  intros c evs P. induction P as [|l t P IH|l t P IH|l t P IH]; [reflexivity|rewrite run_snoc; cbn; exact IH|rewrite run_snoc; cbn; exact IH|].
  change [Load t; Check t] with ([Load t] ++ [Check t]). rewrite app_assoc, !run_snoc. cbn [step]. rewrite IH.
  destruct (w_start (snd (run c l))) as [[k s]|]; cbn [fst snd step w_loaded]; [|reflexivity].
  destruct (check _ _ _) as [[? ?] ?]. reflexivity.
Qed.

(** all calls come while the step is running, more than the timeout after its start *)
Definition call_step (o : wout) : nat := match o with CallWarn k _ | CallError k _ => k end.
Definition limit (c : wcfg) (o : wout) : Z := match o with CallWarn _ _ => w_warn c | CallError _ _ => w_error c end.
Lemma call_while_running : forall c evs, 0 <= w_warn c -> 0 <= w_error c -> poll_trace evs -> clock 0 evs ->
  forall o, In o (fst (run c evs)) ->
    exists s, started_at (call_step o) evs = Some s /\
      nanos (limit c o) + 1000000 <= last_time 0 evs - s /\
      forall e, ended_at (call_step o) evs = Some e -> nanos (limit c o) + 1000000 <= e - s.
Proof.
  intros c evs W1 W2 P. induction P as [|l t P IH|l t P IH|l t P IH]; intros C o I.
  - destruct I.
  - rewrite run_snoc in I. cbn [step fst] in I. rewrite app_nil_r in I. apply clock_snoc in C. destruct C as [C T]. cbn [time_of] in T.
    destruct (IH C o I) as (s & A & B & D). exists s. rewrite started_snoc, A, last_time_snoc, ended_snoc. split; [reflexivity|]. cbn [time_of].
    split; [lia|]. intros e. destruct (ended_at (call_step o) l); [intros E; apply D; exact E|].
    destruct (_ <? _)%nat; [|discriminate]. intros E. injection E as <-. lia.
  - rewrite run_snoc in I. cbn [step fst] in I. rewrite app_nil_r in I. apply clock_snoc in C. destruct C as [C T]. cbn [time_of] in T.
    destruct (IH C o I) as (s & A & B & D). exists s. rewrite started_snoc, A, last_time_snoc, ended_snoc. split; [reflexivity|]. cbn [time_of].
    split; [lia|]. intros e. destruct (ended_at (call_step o) l); [intros E; apply D; exact E|].
    destruct (_ <? _)%nat; [|discriminate]. intros E. injection E as <-. lia.
  - assert (NL := poll_not_loaded c l P).
    change [Load t; Check t] with ([Load t] ++ [Check t]) in *. rewrite app_assoc in *. rewrite !run_snoc in I.
    apply clock_snoc in C. destruct C as [C T]. apply clock_snoc in C. destruct C as [C T']. rewrite last_time_snoc in T. cbn [time_of] in T, T'.
    assert (OLD : In o (fst (run c l)) -> exists s, started_at (call_step o) ((l ++ [Load t]) ++ [Check t]) = Some s /\
      nanos (limit c o) + 1000000 <= last_time 0 ((l ++ [Load t]) ++ [Check t]) - s /\
      forall e, ended_at (call_step o) ((l ++ [Load t]) ++ [Check t]) = Some e -> nanos (limit c o) + 1000000 <= e - s).
    { intros J. destruct (IH C o J) as (s & A & B & D). exists s. rewrite !started_snoc, A, last_time_snoc, !ended_snoc. split; [reflexivity|]. cbn [time_of].
      split; [lia|]. intros e. destruct (ended_at (call_step o) l); [intros E; apply D; exact E|].
      destruct (_ <? _)%nat; destruct (_ <? _)%nat; discriminate. }
    cbn [step] in I. rewrite NL in I.
    destruct (w_start (snd (run c l))) as [[k s]|] eqn:ES; cbn [fst snd step w_loaded w_start w_state w_count] in I.
    2: { rewrite !app_nil_r in I. apply OLD, I. }
    destruct (check c (ms (t - s)) (w_state (snd (run c l)))) as [[wn er] st] eqn:EC. cbn [fst] in I. rewrite app_nil_r in I.
    apply in_app_or in I. destruct I as [I|I]; [apply OLD, I|].
    destruct (check_cases _ _ _ _ _ _ EC) as (P1 & P2 & _).
    destruct (loaded_started c l k s) as (_ & S2 & _). specialize (S2 ES).
    destruct (ended_running c l k s P ES) as [N _].
    assert (K : call_step o = k /\ limit c o < ms (t - s)).
    { apply in_app_or in I. destruct I as [I|I].
      - destruct wn; [|destruct I]. destruct I as [<-|[]]. cbn. destruct (P1 eq_refl) as (_ & Y & _). auto.
      - destruct er; [|destruct I]. destruct I as [<-|[]]. cbn. destruct (P2 eq_refl) as (_ & Y & _). auto. }
    destruct K as [-> K]. assert (G : nanos (limit c o) + 1000000 <= t - s) by (apply ms_gt; [destruct o; cbn; assumption|exact K]).
    exists s. rewrite !started_snoc, S2, last_time_snoc, !ended_snoc, N. split; [reflexivity|]. cbn [time_of]. split; [exact G|].
    intros e. destruct (_ <? _)%nat; destruct (_ <? _)%nat; discriminate.
Qed.

Theorem in_time : forall c evs k s e, 0 <= w_warn c -> 0 <= w_error c -> undisturbed evs -> clock 0 evs ->
  started_at k evs = Some s -> ended_at k evs = Some e ->
  (e - s < nanos (w_warn c) + 1000000 -> warns k (fst (run c evs)) = 0%nat) /\
  (e - s < nanos (w_error c) + 1000000 -> errors k (fst (run c evs)) = 0%nat).
Proof.
  intros c evs k s e W1 W2 U C S0 E0. apply (undisturbed_poll _ _ (le_n _)) in U.
  assert (H := call_while_running c evs W1 W2 U C).
  split; intros L.
  - destruct (warns k (fst (run c evs))) eqn:N; [reflexivity|]. assert (Q : (warns k (fst (run c evs)) > 0)%nat) by lia.
    apply warns_pos in Q. destruct Q as [d I]. destruct (H _ I) as (s' & A & _ & B). cbn in *. specialize (B _ E0).
    assert (s' = s) by congruence. subst. lia.
  - destruct (errors k (fst (run c evs))) eqn:N; [reflexivity|]. assert (Q : (errors k (fst (run c evs)) > 0)%nat) by lia.
    apply errors_pos in Q. destruct Q as [d I]. destruct (H _ I) as (s' & A & _ & B). cbn in *. specialize (B _ E0).
    assert (s' = s) by congruence. subst. lia.
Qed.

(** reporting *)
Definition quietb (e : wev) : bool := match e with Load _ | Check _ => true | _ => false end.
Lemma during : forall c p s mid, w_loaded (snd (run c p)) = None -> w_state (snd (run c p)) = Healthy -> forallb quietb mid = true ->
  let x := run c (p ++ Start s :: mid) in let k := starts p in
  w_start (snd x) = Some (k, s) /\ (w_loaded (snd x) = None \/ w_loaded (snd x) = Some (k, s)) /\
  (w_state (snd x) = Failed -> (errors k (fst x) > 0)%nat) /\
  (w_state (snd x) = Warned -> (warns k (fst x) > 0)%nat) .
Proof.
  intros c p s mid L H. induction mid as [|e mid IH] using rev_ind; intros Q x k; subst x k.
  - rewrite run_snoc. cbn [step fst snd w_start w_loaded w_state]. destruct (loaded_started c p 0 0) as (_ & _ & ->).
    rewrite L, H. split; [reflexivity|]. split; [auto|]. split; discriminate.
  - rewrite forallb_app in Q. apply andb_prop in Q. destruct Q as [Q Qe]. specialize (IH Q).
    change (p ++ Start s :: mid ++ [e]) with (p ++ (Start s :: mid) ++ [e]). rewrite app_assoc, run_snoc.
    set (y := run c (p ++ Start s :: mid)) in *. clearbody y. cbv zeta in IH. destruct IH as (A & B & D & E).
    destruct e as [t|t|t|t]; try discriminate Qe; cbn [step].
    + destruct B as [B|B]; rewrite B; [rewrite A|]; cbn [fst snd w_start w_loaded w_state]; rewrite app_nil_r; auto.
    + destruct B as [B|B]; rewrite B; [cbn [fst snd]; rewrite app_nil_r; auto|].
      destruct (check c (ms (t - s)) (w_state (snd y))) as [[wn er] st] eqn:EC. cbn [fst snd w_start w_loaded w_state].
      destruct (check_cases _ _ _ _ _ _ EC) as (P1 & P2 & P3 & P4 & P5 & P6).
      split; [exact A|]. split; [auto|]. rewrite warns_app, errors_app.
      destruct wn, er; [specialize (P3 eq_refl); discriminate|..]; cbn [app].
      * split; intros Z0; subst st; [destruct (P1 eq_refl) as (_ & _ & _ & X); discriminate|]. unfold warns at 2. cbn. rewrite Nat.eqb_refl. cbn. lia.
      * split; intros Z0; subst st; [|destruct (P2 eq_refl) as (_ & _ & X); discriminate]. unfold errors at 2. cbn. rewrite Nat.eqb_refl. cbn. lia.
      * split; intros Z0; subst st.
        -- destruct (Z.lt_ge_cases (w_error c) (ms (t - s))) as [V|V].
           ++ destruct (P4 V) as (_ & _ & X). specialize (D (X eq_refl)). lia.
           ++ destruct (Z.lt_ge_cases (w_warn c) (ms (t - s))) as [U|U]; [destruct (P5 ltac:(lia)) as (_ & X); destruct (X eq_refl) as [X1 _]; symmetry in X1; specialize (D X1); lia|].
              destruct (P6 U V) as (X & _). discriminate.
        -- destruct (Z.lt_ge_cases (w_error c) (ms (t - s))) as [V|V]; [destruct (P4 V) as (X & _); discriminate|].
           destruct (Z.lt_ge_cases (w_warn c) (ms (t - s))) as [U|U]; [destruct (P5 ltac:(lia)) as (_ & X); destruct (X eq_refl) as [X1 _]; symmetry in X1; specialize (E X1); lia|].
           destruct (P6 U V) as (X & _). discriminate.
Qed.
Lemma outs_mono : forall c a b k, (errors k (fst (run c a)) <= errors k (fst (run c (a ++ b))))%nat /\ (warns k (fst (run c a)) <= warns k (fst (run c (a ++ b))))%nat.
Proof.
  intros c a b k. induction b as [|e b IH] using rev_ind; [rewrite app_nil_r; lia|].
  rewrite app_assoc, run_snoc. destruct (step _ _ _) as [o x]. cbn [fst]. rewrite errors_app, warns_app. lia.
Qed.

Theorem reported : forall c p r i s m1 t u m2, 0 <= w_warn c -> 0 <= w_error c -> undisturbed p ->
  clock 0 (p ++ [Reset r; Load i; Start s] ++ m1 ++ [Load t; Check u] ++ m2) ->
  forallb quietb m1 = true ->
  let o := fst (run c (p ++ [Reset r; Load i; Start s] ++ m1 ++ [Load t; Check u] ++ m2)) in
  (nanos (w_error c) + 1000000 <= u - s -> errors (starts p) o = 1%nat) /\
  (nanos (w_warn c) + 1000000 <= u - s -> u - s < nanos (w_error c) + 1000000 -> warns (starts p) o = 1%nat).
Proof.
  intros c p r i s m1 t u m2 W1 W2 U C Q o. subst o.
  apply (undisturbed_poll _ _ (le_n _)) in U. assert (NL := poll_not_loaded c p U).
  pose (q := p ++ [Reset r; Load i]).
  assert (L : w_loaded (snd (run c q)) = None /\ w_state (snd (run c q)) = Healthy).
  { unfold q. change [Reset r; Load i] with ([Reset r] ++ [Load i]). rewrite app_assoc, !run_snoc. cbn [step fst snd w_loaded w_start]. rewrite NL. auto. }
  destruct L as [L H].
  assert (SQ : starts q = starts p). { unfold q. change [Reset r; Load i] with ([Reset r] ++ [Load i]). rewrite app_assoc, !starts_snoc. lia. }
  assert (EQ : p ++ [Reset r; Load i; Start s] ++ m1 ++ [Load t; Check u] ++ m2 = (q ++ Start s :: m1 ++ [Load t; Check u]) ++ m2).
  { unfold q. rewrite <- !app_assoc. cbn [app]. rewrite <- !app_assoc. reflexivity. }
  rewrite EQ in *. clear EQ. set (e1 := q ++ Start s :: m1 ++ [Load t; Check u]) in *.
  assert (X : (nanos (w_error c) + 1000000 <= u - s -> (errors (starts p) (fst (run c e1)) > 0)%nat) /\
              (nanos (w_warn c) + 1000000 <= u - s -> u - s < nanos (w_error c) + 1000000 -> (warns (starts p) (fst (run c e1)) > 0)%nat \/ (errors (starts p) (fst (run c e1)) > 0)%nat)).
  { assert (Q1 : forallb quietb (m1 ++ [Load t; Check u]) = true) by (rewrite forallb_app, Q; reflexivity).
    destruct (during c q s _ L H Q1) as (_ & _ & D1 & D2). fold e1 in D1, D2. rewrite SQ in D1, D2.
    assert (Q2 : forallb quietb (m1 ++ [Load t]) = true) by (rewrite forallb_app, Q; reflexivity).
    destruct (during c q s _ L H Q2) as (A & B & _).
    assert (B' : w_loaded (snd (run c (q ++ Start s :: m1 ++ [Load t]))) = Some (starts q, s)).
    { destruct B as [B|B]; [|exact B]. exfalso. revert B.
      destruct (during c q s _ L H Q) as (A1 & B1 & _). change (q ++ Start s :: m1 ++ [Load t]) with (q ++ (Start s :: m1) ++ [Load t]).
      rewrite app_assoc, run_snoc. cbn [step]. destruct B1 as [->|B1]; [rewrite A1; discriminate|]. rewrite B1. cbn [snd]. rewrite B1. discriminate. }
    assert (ST : w_state (snd (run c e1)) = snd (check c (ms (u - s)) (w_state (snd (run c (q ++ Start s :: m1 ++ [Load t])))))).
    { unfold e1. replace (q ++ Start s :: m1 ++ [Load t; Check u]) with ((q ++ Start s :: m1 ++ [Load t]) ++ [Check u]) by (rewrite <- app_assoc; cbn [app]; rewrite <- app_assoc; reflexivity).
      rewrite run_snoc. cbn [step]. rewrite B'. destruct (check _ _ _) as [[? ?] ?]. reflexivity. }
    destruct (check c (ms (u - s)) _) as [[wn er] st] eqn:EC in ST. cbn [snd] in ST.
    destruct (check_cases _ _ _ _ _ _ EC) as (P1 & P2 & P3 & P4 & P5 & P6).
    split.
    - intros G. apply ms_late in G; [|assumption]. destruct (P4 G) as (-> & _). apply D1, ST.
    - intros G1 G2. apply ms_late in G1; [|assumption].
      assert (ms (u - s) <= w_error c). { destruct (Z.lt_ge_cases (w_error c) (ms (u - s))) as [V|V]; [apply ms_gt in V; lia|lia]. }
      destruct (P5 ltac:(lia)) as (-> & Y). destruct wn; [destruct (P1 eq_refl) as (_ & _ & _ & ->); left; apply D2, ST|].
      destruct (Y eq_refl) as (E & F). destruct st; [congruence|left; apply D2, ST|right; apply D1, ST]. }
  destruct X as [X1 X2]. destruct (outs_mono c e1 m2 (starts p)) as [M1 M2]. destruct (once c _ (starts p) C) as [O1 O2].
  split.
  - intros G. specialize (X1 G). lia.
  - intros G1 G2. destruct (X2 G1 G2) as [X|X]; [lia|]. exfalso.
    (* an error before the timeout *)
    assert (C1 : clock 0 e1). { revert C. generalize 0. clear. induction e1 as [|a e1 IH]; intros z C; [exact I|]. cbn in *. intuition. }
    assert (I1 := winv_run c e1 C1). destruct I1 as [_ IS _ _ _].
    assert (Q1 : forallb quietb (m1 ++ [Load t; Check u]) = true) by (rewrite forallb_app, Q; reflexivity).
    destruct (during c q s _ L H Q1) as (A & _). fold e1 in A. rewrite SQ in A. destruct (IS _ _ A) as (_ & _ & _ & E).
    destruct (E X) as (_ & G). apply ms_gt in G; [|assumption].
    assert (LT : last_time 0 e1 = u). { unfold e1. replace (q ++ Start s :: m1 ++ [Load t; Check u]) with ((q ++ Start s :: m1 ++ [Load t]) ++ [Check u]) by (rewrite <- app_assoc; cbn [app]; rewrite <- app_assoc; reflexivity). apply last_time_snoc. }
    rewrite LT in G. lia.
Qed.
