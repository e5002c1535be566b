(** Proofs about the threads that wait for signals and for the next collection of metrics. *)
From Coq Require Import List Arith Bool Lia.
From Verif Require Import ThreadsModel.
Import ListNotations.

Lemma getm_setm_same : forall l i m m0, getm i l = Some m0 -> getm i (setm i m l) = Some m.
Proof. induction l as [|x l IH]; intros [|i] m m0 H; cbn in *; try discriminate; [reflexivity|]. exact (IH i m m0 H). Qed.
Lemma getm_setm_other : forall l i j m, i <> j -> getm j (setm i m l) = getm j l.
Proof. induction l as [|x l IH]; intros [|i] [|j] m H; cbn; try reflexivity; try congruence. apply IH. congruence. Qed.
Lemma setm_length : forall l i m, length (setm i m l) = length l.
Proof. induction l as [|x l IH]; intros [|i] m; cbn; auto. Qed.
Lemma getm_lt : forall l i m, getm i l = Some m -> i < length l.
Proof. intros l i m H. apply nth_error_Some. unfold getm in H. congruence. Qed.
Lemma getm_snoc : forall l i m x, getm i l = Some m -> getm i (l ++ [x]) = Some m.
Proof. intros l i m x H. unfold getm. rewrite nth_error_app1; [exact H|]. exact (getm_lt _ _ _ H). Qed.
Lemma getm_last : forall l x, getm (length l) (l ++ [x]) = Some x.
Proof. intros. unfold getm. rewrite nth_error_app2, Nat.sub_diag by lia. reflexivity. Qed.
Lemma getm_snoc_inv : forall l i m x, getm i (l ++ [x]) = Some m -> getm i l = Some m \/ i = length l /\ m = x.
Proof.
  intros l i m x H. destruct (Nat.lt_ge_cases i (length l)) as [h|h].
  - left. unfold getm in *. rewrite nth_error_app1 in H by exact h. exact H.
  - right. assert (i < length (l ++ [x])) as h2 by exact (getm_lt _ _ _ H). rewrite app_length in h2. cbn in h2.
    assert (i = length l) by lia. subst i. rewrite getm_last in H. split; congruence.
Qed.

(** what holds of an event when it happens *)
Definition good (l : list event) (e : event) : Prop :=
  match e with
  | Handled i n => (exists s, In (Delivered i s) l) /\ (forall s, n = Some s -> In (Delivered i s) l) /\ (n = None -> In (Stopped i) l)
                   /\ (forall n', ~ In (Handled i n') l) /\ ~ In (Joined i) l
  | _ => True
  end.
Definition ok_log (l : list event) : Prop := forall a e b, l = a ++ e :: b -> good a e.
Lemma ok_snoc : forall l e, ok_log l -> good l e -> ok_log (l ++ [e]).
Proof.
  intros l e H G a e' b E. revert E. destruct b as [|y b] using rev_ind; intro E.
  - apply app_inj_tail in E. destruct E as [-> ->]. exact G.
  - clear IHb. change (a ++ e' :: b ++ [y]) with (a ++ (e' :: b) ++ [y]) in E. rewrite app_assoc in E. apply app_inj_tail in E. destruct E as [-> _].
    exact (H a e' b eq_refl).
Qed.

(** what holds of a monitor *)
Definition mon_ok (l : list event) (i : nat) (m : monitor) : Prop :=
  (m_worker m = WNone -> m_pipe m = 0 /\ (forall n, ~ In (Handled i n) l) /\ forall s, ~ In (Delivered i s) l)
  /\ (forall n, In (Handled i n) l -> m_worker m = WEnd)
  /\ (In (Joined i) l -> m_worker m = WEnd)
  /\ (forall s, m_num m = Some s -> In (Delivered i s) l)
  /\ (m_num m = None -> m_pipe m = 0 /\ (m_worker m = WNone \/ m_worker m = WRead) \/ In (Stopped i) l)
  /\ (m_worker m = WCall -> m_has m = true /\ exists s, In (Delivered i s) l)
  /\ (m_worker m = WEnd -> m_has m = false \/ (exists n, In (Handled i n) l) \/ In (Stopped i) l)
  /\ (m_worker m = WRead -> forall s, In (Delivered i s) l -> 0 < m_pipe m).
Definition last_worker (x : st) (P : worker -> Prop) : Prop := exists m, getm (pred (length (mons x))) (mons x) = Some m /\ P (m_worker m).
Definition fresh (x : st) : Prop := last_worker x (fun w => w = WNone) /\ g x <> Some (pred (length (mons x))).
Definition prog_ok (x : st) : Prop :=
  prog x = [] \/ (exists h, prog x = [MMake h; MSet Int; MSet Term; MStart; MAssign])
  \/ prog x = [MSet Int; MSet Term; MStart; MAssign] /\ fresh x
  \/ prog x = [MSet Term; MStart; MAssign] /\ fresh x
  \/ prog x = [MStart; MAssign] /\ fresh x
  \/ prog x = [MAssign] /\ last_worker x (fun w => w <> WNone)
  \/ prog x = [MClear]
  \/ exists i, (exists m, getm i (mons x) = Some m /\ m_worker m <> WNone) /\ (prog x = [MRestore Int; MRestore Term; MStop i; MJoin i] \/ prog x = [MRestore Term; MStop i; MJoin i] \/ prog x = [MStop i; MJoin i] \/ prog x = [MJoin i]).
Definition Inv (x : st) : Prop :=
  ok_log (log x)
  /\ (forall i m, getm i (mons x) = Some m -> mon_ok (log x) i m)
  /\ (forall i, length (mons x) <= i -> (forall n, ~ In (Handled i n) (log x)) /\ ~ In (Joined i) (log x) /\ forall s, ~ In (Delivered i s) (log x))
  /\ (forall i, g x = Some i -> exists m, getm i (mons x) = Some m /\ m_worker m <> WNone)
  /\ prog_ok x.

Lemma Inv_init : forall a b, Inv (init a b).
Proof.
  intros a b. repeat split; try (exfalso; match goal with H : getm ?i (mons (init _ _)) = Some _ |- _ => destruct i; discriminate end).
  - intros x e y E. destruct x; discriminate.
  - intros n [].
  - intros [].
  - intros s [].
  - intros i E. discriminate.
  - left. reflexivity.
Qed.

Ltac ins := repeat rewrite in_app_iff in *; cbn [In] in *.
(** an event that does not concern this monitor changes nothing *)
Lemma mon_ok_other : forall l e i m, mon_ok l i m ->
  (forall n, e <> Handled i n) -> e <> Joined i -> (forall s, e <> Delivered i s) -> mon_ok (l ++ [e]) i m.
Proof.
  intros l e i m (H0 & H1 & H2 & H3 & H4 & H5 & H6 & H7) a b c. repeat split.
  - exact (proj1 (H0 H)).
  - intros n h. ins. destruct h as [h|[h|[]]]; [exact (proj1 (proj2 (H0 H)) n h)|exact (a n h)].
  - intros s h. ins. destruct h as [h|[h|[]]]; [exact (proj2 (proj2 (H0 H)) s h)|exact (c s h)].
  - intros n h. ins. destruct h as [h|[h|[]]]; [exact (H1 n h)|destruct (a n h)].
  - intros h. ins. destruct h as [h|[h|[]]]; [exact (H2 h)|destruct (b h)].
  - intros s h. ins. left. exact (H3 s h).
  - intros h. destruct (H4 h) as [h'|h']; [left; exact h'|right; ins; left; exact h'].
  - exact (proj1 (H5 H)).
  - destruct (proj2 (H5 H)) as (s & h). exists s. ins. left. exact h.
  - intros h. destruct (H6 h) as [h'|[(n & h')|h']]; [left; exact h'|right; left; exists n; ins; left; exact h'|right; right; ins; left; exact h'].
  - intros h s h'. ins. destruct h' as [h'|[h'|[]]]; [exact (H7 h s h')|destruct (c s h')].
Qed.
Lemma prog_ok_mons : forall x ms l, prog_ok x -> length ms = length (mons x) ->
  (forall i m, getm i (mons x) = Some m -> exists m', getm i ms = Some m' /\ (m_worker m' = WNone <-> m_worker m = WNone)) ->
  prog_ok (mkSt (g x) ms (d_int x) (d_term x) (prog x) l (dead x)).
Proof.
  intros x ms l H L K.
  assert (fresh x -> fresh (mkSt (g x) ms (d_int x) (d_term x) (prog x) l (dead x))) as F.
  { intros ((m & e & w) & h). split; [|cbn; rewrite L; exact h]. destruct (K _ _ e) as (m' & e' & w'). exists m'. cbn. rewrite L. split; [exact e'|tauto]. }
  destruct H as [H|[H|[[H f]|[[H f]|[[H f]|[[H f]|[H|(i & (m & e & w) & H)]]]]]]].
  - left; exact H.
  - right; left; exact H.
  - right; right; left. split; [exact H|exact (F f)].
  - do 3 right; left. split; [exact H|exact (F f)].
  - do 4 right; left. split; [exact H|exact (F f)].
  - do 5 right; left. split; [exact H|]. destruct f as (m & e & w). destruct (K _ _ e) as (m' & e' & w'). exists m'. cbn. rewrite L. split; [exact e'|tauto].
  - do 6 right; left. exact H.
  - do 7 right. exists i. split; [destruct (K _ _ e) as (m' & e' & w'); exists m'; split; [exact e'|tauto]|exact H].
Qed.

(** the part of the invariant that does not depend on what the main thread does *)
Definition Core (x : st) : Prop :=
  ok_log (log x)
  /\ (forall i m, getm i (mons x) = Some m -> mon_ok (log x) i m)
  /\ (forall i, length (mons x) <= i -> (forall n, ~ In (Handled i n) (log x)) /\ ~ In (Joined i) (log x) /\ forall s, ~ In (Delivered i s) (log x))
  /\ (forall i, g x = Some i -> exists m, getm i (mons x) = Some m /\ m_worker m <> WNone).
Lemma Inv_Core : forall x, Inv x <-> Core x /\ prog_ok x.
Proof. intro x. unfold Inv, Core. tauto. Qed.
(** the state of one monitor and the log change *)
Lemma Core_change : forall x i m m' e p di dt, Core x -> getm i (mons x) = Some m -> good (log x) e ->
  mon_ok (log x ++ [e]) i m' -> (m_worker m' = WNone -> m_worker m = WNone) ->
  (forall j, j <> i -> (forall n, e <> Handled j n) /\ e <> Joined j /\ (forall s, e <> Delivered j s)) ->
  Core (mkSt (g x) (setm i m' (mons x)) di dt p (log x ++ [e]) (dead x)).
Proof.
  intros x i m m' e p di dt (H1 & H2 & H3 & H4) E G M W N. split; [|split; [|split]]; cbn [log mons g].
  - exact (ok_snoc _ _ H1 G).
  - intros j mj Ej. destruct (Nat.eq_dec j i) as [->|n].
    + rewrite (getm_setm_same _ _ _ _ E) in Ej. injection Ej as <-. exact M.
    + rewrite getm_setm_other in Ej by congruence. destruct (N j n) as (a & b & c). exact (mon_ok_other _ _ _ _ (H2 j mj Ej) a b c).
  - intros j Lj. rewrite setm_length in Lj. pose proof (getm_lt _ _ _ E) as Li. assert (j <> i) as n by lia. destruct (N j n) as (a & b & c). destruct (H3 j Lj) as (u & v & w).
    repeat split; intros; intro h; ins; destruct h as [h|[h|[]]]; firstorder.
  - intros j Ej. destruct (H4 j Ej) as (mj & Hj & Wj). destruct (Nat.eq_dec j i) as [->|n].
    + exists m'. rewrite (getm_setm_same _ _ _ _ E). split; [reflexivity|]. intro h. rewrite E in Hj. injection Hj as <-. exact (Wj (W h)).
    + exists mj. rewrite getm_setm_other by congruence. split; assumption.
Qed.
Lemma Core_quiet : forall x i m m' p di dt, Core x -> getm i (mons x) = Some m ->
  mon_ok (log x) i m' -> (m_worker m' = WNone -> m_worker m = WNone) ->
  Core (mkSt (g x) (setm i m' (mons x)) di dt p (log x) (dead x)).
Proof.
  intros x i m m' p di dt (H1 & H2 & H3 & H4) E M W. split; [|split; [|split]]; cbn [log mons g].
  - exact H1.
  - intros j mj Ej. destruct (Nat.eq_dec j i) as [->|n].
    + rewrite (getm_setm_same _ _ _ _ E) in Ej. injection Ej as <-. exact M.
    + rewrite getm_setm_other in Ej by congruence. exact (H2 j mj Ej).
  - intros j Lj. rewrite setm_length in Lj. exact (H3 j Lj).
  - intros j Ej. destruct (H4 j Ej) as (mj & Hj & Wj). destruct (Nat.eq_dec j i) as [->|n].
    + exists m'. rewrite (getm_setm_same _ _ _ _ E). split; [reflexivity|]. intro h. rewrite E in Hj. injection Hj as <-. exact (Wj (W h)).
    + exists mj. rewrite getm_setm_other by congruence. split; assumption.
Qed.
Lemma setm_keeps : forall l i m m', getm i l = Some m -> (m_worker m' = WNone <-> m_worker m = WNone) ->
  forall j mj, getm j l = Some mj -> exists mj', getm j (setm i m' l) = Some mj' /\ (m_worker mj' = WNone <-> m_worker mj = WNone).
Proof.
  intros l i m m' E W j mj Ej. destruct (Nat.eq_dec j i) as [->|n].
  - exists m'. rewrite (getm_setm_same _ _ _ _ E). split; [reflexivity|]. rewrite E in Ej. injection Ej as <-. exact W.
  - exists mj. rewrite getm_setm_other by congruence. split; [exact Ej|tauto].
Qed.

Lemma Inv_work : forall i x, Inv x -> Inv (work i x).
Proof.
  intros i x I. unfold work. destruct (getm i (mons x)) as [m|] eqn:E; [|exact I].
  apply Inv_Core in I. destruct I as [C P]. pose proof C as (C1 & C2 & C3 & C4). pose proof (C2 i m E) as M. pose proof M as (H0 & H1 & H2 & H3 & H4 & H5 & H6 & H7).
  destruct (m_worker m) eqn:W; try (apply Inv_Core; split; assumption).
  - destruct (m_pipe m) as [|p] eqn:Pm; [apply Inv_Core; split; assumption|]. apply Inv_Core. split.
    + apply (Core_quiet x i m); [exact C|exact E| |cbn; discriminate]. repeat split; cbn [m_num m_pipe m_worker m_has] in *.
      * discriminate.
      * discriminate.
      * discriminate.
      * intros n h. specialize (H1 n h). discriminate.
      * intro h. specialize (H2 h). discriminate.
      * exact H3.
      * intro h. destruct (H4 h) as [[h' _]|h']; [discriminate|right; exact h'].
      * discriminate.
      * discriminate.
      * discriminate.
      * discriminate.
    + apply prog_ok_mons; [exact P|apply setm_length|]. apply (setm_keeps _ _ m); [exact E|]. cbn. rewrite W. split; discriminate.
  - apply Inv_Core. split.
    + apply (Core_quiet x i m); [exact C|exact E| |cbn; intro h; destruct (m_num m); [destruct (m_has m)|]; discriminate]. repeat split; cbn [m_num m_pipe m_worker m_has] in *.
      * destruct (m_num m); [destruct (m_has m)|]; discriminate.
      * destruct (m_num m); [destruct (m_has m)|]; discriminate.
      * destruct (m_num m); [destruct (m_has m)|]; discriminate.
      * intros n h. specialize (H1 n h). discriminate.
      * intro h. specialize (H2 h). discriminate.
      * exact H3.
      * intro h. destruct (H4 h) as [[_ [h'|h']]|h']; [discriminate|discriminate|right; exact h'].
      * destruct (m_num m); [destruct (m_has m)|]; congruence.
      * destruct (m_num m) as [s|] eqn:N; [exists s; exact (H3 s eq_refl)|discriminate].
      * intro h. destruct (m_num m) as [s|] eqn:N; [destruct (m_has m); [discriminate|left; reflexivity]|].
        right; right. destruct (H4 eq_refl) as [[_ [h'|h']]|h']; [discriminate|discriminate|exact h'].
      * destruct (m_num m); [destruct (m_has m)|]; discriminate.
    + apply prog_ok_mons; [exact P|apply setm_length|]. apply (setm_keeps _ _ m); [exact E|]. cbn. rewrite W. destruct (m_num m); [destruct (m_has m)|]; split; discriminate.
  - apply Inv_Core. split.
    + apply (Core_change x i m); [exact C|exact E| | |cbn; discriminate|].
      * cbn [good]. destruct (H5 eq_refl) as (_ & D). repeat split.
        -- exact D.
        -- exact H3.
        -- intro h. destruct (H4 h) as [[_ [h'|h']]|h']; [discriminate|discriminate|exact h'].
        -- intros n h. specialize (H1 n h). discriminate.
        -- intro h. specialize (H2 h). discriminate.
      * repeat split; cbn [m_num m_pipe m_worker m_has] in *; try discriminate.
        -- intros s h. ins. left. exact (H3 s h).
        -- intro h. right. ins. left. destruct (H4 h) as [[_ [h'|h']]|h']; [discriminate|discriminate|exact h'].
        -- intros _. right; left. exists (m_num m). ins. right; left; reflexivity.
      * intros j n. repeat split; intros; try congruence.
    + apply prog_ok_mons; [exact P|apply setm_length|]. apply (setm_keeps _ _ m); [exact E|]. cbn. rewrite W. split; discriminate.
Qed.
Lemma mon_ok_notify : forall l i m s, mon_ok l i m -> m_worker m <> WNone -> mon_ok (l ++ [Delivered i s]) i (notify (Some s) m).
Proof.
  intros l i m s (H0 & H1 & H2 & H3 & H4 & H5 & H6 & H7) W. repeat split; cbn [notify m_num m_pipe m_worker m_has] in *.
  - congruence.
  - congruence.
  - congruence.
  - intros n h. ins. destruct h as [h|[h|[]]]; [exact (H1 n h)|discriminate].
  - intros h. ins. destruct h as [h|[h|[]]]; [exact (H2 h)|discriminate].
  - intros s' h. injection h as <-. ins. right; left; reflexivity.
  - discriminate.
  - exact (proj1 (H5 H)).
  - destruct (proj2 (H5 H)) as (s' & h). exists s'. ins. left. exact h.
  - intros h. destruct (H6 h) as [h'|[(n & h')|h']]; [left; exact h'|right; left; exists n; ins; left; exact h'|right; right; ins; left; exact h'].
  - intros. lia.
Qed.
Lemma Inv_signal : forall s x, Inv x -> Inv (signal s x).
Proof.
  intros s x I. unfold signal. apply Inv_Core in I. destruct I as [C P]. pose proof C as (C1 & C2 & C3 & C4).
  assert (forall e y, (forall j, (forall n, e <> Handled j n) /\ e <> Joined j /\ (forall s, e <> Delivered j s)) -> good (log x) e -> Inv (mkSt (g x) (mons x) (d_int x) (d_term x) (prog x) (log x ++ [e]) y)) as Q.
  { intros e y N G. apply Inv_Core. split; [|apply (prog_ok_mons x (mons x)) with (l := log x ++ [e]) in P; [exact P|reflexivity|intros i m h; exists m; tauto]].
    split; [|split; [|split]]; cbn [log mons g].
    - exact (ok_snoc _ _ C1 G).
    - intros j m h. destruct (N j) as (a & b & c). exact (mon_ok_other _ _ _ _ (C2 j m h) a b c).
    - intros j h. destruct (N j) as (a & b & c). destruct (C3 j h) as (u & v & w). repeat split; intros; intro k; ins; destruct k as [k|[k|[]]]; firstorder.
    - exact C4. }
  destruct (disp_of s x).
  - apply Inv_Core. split; assumption.
  - apply Q; [repeat split; discriminate|exact Logic.I].
  - destruct (g x) as [i|] eqn:G; [|apply Q; [repeat split; discriminate|exact Logic.I]].
    destruct (getm i (mons x)) as [m|] eqn:E; [|apply Inv_Core; split; assumption].
    destruct (C4 i eq_refl) as (m' & E' & W). rewrite E in E'. injection E' as <-. rewrite <- G. apply Inv_Core. split.
    + apply (Core_change x i m); [exact C|exact E|exact Logic.I|exact (mon_ok_notify _ _ _ s (C2 i m E) W)|cbn; tauto|]. intros j n. repeat split; intros; congruence.
    + apply prog_ok_mons; [exact P|apply setm_length|]. apply (setm_keeps _ _ m); [exact E|cbn; tauto].
Qed.
Lemma mon_ok_stop : forall l i m, mon_ok l i m -> m_worker m <> WNone -> mon_ok (l ++ [Stopped i]) i (notify None m).
Proof.
  intros l i m (H0 & H1 & H2 & H3 & H4 & H5 & H6 & H7) W. repeat split; cbn [notify m_num m_pipe m_worker m_has] in *.
  - congruence.
  - congruence.
  - congruence.
  - intros n h. ins. destruct h as [h|[h|[]]]; [exact (H1 n h)|discriminate].
  - intros h. ins. destruct h as [h|[h|[]]]; [exact (H2 h)|discriminate].
  - discriminate.
  - intros _. right. ins. right; left; reflexivity.
  - exact (proj1 (H5 H)).
  - destruct (proj2 (H5 H)) as (s' & h). exists s'. ins. left. exact h.
  - intros _. right; right. ins. right; left; reflexivity.
  - intros. lia.
Qed.
Lemma Core_disp : forall x di dt p, Core x -> Core (mkSt (g x) (mons x) di dt p (log x) (dead x)).
Proof. intros x di dt p C. exact C. Qed.
Lemma Inv_main : forall x, Inv x -> Inv (main_step x).
Proof.
  intros x I. apply Inv_Core in I. destruct I as [C P]. pose proof C as (C1 & C2 & C3 & C4). unfold main_step.
  destruct P as [H|[(h & H)|[[H f]|[[H f]|[[H f]|[[H f]|[H|(i & (m & e & w) & H)]]]]]]].
  - rewrite H. apply Inv_Core. split; [exact C|left; exact H].
  - rewrite H. apply Inv_Core. split.
    + split; [|split; [|split]]; cbn [log mons g].
      * exact C1.
      * intros j mj Ej. apply getm_snoc_inv in Ej. destruct Ej as [Ej|[-> ->]]; [exact (C2 j mj Ej)|].
        destruct (C3 (length (mons x)) (le_n _)) as (u & v & w).
        repeat split; cbn [m_num m_pipe m_worker m_has]; try discriminate.
        -- exact u.
        -- exact w.
        -- intros n k. destruct (u n k).
        -- intro k. destruct (v k).
        -- intros _. left. split; [reflexivity|left; reflexivity].
      * intros j Lj. rewrite app_length in Lj. apply C3. cbn in Lj. lia.
      * intros j Ej. destruct (C4 j Ej) as (m & Em & Wm). exists m. split; [apply getm_snoc; exact Em|exact Wm].
    + right; right; left. split; [reflexivity|]. split; cbn [mons g].
      * exists (mkMon None 0 WNone h). cbn [mons]. rewrite app_length. cbn [length]. replace (pred (length (mons x) + 1)) with (length (mons x)) by lia. split; [apply getm_last|reflexivity].
      * rewrite app_length. cbn [length]. intro G. destruct (C4 _ G) as (m & Em & _). apply getm_lt in Em. lia.
  - rewrite H. cbn [with_disp]. apply Inv_Core. split; [exact (Core_disp x _ _ _ C)|]. do 3 right; left. split; [reflexivity|exact f].
  - rewrite H. cbn [with_disp]. apply Inv_Core. split; [exact (Core_disp x _ _ _ C)|]. do 4 right; left. split; [reflexivity|exact f].
  - rewrite H. destruct f as ((m & e & w) & f). rewrite e. apply Inv_Core. pose proof (C2 _ _ e) as (H0 & H1 & H2 & H3 & H4 & H5 & H6 & H7). destruct (H0 w) as (p0 & nh & nd). split.
    + apply (Core_quiet x _ m); [exact C|exact e| |cbn; discriminate]. repeat split; cbn [m_num m_pipe m_worker m_has]; try discriminate.
      * intros n k. destruct (nh n k).
      * intro k. specialize (H2 k). congruence.
      * exact H3.
      * intro k. destruct (H4 k) as [_|k']; [left; split; [exact p0|right; reflexivity]|right; exact k'].
      * intros _ s k. exfalso.
        exact (nd s k).
    + do 5 right; left. split; [reflexivity|]. eexists. cbn [mons]. rewrite setm_length. split; [exact (getm_setm_same _ _ _ _ e)|cbn; discriminate].
  - rewrite H. destruct f as (m & e & w). apply Inv_Core. split.
    + split; [|split; [|split]]; cbn [log mons g]; try assumption. intros j Ej. injection Ej as <-. exists m. split; assumption.
    + rewrite app_nil_r. destruct (g x) as [i|] eqn:G; [|left; reflexivity]. do 7 right. exists i. split; [exact (C4 i eq_refl)|left; reflexivity].
  - rewrite H. apply Inv_Core. split.
    + split; [|split; [|split]]; cbn [log mons g]; try assumption. discriminate.
    + rewrite app_nil_r. destruct (g x) as [i|] eqn:G; [|left; reflexivity]. do 7 right. exists i. split; [exact (C4 i eq_refl)|left; reflexivity].
  - destruct H as [H|[H|[H|H]]]; rewrite H; cbn [with_disp].
    + apply Inv_Core. split; [exact (Core_disp x _ _ _ C)|]. do 7 right. exists i. split; [exists m; split; assumption|right; left; reflexivity].
    + apply Inv_Core. split; [exact (Core_disp x _ _ _ C)|]. do 7 right. exists i. split; [exists m; split; assumption|right; right; left; reflexivity].
    + rewrite e. apply Inv_Core. split.
      * apply (Core_change x i m); [exact C|exact e|exact Logic.I|exact (mon_ok_stop _ _ _ (C2 i m e) w)|cbn; tauto|]. intros j n. repeat split; intros; congruence.
      * do 7 right. exists i. split; [|right; right; right; reflexivity]. eexists. cbn [mons]. split; [exact (getm_setm_same _ _ _ _ e)|exact w].
    + rewrite e. destruct (m_worker m) eqn:W; try (apply Inv_Core; split; [exact C|]; do 7 right; exists i; split; [exists m; split; [exact e|congruence]|right; right; right; exact H]).
      apply Inv_Core. split; [|left; reflexivity]. pose proof (Core_change x i m m (Joined i) [] (d_int x) (d_term x) C e Logic.I) as K.
      assert (forall l k (m : monitor), getm k l = Some m -> setm k m l = l) as S.
      { induction l as [|y l IH]; intros [|k] m0 h; cbn in *; try discriminate; try congruence. rewrite (IH k m0 h). reflexivity. }
      rewrite (S _ _ _ e) in K. apply K.
      * pose proof (C2 i m e) as (H0 & H1 & H2 & H3 & H4 & H5 & H6 & H7). repeat split; try congruence.
        -- intros s k. ins. left. exact (H3 s k).
        -- intro k. destruct (H4 k) as [k'|k']; [left; exact k'|right; ins; left; exact k'].
        -- intro k. destruct (H6 k) as [k'|[(n & k')|k']]; [left; exact k'|right; left; exists n; ins; left; exact k'|right; right; ins; left; exact k'].
      * tauto.
      * intros j n. repeat split; intros; congruence.
Qed.
Lemma Inv_step : forall x o, Inv x -> Inv (step x o).
Proof.
  intros x o I. unfold step. destruct (dead x) eqn:D; [exact I|]. destruct o as [c| |s|i]; [|exact (Inv_main x I)|exact (Inv_signal s x I)|exact (Inv_work i x I)].
  destruct (prog x) eqn:P; [|exact I]. apply Inv_Core in I. destruct I as [C _]. apply Inv_Core. split; [rewrite <- D; exact C|].
  destruct c as [h|]; [right; left; exists h; reflexivity|do 6 right; left; reflexivity].
Qed.
Lemma Inv_run : forall ops x, Inv x -> Inv (run ops x).
Proof. induction ops as [|o ops IH]; intros x I; [exact I|]. apply IH, Inv_step, I. Qed.

(** ** A signal that was delivered is handled *)
Definition grows (x y : st) : Prop := exists l, log y = log x ++ l.
Lemma grows_refl : forall x, grows x x.
Proof. intro x. exists []. rewrite app_nil_r. reflexivity. Qed.
Lemma grows_step : forall x o, grows x (step x o).
Proof.
  intros x o. unfold step. destruct (dead x); [apply grows_refl|].
  assert (forall y, log y = log x -> grows x y) as Q by (intros y h; exists []; rewrite app_nil_r; exact h).
  destruct o as [c| |s|i].
  - destruct (prog x); apply Q; reflexivity.
  - unfold main_step. destruct (prog x) as [|[h|s| | | |s|i|i] p]; try (apply Q; reflexivity).
    + apply Q. destruct s; reflexivity.
    + destruct (getm _ _); apply Q; reflexivity.
    + apply Q. destruct s; reflexivity.
    + destruct (getm _ _); [eexists; reflexivity|apply grows_refl].
    + destruct (getm _ _) as [m|]; [|apply grows_refl]. destruct (m_worker m); try apply grows_refl. eexists; reflexivity.
  - unfold signal. destruct (disp_of s x); [apply grows_refl|eexists; reflexivity|]. destruct (g x); [|eexists; reflexivity]. destruct (getm _ _); [eexists; reflexivity|apply grows_refl].
  - unfold work. destruct (getm _ _) as [m|]; [|apply grows_refl]. destruct (m_worker m); try apply grows_refl; [destruct (m_pipe m); [apply grows_refl|apply Q; reflexivity]|apply Q; reflexivity|eexists; reflexivity].
Qed.
Lemma grows_in : forall x y e, grows x y -> In e (log x) -> In e (log y).
Proof. intros x y e (l & h) k. rewrite h, in_app_iff. left. exact k. Qed.
Lemma grows_run : forall ops x, grows x (run ops x).
Proof.
  induction ops as [|o ops IH]; intro x; [apply grows_refl|]. destruct (grows_step x o) as (a & ha), (IH (step x o)) as (b & hb). exists (a ++ b). cbn. rewrite app_assoc, <- ha. exact hb.
Qed.
Definition rank (w : worker) : nat := match w with WNone => 4 | WRead => 3 | WCheck => 2 | WCall => 1 | WEnd => 0 end.
Definition rankm (k : nat) (x : st) : nat := match getm k (mons x) with Some m => rank (m_worker m) | None => 4 end.
Lemma rank_set : forall k i m m' x p l di dt gg dd, getm i (mons x) = Some m -> rank (m_worker m') <= rank (m_worker m) -> rankm k (mkSt gg (setm i m' (mons x)) di dt p l dd) <= rankm k x.
Proof.
  intros k i m m' x p l di dt gg dd E R. unfold rankm. cbn [mons]. destruct (Nat.eq_dec k i) as [->|n].
  - rewrite (getm_setm_same _ _ _ _ E), E. exact R.
  - rewrite getm_setm_other by congruence. apply le_n.
Qed.
Lemma rank_step : forall k x o, Inv x -> rankm k (step x o) <= rankm k x.
Proof.
  intros k x o I. unfold step. destruct (dead x); [apply le_n|]. destruct o as [c| |s|i].
  - destruct (prog x); apply le_n.
  - unfold main_step. destruct I as (_ & _ & _ & _ & P). destruct (prog x) as [|[h|s| | | |s|i|i] p] eqn:EP; try apply le_n.
    + unfold rankm. cbn [mons]. destruct (getm k (mons x)) as [m|] eqn:E; [rewrite (getm_snoc _ _ _ _ E); apply le_n|]. destruct (getm k (_ ++ _)) as [m|]; [destruct (m_worker m); cbn; lia|apply le_n].
    + destruct s; apply le_n.
    + assert (fresh x) as ((m & e & w) & _).
      { unfold prog_ok in P. rewrite EP in P. destruct P as [H|[(h & H)|[[H f]|[[H f]|[[H f]|[[H f]|[H|(i & _ & [H|[H|[H|H]]])]]]]]]]; try discriminate. exact f. }
      rewrite e. apply rank_set with m; [exact e|]. cbn. rewrite w. cbn. lia.
    + destruct s; apply le_n.
    + destruct (getm i (mons x)) as [m|] eqn:e; [|apply le_n]. apply rank_set with m; [exact e|]. apply le_n.
    + destruct (getm i (mons x)) as [m|] eqn:e; [|apply le_n]. destruct (m_worker m); apply le_n.
  - unfold signal. destruct (disp_of s x); try apply le_n. destruct (g x) as [i|]; [|apply le_n]. destruct (getm i (mons x)) as [m|] eqn:e; [|apply le_n]. apply rank_set with m; [exact e|]. apply le_n.
  - unfold work. destruct (getm i (mons x)) as [m|] eqn:e; [|apply le_n]. destruct (m_worker m) eqn:w; try apply le_n.
    + destruct (m_pipe m); [apply le_n|]. apply rank_set with m; [exact e|]. rewrite w. cbn. lia.
    + apply rank_set with m; [exact e|]. rewrite w. cbn. destruct (m_num m); [destruct (m_has m)|]; cbn; lia.
    + apply rank_set with m; [exact e|]. rewrite w. cbn. lia.
Qed.
Lemma rank_work : forall k x s, Inv x -> dead x = false -> In (Delivered k s) (log x) -> rankm k (step x (Work k)) <= pred (rankm k x).
Proof.
  intros k x s I D T. unfold step. rewrite D. unfold work. destruct I as (_ & M & O & _ & _). destruct (getm k (mons x)) as [m|] eqn:e.
  - destruct (M k m e) as (H0 & _ & _ & _ & _ & _ & _ & H7). unfold rankm. rewrite e. destruct (m_worker m) eqn:w.
    + destruct (H0 eq_refl) as (_ & _ & h). destruct (h s T).
    + specialize (H7 eq_refl s T). destruct (m_pipe m); [lia|]. cbn [mons]. rewrite (getm_setm_same _ _ _ _ e). cbn. lia.
    + cbn [mons]. rewrite (getm_setm_same _ _ _ _ e). cbn. destruct (m_num m); [destruct (m_has m)|]; cbn; lia.
    + cbn [mons]. rewrite (getm_setm_same _ _ _ _ e). cbn. lia.
    + rewrite e, w. cbn. lia.
  - exfalso. apply nth_error_None in e. destruct (O k e) as (_ & _ & h). exact (h s T).
Qed.
Definition is_work (k : nat) (o : op) : bool := match o with Work i => Nat.eqb i k | _ => false end.
Lemma dead_run : forall ops x, dead x = true -> run ops x = x.
Proof. induction ops as [|o ops IH]; intros x h; [reflexivity|]. cbn. unfold step. rewrite h. exact (IH x h). Qed.
Lemma rank_run : forall ops k x s, Inv x -> dead (run ops x) = false -> In (Delivered k s) (log x) -> rankm k (run ops x) <= rankm k x - length (filter (is_work k) ops).
Proof.
  induction ops as [|o ops IH]; intros k x s I D T; [cbn; lia|]. cbn [run fold_left] in *. fold (run ops (step x o)) in *.
  assert (dead x = false) as Dx. { destruct (dead x) eqn:h; [|reflexivity]. unfold step in D. rewrite h in D. rewrite (dead_run ops x h) in D. congruence. }
  pose proof (IH k (step x o) s (Inv_step x o I) D (grows_in _ _ _ (grows_step x o) T)) as R. pose proof (rank_step k x o I) as R1.
  cbn [filter]. destruct (is_work k o) eqn:w; [|lia]. destruct o as [c| |s'|i]; try discriminate. cbn in w. apply Nat.eqb_eq in w. subst i. pose proof (rank_work k x s I Dx T). cbn [length]. lia.
Qed.
Lemma in_split_good : forall l e, ok_log l -> In e l -> exists a b, l = a ++ e :: b /\ good a e.
Proof. intros l e H h. apply in_split in h. destruct h as (a & b & E). exists a, b. split; [exact E|exact (H a e b E)]. Qed.
Lemma delivered_handled : forall ops k x s m, Inv x -> dead (run ops x) = false -> In (Delivered k s) (log x) ->
  3 <= length (filter (is_work k) ops) -> ~ In (Stopped k) (log (run ops x)) -> getm k (mons (run ops x)) = Some m -> m_has m = true ->
  exists s', In (Handled k (Some s')) (log (run ops x)) /\ In (Delivered k s') (log (run ops x)).
Proof.
  intros ops k x s m I D T N S E H. pose proof (rank_run ops k x s I D T) as R. pose proof (Inv_run ops x I) as I'. pose proof I' as (L & M & _).
  destruct (M k m E) as (H0 & _ & _ & _ & _ & _ & H6 & _).
  assert (rankm k x <= 3) as Rx.
  { unfold rankm. destruct I as (_ & M0 & O & _). destruct (getm k (mons x)) as [m0|] eqn:e.
    - destruct (M0 k m0 e) as (h0 & _). destruct (m_worker m0); cbn; try lia. destruct (h0 eq_refl) as (_ & _ & h). destruct (h s T).
    - exfalso. apply nth_error_None in e. destruct (O k e) as (_ & _ & h). exact (h s T). }
  unfold rankm in R at 1. rewrite E in R. assert (m_worker m = WEnd) as W by (destruct (m_worker m); cbn in R; try lia; reflexivity).
  destruct (H6 W) as [h|[(n & h)|h]]; [congruence| |destruct (S h)].
  destruct (in_split_good _ _ L h) as (a & b & El & (_ & G2 & G3 & _)). destruct n as [s'|].
  - exists s'. split; [exact h|]. rewrite El, in_app_iff. left. exact (G2 s' eq_refl).
  - exfalso. apply S. rewrite El, in_app_iff. left. exact (G3 eq_refl).
Qed.

(** ** What registering a function does *)
Definition up (d : disp) : disp := set_disp d Mine.
Definition down (d : disp) : disp := set_disp d Dfl.
Definition hasm (k : nat) (x : st) : option bool := option_map m_has (getm k (mons x)).
Definition calls_none (ops : list op) : Prop := forall c, ~ In (Call c) ops.
Definition Ph (x0 : st) (h : bool) (x : st) : Prop :=
  let n := length (mons x0) in
  (prog x = [MMake h; MSet Int; MSet Term; MStart; MAssign] /\ g x = g x0 /\ length (mons x) = n /\ d_int x = d_int x0 /\ d_term x = d_term x0)
  \/ length (mons x) = S n /\ hasm n x = Some h /\
     ((prog x = [MSet Int; MSet Term; MStart; MAssign] /\ g x = g x0 /\ d_int x = d_int x0 /\ d_term x = d_term x0)
      \/ (prog x = [MSet Term; MStart; MAssign] /\ g x = g x0 /\ d_int x = up (d_int x0) /\ d_term x = d_term x0)
      \/ ((prog x = [MStart; MAssign] \/ prog x = [MAssign]) /\ g x = g x0 /\ d_int x = up (d_int x0) /\ d_term x = up (d_term x0))
      \/ (exists i, g x0 = Some i /\ g x = Some n /\
           ((prog x = [MRestore Int; MRestore Term; MStop i; MJoin i] /\ d_int x = up (d_int x0) /\ d_term x = up (d_term x0))
            \/ (prog x = [MRestore Term; MStop i; MJoin i] /\ d_int x = down (d_int x0) /\ d_term x = up (d_term x0))
            \/ ((prog x = [MStop i; MJoin i] \/ prog x = [MJoin i] \/ prog x = []) /\ d_int x = down (d_int x0) /\ d_term x = down (d_term x0))))
      \/ (g x0 = None /\ g x = Some n /\ prog x = [] /\ d_int x = up (d_int x0) /\ d_term x = up (d_term x0))).
Lemma Ph_frame : forall x0 h x y, Ph x0 h x -> prog y = prog x -> g y = g x -> length (mons y) = length (mons x) -> d_int y = d_int x -> d_term y = d_term x -> (forall k, hasm k y = hasm k x) -> Ph x0 h y.
Proof. intros x0 h x y P a b c d e f. unfold Ph in *. rewrite a, b, c, d, e, f. exact P. Qed.
Lemma hasm_set : forall k i m m' x p l di dt gg dd, getm i (mons x) = Some m -> m_has m' = m_has m -> hasm k (mkSt gg (setm i m' (mons x)) di dt p l dd) = hasm k x.
Proof.
  intros k i m m' x p l di dt gg dd E R. unfold hasm. cbn [mons]. destruct (Nat.eq_dec k i) as [->|n].
  - rewrite (getm_setm_same _ _ _ _ E), E. cbn. congruence.
  - rewrite getm_setm_other by congruence. reflexivity.
Qed.
Ltac framed P := apply (Ph_frame _ _ _ _ P); cbn [prog g mons d_int d_term]; try reflexivity; try apply setm_length; intro; eapply hasm_set; [eassumption|reflexivity].
Lemma up_down : forall d, set_disp (up d) Dfl = down d.
Proof. destruct d; reflexivity. Qed.
Lemma Ph_main : forall x0 h x, Ph x0 h x -> Ph x0 h (main_step x).
Proof.
  intros x0 h x P. unfold main_step. pose proof P as P0.
  destruct P as [(p & gg & l & a & b)|(l & hh & [(p & gg & a & b)|[(p & gg & a & b)|[([p|p] & gg & a & b)|[(i & g0 & gg & [(p & a & b)|[(p & a & b)|([p|[p|p]] & a & b)]])|(g0 & gg & p & a & b)]]]])]; rewrite p.
  - right. cbn [mons g d_int d_term prog]. rewrite app_length, l. cbn [length]. split; [lia|]. split; [|left; repeat split; assumption].
    unfold hasm. cbn [mons]. rewrite <- l, getm_last. reflexivity.
  - right. split; [exact l|]. split; [exact hh|]. right; left. cbn. rewrite a. repeat split; assumption.
  - right. split; [exact l|]. split; [exact hh|]. right; right; left. cbn. rewrite b. repeat split; [left; reflexivity|exact gg|exact a].
  - destruct (getm (pred (length (mons x))) (mons x)) as [m|] eqn:E; [|exact P0].
    right. cbn [mons g d_int d_term prog]. rewrite setm_length. split; [exact l|]. split; [erewrite hasm_set; [exact hh|exact E|reflexivity]|]. right; right; left. repeat split; [right; reflexivity|exact gg|exact a|exact b].
  - right. cbn [mons g d_int d_term prog]. split; [exact l|]. split; [exact hh|]. right; right; right. rewrite gg, l. cbn [pred]. destruct (g x0) as [i|].
    + left. exists i. split; [reflexivity|]. split; [reflexivity|]. left. repeat split; assumption.
    + right. repeat split; assumption.
  - right. split; [exact l|]. split; [exact hh|]. right; right; right; left. exists i. split; [exact g0|]. split; [exact gg|]. right; left. cbn. rewrite a, up_down. repeat split. exact b.
  - right. split; [exact l|]. split; [exact hh|]. right; right; right; left. exists i. split; [exact g0|]. split; [exact gg|]. right; right. cbn. rewrite b, up_down. repeat split; [left; reflexivity|exact a].
  - destruct (getm i (mons x)) as [m|] eqn:E; [|exact P0]. right. cbn [mons g d_int d_term prog]. rewrite setm_length. split; [exact l|]. split; [erewrite hasm_set; [exact hh|exact E|reflexivity]|].
    right; right; right; left. exists i. split; [exact g0|]. split; [exact gg|]. right; right. repeat split; [right; left; reflexivity|exact a|exact b].
  - destruct (getm i (mons x)) as [m|] eqn:E; [|exact P0]. destruct (m_worker m); try exact P0. right. split; [exact l|]. split; [exact hh|].
    right; right; right; left. exists i. split; [exact g0|]. split; [exact gg|]. right; right. repeat split; [right; right; reflexivity|exact a|exact b].
  - exact P0.
  - exact P0.
Qed.
Lemma Ph_step : forall x0 h x o, (forall c, o <> Call c) -> Ph x0 h x -> Ph x0 h (step x o).
Proof.
  intros x0 h x o N P. unfold step. destruct (dead x); [exact P|]. destruct o as [c| |s|i]; [destruct (N c eq_refl)|exact (Ph_main x0 h x P)| |].
  - unfold signal. destruct (disp_of s x); [exact P|exact P|]. destruct (g x) as [i|] eqn:G; [|apply (Ph_frame _ _ _ _ P); try reflexivity; cbn; congruence].
    destruct (getm i (mons x)) as [m|] eqn:E; [|exact P]. rewrite <- G. framed P.
  - unfold work. destruct (getm i (mons x)) as [m|] eqn:E; [|exact P]. destruct (m_worker m); try exact P; [destruct (m_pipe m); [exact P|]| |]; framed P.
Qed.
Lemma Ph_run : forall ops x0 h x, calls_none ops -> Ph x0 h x -> Ph x0 h (run ops x).
Proof.
  induction ops as [|o ops IH]; intros x0 h x N P; [exact P|]. cbn. apply IH; [intros c k; apply (N c); right; exact k|].
  apply Ph_step; [intros c k; subst o; apply (N c); left; reflexivity|exact P].
Qed.
Lemma Ph_start : forall x h, dead x = false -> prog x = [] -> Ph x h (step x (Call (Register h))).
Proof. intros x h D P. unfold step. rewrite D, P. left. repeat split. Qed.
Lemma registered : forall x h ops y, dead x = false -> prog x = [] -> calls_none ops -> y = run ops (step x (Call (Register h))) -> prog y = [] ->
  g y = Some (length (mons x)) /\ hasm (length (mons x)) y = Some h
  /\ forall s, disp_of s y = match g x with None => up (disp_of s x) | Some _ => down (disp_of s x) end.
Proof.
  intros x h ops y D P N -> E. pose proof (Ph_run ops x h _ N (Ph_start x h D P)) as Q. set (z := run ops (step x (Call (Register h)))) in *.
  destruct Q as [(p & _)|(l & hh & [(p & _)|[(p & _)|[([p|p] & _)|[(i & g0 & gg & [(p & _)|[(p & _)|([p|[p|p]] & a & b)]])|(g0 & gg & p & a & b)]]]])]; try congruence.
  - split; [exact gg|]. split; [exact hh|]. rewrite g0. intros [|]; assumption.
  - split; [exact gg|]. split; [exact hh|]. rewrite g0. intros [|]; assumption.
Qed.

(** ** The timer of metrics *)
Lemma trun_split : forall ops x a o b, snd (trun ops x) = a ++ o :: b ->
  exists ops1 ops2 y, snd (trun ops1 x) = a /\ tstep (fst (trun ops1 x)) o = Some y /\ snd (trun ops2 y) = b.
Proof.
  induction ops as [|o' ops IH]; intros x a o b E; [destruct a; discriminate|]. cbn [trun] in E. destruct (tstep x o') as [x'|] eqn:T; [|exact (IH x a o b E)].
  destruct (trun ops x') as [x2 l] eqn:R. cbn [snd] in E. destruct a as [|e a].
  - injection E as -> ->. exists [], ops, x'. cbn. rewrite R. repeat split. exact T.
  - injection E as -> ->. destruct (IH x' a o b) as (o1 & o2 & y & h1 & h2 & h3); [rewrite R; reflexivity|]. exists (e :: o1), o2, y. cbn [trun]. rewrite T. destruct (trun o1 x') as [u v]. cbn in *. subst v. repeat split; assumption.
Qed.
Lemma done_quiet : forall ops x, t_done x = true -> ~ In TTimeout (snd (trun ops x)).
Proof.
  induction ops as [|o ops IH]; intros x D h; [exact h|]. cbn [trun] in h. destruct (tstep x o) as [x'|] eqn:T; [|exact (IH x D h)].
  destruct (trun ops x') as [x2 l] eqn:R. cbn [snd] in h. destruct h as [->|h].
  - cbn in T. rewrite D in T. destruct (t_worker x); discriminate.
  - apply (IH x'); [|rewrite R; exact h]. destruct o; cbn in T; rewrite ?D in T; repeat match type of T with context [match ?e with _ => _ end] => destruct e end; try discriminate; injection T as <-; cbn; auto.
Qed.
(** state and trace *)
Definition TI (x : timer) (l : list top) : Prop :=
  (t_go x = true -> In TStart l \/ In TGoD l)
  /\ (t_worker x <> TGo -> t_go x = true)
  /\ (t_main x = Finishing \/ t_main x = Gone <-> t_done x = true)
  /\ (t_main x = Gone -> t_worker x = TEnd)
  /\ (t_main x <> Used -> t_go x = true).
Lemma TI_step : forall x l o y, TI x l -> tstep x o = Some y -> TI y (l ++ [o]).
Proof.
  intros x l o y (H1 & H2 & H3 & H4 & H5) T. destruct x as [a b c w m]. cbn in *. destruct o; cbn in T; destruct m, w; try discriminate; try (destruct b; try discriminate); try (destruct c; try discriminate); injection T as <-.
  all: repeat split; cbn in *; intros; rewrite ?in_app_iff; cbn [In]; try discriminate; try congruence; intuition congruence.
Qed.
Lemma TI_run : forall ops x l, TI x l -> TI (fst (trun ops x)) (l ++ snd (trun ops x)).
Proof.
  induction ops as [|o ops IH]; intros x l I; [cbn; rewrite app_nil_r; exact I|]. cbn [trun]. destruct (tstep x o) as [x'|] eqn:T; [|exact (IH x l I)].
  pose proof (IH x' (l ++ [o]) (TI_step x l o x' I T)) as Q. destruct (trun ops x') as [x2 r]. cbn in *. rewrite <- app_assoc in Q. exact Q.
Qed.
Lemma TI0 : TI timer0 [].
Proof. repeat split; cbn; intros; try discriminate; intuition discriminate. Qed.
Definition TB (x : timer) (l : list top) : Prop :=
  (t_done x = true -> In TDoneD l) /\ (t_worker x <> TCall -> forall c d, l = c ++ TTimeout :: d -> In TBack d).
Lemma TB_step : forall x l o y, TB x l -> tstep x o = Some y -> TB y (l ++ [o]).
Proof.
  intros x l o y (H1 & H2) T. split.
  - intro D. rewrite in_app_iff. cbn [In]. destruct o; cbn in T; repeat match type of T with context [match ?e with _ => _ end] => destruct e eqn:? end; try discriminate; injection T as <-; cbn in D; try (left; exact (H1 ltac:(congruence))); right; left; reflexivity.
  - intros W c d E. destruct d as [|z d _] using rev_ind.
    + apply app_inj_tail in E. destruct E as [_ ->]. cbn in T. repeat match type of T with context [match ?e with _ => _ end] => destruct e eqn:? end; try discriminate; injection T as <-. cbn in W. congruence.
    + change (c ++ TTimeout :: d ++ [z]) with (c ++ (TTimeout :: d) ++ [z]) in E. rewrite app_assoc in E. apply app_inj_tail in E. destruct E as [El ->]. rewrite in_app_iff.
      destruct z; try (right; left; reflexivity); left; apply (H2) with (c := c); [|exact El| |exact El| |exact El| |exact El| |exact El| |exact El| |exact El];
        cbn in T; repeat match type of T with context [match ?e with _ => _ end] => destruct e eqn:? end; try discriminate; injection T as <-; cbn in W; congruence.
Qed.
Lemma TB_run : forall ops x l, TB x l -> TB (fst (trun ops x)) (l ++ snd (trun ops x)).
Proof.
  induction ops as [|o ops IH]; intros x l I; [cbn; rewrite app_nil_r; exact I|]. cbn [trun]. destruct (tstep x o) as [x'|] eqn:T; [|exact (IH x l I)].
  pose proof (IH x' (l ++ [o]) (TB_step x l o x' I T)) as Q. destruct (trun ops x') as [x2 r]. cbn in *. rewrite <- app_assoc in Q. exact Q.
Qed.
Lemma TB0 : TB timer0 [].
Proof. split; [discriminate|]. intros _ c d E. destruct c; discriminate. Qed.
Lemma overlap : forall ops x, t_worker x = TCall -> forall b c, snd (trun ops x) = b ++ TTimeout :: c -> In TBack b.
Proof.
  induction ops as [|o ops IH]; intros x W b c E; [destruct b; discriminate|]. cbn [trun] in E. destruct (tstep x o) as [x'|] eqn:T; [|exact (IH x W b c E)].
  destruct (trun ops x') as [x2 l] eqn:R. cbn [snd] in E. destruct b as [|e b].
  - injection E as -> ->. cbn in T. rewrite W in T. discriminate.
  - injection E as -> ->. destruct e; cbn in T; rewrite W in T; try discriminate; try (left; reflexivity).
    all: right; apply (IH x') with (c := c); [|rewrite R; reflexivity]; destruct (t_main x); try discriminate; injection T as <-; cbn; first [exact W|reflexivity].
Qed.
