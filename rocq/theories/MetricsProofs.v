(** Proofs about the metrics manager of MetricsModel.v: the clock, the updates and the submissions. *)
From Coq Require Import String Ascii List NArith QArith Qminmax Bool Lia.
From Verif Require Import Base TextModel MetricsModel.
Import ListNotations.
Open Scope string_scope.
Open Scope list_scope.
Open Scope N_scope.

(** ** Vocabulary of the statements *)
(** time of the last submission, and the latest time read from the clock *)
Definition last_end (t0 : N) (es : list ev) : N := fold_left (fun a e => match e with End t => t | _ => a end) es t0.
Definition latest (t0 : N) (es : list ev) : N := fold_left (fun a e => match e with End t | Stamp _ t => t | _ => a end) es t0.
(** the clock does not go back, and an update reads a later time than the end of the submission before *)
Definition clocked (t0 : N) (es : list ev) : Prop :=
  forall a e b, es = a ++ e :: b -> match e with Stamp _ t => latest t0 a <= t /\ last_end t0 a < t | End t => latest t0 a <= t | _ => True end.
(** the metric was stamped after the last submission *)
Definition dirty (n : text) (es : list ev) : bool :=
  fold_left (fun a e => match e with Stamp n' _ => text_eqb n n' || a | End _ => false | _ => a end) es false.
Definition stamp_of (n : text) (es : list ev) : N :=
  fold_left (fun a e => match e with Stamp n' t => if text_eqb n n' then t else a | _ => a end) es 0.
Definition writes (n : text) (es : list ev) : list wop :=
  flat_map (fun e => match e with Write n' o => if text_eqb n n' then [o] else [] | _ => [] end) es.
(** the value of the metric by the operations carried out on it *)
Definition value_of (k : kind) (n : text) (es : list ev) : value := fold_left (fun v o => apply o v) (writes n es) (fresh k).
Definition after (t0 : N) (es : list ev) : mgr := fst (run (mgr0 t0) es).
Definition outs (t0 : N) (es : list ev) : list out := snd (run (mgr0 t0) es).
(** no step had to wait *)
Definition ok (t0 : N) (es : list ev) : Prop := ~ In Blocked (outs t0 es).

(** ** Lists *)
Lemma text_eqb_eq : forall a b, text_eqb a b = true <-> a = b.
Proof. intros a b. unfold text_eqb. destruct (list_eq_dec N.eq_dec a b); split; congruence. Qed.
Lemma text_eqb_refl : forall a, text_eqb a a = true.
Proof. intros a. now apply text_eqb_eq. Qed.
Lemma text_eqb_neq : forall a b, text_eqb a b = false <-> a <> b.
Proof. intros a b. unfold text_eqb. destruct (list_eq_dec N.eq_dec a b); split; congruence. Qed.
Lemma find_change : forall n f l x, find x (change n f l) = if text_eqb x n then option_map f (find n l) else find x l.
Proof.
  intros n f l x. induction l as [|[k m] l IH]; cbn [change find].
  - now destruct (text_eqb x n).
  - destruct (text_eqb n k) eqn:E.
    + apply text_eqb_eq in E. subst k. cbn [find option_map]. now destruct (text_eqb x n).
    + cbn [find]. rewrite IH. destruct (text_eqb x k) eqn:F; [|reflexivity].
      apply text_eqb_eq in F. subst k. destruct (text_eqb x n) eqn:G; [|reflexivity].
      apply text_eqb_eq in G. subst n. now rewrite text_eqb_refl in E.
Qed.
Lemma keys_change : forall n f l, map fst (change n f l) = map fst l.
Proof. intros n f l. induction l as [|[k m] l IH]; [reflexivity|]. cbn. destruct (text_eqb n k); cbn; congruence. Qed.
Lemma find_app : forall x l n m, find x (l ++ [(n, m)]) = match find x l with Some y => Some y | None => if text_eqb x n then Some m else None end.
Proof. intros x l n m. induction l as [|[k y] l IH]; [reflexivity|]. cbn [app find]. destruct (text_eqb x k); [reflexivity|exact IH]. Qed.
Lemma find_keys : forall n l, find n l <> None <-> In n (map fst l).
Proof.
  intros n l. induction l as [|[k m] l IH]; cbn; [tauto|]. destruct (text_eqb n k) eqn:E.
  - apply text_eqb_eq in E. subst. split; [tauto|congruence].
  - apply text_eqb_neq in E. rewrite IH. split; [tauto|]. intros [?|?]; [congruence|assumption].
Qed.

(** ** Runs *)
Lemma run_snoc : forall es s e, run s (es ++ [e]) = (fst (step (fst (run s es)) e), snd (run s es) ++ [snd (step (fst (run s es)) e)]).
Proof.
  induction es as [|x es IH]; intros s e; cbn [app run].
  - cbn [fst snd app]. now destruct (step s e) as [s1 o].
  - destruct (step s x) as [s1 o]. rewrite IH. destruct (run s1 es) as [s2 os]. reflexivity.
Qed.
Lemma after_snoc : forall t0 es e, after t0 (es ++ [e]) = fst (step (after t0 es) e).
Proof. intros. unfold after. now rewrite run_snoc. Qed.
Lemma outs_snoc : forall t0 es e, outs t0 (es ++ [e]) = outs t0 es ++ [snd (step (after t0 es) e)].
Proof. intros. unfold outs, after. now rewrite run_snoc. Qed.
Lemma ok_snoc : forall t0 es e, ok t0 (es ++ [e]) <-> ok t0 es /\ snd (step (after t0 es) e) <> Blocked.
Proof.
  intros. unfold ok. rewrite outs_snoc, in_app_iff. cbn. split.
  - intros H. split; intros X; apply H; [now left|]. right. left. exact X.
  - intros [A B] [X|[X|[]]]; [exact (A X)|exact (B X)].
Qed.
Lemma ok_prefix : forall t0 a b, ok t0 (a ++ b) -> ok t0 a.
Proof.
  intros t0 a b. induction b as [|e b IH] using rev_ind; [now rewrite app_nil_r|]. rewrite app_assoc. intros H. apply ok_snoc in H as [H _]. auto.
Qed.
Lemma clocked_prefix : forall t0 a b, clocked t0 (a ++ b) -> clocked t0 a.
Proof. intros t0 a b H x e y E. apply (H x e (y ++ b)). rewrite E, <- app_assoc. reflexivity. Qed.
Lemma dirty_snoc : forall n es e, dirty n (es ++ [e]) = match e with Stamp n' _ => text_eqb n n' || dirty n es | End _ => false | _ => dirty n es end.
Proof. intros. unfold dirty. rewrite fold_left_app. reflexivity. Qed.
Lemma stamp_snoc : forall n es e, stamp_of n (es ++ [e]) = match e with Stamp n' t => if text_eqb n n' then t else stamp_of n es | _ => stamp_of n es end.
Proof. intros. unfold stamp_of. rewrite fold_left_app. reflexivity. Qed.
Lemma writes_snoc : forall n es e, writes n (es ++ [e]) = writes n es ++ match e with Write n' o => if text_eqb n n' then [o] else [] | _ => [] end.
Proof. intros. unfold writes. rewrite flat_map_app. cbn. now rewrite app_nil_r. Qed.
Lemma value_snoc : forall k n es e, value_of k n (es ++ [e]) = match e with Write n' o => if text_eqb n n' then apply o (value_of k n es) else value_of k n es | _ => value_of k n es end.
Proof.
  intros. unfold value_of. rewrite writes_snoc, fold_left_app. destruct e; try reflexivity. now destruct (text_eqb n n0).
Qed.
Lemma latest_snoc : forall t0 es e, latest t0 (es ++ [e]) = match e with Stamp _ t | End t => t | _ => latest t0 es end.
Proof. intros. unfold latest. now rewrite fold_left_app. Qed.
Lemma last_end_snoc : forall t0 es e, last_end t0 (es ++ [e]) = match e with End t => t | _ => last_end t0 es end.
Proof. intros. unfold last_end. now rewrite fold_left_app. Qed.

Lemma kind_eqb_eq : forall a b, kind_eqb a b = true <-> a = b.
Proof. intros [] []; cbn; split; congruence. Qed.
Lemma kind_apply : forall o v, kind_of (apply o v) = kind_of v.
Proof. intros [] []; reflexivity. Qed.
Lemma kind_fresh : forall k, kind_of (fresh k) = k.
Proof. now intros []. Qed.

(** ** The invariant of the metrics *)
Record inv (t0 : N) (es : list ev) (s : mgr) : Prop := mkInv {
  i_nodup : NoDup (map fst (g_metrics s));
  i_last : g_last s = last_end t0 es;
  i_metric : forall n m, find n (g_metrics s) = Some m ->
    m_time m = stamp_of n es /\ (exists names k, In (Get names k) es /\ join_name names = n /\ m_value m = value_of k n es /\ kind_of (m_value m) = k);
  i_none : forall n, find n (g_metrics s) = None -> stamp_of n es = 0 /\ writes n es = [] /\ dirty n es = false
}.
Lemma inv_run : forall t0 es, ok t0 es -> inv t0 es (after t0 es).
Proof.
  intros t0 es. induction es as [|e es IH] using rev_ind; intros OK.
  - constructor; cbn; [constructor|reflexivity|discriminate|auto].
  - apply ok_snoc in OK as [OK NB]. specialize (IH OK). rewrite after_snoc. set (s := after t0 es) in *.
    destruct IH as [ND LA ME NO]. destruct e as [names k|x t|x o| | |t]; cbn [step] in *.
    + destruct (g_sub s); [now contradiction NB|].
      destruct (find (join_name names) (g_metrics s)) as [m|] eqn:F.
      * rewrite F in *. destruct (kind_eqb _ _) eqn:K; cbn [fst]; (constructor; cbn [g_metrics g_last]; rewrite ?last_end_snoc; auto;
          [intros n m' F'; destruct (ME n m' F') as [A (ns & k' & B & C & D & E)]; rewrite stamp_snoc; split; [exact A|]; exists ns, k'; rewrite value_snoc, in_app_iff; auto
          |intros n F'; rewrite stamp_snoc, writes_snoc, dirty_snoc, app_nil_r; auto]).
      * destruct (NO _ F) as (N1 & N2 & N3).
        replace (find (join_name names) (g_metrics s ++ [(join_name names, mkMetric 0 (fresh k))])) with (Some (mkMetric 0 (fresh k))) in * by (rewrite find_app, F, text_eqb_refl; reflexivity).
        cbn [m_value] in *. rewrite kind_fresh, (proj2 (kind_eqb_eq k k) eq_refl) in *. cbn [fst].
        constructor; cbn [g_metrics g_last]; rewrite ?last_end_snoc; auto.
        -- rewrite map_app. cbn. apply NoDup_rev in ND. rewrite <- (rev_involutive (_ ++ _)), rev_app_distr. apply NoDup_rev. cbn. constructor; [|exact ND].
           rewrite <- in_rev. intros I. apply find_keys in I. congruence.
        -- intros n m. rewrite find_app. destruct (find n (g_metrics s)) as [m'|] eqn:F'.
           ++ intros [= <-]. destruct (ME n m' F') as [A (ns & k' & B & C & D & E)]. rewrite stamp_snoc. split; [exact A|]. exists ns, k'. rewrite value_snoc, in_app_iff. auto.
           ++ destruct (text_eqb n (join_name names)) eqn:T; [|discriminate]. apply text_eqb_eq in T. subst n. intros [= <-]. cbn. rewrite stamp_snoc, N1. split; [reflexivity|].
              exists names, k. rewrite in_app_iff, value_snoc. unfold value_of. rewrite N2. cbn. rewrite kind_fresh. auto.
        -- intros n. rewrite find_app. destruct (find n (g_metrics s)) as [m'|] eqn:F'; [discriminate|]. intros _. rewrite stamp_snoc, writes_snoc, dirty_snoc, app_nil_r. auto.
    + destruct (find x (g_metrics s)) as [m0|] eqn:F0; [|now contradiction NB]. cbn [fst].
      constructor; cbn [g_metrics g_last]; rewrite ?last_end_snoc, ?keys_change; auto.
      * intros n m. rewrite find_change, stamp_snoc. destruct (text_eqb n x) eqn:T.
        -- apply text_eqb_eq in T. subst x. rewrite F0. cbn. intros [= <-]. cbn. split; [reflexivity|]. destruct (ME n m0 F0) as [A (ns & k' & B & C & D & E)]. exists ns, k'. rewrite value_snoc, in_app_iff. auto.
        -- intros F'. destruct (ME n m F') as [A (ns & k' & B & C & D & E)]. split; [exact A|]. exists ns, k'. rewrite value_snoc, in_app_iff. auto.
      * intros n. rewrite find_change, stamp_snoc, writes_snoc, dirty_snoc, app_nil_r. destruct (text_eqb n x) eqn:T; [|cbn; apply NO].
        apply text_eqb_eq in T. subst x. rewrite F0. discriminate.
    + destruct (find x (g_metrics s)) as [m0|] eqn:F0; [|now contradiction NB]. destruct (kind_eqb _ _) eqn:K; [|now contradiction NB]. cbn [fst].
      constructor; cbn [g_metrics g_last]; rewrite ?last_end_snoc, ?keys_change; auto.
      * intros n m. rewrite find_change, stamp_snoc. destruct (text_eqb n x) eqn:T.
        -- assert (T' := T). apply text_eqb_eq in T. subst x. rewrite F0. cbn. intros [= <-]. cbn. destruct (ME n m0 F0) as [A (ns & k' & B & C & D & E)]. split; [exact A|]. exists ns, k'.
           rewrite value_snoc, in_app_iff, T', D, kind_apply. rewrite D in E. auto.
        -- intros F'. destruct (ME n m F') as [A (ns & k' & B & C & D & E)]. split; [exact A|]. exists ns, k'. rewrite value_snoc, in_app_iff, T. auto.
      * intros n. rewrite find_change, stamp_snoc, writes_snoc, dirty_snoc. destruct (text_eqb n x) eqn:T; [|rewrite app_nil_r; apply NO].
        apply text_eqb_eq in T. subst x. rewrite F0. discriminate.
    + destruct (g_sub s); [now contradiction NB|]. cbn [fst]. constructor; cbn [g_metrics g_last]; rewrite ?last_end_snoc; auto.
      * intros n m' F'. destruct (ME n m' F') as [A (ns & k' & B & C & D & E)]. rewrite stamp_snoc. split; [exact A|]. exists ns, k'. rewrite value_snoc, in_app_iff. auto.
      * intros n F'. rewrite stamp_snoc, writes_snoc, dirty_snoc, app_nil_r. auto.
    + destruct (g_sub s) as [[[|n0 todo] msg]|]; try (now contradiction NB). cbn [fst]. constructor; cbn [g_metrics g_last]; rewrite ?last_end_snoc; auto.
      * intros n m' F'. destruct (ME n m' F') as [A (ns & k' & B & C & D & E)]. rewrite stamp_snoc. split; [exact A|]. exists ns, k'. rewrite value_snoc, in_app_iff. auto.
      * intros n F'. rewrite stamp_snoc, writes_snoc, dirty_snoc, app_nil_r. auto.
    + destruct (g_sub s) as [[[|n0 todo] msg]|]; try (now contradiction NB). cbn [fst]. constructor; cbn [g_metrics g_last]; rewrite ?last_end_snoc; auto.
      * intros n m' F'. destruct (ME n m' F') as [A (ns & k' & B & C & D & E)]. rewrite stamp_snoc. split; [exact A|]. exists ns, k'. rewrite value_snoc, in_app_iff. auto.
      * intros n F'. rewrite stamp_snoc, writes_snoc, dirty_snoc, app_nil_r. destruct (NO n F') as (A & B & _). auto.
Qed.

(** ** The clock *)
Lemma times : forall t0 es, clocked t0 es -> last_end t0 es <= latest t0 es /\ forall n, (stamp_of n es = 0 /\ dirty n es = false) \/ (stamp_of n es <= latest t0 es /\ (last_end t0 es < stamp_of n es <-> dirty n es = true)).
Proof.
  intros t0 es. induction es as [|e es IH] using rev_ind; intros C.
  - cbn. split; [lia|]. intros n. left. auto.
  - pose proof (C es e [] eq_refl) as Ce. apply clocked_prefix in C. destruct (IH C) as [L IHn]. clear IH. split.
    + rewrite last_end_snoc, latest_snoc. destruct e; lia.
    + intros n. specialize (IHn n). rewrite stamp_snoc, dirty_snoc, last_end_snoc, latest_snoc. destruct e as [| x t | | | | t]; try exact IHn.
      * destruct (text_eqb n x); [right; cbn; split; [lia|]; split; [auto|lia]|]. cbn. destruct IHn as [?|[A B]]; [now left|right]. split; [lia|exact B].
      * destruct IHn as [[A B]|[A B]]; [now left|]. right. split; [lia|]. split; [lia|discriminate].
Qed.
Lemma dirty_time : forall t0 es, clocked t0 es -> forall n, (last_end t0 es <? stamp_of n es) = dirty n es.
Proof.
  intros t0 es C n. destruct (times t0 es C) as [_ H]. destruct (H n) as [[A B]|[A B]].
  - rewrite A, B. lia.
  - destruct (dirty n es); lia.
Qed.

(** ** A submission *)
Definition no_end (es : list ev) : Prop := forall t, ~ In (End t) es.
Lemma dirty_grows : forall n a b, no_end b -> dirty n a = true -> dirty n (a ++ b) = true.
Proof.
  intros n a b. induction b as [|e b IH] using rev_ind; intros NE D; [now rewrite app_nil_r|].
  rewrite app_assoc, dirty_snoc. assert (X : dirty n (a ++ b) = true) by (apply IH; [|exact D]; intros t I; apply (NE t), in_app_iff; now left).
  rewrite X. destruct e; try reflexivity; [apply orb_true_r|]. exfalso. apply (NE t). apply in_app_iff. right. now left.
Qed.
(** what a record says about the metric after the given events *)
Definition record_of (es : list ev) (d : data) : Prop :=
  d_time d = stamp_of (d_name d) es /\ exists names, In (Get names (d_kind d)) es /\ join_name names = d_name d /\ d_value d = value_of (d_kind d) (d_name d) es.
Record loop (es mid : list ev) (keys todo : list text) (msg : list data) : Prop := mkLoop {
  l_done : exists dn, keys = dn ++ todo /\ incl (map d_name msg) dn
    /\ (forall n, In n dn -> dirty n es = true -> In n (map d_name msg));
  l_nodup : NoDup (map d_name msg);
  l_what : forall d, In d msg -> exists m1 m2, mid = m1 ++ Look :: m2 /\ dirty (d_name d) (es ++ Begin :: m1) = true /\ record_of (es ++ Begin :: m1) d
}.
Lemma snoc_assoc : forall (es mid : list ev) e, es ++ Begin :: mid ++ [e] = (es ++ Begin :: mid) ++ [e].
Proof. intros. rewrite <- app_assoc. reflexivity. Qed.
Lemma loop_run : forall t0 es mid, ok t0 (es ++ Begin :: mid) -> clocked t0 (es ++ Begin :: mid) -> no_end mid ->
  exists todo msg, g_sub (after t0 (es ++ Begin :: mid)) = Some (todo, msg) /\ map fst (g_metrics (after t0 (es ++ Begin :: mid))) = map fst (g_metrics (after t0 es))
    /\ loop es mid (map fst (g_metrics (after t0 es))) todo msg.
Proof.
  intros t0 es mid. induction mid as [|e mid IH] using rev_ind; intros OK C NE.
  - apply ok_snoc in OK as [OK NB]. rewrite after_snoc. cbn [step] in *. destruct (g_sub (after t0 es)); [now contradiction NB|]. cbn [fst g_sub].
    eexists. eexists. split; [reflexivity|]. split; [reflexivity|]. constructor; [exists []; repeat split; [intros ? []|intros ? []]|constructor|intros ? []].
  - rewrite snoc_assoc in *. assert (C0 := C). apply ok_snoc in OK as [OK NB]. apply clocked_prefix in C.
    destruct IH as (todo & msg & G & KK & [(dn & K1 & K2 & K3) L2 L3]); [exact OK|exact C|intros t I; apply (NE t), in_app_iff; now left|].
    rewrite after_snoc. pose proof (inv_run t0 _ OK) as IV. set (s := after t0 (es ++ Begin :: mid)) in *.
    assert (W : forall d, In d msg -> exists m1 m2, mid ++ [e] = m1 ++ Look :: m2 /\ dirty (d_name d) (es ++ Begin :: m1) = true /\ record_of (es ++ Begin :: m1) d).
    { intros d I. destruct (L3 d I) as (m1 & m2 & E & X). exists m1, (m2 ++ [e]). split; [rewrite E, <- app_assoc; reflexivity|exact X]. }
    destruct e as [names k|x t|x o| | |t]; cbn [step] in *; rewrite ?G in *; try (now contradiction NB).
    + destruct (find x (g_metrics s)); [|now contradiction NB]. cbn [fst g_sub g_metrics]. rewrite keys_change. exists todo, msg. split; [reflexivity|]. split; [exact KK|]. constructor; [exists dn; auto|exact L2|exact W].
    + destruct (find x (g_metrics s)); [|now contradiction NB]. destruct (kind_eqb _ _); [|now contradiction NB]. cbn [fst g_sub g_metrics]. rewrite keys_change. exists todo, msg. split; [reflexivity|]. split; [exact KK|]. constructor; [exists dn; auto|exact L2|exact W].
    + destruct todo as [|n todo]; [now contradiction NB|]. cbn [fst g_sub g_metrics]. eexists. eexists. split; [reflexivity|]. split; [exact KK|].
      destruct IV as [ND LA ME NO].
      assert (In n (map fst (g_metrics s))) as IN by (rewrite KK, K1; apply in_app_iff; right; now left).
      apply find_keys in IN. destruct (find n (g_metrics s)) as [m|] eqn:F; [|congruence]. destruct (ME n m F) as [T (ns & k & B & J & V & K)].
      assert (NN : ~ In n dn). { rewrite KK, K1 in ND. apply NoDup_remove_2 in ND. intros X. apply ND. apply in_app_iff. now left. }
      pose proof (dirty_time t0 _ C n) as DT. unfold look. rewrite T, LA.
      assert (LE : (stamp_of n (es ++ Begin :: mid) <=? last_end t0 (es ++ Begin :: mid)) = negb (dirty n (es ++ Begin :: mid))) by (rewrite <- DT; lia).
      rewrite LE. destruct (dirty n (es ++ Begin :: mid)) eqn:D; cbn [negb].
      * constructor.
        -- exists (dn ++ [n]). rewrite <- app_assoc, map_app. cbn. split; [exact K1|]. split.
           ++ apply incl_app; [apply incl_appl; exact K2|apply incl_appr, incl_refl].
           ++ intros y I X. apply in_app_iff. apply in_app_iff in I as [I|[<-|[]]]; [left; auto|right; now left].
        -- rewrite map_app. cbn. rewrite <- (rev_involutive (_ ++ _)), rev_app_distr. apply NoDup_rev. cbn. constructor; [|now apply NoDup_rev]. rewrite <- in_rev. intros X. apply NN, K2, X.
        -- intros d I. apply in_app_iff in I as [I|[<-|[]]]; [now apply W|]. exists mid, []. split; [reflexivity|]. cbn [d_name d_time d_kind d_value]. split; [exact D|].
           unfold record_of. cbn [d_name d_time d_kind d_value]. rewrite K. split; [reflexivity|]. exists ns. auto.
      * rewrite app_nil_r. constructor; [|exact L2|exact W]. exists (dn ++ [n]). rewrite <- app_assoc. split; [exact K1|]. split; [now apply incl_appl|].
        intros y I X. apply in_app_iff in I as [I|[<-|[]]]; [auto|]. exfalso.
        assert (dirty n (es ++ Begin :: mid) = true); [|congruence]. apply dirty_grows; [|exact X]. intros t [I|I]; [discriminate|]. apply (NE t), in_app_iff. now left.
    + exfalso. apply (NE t), in_app_iff. right. now left.
Qed.
Definition message (o : out) : list data := match o with Process l => l | _ => [] end.
Lemma submission_run : forall t0 es mid t, ok t0 (es ++ Begin :: mid ++ [End t]) -> clocked t0 (es ++ Begin :: mid ++ [End t]) -> no_end mid ->
  exists l, snd (step (after t0 (es ++ Begin :: mid)) (End t)) = (match l with [] => Nothing | _ => Process l end)
    /\ outs t0 (es ++ Begin :: mid ++ [End t]) = outs t0 (es ++ Begin :: mid) ++ [match l with [] => Nothing | _ => Process l end]
    /\ loop es mid (map fst (g_metrics (after t0 es))) [] l.
Proof.
  intros t0 es mid t OK C NE. rewrite snoc_assoc in *. apply ok_snoc in OK as [OK NB]. apply clocked_prefix in C.
  destruct (loop_run t0 es mid OK C NE) as (todo & msg & G & KK & L). cbn [step] in *. rewrite G in *.
  destruct todo; [|now contradiction NB]. exists msg. split; [reflexivity|]. split; [|exact L]. rewrite outs_snoc. cbn [step]. rewrite G. reflexivity.
Qed.

(** ** Histories in which updates and submissions do not overlap *)
Inductive history : list ev -> Prop :=
| h_nil : history []
| h_get : forall es names k, history es -> history (es ++ [Get names k])
| h_update : forall es n t o, history es -> history (es ++ [Stamp n t; Write n o])
| h_submit : forall es k t, history es -> history (es ++ Begin :: repeat Look k ++ [End t]).
(** the last record of the metric which was passed on *)
Definition reported (n : text) (os : list out) : option data :=
  fold_left (fun a d => if text_eqb n (d_name d) then Some d else a) (flat_map message os) None.

Lemma reported_same : forall n os o, ~ In n (map d_name (message o)) -> reported n (os ++ [o]) = reported n os.
Proof.
  intros n os o H. unfold reported. rewrite flat_map_app, fold_left_app. cbn. rewrite app_nil_r. set (a := fold_left _ _ None). clearbody a. revert a.
  induction (message o) as [|d l IH]; intros a; [reflexivity|]. cbn. destruct (text_eqb n (d_name d)) eqn:E.
  - apply text_eqb_eq in E. exfalso. apply H. now left.
  - apply IH. intros I. apply H. now right.
Qed.
Lemma reported_new : forall n os o d, In d (message o) -> d_name d = n -> NoDup (map d_name (message o)) -> reported n (os ++ [o]) = Some d.
Proof.
  intros n os o d I N ND. unfold reported. rewrite flat_map_app, fold_left_app. cbn. rewrite app_nil_r. set (a := fold_left _ _ None). clearbody a. revert a.
  apply in_split in I as (l1 & l2 & E). rewrite E in *. rewrite map_app in ND. cbn in ND. apply NoDup_remove_2 in ND. intros a.
  rewrite fold_left_app. cbn. rewrite N, text_eqb_refl. assert (X : ~ In n (map d_name l2)) by (intros X; apply ND, in_app_iff; right; now rewrite N).
  clear -X. induction l2 as [|y l2 IH]; [reflexivity|]. cbn. destruct (text_eqb n (d_name y)) eqn:T; [apply text_eqb_eq in T; exfalso; apply X; now left|]. apply IH. intros I. apply X. now right.
Qed.
Lemma record_more : forall es b d, record_of es d -> (forall e, In e b -> match e with Stamp n _ | Write n _ => n <> d_name d | _ => True end) -> record_of (es ++ b) d.
Proof.
  intros es b d R. induction b as [|e b IH] using rev_ind; intros H; [now rewrite app_nil_r|]. rewrite app_assoc.
  destruct IH as [A (ns & I & J & V)]; [intros x X; apply H, in_app_iff; now left|]. assert (He := H e (proj2 (in_app_iff b [e] e) (or_intror (or_introl eq_refl)))).
  split.
  - rewrite stamp_snoc. destruct e; try exact A. destruct (text_eqb (d_name d) n) eqn:T; [|exact A]. apply text_eqb_eq in T. congruence.
  - exists ns. split; [apply in_app_iff; now left|]. split; [exact J|]. rewrite value_snoc. destruct e; try exact V. destruct (text_eqb (d_name d) n) eqn:T; [|exact V]. apply text_eqb_eq in T. congruence.
Qed.
Lemma record_looks : forall es k d, record_of (es ++ Begin :: repeat Look k) d -> record_of es d.
Proof.
  intros es k d [A (ns & I & J & V)].
  assert (E : forall k, stamp_of (d_name d) (es ++ Begin :: repeat Look k) = stamp_of (d_name d) es /\ value_of (d_kind d) (d_name d) (es ++ Begin :: repeat Look k) = value_of (d_kind d) (d_name d) es /\ (In (Get ns (d_kind d)) (es ++ Begin :: repeat Look k) -> In (Get ns (d_kind d)) es)).
  { clear. intros k. induction k as [|k (A & B & C)].
    - cbn [repeat]. rewrite stamp_snoc, value_snoc. repeat split. intros X. apply in_app_iff in X as [X|[X|[]]]; [exact X|discriminate].
    - replace (Begin :: repeat Look (S k)) with ((Begin :: repeat Look k) ++ [Look]) by (cbn [app]; f_equal; symmetry; apply repeat_cons).
      rewrite app_assoc, stamp_snoc, value_snoc. repeat split; [exact A|exact B|]. intros X. apply in_app_iff in X as [X|[X|[]]]; [auto|discriminate]. }
  destruct (E k) as (E1 & E2 & E3). rewrite E1 in A. rewrite E2 in V. split; [exact A|]. exists ns. auto.
Qed.
Lemma dirty_looks : forall n es k, dirty n (es ++ Begin :: repeat Look k) = dirty n es.
Proof.
  intros n es k. induction k as [|k IH].
  - cbn [repeat]. now rewrite dirty_snoc.
  - replace (Begin :: repeat Look (S k)) with ((Begin :: repeat Look k) ++ [Look]) by (cbn [app]; f_equal; symmetry; apply repeat_cons). now rewrite app_assoc, dirty_snoc.
Qed.
Lemma no_message : forall s e, (forall t, e <> End t) -> message (snd (step s e)) = [].
Proof.
  intros s e H. destruct e as [names k|n t|n o| | |t]; cbn [step].
  - destruct (g_sub s); [reflexivity|]. cbv zeta. match goal with |- context [match ?x with Some m => if _ then _ else _ | None => _ end] => destruct x end; [|reflexivity]. now destruct (kind_eqb _ _).
  - now destruct (find n (g_metrics s)).
  - destruct (find n (g_metrics s)); [|reflexivity]. now destruct (kind_eqb _ _).
  - now destruct (g_sub s).
  - now destruct (g_sub s) as [[[|? ?] ?]|].
  - now contradiction (H t).
Qed.
Lemma no_messages : forall n t0 a b, no_end b -> reported n (outs t0 (a ++ b)) = reported n (outs t0 a).
Proof.
  intros n t0 a b. induction b as [|e b IH] using rev_ind; intros NE; [now rewrite app_nil_r|]. rewrite app_assoc, outs_snoc, reported_same.
  - apply IH. intros t I. apply (NE t), in_app_iff. now left.
  - rewrite no_message; [intros []|]. intros t ->. apply (NE t), in_app_iff. right. now left.
Qed.
Lemma writes_get : forall n es names k, writes n (es ++ [Get names k]) = writes n es.
Proof. intros. rewrite writes_snoc. apply app_nil_r. Qed.
Lemma no_end_looks : forall k, no_end (repeat Look k).
Proof. intros k t I. apply repeat_spec in I. discriminate. Qed.
Lemma writes_looks : forall n es k, writes n (es ++ Begin :: repeat Look k) = writes n es.
Proof. intros n es k. unfold writes. rewrite flat_map_app. cbn. induction k as [|k IH]; cbn; [apply app_nil_r|exact IH]. Qed.

Lemma up_to_date : forall es, history es -> forall t0, ok t0 es -> clocked t0 es -> forall n, writes n es <> [] -> dirty n es = false ->
  exists d, reported n (outs t0 es) = Some d /\ d_name d = n /\ record_of es d.
Proof.
  intros es H t0. induction H as [|es names k H IH|es x t o H IH|es k t H IH]; intros OK C n W D.
  - now contradiction W.
  - rewrite writes_get in W. rewrite dirty_snoc in D. apply ok_prefix in OK. apply clocked_prefix in C. destruct (IH OK C n W D) as (d & R & N & X). exists d.
    rewrite no_messages; [|intros t [I|[]]; discriminate]. split; [exact R|]. split; [exact N|]. apply record_more; [exact X|]. intros e [<-|[]]. exact I.
  - assert (n <> x) as NX.
    { intros ->. replace (es ++ [Stamp x t; Write x o]) with ((es ++ [Stamp x t]) ++ [Write x o]) in D by (rewrite <- app_assoc; reflexivity). rewrite !dirty_snoc, text_eqb_refl in D. discriminate. }
    assert (T := NX). apply text_eqb_neq in T.
    replace (es ++ [Stamp x t; Write x o]) with ((es ++ [Stamp x t]) ++ [Write x o]) in W, D by (rewrite <- app_assoc; reflexivity).
    rewrite !dirty_snoc, T in D. rewrite !writes_snoc, T, !app_nil_r in W. cbn in D. apply ok_prefix in OK. apply clocked_prefix in C.
    destruct (IH OK C n W D) as (d & R & N & X). exists d.
    rewrite no_messages; [|intros t' [I|[I|[]]]; discriminate]. split; [exact R|]. split; [exact N|]. apply record_more; [exact X|]. intros e [<-|[<-|[]]]; congruence.
  - destruct (submission_run t0 es (repeat Look k) t OK C (no_end_looks k)) as (l & _ & O & [(dn & K1 & K2 & K3) L2 L3]).
    rewrite app_nil_r in K1. subst dn.
    assert (OKe := ok_prefix _ _ _ OK). assert (Ce := clocked_prefix _ _ _ C).
    rewrite snoc_assoc, writes_snoc, writes_looks, app_nil_r in W.
    assert (M : message (match l with [] => Nothing | _ :: _ => Process l end) = l) by now destruct l.
    rewrite O. destruct (dirty n es) eqn:Dn.
    + assert (In n (map d_name l)) as I.
      { apply K3; [|exact Dn]. apply find_keys. intros F. destruct (i_none _ _ _ (inv_run t0 es OKe) n F) as (_ & _ & X). congruence. }
      apply in_map_iff in I as (d & N & I). exists d. split; [apply reported_new; rewrite ?M; auto|]. split; [exact N|].
      destruct (L3 d I) as (m1 & m2 & E & _ & R). assert (m1 = repeat Look (length m1)) as EM.
      { clear -E. revert k E. induction m1 as [|y m1 IH]; intros [|k] E; try discriminate; [reflexivity|]. injection E as E0 E. subst y. cbn. f_equal. now apply (IH k). }
      rewrite EM in R. apply record_looks in R. apply record_more; [exact R|]. intros e [<-|X]; [exact Logic.I|]. apply in_app_iff in X as [X|[<-|[]]]; [apply repeat_spec in X; now subst|exact Logic.I].
    + assert (~ In n (map d_name l)) as NI.
      { intros I. apply in_map_iff in I as (d & N & I). destruct (L3 d I) as (m1 & m2 & E & DD & _). assert (m1 = repeat Look (length m1)) as EM.
        { clear -E. revert k E. induction m1 as [|y m1 IH]; intros [|k] E; try discriminate; [reflexivity|]. injection E as E0 E. subst y. cbn. f_equal. now apply (IH k). }
        rewrite EM, dirty_looks, N in DD. congruence. }
      destruct (IH OKe Ce n W Dn) as (d & R & N & X). exists d. rewrite reported_same; [|rewrite M; exact NI].
      rewrite no_messages; [|intros t' [J|J]; [discriminate|now apply no_end_looks in J]]. split; [exact R|]. split; [exact N|].
      apply record_more; [exact X|]. intros e [<-|Y]; [exact Logic.I|]. apply in_app_iff in Y as [Y|[<-|[]]]; [apply repeat_spec in Y; now subst|exact Logic.I].
Qed.

(** ** Values *)
Definition added (ops : list wop) : N := fold_right (fun o a => match o with CAdd d => d + a | _ => a end) 0 ops.
Lemma counter_adds : forall ops v, Forall (fun o => exists d, o = CAdd d) ops -> v < 2 ^ 64 -> fold_left (fun v o => apply o v) ops (VCount v) = VCount ((v + added ops) mod 2 ^ 64).
Proof.
  induction ops as [|o ops IH]; intros v F L; cbn [fold_left added fold_right].
  - rewrite N.add_0_r, N.mod_small; auto.
  - inversion F as [|? ? [d ->] F']; subst. cbn [apply]. rewrite IH; [|exact F'|apply N.mod_lt; discriminate]. change (fold_right _ 0 ops) with (added ops). f_equal.
    rewrite N.add_mod_idemp_l by discriminate. f_equal. lia.
Qed.
Lemma fold_kind : forall ops v, kind_of (fold_left (fun v o => apply o v) ops v) = kind_of v.
Proof. induction ops as [|o ops IH]; intros v; [reflexivity|]. cbn. now rewrite IH, kind_apply. Qed.
Lemma list_adds : forall ts l, fold_left (fun v o => apply o v) (map LAdd ts) (VList l) = VList (l ++ ts).
Proof. induction ts as [|t ts IH]; intros l; cbn; [now rewrite app_nil_r|]. rewrite IH, <- app_assoc. reflexivity. Qed.

(** ** Deciding the hypotheses, for the examples *)
Fixpoint clock_from (t0 : N) (acc l : list ev) : bool :=
  match l with
  | [] => true
  | e :: r => match e with Stamp _ t => (latest t0 acc <=? t) && (last_end t0 acc <? t) | End t => latest t0 acc <=? t | _ => true end && clock_from t0 (acc ++ [e]) r
  end.
Lemma clock_from_ok : forall t0 l acc, clock_from t0 acc l = true -> forall a e b, l = a ++ e :: b ->
  match e with Stamp _ t => latest t0 (acc ++ a) <= t /\ last_end t0 (acc ++ a) < t | End t => latest t0 (acc ++ a) <= t | _ => True end.
Proof.
  intros t0. induction l as [|x l IH]; intros acc H a e b E; [now destruct a|]. apply andb_true_iff in H as [H1 H2]. destruct a as [|y a].
  - injection E as <- <-. rewrite app_nil_r. destruct x; try exact I; lia.
  - injection E as <- E. specialize (IH _ H2 a e b E). rewrite <- app_assoc in IH. exact IH.
Qed.
Lemma clocked_dec : forall t0 es, clock_from t0 [] es = true -> clocked t0 es.
Proof. intros t0 es H a e b E. exact (clock_from_ok t0 es [] H a e b E). Qed.
Lemma ok_dec : forall t0 es, forallb (fun o => match o with Blocked => false | _ => true end) (outs t0 es) = true -> ok t0 es.
Proof. intros t0 es H I. rewrite forallb_forall in H. now specialize (H _ I). Qed.
