(** Properties of metrics: submissions (C72), delivery to the sinks (C73), the text (C74). *)
From Coq Require Import String Ascii List NArith QArith Qminmax Bool Lia Lqa Arith.
From Verif Require Import Base TextModel TextSpec MetricsModel MetricsProofs MetricsProcProofs MetricsText.
Import ListNotations.
Open Scope string_scope.
Open Scope list_scope.
Open Scope N_scope.

(** ** C72: every update of a metric is submitted *)

(** The message of a submission, with any updates of other threads in between: every metric which was updated since the end of the submission before has
    exactly one record; every record is about a metric updated since then, and carries the time and the value it had when the loop looked at it. *)
Theorem C72_submission_reports_every_update : forall t0 es mid t,
  ok t0 (es ++ Begin :: mid ++ [End t]) -> clocked t0 (es ++ Begin :: mid ++ [End t]) -> no_end mid ->
  exists l os, outs t0 (es ++ Begin :: mid ++ [End t]) = os ++ [match l with [] => Nothing | _ => Process l end]
    /\ NoDup (map d_name l)
    /\ (forall n, dirty n es = true -> In n (map d_name l))
    /\ (forall d, In d l -> exists m1 m2, mid = m1 ++ Look :: m2 /\ dirty (d_name d) (es ++ Begin :: m1) = true /\ record_of (es ++ Begin :: m1) d).
Proof.
  intros t0 es mid t OK C NE. destruct (submission_run t0 es mid t OK C NE) as (l & _ & O & [(dn & K1 & K2 & K3) L2 L3]).
  exists l, (outs t0 (es ++ Begin :: mid)). split; [exact O|]. split; [exact L2|]. split; [|exact L3]. intros n D. apply K3; [|exact D].
  rewrite app_nil_r in K1. rewrite <- K1. apply find_keys. intros F. destruct (i_none _ _ _ (inv_run t0 es (ok_prefix _ _ _ OK)) n F) as (_ & _ & X). congruence.
Qed.
Print Assumptions C72_submission_reports_every_update.

(** If updates and submissions do not overlap, then after a submission the last record of each metric that was ever updated carries its present value and the time of its last update. *)
Theorem C72_sinks_know_the_present_values : forall t0 es k t, history es ->
  ok t0 (es ++ Begin :: repeat Look k ++ [End t]) -> clocked t0 (es ++ Begin :: repeat Look k ++ [End t]) ->
  forall n, writes n es <> [] -> exists d, reported n (outs t0 (es ++ Begin :: repeat Look k ++ [End t])) = Some d /\ d_name d = n /\ record_of es d.
Proof.
  intros t0 es k t H OK C n W. set (es' := es ++ Begin :: repeat Look k ++ [End t]) in *.
  assert (W' : writes n es' <> []) by (unfold es'; rewrite snoc_assoc, writes_snoc, writes_looks, app_nil_r; exact W).
  assert (D' : dirty n es' = false) by (unfold es'; rewrite snoc_assoc, dirty_snoc; reflexivity).
  destruct (up_to_date es' (h_submit es k t H) t0 OK C n W' D') as (d & R & N & X). exists d. split; [exact R|]. split; [exact N|].
  unfold es' in X. rewrite snoc_assoc in X. destruct X as [A (ns & I & J & V)]. rewrite stamp_snoc in A. rewrite value_snoc in V. apply in_app_iff in I as [I|[I|[]]]; [|discriminate].
  apply (record_looks es k). split; [exact A|]. exists ns. auto.
Qed.
Print Assumptions C72_sinks_know_the_present_values.

(** the counter "a" and the string list "b/c" *)
Definition na : text := lit "a".
Definition nbc : text := lit "b/c".
Definition es1 : list ev :=
  [Get [na] Counter; Get [lit "b"; lit "c"] StringList; Stamp na 11; Write na (CAdd 2); Begin; Look; Look; End 12; Stamp nbc 13; Write nbc (LAdd (lit "x")); Stamp na 14; Write na (CAdd 5)].
Example C72_submission_example :
  ok 10 (es1 ++ Begin :: [Look; Stamp na 15; Write na (CAdd 1); Look] ++ [End 16]) /\ clocked 10 (es1 ++ Begin :: [Look; Stamp na 15; Write na (CAdd 1); Look] ++ [End 16])
  /\ dirty na es1 = true /\ dirty nbc es1 = true
  /\ last (outs 10 (es1 ++ Begin :: [Look; Stamp na 15; Write na (CAdd 1); Look] ++ [End 16])) Nothing = Process [mkData 14 na Counter (VCount 7); mkData 13 nbc StringList (VList [lit "x"])].
Proof. split; [apply ok_dec; vm_compute; reflexivity|]. split; [apply clocked_dec; vm_compute; reflexivity|]. repeat split; vm_compute; reflexivity. Qed.
Example C72_present_values_example :
  history es1 /\ ok 10 (es1 ++ Begin :: repeat Look 2 ++ [End 16]) /\ clocked 10 (es1 ++ Begin :: repeat Look 2 ++ [End 16])
  /\ reported na (outs 10 (es1 ++ Begin :: repeat Look 2 ++ [End 16])) = Some (mkData 14 na Counter (VCount 7)).
Proof.
  split; [|split; [apply ok_dec; vm_compute; reflexivity|split; [apply clocked_dec; vm_compute; reflexivity|vm_compute; reflexivity]]].
  apply (h_update (firstn 10 es1) na 14 (CAdd 5)). apply (h_update (firstn 8 es1) nbc 13 (LAdd (lit "x"))). apply (h_submit (firstn 4 es1) 2 12).
  apply (h_update (firstn 2 es1) na 11 (CAdd 2)). apply (h_get [Get [na] Counter] [lit "b"; lit "c"] StringList). apply (h_get [] [na] Counter). constructor.
Qed.

(** An update by another thread between the look at the metric and the end of the submission is lost, with a strictly increasing clock: the value stays unreported, whatever
    number of submissions follow. *)
Theorem C72_concurrent_update_is_submitted_refuted : exists t0 es n, clocked t0 es /\ ok t0 es /\
  forall k, exists d, ok t0 (es ++ flat_map (fun i => [Begin; Look; End (16 + N.of_nat i)]) (seq 0 k)) /\ clocked t0 (es ++ flat_map (fun i => [Begin; Look; End (16 + N.of_nat i)]) (seq 0 k)) /\
    reported n (outs t0 (es ++ flat_map (fun i => [Begin; Look; End (16 + N.of_nat i)]) (seq 0 k))) = Some d /\ d_value d = VCount 1 /\
    value_of Counter n es = VCount 2.
Proof.
  set (es := [Get [na] Counter; Stamp na 11; Write na (CAdd 1); Begin; Look; Stamp na 12; Write na (CAdd 1); End 13]).
  exists 10, es, na. split; [apply clocked_dec; vm_compute; reflexivity|]. split; [apply ok_dec; vm_compute; reflexivity|].
  intros k. exists (mkData 11 na Counter (VCount 1)).
  set (more := fun k => flat_map (fun i => [Begin; Look; End (16 + N.of_nat i)]) (seq 0 k)).
  change (flat_map (fun i => [Begin; Look; End (16 + N.of_nat i)]) (seq 0 k)) with (more k).
  assert (M : forall k, more (S k) = more k ++ [Begin; Look; End (16 + N.of_nat k)]) by (intros j; unfold more; rewrite seq_S, flat_map_app; cbn [flat_map app Nat.add]; reflexivity).
  assert (H : forall k, after 10 (es ++ more k) = mkMgr [(na, mkMetric 12 (VCount 2))] (match k with O => 13 | S j => 16 + N.of_nat j end) None /\ ok 10 (es ++ more k) /\ latest 10 (es ++ more k) = (match k with O => 13 | S j => 16 + N.of_nat j end)
     /\ clocked 10 (es ++ more k) /\ reported na (outs 10 (es ++ more k)) = Some (mkData 11 na Counter (VCount 1))).
  { clear k. intros k. induction k as [|k (A & O & L & C & R)].
    - repeat split; try (vm_compute; reflexivity); [apply ok_dec; vm_compute; reflexivity|apply clocked_dec; vm_compute; reflexivity].
    - rewrite M, app_assoc. change (?x ++ [Begin; Look; End ?t]) with (x ++ ([Begin] ++ [Look]) ++ [End t]). rewrite !app_assoc.
      set (e0 := es ++ more k) in *. set (t1 := match k with O => 13 | S j => 16 + N.of_nat j end) in *.
      assert (L1 : 13 <= t1 <= 16 + N.of_nat k) by (unfold t1; destruct k; lia).
      assert (A1 : after 10 (e0 ++ [Begin]) = mkMgr [(na, mkMetric 12 (VCount 2))] t1 (Some ([na], []))) by (rewrite after_snoc, A; reflexivity).
      assert (A2 : after 10 ((e0 ++ [Begin]) ++ [Look]) = mkMgr [(na, mkMetric 12 (VCount 2))] t1 (Some ([], []))).
      { rewrite after_snoc, A1. cbn [step g_sub g_metrics g_last find text_eqb]. change (text_eqb na na) with true. cbn [fst look m_time]. unfold look. cbn [m_time]. replace (12 <=? t1) with true by lia. reflexivity. }
      assert (O1 : ok 10 (e0 ++ [Begin])) by (apply ok_snoc; split; [exact O|]; rewrite A; discriminate).
      assert (O2 : ok 10 ((e0 ++ [Begin]) ++ [Look])) by (apply ok_snoc; split; [exact O1|]; rewrite A1; discriminate).
      assert (S2 : snd (step (after 10 ((e0 ++ [Begin]) ++ [Look])) (End (16 + N.of_nat k))) = Nothing) by (rewrite A2; reflexivity).
      assert (C1 : forall e x, clocked 10 x -> match e with Begin | Look => True | _ => False end -> clocked 10 (x ++ [e])).
      { intros e x Cx He a y b E. destruct b as [|z b] using rev_ind; [apply app_inj_tail in E as [_ <-]; destruct e; try contradiction; exact I|]. clear IHb.
        rewrite app_comm_cons, app_assoc in E. apply app_inj_tail in E as [E _]. exact (Cx a y b E). }
      repeat split.
      + rewrite after_snoc, A2. reflexivity.
      + apply ok_snoc. split; [exact O2|]. rewrite S2. discriminate.
      + rewrite latest_snoc. reflexivity.
      + assert (C2 : clocked 10 ((e0 ++ [Begin]) ++ [Look])) by (apply C1; [apply C1; [exact C|exact I]|exact I]).
        intros a y b E. destruct b as [|z b] using rev_ind; [|clear IHb; rewrite app_comm_cons, app_assoc in E; apply app_inj_tail in E as [E _]; exact (C2 a y b E)].
        apply app_inj_tail in E as [<- <-]. rewrite !latest_snoc, L. lia.
      + rewrite outs_snoc, reported_same; [|rewrite S2; intros []]. rewrite outs_snoc, reported_same; [|rewrite A1; intros []]. rewrite outs_snoc, reported_same; [|rewrite A; intros []]. exact R. }
  destruct (H k) as (_ & O & _ & C & R). repeat split; auto.
Qed.
Print Assumptions C72_concurrent_update_is_submitted_refuted.
(** The time is stored before the value: a submission between the two reports the old value, and the new one stays unreported. *)
Theorem C72_value_follows_its_time_refuted : exists t0 es n d, ok t0 es /\ clocked t0 es /\ dirty n es = false /\ reported n (outs t0 es) = Some d /\ d_time d = stamp_of n es /\ d_value d <> value_of (d_kind d) n es.
Proof.
  exists 10, [Get [na] Counter; Stamp na 11; Begin; Look; End 12; Write na (CAdd 1); Begin; Look; End 13], na, (mkData 11 na Counter (VCount 0)).
  split; [apply ok_dec; vm_compute; reflexivity|]. split; [apply clocked_dec; vm_compute; reflexivity|]. split; [vm_compute; reflexivity|]. split; [vm_compute; reflexivity|]. split; [vm_compute; reflexivity|]. vm_compute. discriminate.
Qed.
Print Assumptions C72_value_follows_its_time_refuted.
(** An update which reads the same time as the submission before is lost even without any overlap. *)
Theorem C72_equal_times_refuted : exists t0 es n, history es /\ ok t0 es /\ (forall a e b, es = a ++ e :: b -> match e with Stamp _ t | End t => latest t0 a <= t | _ => True end)
  /\ (exists o, writes n es = [o]) /\ reported n (outs t0 es) = None /\ (exists e b, es = b ++ [e] /\ e = End 13).
Proof.
  exists 10, [Get [na] Counter; Begin; Look; End 12; Stamp na 12; Write na (CAdd 1); Begin; Look; End 13], na.
  split. { apply (h_submit [Get [na] Counter; Begin; Look; End 12; Stamp na 12; Write na (CAdd 1)] 1 13). apply (h_update [Get [na] Counter; Begin; Look; End 12] na 12 (CAdd 1)). apply (h_submit [Get [na] Counter] 1 12). apply (h_get [] [na] Counter). constructor. }
  split; [apply ok_dec; vm_compute; reflexivity|]. split.
  { intros a e b E. do 9 (destruct a as [|? a]; [injection E as <- <-; cbn; try exact I; lia|injection E as <- E]). destruct a; discriminate. }
  split; [exists (CAdd 1); vm_compute; reflexivity|]. split; [vm_compute; reflexivity|]. exists (End 13), [Get [na] Counter; Begin; Look; End 12; Stamp na 12; Write na (CAdd 1); Begin; Look]. auto.
Qed.
Print Assumptions C72_equal_times_refuted.

(** What the operations on a metric amount to. *)
Theorem C72_counter_value : forall pre v adds, v < 2 ^ 64 -> Forall (fun o => op_kind o = Counter) pre -> Forall (fun o => exists d, o = CAdd d) adds ->
  fold_left (fun v o => apply o v) (pre ++ CSet v :: adds) (fresh Counter) = VCount ((v + added adds) mod 2 ^ 64)
  /\ fold_left (fun v o => apply o v) adds (fresh Counter) = VCount (added adds mod 2 ^ 64).
Proof.
  intros pre v adds L P A. split; [|exact (counter_adds adds 0 A ltac:(reflexivity))]. rewrite fold_left_app. cbn [fold_left].
  pose proof (fold_kind pre (fresh Counter)) as K. destruct (fold_left (fun v o => apply o v) pre (fresh Counter)); try discriminate. cbn [apply]. now apply counter_adds.
Qed.
Print Assumptions C72_counter_value.
Theorem C72_list_and_attribute_values : forall pre ts t,
  (Forall (fun o => op_kind o = StringList) pre -> fold_left (fun v o => apply o v) (pre ++ LClear :: map LAdd ts) (fresh StringList) = VList ts)
  /\ fold_left (fun v o => apply o v) (map LAdd ts) (fresh StringList) = VList ts
  /\ (Forall (fun o => op_kind o = Attribute) pre -> fold_left (fun v o => apply o v) (pre ++ [AAdd t]) (fresh Attribute) = VAttr t /\ fold_left (fun v o => apply o v) (pre ++ [AClear]) (fresh Attribute) = VAttr []).
Proof.
  intros pre ts t. split; [|split].
  - intros _. rewrite fold_left_app. cbn [fold_left]. pose proof (fold_kind pre (fresh StringList)) as K. destruct (fold_left (fun v o => apply o v) pre (fresh StringList)); try discriminate. cbn [apply]. apply (list_adds ts []).
  - apply (list_adds ts []).
  - intros _. rewrite !fold_left_app. cbn [fold_left]. pose proof (fold_kind pre (fresh Attribute)) as K. destruct (fold_left (fun v o => apply o v) pre (fresh Attribute)); try discriminate. split; reflexivity.
Qed.
Print Assumptions C72_list_and_attribute_values.
Example C72_values_example : value_of Counter na [Write na (CAdd 3); Write na (CSet (2 ^ 64 - 1)); Write nbc (LAdd na); Write na (CAdd 6)] = VCount 5.
Proof. vm_compute. reflexivity. Qed.

(** A statistic: minimum and maximum are those of the values taken; the variance is never negative; the mean lies between any bounds of the values and zero. *)
Definition taken (vs : list Q) : stat := fold_left (fun s v => take v s) vs stat0.
Lemma taken_snoc : forall vs v, taken (vs ++ [v]) = take v (taken vs).
Proof. intros. unfold taken. now rewrite fold_left_app. Qed.
Theorem C72_statistic_extrema : forall vs, vs <> [] -> exists m M, s_min (taken vs) = Some m /\ s_max (taken vs) = Some M
  /\ (forall v, In v vs -> (m <= v <= M)%Q) /\ (exists v, In v vs /\ (v == m)%Q) /\ (exists v, In v vs /\ (v == M)%Q).
Proof.
  intros vs. induction vs as [|v vs IH] using rev_ind; [congruence|]. intros _. rewrite taken_snoc. cbn [take s_min s_max]. destruct vs as [|w vs].
  - exists v, v. cbn. split; [reflexivity|]. split; [reflexivity|]. split; [intros x [<-|[]]; split; apply Qle_refl|]. split; exists v; split; (now left) || reflexivity.
  - destruct IH as (m & M & -> & -> & B & (x & X1 & X2) & (y & Y1 & Y2)); [discriminate|]. exists (Qmin m v), (Qmax M v). split; [reflexivity|]. split; [reflexivity|]. split; [|split].
    + intros z I. apply in_app_iff in I as [I|[<-|[]]].
      * destruct (B z I) as [B1 B2]. split; [apply Qle_trans with m; [apply Q.le_min_l|exact B1]|apply Qle_trans with M; [exact B2|apply Q.le_max_l]].
      * split; [apply Q.le_min_r|apply Q.le_max_r].
    + destruct (Q.min_spec m v) as [[_ E]|[_ E]].
      * exists x. split; [apply in_app_iff; now left|]. now rewrite E.
      * exists v. split; [apply in_app_iff; right; now left|]. now rewrite E.
    + destruct (Q.max_spec M v) as [[_ E]|[_ E]].
      * exists v. split; [apply in_app_iff; right; now left|]. now rewrite E.
      * exists y. split; [apply in_app_iff; now left|]. now rewrite E.
Qed.
Print Assumptions C72_statistic_extrema.
Theorem C72_statistic_mean_and_variance : forall vs a b, (a <= 0 <= b)%Q -> (forall v, In v vs -> (a <= v <= b)%Q) ->
  (a <= s_mean (taken vs) <= b)%Q /\ (0 <= s_variance (taken vs))%Q.
Proof.
  intros vs a b Z. induction vs as [|v vs IH] using rev_ind; intros B.
  - cbn. split; [exact Z|apply Qle_refl].
  - destruct IH as [M V]; [intros w I; apply B, in_app_iff; now left|]. assert (Bv : (a <= v <= b)%Q) by (apply B, in_app_iff; right; now left). rewrite taken_snoc. cbn [take s_mean s_variance]. set (m := s_mean (taken vs)) in *. set (x := s_variance (taken vs)) in *. clearbody m x.
    split; [lra|]. assert (S : (0 <= (v - m) * (v - m))%Q) by (destruct (Qlt_le_dec (v - m) 0); nra). nra.
Qed.
Print Assumptions C72_statistic_mean_and_variance.
(** The mean starts at zero: after the first value it is half of the value, below the minimum. *)
Theorem C72_statistic_mean_between_extrema_refuted : exists vs m, vs <> [] /\ s_min (taken vs) = Some m /\ (s_mean (taken vs) < m)%Q.
Proof. exists [10 # 1]%Q, (10 # 1)%Q. split; [discriminate|]. split; vm_compute; reflexivity. Qed.
Print Assumptions C72_statistic_mean_between_extrema_refuted.
Example C72_statistic_example : s_min (taken [10 # 1; 4 # 1]%Q) = Some (4 # 1)%Q /\ s_max (taken [10 # 1; 4 # 1]%Q) = Some (10 # 1)%Q /\ (s_mean (taken [10 # 1; 4 # 1]%Q) == 9 # 2)%Q.
Proof. repeat split; vm_compute; reflexivity. Qed.

(** Asking for a metric: the name determines the metric; the first request determines its kind, and later requests are refused exactly if they ask for another kind. *)
Theorem C72_requests : forall t0 es names k, ok t0 es -> g_sub (after t0 es) = None ->
  (forall names' k', (In (Get names' k') es /\ join_name names' = join_name names) -> exists m, find (join_name names) (g_metrics (after t0 es)) = Some m)
  /\ snd (step (after t0 es) (Get names k)) = (match find (join_name names) (g_metrics (after t0 es)) with
       | Some m => if kind_eqb (kind_of (m_value m)) k then Handle (join_name names) else KindError | None => Handle (join_name names) end)
  /\ (forall n m, find n (g_metrics (after t0 es)) = Some m -> find n (g_metrics (fst (step (after t0 es) (Get names k)))) = Some m)
  /\ (exists m, find (join_name names) (g_metrics (fst (step (after t0 es) (Get names k)))) = Some m).
Proof.
  intros t0 es names k OK NS. split; [|split; [|split]].
  - intros names' k' [I <-]. clear NS. induction es as [|e es IH] using rev_ind; [destruct I|]. apply ok_snoc in OK as [OK NB]. rewrite after_snoc.
    assert (KEEP : (exists m, find (join_name names') (g_metrics (after t0 es)) = Some m) -> exists m, find (join_name names') (g_metrics (fst (step (after t0 es) e))) = Some m).
    { intros [m F]. destruct e as [ns kk|x t|x o| | |t]; cbn [step] in *.
      - destruct (g_sub (after t0 es)); [now contradiction NB|]. cbv zeta. destruct (find (join_name ns) (g_metrics (after t0 es))) as [m1|] eqn:F1.
        + rewrite F1. destruct (kind_eqb _ _); cbn; eauto.
        + rewrite find_app, F1, text_eqb_refl. destruct (kind_eqb _ _); cbn [fst g_metrics]; rewrite find_app, F; eauto.
      - destruct (find x _) eqn:Fx; [|now contradiction NB]. cbn [fst g_metrics]. rewrite find_change. destruct (text_eqb _ _); [rewrite Fx; cbn; eauto|eauto].
      - destruct (find x _) eqn:Fx; [|now contradiction NB]. destruct (kind_eqb _ _); [|now contradiction NB]. cbn [fst g_metrics]. rewrite find_change. destruct (text_eqb _ _); [rewrite Fx; cbn; eauto|eauto].
      - destruct (g_sub _); cbn; eauto.
      - destruct (g_sub _) as [[[|? ?] ?]|]; cbn; eauto.
      - destruct (g_sub _) as [[[|? ?] ?]|]; cbn; eauto. }
    apply in_app_iff in I as [I|[->|[]]]; [apply KEEP; now apply IH|]. cbn [step] in *. destruct (g_sub (after t0 es)); [now contradiction NB|]. cbv zeta in *. destruct (find (join_name names') (g_metrics (after t0 es))) as [m1|] eqn:F1.
    + rewrite F1 in *. destruct (kind_eqb _ _); cbn; eauto.
    + rewrite find_app, F1, text_eqb_refl in *. destruct (kind_eqb _ _); cbn [fst g_metrics]; rewrite find_app, F1, text_eqb_refl; eauto.
  - cbn [step]. rewrite NS. cbv zeta. destruct (find (join_name names) (g_metrics (after t0 es))) as [m1|] eqn:F1.
    + rewrite F1. destruct (kind_eqb _ _); reflexivity.
    + rewrite find_app, F1, text_eqb_refl. cbn [m_value]. rewrite kind_fresh, (proj2 (kind_eqb_eq k k) eq_refl). reflexivity.
  - intros n m F. cbn [step]. rewrite NS. cbv zeta. destruct (find (join_name names) (g_metrics (after t0 es))) as [m1|] eqn:F1.
    + rewrite F1. destruct (kind_eqb _ _); exact F.
    + rewrite find_app, F1, text_eqb_refl. destruct (kind_eqb _ _); cbn [fst g_metrics]; now rewrite find_app, F.
  - cbn [step]. rewrite NS. cbv zeta. destruct (find (join_name names) (g_metrics (after t0 es))) as [m1|] eqn:F1.
    + rewrite F1. destruct (kind_eqb _ _); cbn; eauto.
    + rewrite find_app, F1, text_eqb_refl. destruct (kind_eqb _ _); cbn [fst g_metrics]; rewrite find_app, F1, text_eqb_refl; eauto.
Qed.
Print Assumptions C72_requests.
(** Different lists of names can denote the same metric. *)
Theorem C72_names_are_distinguished_refuted : exists a b, a <> b /\ join_name a = join_name b /\ a <> [] /\ Forall (fun x => x <> []) (a ++ b).
Proof. exists [lit "a/b"], [lit "a"; lit "b"]. split; [discriminate|]. split; [reflexivity|]. split; [discriminate|]. repeat constructor; discriminate. Qed.
Print Assumptions C72_names_are_distinguished_refuted.
Theorem C72_names_without_separator : forall a b, a <> [] -> b <> [] -> Forall (fun x => ~ In 47 x) (a ++ b) -> join_name a = join_name b -> a = b.
Proof.
  intros a b NA NB F. apply Forall_app in F as [FA FB].
  assert (G : forall r r' x x', ~ In 47 x -> ~ In 47 x' -> Forall (fun x => ~ In 47 x) r -> Forall (fun x => ~ In 47 x) r' -> x ++ flat_map (fun y => 47 :: y) r = x' ++ flat_map (fun y => 47 :: y) r' -> x = x' /\ r = r').
  { assert (P : forall x x' s s', ~ In 47 x -> ~ In 47 x' -> (match s with [] => True | c :: _ => c = 47 end) -> (match s' with [] => True | c :: _ => c = 47 end) -> x ++ s = x' ++ s' -> x = x' /\ s = s').
    { induction x as [|c x IH]; intros [|c' x'] s s' N N' S S' E; cbn in *.
      - auto.
      - destruct s as [|d s]; [discriminate|]. injection E as -> E. exfalso. apply N'. now left.
      - destruct s' as [|d s']; [discriminate|]. injection E as -> E. exfalso. apply N. now left.
      - injection E as -> E. destruct (IH x' s s') as [-> ->]; auto. }
    induction r as [|y r IH]; intros r' x x' N N' R R' E.
    - destruct (P x x' (flat_map (fun y => 47 :: y) []) (flat_map (fun y => 47 :: y) r') N N' I) as [-> E2]; [now destruct r'|exact E|]. destruct r'; [auto|discriminate].
    - destruct (P x x' (flat_map (fun y => 47 :: y) (y :: r)) (flat_map (fun y => 47 :: y) r') N N') as [-> E2]; [reflexivity|now destruct r'|exact E|]. destruct r' as [|y' r']; [discriminate|]. cbn in E2. injection E2 as E2.
      inversion R; inversion R'; subst. destruct (IH r' y y') as [-> ->]; auto. }
  destruct a as [|x r]; [congruence|]. destruct b as [|x' r']; [congruence|]. inversion FA; inversion FB; subst. intros E. destruct (G r r' x x') as [-> ->]; auto.
Qed.
Print Assumptions C72_names_without_separator.
Example C72_requests_example : snd (step (after 10 es1) (Get [lit "b/c"] Counter)) = KindError /\ snd (step (after 10 es1) (Get [lit "b/c"] StringList)) = Handle nbc /\ snd (step (after 10 es1) (Get [lit "d"] Counter)) = Handle (lit "d").
Proof. repeat split; vm_compute; reflexivity. Qed.

(** ** C73: every sink is told everything *)
Open Scope nat_scope.

(** Any number of threads which pass updates, before, during and after the sinks are set up, in any interleaving: once all calls have returned and the sinks are set up, every sink was told everything
    that any thread passed, exactly once, and for each thread and origin in the order in which the thread passed it. *)
Theorem C73_every_sink_is_told_everything : forall ps sched, tagged_all ps -> finished (prun (proc0 ps) sched) -> f_set (prun (proc0 ps) sched) = true ->
  forall j l, nth_error (f_logs (prun (proc0 ps) sched)) j = Some l -> forall t p o, nth_error ps t = Some p -> sel t o l = sel t o (updates p).
Proof.
  intros ps sched T F S j l J t p o P. pose proof (prun_inv ps sched _ (pinv_start ps T)) as V. set (s := prun (proc0 ps) sched) in *.
  assert (TL : t < length (f_threads s)) by (rewrite (v_len _ _ V); apply nth_error_Some; congruence).
  destruct (nth_error (f_threads s) t) as [th|] eqn:H; [|apply nth_error_None in H; lia]. rewrite <- (v_after _ _ V S j l J t th p H P o).
  rewrite (F th (nth_error_In _ _ H)). cbn. now rewrite app_nil_r.
Qed.
Print Assumptions C73_every_sink_is_told_everything.
(** Without sinks everything waits in the cache. *)
Theorem C73_nothing_is_lost_before : forall ps sched, tagged_all ps -> finished (prun (proc0 ps) sched) -> f_set (prun (proc0 ps) sched) = false ->
  forall t p o, nth_error ps t = Some p -> sel t o (f_cache (prun (proc0 ps) sched)) = sel t o (updates p).
Proof.
  intros ps sched T F S t p o P. pose proof (prun_inv ps sched _ (pinv_start ps T)) as V. set (s := prun (proc0 ps) sched) in *.
  assert (TL : t < length (f_threads s)) by (rewrite (v_len _ _ V); apply nth_error_Some; congruence).
  destruct (nth_error (f_threads s) t) as [th|] eqn:H; [|apply nth_error_None in H; lia]. rewrite <- (v_before _ _ V S t th p H P o).
  rewrite (F th (nth_error_In _ _ H)). cbn. now rewrite app_nil_r.
Qed.
Print Assumptions C73_nothing_is_lost_before.
(** At any moment: what a sink was told so far is a prefix of what the thread passes. *)
Theorem C73_told_in_order_at_any_time : forall ps sched, tagged_all ps -> f_set (prun (proc0 ps) sched) = true ->
  forall j l, nth_error (f_logs (prun (proc0 ps) sched)) j = Some l -> forall t p o, nth_error ps t = Some p -> exists rest, sel t o (updates p) = sel t o l ++ rest.
Proof.
  intros ps sched T S j l J t p o P. pose proof (prun_inv ps sched _ (pinv_start ps T)) as V. set (s := prun (proc0 ps) sched) in *.
  assert (TL : t < length (f_threads s)) by (rewrite (v_len _ _ V); apply nth_error_Some; congruence).
  destruct (nth_error (f_threads s) t) as [th|] eqn:H; [|apply nth_error_None in H; lia]. rewrite <- (v_after _ _ V S j l J t th p H P o). eauto.
Qed.
Print Assumptions C73_told_in_order_at_any_time.
(** No deadlock: while a call has not returned, some thread can go on. *)
Theorem C73_no_deadlock : forall ps sched, tagged_all ps -> ~ finished (prun (proc0 ps) sched) -> exists i s', pstep i (prun (proc0 ps) sched) = Some s'.
Proof. intros ps sched T F. exact (progress ps _ (prun_inv ps sched _ (pinv_start ps T)) F). Qed.
Print Assumptions C73_no_deadlock.
(** Only one call of SetSinks has an effect: once the sinks are set up their number stays, and it is the number given by one of the calls. *)
Theorem C73_sinks_are_set_once : forall ps sched more, tagged_all ps -> f_set (prun (proc0 ps) sched) = true ->
  f_set (prun (proc0 ps) (sched ++ more)) = true /\ length (f_logs (prun (proc0 ps) (sched ++ more))) = length (f_logs (prun (proc0 ps) sched)) /\
  exists p, In p ps /\ In (CSetSinks (length (f_logs (prun (proc0 ps) sched)))) p.
Proof.
  intros ps sched more T S. pose proof (prun_inv ps sched _ (pinv_start ps T)) as V.
  assert (A : forall a b s, prun s (a ++ b) = prun (prun s a) b) by (induction a as [|i a IH]; intros b s; [reflexivity|]; cbn; apply IH).
  rewrite A. set (s := prun (proc0 ps) sched) in *.
  assert (G : forall more s, pinv ps s -> f_set s = true -> f_set (prun s more) = true /\ length (f_logs (prun s more)) = length (f_logs s)).
  { clear. intros more. induction more as [|i more IH]; intros s V S; [auto|]. cbn [prun]. destruct (pstep i s) as [s'|] eqn:E; [|now apply IH].
    assert (V' := pstep_inv ps i s s' V E). assert (X : f_set s' = true /\ length (f_logs s') = length (f_logs s)).
    { unfold pstep in E. destruct (nth_error (f_threads s) i) as [th|] eqn:H; [|discriminate]. destruct (v_phase _ _ V i th H) as (P1 & _). specialize (P1 S).
      destruct (t_pc th) as [|o u|o u|o u j|k|k|j rest|]; try contradiction.
      - destruct (t_calls th) as [|[o u|k] r]; [discriminate| |]; injection E as <-; auto.
      - destruct (f_lock s); [discriminate|]. injection E as <-. auto.
      - rewrite S in E. injection E as <-. auto.
      - destruct (j <? length (f_logs s)); injection E as <-; cbn; rewrite ?log_add_length; auto.
      - destruct (f_lock s); [discriminate|]. injection E as <-. auto.
      - rewrite S in E. injection E as <-. auto. }
    destruct X as [X1 X2]. destruct (IH s' V' X1) as [Y1 Y2]. rewrite Y2. auto. }
  destruct (G more s V S) as [G1 G2]. split; [exact G1|]. split; [exact G2|]. destruct (v_done _ _ V S) as [D _]. unfold sizes in D. apply in_flat_map in D as (c & I & J). apply in_concat in I as (p & I1 & I2). exists p. split; [exact I1|].
  destruct c as [|k]; [destruct J|]. destruct J as [<-|[]]. exact I2.
Qed.
Print Assumptions C73_sinks_are_set_once.

(** Two threads pass updates of two origins while a third sets up two sinks. *)
Definition oa : text := lit "A".
Definition ob : text := lit "B".
Definition progs : list (list call) :=
  [[CProcess oa [(0, 1%N)]; CProcess oa [(0, 2%N)]; CProcess oa [(0, 3%N)]]; [CProcess ob [(1, 7%N)]; CProcess oa [(1, 8%N)]]; [CSetSinks 2; CSetSinks 5]].
Definition sched1 : list nat := [0; 0; 0; 1; 1; 1; 0; 2; 2; 2; 1; 0; 2; 2; 2; 2; 2; 2; 2; 2; 2; 2] ++ repeat 2 20 ++ repeat 0 20 ++ repeat 1 20.
Example C73_example : tagged_all progs /\ finished (prun (proc0 progs) sched1) /\ f_set (prun (proc0 progs) sched1) = true
  /\ f_logs (prun (proc0 progs) sched1) = repeat [(oa, [(0, 1%N)]); (ob, [(1, 7%N)]); (oa, [(0, 2%N)]); (oa, [(0, 3%N)]); (oa, [(1, 8%N)])] 2.
Proof.
  split.
  { intros i p H. do 3 (destruct i as [|i]; [injection H as <-; intros o u x; cbn; intros I J; repeat (destruct I as [I|I]; [injection I as <- <-; destruct J as [<-|[]]; reflexivity|]); destruct I|cbn in H]). destruct i; discriminate. }
  split; [|split; vm_compute; reflexivity]. intros th I. vm_compute in I. repeat (destruct I as [<-|I]; [reflexivity|]). destruct I.
Qed.
(** What was received from another participant is passed to the sinks under its name, but not sent again; what was received from itself is ignored; and the own metrics are sent. *)
Theorem C73_metrics_travel_once : forall self sender u,
  (sender <> self -> on_update self sender u = [CProcess sender u] /\ remote_sink self sender u = None)
  /\ on_update self self u = [] /\ remote_sink self self u = Some u.
Proof.
  intros self sender u. unfold on_update, remote_sink. rewrite text_eqb_refl. split; [|auto]. intros N. apply text_eqb_neq in N. rewrite N. auto.
Qed.
Print Assumptions C73_metrics_travel_once.
Open Scope N_scope.

(** ** C74: the text of metrics *)

(** The value of a string list is a JSON list of the strings; other JSON readers accept it exactly if no string contains a control character. *)
Theorem C74_string_list_is_read_back : forall l rest, read_list false (format_list l ++ rest) = Some (l, rest).
Proof. intros. apply read_list_format. discriminate. Qed.
Print Assumptions C74_string_list_is_read_back.
Theorem C74_string_list_is_json : forall l rest, (Forall no_control l -> read_list true (format_list l ++ rest) = Some (l, rest)) /\ (~ Forall no_control l -> read_list true (format_list l ++ rest) = None).
Proof. intros. split; intros H; [now apply read_list_format|now apply read_list_control]. Qed.
Print Assumptions C74_string_list_is_json.
Theorem C74_every_string_list_is_json_refuted : exists l, Forall bytes_ok l /\ forall rest, read_list true (format_list l ++ rest) = None.
Proof. exists [[97; 10; 98]]. split; [repeat constructor|]. intros rest. apply read_list_control. intros H. pose proof (Forall_inv H) as X. inversion X as [|? ? ? Y]; subst. inversion Y as [|? ? Z]; subst. cbn in Z. lia. Qed.
Print Assumptions C74_every_string_list_is_json_refuted.
Example C74_string_list_example : format_list [lit "a""b"; lit "c\"; []] = lit "[""a\""b"",""c\\"",""""]".
Proof. vm_compute. reflexivity. Qed.

(** A metrics file contains exactly what the sink was told: one record for each metric of each update, in order, from which time, participant, name, kind and value can be read. *)
Theorem C74_file_is_read_back : forall F us, (forall o l, In (o, l) us -> Forall (values_ok F) l) ->
  read_file false (json_file F us) = Some (flat_map (fun x => map (record_for F (fst x)) (snd x)) us).
Proof. intros F us V. apply read_file_back; [exact V|discriminate]. Qed.
Print Assumptions C74_file_is_read_back.
(** Strict JSON readers accept it as well, unless a name or value contains a control character which the writers leave as it is. *)
Theorem C74_file_is_json : forall F us, (forall o l, In (o, l) us -> Forall (values_ok F) l) -> (forall o l, In (o, l) us -> Forall (plain o) l) ->
  read_file true (json_file F us) = Some (flat_map (fun x => map (record_for F (fst x)) (snd x)) us).
Proof. intros F us V P. apply read_file_back; [exact V|intros _; exact P]. Qed.
Print Assumptions C74_file_is_json.
(** Each record is one line, unless a string of a string list contains a line break. *)
Theorem C74_one_line_per_record : forall F o d, d_kind d = kind_of (d_value d) -> value_on_one_line F (d_value d) ->
  one_line (json_line o (d_time d) (d_name d) (d_kind d) (format F (d_value d))).
Proof. exact line_one. Qed.
Print Assumptions C74_one_line_per_record.
Theorem C74_every_record_is_one_line_refuted : exists F o d, d_kind d = kind_of (d_value d) /\ ~ one_line (json_line o (d_time d) (d_name d) (d_kind d) (format F (d_value d))).
Proof.
  exists (fun _ => []), oa, (mkData 5 na StringList (VList [[97; 10; 98]])). split; [reflexivity|]. intros (t & E & N). apply N.
  assert (X : exists s, json_line oa 5 na StringList (format (fun _ => []) (VList [[97; 10; 98]])) = s ++ [10] /\ In 10 s).
  { eexists. split; [unfold json_line; rewrite !app_assoc; reflexivity|]. vm_compute. tauto. }
  destruct X as (s & E2 & I). cbn [d_time d_name d_kind d_value] in E. rewrite E2 in E. apply app_inj_tail in E as [-> _]. exact I.
Qed.
Print Assumptions C74_every_record_is_one_line_refuted.
(** The records of a submission are of the kind they say, as the theorems above require. *)
Theorem C74_submitted_records_are_well_formed : forall t0 es l, ok t0 es -> In (Process l) (outs t0 es) -> Forall (fun d => d_kind d = kind_of (d_value d)) l.
Proof.
  intros t0 es l _ I.
  assert (G : (forall l, In (Process l) (outs t0 es) -> Forall (fun d => d_kind d = kind_of (d_value d)) l) /\ (forall todo msg, g_sub (after t0 es) = Some (todo, msg) -> Forall (fun d => d_kind d = kind_of (d_value d)) msg)).
  { clear I l. induction es as [|e es [IH1 IH2]] using rev_ind; [split; [intros l []|discriminate]|]. rewrite outs_snoc, after_snoc. set (s := after t0 es) in *. split.
    - intros l I. apply in_app_iff in I as [I|[I|[]]]; [now apply IH1|]. destruct e as [ns k|x t|x o| | |t]; try (pose proof (f_equal message I) as M; rewrite no_message in M by discriminate; cbn in M; subst l; constructor).
      cbn [step] in I. destruct (g_sub s) as [[[|n todo] msg]|]; try discriminate. cbn in I. destruct msg; [discriminate|]. injection I as <-. now apply (IH2 []).
    - intros todo msg. destruct e as [ns k|x t|x o| | |t]; cbn [step].
      + destruct (g_sub s) eqn:G; [cbn; rewrite G; intros [= ->]; now apply (IH2 todo)|]. cbv zeta. match goal with |- context [match ?x with Some m => if _ then _ else _ | None => _ end] => destruct x end; [destruct (kind_eqb _ _)|]; discriminate.
      + destruct (find x (g_metrics s)); cbn; apply IH2.
      + destruct (find x (g_metrics s)); [destruct (kind_eqb _ _)|]; cbn; apply IH2.
      + destruct (g_sub s) eqn:G; cbn; [rewrite G; intros [= ->]; now apply (IH2 todo)|]. intros [= <- <-]. constructor.
      + destruct (g_sub s) as [[[|n todo'] msg']|] eqn:G; cbn; rewrite ?G; try discriminate; [intros [= <- <-]; now apply (IH2 [])|]. intros [= <- <-]. apply Forall_app. split; [now apply (IH2 (n :: todo'))|].
        destruct (find n (g_metrics s)) as [m|]; [|constructor]. unfold look. destruct (_ <=? _); repeat constructor.
      + destruct (g_sub s) as [[[|n todo'] msg']|] eqn:G; cbn; rewrite ?G; try discriminate. intros [= <- <-]. now apply (IH2 (n :: todo')). }
  now apply (proj1 G).
Qed.
Print Assumptions C74_submitted_records_are_well_formed.
Definition update1 : list data := [mkData 14 na Counter (VCount 7); mkData 13 nbc StringList (VList [lit "x"; lit "y"]); mkData 15 (lit "v") Attribute (VAttr (lit "say ""hi""" ++ [10]))].
Example C74_file_example : json_update (fun _ => []) oa update1 =
  lit "{""ts"":14,""pn"":""A"",""mn"":""a"",""mk"":""COUNTER"",""mv"":7}" ++ [10] ++
  lit "{""ts"":13,""pn"":""A"",""mn"":""b/c"",""mk"":""STRING_LIST"",""mv"":[""x"",""y""]}" ++ [10] ++
  lit "{""ts"":15,""pn"":""A"",""mn"":""v"",""mk"":""ATTRIBUTE"",""mv"":""say \""hi\""\n""}" ++ [10]
  /\ Forall (values_ok (fun _ => [])) update1 /\ Forall (plain oa) update1.
Proof.
  split; [vm_compute; reflexivity|]. split; [repeat constructor|].
  assert (L : forall s, forallb (fun c => (32 <=? c) || existsb (N.eqb c) [8; 9; 10; 12; 13]) s = true -> Forall (fun c => ~ other_control c) s).
  { intros s H. rewrite forallb_forall in H. apply Forall_forall. intros c I [A B]. specialize (H c I). apply orb_true_iff in H as [H|H]; [lia|]. apply B. apply existsb_exists in H as (x & J & E). apply N.eqb_eq in E. now subst. }
  assert (L2 : forall s, forallb (fun c => 32 <=? c) s = true -> no_control s).
  { intros s H. rewrite forallb_forall in H. apply Forall_forall. intros c I. specialize (H c I). lia. }
  repeat (apply Forall_cons; [split; [apply L; vm_compute; reflexivity|split; [apply L; vm_compute; reflexivity|]]|]); [exact I| |apply L; vm_compute; reflexivity|constructor].
  cbn [d_value]. repeat (apply Forall_cons; [apply L2; vm_compute; reflexivity|]). constructor.
Qed.

(** Setting up never fails: there is one sink for each configured sink of a known type, in the order of the configuration. *)
Theorem C73_configured_sinks : forall l, setup_sinks l = Ok (filter (fun t => match t with TUndefined => false | _ => true end) l).
Proof.
  intros l. unfold setup_sinks. assert (G : forall b l, (In TRemote l -> b = true) -> create_sinks b l = Ok (filter (fun t => match t with TUndefined => false | _ => true end) l)).
  { clear. intros b l. induction l as [|[] l IH]; intros H; cbn [create_sinks filter].
    - reflexivity.
    - apply IH. intros I. apply H. now right.
    - rewrite IH; [reflexivity|]. intros I. apply H. now right.
    - rewrite IH; [|intros I; apply H; now right]. now rewrite (H (or_introl eq_refl)). }
  apply G. intros I. apply existsb_exists. exists TRemote. auto.
Qed.
Print Assumptions C73_configured_sinks.
Example C73_configured_sinks_example : setup_sinks [TJsonFile; TUndefined; TRemote; TJsonFile] = Ok [TJsonFile; TRemote; TJsonFile] /\ create_sinks false [TRemote] = Exn.
Proof. split; reflexivity. Qed.
