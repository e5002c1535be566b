From Coq Require Import List NArith Arith Bool Lia.
From Verif Require Import Base ServiceDiscoveryModel ServiceDiscoverySpec.
Import ListNotations.
Local Open Scope N_scope.

Record SdInv (s : sdstate) : Prop := {
  si_part : forall x, In x (sd_known s) -> d_part (snd x) = fst x;
  si_uniq : NoDup (map (fun x => (fst x, d_key (snd x))) (sd_known s))
}.
Definition reg (h : N) (s : sdstate) : bool := existsb (fun x => x =? h) (sd_handlers s).
Definition once (h : N) (s : sdstate) : Prop := (count_occ N.eq_dec (sd_handlers s) h <= 1)%nat.
Definition is_it (p k : N) (d : desc) : bool := (d_part d =? p) && (d_key d =? k).

Lemma told_app : forall h p k a b, told h p k (a ++ b) = told h p k a ++ told h p k b.
Proof. intros. apply flat_map_app. Qed.
Lemma store_told_app : forall p k a b, store_told p k (a ++ b) = store_told p k a ++ store_told p k b.
Proof. intros. apply flat_map_app. Qed.

Lemma reg_count : forall h l, existsb (fun x => x =? h) l = true <-> (0 < count_occ N.eq_dec l h)%nat.
Proof.
  intros h l. rewrite existsb_exists. setoid_rewrite N.eqb_eq. split.
  - intros (x & I & ->). apply count_occ_In, I.
  - intros H. apply count_occ_In in H. exists h; auto.
Qed.
Lemma told_call : forall h p k c d s, once h s ->
  told h p k (call_handlers c d s) = if reg h s && is_it p k d then [c] else [].
Proof.
  intros h p k c d s. unfold once, reg, call_handlers. generalize (sd_handlers s).
  induction l as [|x r IH]; cbn; intros O; [reflexivity|].
  fold (told h p k (map (fun h0 => SNote h0 c d) r)).
  destruct (N.eq_dec x h) as [->|ne].
  - rewrite N.eqb_refl. cbn. fold (is_it p k d).
    assert (R : existsb (fun x => x =? h) r = false).
    { apply not_true_is_false. rewrite reg_count. lia. }
    rewrite IH, R by lia. cbn. destruct (is_it p k d); reflexivity.
  - rewrite (proj2 (N.eqb_neq x h) ne). cbn. apply IH. assumption.
Qed.
Lemma store_told_call : forall p k c d s, store_told p k (call_handlers c d s) = [].
Proof. intros. unfold call_handlers. induction (sd_handlers s); cbn; auto. Qed.

Lemma knows_in : forall p k l, knows p k l = true <-> In (p, k) (map (fun x => (fst x, d_key (snd x))) l).
Proof.
  intros p k l. unfold knows. rewrite existsb_exists, in_map_iff. split.
  - intros (x & I & E). apply andb_true_iff in E. rewrite !N.eqb_eq in E. destruct E. exists x. split; [congruence|assumption].
  - intros (x & E & I). exists x. inversion E. rewrite !N.eqb_refl. auto.
Qed.
Lemma knows_snoc : forall p k l q d, knows p k (l ++ [(q, d)]) = knows p k l || ((q =? p) && (d_key d =? k)).
Proof. intros. unfold knows. rewrite existsb_app. cbn. rewrite orb_false_r. reflexivity. Qed.
Lemma knows_forget : forall p k q j l, knows p k (forget q j l) = knows p k l && negb ((q =? p) && (j =? k)).
Proof.
  intros p k q j l. unfold knows, forget. induction l as [|x r IH]; cbn; [reflexivity|].
  destruct ((fst x =? q) && (d_key (snd x) =? j)) eqn:E; cbn; rewrite IH.
  - apply andb_true_iff in E. destruct E as [E1 E2]. apply N.eqb_eq in E1, E2. subst.
    destruct ((fst x =? p) && (d_key (snd x) =? k)) eqn:F; cbn; [|reflexivity]. rewrite andb_false_r. reflexivity.
  - destruct ((fst x =? p) && (d_key (snd x) =? k)) eqn:F; cbn; [|reflexivity].
    apply andb_true_iff in F. destruct F as [F1 F2]. apply N.eqb_eq in F1, F2. subst.
    rewrite (N.eqb_sym q), (N.eqb_sym j), E. reflexivity.
Qed.
Lemma knows_leave : forall p k q l, knows p k (filter (fun x => negb (fst x =? q)) l) = knows p k l && negb (q =? p).
Proof.
  intros p k q l. unfold knows. induction l as [|x r IH]; cbn; [reflexivity|].
  destruct (N.eqb_spec (fst x) q) as [E|E]; cbn; rewrite IH.
  - destruct ((fst x =? p) && (d_key (snd x) =? k)) eqn:F; cbn; [|reflexivity].
    apply andb_true_iff in F. destruct F as [F _]. apply N.eqb_eq in F.
    replace (q =? p) with true by (symmetry; apply N.eqb_eq; congruence). apply andb_false_r.
  - destruct ((fst x =? p) && (d_key (snd x) =? k)) eqn:F; cbn; [|reflexivity].
    apply andb_true_iff in F. destruct F as [F _]. apply N.eqb_eq in F.
    replace (q =? p) with false by (symmetry; apply N.eqb_neq; congruence). reflexivity.
Qed.

Lemma SdInv_add : forall s d, SdInv s -> knows (d_part d) (d_key d) (sd_known s) = false ->
  SdInv (mkSd (sd_known s ++ [(d_part d, d)]) (sd_handlers s) (sd_down s)).
Proof.
  intros s d [P U] K. split; cbn.
  - intros x I. apply in_app_or in I. destruct I as [I|[<-|[]]]; auto.
  - rewrite map_app. cbn. apply NoDup_rev in U. rewrite <- (rev_involutive (_ ++ _)). apply NoDup_rev. rewrite rev_app_distr. cbn.
    constructor; [|assumption]. rewrite <- in_rev. rewrite <- knows_in, K. discriminate.
Qed.
Lemma NoDup_map_filter' : forall {A B} (f : A -> B) p l, NoDup (map f l) -> NoDup (map f (filter p l)).
Proof.
  intros A B f p l; induction l as [|x r IH]; cbn; [auto|]. intros N. inversion N; subst.
  destruct (p x); cbn; [constructor|]; auto.
  intros I. apply in_map_iff in I. destruct I as (y & E & I). apply filter_In in I. apply H1. rewrite <- E. apply in_map, I.
Qed.
Lemma SdInv_filter : forall s f, SdInv s -> SdInv (mkSd (filter f (sd_known s)) (sd_handlers s) (sd_down s)).
Proof.
  intros s f [P U]. split; cbn.
  - intros x I. apply filter_In in I. apply P, I.
  - apply NoDup_map_filter', U.
Qed.

(** What one step does to what [h] has been told, and to what is known. *)
Record eff (h p k : N) (s : sdstate) (o : list sdout) (s' : sdstate) (c : option bool) : Prop := {
  ef_told : told h p k o = match c with
                           | Some b => if reg h s && xorb b (knows p k (sd_known s)) then [b] else []
                           | None => []
                           end;
  ef_store : store_told p k o = match c with
                                | Some b => if xorb b (knows p k (sd_known s)) then [b] else []
                                | None => []
                                end;
  ef_known : knows p k (sd_known s') = match c with Some b => b | None => knows p k (sd_known s) end;
  ef_reg : sd_handlers s' = sd_handlers s;
  ef_down : sd_down s' = sd_down s;
  ef_inv : SdInv s'
}.

Lemma addition_eff : forall h p k me d s, SdInv s -> once h s ->
  eff h p k s (fst (service_addition me d s)) (snd (service_addition me d s)) (if is_it p k d then Some true else None).
Proof.
  intros h p k me d s I O. unfold service_addition.
  destruct (knows (d_part d) (d_key d) (sd_known s)) eqn:K; cbn [fst snd].
  - destruct (is_it p k d) eqn:E.
    + apply andb_true_iff in E. rewrite !N.eqb_eq in E. destruct E; subst.
      split; auto; rewrite K, ?andb_false_r; reflexivity.
    + split; auto.
  - set (ann := if negb (d_part d =? me) && d_sd d then _ else _).
    assert (A1 : told h p k ann = []) by (unfold ann; destruct (negb _ && _); reflexivity).
    assert (A2 : store_told p k ann = []) by (unfold ann; destruct (negb _ && _); reflexivity).
    assert (KN : knows p k (sd_known s ++ [(d_part d, d)]) = if is_it p k d then true else knows p k (sd_known s)).
    { rewrite knows_snoc. fold (is_it p k d). destruct (is_it p k d); [apply orb_true_r|apply orb_false_r]. }
    assert (NK : is_it p k d = true -> knows p k (sd_known s) = false).
    { intros E. apply andb_true_iff in E. rewrite !N.eqb_eq in E. destruct E; subst. assumption. }
    split; cbn [sd_known sd_handlers sd_down]; auto.
    + rewrite told_app, A1. cbn. fold (told h p k (call_handlers true d s)). rewrite told_call by assumption.
      destruct (is_it p k d); [|rewrite andb_false_r; reflexivity]. rewrite NK by reflexivity. cbn. rewrite andb_true_r. reflexivity.
    + rewrite store_told_app, A2. cbn. fold (store_told p k (call_handlers true d s)). rewrite store_told_call.
      fold (is_it p k d). destruct (is_it p k d); [|reflexivity]. rewrite NK by reflexivity. reflexivity.
    + rewrite KN. destruct (is_it p k d); reflexivity.
    + apply SdInv_add; assumption.
Qed.
Lemma removal_eff : forall h p k d s, SdInv s -> once h s ->
  eff h p k s (fst (service_removal d s)) (snd (service_removal d s)) (if is_it p k d then Some false else None).
Proof.
  intros h p k d s I O. unfold service_removal.
  destruct (knows (d_part d) (d_key d) (sd_known s)) eqn:K; cbn [fst snd].
  - assert (NK : is_it p k d = true -> knows p k (sd_known s) = true).
    { intros E. apply andb_true_iff in E. rewrite !N.eqb_eq in E. destruct E; subst. assumption. }
    split; cbn [sd_known sd_handlers sd_down]; auto.
    + cbn. fold (told h p k (call_handlers false d s)). rewrite told_call by assumption.
      destruct (is_it p k d); [|rewrite andb_false_r; reflexivity]. rewrite NK by reflexivity. cbn. rewrite andb_true_r. reflexivity.
    + cbn. fold (store_told p k (call_handlers false d s)). rewrite store_told_call.
      fold (is_it p k d). destruct (is_it p k d); [|reflexivity]. rewrite NK by reflexivity. reflexivity.
    + rewrite knows_forget. fold (is_it p k d). destruct (is_it p k d); [apply andb_false_r|apply andb_true_r].
    + apply SdInv_filter, I.
  - destruct (is_it p k d) eqn:E.
    + apply andb_true_iff in E. rewrite !N.eqb_eq in E. destruct E; subst.
      split; auto; rewrite K, ?andb_false_r; reflexivity.
    + split; auto.
Qed.

Lemma participant_eff : forall h p k q ds s, (forall d, In d ds -> d_part d = q) -> SdInv s -> once h s ->
  eff h p k s (fst (participant_addition q ds s)) (snd (participant_addition q ds s))
      (if mentions p k ds then Some true else None).
Proof.
  intros h p k q ds; induction ds as [|d r IH]; intros s Q I O; cbn [participant_addition mentions existsb].
  - split; auto.
  - fold (mentions p k r). assert (Qd : d_part d = q) by (apply Q; left; reflexivity).
    assert (Qr : forall d, In d r -> d_part d = q) by (intros; apply Q; right; assumption).
    fold (is_it p k d).
    destruct (knows q (d_key d) (sd_known s)) eqn:K.
    + specialize (IH s Qr I O). destruct (is_it p k d) eqn:E; [|exact IH]. cbn [orb].
      apply andb_true_iff in E. rewrite !N.eqb_eq in E. destruct E as [E1 E2]. rewrite E1 in Qd. subst q k.
      destruct IH as [A B C D F G]. split; auto.
      * rewrite A. destruct (mentions _ _ r); [reflexivity|]. rewrite K, andb_false_r. reflexivity.
      * rewrite B. destruct (mentions _ _ r); [reflexivity|]. rewrite K. reflexivity.
      * rewrite C. destruct (mentions _ _ r); [reflexivity|]. exact K.
    + set (s1 := mkSd (sd_known s ++ [(q, d)]) (sd_handlers s) (sd_down s)).
      assert (I1 : SdInv s1) by (unfold s1; rewrite <- Qd; apply SdInv_add; [assumption|rewrite Qd; assumption]).
      specialize (IH s1 Qr I1 O). destruct (participant_addition q r s1) as [o s2]. cbn [fst snd] in *.
      destruct IH as [A B C D F G].
      assert (KN : knows p k (sd_known s1) = if is_it p k d then true else knows p k (sd_known s)).
      { unfold s1; cbn [sd_known]. rewrite knows_snoc. rewrite <- Qd. fold (is_it p k d).
        destruct (is_it p k d); [apply orb_true_r|apply orb_false_r]. }
      assert (NK : is_it p k d = true -> knows p k (sd_known s) = false).
      { intros E. apply andb_true_iff in E. rewrite !N.eqb_eq in E. destruct E; subst. assumption. }
      split; auto.
      * change (told h p k (SStore true d :: call_handlers true d s ++ o)) with (told h p k (call_handlers true d s ++ o)).
        rewrite told_app, told_call, A by assumption. rewrite KN. change (reg h s1) with (reg h s).
        destruct (is_it p k d); cbn [orb].
        -- rewrite NK by reflexivity. rewrite !andb_true_r. destruct (mentions p k r), (reg h s); reflexivity.
        -- rewrite andb_false_r. reflexivity.
      * cbn [store_told flat_map]. fold (is_it p k d). fold (store_told p k (call_handlers true d s ++ o)).
        rewrite store_told_app, store_told_call, B, KN. destruct (is_it p k d); cbn [orb app].
        -- rewrite NK by reflexivity. destruct (mentions p k r); reflexivity.
        -- reflexivity.
      * rewrite C, KN. destruct (is_it p k d), (mentions p k r); reflexivity.
Qed.

Lemma leave_list : forall h p k q hs l,
  (forall x, In x l -> d_part (snd x) = fst x) -> NoDup (map (fun x => (fst x, d_key (snd x))) l) ->
  once h hs ->
  let o := flat_map (fun x => SStore false (snd x) :: call_handlers false (snd x) hs) (filter (fun x => fst x =? q) l) in
  told h p k o = (if reg h hs && ((q =? p) && knows p k l) then [false] else []) /\
  store_told p k o = (if (q =? p) && knows p k l then [false] else []).
Proof.
  intros h p k q hs l P U O. induction l as [|x r IH]; cbn [filter flat_map].
  - cbn. rewrite !andb_false_r. auto.
  - assert (P' : forall x, In x r -> d_part (snd x) = fst x) by (intros; apply P; right; assumption).
    cbn in U. inversion U; subst. specialize (IH P' H2). cbn zeta in IH. destruct IH as [IH1 IH2].
    unfold knows. cbn [existsb]. fold (knows p k r).
    assert (Px : d_part (snd x) = fst x) by (apply P; left; reflexivity).
    destruct (N.eqb_spec (fst x) q) as [E|E].
    + cbn [flat_map].
      change (told h p k ((SStore false (snd x) :: call_handlers false (snd x) hs) ++
              flat_map (fun x => SStore false (snd x) :: call_handlers false (snd x) hs) (filter (fun x => fst x =? q) r)))
        with (told h p k (call_handlers false (snd x) hs ++
              flat_map (fun x => SStore false (snd x) :: call_handlers false (snd x) hs) (filter (fun x => fst x =? q) r))).
      rewrite told_app, told_call, IH1 by assumption.
      rewrite store_told_app, IH2. cbn [store_told flat_map]. fold (store_told p k (call_handlers false (snd x) hs)).
      rewrite store_told_call, app_nil_r. fold (is_it p k (snd x)).
      unfold is_it. rewrite Px.
      destruct ((fst x =? p) && (d_key (snd x) =? k)) eqn:F.
      * apply andb_true_iff in F. rewrite !N.eqb_eq in F. destruct F as [F1 F2].
        assert (KR : knows p k r = false).
        { apply not_true_is_false. rewrite knows_in. rewrite <- F1, <- F2. assumption. }
        rewrite KR. replace (q =? p) with true by (symmetry; apply N.eqb_eq; congruence).
        cbn. rewrite !andb_false_r, !andb_true_r, app_nil_r. split; reflexivity.
      * rewrite andb_false_r. cbn [orb app]. split; reflexivity.
    + rewrite IH1, IH2.
      destruct ((fst x =? p) && (d_key (snd x) =? k)) eqn:F; [|split; reflexivity].
      apply andb_true_iff in F. rewrite !N.eqb_eq in F. destruct F as [F1 F2].
      replace (q =? p) with false by (symmetry; apply N.eqb_neq; congruence). split; reflexivity.
Qed.
Lemma leave_eff : forall h p k me q s, SdInv s -> once h s ->
  eff h p k s (fst (participant_removal me q s)) (snd (participant_removal me q s))
      (if (q =? p) && negb (p =? me) then Some false else None).
Proof.
  intros h p k me q s I O. unfold participant_removal.
  destruct (N.eqb_spec q me) as [E|E]; cbn [fst snd].
  - assert (X : (q =? p) && negb (p =? me) = false).
    { destruct (N.eqb_spec q p); [|reflexivity]. subst. rewrite N.eqb_refl. reflexivity. }
    rewrite X. split; auto.
  - assert (X : (q =? p) && negb (p =? me) = (q =? p)).
    { destruct (N.eqb_spec q p); [|reflexivity]. subst. apply N.eqb_neq in E. rewrite E. reflexivity. }
    rewrite X. destruct (leave_list h p k q s (sd_known s) (si_part _ I) (si_uniq _ I) O) as [A B].
    split; cbn [sd_known sd_handlers sd_down]; auto.
    + rewrite A. destruct (q =? p); [|rewrite andb_false_r; reflexivity].
      destruct (knows p k (sd_known s)); reflexivity.
    + rewrite B. destruct (q =? p); [|reflexivity]. destruct (knows p k (sd_known s)); reflexivity.
    + rewrite knows_leave. destruct (q =? p); [apply andb_false_r|apply andb_true_r].
    + apply SdInv_filter, I.
Qed.

Lemma told_replay : forall h p k l, (forall x, In x l -> d_part (snd x) = fst x) ->
  NoDup (map (fun x => (fst x, d_key (snd x))) l) ->
  forall h', told h p k (map (fun x => SNote h' true (snd x)) l) = if (h' =? h) && knows p k l then [true] else [].
Proof.
  intros h p k l P U h'. induction l as [|x r IH]; cbn; [rewrite andb_false_r; reflexivity|].
  fold (told h p k (map (fun x => SNote h' true (snd x)) r)).
  cbn in U. inversion U; subst. rewrite IH; [|intros; apply P; right; assumption|assumption].
  rewrite (P x) by (left; reflexivity). fold (knows p k r).
  destruct (h' =? h); cbn; [|reflexivity].
  destruct ((fst x =? p) && (d_key (snd x) =? k)) eqn:F; cbn; [|reflexivity].
  apply andb_true_iff in F. rewrite !N.eqb_eq in F. destruct F as [F1 F2].
  assert (KR : knows p k r = false) by (apply not_true_is_false; rewrite knows_in, <- F1, <- F2; assumption).
  rewrite KR. reflexivity.
Qed.
Lemma store_told_replay : forall p k h' l, store_told p k (map (fun x : N * desc => SNote h' true (snd x)) l) = [].
Proof. intros. induction l; cbn; auto. Qed.

Lemma eff_broadcast : forall h p k s o s' c b d, eff h p k s o s' c -> eff h p k s (o ++ [SBroadcast b d]) s' c.
Proof.
  intros h p k s o s' c b d [A B C D E F]. split; auto.
  - rewrite told_app, A. apply app_nil_r.
  - rewrite store_told_app, B. apply app_nil_r.
Qed.

Lemma sdstep_eff : forall h p k me e s, SdInv s -> once h s -> wf_ev e -> sd_down s = false ->
  (forall h', e <> SRegister h') ->
  eff h p k s (fst (sdstep me e s)) (snd (sdstep me e s)) (effect me p k e).
Proof.
  intros h p k me e s I O W D R.
  assert (M : forall d, mentions p k [d] = is_it p k d) by (intros; cbn; apply orb_false_r).
  destruct e as [q ds|q|d|d|d|d|h'|]; cbn [sdstep effect]; rewrite ?D, ?M.
  - apply participant_eff; assumption.
  - apply leave_eff; assumption.
  - apply addition_eff; assumption.
  - apply removal_eff; assumption.
  - pose proof (addition_eff h p k me d s I O) as A. destruct (service_addition me d s) as [o s']. cbn [fst snd] in *.
    apply eff_broadcast, A.
  - pose proof (removal_eff h p k d s I O) as A. destruct (service_removal d s) as [o s']. cbn [fst snd] in *.
    apply eff_broadcast, A.
  - exfalso; apply (R h'); reflexivity.
  - contradiction.
Qed.

Lemma once_reg : forall h h' s, once h s -> (h' = h -> reg h s = false) ->
  once h (mkSd (sd_known s) (sd_handlers s ++ [h']) (sd_down s)).
Proof.
  intros h h' s O R. unfold once in *. cbn. rewrite count_occ_app. cbn. destruct (N.eq_dec h' h) as [E|E]; [|lia].
  specialize (R E). unfold reg in R. destruct (count_occ N.eq_dec (sd_handlers s) h) eqn:C; [lia|].
  exfalso. assert (X : existsb (fun x => x =? h) (sd_handlers s) = true) by (apply reg_count; lia). congruence.
Qed.

Lemma sdrun_told : forall h p k me l s, SdInv s -> once h s -> sd_down s = false ->
  (forall e, In e l -> wf_ev e) -> (registrations h l + (if reg h s then 1 else 0) <= 1)%nat ->
  told h p k (fst (sdrun me l s)) = expected me h p k (reg h s) (knows p k (sd_known s)) l /\
  knows p k (sd_known (snd (sdrun me l s))) = known_after me p k (knows p k (sd_known s)) l.
Proof.
  intros h p k me l; induction l as [|e r IH]; intros s I O D W R; [split; reflexivity|].
  assert (We : wf_ev e) by (apply W; left; reflexivity).
  assert (Wr : forall e, In e r -> wf_ev e) by (intros; apply W; right; assumption).
  cbn [sdrun]. destruct (match e with SRegister _ => true | _ => false end) eqn:IR.
  - destruct e as [| | | | | |h'|]; try discriminate. cbn [sdstep]. rewrite D. unfold register_handler.
    set (s1 := mkSd _ _ _). unfold registrations in R. cbn [filter] in R.
    assert (I1 : SdInv s1) by (destruct I; split; assumption).
    assert (O1 : once h s1).
    { apply once_reg; [assumption|]. intros ->. rewrite N.eqb_refl in R. cbn in R. destruct (reg h s); [lia|reflexivity]. }
    assert (R1 : reg h s1 = reg h s || (h' =? h)).
    { unfold reg, s1; cbn. rewrite existsb_app. cbn. rewrite orb_false_r. reflexivity. }
    assert (RR : (registrations h r + (if reg h s1 then 1 else 0) <= 1)%nat).
    { rewrite R1. unfold registrations. destruct (h' =? h); cbn in R |- *; destruct (reg h s); cbn; lia. }
    destruct (IH s1 I1 O1 D Wr RR) as [A B]. destruct (sdrun me r s1) as [o' s2] eqn:RN.
    cbn [fst snd expected known_after effect] in *.
    split; [|exact B].
    rewrite told_app, A, (told_replay h p k _ (si_part _ I) (si_uniq _ I)), R1.
    change (sd_known s1) with (sd_known s).
    destruct (h' =? h) eqn:E; cbn [andb app].
    + rewrite orb_true_r. reflexivity.
    + rewrite orb_false_r. reflexivity.
  - assert (NR : forall h', e <> SRegister h') by (intros h' ->; discriminate).
    pose proof (sdstep_eff h p k me e s I O We D NR) as [A B C F G J].
    destruct (sdstep me e s) as [o s1]. cbn [fst snd] in *.
    assert (R1 : reg h s1 = reg h s) by (unfold reg; rewrite F; reflexivity).
    assert (O1 : once h s1) by (unfold once in *; rewrite F; assumption).
    assert (RR : (registrations h r + (if reg h s1 then 1 else 0) <= 1)%nat).
    { rewrite R1. unfold registrations in *. cbn [filter] in R. destruct e; try discriminate; assumption. }
    destruct (IH s1 J O1 (eq_trans G D) Wr RR) as [X Y]. destruct (sdrun me r s1) as [o' s2]. cbn [fst snd] in *.
    rewrite told_app, A, X, R1, C.
    split.
    + destruct e; try discriminate; cbn [expected]; destruct (effect me p k _); reflexivity.
    + rewrite Y, C. destruct e; try discriminate; cbn [known_after]; destruct (effect me p k _); reflexivity.
Qed.

Lemma alternating_app : forall a b x y, alternating x a ->
  (alternating (if Nat.even (length a) then x else negb x) b) -> y = x -> alternating y (a ++ b).
Proof.
  intros a; induction a as [|h t IH]; cbn [app length alternating]; intros b x y A B ->; [exact B|].
  destruct A as [-> A]. split; [reflexivity|]. eapply IH; [exact A| |reflexivity].
  rewrite Nat.even_succ, <- Nat.negb_even in B. destruct (Nat.even (length t)); cbn in *; [|rewrite negb_involutive]; exact B.
Qed.
Lemma expected_alternates : forall me h p k l (r kn : bool),
  (registrations h l + (if r then 1 else 0) <= 1)%nat ->
  alternating (if r then negb kn else true) (expected me h p k r kn l).
Proof.
  intros me h p k l; induction l as [|e l IH]; intros r kn R; [exact I|].
  assert (NR : (match e with SRegister _ => false | _ => true end) = true ->
               (registrations h l + (if r then 1 else 0) <= 1)%nat).
  { intros Q. unfold registrations in *. cbn [filter] in R. destruct e; try discriminate; assumption. }
  destruct (match e with SRegister _ => true | _ => false end) eqn:IR.
  - destruct e as [| | | | | |h'|]; try discriminate. cbn [expected]. unfold registrations in R. cbn [filter] in R.
    destruct (h' =? h) eqn:E.
    + cbn in R. destruct r; [lia|]. specialize (IH true kn). cbn beta iota in IH.
      destruct kn; cbn [app alternating negb] in *.
      * split; [reflexivity|]. apply IH. unfold registrations. lia.
      * apply IH. unfold registrations. lia.
    + apply IH. exact R.
  - assert (EX : expected me h p k r kn (e :: l) =
                 match effect me p k e with
                 | Some c => (if r && xorb c kn then [c] else []) ++ expected me h p k r c l
                 | None => expected me h p k r kn l
                 end) by (destruct e; try discriminate; reflexivity).
    rewrite EX. assert (R' : (registrations h l + (if r then 1 else 0) <= 1)%nat) by (apply NR; destruct e; try discriminate; reflexivity).
    destruct (effect me p k e) as [c|]; [|apply IH, R'].
    specialize (IH r c R'). destruct r; cbn [andb].
    + destruct c, kn; cbn [xorb app alternating negb] in *; try split; auto.
    + exact IH.
Qed.
Lemma last_cons : forall {A} (l : list A) a d, last (a :: l) d = last l a.
Proof.
  intros A l; induction l as [|x r IH]; intros a d; [reflexivity|].
  change (last (a :: x :: r) d) with (last (x :: r) d). rewrite !IH. reflexivity.
Qed.
Lemma expected_last : forall me h p k l (r kn : bool),
  (registrations h l + (if r then 1 else 0) = 1)%nat ->
  last (expected me h p k r kn l) (if r then kn else false) = known_after me p k kn l.
Proof.
  intros me h p k l; induction l as [|e l IH]; intros r kn R.
  - cbn in *. destruct r; [auto|lia].
  - destruct (match e with SRegister _ => true | _ => false end) eqn:IR.
    + destruct e as [| | | | | |h'|]; try discriminate. cbn [expected known_after effect]. unfold registrations in R. cbn [filter] in R.
      destruct (h' =? h) eqn:E; cbn in R.
      * destruct r; [lia|]. assert (RR : (registrations h l + 1 = 1)%nat) by (unfold registrations; lia).
        specialize (IH true kn RR). destruct kn; cbn [app].
        -- rewrite last_cons. exact IH.
        -- exact IH.
      * apply IH. exact R.
    + assert (EX : expected me h p k r kn (e :: l) =
                 match effect me p k e with
                 | Some c => (if r && xorb c kn then [c] else []) ++ expected me h p k r c l
                 | None => expected me h p k r kn l
                 end) by (destruct e; try discriminate; reflexivity).
      assert (KX : known_after me p k kn (e :: l) = known_after me p k (match effect me p k e with Some c => c | None => kn end) l)
        by reflexivity.
      rewrite EX, KX.
      assert (R' : (registrations h l + (if r then 1 else 0) = 1)%nat)
        by (unfold registrations in *; cbn [filter] in R; destruct e; try discriminate; assumption).
      destruct (effect me p k e) as [c|]; [|apply IH, R'].
      specialize (IH r c R'). destruct r; cbn [andb]; [|exact IH].
      destruct c, kn; cbn [xorb app] in *; rewrite ?last_cons; exact IH.
Qed.

Lemma SdInv_init : SdInv sd_init.
Proof. split; cbn; [intros x []|constructor]. Qed.

(** The store is told like a handler that has been there from the start. *)
Fixpoint expected_store (me p k : N) (known : bool) (l : list sdev) : list bool :=
  match l with
  | [] => []
  | e :: r => match effect me p k e with
              | Some c => (if xorb c known then [c] else []) ++ expected_store me p k c r
              | None => expected_store me p k known r
              end
  end.
Lemma expected_store_alternates : forall me p k l kn, alternating (negb kn) (expected_store me p k kn l).
Proof.
  intros me p k l; induction l as [|e l IH]; intros kn; cbn [expected_store]; [exact I|].
  destruct (effect me p k e) as [c|]; [|apply IH]. specialize (IH c).
  destruct c, kn; cbn [xorb app alternating negb] in *; try split; auto.
Qed.
Lemma sdrun_store : forall p k me l s, SdInv s -> sd_down s = false -> (forall e, In e l -> wf_ev e) ->
  store_told p k (fst (sdrun me l s)) = expected_store me p k (knows p k (sd_known s)) l.
Proof.
  intros p k me l; induction l as [|e r IH]; intros s I D W; [reflexivity|].
  assert (We : wf_ev e) by (apply W; left; reflexivity).
  assert (Wr : forall e, In e r -> wf_ev e) by (intros; apply W; right; assumption).
  cbn [sdrun]. destruct (match e with SRegister _ => true | _ => false end) eqn:IR.
  - destruct e as [| | | | | |h'|]; try discriminate. cbn [sdstep]. rewrite D. unfold register_handler.
    set (s1 := mkSd _ _ _). assert (I1 : SdInv s1) by (destruct I; split; assumption).
    specialize (IH s1 I1 D Wr). destruct (sdrun me r s1) as [o' s2]. cbn [fst] in *.
    rewrite store_told_app, store_told_replay, IH. reflexivity.
  - assert (NR : forall h', e <> SRegister h') by (intros h' ->; discriminate).
    (* a handler name that nobody uses *)
    set (h := 1 + fold_right N.max 0 (sd_handlers s)).
    assert (O : once h s).
    { unfold once. replace (count_occ N.eq_dec (sd_handlers s) h) with 0%nat; [lia|]. symmetry.
      apply count_occ_not_In. intros Q.
      assert (X : forall l x, In x l -> x <= fold_right N.max 0 l).
      { induction l as [|y t IHl]; cbn; [tauto|]. intros x [<-|J]; [lia|]. apply IHl in J. lia. }
      apply X in Q. unfold h in Q. lia. }
    pose proof (sdstep_eff h p k me e s I O We D NR) as [A B C F G J].
    destruct (sdstep me e s) as [o s1]. cbn [fst snd] in *.
    specialize (IH s1 J (eq_trans G D) Wr). destruct (sdrun me r s1) as [o' s2]. cbn [fst] in *.
    rewrite store_told_app, B, IH, C. cbn [expected_store]. destruct (effect me p k e); reflexivity.
Qed.

Lemma sdrun_inv : forall me l s, SdInv s -> sd_down s = false -> (forall e, In e l -> wf_ev e) ->
  SdInv (snd (sdrun me l s)) /\ sd_down (snd (sdrun me l s)) = false.
Proof.
  intros me l; induction l as [|e r IH]; intros s I D W; [auto|].
  assert (We : wf_ev e) by (apply W; left; reflexivity).
  assert (Wr : forall e, In e r -> wf_ev e) by (intros; apply W; right; assumption).
  cbn [sdrun]. destruct (match e with SRegister _ => true | _ => false end) eqn:IR.
  - destruct e as [| | | | | |h'|]; try discriminate. cbn [sdstep]. rewrite D. unfold register_handler.
    set (s1 := mkSd _ _ _). assert (I1 : SdInv s1) by (destruct I; split; assumption).
    specialize (IH s1 I1 D Wr). destruct (sdrun me r s1) as [o' s2]. exact IH.
  - assert (NR : forall h', e <> SRegister h') by (intros h' ->; discriminate).
    set (h := 1 + fold_right N.max 0 (sd_handlers s)).
    assert (O : once h s).
    { unfold once. replace (count_occ N.eq_dec (sd_handlers s) h) with 0%nat; [lia|]. symmetry.
      apply count_occ_not_In. intros Q.
      assert (X : forall l x, In x l -> x <= fold_right N.max 0 l).
      { induction l as [|y t IHl]; cbn; [tauto|]. intros x [<-|J]; [lia|]. apply IHl in J. lia. }
      apply X in Q. unfold h in Q. lia. }
    pose proof (sdstep_eff h 0 0 me e s I O We D NR) as [A B C F G J].
    destruct (sdstep me e s) as [o s1]. cbn [fst snd] in *.
    specialize (IH s1 J (eq_trans G D) Wr). destruct (sdrun me r s1) as [o' s2]. exact IH.
Qed.
