From Coq Require Import List Arith ZArith Bool Lia ZifyBool ZifyNat.
From Verif Require Import RpcModel RpcSpec.
Import ListNotations.
Open Scope Z_scope.

(** ** Runs *)
Lemma run_app : forall a b c, run (a ++ b) c = (fst (run a c) ++ fst (run b (snd (run a c))), snd (run b (snd (run a c)))).
Proof.
  induction a as [|e r IH]; intros b c; cbn [app run].
  - cbn [fst snd app]. destruct (run b c); reflexivity.
  - destruct (step e c) as [o c']. rewrite IH. destruct (run r c') as [o1 c1]. cbn [fst snd].
    destruct (run b c1) as [o2 c2]. cbn [fst snd]. rewrite app_assoc. reflexivity.
Qed.
Lemma run_cons : forall e b c, run (e :: b) c = (fst (step e c) ++ fst (run b (snd (step e c))), snd (run b (snd (step e c)))).
Proof. intros e b c. cbn [run]. destruct (step e c) as [o c']. cbn [fst snd]. destruct (run b c'); reflexivity. Qed.
Lemma run_snoc : forall a e c, run (a ++ [e]) c = (fst (run a c) ++ fst (step e (snd (run a c))), snd (step e (snd (run a c)))).
Proof. intros a e c. rewrite run_app, run_cons. cbn [run fst snd]. rewrite app_nil_r. reflexivity. Qed.

Lemma results_app : forall u a b, results u (a ++ b) = results u a ++ results u b.
Proof. intros. apply flat_map_app. Qed.
Lemma responses_app : forall u a b, responses u (a ++ b) = responses u a ++ responses u b.
Proof. intros. apply flat_map_app. Qed.
Lemma unreachable_app : forall a b, unreachable (a ++ b) = unreachable a ++ unreachable b.
Proof. intros. apply flat_map_app. Qed.
Lemma sent_app : forall a b, sent (a ++ b) = (sent a + sent b)%nat.
Proof. intros. unfold sent. rewrite filter_app, app_length. reflexivity. Qed.
Lemma servers_app : forall a b, servers (a ++ b) = servers a + servers b.
Proof.
  induction a as [|e r IH]; intros b; [reflexivity|]. cbn [app servers fold_right]. fold (servers (r ++ b)). fold (servers r).
  rewrite IH. destruct e as [| | | |[]|[]|]; lia.
Qed.
Lemma elapsed_app : forall a b, elapsed (a ++ b) = elapsed a + elapsed b.
Proof.
  induction a as [|e r IH]; intros b; [reflexivity|]. cbn [app elapsed fold_right]. fold (elapsed (r ++ b)). fold (elapsed r).
  rewrite IH. destruct e; lia.
Qed.

(** ** Map lemmas *)
Lemma find_app : forall u a b, find_call u (a ++ b) = match find_call u a with Some x => Some x | None => find_call u b end.
Proof. intros u. induction a as [|[v x] r IH]; intros b; cbn; [reflexivity|]. destruct (v =? u)%nat; auto. Qed.
Lemma find_erase : forall u v l, find_call u (erase_call v l) = if (v =? u)%nat then None else find_call u l.
Proof.
  intros u v. unfold erase_call. induction l as [|[w x] r IH]; cbn [filter find_call fst]; [destruct (v =? u)%nat; reflexivity|].
  destruct (Nat.eqb_spec w v) as [->|N]; cbn [negb find_call]; rewrite IH.
  - destruct (v =? u)%nat; reflexivity.
  - destruct (Nat.eqb_spec w u) as [->|N']; [|reflexivity]. destruct (Nat.eqb_spec v u); [congruence|reflexivity].
Qed.
Lemma find_update : forall u v r l,
  find_call u (update_call v r l) = if (v =? u)%nat then option_map (fun x => (r, snd x)) (find_call u l) else find_call u l.
Proof.
  intros u v z. unfold update_call. induction l as [|[w [y x]] r IH]; cbn [map find_call fst snd]; [destruct (v =? u)%nat; reflexivity|].
  destruct (Nat.eqb_spec w v) as [->|N]; cbn [find_call]; rewrite IH.
  - destruct (v =? u)%nat; reflexivity.
  - destruct (Nat.eqb_spec w u) as [->|N']; [|reflexivity]. destruct (Nat.eqb_spec v u); [congruence|reflexivity].
Qed.
Lemma find_in : forall u l x, find_call u l = Some x -> In u (map fst l).
Proof.
  intros u. induction l as [|[v y] r IH]; intros x H; cbn in *; [discriminate|].
  destruct (Nat.eqb_spec v u); [left; auto|right; eauto].
Qed.

(** ** What one call sees *)
(** [left u c]: the timeout entries of call [u]; [held u c]: number of responses of [u] being handled *)
Definition entries (u : nat) (l : list (Z * nat)) : list Z := map fst (filter (fun e => (snd e =? u)%nat) l).
Definition held (u : nat) (l : list nat) : nat := List.length (filter (Nat.eqb u) l).

Lemma held_app : forall u a b, held u (a ++ b) = (held u a + held u b)%nat.
Proof. intros. unfold held. rewrite filter_app, app_length. reflexivity. Qed.
Lemma held_in : forall u l, existsb (Nat.eqb u) l = (0 <? held u l)%nat.
Proof.
  intros u. induction l as [|v r IH]; [reflexivity|]. cbn [existsb]. unfold held in *. cbn [filter].
  destruct (u =? v)%nat; cbn [orb List.length]; [reflexivity|exact IH].
Qed.
Lemma held_remove : forall u v l, held u (remove_open v l) = if (v =? u)%nat then pred (held u l) else held u l.
Proof.
  intros u v. induction l as [|w r IH]; cbn [remove_open]; [destruct (v =? u)%nat; reflexivity|].
  destruct (Nat.eqb_spec w v) as [->|N].
  - unfold held. cbn [filter]. rewrite (Nat.eqb_sym u v). destruct (v =? u)%nat; reflexivity.
  - unfold held in *. cbn [filter]. destruct (Nat.eqb_spec u w) as [->|N']; cbn [List.length]; rewrite IH; [|reflexivity].
    destruct (Nat.eqb_spec v w); [congruence|reflexivity].
Qed.

(** the per-call machine *)
Record pcall := mkP { p_call : option (Z * nat); p_left : list Z; p_held : nat }.
Definition proj (u : nat) (c : client) : pcall := mkP (find_call u (c_active c)) (entries u (c_timeouts c)) (held u (c_open c)).

Definition due (dur : Z) (l : list Z) : bool := existsb (fun d => d - dur <=? 0) l.
Definition pstep (u : nat) (e : event) (p : pcall) : list (nat * call_status) * pcall :=
  match e with
  | Begin v st =>
      if (v =? u)%nat then
        match p_call p with
        | Some (r, ctx) => ([(ctx, to_call_status st)], mkP (p_call p) (p_left p) (S (p_held p)))
        | None => ([], p)
        end
      else ([], p)
  | End v =>
      if (v =? u)%nat then
        if (0 <? p_held p)%nat then
          ([], mkP (match p_call p with
                    | Some (r, ctx) => if r - 1 <=? 0 then None else Some (r - 1, ctx)
                    | None => None end) (p_left p) (pred (p_held p)))
        else ([], p)
      else ([], p)
  | Tick _ dur =>
      let l := filter (fun d => negb (d - dur <=? 0)) (p_left p) in
      let l := map (fun d => d - dur) l in
      if due dur (p_left p) then
        (match p_call p with Some (_, ctx) => [(ctx, Timeout)] | None => [] end, mkP None l (p_held p))
      else ([], mkP (p_call p) l (p_held p))
  | _ => ([], p)
  end.
Fixpoint prun (u : nat) (evs : list event) (p : pcall) : list (nat * call_status) * pcall :=
  match evs with
  | [] => ([], p)
  | e :: r => let (o, p) := pstep u e p in let (o', p) := prun u r p in (o ++ o', p)
  end.

(** invariant: uuids in use have been generated *)
Definition bounded (c : client) : Prop :=
  (forall u, In u (map fst (c_active c)) -> (u < c_next c)%nat) /\
  (forall u, In u (map snd (c_timeouts c)) -> (u < c_next c)%nat) /\
  (forall u, In u (c_open c) -> (u < c_next c)%nat) /\
  (c_timeouts c <> [] -> c_ticking c = true).

Lemma sweep_spec : forall dur l,
  sweep dur l = (map (fun e => (fst e - dur, snd e)) (filter (fun e => negb (fst e - dur <=? 0)) l),
                 map snd (filter (fun e => fst e - dur <=? 0) l)).
Proof.
  intros dur. induction l as [|[t u] r IH]; [reflexivity|]. cbn [sweep filter fst snd]. rewrite IH.
  destruct (t - dur <=? 0); cbn [negb map fst snd]; reflexivity.
Qed.

(** with a handler the loop over the expired entries reports every expired call that is still active *)
Lemma expire_spec : forall gone a u,
  find_call u (snd (expire true gone a)) = (if existsb (Nat.eqb u) gone then None else find_call u a) /\
  results u (fst (expire true gone a)) =
    (if existsb (Nat.eqb u) gone then match find_call u a with Some (_, ctx) => [(ctx, Timeout)] | None => [] end else []).
Proof.
  induction gone as [|v r IH]; intros a u; cbn [expire existsb]; [split; reflexivity|].
  destruct (find_call v a) as [[n ctx]|] eqn:F.
  - specialize (IH (erase_call v a) u). destruct (expire true r (erase_call v a)) as [o a'] eqn:E. cbn [fst snd] in *.
    destruct IH as [I1 I2]. rewrite I1. unfold results in *. cbn [flat_map]. rewrite I2, find_erase, (Nat.eqb_sym u v).
    destruct (Nat.eqb_spec v u) as [->|N]; cbn [orb].
    + rewrite F. destruct (existsb (Nat.eqb u) r); split; reflexivity.
    + split; reflexivity.
  - specialize (IH a u). destruct (expire true r a) as [o a'] eqn:E. cbn [fst snd] in *.
    destruct IH as [I1 I2]. rewrite I1. unfold results in *. cbn [flat_map]. rewrite I2.
    destruct (Nat.eqb_spec u v) as [->|N]; cbn [orb]; [|split; reflexivity].
    rewrite F. destruct (existsb (Nat.eqb v) r); split; reflexivity.
Qed.
Lemma expire_keys : forall h gone a x, In x (map fst (snd (expire h gone a))) -> In x (map fst a).
Proof.
  assert (K : forall v (a : list (nat * (Z * nat))) x, In x (map fst (erase_call v a)) -> In x (map fst a)).
  { intros v a x H. apply in_map_iff in H. destruct H as (e & <- & H). apply filter_In in H. apply in_map, H. }
  intros h. induction gone as [|v r IH]; intros a x H; cbn [expire] in H; [exact H|].
  destruct (find_call v a) as [[n ctx]|].
  - destruct h; [|cbn in H; eauto]. specialize (IH (erase_call v a) x).
    destruct (expire true r (erase_call v a)) as [o a']; cbn [fst snd] in *. eauto.
  - specialize (IH a x). destruct (expire h r a) as [o a']; cbn [fst snd] in *. eauto.
Qed.

Lemma entries_app : forall u a b, entries u (a ++ b) = entries u a ++ entries u b.
Proof. intros. unfold entries. rewrite filter_app, map_app. reflexivity. Qed.
Lemma entries_keep : forall u dur l,
  entries u (map (fun e => (fst e - dur, snd e)) (filter (fun e => negb (fst e - dur <=? 0)) l)) =
  map (fun d => d - dur) (filter (fun d => negb (d - dur <=? 0)) (entries u l)).
Proof.
  intros u dur. induction l as [|[t v] r IH]; [reflexivity|]. unfold entries in *. cbn [filter fst snd].
  destruct (t - dur <=? 0) eqn:L; cbn [negb map filter fst snd]; destruct (v =? u)%nat eqn:V;
    cbn [map filter fst snd]; rewrite ?L; cbn [negb map filter fst snd]; rewrite ?IH; reflexivity.
Qed.
Lemma due_gone : forall u dur l,
  existsb (Nat.eqb u) (map snd (filter (fun e => fst e - dur <=? 0) l)) = due dur (entries u l).
Proof.
  intros u dur. induction l as [|[t v] r IH]; [reflexivity|]. unfold entries, due in *. cbn [filter fst snd].
  rewrite (Nat.eqb_sym v u).
  destruct (t - dur <=? 0) eqn:L; cbn [map existsb fst snd]; destruct (u =? v)%nat eqn:V; cbn [map existsb fst snd orb];
    rewrite ?L; cbn [orb]; auto.
Qed.

Lemma in_keys_erase : forall v (a : list (nat * (Z * nat))) x, In x (map fst (erase_call v a)) -> In x (map fst a).
Proof. intros v a x H. apply in_map_iff in H. destruct H as (e & <- & H). apply filter_In in H. apply in_map, H. Qed.
Lemma in_keys_update : forall v r (a : list (nat * (Z * nat))) x, In x (map fst (update_call v r a)) -> In x (map fst a).
Proof.
  intros v r a x H. unfold update_call in H. rewrite map_map in H. apply in_map_iff in H. destruct H as (e & <- & H).
  destruct (fst e =? v)%nat; cbn [fst]; exact (in_map fst _ _ H).
Qed.
Lemma in_remove_open : forall v l x, In x (remove_open v l) -> In x l.
Proof. intros v. induction l as [|w r IH]; intros x H; cbn in *; [auto|]. destruct (w =? v)%nat; cbn in *; intuition. Qed.

Lemma step_bounded : forall e c, bounded c -> bounded (snd (step e c)).
Proof.
  intros e c (A & T & O & K). destruct e as [ctx t|u st|u|now dur|m|m|h]; cbn [step].
  - unfold trigger_call. destruct (c_count c =? 0); [repeat split; auto|]. unfold bounded. cbn [snd c_active c_timeouts c_next c_ticking c_open].
    repeat split.
    + intros u H. rewrite map_app in H. apply in_app_or in H. destruct H as [H|H]; [specialize (A u H); lia|]. cbn in H. intuition lia.
    + intros u H. destruct t as [d|]; [rewrite map_app in H; apply in_app_or in H; destruct H as [H|H]|].
      * specialize (T u H); lia.
      * cbn in H. intuition lia.
      * specialize (T u H); lia.
    + intros u H. specialize (O u H); lia.
    + destruct t; auto.
  - unfold begin_response. destruct (find_call u (c_active c)) as [[r ctx]|] eqn:F; [|repeat split; auto].
    unfold bounded. cbn [snd c_active c_timeouts c_next c_ticking c_open]. repeat split; auto.
    intros v H. apply in_app_or in H. destruct H as [H|H]; [auto|]. cbn in H. destruct H as [<-|[]]. apply A. eapply find_in; eauto.
  - unfold end_response. destruct (existsb (Nat.eqb u) (c_open c)); [|repeat split; auto].
    destruct (find_call u (c_active c)) as [[r ctx]|] eqn:F; unfold bounded; cbn [snd c_active c_timeouts c_next c_ticking c_open].
    + repeat split; auto.
      * intros v H. destruct (r - 1 <=? 0); [apply in_keys_erase in H|apply in_keys_update in H]; auto.
      * intros v H. apply in_remove_open in H. auto.
    + repeat split; auto. intros v H. apply in_remove_open in H. auto.
  - unfold time_handler. destruct (c_ticking c) eqn:TK; [|rewrite <- TK in K; exact (conj A (conj T (conj O K)))].
    destruct (sweep dur (c_timeouts c)) as [keep gone] eqn:S.
    destruct (expire (c_handler c) gone (c_active c)) as [o a] eqn:E.
    unfold bounded. cbn [snd c_active c_timeouts c_next c_ticking c_open]. rewrite sweep_spec in S. injection S as <- _.
    repeat split; auto.
    + intros v H. apply A. pose proof (expire_keys (c_handler c) gone (c_active c) v) as X. rewrite E in X. auto.
    + intros v H. rewrite map_map in H. cbn [snd] in H. apply T. apply in_map_iff in H. destruct H as (x & <- & H).
      apply filter_In in H. apply in_map, H.
  - destruct m; repeat split; auto.
  - destruct m; repeat split; auto.
  - repeat split; auto.
Qed.
Lemma run_bounded : forall evs c, bounded c -> bounded (snd (run evs c)).
Proof. induction evs as [|e r IH]; intros c B; [exact B|]. rewrite run_cons. cbn [snd]. apply IH, step_bounded, B. Qed.
Lemma bounded0 : forall h, bounded (client0 h).
Proof. intros h. unfold bounded, client0. cbn. repeat split; try tauto; congruence. Qed.

Lemma next_step : forall e c, c_next (snd (step e c)) = (c_next c + sent (fst (step e c)))%nat.
Proof.
  assert (X : forall h gone a, sent (fst (expire h gone a)) = 0%nat).
  { intros h. induction gone as [|v r IH]; intros a; cbn [expire]; [reflexivity|].
    destruct (find_call v a) as [[n ctx]|]; [destruct h; [|reflexivity]|].
    - specialize (IH (erase_call v a)). destruct (expire true r (erase_call v a)); exact IH.
    - specialize (IH a). destruct (expire h r a); exact IH. }
  intros e c. destruct e as [ctx t|u st|u|now dur|m|m|h]; cbn [step].
  - unfold trigger_call. destruct (c_count c =? 0).
    + destruct (c_handler c); cbn; lia.
    + cbn [fst snd c_next]. unfold sent. cbn. lia.
  - unfold begin_response. destruct (find_call u (c_active c)) as [[r ctx]|]; [destruct (c_handler c)|]; cbn; lia.
  - unfold end_response. destruct (existsb (Nat.eqb u) (c_open c)); [destruct (find_call u (c_active c)) as [[r ctx]|]|]; cbn; lia.
  - unfold time_handler. destruct (c_ticking c); [|cbn; lia]. destruct (sweep dur (c_timeouts c)) as [keep gone].
    specialize (X (c_handler c) gone (c_active c)). destruct (expire (c_handler c) gone (c_active c)) as [o a]. cbn [fst snd c_next] in *. lia.
  - destruct m; cbn; lia.
  - destruct m; cbn; lia.
  - cbn; lia.
Qed.
Lemma next_run : forall evs c, c_next (snd (run evs c)) = (c_next c + sent (fst (run evs c)))%nat.
Proof.
  induction evs as [|e r IH]; intros c; [cbn; lia|]. rewrite run_cons. cbn [fst snd]. rewrite IH, next_step, sent_app. lia.
Qed.

(** ** The projection on a call that has been made *)
Lemma proj_step : forall u e c, bounded c -> (u < c_next c)%nat -> c_handler c = true ->
  results u (fst (step e c)) = fst (pstep u e (proj u c)) /\ proj u (snd (step e c)) = snd (pstep u e (proj u c)).
Proof.
  intros u e c B L H. destruct e as [ctx t|v st|v|now dur|m|m|h]; cbn [step pstep fst snd].
  - unfold trigger_call. rewrite H. destruct (c_count c =? 0); [split; reflexivity|]. cbn [fst snd]. split; [reflexivity|].
    unfold proj. cbn [c_active c_timeouts c_open]. f_equal.
    + rewrite find_app. cbn [find_call]. destruct (Nat.eqb_spec (c_next c) u); [lia|]. destruct (find_call u (c_active c)); reflexivity.
    + destruct t as [d|]; [|reflexivity]. rewrite entries_app. unfold entries at 2. cbn [filter snd].
      destruct (Nat.eqb_spec (c_next c) u); [lia|]. apply app_nil_r.
  - unfold begin_response, proj. rewrite H. cbn [p_call p_left p_held].
    destruct (Nat.eqb_spec v u) as [->|N].
    + destruct (find_call u (c_active c)) as [[r ctx]|] eqn:F; cbn [fst snd c_active c_timeouts c_open].
      * unfold results. cbn [flat_map app]. rewrite Nat.eqb_refl, F. split; [reflexivity|].
        f_equal. rewrite held_app. unfold held at 2. cbn. rewrite Nat.eqb_refl. cbn. lia.
      * rewrite F. split; reflexivity.
    + destruct (find_call v (c_active c)) as [[r ctx]|] eqn:F; cbn [fst snd c_active c_timeouts c_open].
      * unfold results. cbn [flat_map app]. destruct (Nat.eqb_spec v u); [congruence|]. split; [reflexivity|].
        f_equal. rewrite held_app. unfold held at 2. cbn. destruct (Nat.eqb_spec u v); [congruence|]. cbn. lia.
      * split; reflexivity.
  - unfold end_response, proj. cbn [p_call p_left p_held]. rewrite held_in.
    destruct (Nat.eqb_spec v u) as [->|N].
    + destruct (0 <? held u (c_open c))%nat; [|split; reflexivity].
      destruct (find_call u (c_active c)) as [[r ctx]|] eqn:F; cbn [fst snd c_active c_timeouts c_open].
      * split; [reflexivity|]. f_equal.
        -- destruct (r - 1 <=? 0).
           ++ rewrite find_erase, Nat.eqb_refl. reflexivity.
           ++ rewrite find_update, Nat.eqb_refl, F. reflexivity.
        -- rewrite held_remove, Nat.eqb_refl. reflexivity.
      * split; [reflexivity|]. rewrite F. f_equal. rewrite held_remove, Nat.eqb_refl. reflexivity.
    + destruct (0 <? held v (c_open c))%nat; [|split; reflexivity].
      destruct (find_call v (c_active c)) as [[r ctx]|] eqn:F; cbn [fst snd c_active c_timeouts c_open].
      * split; [reflexivity|]. f_equal.
        -- destruct (r - 1 <=? 0).
           ++ rewrite find_erase. destruct (Nat.eqb_spec v u); [congruence|reflexivity].
           ++ rewrite find_update. destruct (Nat.eqb_spec v u); [congruence|reflexivity].
        -- rewrite held_remove. destruct (Nat.eqb_spec v u); [congruence|reflexivity].
      * split; [reflexivity|]. f_equal. rewrite held_remove. destruct (Nat.eqb_spec v u); [congruence|reflexivity].
  - unfold time_handler. destruct B as (_ & _ & _ & K). destruct (c_ticking c).
    + rewrite sweep_spec. rewrite H. destruct (expire true (map snd (filter (fun e => fst e - dur <=? 0) (c_timeouts c))) (c_active c)) as [o a] eqn:E.
      pose proof (expire_spec (map snd (filter (fun e => fst e - dur <=? 0) (c_timeouts c))) (c_active c) u) as [X1 X2].
      rewrite E in X1, X2. cbn [fst snd] in *. rewrite due_gone in X1, X2. rewrite X2. unfold proj at 3 4 5 6 7 8 9 10.
      unfold proj. cbn [c_active c_timeouts c_open p_call p_left p_held]. rewrite X1, entries_keep.
      destruct (due dur (entries u (c_timeouts c))); split; reflexivity.
    + destruct (c_timeouts c) as [|x r] eqn:T; [|assert (false = true) by (apply K; discriminate); discriminate].
      unfold proj. cbn [fst snd]. rewrite T. split; reflexivity.
  - destruct m; split; reflexivity.
  - destruct m; split; reflexivity.
  - split; reflexivity.
Qed.

Lemma handled_step : forall e c, c_handler c = true -> e <> SetHandler false -> c_handler (snd (step e c)) = true.
Proof.
  intros e c H N. destruct e as [ctx t|v st|v|now dur|m|m|h]; cbn [step].
  - unfold trigger_call. destruct (c_count c =? 0); auto.
  - unfold begin_response. destruct (find_call v (c_active c)) as [[r ctx]|]; auto.
  - unfold end_response. destruct (existsb (Nat.eqb v) (c_open c)); [destruct (find_call v (c_active c)) as [[r ctx]|]|]; auto.
  - unfold time_handler. destruct (c_ticking c); [|auto]. destruct (sweep dur (c_timeouts c)) as [keep gone].
    destruct (expire (c_handler c) gone (c_active c)) as [o a]. auto.
  - destruct m; auto.
  - destruct m; auto.
  - destruct h; [reflexivity|congruence].
Qed.
Lemma handled_run : forall evs c, c_handler c = true -> handled evs -> c_handler (snd (run evs c)) = true.
Proof.
  induction evs as [|e r IH]; intros c H N; [exact H|]. rewrite run_cons. cbn [snd]. apply IH.
  - apply handled_step; [exact H|]. intros ->. apply N. left. reflexivity.
  - intros X. apply N. right. exact X.
Qed.
Lemma prun_cons : forall u e r p, prun u (e :: r) p =
  (fst (pstep u e p) ++ fst (prun u r (snd (pstep u e p))), snd (prun u r (snd (pstep u e p)))).
Proof. intros. cbn [prun]. destruct (pstep u e p) as [o q]. cbn [fst snd]. destruct (prun u r q); reflexivity. Qed.
Lemma proj_run : forall u evs c, bounded c -> (u < c_next c)%nat -> c_handler c = true -> handled evs ->
  results u (fst (run evs c)) = fst (prun u evs (proj u c)) /\ proj u (snd (run evs c)) = snd (prun u evs (proj u c)).
Proof.
  intros u. induction evs as [|e r IH]; intros c B L H N; [split; reflexivity|].
  rewrite run_cons, prun_cons. cbn [fst snd]. rewrite results_app.
  destruct (proj_step u e c B L H) as [S1 S2].
  destruct (IH (snd (step e c))) as [I1 I2].
  - apply step_bounded, B.
  - rewrite next_step. lia.
  - apply handled_step; [exact H|]. intros ->. apply N. left. reflexivity.
  - intros X. apply N. right. exact X.
  - rewrite S1, I1, I2, S2. split; reflexivity.
Qed.

(** ** Before the call is made nothing is delivered for it *)
Lemma unknown_step : forall u e c, bounded c -> (c_next c <= u)%nat -> results u (fst (step e c)) = [].
Proof.
  intros u e c (A & T & O & K) L.
  assert (F0 : forall x, ~ In u (map fst x) -> find_call u x = None).
  { intros x N. destruct (find_call u x) eqn:F; [|reflexivity]. elim N. eapply find_in; eauto. }
  assert (N : ~ In u (map fst (c_active c))) by (intros X; specialize (A u X); lia).
  destruct e as [ctx t|v st|v|now dur|m|m|h]; cbn [step].
  - unfold trigger_call. destruct (c_count c =? 0); [destruct (c_handler c)|]; reflexivity.
  - unfold begin_response. destruct (Nat.eqb_spec v u) as [->|D].
    + rewrite (F0 _ N). reflexivity.
    + destruct (find_call v (c_active c)) as [[r ctx]|]; [|reflexivity]. destruct (c_handler c); [|reflexivity].
      cbn. destruct (Nat.eqb_spec v u); [congruence|reflexivity].
  - unfold end_response. destruct (existsb (Nat.eqb v) (c_open c)); [destruct (find_call v (c_active c)) as [[r ctx]|]|]; reflexivity.
  - unfold time_handler. destruct (c_ticking c); [|reflexivity]. destruct (sweep dur (c_timeouts c)) as [keep gone].
    assert (X : forall gone a, ~ In u (map fst a) -> results u (fst (expire (c_handler c) gone a)) = []).
    { clear - F0. induction gone as [|v r IH]; intros a N; cbn [expire]; [reflexivity|].
      destruct (find_call v a) as [[n ctx]|] eqn:F.
      - assert (v <> u) by (intros ->; rewrite (F0 _ N) in F; discriminate).
        destruct (c_handler c); [|reflexivity].
        specialize (IH (erase_call v a)). destruct (expire true r (erase_call v a)) as [o a']. cbn [fst] in *.
        unfold results in *. cbn [flat_map]. destruct (Nat.eqb_spec v u); [congruence|]. apply IH.
        intros Y. apply N. eapply in_keys_erase; eauto.
      - specialize (IH a N). destruct (expire (c_handler c) r a) as [o a']. cbn [fst] in *. exact IH. }
    specialize (X gone (c_active c) N). destruct (expire (c_handler c) gone (c_active c)) as [o a]. exact X.
  - destruct m; reflexivity.
  - destruct m; reflexivity.
  - reflexivity.
Qed.
Lemma unknown_run : forall u evs c, bounded c -> (c_next c + sent (fst (run evs c)) <= u)%nat -> results u (fst (run evs c)) = [].
Proof.
  intros u. induction evs as [|e r IH]; intros c B L; [reflexivity|].
  rewrite run_cons in *. cbn [fst] in *. rewrite sent_app in L. rewrite results_app, unknown_step; [|exact B|lia].
  apply IH; [apply step_bounded, B|]. rewrite next_step. lia.
Qed.

(** ** Counting servers *)
Lemma count_step : forall e c, c_count (snd (step e c)) =
  match e with Discovered true => wrap32 (c_count c + 1) | Departed true => wrap32 (c_count c - 1) | _ => c_count c end.
Proof.
  intros e c. destruct e as [ctx t|v st|v|now dur|m|m|h]; cbn [step].
  - unfold trigger_call. destruct (c_count c =? 0); auto.
  - unfold begin_response. destruct (find_call v (c_active c)) as [[r ctx]|]; auto.
  - unfold end_response. destruct (existsb (Nat.eqb v) (c_open c)); [destruct (find_call v (c_active c)) as [[r ctx]|]|]; auto.
  - unfold time_handler. destruct (c_ticking c); [|auto]. destruct (sweep dur (c_timeouts c)) as [keep gone].
    destruct (expire (c_handler c) gone (c_active c)) as [o a]. auto.
  - destruct m; auto.
  - destruct m; auto.
  - reflexivity.
Qed.
Lemma counted_app : forall a b, counted (a ++ b) -> counted a.
Proof. intros a b C p q ->. apply (C p (q ++ b)). rewrite app_assoc. reflexivity. Qed.
Lemma count_run : forall h evs, counted evs -> c_count (snd (run evs (client0 h))) = servers evs.
Proof.
  intros h evs. induction evs as [|e r IH] using rev_ind; intros C; [reflexivity|].
  rewrite run_snoc. cbn [snd]. rewrite count_step, (IH (counted_app _ _ C)), servers_app.
  pose proof (C (r ++ [e]) [] (eq_sym (app_nil_r _))) as B1. pose proof (C r [e] eq_refl) as B0.
  rewrite servers_app in B1.
  destruct e as [| | | |[]|[]|]; cbn [servers fold_right] in *; unfold wrap32; try lia; rewrite Z.mod_small; lia.
Qed.

(** state right after a call has been made *)
Lemma call_step : forall ctx t c, bounded c -> 0 < c_count c < 2147483648 ->
  fst (step (Call ctx t) c) = [Sent (c_next c)] /\
  proj (c_next c) (snd (step (Call ctx t) c)) = mkP (Some (c_count c, ctx)) (match t with Some d => [d] | None => [] end) 0.
Proof.
  intros ctx t c (A & T & O & K) P. cbn [step]. unfold trigger_call. destruct (Z.eqb_spec (c_count c) 0); [lia|].
  cbn [fst snd]. split; [reflexivity|]. unfold proj. cbn [c_active c_timeouts c_open]. f_equal.
  - rewrite find_app. destruct (find_call (c_next c) (c_active c)) eqn:F.
    + apply find_in, A in F. lia.
    + cbn [find_call]. rewrite Nat.eqb_refl. unfold to_int32. destruct (Z.ltb_spec (c_count c) 2147483648); [reflexivity|lia].
  - assert (E : entries (c_next c) (c_timeouts c) = []).
    { unfold entries. induction (c_timeouts c) as [|[x v] r IH]; [reflexivity|]. cbn [filter snd].
      destruct (Nat.eqb_spec v (c_next c)) as [E|N].
      - specialize (T v). cbn in T. lia.
      - apply IH; [|intros _; apply K; discriminate]. intros w Hw. apply T. right. exact Hw. }
    destruct t as [d|]; [|exact E]. rewrite entries_app, E. unfold entries. cbn [filter snd]. rewrite Nat.eqb_refl. reflexivity.
  - unfold held. induction (c_open c) as [|v r IH]; [reflexivity|]. cbn [filter].
    destruct (Nat.eqb_spec (c_next c) v) as [E|N].
    + specialize (O v). cbn in O. lia.
    + apply IH. intros w Hw. apply O. right. exact Hw.
Qed.

Lemma handled_app : forall a b, handled (a ++ b) -> handled a /\ handled b.
Proof. intros a b H. split; intros X; apply H, in_or_app; auto. Qed.

Lemma call_results : forall t1 ctx t t2, counted t1 -> 0 < servers t1 -> handled (t1 ++ Call ctx t :: t2) ->
  results (sent (fst (run t1 (client0 true)))) (fst (run (t1 ++ Call ctx t :: t2) (client0 true))) =
  fst (prun (sent (fst (run t1 (client0 true)))) t2
        (mkP (Some (servers t1, ctx)) (match t with Some d => [d] | None => [] end) 0)).
Proof.
  intros t1 ctx t t2 C P H. apply handled_app in H. destruct H as [H1 H2].
  assert (H3 : handled t2) by (intros X; apply H2; right; exact X).
  set (u := sent (fst (run t1 (client0 true)))). rewrite run_app, run_cons. cbn [fst snd]. rewrite !results_app.
  rewrite unknown_run; [|apply bounded0|unfold u; cbn; lia]. cbn [app].
  pose proof (run_bounded t1 _ (bounded0 true)) as B. pose proof (next_run t1 (client0 true)) as N. cbn [client0 c_next] in N.
  change (0 + sent (fst (run t1 (client0 true))))%nat with u in N.
  pose proof (count_run true t1 C) as CC.
  pose proof (handled_run t1 (client0 true) eq_refl H1) as HH.
  set (c := snd (run t1 (client0 true))) in *.
  destruct (call_step ctx t c B) as [S1 S2].
  { rewrite CC. specialize (C t1 [] (eq_sym (app_nil_r _))). lia. }
  rewrite S1. cbn [results flat_map app].
  destruct (proj_run u t2 (snd (step (Call ctx t) c))) as [R _]; auto.
  - apply step_bounded, B.
  - rewrite next_step, S1. cbn. lia.
  - apply handled_step; [exact HH|discriminate].
  - rewrite R. rewrite <- N, S2, CC. reflexivity.
Qed.

(** ** The per-call machine, calls without timeout *)
Lemma prun_dead : forall u t2 l k, fst (prun u t2 (mkP None l k)) = [].
Proof.
  intros u. induction t2 as [|e r IH]; intros l k; [reflexivity|]. rewrite prun_cons. cbn [fst].
  destruct e as [ctx t|v st|v|now dur|m|m|h]; cbn [pstep fst snd p_call p_left p_held]; try apply IH.
  - destruct (v =? u)%nat; apply IH.
  - destruct (v =? u)%nat; [destruct (0 <? k)%nat|]; cbn [fst snd app]; apply IH.
  - destruct (due dur l); cbn [fst snd app]; apply IH.
Qed.

(** sequential handling *)
Lemma seq_results : forall u ctx t2 n, sequential t2 -> 0 < n ->
  fst (prun u t2 (mkP (Some (n, ctx)) [] 0)) = map (fun st => (ctx, to_call_status st)) (firstn (Z.to_nat n) (responses u t2)).
Proof.
  intros u ctx t2. remember (List.length t2) as len eqn:E. assert (L : (List.length t2 <= len)%nat) by lia. clear E.
  revert t2 L. induction len as [|len IH]; intros t2 L n S P.
  { destruct t2; [|cbn in L; lia]. cbn. rewrite firstn_nil. reflexivity. }
  destruct t2 as [|e r]; [cbn; rewrite firstn_nil; reflexivity|]. cbn [List.length] in L.
  destruct e as [cx t|v st|v|now dur|m|m|h]; try (rewrite prun_cons; cbn [pstep fst snd app]; apply (IH r); [lia|exact S|exact P]).
  - destruct r as [|e' r]; [destruct S|]. destruct e'; try (exact (False_ind _ S)). destruct S as [-> S].
    rewrite !prun_cons. cbn [pstep]. unfold responses. cbn [flat_map]. fold (responses u r).
    destruct (Nat.eqb_spec u0 u) as [->|N]; cbn [fst snd p_call p_left p_held pred app Nat.ltb Nat.leb].
    + destruct (Z.leb_spec (n - 1) 0).
      * rewrite prun_dead. replace n with 1 by lia. reflexivity.
      * cbn [List.length] in L. rewrite IH; [|lia|exact S|lia]. replace (Z.to_nat n) with (Datatypes.S (Z.to_nat (n - 1))) by lia. reflexivity.
    + apply (IH r); [cbn [List.length] in L; lia|exact S|exact P].
  - destruct S.
Qed.

(** arbitrary overlap of responses, no more than expected *)
Lemma overlap_results : forall u ctx t2 n k, 0 < n -> Z.of_nat k + Z.of_nat (List.length (responses u t2)) <= n ->
  (forall p q, t2 = p ++ q -> ends u p <= k + begins u p)%nat ->
  fst (prun u t2 (mkP (Some (n, ctx)) [] k)) = map (fun st => (ctx, to_call_status st)) (responses u t2).
Proof.
  intros u ctx t2. induction t2 as [|e r IH]; intros n k P B M; [reflexivity|]. rewrite prun_cons.
  assert (M' : (forall p q, r = p ++ q -> ends u (e :: p) <= k + begins u (e :: p))%nat).
  { intros p q ->. apply (M (e :: p) q). reflexivity. }
  assert (QB : forall st x, responses u (Begin u st :: x) = st :: responses u x).
  { intros st x. unfold responses. cbn [flat_map]. rewrite Nat.eqb_refl. reflexivity. }
  destruct e as [cx t|v st|v|now dur|m|m|h]; try (cbn [pstep fst snd app]; apply (IH n k); [exact P|exact B|exact M']).
  - cbn [pstep fst snd p_call p_left p_held]. destruct (Nat.eqb_spec v u) as [->|N].
    + rewrite QB in *. cbn [List.length map fst snd app] in *. f_equal. apply IH; [lia|lia|].
      intros p q E. specialize (M' p q E). unfold begins in *. rewrite QB in M'. cbn [List.length] in M'.
      change (ends u (Begin u st :: p)) with (ends u p) in M'. lia.
    + assert (QN : forall x, responses u (Begin v st :: x) = responses u x).
      { intros x. unfold responses. cbn [flat_map]. destruct (Nat.eqb_spec v u); [congruence|reflexivity]. }
      rewrite QN in *. cbn [fst snd app]. apply IH; [exact P|exact B|].
      intros p q E. specialize (M' p q E). unfold begins in *. rewrite QN in M'. exact M'.
  - change (responses u (End v :: r)) with (responses u r) in *.
    assert (BE : forall x, begins u (End v :: x) = begins u x) by reflexivity.
    cbn [pstep]. destruct (Nat.eqb_spec v u) as [->|N].
    + assert (EE : forall x, ends u (End u :: x) = S (ends u x)).
      { intros x. unfold ends. cbn [filter]. rewrite Nat.eqb_refl. reflexivity. }
      assert (K : (0 < k)%nat). { specialize (M' [] r eq_refl). rewrite EE, BE in M'. cbn in M'. lia. }
      cbn [p_held p_call p_left]. destruct (Nat.ltb_spec 0 k); [|lia]. cbn [fst snd app].
      destruct (Z.leb_spec (n - 1) 0).
      * rewrite prun_dead. destruct (responses u r); [reflexivity|cbn [List.length] in B; lia].
      * apply IH; [lia|lia|]. intros p q E. specialize (M' p q E). rewrite EE, BE in M'. lia.
    + assert (EE : forall x, ends u (End v :: x) = ends u x).
      { intros x. unfold ends. cbn [filter]. destruct (Nat.eqb_spec v u); [congruence|reflexivity]. }
      cbn [fst snd app]. apply IH; [exact P|exact B|]. intros p q E. specialize (M' p q E). rewrite EE, BE in M'. exact M'.
Qed.

(** ** Calls with a timeout, sequential handling *)
Lemma due_one : forall dur d, due dur [d] = (d - dur <=? 0).
Proof. intros. unfold due. cbn [existsb]. apply orb_false_r. Qed.

(** no tick crosses the limit: as if there was no timeout *)
Lemma alive_prun : forall u a d n ctx, sequential a -> ~ expired d a -> 0 < n ->
  fst (prun u a (mkP (Some (n, ctx)) [d] 0)) = map (fun st => (ctx, to_call_status st)) (firstn (Z.to_nat n) (responses u a)) /\
  snd (prun u a (mkP (Some (n, ctx)) [d] 0)) =
    mkP (if Z.of_nat (List.length (responses u a)) <? n then Some (n - Z.of_nat (List.length (responses u a)), ctx) else None)
        [d - elapsed a] 0.
Proof.
  assert (DEAD : forall u len a d, (List.length a <= len)%nat -> sequential a -> ~ expired d a ->
    snd (prun u a (mkP None [d] 0)) = mkP None [d - elapsed a] 0).
  { intros u. induction len as [|len IH]; intros a d L S X.
    { destruct a; [|cbn in L; lia]. cbn. f_equal. f_equal. lia. }
    destruct a as [|e r]; [cbn; f_equal; f_equal; lia|]. cbn [List.length] in L.
    assert (X' : (forall now dur, e <> Tick now dur) -> ~ expired d r).
    { intros NT (p & now & dur & q & E & Q). apply X. exists (e :: p), now, dur, q. split; [rewrite E; reflexivity|].
      destruct e; auto. elim (NT now0 dur0). reflexivity. }
    rewrite prun_cons. destruct e as [cx t|v st|v|now dur|m|m|h];
      try (cbn [pstep fst snd]; apply (IH r); [lia|exact S|apply X'; discriminate]).
    - destruct r as [|e' r]; [destruct S|]. destruct e'; try (exact (False_ind _ S)). destruct S as [-> S].
      cbn [pstep snd p_call p_left p_held]. cbn [List.length] in L. rewrite prun_cons. cbn [pstep p_held Nat.ltb Nat.leb].
      destruct (Nat.eqb_spec u0 u); cbn [snd]; (apply (IH r d); [lia|exact S|]);
        intros (p & now & dur & q & E & Q); apply X; exists (Begin u0 st :: End u0 :: p), now, dur, q; (split; [rewrite E; reflexivity|exact Q]).
    - destruct S.
    - cbn [pstep snd p_call p_left p_held]. rewrite due_one.
      destruct (Z.leb_spec (d - dur) 0).
      { elim X. exists [], now, dur, r. split; [reflexivity|]. cbn. lia. }
      cbn [snd filter]. destruct (Z.leb_spec (d - dur) 0); [lia|]. cbn [negb map].
      rewrite IH; [|lia|exact S|].
      + cbn [elapsed fold_right]. fold (elapsed r). f_equal. f_equal. lia.
      + intros (p & now' & dur' & q & E & Q). apply X. exists (Tick now dur :: p), now', dur', q. split; [rewrite E; reflexivity|].
        cbn [elapsed fold_right]. fold (elapsed p). lia. }
  intros u a. remember (List.length a) as len eqn:E. assert (L : (List.length a <= len)%nat) by lia. clear E.
  revert a L. induction len as [|len IH]; intros a L d n ctx S X P.
  { destruct a; [|cbn in L; lia]. cbn. rewrite firstn_nil. split; [reflexivity|]. destruct (Z.ltb_spec 0 n); [|lia].
    f_equal; [f_equal; f_equal; lia|f_equal; lia]. }
  destruct a as [|e r].
  { cbn. rewrite firstn_nil. split; [reflexivity|]. destruct (Z.ltb_spec 0 n); [|lia]. f_equal; [f_equal; f_equal; lia|f_equal; lia]. }
  cbn [List.length] in L.
  assert (X' : (forall now dur, e <> Tick now dur) -> ~ expired d r).
  { intros NT (p & now & dur & q & E & Q). apply X. exists (e :: p), now, dur, q. split; [rewrite E; reflexivity|].
    destruct e; auto. elim (NT now0 dur0). reflexivity. }
  destruct e as [cx t|v st|v|now dur|m|m|h];
    try (rewrite prun_cons; cbn [pstep fst snd app]; apply (IH r); [lia|exact S|apply X'; discriminate|exact P]).
  - destruct r as [|e' r]; [destruct S|]. destruct e'; try (exact (False_ind _ S)). destruct S as [-> S].
    assert (X2 : ~ expired d r).
    { intros (p & now & dur & q & E & Q). apply X. exists (Begin u0 st :: End u0 :: p), now, dur, q. split; [rewrite E; reflexivity|exact Q]. }
    cbn [List.length] in L. change (elapsed (Begin u0 st :: End u0 :: r)) with (elapsed r).
    rewrite !prun_cons. cbn [pstep]. unfold responses. cbn [flat_map]. fold (responses u r).
    destruct (Nat.eqb_spec u0 u) as [->|N]; cbn [fst snd p_call p_left p_held pred app Nat.ltb Nat.leb].
    + destruct (Z.leb_spec (n - 1) 0).
      * rewrite prun_dead, (DEAD u len); [|lia|exact S|exact X2]. replace n with 1 by lia. cbn [List.length]. split; [reflexivity|].
        destruct (Z.ltb_spec (Z.of_nat (Datatypes.S (List.length (responses u r)))) 1); [lia|reflexivity].
      * destruct (IH r ltac:(lia) d (n - 1) ctx S X2 ltac:(lia)) as [I1 I2]. rewrite I1, I2.
        replace (Z.to_nat n) with (Datatypes.S (Z.to_nat (n - 1))) by lia. split; [reflexivity|].
        cbn [List.length]. f_equal.
        destruct (Z.ltb_spec (Z.of_nat (List.length (responses u r))) (n - 1));
          destruct (Z.ltb_spec (Z.of_nat (Datatypes.S (List.length (responses u r)))) n); try lia; [f_equal; f_equal; lia|reflexivity].
    + apply (IH r ltac:(lia) d n ctx S X2 P).
  - destruct S.
  - rewrite prun_cons. cbn [pstep snd p_call p_left p_held]. rewrite due_one.
    destruct (Z.leb_spec (d - dur) 0).
    { elim X. exists [], now, dur, r. split; [reflexivity|]. cbn. lia. }
    cbn [fst snd filter app]. destruct (Z.leb_spec (d - dur) 0); [lia|]. cbn [negb map].
    assert (X2 : ~ expired (d - dur) r).
    { intros (p & now' & dur' & q & E & Q). apply X. exists (Tick now dur :: p), now', dur', q. split; [rewrite E; reflexivity|].
      cbn [elapsed fold_right]. fold (elapsed p). lia. }
    destruct (IH r ltac:(lia) (d - dur) n ctx S X2 P) as [I1 I2]. rewrite I1, I2. split; [reflexivity|].
    cbn [elapsed fold_right]. fold (elapsed r). f_equal. f_equal. lia.
Qed.

Lemma prun_app : forall u a b p, prun u (a ++ b) p =
  (fst (prun u a p) ++ fst (prun u b (snd (prun u a p))), snd (prun u b (snd (prun u a p)))).
Proof.
  intros u. induction a as [|e r IH]; intros b p; cbn [app].
  - cbn [prun fst snd app]. destruct (prun u b p); reflexivity.
  - rewrite !prun_cons, IH. cbn [fst snd]. rewrite app_assoc. reflexivity.
Qed.
Lemma sequential_app : forall a now dur b, sequential (a ++ Tick now dur :: b) -> sequential a /\ sequential b.
Proof.
  intros a. remember (List.length a) as len eqn:E. assert (L : (List.length a <= len)%nat) by lia. clear E.
  revert a L. induction len as [|len IH]; intros a L now dur b S.
  { destruct a; [|cbn in L; lia]. split; [exact I|exact S]. }
  destruct a as [|e r]; [split; [exact I|exact S]|]. cbn [List.length] in L.
  destruct e; cbn [app] in S; try (apply (IH r ltac:(lia) now dur b) in S; exact S).
  - destruct r as [|e' r]; [destruct S|]. cbn [app sequential] in S. destruct e'; try (destruct S; fail).
    destruct S as [-> S]. cbn [List.length] in L. apply (IH r ltac:(lia) now dur b) in S. destruct S. cbn. auto.
  - destruct S.
Qed.

Lemma timeout_prun : forall u a now dur b d n ctx, sequential (a ++ Tick now dur :: b) -> ~ expired d a -> d <= elapsed a + dur -> 0 < n ->
  fst (prun u (a ++ Tick now dur :: b) (mkP (Some (n, ctx)) [d] 0)) =
  map (fun st => (ctx, to_call_status st)) (firstn (Z.to_nat n) (responses u a)) ++
  (if Z.of_nat (List.length (responses u a)) <? n then [(ctx, Timeout)] else []).
Proof.
  intros u a now dur b d n ctx S X D P. apply sequential_app in S. destruct S as [Sa Sb].
  destruct (alive_prun u a d n ctx Sa X P) as [A1 A2]. rewrite prun_app, A1, A2. cbn [fst]. f_equal.
  rewrite prun_cons. cbn [pstep p_left p_call p_held]. rewrite due_one. destruct (Z.leb_spec (d - elapsed a - dur) 0); [|lia].
  cbn [fst snd]. rewrite prun_dead, app_nil_r. destruct (Z.of_nat (List.length (responses u a)) <? n); reflexivity.
Qed.

(** ** Main statements for the client *)
Lemma results_sequential : forall t1 ctx t2, counted t1 -> 0 < servers t1 -> handled (t1 ++ Call ctx None :: t2) -> sequential t2 ->
  results (sent (fst (run t1 (client0 true)))) (fst (run (t1 ++ Call ctx None :: t2) (client0 true))) =
  map (fun st => (ctx, to_call_status st))
    (firstn (Z.to_nat (servers t1)) (responses (sent (fst (run t1 (client0 true)))) t2)).
Proof. intros. rewrite call_results by assumption. apply seq_results; assumption. Qed.

Lemma matched_app : forall u a b, (begins u a = ends u a)%nat -> matched (a ++ b) -> forall p q, b = p ++ q -> (ends u p <= begins u p)%nat.
Proof.
  intros u a b E M p q ->. specialize (M u (a ++ p) q). rewrite app_assoc in M. specialize (M eq_refl).
  unfold ends, begins in *. rewrite responses_app, filter_app, !app_length in M. lia.
Qed.

Lemma results_overlap : forall t1 ctx t2, counted t1 -> 0 < servers t1 -> handled (t1 ++ Call ctx None :: t2) ->
  let u := sent (fst (run t1 (client0 true))) in
  (forall p q, t2 = p ++ q -> (ends u p <= begins u p)%nat) -> Z.of_nat (List.length (responses u t2)) <= servers t1 ->
  results u (fst (run (t1 ++ Call ctx None :: t2) (client0 true))) = map (fun st => (ctx, to_call_status st)) (responses u t2).
Proof. intros t1 ctx t2 C P H u M B. unfold u. rewrite call_results by assumption. apply overlap_results; [exact P|fold u; lia|exact M]. Qed.

Lemma timeout_results : forall t1 ctx d a now dur b, counted t1 -> 0 < servers t1 ->
  handled (t1 ++ Call ctx (Some d) :: a ++ Tick now dur :: b) -> sequential (a ++ Tick now dur :: b) ->
  ~ expired d a -> d <= elapsed a + dur ->
  let u := sent (fst (run t1 (client0 true))) in
  results u (fst (run (t1 ++ Call ctx (Some d) :: a ++ Tick now dur :: b) (client0 true))) =
  map (fun st => (ctx, to_call_status st)) (firstn (Z.to_nat (servers t1)) (responses u a)) ++
  (if Z.of_nat (List.length (responses u a)) <? servers t1 then [(ctx, Timeout)] else []).
Proof. intros t1 ctx d a now dur b C P H S X D u. unfold u. rewrite call_results by assumption. apply timeout_prun; assumption. Qed.

Lemma no_timeout_results : forall t1 ctx d t2, counted t1 -> 0 < servers t1 ->
  handled (t1 ++ Call ctx (Some d) :: t2) -> sequential t2 -> ~ expired d t2 ->
  let u := sent (fst (run t1 (client0 true))) in
  results u (fst (run (t1 ++ Call ctx (Some d) :: t2) (client0 true))) =
  map (fun st => (ctx, to_call_status st)) (firstn (Z.to_nat (servers t1)) (responses u t2)).
Proof. intros t1 ctx d t2 C P H S X u. unfold u. rewrite call_results by assumption. apply alive_prun; assumption. Qed.

Lemma unknown_results : forall h evs u, (sent (fst (run evs (client0 h))) <= u)%nat -> results u (fst (run evs (client0 h))) = [].
Proof. intros h evs u L. apply unknown_run; [apply bounded0|cbn; lia]. Qed.

(** calls made without a server *)
Definition call_made (t1 : list event) (ctx : nat) : Prop := servers t1 = 0.
Lemma unreachable_step : forall e c, unreachable (fst (step e c)) =
  match e with Call ctx _ => if (c_count c =? 0) && c_handler c then [ctx] else [] | _ => [] end.
Proof.
  assert (X : forall h gone a, unreachable (fst (expire h gone a)) = []).
  { intros h. induction gone as [|v r IH]; intros a; cbn [expire]; [reflexivity|].
    destruct (find_call v a) as [[n ctx]|]; [destruct h; [|reflexivity]|].
    - specialize (IH (erase_call v a)). destruct (expire true r (erase_call v a)); exact IH.
    - specialize (IH a). destruct (expire h r a); exact IH. }
  intros e c. destruct e as [ctx t|u st|u|now dur|m|m|h]; cbn [step].
  - unfold trigger_call. destruct (c_count c =? 0); [destruct (c_handler c)|]; reflexivity.
  - unfold begin_response. destruct (find_call u (c_active c)) as [[r ctx]|]; [destruct (c_handler c)|]; reflexivity.
  - unfold end_response. destruct (existsb (Nat.eqb u) (c_open c)); [destruct (find_call u (c_active c)) as [[r ctx]|]|]; reflexivity.
  - unfold time_handler. destruct (c_ticking c); [|reflexivity]. destruct (sweep dur (c_timeouts c)) as [keep gone].
    specialize (X (c_handler c) gone (c_active c)). destruct (expire (c_handler c) gone (c_active c)) as [o a]. exact X.
  - destruct m; reflexivity.
  - destruct m; reflexivity.
  - reflexivity.
Qed.
Lemma sent_step : forall e c, sent (fst (step e c)) = match e with Call _ _ => if c_count c =? 0 then 0%nat else 1%nat | _ => 0%nat end.
Proof.
  intros e c. pose proof (next_step e c) as N. destruct e as [ctx t|u st|u|now dur|m|m|h]; cbn [step] in *.
  - unfold trigger_call in *. destruct (c_count c =? 0); [destruct (c_handler c)|]; reflexivity.
  - unfold begin_response. destruct (find_call u (c_active c)) as [[r ctx]|]; [destruct (c_handler c)|]; reflexivity.
  - unfold end_response. destruct (existsb (Nat.eqb u) (c_open c)); [destruct (find_call u (c_active c)) as [[r ctx]|]|]; reflexivity.
  - unfold time_handler in *. destruct (c_ticking c); [|reflexivity]. destruct (sweep dur (c_timeouts c)) as [keep gone].
    destruct (expire (c_handler c) gone (c_active c)) as [o a]. cbn [fst snd c_next] in *. lia.
  - destruct m; reflexivity.
  - destruct m; reflexivity.
  - reflexivity.
Qed.

(** virtual time *)
Lemma steady_elapsed : forall d p t now dur q, steady t d (p ++ Tick now dur :: q) -> elapsed p + dur = now - t /\ dur = d.
Proof.
  intros d. induction p as [|e r IH]; intros t now dur q S; cbn [app] in S.
  - cbn in S. cbn. lia.
  - destruct e; cbn [steady] in S; try (cbn [elapsed fold_right]; fold (elapsed r); eapply IH; exact S).
    destruct S as (-> & -> & S). apply IH in S. cbn [elapsed fold_right]. fold (elapsed r). lia.
Qed.
Lemma steady_expired : forall d x t evs, steady t d evs -> expired x evs -> exists now dur, In (Tick now dur) evs /\ x <= now - t.
Proof.
  intros d x t evs S (p & now & dur & q & -> & Q). exists now, dur. split; [apply in_elt|].
  apply steady_elapsed in S. lia.
Qed.

Lemma without_run : forall evs c, c_handler c = true -> handled evs -> 
  (forall p q, evs = p ++ q -> 0 <= c_count c + servers p < 2147483648) ->
  unreachable (fst (run evs c)) = without_server (c_count c) evs /\
  sent (fst (run evs c)) = (calls evs - List.length (without_server (c_count c) evs))%nat /\
  (List.length (without_server (c_count c) evs) <= calls evs)%nat.
Proof.
  induction evs as [|e r IH]; intros c H N B; [split; [reflexivity|split; [reflexivity|cbn; lia]]|].
  rewrite run_cons. cbn [fst]. rewrite unreachable_app, sent_app, unreachable_step, sent_step.
  assert (HE : e <> SetHandler false) by (intros ->; apply N; left; reflexivity).
  assert (NR : handled r) by (intros X; apply N; right; exact X).
  assert (B1 : 0 <= c_count (snd (step e c)) < 2147483648 /\ c_count (snd (step e c)) = c_count c + servers [e]).
  { rewrite count_step. pose proof (B [e] r eq_refl) as B'. pose proof (B [] (e :: r) eq_refl) as B0. cbn [servers fold_right] in B0. clear B.
    destruct e as [| | | |[]|[]|]; cbn [servers fold_right] in *; unfold wrap32; try lia; rewrite Z.mod_small; lia. }
  destruct B1 as [B1 B2].
  destruct (IH (snd (step e c)) (handled_step e c H HE) NR) as (I1 & I2 & I3).
  { intros p q E. rewrite B2. specialize (B (e :: p) q). rewrite E in B. specialize (B eq_refl).
    change (e :: p) with ([e] ++ p) in B. rewrite servers_app in B. lia. }
  rewrite I1, I2. rewrite H, andb_true_r.
  assert (CALLS : calls (e :: r) = ((match e with Call _ _ => 1 | _ => 0 end) + calls r)%nat) by (destruct e; reflexivity).
  rewrite CALLS.
  destruct e as [ctx t|u x|u|now dur|m|m|h]; cbn [without_server];
    try (cbn [servers fold_right] in B2; rewrite Z.add_0_r in B2; rewrite B2 in *).
  - destruct (c_count c =? 0); cbn [app List.length]; repeat split; try lia. 
  - repeat split; lia.
  - repeat split; lia.
  - repeat split; lia.
  - destruct m; cbn [servers fold_right] in B2; [replace (0 + 1) with 1 in B2 by lia|rewrite Z.add_0_r in B2]; rewrite B2 in *; repeat split; lia.
  - destruct m; cbn [servers fold_right] in B2; [replace (c_count c + (0 - 1)) with (c_count c - 1) in B2 by lia|rewrite Z.add_0_r in B2]; rewrite B2 in *; repeat split; lia.
  - repeat split; lia.
Qed.
Lemma without_all : forall evs, counted evs -> handled evs ->
  unreachable (fst (run evs (client0 true))) = without_server 0 evs /\
  (sent (fst (run evs (client0 true))) + List.length (without_server 0 evs))%nat = calls evs.
Proof.
  intros evs C H. destruct (without_run evs (client0 true) eq_refl H) as (A & B & D).
  - intros p q E. cbn. specialize (C p q E). lia.
  - cbn [client0 c_count] in *. split; [exact A|lia].
Qed.

(** ** Absence of undefined behaviour *)
Lemma no_timeouts_run : forall evs c, (forall ctx d, ~ In (Call ctx (Some d)) evs) -> c_timeouts c = [] -> c_open c = [] -> sequential evs ->
  forall u, ~ In (Undefined u) (fst (run evs c)).
Proof.
  intros evs. remember (List.length evs) as len eqn:E. assert (L : (List.length evs <= len)%nat) by lia. clear E.
  revert evs L. induction len as [|len IH]; intros evs L c N T O S u I.
  { destruct evs; [|cbn in L; lia]. destruct I. }
  destruct evs as [|e r]; [destruct I|]. cbn [List.length] in L. rewrite run_cons in I. cbn [fst] in I. apply in_app_or in I.
  assert (NR : forall ctx d, ~ In (Call ctx (Some d)) r) by (intros ctx d X; apply (N ctx d); right; exact X).
  destruct e as [ctx t|v x|v|now dur|m|m|h]; cbn [sequential] in S.
  - destruct t as [d|]; [elim (N ctx d); left; reflexivity|]. destruct I as [I|I].
    + cbn [step] in I. unfold trigger_call in I. destruct (c_count c =? 0); [destruct (c_handler c)|]; cbn in I; intuition discriminate.
    + revert I. apply IH; auto; [lia| |]; cbn [step]; unfold trigger_call; destruct (c_count c =? 0); auto.
  - destruct r as [|e' r]; [destruct S|]. destruct e'; try (exact (False_ind _ S)). destruct S as [-> S].
    assert (NR2 : forall ctx d, ~ In (Call ctx (Some d)) r) by (intros ctx d X; apply (N ctx d); right; right; exact X).
    cbn [step] in I. cbn [List.length] in L. rewrite run_cons in I. cbn [fst step] in I.
    unfold begin_response in I. destruct (find_call u0 (c_active c)) as [[n ctx]|] eqn:F; cbn [fst snd] in I.
    + destruct I as [I|I]; [destruct (c_handler c); cbn in I; intuition discriminate|].
      apply in_app_or in I. rewrite O in I. cbn [app] in I. unfold end_response in I.
      cbn [c_open c_active c_handler c_count c_next c_timeouts c_ticking existsb remove_open] in I. rewrite Nat.eqb_refl in I. cbn [orb] in I.
      rewrite F in I. cbn [fst snd] in I. destruct I as [[]|I]. revert I. apply IH; auto; lia.
    + destruct I as [I|I]; [cbn in I; intuition discriminate|]. apply in_app_or in I. unfold end_response in I. rewrite O in I. cbn [existsb fst snd] in I.
      destruct I as [[]|I]. revert I. apply IH; auto; lia.
  - destruct S.
  - destruct I as [I|I].
    + cbn [step] in I. unfold time_handler in I. rewrite T in I. destruct (c_ticking c); destruct I.
    + revert I. apply IH; auto; [lia| |]; cbn [step]; unfold time_handler; rewrite T; destruct (c_ticking c); auto.
  - destruct I as [[]|I]. revert I. apply IH; auto; [lia| |]; destruct m; auto.
  - destruct I as [[]|I]. revert I. apply IH; auto; [lia| |]; destruct m; auto.
  - destruct I as [[]|I]. revert I. apply IH; auto; lia.
Qed.
