From Coq Require Import List NArith Arith Bool Lia Sorted.
From Verif Require Import Base HandlersModel HandlersSpec.
Import ListNotations.
Local Open Scope N_scope.

Definition ids (l : list (N * N)) : list N := map fst l.
Definition ok_ev (r : list (N * N)) (e : tev) : Prop :=
  match e with
  | TInvoke i c => In (i, c) r
  | TRemoved i => In i (ids r)
  | TUnknown i => ~ In i (ids r)
  | TAdded i c => ~ In i (ids r)
  end.
Definition trace_ok (o : list tev) : Prop := forall a e b, o = a ++ e :: b -> ok_ev (registered a) e.
Definition numbered (o : list tev) : Prop := added o = map N.of_nat (seq 0 (length (added o))).

Record HI (o : list tev) (s : hs) : Prop := {
  hi_reg : h_entries s = registered o;
  hi_sort : StronglySorted N.lt (ids (h_entries s));
  hi_bound : forall i, In i (ids (h_entries s)) -> i < h_next s;
  hi_next : h_next s = N.of_nat (length (added o));
  hi_num : numbered o;
  hi_tr : trace_ok o
}.

Lemma added_app : forall a b, added (a ++ b) = added a ++ added b.
Proof. intros; apply flat_map_app. Qed.
Lemma invoked_app : forall a b, invoked (a ++ b) = invoked a ++ invoked b.
Proof. intros; apply flat_map_app. Qed.
Lemma removed_app : forall a b, removed (a ++ b) = removed a ++ removed b.
Proof. intros; apply flat_map_app. Qed.
Lemma registered_snoc : forall o e, registered (o ++ [e]) =
  match e with
  | TAdded i c => registered o ++ [(i, c)]
  | TRemoved i => filter (fun x => negb (fst x =? i)) (registered o)
  | _ => registered o
  end.
Proof. intros. unfold registered. rewrite fold_left_app. reflexivity. Qed.
Lemma few_app : forall a b, few (a ++ b) -> few a.
Proof. intros a b H. unfold few in *. rewrite added_app, app_length in H. lia. Qed.

Lemma trace_ok_snoc : forall o e, trace_ok o -> ok_ev (registered o) e -> trace_ok (o ++ [e]).
Proof.
  intros o e T K a x b E. destruct b as [|y b] using rev_ind.
  - apply app_inj_tail in E. destruct E; subst. assumption.
  - clear IHb. rewrite app_comm_cons, app_assoc in E. apply app_inj_tail in E. destruct E as [E _]. apply (T a x b E).
Qed.
Lemma trace_ok_prefix : forall a b, trace_ok (a ++ b) -> trace_ok a.
Proof. intros a b T x e y E. apply (T x e (y ++ b)). rewrite E, <- app_assoc. reflexivity. Qed.

Lemma HI_init : HI [] hs_init.
Proof.
  split; cbn; try reflexivity; try tauto; try constructor.
  intros a e b E. destruct a; discriminate.
Qed.

Lemma emplace_last : forall i c l, (forall j, In j (ids l) -> j < i) -> map_emplace i c l = l ++ [(i, c)].
Proof.
  intros i c l; induction l as [|[j d] r IH]; cbn; intros H; [reflexivity|].
  assert (j < i) by auto. replace (i =? j) with false by (symmetry; apply N.eqb_neq; lia).
  replace (i <? j) with false by (symmetry; apply N.ltb_ge; lia). rewrite IH; auto.
Qed.
Lemma sorted_snoc : forall l i, StronglySorted N.lt l -> (forall j, In j l -> j < i) -> StronglySorted N.lt (l ++ [i]).
Proof.
  intros l i; induction l as [|x r IH]; cbn; intros S H; [constructor; constructor|].
  inversion S; subst. constructor; [apply IH; auto|]. apply Forall_app. split; [assumption|]. constructor; [|constructor]. auto.
Qed.
Lemma sorted_filter : forall (p : N * N -> bool) l, StronglySorted N.lt (ids l) -> StronglySorted N.lt (ids (filter p l)).
Proof.
  intros p l; induction l as [|x r IH]; cbn; intros S; [constructor|]. inversion S; subst.
  destruct (p x); cbn; [|auto]. constructor; [auto|]. rewrite Forall_forall in *. intros y I.
  apply in_map_iff in I. destruct I as (z & <- & I). apply filter_In in I. apply H2, in_map, I.
Qed.
Lemma h_has_in : forall i s, h_has i s = true <-> In i (ids (h_entries s)).
Proof.
  intros. unfold h_has, ids. rewrite existsb_exists, in_map_iff. split; intros (x & A & B); exists x.
  - apply N.eqb_eq in B; auto.
  - rewrite N.eqb_eq; auto.
Qed.

Lemma HI_act : forall a o s, HI o s -> few (o ++ fst (h_act a s)) -> HI (o ++ fst (h_act a s)) (snd (h_act a s)).
Proof.
  intros a o s H F. destruct H as [HR HS HB HN HM HT]. destruct a as [c|i]; cbn [h_act fst snd] in *.
  - assert (NX : (h_next s + 1) mod 2 ^ 64 = h_next s + 1 \/ (h_next s + 1) mod 2 ^ 64 = 0).
    { unfold few in F. rewrite added_app, app_length in F. cbn [added flat_map app length] in F. rewrite HN.
      destruct (N.eq_dec (N.of_nat (length (added o)) + 1) (2 ^ 64)) as [E|E].
      - right. rewrite E. apply N.mod_same. discriminate.
      - left. apply N.mod_small. lia. }
    unfold few in F. rewrite added_app, app_length in F. cbn [added flat_map app length] in F.
    assert (NX' : (h_next s + 1) mod 2 ^ 64 = h_next s + 1) by (apply N.mod_small; lia).
    assert (EM : map_emplace (h_next s) c (h_entries s) = h_entries s ++ [(h_next s, c)]) by (apply emplace_last, HB).
    split; cbn [h_add snd h_entries h_next]; rewrite ?EM, ?NX'.
    + rewrite registered_snoc, HR. reflexivity.
    + unfold ids. rewrite map_app. cbn. apply sorted_snoc; assumption.
    + intros i I. unfold ids in I. rewrite map_app, in_app_iff in I. destruct I as [I|[<-|[]]]; [apply HB in I|cbn]; lia.
    + rewrite added_app, app_length. cbn. lia.
    + unfold numbered in *. rewrite added_app, app_length. cbn [added flat_map app length].
      rewrite Nat.add_1_r, seq_S, map_app. cbn. rewrite <- HM, HN. reflexivity.
    + apply trace_ok_snoc; [assumption|]. cbn. rewrite <- HR. intros I. apply HB in I. lia.
  - assert (HH := h_has_in i s). cbn [h_remove snd]. destruct (h_has i s) eqn:E.
    + split; cbn [h_entries h_next].
      * rewrite registered_snoc, HR. reflexivity.
      * apply sorted_filter, HS.
      * intros j I. apply in_map_iff in I. destruct I as (x & <- & I). apply filter_In in I. apply HB, in_map, I.
      * rewrite added_app, app_length. cbn. lia.
      * unfold numbered in *. rewrite added_app. cbn. rewrite !app_nil_r. assumption.
      * apply trace_ok_snoc; [assumption|]. cbn. rewrite <- HR. apply HH. reflexivity.
    + assert (NI : ~ In i (ids (h_entries s))) by (rewrite <- HH; discriminate).
      assert (FE : filter (fun x => negb (fst x =? i)) (h_entries s) = h_entries s).
      { clear - NI. induction (h_entries s) as [|x r IH]; cbn; [reflexivity|].
        destruct (N.eqb_spec (fst x) i) as [Q|Q]; cbn.
        - exfalso. apply NI. left. assumption.
        - rewrite IH; [reflexivity|]. intros J; apply NI. right. assumption. }
      rewrite FE. split; cbn [h_entries h_next]; try assumption.
      * rewrite registered_snoc, HR. reflexivity.
      * rewrite added_app, app_length. cbn. lia.
      * unfold numbered in *. rewrite added_app. cbn. rewrite !app_nil_r. assumption.
      * apply trace_ok_snoc; [assumption|]. cbn. rewrite <- HR. assumption.
Qed.
Lemma HI_acts : forall l o s, HI o s -> few (o ++ fst (h_acts l s)) -> HI (o ++ fst (h_acts l s)) (snd (h_acts l s)).
Proof.
  induction l as [|a r IH]; intros o s H F; cbn [h_acts].
  - cbn. rewrite app_nil_r. assumption.
  - cbn [h_acts] in F. pose proof (HI_act a o s H) as A. destruct (h_act a s) as [o1 s1]. cbn [fst snd] in *.
    specialize (IH (o ++ o1) s1). destruct (h_acts r s1) as [o2 s2]. cbn [fst snd] in *.
    rewrite app_assoc in F |- *. apply IH; [apply A; eapply few_app; eassumption|assumption].
Qed.
Lemma HI_invoke : forall o s i c, HI o s -> In (i, c) (h_entries s) -> HI (o ++ [TInvoke i c]) s.
Proof.
  intros o s i c [HR HS HB HN HM HT] I. split; try assumption.
  - rewrite registered_snoc. assumption.
  - rewrite added_app, app_nil_r. assumption.
  - unfold numbered in *. rewrite added_app, app_nil_r. assumption.
  - apply trace_ok_snoc; [assumption|]. cbn. rewrite <- HR. assumption.
Qed.

Lemma entry_after_some : forall pos l i c, entry_after pos l = Some (i, c) ->
  In (i, c) l /\ (forall p, pos = Some p -> p < i).
Proof.
  intros [p|] l i c; cbn.
  - intros F. apply find_some in F. destruct F as [A B]. cbn in B. apply N.ltb_lt in B.
    split; [assumption|]. intros q Q; inversion Q; subst; assumption.
  - destruct l; cbn; [discriminate|]. intros E; inversion E; subst. split; [left; reflexivity|discriminate].
Qed.
(** The entry found is the least one after the position. *)
Lemma entry_after_least : forall pos l, StronglySorted N.lt (ids l) ->
  match entry_after pos l with
  | Some (i, c) => forall j, In j (ids l) -> (forall p, pos = Some p -> p < j) -> i <= j
  | None => forall j, In j (ids l) -> exists p, pos = Some p /\ j <= p
  end.
Proof.
  intros [p|] l S; cbn.
  - induction l as [|[x d] r IH]; cbn; [tauto|]. inversion S; subst. destruct (N.ltb_spec p x) as [L|L].
    + intros j [<-|I] _; [lia|]. rewrite Forall_forall in H2. apply H2 in I. lia.
    + specialize (IH H1). destruct (find _ r) as [[i c]|].
      * intros j [<-|I] Q; [|auto]. specialize (Q p eq_refl). lia.
      * intros j [<-|I]; [|auto]. exists p. split; [reflexivity|lia].
  - destruct l as [|[x d] r]; cbn; [tauto|]. inversion S; subst. intros j [<-|I] _; [lia|].
    rewrite Forall_forall in H2. apply H2 in I. lia.
Qed.

Definition out_trace (r : hout) : option (list tev) := match r with HDone o _ => Some o | HUB o => Some o | HFuel => None end.

Lemma acts_quiet : forall l s, invoked (fst (h_acts l s)) = [].
Proof.
  induction l as [|a r IH]; intros s; cbn [h_acts]; [reflexivity|].
  destruct (h_act a s) as [o1 s1] eqn:A. specialize (IH s1). destruct (h_acts r s1) as [o2 s2]. cbn [fst] in *.
  rewrite invoked_app, IH. destruct a; cbn in A; inversion A; subst; cbn; [reflexivity|]. destruct (h_has i s); reflexivity.
Qed.

Definition after (pos : option N) (j : N) : Prop := forall p, pos = Some p -> p < j.
Lemma h_acts_ids : forall l s j, (In j (ids (h_entries s)) -> In j (ids (h_entries (snd (h_acts l s)))) \/ In j (removed (fst (h_acts l s)))).
Proof.
  induction l as [|a r IH]; intros s j I; cbn [h_acts].
  - left; assumption.
  - destruct (h_act a s) as [o1 s1] eqn:A. specialize (IH s1 j). destruct (h_acts r s1) as [o2 s2]. cbn [fst snd] in *.
    rewrite removed_app, in_app_iff.
    assert (X : In j (ids (h_entries s1)) \/ In j (removed o1)).
    { destruct a as [c|i]; cbn in A; inversion A; subst; cbn.
      - left. clear - I. induction (h_entries s) as [|[x d] t IHt]; cbn in *; [contradiction|].
        destruct (h_next s =? x); [exact I|]. destruct (h_next s <? x); cbn; [right; exact I|].
        destruct I as [I|I]; [left; exact I|right; auto].
      - destruct (N.eq_dec j i) as [->|ne].
        + right. apply h_has_in in I. rewrite I. left; reflexivity.
        + left. unfold ids in *. apply in_map_iff in I. destruct I as (x & <- & I). apply in_map. apply filter_In.
          split; [assumption|]. apply negb_true_iff, N.eqb_neq. assumption. }
    destruct X as [X|X]; [destruct (IH X); auto|auto].
Qed.

Lemma pass_ok : forall fuel n beh pos o s,
  HI o s ->
  match h_pass fuel n beh pos s with
  | HFuel => True
  | HDone o' s' => few (o ++ o') ->
      HI (o ++ o') s' /\
      StronglySorted N.lt (invoked o') /\ (forall j, In j (invoked o') -> after pos j) /\
      (forall j, In j (ids (h_entries s)) -> after pos j -> In j (invoked o') \/ In j (removed o')) /\
      (forall j, In j (ids (h_entries s')) -> after pos j -> In j (invoked o'))
  | HUB o' => few (o ++ o') ->
      trace_ok (o ++ o') /\ numbered (o ++ o') /\
      StronglySorted N.lt (invoked o') /\ (forall j, In j (invoked o') -> after pos j) /\
      exists a i c b, o' = a ++ TInvoke i c :: b /\ In i (removed b) /\ invoked b = []
  end.
Proof.
  induction fuel as [|fuel IH]; intros n beh pos o s H; cbn [h_pass]; [exact I|].
  pose proof (entry_after_least pos (h_entries s) (hi_sort _ _ H)) as EL.
  destruct (entry_after pos (h_entries s)) as [[i c]|] eqn:EA.
  - destruct (entry_after_some _ _ _ _ EA) as [IN AF].
    assert (H1 := HI_invoke _ _ _ _ H IN).
    pose proof (HI_acts (beh n c) _ _ H1) as HA.
    pose proof (acts_quiet (beh n c) s) as Q.
    pose proof (h_acts_ids (beh n c) s) as HJ.
    destruct (h_acts (beh n c) s) as [oa sa]. cbn [fst snd] in *.
    destruct (h_has i sa) eqn:HH.
    + destruct (h_pass fuel (S n) beh (Some i) sa) as [o2 s2|o2|] eqn:P; [| |exact I].
      * intros F.
        assert (EQ : o ++ TInvoke i c :: oa ++ o2 = ((o ++ [TInvoke i c]) ++ oa) ++ o2) by (rewrite <- !app_assoc; reflexivity).
        rewrite EQ in F |- *. assert (HA' := HA (few_app _ _ F)).
        specialize (IH (S n) beh (Some i) _ _ HA'). rewrite P in IH. destruct (IH F) as (R1 & R2 & R3 & R4 & R5).
        assert (IV : invoked (TInvoke i c :: oa ++ o2) = i :: invoked o2).
        { change (invoked (TInvoke i c :: oa ++ o2)) with (i :: invoked (oa ++ o2)). rewrite invoked_app, Q. reflexivity. }
        assert (RV : removed (TInvoke i c :: oa ++ o2) = removed oa ++ removed o2).
        { change (removed (TInvoke i c :: oa ++ o2)) with (removed (oa ++ o2)). apply removed_app. }
        rewrite IV, RV. split; [exact R1|]. split.
        { constructor; [exact R2|]. apply Forall_forall. intros j J. apply (R3 j J i eq_refl). }
        split.
        { intros j [<-|J]; [exact AF|]. intros p E. specialize (R3 j J i eq_refl). specialize (AF p E). lia. }
        split.
        { intros j J A. specialize (EL j J A). destruct (N.eq_dec i j) as [->|ne]; [left; left; reflexivity|].
          destruct (HJ j J) as [K|K]; [|right; apply in_or_app; auto].
          destruct (R4 j K) as [X|X]; [intros p E; inversion E; subst; lia|left; right; exact X|right; apply in_or_app; auto]. }
        { intros j J A. destruct (N.lt_trichotomy i j) as [L|[->|L]]; [|left; reflexivity|].
          - right. apply R5; [exact J|]. intros p E; inversion E; subst; exact L.
          - (* j was there before i, but after pos: impossible, ids are never reused *)
            exfalso. assert (NJ : ~ In j (ids (h_entries s))) by (intros K; specialize (EL j K A); lia).
            assert (LT : j < h_next s).
            { assert (i < h_next s) by (apply (hi_bound _ _ H); apply in_map_iff; exists (i, c); auto). lia. }
            assert (MONO : forall (x y : list tev), trace_ok (x ++ y) -> numbered (x ++ y) -> j < N.of_nat (length (added x)) ->
                        ~ In j (ids (registered x)) -> ~ In j (ids (registered (x ++ y)))).
            { clear. intros x y. induction y as [|e y IHy] using rev_ind; intros T M L NI; [rewrite app_nil_r; exact NI|].
              rewrite app_assoc in *. rewrite registered_snoc.
              assert (T' := trace_ok_prefix _ _ T).
              assert (M' : numbered (x ++ y)).
              { unfold numbered in *. rewrite (added_app (x ++ y) [e]) in M. destruct e; cbn [added flat_map app] in M; rewrite ?app_nil_r in M; try exact M.
                rewrite app_length in M. cbn [length] in M. rewrite Nat.add_1_r, seq_S, map_app in M. cbn in M.
                apply app_inj_tail in M. apply M. }
              specialize (IHy T' M' L NI). destruct e; try exact IHy.
              - unfold numbered in M. rewrite (added_app (x ++ y)), app_length in M. cbn [added flat_map app length] in M.
                rewrite Nat.add_1_r, seq_S, map_app in M. cbn in M. apply app_inj_tail in M. destruct M as [_ ->].
                unfold ids. rewrite map_app, in_app_iff. intros [X|[X|[]]]; [exact (IHy X)|]. cbn in X.
                rewrite added_app, app_length in X. lia.
              - unfold ids. rewrite in_map_iff. intros (z & <- & Z). apply filter_In in Z. apply IHy, in_map, Z. }
            apply (MONO o (TInvoke i c :: oa ++ o2)).
            + rewrite EQ. apply (hi_tr _ _ R1).
            + rewrite EQ. apply (hi_num _ _ R1).
            + rewrite <- (hi_next _ _ H). exact LT.
            + rewrite <- (hi_reg _ _ H). exact NJ.
            + rewrite EQ, <- (hi_reg _ _ R1). exact J. }
      * intros F.
        assert (EQ : o ++ TInvoke i c :: oa ++ o2 = ((o ++ [TInvoke i c]) ++ oa) ++ o2) by (rewrite <- !app_assoc; reflexivity).
        rewrite EQ in F |- *. assert (HA' := HA (few_app _ _ F)).
        specialize (IH (S n) beh (Some i) _ _ HA'). rewrite P in IH. destruct (IH F) as (R1 & R1' & R2 & R3 & a & i' & c' & b & E & R4 & R5).
        assert (IV : invoked (TInvoke i c :: oa ++ o2) = i :: invoked o2).
        { change (invoked (TInvoke i c :: oa ++ o2)) with (i :: invoked (oa ++ o2)). rewrite invoked_app, Q. reflexivity. }
        rewrite IV. split; [exact R1|]. split; [exact R1'|]. split.
        { constructor; [exact R2|]. apply Forall_forall. intros j J. apply (R3 j J i eq_refl). }
        split.
        { intros j [<-|J]; [exact AF|]. intros p E'. specialize (R3 j J i eq_refl). specialize (AF p E'). lia. }
        exists (TInvoke i c :: oa ++ a), i', c', b. split; [|auto]. rewrite E. cbn. rewrite <- app_assoc. reflexivity.
    + intros F.
      assert (EQ : o ++ TInvoke i c :: oa = (o ++ [TInvoke i c]) ++ oa) by (rewrite <- !app_assoc; reflexivity).
      rewrite EQ in F |- *. assert (HA' := HA F).
      assert (IV : invoked (TInvoke i c :: oa) = [i]) by (cbn; fold (invoked oa); rewrite Q; reflexivity).
      rewrite IV. split; [apply (hi_tr _ _ HA')|]. split; [apply (hi_num _ _ HA')|]. split; [constructor; constructor|].
      split; [intros j [<-|[]]; exact AF|].
      exists [], i, c, oa. split; [reflexivity|]. split; [|exact Q].
      destruct (HJ i) as [K|K]; [apply in_map_iff; exists (i, c); auto| |exact K].
      apply h_has_in in K. congruence.
  - intros F. cbn. rewrite app_nil_r in *. split; [exact H|]. split; [constructor|]. split; [contradiction|].
    assert (X : forall j, In j (ids (h_entries s)) -> after pos j -> False).
    { intros j J A. destruct (EL j J) as (p & -> & L). specialize (A p eq_refl). lia. }
    split; intros j J A; destruct (X j J A).
Qed.

Lemma op_ok : forall a o s, HI o s ->
  match h_op a s with
  | HFuel => True
  | HDone o' s' => few (o ++ o') -> HI (o ++ o') s'
  | HUB o' => few (o ++ o') -> trace_ok (o ++ o') /\ numbered (o ++ o') /\
      exists x i c b, o' = x ++ TInvoke i c :: b /\ In i (removed b) /\ invoked b = []
  end.
Proof.
  intros [a|fuel beh] o s H; cbn [h_op].
  - pose proof (HI_act a o s H) as A. destruct (h_act a s). exact A.
  - pose proof (pass_ok fuel 0 beh None o s H) as P. destruct (h_pass fuel 0 beh None s); [| |exact I]; intros F; destruct (P F) as (A & B & C); try exact A.
    split; [exact A|]. split; [exact B|]. apply C.
Qed.
Lemma run_ok : forall l o s, HI o s ->
  match h_run l s with
  | HFuel => True
  | HDone o' s' => few (o ++ o') -> HI (o ++ o') s'
  | HUB o' => few (o ++ o') -> trace_ok (o ++ o') /\ numbered (o ++ o') /\
      exists x i c b, o' = x ++ TInvoke i c :: b /\ In i (removed b) /\ invoked b = []
  end.
Proof.
  induction l as [|a r IH]; intros o s H; cbn [h_run].
  - intros _. rewrite app_nil_r. exact H.
  - pose proof (op_ok a o s H) as A. destruct (h_op a s) as [o1 s1|o1|]; [|exact A|exact I].
    destruct (h_run r s1) as [o2 s2|o2|] eqn:R; [| |exact I]; intros F; rewrite app_assoc in F |- *;
      specialize (IH (o ++ o1) s1 (A (few_app _ _ F))); rewrite R in IH; specialize (IH F); [exact IH|].
    destruct IH as (T & M & x & i & c & b & E & X). split; [exact T|]. split; [exact M|].
    exists (o1 ++ x), i, c, b. split; [rewrite E, <- app_assoc; reflexivity|exact X].
Qed.

(** Passive callables. *)
Lemma pass_passive : forall l fuel n beh pos s pre, passive beh -> h_entries s = pre ++ l ->
  StronglySorted N.lt (ids (pre ++ l)) ->
  (match pre with [] => pos = None | _ => exists p c q, pre = q ++ [(p, c)] /\ pos = Some p end) ->
  (length l < fuel)%nat ->
  h_pass fuel n beh pos s = HDone (map (fun x => TInvoke (fst x) (snd x)) l) s.
Proof.
  induction l as [|[i c] r IH]; intros fuel n beh pos s pre B E S P F; (destruct fuel as [|fuel]; [cbn in F; lia|]); cbn [h_pass].
  - assert (X : entry_after pos (h_entries s) = None).
    { rewrite E, app_nil_r in *. destruct pre as [|x pre]; [subst pos; reflexivity|].
      destruct P as (p & c & q & Q & ->). rewrite Q in *. cbn [entry_after].
      destruct (find _ (q ++ [(p, c)])) as [[y d]|] eqn:FD; [|reflexivity]. apply find_some in FD. destruct FD as [I L].
      cbn in L. apply N.ltb_lt in L. exfalso. apply in_app_or in I. destruct I as [I|[I|[]]]; [|inversion I; subst; lia].
      assert (y < p); [|lia]. clear - S I.
      unfold ids in S. rewrite map_app in S. cbn in S. induction q as [|z q IHq]; [contradiction|].
      cbn in S. inversion S; subst. destruct I as [->|I]; [|auto]. rewrite Forall_forall in H2. apply H2. apply in_or_app. right; left; reflexivity. }
    rewrite X. reflexivity.
  - assert (X : entry_after pos (h_entries s) = Some (i, c)).
    { rewrite E. destruct pre as [|x pre]; [subst pos; reflexivity|].
      destruct P as (p & d & q & Q & ->). rewrite Q in *. cbn [entry_after].
      clear - S. unfold ids in S. rewrite <- app_assoc in *. cbn in *. induction q as [|z q IHq]; cbn in *.
      - rewrite (proj2 (N.ltb_ge p p)) by lia. inversion S; subst. inversion H2; subst.
        replace (p <? i) with true by (symmetry; apply N.ltb_lt; assumption). reflexivity.
      - inversion S; subst. rewrite map_app, Forall_app in H2. destruct H2 as [_ H2]. cbn in H2. inversion H2; subst.
        replace (p <? fst z) with false by (symmetry; apply N.ltb_ge; cbn in *; lia). apply IHq. assumption. }
    rewrite X, B. cbn [h_acts].
    assert (HH : h_has i s = true) by (apply h_has_in; rewrite E; unfold ids; rewrite map_app; apply in_or_app; right; left; reflexivity).
    rewrite HH. rewrite (IH fuel (Datatypes.S n) beh (Some i) s (pre ++ [(i, c)])); auto.
    + rewrite <- app_assoc. exact E.
    + rewrite <- app_assoc. exact S.
    + destruct (pre ++ [(i, c)]) eqn:Q; [destruct pre; discriminate|]. exists i, c, pre. rewrite <- Q. auto.
    + cbn in F. lia.
Qed.

(** Enough fuel, when callables add nothing. *)
Definition adds_nothing (beh : nat -> N -> list hact) : Prop := forall n c a, In (HAdd a) (beh n c) -> False.
Lemma acts_no_add : forall l s, (forall a, In (HAdd a) l -> False) ->
  exists p, h_entries (snd (h_acts l s)) = filter p (h_entries s).
Proof.
  induction l as [|a r IH]; intros s N; cbn [h_acts].
  - exists (fun _ => true). cbn. induction (h_entries s) as [|x t IHt]; cbn; congruence.
  - destruct a as [c|i]; [exfalso; apply (N c); left; reflexivity|]. cbn [h_act].
    destruct (IH (snd (h_remove i s))) as [p E]; [intros a I; apply (N a); right; exact I|].
    destruct (h_acts r (snd (h_remove i s))) as [o2 s2]. cbn [snd] in *. rewrite E. cbn.
    exists (fun x => negb (fst x =? i) && p x). clear. induction (h_entries s) as [|x t IHt]; cbn; [reflexivity|].
    destruct (fst x =? i); cbn; [exact IHt|]. destruct (p x); cbn; congruence.
Qed.
Definition later (pos : option N) (l : list (N * N)) : list (N * N) :=
  filter (fun x => match pos with None => true | Some p => p <? fst x end) l.
Lemma find_filter_hd : forall {A} (f : A -> bool) l, find f l = hd_error (filter f l).
Proof. intros A f l; induction l as [|x r IH]; cbn; [reflexivity|]. destruct (f x); [reflexivity|exact IH]. Qed.
Lemma filter_all : forall {A} (l : list A), filter (fun _ => true) l = l.
Proof. intros A l; induction l; cbn; congruence. Qed.
Lemma pass_fuel : forall fuel n beh pos s, adds_nothing beh -> StronglySorted N.lt (ids (h_entries s)) ->
  (length (later pos (h_entries s)) < fuel)%nat -> h_pass fuel n beh pos s <> HFuel.
Proof.
  induction fuel as [|fuel IH]; intros n beh pos s B S F; [lia|]. cbn [h_pass].
  assert (EA : entry_after pos (h_entries s) = hd_error (later pos (h_entries s))).
  { destruct pos; cbn [entry_after later]; [apply find_filter_hd|]. unfold later. rewrite filter_all. reflexivity. }
  destruct (entry_after pos (h_entries s)) as [[i c]|] eqn:E; [|discriminate].
  destruct (acts_no_add (beh n c) s (B n c)) as [p P].
  destruct (h_acts (beh n c) s) as [oa sa]. cbn [snd] in P.
  destruct (h_has i sa); [|discriminate].
  assert (R : h_pass fuel (Datatypes.S n) beh (Some i) sa <> HFuel).
  { apply IH; [exact B|rewrite P; apply sorted_filter, S|].
    destruct (later pos (h_entries s)) as [|x t] eqn:L; [discriminate|]. cbn in EA. inversion EA; subst x. cbn in F.
    enough (length (later (Some i) (h_entries sa)) <= length t)%nat by lia.
    rewrite P. unfold later in *.
    assert (SL : StronglySorted N.lt (ids ((i, c) :: t))) by (rewrite <- L; apply sorted_filter, S).
    assert (IC : In (i, c) (h_entries s)) by (apply entry_after_some in E; tauto).
    assert (AI : forall q, pos = Some q -> q < i) by (apply entry_after_some in E; tauto).
    (* entries after i among the entries are the entries after pos other than i *)
    assert (Q : filter (fun x => i <? fst x) (h_entries s) = t).
    { assert (Q1 : filter (fun x => i <? fst x) (filter (fun x => match pos with None => true | Some p0 => p0 <? fst x end) (h_entries s))
                  = filter (fun x => i <? fst x) (h_entries s)).
      { clear - AI. induction (h_entries s) as [|x r IHr]; cbn; [reflexivity|]. destruct pos as [q|]; cbn.
        - specialize (AI q eq_refl). destruct (N.ltb_spec q (fst x)); cbn; [destruct (i <? fst x); congruence|].
          replace (i <? fst x) with false by (symmetry; apply N.ltb_ge; lia). exact IHr.
        - destruct (i <? fst x); congruence. }
      rewrite <- Q1, L. cbn. rewrite (proj2 (N.ltb_ge i i)) by lia. cbn in SL. inversion SL; subst.
      clear - H2. induction t as [|y t IHt]; cbn; [reflexivity|]. cbn in H2. inversion H2; subst.
      replace (i <? fst y) with true by (symmetry; apply N.ltb_lt; assumption). rewrite IHt; auto. }
    rewrite <- Q. clear. induction (h_entries s) as [|x r IHr]; cbn; [lia|].
    destruct (p x); cbn; destruct (i <? fst x); cbn; lia. }
  destruct (h_pass fuel (Datatypes.S n) beh (Some i) sa); try discriminate. contradiction.
Qed.
