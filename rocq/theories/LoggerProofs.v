From Coq Require Import String Ascii NArith ZArith List Arith Bool Lia Permutation.
From Verif Require Import Base TextModel TextSpec YamlModel LoggerModel MetricsText LoggerSpec.
Import ListNotations.
Open Scope string_scope.
Open Scope N_scope.
Open Scope list_scope.

(** ** Levels *)
Lemma known_rank : forall l, known l -> to_spdlog l = Some (rank l).
Proof. intros l K. cbn in K. repeat (destruct K as [<-|K]; [reflexivity|]). destruct K. Qed.
Lemma unknown_none : forall l, ~ known l -> to_spdlog l = None.
Proof.
  intros l K. unfold to_spdlog. repeat match goal with |- context [?a =? ?b] => destruct (N.eqb_spec a b) as [->|]; [exfalso; apply K; cbn; tauto|] end. reflexivity.
Qed.
Lemma num_known : forall v, known (num v).
Proof. intros []; cbn; repeat (first [left; reflexivity | right]). Qed.
Lemma spd_rank : forall s, spd_level s = rank (num (s_level s)).
Proof. intros s. unfold spd_level. now rewrite (known_rank _ (num_known _)). Qed.
Lemma rank_le : forall a b, known a -> known b -> (rank a <=? rank b) = (a <=? b).
Proof.
  intros a b A B. cbn in A, B. repeat (destruct A as [<-|A]; [repeat (destruct B as [<-|B]; [reflexivity|]); destruct B|]). destruct A.
Qed.
Lemma passes_wants : forall s l t, passes s l t = wants s l t.
Proof.
  intros s l t. unfold passes, level_matching, wants, topic_disabled. destruct (num (s_level s) <=? l); cbn [negb andb]; [|reflexivity].
  destruct (existsb (N.eqb t) (s_disabled s)); cbn [negb andb]; [reflexivity|]. destruct (s_enabled s) as [|e r]; [reflexivity|]. destruct (existsb (N.eqb t) (e :: r)); reflexivity.
Qed.
Lemma wants_level : forall s l t, wants s l t = true -> num (s_level s) <= l.
Proof. intros s l t H. unfold wants in H. lia. Qed.

(** ** Passing a message to the sinks *)
Lemma andthen_false : forall a b, andthen (a, false) b = (a ++ fst b, snd b).
Proof. reflexivity. Qed.
Definition local_events (name : text) now l t fmt (x : nat * sink) : list event :=
  if wants (snd x) l t then [EOut (fst x) (mkOut now name (rank l) (fmt (s_format (snd x))))] else [].
Lemma to_locals_known : forall name now l t fmt ls, known l ->
  to_locals name now l t fmt ls = (flat_map (local_events name now l t fmt) ls, false).
Proof.
  intros name now l t fmt ls K. induction ls as [|[i s] r IH]; [reflexivity|]. cbn [to_locals]. rewrite IH, (known_rank l K), passes_wants.
  cbn [flat_map]. change (local_events name now l t fmt (i, s)) with (if wants s l t then [EOut i (mkOut now name (rank l) (fmt (s_format s)))] else []).
  destruct (wants s l t) eqn:W; [|reflexivity].
  rewrite andthen_false. unfold spd_out. cbn [o_level]. rewrite spd_rank, rank_le by (auto using num_known).
  apply wants_level in W. replace (num (s_level s) <=? l) with true by lia. reflexivity.
Qed.
Lemma to_locals_unknown : forall name now l t fmt ls, ~ known l ->
  to_locals name now l t fmt ls = ([], existsb (fun x => wants (snd x) l t) ls).
Proof.
  intros name now l t fmt ls K. induction ls as [|[i s] r IH]; [reflexivity|]. cbn [to_locals existsb snd]. rewrite IH, (unknown_none l K), passes_wants.
  destruct (wants s l t); reflexivity.
Qed.
Definition remote_events l t (m : LogMsg) (r : remote) : list event :=
  match r_handler r with Some h => if wants (r_sink r) l t then [ESend (r_id r) h m] else [] | None => [] end.
Lemma to_remotes_eq : forall t m rs, to_remotes (lm_level m) t m rs = (flat_map (remote_events (lm_level m) t m) rs, false).
Proof.
  intros t m rs. induction rs as [|r rs IH]; [reflexivity|]. cbn [to_remotes]. rewrite IH, passes_wants. cbn [flat_map]. unfold send.
  change (remote_events (lm_level m) t m r) with (match r_handler r with Some h => if wants (r_sink r) (lm_level m) t then [ESend (r_id r) h m] else [] | None => [] end).
  destruct (wants (r_sink r) (lm_level m) t) eqn:W; destruct (r_handler r); try reflexivity.
  apply wants_level in W. replace (num (s_level (r_sink r)) <=? lm_level m) with true by lia. reflexivity.
Qed.
Lemma log_text_known : forall g now l t msg, known l ->
  log_text g now l t msg =
  (flat_map (local_events (g_name g) now l t (render_text t msg)) (g_local g)
   ++ flat_map (remote_events l t (mkLogMsg (g_name g) l now no_source (render_text t msg FSimple) [] t)) (g_remote g), false).
Proof.
  intros. unfold log_text. rewrite to_locals_known by assumption. rewrite andthen_false.
  rewrite (to_remotes_eq t (mkLogMsg (g_name g) l now no_source (render_text t msg FSimple) [] t)). reflexivity.
Qed.
Definition process_events (g : logger) (now : Z) (m : lmsg) : list event :=
  flat_map (local_events (g_name g) now (m_level m) (m_topic m) (render (m_topic m) (m_text m) (m_kvs m))) (g_local g)
  ++ flat_map (remote_events (m_level m) (m_topic m) (mkLogMsg (g_name g) (m_level m) now no_source (m_text m) (m_kvs m) (m_topic m))) (g_remote g).
Lemma process_known : forall g now m, known (m_level m) -> process g now m = (process_events g now m, false).
Proof.
  intros. unfold process. rewrite to_locals_known by assumption. rewrite andthen_false.
  rewrite (to_remotes_eq (m_topic m) (mkLogMsg (g_name g) (m_level m) now no_source (m_text m) (m_kvs m) (m_topic m))). reflexivity.
Qed.

(** ** The level of the logger *)
Lemma lower_of_min : forall a b, lower_of a b = N.min a b.
Proof. intros. unfold lower_of. destruct (N.ltb_spec a b); lia. Qed.
Lemma fold_min : forall {A} (f : A -> N) l a,
  let r := fold_left (fun x y => lower_of x (f y)) l a in r <= a /\ (forall y, In y l -> r <= f y) /\ (r = a \/ exists y, In y l /\ r = f y).
Proof.
  intros A f l. induction l as [|x l IH]; intros a; [cbn; repeat split; [lia|intros ? []|tauto]|].
  cbn [fold_left]. rewrite lower_of_min. destruct (IH (N.min a (f x))) as (H1 & H2 & H3). cbv zeta in *. repeat split; [lia| |].
  - intros y [<-|I]; [lia|auto].
  - destruct H3 as [H3|(y & I & E)]; [|right; exists y; split; [now right|assumption]].
    destruct (N.le_gt_cases a (f x)); [left; lia|right; exists x; split; [now left|lia]].
Qed.
Definition all_sinks (g : logger) : list sink := map snd (g_local g) ++ map r_sink (g_remote g).
Lemma get_level_spec : forall g, get_level g <= 5 /\ (forall s, In s (all_sinks g) -> get_level g <= num (s_level s)) /\
  (get_level g = 5 \/ exists s, In s (all_sinks g) /\ num (s_level s) = get_level g).
Proof.
  intros g. unfold get_level. set (a := fold_left _ (g_local g) 5).
  destruct (fold_min (fun x : nat * sink => spd_level (snd x)) (g_local g) 5) as (A1 & A2 & A3). fold a in A1, A2, A3.
  set (b := fold_left _ (g_remote g) a). destruct (fold_min (fun r => spd_level (r_sink r)) (g_remote g) a) as (B1 & B2 & B3). fold b in B1, B2, B3.
  assert (L : b <= 5) by (cbv zeta in *; lia). unfold from_spdlog. replace (b =? 6) with false by lia.
  assert (R : forall s v, spd_level s = v -> v <= 5 -> num (s_level s) = v).
  { intros s v E V. rewrite spd_rank in E. destruct (s_level s); cbn in E |- *; lia. }
  assert (Q : forall s, b <= spd_level s -> b <= num (s_level s)).
  { intros s H. rewrite spd_rank in H. destruct (s_level s); cbn in H |- *; lia. }
  split; [lia|]. split.
  - intros s I. apply Q. apply in_app_iff in I as [I|I]; apply in_map_iff in I as (x & <- & I).
    + etransitivity; [exact B1|]. apply (A2 x I).
    + apply (B2 x I).
  - destruct B3 as [B3|(x & I & E)].
    + destruct A3 as [A3|(x & I & E)]; [left; congruence|]. right. exists (snd x). split; [apply in_app_iff; left; now apply in_map|]. apply R; [congruence|assumption].
    + right. exists (r_sink x). split; [apply in_app_iff; right; now apply in_map|]. apply R; [congruence|assumption].
Qed.
Lemma below_level : forall g l, l < get_level g -> forall s, In s (all_sinks g) -> forall t, wants s l t = false.
Proof.
  intros g l L s I t. destruct (wants s l t) eqn:W; [|reflexivity]. apply wants_level in W. destruct (get_level_spec g) as (_ & H & _). specialize (H s I). lia.
Qed.
Lemma flat_map_nil : forall {A B} (f : A -> list B) l, (forall x, In x l -> f x = []) -> flat_map f l = [].
Proof. intros A B f l H. induction l as [|x l IH]; [reflexivity|]. cbn. rewrite H by now left. apply IH. intros; apply H; now right. Qed.
Lemma process_below : forall g now m, m_level m < get_level g -> process_events g now m = [].
Proof.
  intros g now m L. unfold process_events. rewrite !flat_map_nil; [reflexivity| |].
  - intros r I. unfold remote_events. rewrite (below_level g _ L); [now destruct (r_handler r)|]. apply in_app_iff. right. now apply in_map.
  - intros x I. unfold local_events. rewrite (below_level g _ L); [reflexivity|]. apply in_app_iff. left. now apply in_map.
Qed.

(** ** Building messages *)
Lemma put_eq : forall k v l, (match set_kv k v l with Some l' => l' | None => l ++ [(k, v)] end) = put k v l.
Proof.
  intros k v l. induction l as [|[a b] l IH]; [reflexivity|]. cbn [set_kv put fst app]. destruct (text_eqb a k); [reflexivity|].
  rewrite <- IH. destruct (set_kv k v l); reflexivity.
Qed.
Definition events_of (g : logger) (l : list (Z * lmsg)) : list event := flat_map (fun x => process_events g (fst x) (snd x)) l.
Lemma dispatched_level : forall c m, Forall keeps_level c -> Forall (fun x => m_level (snd x) = m_level m) (dispatched m c).
Proof.
  intros c. induction c as [|[] c IH]; intros m F; [constructor|..]; inversion F as [|? ? K F']; subst; cbn [dispatched]; try (apply (IH (mkMsg _ _ _ _) F')).
  - destruct K.
  - constructor; [reflexivity|]. apply (IH m F').
Qed.
Lemma build_above : forall g c m, known (m_level m) -> Forall keeps_level c -> get_level g <= m_level m -> build g m c = (events_of g (dispatched m c), false).
Proof.
  intros g c. induction c as [|[] c IH]; intros m K F L; [reflexivity|..]; inversion F as [|? ? Q F']; subst; cbn [build apply_cmd dispatched]; unfold guarded;
    replace (get_level g <=? m_level m) with true by lia; rewrite ?put_eq; rewrite ?andthen_false; try (rewrite IH by (assumption || exact K || exact L); reflexivity).
  - destruct Q.
  - rewrite process_known by assumption. rewrite andthen_false, IH by assumption. reflexivity.
Qed.
Lemma build_below : forall g c m, Forall keeps_level c -> m_level m < get_level g -> build g m c = ([], false).
Proof.
  intros g c. induction c as [|[] c IH]; intros m F L; [reflexivity|..]; inversion F as [|? ? Q F']; subst; cbn [build apply_cmd]; unfold guarded;
    try (replace (get_level g <=? m_level m) with false by lia); rewrite ?andthen_false; try (rewrite IH by (assumption || exact L); reflexivity).
  destruct Q.
Qed.
Lemma events_below : forall g c m, Forall keeps_level c -> m_level m < get_level g -> events_of g (dispatched m c) = [].
Proof.
  intros g c m F L. unfold events_of. apply flat_map_nil. intros x I. apply process_below.
  pose proof (dispatched_level c m F) as D. rewrite Forall_forall in D. now rewrite (D x I).
Qed.
Lemma build_known : forall g c m, known (m_level m) -> Forall keeps_level c -> build g m c = (events_of g (dispatched m c), false).
Proof.
  intros g c m K F. destruct (N.le_gt_cases (get_level g) (m_level m)) as [L|L]; [now apply build_above|].
  rewrite build_below, events_below by assumption. reflexivity.
Qed.

(** ** One sink *)
Lemma lines_app : forall i a b, lines i (a ++ b) = lines i a ++ lines i b.
Proof. intros. apply flat_map_app. Qed.
Lemma sent_app : forall i a b, sent i (a ++ b) = sent i a ++ sent i b.
Proof. intros. apply flat_map_app. Qed.
Lemma lines_flat : forall {A} i (f : A -> list event) l, lines i (flat_map f l) = flat_map (fun x => lines i (f x)) l.
Proof. intros A i f l. induction l as [|x l IH]; [reflexivity|]. cbn [flat_map]. now rewrite lines_app, IH. Qed.
Lemma sent_flat : forall {A} i (f : A -> list event) l, sent i (flat_map f l) = flat_map (fun x => sent i (f x)) l.
Proof. intros A i f l. induction l as [|x l IH]; [reflexivity|]. cbn [flat_map]. now rewrite sent_app, IH. Qed.
Lemma flat_map_one : forall {A B} (key : A -> nat) (f : A -> list B) i x l, NoDup (map key l) -> In x l -> key x = i ->
  (forall y, key y <> i -> f y = []) -> flat_map f l = f x.
Proof.
  intros A B key f i x l. induction l as [|y l IH]; intros N I K H; [destruct I|]. cbn in N. inversion N as [|? ? N1 N2]; subst. cbn. destruct I as [->|I].
  - rewrite flat_map_nil; [apply app_nil_r|]. intros z J. apply H. intros E. apply N1. rewrite <- E. now apply in_map.
  - rewrite (H y); [cbn; now apply IH|]. intros E. apply N1. rewrite E. now apply in_map.
Qed.
Lemma number_nth : forall {A} (l : list A) k i x, nth_error l i = Some x -> In (k + i, x)%nat (number k l).
Proof.
  intros A l. induction l as [|y l IH]; intros k [|i] x H; cbn in H; try discriminate.
  - injection H as ->. left. f_equal. lia.
  - right. specialize (IH (Datatypes.S k) i x H). now replace (k + Datatypes.S i)%nat with (Datatypes.S k + i)%nat by lia.
Qed.
Lemma number_fst : forall {A} (l : list A) k, map fst (number k l) = seq k (length l).
Proof. intros A l. induction l as [|y l IH]; intros k; [reflexivity|]. cbn. now rewrite IH. Qed.
Lemma nodup_filter_fst : forall {A} (f : nat * A -> bool) l, NoDup (map fst l) -> NoDup (map fst (filter f l)).
Proof.
  intros A f l. induction l as [|x l IH]; intros N; [constructor|]. inversion N; subst. cbn. destruct (f x); [|auto]. cbn. constructor; [|auto].
  intros I. apply in_map_iff in I as (y & E & I). apply filter_In in I as [I _]. apply H1. rewrite <- E. now apply in_map.
Qed.
Definition good_order (ord : list (nat * sink) -> list (nat * sink)) : Prop := forall l, Permutation l (ord l).
Lemma ord_nodup : forall ord sinks, good_order ord -> NoDup (map fst (ord (number 0 sinks))).
Proof.
  intros ord sinks P. eapply Permutation_NoDup; [apply Permutation_map, P|]. rewrite number_fst. apply seq_NoDup.
Qed.

Lemma same_fst : forall {A} (l : list (nat * A)) x y, NoDup (map fst l) -> In x l -> In y l -> fst x = fst y -> x = y.
Proof.
  intros A l. induction l as [|z l IH]; intros x y N X Y E; [destruct X|]. inversion N; subst. destruct X as [<-|X], Y as [<-|Y]; auto; exfalso; apply H1.
  - rewrite E. now apply in_map.
  - rewrite <- E. now apply in_map.
Qed.

(** the parts of a logger that do not change, and the handler of all remote sinks *)
Definition shape (ord : list (nat * sink) -> list (nat * sink)) name sinks (h : option N) : logger := with_handler h (make ord name sinks).
Lemma shape_none : forall ord name sinks, shape ord name sinks None = make ord name sinks.
Proof. intros. unfold shape, with_handler, make. cbn. f_equal. rewrite map_map. reflexivity. Qed.
Lemma shape_again : forall ord name sinks h h', with_handler h' (shape ord name sinks h) = shape ord name sinks h'.
Proof. intros. unfold shape, with_handler, make. cbn. f_equal. rewrite !map_map. reflexivity. Qed.
Lemma shape_level : forall ord name sinks h h', get_level (shape ord name sinks h) = get_level (shape ord name sinks h').
Proof.
  intros. unfold shape, get_level, with_handler, make. cbn. f_equal. generalize (fold_left (fun l x => lower_of l (spd_level (snd x))) (filter (fun x => negb (is_remote (snd x))) (ord (number 0 sinks))) 5).
  generalize (filter (fun x => is_remote (snd x)) (ord (number 0 sinks))). intros l. induction l as [|x l IH]; intros a; [reflexivity|]. cbn. apply IH.
Qed.

Section One.
  Variables (ord : list (nat * sink) -> list (nat * sink)) (name : text) (sinks : list sink) (i : nat) (s : sink).
  Hypothesis P : good_order ord.
  Hypothesis I : nth_error sinks i = Some s.
  Lemma in_ord : In (i, s) (ord (number 0 sinks)).
  Proof. eapply Permutation_in; [apply P|]. apply (number_nth sinks 0 i s I). Qed.
  Lemma local_flat : forall (f : nat * sink -> list out) h, is_remote s = false -> (forall y, fst y <> i -> f y = []) ->
    flat_map f (g_local (shape ord name sinks h)) = f (i, s).
  Proof.
    intros f h R H. cbn. apply (flat_map_one fst f i (i, s)); [apply nodup_filter_fst, ord_nodup, P| |reflexivity|assumption].
    apply filter_In. split; [exact in_ord|]. cbn. now rewrite R.
  Qed.
  Lemma remote_flat : forall {B} (f : remote -> list B) h, is_remote s = true -> (forall y, r_id y <> i -> f y = []) ->
    flat_map f (g_remote (shape ord name sinks h)) = f (mkRemote i s h).
  Proof.
    intros B f h R H. cbn. apply (flat_map_one r_id f i (mkRemote i s h)); [| |reflexivity|assumption].
    - rewrite !map_map. cbn. apply nodup_filter_fst, ord_nodup, P.
    - apply in_map_iff. exists (mkRemote i s None). split; [reflexivity|]. apply in_map_iff. exists (i, s). split; [reflexivity|].
      apply filter_In. split; [exact in_ord|exact R].
  Qed.
  Lemma lines_remotes : forall l t m rs, lines i (flat_map (remote_events l t m) rs) = [].
  Proof. intros. rewrite lines_flat. apply flat_map_nil. intros r _. unfold remote_events. destruct (r_handler r); [|reflexivity]. now destruct (wants _ _ _). Qed.
  Lemma sent_locals : forall nm now l t f rs, sent i (flat_map (local_events nm now l t f) rs) = [].
  Proof. intros. rewrite sent_flat. apply flat_map_nil. intros r _. unfold local_events. now destruct (wants _ _ _). Qed.
  Lemma lines_locals : forall h nm now l t f, is_remote s = false ->
    lines i (flat_map (local_events nm now l t f) (g_local (shape ord name sinks h))) = if wants s l t then [mkOut now nm (rank l) (f (s_format s))] else [].
  Proof.
    intros h nm now l t f R. rewrite lines_flat. rewrite local_flat; [|assumption|].
    - unfold local_events. cbn. destruct (wants s l t); cbn; [now rewrite Nat.eqb_refl|reflexivity].
    - intros y N. unfold local_events. destruct (wants _ _ _); cbn; [|reflexivity]. apply Nat.eqb_neq in N. now rewrite N.
  Qed.
  Lemma sent_remotes : forall h l t m, is_remote s = true ->
    sent i (flat_map (remote_events l t m) (g_remote (shape ord name sinks h))) = match h with Some x => if wants s l t then [(x, m)] else [] | None => [] end.
  Proof.
    intros h l t m R. rewrite sent_flat. rewrite remote_flat; [|assumption|].
    - unfold remote_events. cbn. destruct h; [|reflexivity]. destruct (wants s l t); cbn; [now rewrite Nat.eqb_refl|reflexivity].
    - intros y N. unfold remote_events. destruct (r_handler y); [|reflexivity]. destruct (wants _ _ _); cbn; [|reflexivity]. apply Nat.eqb_neq in N. now rewrite N.
  Qed.
  Lemma local_no_remote : forall h l t m, is_remote s = false -> sent i (flat_map (remote_events l t m) (g_remote (shape ord name sinks h))) = [].
  Proof.
    intros h l t m R. rewrite sent_flat. apply flat_map_nil. intros r J. unfold remote_events. destruct (r_handler r); [|reflexivity]. destruct (wants _ _ _); [|reflexivity].
    cbn. destruct (Nat.eqb_spec (r_id r) i) as [E|]; [|reflexivity]. exfalso. cbn in J. rewrite map_map in J. apply in_map_iff in J as (x & <- & J). apply filter_In in J as [J Q]. cbn in E, Q.
    assert (X : x = (i, s)); [|rewrite X in Q; cbn in Q; congruence].
    exact (same_fst _ _ _ (ord_nodup ord sinks P) J in_ord E).
  Qed.
  Lemma received_lines : forall m ls, known (lm_level m) -> received m ls =
    (flat_map (fun x => if num (s_level (snd x)) <=? lm_level m
       then [EOut (fst x) (mkOut (lm_time m) (lm_loggerName m) (rank (lm_level m)) (render (lm_topic m) (lm_payload m) (lm_keyValues m) (s_format (snd x))))] else []) ls, false).
  Proof.
    intros m ls K. induction ls as [|[j x] ls IH]; [reflexivity|]. cbn [received]. rewrite IH, (known_rank _ K). rewrite andthen_false. cbn [flat_map fst snd]. f_equal. f_equal.
    rewrite spd_rank. pose proof (rank_le (num (s_level x)) (lm_level m) (num_known _) K) as E.
    destruct (num (s_level x) <=? lm_level m); destruct (N.ltb_spec (rank (lm_level m)) (rank (num (s_level x)))); try reflexivity; lia.
  Qed.

  Lemma step_lines : forall h o, is_remote s = false -> regular o -> lines i (fst (snd (step (shape ord name sinks h) o))) = lines_of name s o.
  Proof.
    intros h o R K. destruct o as [now l t msg|l t c|m|x|]; cbn [step snd fst]; [| | |reflexivity|reflexivity].
    - rewrite log_text_known by assumption. cbn [fst]. rewrite lines_app, lines_remotes, app_nil_r. now apply lines_locals.
    - destruct K as [K F]. rewrite build_known by assumption. cbn [fst]. unfold events_of. rewrite lines_flat. cbn [lines_of].
      pose proof (dispatched_level c (mkMsg l t [] []) F) as D. induction (dispatched (mkMsg l t [] []) c) as [|x r IH]; [reflexivity|].
      inversion D as [|? ? D1 D2]; subst. cbn [flat_map]. rewrite IH by assumption. f_equal. unfold process_events. cbn in D1.
      rewrite lines_app, lines_remotes, app_nil_r, D1. now apply lines_locals.
    - cbn in K. rewrite received_lines by assumption. cbn [fst]. rewrite lines_flat. rewrite local_flat; [|assumption|].
      + cbn [fst snd lines_of]. destruct (_ <=? _); cbn; [now rewrite Nat.eqb_refl|reflexivity].
      + intros y N. destruct (_ <=? _); cbn; [|reflexivity]. apply Nat.eqb_neq in N. now rewrite N.
  Qed.
  Lemma step_sent : forall h o l, is_remote s = true -> regular o ->
    let g := fst (step (shape ord name sinks h) o) in
    exists h', g = shape ord name sinks h' /\ sent i (fst (snd (step (shape ord name sinks h) o))) ++ sent_of name s h' l = sent_of name s h (o :: l).
  Proof.
    intros h o r R K. destruct o as [now l t msg|l t c|m|x|]; cbn [step snd fst].
    - exists h. split; [reflexivity|]. cbn [sent_of]. f_equal. rewrite log_text_known by assumption. cbn [fst]. rewrite sent_app, sent_locals. cbn [app]. rewrite sent_remotes by assumption. reflexivity.
    - exists h. split; [reflexivity|]. cbn [sent_of]. f_equal. destruct K as [K F]. rewrite build_known by assumption. cbn [fst]. unfold events_of. rewrite sent_flat.
      pose proof (dispatched_level c (mkMsg l t [] []) F) as D. induction (dispatched (mkMsg l t [] []) c) as [|x q IH]; [now destruct h|].
      inversion D as [|? ? D1 D2]; subst. cbn [flat_map]. rewrite IH by assumption. unfold process_events at 1. cbn in D1.
      rewrite sent_app, sent_locals, sent_remotes, D1 by assumption. cbn [app]. destruct h; reflexivity.
    - exists h. split; [reflexivity|]. cbn [sent_of]. cbn in K. rewrite received_lines by assumption. cbn [fst]. rewrite sent_flat.
      rewrite flat_map_nil; [reflexivity|]. intros y _. now destruct (_ <=? _).
    - exists (Some x). split; [apply shape_again|reflexivity].
    - exists None. split; [apply shape_again|reflexivity].
  Qed.
  Lemma step_shape : forall h o, exists h', fst (step (shape ord name sinks h) o) = shape ord name sinks h'.
  Proof. intros h []; cbn [step fst]; eauto; eexists; apply shape_again. Qed.
  Lemma run_lines : forall ops h, is_remote s = false -> Forall regular ops -> lines i (run (shape ord name sinks h) ops) = flat_map (lines_of name s) ops.
  Proof.
    intros ops. induction ops as [|o ops IH]; intros h R F; [reflexivity|]. inversion F; subst. cbn [run flat_map].
    pose proof (step_lines h o R H1) as L. destruct (step_shape h o) as [h' E]. destruct (step (shape ord name sinks h) o) as [g q]. cbn in L, E. subst.
    rewrite lines_app, L, IH by assumption. reflexivity.
  Qed.
  Lemma run_sent : forall ops h, is_remote s = true -> Forall regular ops -> sent i (run (shape ord name sinks h) ops) = sent_of name s h ops.
  Proof.
    intros ops. induction ops as [|o ops IH]; intros h R F; [reflexivity|]. inversion F; subst. cbn [run].
    pose proof (step_sent h o ops R H1) as (h' & E & L). destruct (step (shape ord name sinks h) o) as [g q]. cbn in L, E. subst.
    rewrite sent_app, IH by assumption. exact L.
  Qed.
End One.
