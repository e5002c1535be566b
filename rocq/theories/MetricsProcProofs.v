(** Proofs about the metrics processor of MetricsModel.v: under every interleaving each sink is told everything. *)
From Coq Require Import String Ascii List NArith Bool Lia Arith.
From Verif Require Import Base TextModel MetricsModel MetricsProofs.
Import ListNotations.
Open Scope list_scope.
Open Scope nat_scope.

(** ** Vocabulary of the statements *)
(** what thread [t] contributed to an update *)
Definition pick (t : nat) (u : list item) : list N := map snd (filter (fun x => fst x =? t) u).
(** what thread [t] contributed under the origin, in the order of the list *)
Definition sel (t : nat) (o : text) (l : list (text * list item)) : list N :=
  flat_map (fun e => if text_eqb o (fst e) then pick t (snd e) else []) l.
(** the updates which a program passes *)
Definition updates (p : list call) : list (text * list item) := flat_map (fun c => match c with CProcess o u => [(o, u)] | CSetSinks _ => [] end) p.
(** each thread passes values which carry its number *)
Definition tagged (i : nat) (p : list call) : Prop := forall o u x, In (o, u) (updates p) -> In x u -> fst x = i.
Definition tagged_all (ps : list (list call)) : Prop := forall i p, nth_error ps i = Some p -> tagged i p.
Definition finished (s : proc) : Prop := forall th, In th (f_threads s) -> th = mkThread Idle [].

(** ** Lists *)
Lemma set_nth_eq : forall A i (x : A) l y, nth_error l i = Some y -> nth_error (set_nth i x l) i = Some x.
Proof. induction i; intros x [|z l] y; cbn; intros H; try discriminate; [reflexivity|eauto]. Qed.
Lemma set_nth_ne : forall A i (x : A) l k, k <> i -> nth_error (set_nth i x l) k = nth_error l k.
Proof. induction i; intros x [|z l] [|k] H; cbn; try reflexivity; [now contradiction H|]. apply IHi. lia. Qed.
Lemma set_nth_length : forall A i (x : A) l, length (set_nth i x l) = length l.
Proof. induction i; intros x [|z l]; cbn; auto. Qed.
Lemma log_add_eq : forall i e ls l, nth_error ls i = Some l -> nth_error (log_add i e ls) i = Some (l ++ [e]).
Proof. induction i; intros e [|z ls] l; cbn; intros H; try discriminate; [now injection H as ->|auto]. Qed.
Lemma log_add_ne : forall i e ls k, k <> i -> nth_error (log_add i e ls) k = nth_error ls k.
Proof. induction i; intros e [|z ls] [|k] H; cbn; try reflexivity; [now contradiction H|]. apply IHi. lia. Qed.
Lemma log_add_length : forall i e ls, length (log_add i e ls) = length ls.
Proof. induction i; intros e [|z ls]; cbn; auto. Qed.
Lemma sel_app : forall t o a b, sel t o (a ++ b) = sel t o a ++ sel t o b.
Proof. intros. apply flat_map_app. Qed.
Lemma pick_app : forall t a b, pick t (a ++ b) = pick t a ++ pick t b.
Proof. intros. unfold pick. now rewrite filter_app, map_app. Qed.
Lemma pick_other : forall t i u, (forall x, In x u -> fst x = i) -> t <> i -> pick t u = [].
Proof.
  intros t i u H N. unfold pick. induction u as [|x u IH]; [reflexivity|]. cbn. rewrite (H x (or_introl eq_refl)). destruct (Nat.eqb_spec i t); [congruence|]. apply IH. intros y I. apply H. now right.
Qed.
Lemma sel_none : forall t o l, ~ In o (map fst l) -> sel t o l = [].
Proof.
  intros t o l H. induction l as [|[k u] l IH]; [reflexivity|]. cbn. destruct (text_eqb o k) eqn:E; [apply text_eqb_eq in E; exfalso; apply H; now left|]. apply IH. intros I. apply H. now right.
Qed.
Lemma sel_cache_add : forall t o o' u c, NoDup (map fst c) -> sel t o (cache_add o' u c) = sel t o c ++ (if text_eqb o o' then pick t u else []).
Proof.
  intros t o o' u c. induction c as [|[k l] c IH]; intros ND.
  - cbn. now rewrite app_nil_r.
  - cbn [cache_add]. inversion ND as [|? ? NI ND']; subst. destruct (text_eqb o' k) eqn:E.
    + apply text_eqb_eq in E. subst k. unfold sel. cbn [flat_map fst snd]. fold (sel t o c). destruct (text_eqb o o') eqn:F; [|now rewrite app_nil_r].
      apply text_eqb_eq in F. subst o'. rewrite pick_app, (sel_none t o c NI), !app_nil_r. reflexivity.
    + unfold sel. cbn [flat_map fst snd]. fold (sel t o (cache_add o' u c)). rewrite (IH ND'). fold (sel t o c). now rewrite app_assoc.
Qed.
Lemma cache_add_keys : forall o u c k, In k (map fst (cache_add o u c)) -> k = o \/ In k (map fst c).
Proof. intros o u c k. induction c as [|[x l] c IH]; cbn; [intuition|]. destruct (text_eqb o x); cbn; intuition. Qed.
Lemma cache_add_nodup : forall o u c, NoDup (map fst c) -> NoDup (map fst (cache_add o u c)).
Proof.
  intros o u c. induction c as [|[x l] c IH]; intros ND; [cbn; constructor; [intros []|constructor]|]. cbn in *. inversion ND; subst. destruct (text_eqb o x) eqn:E; cbn; constructor; auto.
  intros I. apply cache_add_keys in I as [->|I]; [|contradiction]. now rewrite text_eqb_refl in E.
Qed.

(** ** The invariant *)
Definition holds (p : pc) : bool := match p with PCheck _ _ | SCheck _ | SFlush _ _ | SClear => true | _ => false end.
Definition now_for (j : nat) (p : pc) : list (text * list item) :=
  match p with PLock o u | PCheck o u => [(o, u)] | PSink o u i => if i <=? j then [(o, u)] else [] | _ => [] end.
(** what the thread will still pass to sink [j] *)
Definition pend (j : nat) (th : thread) : list (text * list item) := now_for j (t_pc th) ++ updates (t_calls th).
Definition sizes (p : list call) : list nat := flat_map (fun c => match c with CSetSinks k => [k] | _ => [] end) p.
Definition pc_sizes (p : pc) : list nat := match p with SLock k | SCheck k => [k] | _ => [] end.
Definition pc_items (p : pc) : list item := match p with PLock _ u | PCheck _ u | PSink _ u _ => u | _ => [] end.

Definition flushed (s : proc) (p : pc) : Prop :=
  match p with
  | SFlush j rest => forall j' l, nth_error (f_logs s) j' = Some l -> forall t o,
      if j' <? j then sel t o l = sel t o (f_cache s) else if j' =? j then sel t o l ++ sel t o rest = sel t o (f_cache s) else sel t o l = []
  | SClear => forall j' l, nth_error (f_logs s) j' = Some l -> forall t o, sel t o l = sel t o (f_cache s)
  | _ => True
  end.
Record pinv (ps : list (list call)) (s : proc) : Prop := mkPinv {
  v_len : length (f_threads s) = length ps;
  v_lock : forall i th, nth_error (f_threads s) i = Some th -> (holds (t_pc th) = true <-> f_lock s = Some i);
  v_holder : forall i, f_lock s = Some i -> i < length ps;
  v_nodup : NoDup (map fst (f_cache s));
  v_tag : forall i th, nth_error (f_threads s) i = Some th -> tagged i (t_calls th) /\ forall x, In x (pc_items (t_pc th)) -> fst x = i;
  v_size : forall i th, nth_error (f_threads s) i = Some th -> incl (pc_sizes (t_pc th) ++ sizes (t_calls th)) (sizes (concat ps));
  v_phase : forall i th, nth_error (f_threads s) i = Some th ->
     (f_set s = true -> match t_pc th with SFlush _ _ | SClear => False | _ => True end) /\
     (f_set s = false -> match t_pc th with PSink _ _ _ => False | _ => True end) /\
     (match t_pc th with SFlush _ _ | SClear => In (length (f_logs s)) (sizes (concat ps)) | _ => True end) /\
     flushed s (t_pc th);
  v_done : f_set s = true -> In (length (f_logs s)) (sizes (concat ps)) /\ f_cache s = [];
  v_before : f_set s = false -> forall i th p, nth_error (f_threads s) i = Some th -> nth_error ps i = Some p -> forall o, sel i o (f_cache s) ++ sel i o (pend 0 th) = sel i o (updates p);
  v_after : f_set s = true -> forall j l, nth_error (f_logs s) j = Some l -> forall i th p, nth_error (f_threads s) i = Some th -> nth_error ps i = Some p -> forall o, sel i o l ++ sel i o (pend j th) = sel i o (updates p)
}.
Lemma nth_map : forall A B (f : A -> B) l i, nth_error (map f l) i = option_map f (nth_error l i).
Proof. induction l as [|x l IH]; intros [|i]; cbn; auto. Qed.
Lemma in_sizes : forall i p ps, nth_error ps i = Some p -> incl (sizes p) (sizes (concat ps)).
Proof.
  intros i p ps H k I. unfold sizes in *. apply in_flat_map in I as (c & I & J). apply in_flat_map. exists c. split; [|exact J]. apply in_concat. exists p. split; [now apply nth_error_In in H|exact I].
Qed.
Lemma pinv_start : forall ps, tagged_all ps -> pinv ps (proc0 ps).
Proof.
  intros ps T. unfold proc0. constructor; cbn [f_set f_lock f_cache f_logs f_threads]; try discriminate.
  - apply map_length.
  - intros i th H. rewrite nth_map in H. destruct (nth_error ps i); [|discriminate]. injection H as <-. cbn. split; discriminate.
  - constructor.
  - intros i th H. rewrite nth_map in H. destruct (nth_error ps i) eqn:E; [|discriminate]. injection H as <-. cbn. split; [now apply T|intros ? []].
  - intros i th H. rewrite nth_map in H. destruct (nth_error ps i) eqn:E; [|discriminate]. injection H as <-. cbn. now apply (in_sizes i).
  - intros i th H. rewrite nth_map in H. destruct (nth_error ps i) eqn:E; [|discriminate]. injection H as <-. cbn. repeat split; auto.
  - intros _ i th p H E o. rewrite nth_map, E in H. injection H as <-. reflexivity.
Qed.
Lemma tagged_tail : forall i c r, tagged i (c :: r) -> tagged i r.
Proof. intros i c r H o u x I J. apply (H o u x); [|exact J]. unfold updates. cbn. apply in_app_iff. now right. Qed.
Lemma threads_cases : forall (ts : list thread) i t k th, nth_error (set_nth i t ts) k = Some th -> (exists x, nth_error ts i = Some x) -> (k = i /\ th = t) \/ (k <> i /\ nth_error ts k = Some th).
Proof.
  intros ts i t k th H [x X]. destruct (Nat.eq_dec k i) as [->|N]; [left; rewrite (set_nth_eq _ _ _ _ _ X) in H; split; congruence|right; rewrite set_nth_ne in H; auto].
Qed.
Lemma sel_cons : forall t o e l, sel t o (e :: l) = (if text_eqb o (fst e) then pick t (snd e) else []) ++ sel t o l.
Proof. reflexivity. Qed.
Lemma updates_cons : forall c r, updates (c :: r) = match c with CProcess o u => [(o, u)] | CSetSinks _ => [] end ++ updates r.
Proof. reflexivity. Qed.

(** steps which change neither the flag nor the cache nor the sinks *)
Lemma quiet : forall ps s i th th' lk, pinv ps s -> nth_error (f_threads s) i = Some th ->
  (holds (t_pc th') = true <-> lk = Some i) -> (forall k, k <> i -> (lk = Some k <-> f_lock s = Some k)) ->
  (tagged i (t_calls th') /\ forall x, In x (pc_items (t_pc th')) -> fst x = i) ->
  incl (pc_sizes (t_pc th') ++ sizes (t_calls th')) (sizes (concat ps)) ->
  (f_set s = true -> match t_pc th' with SFlush _ _ | SClear => False | _ => True end) ->
  (f_set s = false -> match t_pc th' with PSink _ _ _ => False | _ => True end) ->
  (match t_pc th' with SFlush _ _ | SClear => In (length (f_logs s)) (sizes (concat ps)) | _ => True end) ->
  flushed s (t_pc th') ->
  (forall j o, (f_set s = false /\ j = 0) \/ (f_set s = true /\ j < length (f_logs s)) -> sel i o (pend j th') = sel i o (pend j th)) ->
  pinv ps (mkProc (f_set s) lk (f_cache s) (f_logs s) (set_nth i th' (f_threads s))).
Proof.
  intros ps s i th th' lk V H L1 L2 TG SZ P1 P2 P3 P4 PE. destruct V as [V1 V2 V3 V4 V5 V6 V7 V8 V9 V10].
  assert (X : exists x, nth_error (f_threads s) i = Some x) by eauto.
  assert (IL : i < length ps) by (rewrite <- V1; apply nth_error_Some; congruence).
  constructor; cbn [f_set f_lock f_cache f_logs f_threads].
  - now rewrite set_nth_length.
  - intros k t K. apply threads_cases in K as [[-> ->]|[N K]]; [exact L1| |exact X]. rewrite (L2 k N). now apply V2.
  - intros k E. destruct (Nat.eq_dec k i) as [->|N]; [exact IL|]. apply V3. now apply (L2 k N).
  - exact V4.
  - intros k t K. apply threads_cases in K as [[-> ->]|[N K]]; [exact TG| |exact X]. now apply V5.
  - intros k t K. apply threads_cases in K as [[-> ->]|[N K]]; [exact SZ| |exact X]. now apply (V6 k).
  - intros k t K. apply threads_cases in K as [[-> ->]|[N K]]; [auto| |exact X]. exact (V7 k t K).
  - exact V8.
  - intros F k t p K E o. apply threads_cases in K as [[-> ->]|[N K]]; [|now apply V9|exact X]. rewrite PE; [now apply V9|auto].
  - intros F j l J k t p K E o. apply threads_cases in K as [[-> ->]|[N K]]; [|now apply V10|exact X]. rewrite PE; [now apply V10|]. right. split; [exact F|]. apply nth_error_Some. congruence.
Qed.
Lemma alone : forall ps s i th, pinv ps s -> nth_error (f_threads s) i = Some th -> holds (t_pc th) = true ->
  forall k t, nth_error (f_threads s) k = Some t -> k <> i -> holds (t_pc t) = false.
Proof.
  intros ps s i th V H HO k t K N. destruct (holds (t_pc t)) eqn:E; [|reflexivity]. apply (v_lock _ _ V k t K) in E. apply (v_lock _ _ V i th H) in HO. congruence.
Qed.
Lemma nth_repeat_nil : forall A k j (l : list A), nth_error (repeat [] k) j = Some l -> l = [].
Proof. intros A k j l H. apply nth_error_In in H. now apply repeat_spec in H. Qed.

Lemma pstep_inv : forall ps i s s', pinv ps s -> pstep i s = Some s' -> pinv ps s'.
Proof.
  intros ps i s s' V E. unfold pstep in E. destruct (nth_error (f_threads s) i) as [th|] eqn:H; [|discriminate].
  assert (X : exists x, nth_error (f_threads s) i = Some x) by eauto.
  destruct (v_tag _ _ V i th H) as [TC TI]. pose proof (v_size _ _ V i th H) as SZ. destruct (v_phase _ _ V i th H) as (P1 & P2 & P3 & P4). pose proof (v_lock _ _ V i th H) as LK.
  assert (OTHER : forall k, k <> i -> holds (t_pc th) = true -> (@None nat = Some k <-> f_lock s = Some k)).
  { intros k N HO. apply LK in HO. rewrite HO. split; congruence. }
  destruct th as [p calls]. cbn [t_pc t_calls] in *.
  destruct p as [|o u|o u|o u j|k|k|j rest|].
  - destruct calls as [|[o u|k] r]; [discriminate| |]; injection E as <-.
    + assert (TU : forall x, In x u -> fst x = i) by (intros x I; apply (TC o u x); [now left|exact I]).
      apply (quiet ps s i _ _ _ V H); cbn [t_pc t_calls holds].
      * destruct (f_set s); exact LK.
      * tauto.
      * split; [now apply tagged_tail in TC|]. destruct (f_set s); exact TU.
      * destruct (f_set s); exact SZ.
      * destruct (f_set s); auto.
      * intros ->. exact I.
      * destruct (f_set s); exact I.
      * destruct (f_set s); exact I.
      * intros j o' D. unfold pend. cbn [t_pc t_calls]. rewrite updates_cons. destruct (f_set s); reflexivity.
    + apply (quiet ps s i _ _ _ V H); cbn [t_pc t_calls holds pc_items pc_sizes flushed]; auto; try tauto.
  - destruct (f_lock s) eqn:FL; [discriminate|]. injection E as <-.
    apply (quiet ps s i _ _ _ V H); cbn [t_pc t_calls holds pc_items pc_sizes flushed] in *; auto; try tauto.
    intros k N. rewrite FL. split; congruence.
  - destruct (f_set s) eqn:FS; injection E as <-.
    + rewrite <- FS. apply (quiet ps s i _ _ _ V H); cbn [t_pc t_calls holds pc_items pc_sizes flushed] in *; auto; try tauto; try congruence.
      split; congruence.
    + assert (AL := alone ps s i _ V H eq_refl). destruct V as [V1 V2 V3 V4 V5 V6 V7 V8 V9 V10].
      constructor; cbn [f_set f_lock f_cache f_logs f_threads]; try discriminate.
      * now rewrite set_nth_length.
      * intros k t K. apply threads_cases in K as [[-> ->]|[N K]]; [cbn; split; discriminate| |exact X]. rewrite (AL k t K N). split; discriminate.
      * now apply cache_add_nodup.
      * intros k t K. apply threads_cases in K as [[-> ->]|[N K]]; [split; [exact TC|intros ? []]|now apply V5|exact X].
      * intros k t K. apply threads_cases in K as [[-> ->]|[N K]]; [exact SZ|now apply (V6 k)|exact X].
      * intros k t K. apply threads_cases in K as [[-> ->]|[N K]]; [cbn; auto| |exact X]. destruct (V7 k t K) as (Q1 & Q2 & Q3 & Q4). pose proof (AL k t K N) as HN.
        split; [discriminate|]. split; [intros _; exact (Q2 FS)|]. split; [exact Q3|]. destruct (t_pc t); try discriminate; exact I.
      * intros _ k t p K E o'. rewrite sel_cache_add by exact V4. apply threads_cases in K as [[-> ->]|[N K]]; [| |exact X].
        -- rewrite <- (V9 FS i _ p H E o'). unfold pend. cbn [t_pc t_calls now_for app]. rewrite sel_cons. cbn [fst snd]. now rewrite app_assoc.
        -- rewrite (pick_other k i u TI N). rewrite <- (V9 FS k t p K E o'). destruct (text_eqb o' o); now rewrite app_nil_r.
  - destruct (j <? length (f_logs s)) eqn:JL; injection E as <-.
    + assert (FS : f_set s = true) by (destruct (f_set s); [reflexivity|destruct (P2 eq_refl)]).
      destruct V as [V1 V2 V3 V4 V5 V6 V7 V8 V9 V10]. rewrite FS in *.
      constructor; cbn [f_set f_lock f_cache f_logs f_threads]; try discriminate; rewrite ?set_nth_length, ?log_add_length; auto.
      * intros k t K. apply threads_cases in K as [[-> ->]|[N K]]; [exact LK|now apply V2|exact X].
      * intros k t K. apply threads_cases in K as [[-> ->]|[N K]]; [split; [exact TC|exact TI]|now apply V5|exact X].
      * intros k t K. apply threads_cases in K as [[-> ->]|[N K]]; [exact SZ|now apply (V6 k)|exact X].
      * intros k t K. apply threads_cases in K as [[-> ->]|[N K]]; [cbn; repeat split; auto; discriminate| |exact X]. destruct (V7 k t K) as (Q1 & Q2 & Q3 & Q4).
        split; [exact Q1|]. split; [discriminate|]. specialize (Q1 eq_refl). destruct (t_pc t); try contradiction; split; exact I.
      * intros _ j' l J k t p K E o'.
        destruct (Nat.eq_dec j' j) as [->|NJ].
        -- destruct (nth_error (f_logs s) j) as [l0|] eqn:L0; [|apply nth_error_None in L0; lia]. rewrite (log_add_eq _ _ _ _ L0) in J. injection J as <-. rewrite sel_app.
           apply threads_cases in K as [[-> ->]|[N K]]; [| |exact X].
           ++ rewrite <- (V10 eq_refl j l0 L0 i _ p H E o'). unfold pend. cbn [t_pc t_calls now_for]. rewrite Nat.leb_refl. replace (S j <=? j) with false by (symmetry; apply Nat.leb_gt; lia). cbn [app]. rewrite !sel_cons. cbn [fst snd sel flat_map]. now rewrite app_nil_r, app_assoc.
           ++ rewrite <- (V10 eq_refl j l0 L0 k t p K E o'). rewrite sel_cons. cbn [fst snd]. rewrite (pick_other k i u TI N). destruct (text_eqb o' o); cbn [app sel flat_map]; now rewrite app_nil_r.
        -- rewrite log_add_ne in J by exact NJ. apply threads_cases in K as [[-> ->]|[N K]]; [|now apply (V10 eq_refl j' l J)|exact X].
           rewrite <- (V10 eq_refl j' l J i _ p H E o'). unfold pend. cbn [t_pc t_calls now_for]. do 2 f_equal. replace (S j <=? j') with (j <=? j'); [reflexivity|]. destruct (j <=? j') eqn:E1, (S j <=? j') eqn:E2; try reflexivity; apply Nat.leb_le in E1 || apply Nat.leb_gt in E1; apply Nat.leb_le in E2 || apply Nat.leb_gt in E2; lia.
    + apply (quiet ps s i _ _ _ V H); cbn [t_pc t_calls holds pc_items pc_sizes flushed] in *; auto; try tauto.
      * split; [exact TC|intros ? []].
      * intros j' o' [[D1 D2]|[D1 D2]]; [destruct (P2 D1)|]. unfold pend. cbn [t_pc t_calls now_for]. destruct (Nat.leb_spec j j'); [|reflexivity]. apply Nat.ltb_ge in JL. lia.
  - destruct (f_lock s) eqn:FL; [discriminate|]. injection E as <-.
    apply (quiet ps s i _ _ _ V H); cbn [t_pc t_calls holds pc_items pc_sizes flushed] in *; auto; try tauto.
    intros k' N. rewrite FL. split; congruence.
  - destruct (f_set s) eqn:FS; injection E as <-.
    + rewrite <- FS. apply (quiet ps s i _ _ _ V H); cbn [t_pc t_calls holds pc_items pc_sizes flushed] in *; auto; try tauto; try congruence.
      * split; congruence.
      * intros z I. apply SZ. now right.
    + assert (AL := alone ps s i _ V H eq_refl). destruct V as [V1 V2 V3 V4 V5 V6 V7 V8 V9 V10].
      assert (KS : In k (sizes (concat ps))) by (apply SZ; now left).
      constructor; cbn [f_set f_lock f_cache f_logs f_threads]; try discriminate; rewrite ?set_nth_length, ?repeat_length; auto.
      * intros k' t K. apply threads_cases in K as [[-> ->]|[N K]]; [exact LK|now apply V2|exact X].
      * intros k' t K. apply threads_cases in K as [[-> ->]|[N K]]; [split; [exact TC|intros ? []]|now apply V5|exact X].
      * intros k' t K. apply threads_cases in K as [[-> ->]|[N K]]; [intros z I; apply SZ; now right|now apply (V6 k')|exact X].
      * intros k' t K. apply threads_cases in K as [[-> ->]|[N K]]; [| |exact X].
        -- cbn [t_pc flushed]. split; [discriminate|]. split; [auto|]. split; [exact KS|]. cbn [f_logs f_cache]. intros j' l J t' o'. apply nth_repeat_nil in J. subst l.
           destruct (j' <? 0) eqn:C1; [apply Nat.ltb_lt in C1; lia|]. destruct (j' =? 0); reflexivity.
        -- destruct (V7 k' t K) as (Q1 & Q2 & Q3 & Q4). pose proof (AL k' t K N) as HN. split; [discriminate|]. split; [intros _; exact (Q2 FS)|]. destruct (t_pc t); try discriminate; split; exact I.
      * intros _ k' t p K E o'. apply threads_cases in K as [[-> ->]|[N K]]; [| |exact X]; [|now apply V9]. exact (V9 FS i _ p H E o').
  - assert (FS : f_set s = false) by (destruct (f_set s); [destruct (P1 eq_refl)|reflexivity]).
    destruct rest as [|e rest]; destruct (j <? length (f_logs s)) eqn:JL; injection E as <-.
    + apply (quiet ps s i _ _ _ V H); cbn [t_pc t_calls holds pc_items pc_sizes flushed] in *; auto; try tauto.
      intros j' l J t o'. specialize (P4 j' l J t o'). destruct (Nat.ltb_spec j' j), (Nat.ltb_spec j' (S j)), (Nat.eqb_spec j' j), (Nat.eqb_spec j' (S j)); try lia; try exact P4; cbn in P4; rewrite ?app_nil_r in P4; try exact P4. rewrite P4. reflexivity.
    + apply (quiet ps s i _ _ _ V H); cbn [t_pc t_calls holds pc_items pc_sizes flushed] in *; auto; try tauto.
      intros j' l J t o'. specialize (P4 j' l J t o'). assert (j' < length (f_logs s)) by (apply nth_error_Some; congruence). apply Nat.ltb_ge in JL. destruct (Nat.ltb_spec j' j); [exact P4|lia].
    + assert (AL := alone ps s i _ V H eq_refl). destruct V as [V1 V2 V3 V4 V5 V6 V7 V8 V9 V10]. rewrite FS in *.
      constructor; cbn [f_set f_lock f_cache f_logs f_threads]; try discriminate; rewrite ?set_nth_length, ?log_add_length; auto.
      * intros k' t K. apply threads_cases in K as [[-> ->]|[N K]]; [exact LK|now apply V2|exact X].
      * intros k' t K. apply threads_cases in K as [[-> ->]|[N K]]; [split; [exact TC|intros ? []]|now apply V5|exact X].
      * intros k' t K. apply threads_cases in K as [[-> ->]|[N K]]; [exact SZ|now apply (V6 k')|exact X].
      * intros k' t K. apply threads_cases in K as [[-> ->]|[N K]]; [| |exact X].
        -- cbn [t_pc flushed]. split; [discriminate|]. split; [auto|]. split; [exact P3|]. cbn [f_logs f_cache]. intros j' l J t' o'. cbn [flushed] in P4.
           destruct (Nat.eq_dec j' j) as [->|NJ].
           ++ destruct (nth_error (f_logs s) j) as [l0|] eqn:L0; [|apply nth_error_None in L0; apply Nat.ltb_lt in JL; lia]. rewrite (log_add_eq _ _ _ _ L0) in J. injection J as <-. specialize (P4 j l0 L0 t' o').
              rewrite Nat.ltb_irrefl, Nat.eqb_refl in *. rewrite <- P4, sel_app, !sel_cons, <- !app_assoc. reflexivity.
           ++ rewrite log_add_ne in J by exact NJ. specialize (P4 j' l J t' o'). destruct (j' <? j); [exact P4|]. destruct (Nat.eqb_spec j' j); [contradiction|exact P4].
        -- destruct (V7 k' t K) as (Q1 & Q2 & Q3 & Q4). pose proof (AL k' t K N) as HN. split; [discriminate|]. split; [exact Q2|]. destruct (t_pc t); try discriminate; split; exact I.
      * intros _ k' t p K E o'. apply threads_cases in K as [[-> ->]|[N K]]; [| |exact X]; [|now apply V9]. exact (V9 eq_refl i _ p H E o').
    + apply (quiet ps s i _ _ _ V H); cbn [t_pc t_calls holds pc_items pc_sizes flushed] in *; auto; try tauto.
      intros j' l J t o'. specialize (P4 j' l J t o'). assert (j' < length (f_logs s)) by (apply nth_error_Some; congruence). apply Nat.ltb_ge in JL. destruct (Nat.ltb_spec j' j); [exact P4|lia].
  - assert (FS : f_set s = false) by (destruct (f_set s); [destruct (P1 eq_refl)|reflexivity]). injection E as <-.
    assert (AL := alone ps s i _ V H eq_refl). destruct V as [V1 V2 V3 V4 V5 V6 V7 V8 V9 V10].
    constructor; cbn [f_set f_lock f_cache f_logs f_threads]; try discriminate; rewrite ?set_nth_length; auto.
    + intros k' t K. apply threads_cases in K as [[-> ->]|[N K]]; [cbn; split; discriminate| |exact X]. rewrite (AL k' t K N). split; discriminate.
    + constructor.
    + intros k' t K. apply threads_cases in K as [[-> ->]|[N K]]; [split; [exact TC|intros ? []]|now apply V5|exact X].
    + intros k' t K. apply threads_cases in K as [[-> ->]|[N K]]; [exact SZ|now apply (V6 k')|exact X].
    + intros k' t K. apply threads_cases in K as [[-> ->]|[N K]]; [cbn; repeat split; auto; discriminate| |exact X]. pose proof (AL k' t K N) as HN.
      split; [intros _; destruct (t_pc t); try discriminate; exact I|]. split; [discriminate|]. destruct (t_pc t); try discriminate; split; exact I.
    + intros _ j l J k' t p K E o'. cbn [flushed] in P4. rewrite (P4 j l J k' o').
      apply threads_cases in K as [[-> ->]|[N K]]; [exact (V9 FS i _ p H E o')| |exact X].
      rewrite <- (V9 FS k' t p K E o'). unfold pend. destruct (V7 k' t K) as (_ & Q2 & _). specialize (Q2 FS). destruct (t_pc t); try reflexivity. destruct Q2.
Qed.
Lemma prun_inv : forall ps sched s, pinv ps s -> pinv ps (prun s sched).
Proof. intros ps sched. induction sched as [|i r IH]; intros s V; [exact V|]. cbn. apply IH. destruct (pstep i s) eqn:E; [now apply (pstep_inv ps i s)|exact V]. Qed.

(** ** No thread waits for ever *)
Lemma progress : forall ps s, pinv ps s -> ~ finished s -> exists i s', pstep i s = Some s'.
Proof.
  intros ps s V F. destruct (f_lock s) as [i|] eqn:L.
  - exists i. assert (IL := v_holder _ _ V i L). rewrite <- (v_len _ _ V) in IL. destruct (nth_error (f_threads s) i) as [th|] eqn:H; [|apply nth_error_None in H; lia].
    apply (v_lock _ _ V i th H) in L. unfold pstep. rewrite H. destruct (t_pc th) as [|o u|o u|o u j|k|k|j rest|]; try discriminate.
    + destruct (f_set s); eauto.
    + destruct (f_set s); eauto.
    + destruct rest; destruct (j <? length (f_logs s)); eauto.
    + eauto.
  - assert (X : exists th, In th (f_threads s) /\ th <> mkThread Idle []).
    { unfold finished in F. assert (D : forall th : thread, {th = mkThread Idle []} + {th <> mkThread Idle []}).
      { intros [[] []]; try (left; reflexivity); right; discriminate. }
      induction (f_threads s) as [|t ts IH]; [exfalso; apply F; intros ? []|]. destruct (D t) as [->|N]; [|exists t; split; [now left|exact N]].
      destruct IH as (th & I & N); [|exists th; split; [now right|exact N]]. intros A. apply F. intros th [<-|I]; [reflexivity|auto]. }
    destruct X as (th & I & N). apply In_nth_error in I as [i H]. exists i. unfold pstep. rewrite H, L. destruct th as [p calls]. cbn [t_pc t_calls].
    destruct p as [|o u|o u|o u j|k|k|j rest|].
    + destruct calls as [|[o u|k] r]; [now contradiction N| |]; eauto.
    + eauto.
    + destruct (f_set s); eauto.
    + destruct (j <? length (f_logs s)); eauto.
    + eauto.
    + destruct (f_set s); eauto.
    + destruct rest; destruct (j <? length (f_logs s)); eauto.
    + eauto.
Qed.
