From Coq Require Import String Ascii List NArith Arith Bool Lia Permutation Sorted.
From Verif Require Import Base TextModel ConnectPeerModel.
Import ListNotations.
Open Scope list_scope.
Open Scope nat_scope.

Ltac spl := repeat match goal with |- _ /\ _ => split end.

(** ** Vocabulary of the statements *)
(** the URIs that were tried, in order *)
Definition tries (l : list ev) : list uri := flat_map (fun e => match e with ETry u => [u] | _ => [] end) l.
(** the calls of the listener *)
Definition is_report (e : ev) : bool := match e with ESuccess _ | EFailure => true | _ => false end.
Definition reports (l : list ev) : list ev := filter is_report l.
(** the number of rounds the first AsyncConnect asks for *)
Fixpoint rounds (ops : list op) : nat :=
  match ops with [] => 0 | OStart n :: _ => Nat.max n 1 | _ :: ops => rounds ops end.
(** completions of connectors after the first AsyncConnect *)
Definition is_completion (o : op) : bool := match o with OSuccess | OFail => true | _ => false end.
Fixpoint completions (ops : list op) : nat :=
  match ops with [] => 0 | OStart n :: r => length (filter is_completion r) | _ :: ops => completions ops end.

Lemma tries_app a b : tries (a ++ b) = tries a ++ tries b.
Proof. apply flat_map_app. Qed.
Lemma reports_app a b : reports (a ++ b) = reports a ++ reports b.
Proof. apply filter_app. Qed.
Lemma tries_map l : tries (map ETry l) = l.
Proof. induction l as [|u l IH]; auto. change (u :: tries (map ETry l) = u :: l). now rewrite IH. Qed.
Lemma reports_map l : reports (map ETry l) = [].
Proof. induction l; auto. Qed.
Lemma tries_fail k : tries (repeat EFailure k) = [].
Proof. induction k; auto. Qed.
Lemma reports_fail k : reports (repeat EFailure k) = repeat EFailure k.
Proof. induction k as [|k IH]; auto. change (EFailure :: reports (repeat EFailure k) = EFailure :: repeat EFailure k). now rewrite IH. Qed.

Section Connect.
  Variable uris : list uri.
  Variable domain : bool.
  Variable env : nat -> outcome.
  Variable destroys : bool.
  Notation try_next := (try_next uris domain env destroys).
  Notation next := (next uris domain env destroys).
  Notation step := (step uris domain env destroys).
  Notation run := (run uris domain env destroys).
  Notation n := (length uris).

  (** what is still to be tried *)
  Definition rest (s : st) : list uri :=
    match p_left s with O => [] | S k => skipn (p_idx s) uris ++ concat (repeat uris k) end.
  Definition wf (s : st) : Prop := p_idx s <= n /\ (p_left s = 0 -> p_idx s = 0).
  Definition measure (s : st) : nat := p_left s * S n + S n - p_idx s.

  Definition Rel (s s' : st) : Prop :=
    exists l k,
      p_log s' = p_log s ++ map ETry l ++ repeat EFailure k /\
      l ++ rest s' = rest s /\ wf s' /\ measure s' <= measure s /\ p_started s' = p_started s /\
      ((exists u l0, p_conn s' = Some u /\ l = l0 ++ [u] /\ k = 0 /\ p_dead s' = false /\ p_ub s' = false) \/
       (p_conn s' = None /\ 1 <= k /\ rest s' = [] /\ (p_left s' = 0 \/ uris = []) /\ p_dead s' = destroys)) /\
      (destroys = true -> k <= 1) /\ (destroys = false -> p_ub s' = false) /\
      ((forall i, env i <> FailsNow) -> k <= 1 /\ p_ub s' = false).

  Lemma skipn_nth (A : Type) (l : list A) i u : nth_error l i = Some u -> skipn i l = u :: skipn (S i) l.
  Proof. revert i. induction l; destruct i; cbn; intros; try discriminate. congruence. now apply IHl. Qed.

  Lemma rel_try s s1 s' u :
    Rel s1 s' -> p_log s1 = p_log s ++ [ETry u] -> u :: rest s1 = rest s -> measure s1 <= measure s -> p_started s1 = p_started s -> Rel s s'.
  Proof.
    intros (l & k & H1 & H2 & H3 & H4 & H5 & H6 & H7) E F M G. exists (u :: l), k. split; [|split; [|split; [|split; [|split; [|split]]]]].
    - rewrite H1, E, <- app_assoc. reflexivity.
    - rewrite <- F. cbn. now f_equal.
    - exact H3.
    - lia.
    - congruence.
    - destruct H6 as [(v & l0 & ? & -> & ?)|?]; [left|right; auto]. exists v, (u :: l0). intuition.
    - exact H7.
  Qed.

  Lemma try_next_total fuel s :
    wf s -> p_dead s = false -> p_ub s = false -> p_conn s = None -> measure s <= fuel ->
    exists s', try_next fuel s = Some s' /\ Rel s s'.
  Proof.
    revert s. induction fuel as [|fuel IH]; intros s [W1 W2] D U C M.
    { unfold measure in M. nia. }
    assert (HF : Rel s (handle_failure destroys s) \/ ~ (p_left s = 0 \/ uris = [])).
    { destruct (Nat.eq_dec (p_left s) 0) as [L|L]; [left|destruct (Nat.eq_dec n 0) as [Eu|Eu]; [left; apply length_zero_iff_nil in Eu|right]].
      3: { intros [?|X]; [lia|]. rewrite X in Eu. now apply Eu. }
      all: exists [], 1; unfold handle_failure, rest, wf, measure; cbn [p_log p_left p_idx p_started p_conn p_dead p_ub kill out set_conn map repeat app];
        rewrite ?D, ?U; cbn [orb]; spl; auto; try lia.
      1: right; spl; auto; now rewrite L.
      right; spl; auto. destruct (p_left s) as [|m]; auto.
      rewrite Eu, skipn_nil. cbn. clear. induction m; cbn; auto. }
    cbn [ConnectPeerModel.try_next]. rewrite D.
    destruct (p_left s =? 0) eqn:EL.
    { exists (handle_failure destroys s). split; auto. destruct HF as [HF|HF]; auto. destruct HF. left. now apply Nat.eqb_eq. }
    apply Nat.eqb_neq in EL.
    destruct (n =? 0) eqn:Eu.
    { exists (handle_failure destroys s). split; auto. destruct HF as [HF|HF]; auto. destruct HF. right. now apply length_zero_iff_nil, Nat.eqb_eq. }
    apply Nat.eqb_neq in Eu. clear HF.
    destruct (nth_error uris (p_idx s)) as [u|] eqn:En.
    2: { apply nth_error_None in En. assert (p_idx s = n) by lia.
         destruct (IH (set_pos (p_left s - 1) 0 s)) as (s' & E & R).
         - split; cbn; [lia|auto].
         - exact D.
         - exact U.
         - exact C.
         - unfold measure in *. cbn. nia.
         - exists s'. split; auto. destruct R as (l & k & H1 & H2 & H3 & H4 & H5 & H6).
           exists l, k. split; [exact H1|]. split; [|split; [exact H3|split; [|split; [exact H5|exact H6]]]].
           + rewrite H2. unfold rest. cbn. destruct (p_left s) as [|[|k0]]; [lia| |].
             * cbn. rewrite H, skipn_all. reflexivity.
             * cbn [Nat.sub skipn]. rewrite H, skipn_all. reflexivity.
           + unfold measure in *. cbn in H4. nia. }
    assert (Hi : p_idx s < n) by (apply nth_error_Some; congruence).
    set (s1 := out (ETry u) (set_pos (p_left s) (S (p_idx s)) s)).
    assert (F : u :: rest s1 = rest s).
    { unfold rest, s1. cbn. destruct (p_left s); [lia|]. now rewrite (skipn_nth _ uris _ _ En). }
    assert (Hm : S (measure s1) <= measure s). { unfold measure, s1 in *. cbn. nia. }
    assert (W : wf s1). { split; unfold s1; cbn; lia. }
    assert (Go : forall x, wf x -> p_dead x = false -> p_ub x = false -> p_conn x = None -> measure x = measure s1 -> p_log x = p_log s1 -> rest x = rest s1 -> p_started x = p_started s ->
      exists s', try_next fuel x = Some s' /\ Rel x s' /\ Rel s s').
    { intros x X1 X2 X3 X4 X5 X6 X7 X8. destruct (IH x) as (s' & E & R); auto. { lia. }
      exists s'. split; [auto|]. split; [auto|]. apply (rel_try s x s' u); auto.
      - now rewrite X7.
      - lia. }
    destruct (connectable domain u).
    2: { destruct (Go (set_conn None s1)) as (s' & E & _ & R); auto. exists s'. auto. }
    destruct (env (p_made s1)) eqn:Ee.
    - destruct (Go (set_conn None (made s1))) as (s' & E & _ & R); auto. exists s'. auto.
    - destruct (Go (set_conn None (made s1))) as (s' & E & R' & R); auto.
      fold s1. cbv zeta. rewrite E. clear Go.
      destruct R as (l & k & H1 & H2 & H3 & H4 & H5 & H6 & H7 & H8 & H9).
      destruct H6 as [(v & l0 & G1 & -> & -> & G4 & G5)|(G1 & G2 & G3 & G4 & G5)].
      + rewrite G4, G1. exists s'. split; auto. exists (l0 ++ [v]), 0. spl; auto. left. exists v, l0. auto.
      + destruct (p_dead s') eqn:Ed.
        * exists (crash s'). split; auto. exists l, k. cbn. spl; auto; try apply H3.
          { right. spl; auto. congruence. }
          { intros X. congruence. }
          { intros X. exfalso. exact (X _ Ee). }
        * rewrite G1. destruct (IH s') as (s2 & E2 & R2); auto.
          { destruct R' as (? & ? & _ & _ & _ & Q & _). unfold measure in *. cbn in Q. unfold s1 in *. cbn in *. lia. }
          exists s2. split; auto. destruct R2 as (l2 & k2 & J1 & J2 & J3 & J4 & J5 & J6 & J7 & J8 & J9).
          assert (l2 = []) as ->. { rewrite G3 in J2. now destruct l2. }
          exists l, (k + k2). split; [|split; [|split; [|split; [|split; [|split; [|split; [|split]]]]]]].
          -- rewrite J1, H1. cbn [map app]. rewrite repeat_app, <- !app_assoc. reflexivity.
          -- cbn in J2. rewrite J2, G3, app_nil_r. rewrite G3, app_nil_r in H2. exact H2.
          -- exact J3.
          -- lia.
          -- congruence.
          -- right. destruct J6 as [(v & l0 & ? & X & _)|(? & ? & ? & ? & ?)]. { now destruct l0. } spl; auto. lia.
          -- intros X. congruence.
          -- exact J8.
          -- intros X. exfalso. exact (X _ Ee).
    - exists (set_conn (Some u) (made s1)). split; auto. exists [u], 0.
      spl; auto; try apply W; try (unfold measure in *; cbn in *; lia).
      left. exists u, []. cbn. auto.
  Qed.

  Lemma next_rel s : wf s -> p_dead s = false -> p_ub s = false -> p_conn s = None -> Rel s (next s).
  Proof.
    intros W D U C. unfold ConnectPeerModel.next.
    destruct (try_next_total (fuel uris s) s W D U C) as (s' & E & R).
    - unfold fuel, measure. lia.
    - now rewrite E.
  Qed.

  Lemma run_snoc ops o : run (ops ++ [o]) = step (run ops) o.
  Proof. apply fold_left_app. Qed.

  Definition has_start (o : op) : bool := match o with OStart _ => true | _ => false end.
  Lemma rounds_snoc ops o : rounds (ops ++ [o]) = if existsb has_start ops then rounds ops else rounds [o].
  Proof. induction ops as [|x ops IH]; auto. destruct x; cbn; auto; exact IH. Qed.
  Lemma completions_snoc ops o :
    completions (ops ++ [o]) = if existsb has_start ops then completions ops + length (filter is_completion [o]) else 0.
  Proof.
    induction ops as [|x ops IH]; [destruct o; auto|].
    destruct x; cbn [app completions existsb has_start orb]; auto.
    now rewrite filter_app, app_length.
  Qed.
  Lemma started_snoc ops o : existsb has_start (ops ++ [o]) = existsb has_start ops || has_start o.
  Proof. rewrite existsb_app. cbn. now rewrite orb_false_r. Qed.

  (** The states a run goes through: [l] was tried so far. *)
  Definition quiet (l : list ev) : Prop := tries l = [] /\ reports l = [].
  Inductive Phase (R : nat) (c : nat) (s : st) : Prop :=
  | PhPending u l0 : p_conn s = Some u -> tries (p_log s) = l0 ++ [u] -> reports (p_log s) = [] ->
      tries (p_log s) ++ rest s = concat (repeat uris R) -> wf s -> p_dead s = false -> p_ub s = false ->
      S c <= length (tries (p_log s)) -> Phase R c s
  | PhSuccess u a b l0 : p_conn s = None -> p_log s = a ++ ESuccess u :: b -> quiet b -> reports a = [] ->
      tries a = l0 ++ [u] -> (exists r, tries a ++ r = concat (repeat uris R)) -> p_ub s = false -> Phase R c s
  | PhFailure a k b : p_conn s = None -> p_log s = a ++ repeat EFailure k ++ b -> quiet b -> reports a = [] -> 1 <= k ->
      tries a = concat (repeat uris R) -> (destroys = true -> k <= 1) -> (destroys = false -> p_ub s = false) ->
      ((forall i, env i <> FailsNow) -> k <= 1 /\ p_ub s = false) -> Phase R c s.
  Definition Inv (ops : list op) (s : st) : Prop :=
    if existsb has_start ops then p_started s = true /\ Phase (rounds ops) (completions ops) s
    else quiet (p_log s) /\ p_started s = false /\ p_conn s = None /\ p_idx s = 0 /\ p_dead s = false /\ p_ub s = false.

  Lemma quiet_shutdown l : quiet l -> quiet (l ++ [EShutdown]).
  Proof. intros [A B]. split; [rewrite tries_app, A|rewrite reports_app, B]; reflexivity. Qed.

  Lemma phase_next R c s :
    wf s -> p_dead s = false -> p_ub s = false -> p_conn s = None -> reports (p_log s) = [] ->
    tries (p_log s) ++ rest s = concat (repeat uris R) -> c <= length (tries (p_log s)) -> Phase R c (next s).
  Proof.
    intros W D U C Rp T Cc. destruct (next_rel s W D U C) as (l & k & H1 & H2 & H3 & H4 & H5 & H6 & H7 & H8 & H9).
    destruct H6 as [(u & l0 & G1 & -> & -> & G4 & G5)|(G1 & G2 & G3 & G4 & G5)].
    - cbn [repeat] in H1. rewrite app_nil_r in H1. apply (PhPending _ _ _ u (tries (p_log s) ++ l0)); auto.
      + rewrite H1, tries_app, tries_map, <- app_assoc. reflexivity.
      + rewrite H1, reports_app, reports_map, Rp. reflexivity.
      + rewrite H1, tries_app, tries_map, <- app_assoc, H2. exact T.
      + rewrite H1, tries_app, tries_map, !app_length. cbn. lia.
    - apply (PhFailure _ _ _ (p_log s ++ map ETry l) k []); auto.
      + rewrite H1, app_nil_r, app_assoc. reflexivity.
      + split; reflexivity.
      + rewrite reports_app, reports_map, Rp. reflexivity.
      + rewrite tries_app, tries_map. rewrite G3, app_nil_r in H2. rewrite H2. exact T.
  Qed.

  Lemma phase_shutdown R c s : Phase R c s -> Phase R c (out EShutdown s).
  Proof.
    destruct s; cbn. intros [u l0|u a b l0|a k b]; cbn in *; intros; subst.
    - apply (PhPending _ _ _ u l0); cbn; rewrite ?tries_app, ?reports_app; cbn; rewrite ?app_nil_r; auto.
    - apply (PhSuccess _ _ _ u a (b ++ [EShutdown]) l0); cbn; auto; [now rewrite <- app_assoc|now apply quiet_shutdown].
    - apply (PhFailure _ _ _ a k (b ++ [EShutdown])); cbn; auto; [now rewrite <- !app_assoc|now apply quiet_shutdown].
  Qed.

  Lemma phase_mono R c c' s : Phase R c s -> p_conn s = None -> Phase R c' s.
  Proof. intros [] ?; [congruence|eapply PhSuccess; eauto|eapply PhFailure; eauto]. Qed.

  Lemma inv_run ops : Inv ops (run ops).
  Proof.
    induction ops as [|o ops IH] using rev_ind.
    { cbn. repeat split. }
    rewrite run_snoc. unfold Inv in *. rewrite started_snoc, rounds_snoc, completions_snoc.
    set (s := run ops) in *. destruct (existsb has_start ops) eqn:Es.
    - destruct IH as [St P]. cbn [orb].
      destruct o as [m| | |]; cbn [ConnectPeerModel.step filter is_completion length].
      + rewrite St, Nat.add_0_r. auto.
      + destruct (p_conn s) as [u|] eqn:Ec.
        * split; [exact St|]. destruct P as [v l0 P1 P2 P3 P4 P5 P6 P7 P8| |]; try congruence.
          apply (PhSuccess _ _ _ u (p_log s) [] l0); auto.
          -- split; reflexivity.
          -- congruence.
          -- eauto.
        * split; auto. eapply phase_mono; eauto.
      + destruct (p_conn s) as [u|] eqn:Ec.
        * destruct P as [v l0 P1 P2 P3 P4 P5 P6 P7 P8| |]; try congruence.
          assert (Q : wf (set_conn None s)) by exact P5.
          split.
          -- destruct (next_rel (set_conn None s)) as (? & ? & _ & _ & _ & _ & X & _); auto. rewrite X. exact St.
          -- apply phase_next; auto. change (length [OFail]) with 1; change (tries (p_log (set_conn None s))) with (tries (p_log s)); lia.
        * split; auto. eapply phase_mono; eauto.
      + rewrite Nat.add_0_r. split; [exact St|]. now apply phase_shutdown.
    - destruct IH as ((Q1 & Q2) & St & C & I & D & U). cbn [orb].
      destruct o as [m| | |]; cbn [has_start ConnectPeerModel.step rounds].
      + rewrite St. set (s1 := mkSt true (Nat.max m 1) _ _ _ _ _ _).
        assert (W : wf s1). { unfold wf, s1. cbn. rewrite I. split; lia. }
        split.
        * destruct (next_rel s1) as (? & ? & _ & _ & _ & _ & X & _); auto.
        * apply phase_next; auto.
          -- cbn [p_log s1]. rewrite Q1. unfold rest, s1. cbn [p_left p_idx app]. rewrite I. cbn [skipn].
             destruct (Nat.max m 1) eqn:E; [lia|]. reflexivity.
          -- lia.
      + rewrite C. repeat split; auto.
      + rewrite C. repeat split; auto.
      + split; [now apply quiet_shutdown|]. auto.
  Qed.
End Connect.

(** ** The order of the URIs *)
(** 0: local domain, 1: IPv4 address, 2: IPv6 address, 3: other host, 4: not usable *)
Definition class (u : uri) : nat :=
  match i_type u with
  | LocalUri => 0
  | TcpUri => if in_dec N.eq_dec 46%N (i_host u)
              then if in_dec N.eq_dec 58%N (i_host u) then 3 else 1
              else if in_dec N.eq_dec 58%N (i_host u) then 2 else 3
  | _ => 4
  end.
Lemma has_in c s : has c s = if in_dec N.eq_dec c s then true else false.
Proof.
  unfold has. destruct in_dec as [H|H].
  - apply existsb_exists. exists c. split; auto. apply N.eqb_refl.
  - destruct existsb eqn:E; auto. apply existsb_exists in E. destruct E as (x & Hx & Ex). apply N.eqb_eq in Ex. congruence.
Qed.
Lemma penalty_class u : penalty u = 100 * S (class u).
Proof.
  unfold penalty, class, is_ip4, is_ip6. rewrite !has_in. destruct (i_type u); auto.
  destruct in_dec, in_dec; reflexivity.
Qed.
Lemma place_class u l : place u l = match l with [] => [u] | v :: r => if class u <=? class v then u :: l else v :: place u r end.
Proof.
  destruct l as [|v r]; auto. cbn [place]. rewrite !penalty_class.
  replace (100 * S (class u) <=? 100 * S (class v)) with (class u <=? class v); auto.
  destruct (class u <=? class v) eqn:E; symmetry; [apply Nat.leb_le in E; apply Nat.leb_le|apply Nat.leb_gt in E; apply Nat.leb_gt]; lia.
Qed.
Notation cle := (fun a b => class a <= class b).
Lemma place_in u l x : In x (place u l) -> x = u \/ In x l.
Proof.
  induction l as [|v r IH]; rewrite place_class. { intros [?|[]]; auto. }
  destruct (class u <=? class v); cbn; intuition.
Qed.
Lemma place_sorted u l : StronglySorted cle l -> StronglySorted cle (place u l).
Proof.
  induction l as [|v r IH]; rewrite place_class; intros H. { repeat constructor. }
  destruct (class u <=? class v) eqn:E.
  - apply Nat.leb_le in E. constructor; auto. constructor; auto. apply StronglySorted_inv in H as [_ H].
    eapply Forall_impl; [|exact H]. cbn. intros; lia.
  - apply Nat.leb_gt in E. apply StronglySorted_inv in H as [H1 H2]. constructor; auto.
    apply Forall_forall. intros x Hx. apply place_in in Hx as [->|Hx]; [lia|]. rewrite Forall_forall in H2. now apply H2.
Qed.
Lemma place_stable c u l : StronglySorted cle l ->
  filter (fun v => class v =? c) (place u l) = filter (fun v => class v =? c) (u :: l).
Proof.
  induction l as [|v r IH]; rewrite place_class; auto. intros H. destruct (class u <=? class v) eqn:E; auto.
  apply Nat.leb_gt in E. apply StronglySorted_inv in H as [H1 H2]. cbn [filter]. rewrite (IH H1). cbn [filter].
  destruct (class v =? c) eqn:Ev, (class u =? c) eqn:Eu; auto.
  apply Nat.eqb_eq in Ev, Eu. lia.
Qed.
Lemma sort_sorted l : StronglySorted cle (stable_sort l).
Proof. induction l; cbn; [constructor|now apply place_sorted]. Qed.
Lemma sort_stable c l : filter (fun v => class v =? c) (stable_sort l) = filter (fun v => class v =? c) l.
Proof.
  induction l as [|u l IH]; auto. cbn [stable_sort]. rewrite place_stable by apply sort_sorted. cbn [filter]. now rewrite IH.
Qed.
