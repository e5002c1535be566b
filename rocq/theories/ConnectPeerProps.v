(** Properties of connecting to one peer (C61). *)
From Coq Require Import String Ascii List NArith Arith Bool Lia Permutation Sorted.
From Verif Require Import Base TextModel ConnectPeerModel ConnectPeerProofs.
Import ListNotations.
Open Scope list_scope.
Open Scope nat_scope.

(** Concrete URIs for the examples. *)
Definition peer_texts : list text :=
  [lit "tcp://host:1"; lit "silkit://x:3"; lit "nonsense"; lit "tcp://10.0.0.1:2"; lit "local:///tmp/a"].
(** the name "host" resolves to an IPv6 and an IPv4 address *)
Definition resolver (h : text) : res (list text) :=
  if text_eqb h (lit "host") then Ok [lit "fe80::1"; lit "10.0.0.9"] else Ok [h].
Definition uris1 : list uri := update_uris resolver peer_texts.
Example uris1_text : map i_str uris1 =
  [lit "local:///tmp/a"; lit "tcp://10.0.0.9:1"; lit "tcp://10.0.0.1:2"; lit "tcp://[fe80::1]:1"; lit "silkit://x:3"].
Proof. vm_compute. reflexivity. Qed.

(** The URIs are sorted by kind of address, local domain first. *)
Theorem C61_uris_sorted : forall resolve l, StronglySorted (fun a b => class a <= class b) (update_uris resolve l).
Proof. intros. apply sort_sorted. Qed.
Print Assumptions C61_uris_sorted.
(** Within a kind they stay in the order given by the peer, and none is lost or added. *)
Theorem C61_uris_stable : forall resolve l c,
  filter (fun u => class u =? c) (update_uris resolve l) = filter (fun u => class u =? c) (flat_map (uris_of resolve) l).
Proof. intros. apply sort_stable. Qed.
Print Assumptions C61_uris_stable.
Example C61_uris_example : map class uris1 = [0; 1; 1; 2; 4].
Proof. vm_compute. reflexivity. Qed.
(** The host of an address found for a peer: an IPv6 address is put in brackets, unless it has them already; any other address is taken as it is. *)
Theorem C61_addresses_bracketed : forall a, ~ In 46%N a -> In 58%N a -> hd 0%N a <> 91%N -> last a 0%N <> 93%N ->
  bracket a = 91%N :: a ++ [93%N] /\ bracket (91%N :: a ++ [93%N]) = 91%N :: a ++ [93%N].
Proof.
  intros a D C H L.
  assert (HC : forall c s, has c s = true <-> In c s).
  { intros c s. unfold has. rewrite existsb_exists. split; [intros (x & I & E); apply N.eqb_eq in E; now subst|intros I; exists c; now rewrite N.eqb_refl]. }
  assert (N1 : forall s, ~ In 46%N s -> In 58%N s -> is_ip6 s = true).
  { intros s A B. unfold is_ip6. apply HC in B. rewrite B. destruct (has 46 s) eqn:E; [apply HC in E; contradiction|reflexivity]. }
  destruct a as [|x a]; [destruct C|]. cbn [hd] in H. split; unfold bracket.
  - rewrite (N1 _ D C). cbn [hd]. destruct (N.eqb_spec x 91); [contradiction|]. cbn [last] in L |- *. destruct (N.eqb_spec (match a with [] => x | _ => last a 0%N end) 93) as [E|E]; [|reflexivity]. contradiction.
  - rewrite N1; [|intros [X|X]; [discriminate|apply in_app_iff in X as [X|[X|[]]]; [now apply D|discriminate]]|right; apply in_app_iff; now left].
    cbn [hd]. rewrite N.eqb_refl. cbv zeta. change (91%N :: (x :: a) ++ [93%N]) with ((91%N :: x :: a) ++ [93%N]). now rewrite last_last, N.eqb_refl.
Qed.
Print Assumptions C61_addresses_bracketed.
Theorem C61_other_addresses_unchanged : forall a, In 46%N a \/ ~ In 58%N a -> bracket a = a.
Proof.
  intros a H. unfold bracket, is_ip6, has. destruct (existsb (N.eqb 46) a) eqn:E1; [reflexivity|]. destruct (existsb (N.eqb 58) a) eqn:E2; [|reflexivity].
  apply existsb_exists in E2 as (c & I & E2). apply N.eqb_eq in E2. subst c. destruct H as [H|H]; [|contradiction]. assert (X : existsb (N.eqb 46) a = true) by (apply existsb_exists; exists 46%N; auto). congruence.
Qed.
Print Assumptions C61_other_addresses_unchanged.
Example C61_addresses_example : bracket (lit "fe80::1") = lit "[fe80::1]" /\ bracket (lit "[fe80::1]") = lit "[fe80::1]" /\ bracket (lit "10.0.0.9") = lit "10.0.0.9".
Proof. repeat split; vm_compute; reflexivity. Qed.

(** A text that is not a URI is left out and does not disturb the others. *)
Theorem C61_unparsable_left_out : forall resolve l1 s l2, (forall u, parse s <> Ok u) ->
  update_uris resolve (l1 ++ s :: l2) = update_uris resolve (l1 ++ l2).
Proof.
  intros resolve l1 s l2 H. unfold update_uris. rewrite !flat_map_app. cbn [flat_map]. unfold uris_of at 2.
  destruct (parse s) eqn:E; try reflexivity. destruct (H a eq_refl).
Qed.
Print Assumptions C61_unparsable_left_out.
Example C61_unparsable_example : parse (lit "nonsense") = Exn.
Proof. vm_compute. reflexivity. Qed.

(** Whatever the connectors do: the URIs are tried in order, round by round, at most as many rounds as asked for. *)
Theorem C61_tries_in_order : forall uris domain env destroys ops,
  exists r, tries (p_log (run uris domain env destroys ops)) ++ r = concat (repeat uris (rounds ops)).
Proof.
  intros. pose proof (inv_run uris domain env destroys ops) as H. unfold Inv in H.
  destruct (existsb has_start ops).
  - destruct H as [_ [u l0 _ _ _ P _ _ _ _|u a b l0 _ -> [Q _] _ _ [r P] _|a k b _ -> [Q _] _ _ P _ _ _]].
    + eauto.
    + exists r. rewrite tries_app. cbn. change (flat_map _ b) with (tries b). now rewrite Q, app_nil_r.
    + exists []. rewrite !tries_app, tries_fail, Q, !app_nil_r. exact P.
  - destruct H as ((Q & _) & _). rewrite Q. exists (concat (repeat uris (rounds ops))). reflexivity.
Qed.
Print Assumptions C61_tries_in_order.
(** Failure is reported only after every URI was tried in every round. *)
Theorem C61_failure_only_if_exhausted : forall uris domain env destroys ops a b,
  p_log (run uris domain env destroys ops) = a ++ EFailure :: b -> tries a = concat (repeat uris (rounds ops)).
Proof.
  intros uris domain env destroys ops a b E. pose proof (inv_run uris domain env destroys ops) as H. unfold Inv in H.
  assert (Rp : reports (p_log (run uris domain env destroys ops)) = reports a ++ EFailure :: reports b).
  { rewrite E, reports_app. reflexivity. }
  destruct (existsb has_start ops).
  - destruct H as [_ [u l0 _ _ P _ _ _ _ _|u a' b' l0 _ P [_ Q] P' _ _ _|a' k b' _ P [Q1 Q2] P' Pk Pt _ _ _]].
    + rewrite P in Rp. destruct (reports a); discriminate.
    + rewrite P, reports_app in Rp. cbn in Rp. change (filter is_report b') with (reports b') in Rp. rewrite P', Q in Rp.
      destruct (reports a) as [|? [|? ?]]; discriminate.
    + rewrite P in E. clear - E P' Pk Pt Q1 Q2.
      assert (X : tries a ++ tries b = concat (repeat uris (rounds ops))).
      { rewrite <- Pt. rewrite <- (app_nil_r (tries a')), <- Q1 at 1.
        replace (tries a ++ tries b) with (tries (a ++ EFailure :: b)) by (rewrite tries_app; reflexivity).
        rewrite <- E, !tries_app, tries_fail. reflexivity. }
      assert (Y : exists r, tries a = tries a' ++ r).
      { clear X Pt Q1 Q2 Pk. revert a E. induction a' as [|x a' IH]; intros a E. { exists (tries a). reflexivity. }
        destruct a as [|y a].
        - cbn in E. injection E as -> _. discriminate.
        - cbn in E. injection E as -> E. assert (reports a' = []) by (destruct y; cbn in P'; auto; discriminate).
          destruct (IH H a E) as [r Hr]. exists r. change (y :: a) with ([y] ++ a). change (y :: a') with ([y] ++ a').
          now rewrite !tries_app, Hr, app_assoc. }
      destruct Y as [r Y]. rewrite Y, Pt in X. rewrite Y, Pt.
      rewrite <- app_assoc in X. rewrite <- (app_nil_r (concat _)) in X at 2. apply app_inv_head in X.
      apply app_eq_nil in X as [-> _]. now rewrite app_nil_r.
  - destruct H as ((_ & Q) & _). rewrite Q in Rp. destruct (reports a); discriminate.
Qed.
Print Assumptions C61_failure_only_if_exhausted.
(** Success is reported for the URI tried last, at most once, and nothing is tried or reported afterwards or was
    reported before. *)
Theorem C61_success_final : forall uris domain env destroys ops a u b,
  p_log (run uris domain env destroys ops) = a ++ ESuccess u :: b ->
  (exists l, tries a = l ++ [u]) /\ reports a = [] /\ tries b = [] /\ reports b = [].
Proof.
  intros uris domain env destroys ops a u b E. pose proof (inv_run uris domain env destroys ops) as H. unfold Inv in H.
  assert (Rp : reports (p_log (run uris domain env destroys ops)) = reports a ++ ESuccess u :: reports b).
  { rewrite E, reports_app. reflexivity. }
  destruct (existsb has_start ops).
  - destruct H as [_ [v l0 _ _ P _ _ _ _ _|v a' b' l0 _ P [Q1 Q2] P' Pt _ _|a' k b' _ P [_ Q] P' _ _ _ _ _]].
    + rewrite P in Rp. destruct (reports a); discriminate.
    + rewrite P in E. clear P Rp.
      assert (X : a' = a /\ v = u /\ b' = b).
      { revert a E. induction a' as [|x a' IH] in P', Q2 |- *; intros [|y a] E; cbn in E; injection E as E1 E2.
        - auto.
        - subst. rewrite reports_app in Q2. destruct (reports a); discriminate.
        - subst. discriminate.
        - subst y. assert (reports a' = []) by (destruct x; cbn in P'; auto; discriminate).
          destruct (IH Q2 H a E2) as (-> & -> & ->). auto. }
      destruct X as (-> & -> & ->). eauto.
    + rewrite P, !reports_app, reports_fail, P', Q, app_nil_r in Rp. cbn in Rp.
      assert (In (ESuccess u) (repeat EFailure k)) by (rewrite Rp; apply in_or_app; right; left; auto).
      apply repeat_spec in H. discriminate.
  - destruct H as ((_ & Q) & _). rewrite Q in Rp. destruct (reports a); discriminate.
Qed.
Print Assumptions C61_success_final.
(** If no connector fails inside of AsyncConnect the listener is called at most once and the object is not used after
    the listener destroyed it. *)
Theorem C61_reported_once : forall uris domain env destroys ops, (forall i, env i <> FailsNow) ->
  length (reports (p_log (run uris domain env destroys ops))) <= 1 /\ p_ub (run uris domain env destroys ops) = false.
Proof.
  intros uris domain env destroys ops N. pose proof (inv_run uris domain env destroys ops) as H. unfold Inv in H.
  destruct (existsb has_start ops).
  - destruct H as [_ [v l0 _ _ P _ _ _ U _|v a' b' l0 _ P [Q1 Q2] P' Pt _ U|a' k b' _ P [_ Q] P' _ _ _ _ U]].
    + rewrite P. cbn. auto.
    + rewrite P, reports_app, P'. change (ESuccess v :: b') with ([ESuccess v] ++ b'). rewrite reports_app, Q2. cbn. auto.
    + destruct (U N). rewrite P, !reports_app, reports_fail, P', Q, app_nil_r. cbn. rewrite repeat_length. auto.
  - destruct H as ((_ & Q) & _ & _ & _ & _ & U). rewrite Q. cbn. auto.
Qed.
Print Assumptions C61_reported_once.
(** As long as no connector is at work, a started attempt has been reported: it never just stops. *)
Theorem C61_reported_unless_pending : forall uris domain env destroys ops, existsb has_start ops = true ->
  p_conn (run uris domain env destroys ops) = None -> reports (p_log (run uris domain env destroys ops)) <> [].
Proof.
  intros uris domain env destroys ops S C. pose proof (inv_run uris domain env destroys ops) as H. unfold Inv in H. rewrite S in H.
  destruct H as [_ [v l0 P _ _ _ _ _ U _|v a' b' l0 _ P _ _ _ _ _|a' k b' _ P _ _ Pk _ _ _ _]].
  - congruence.
  - rewrite P, reports_app. cbn. destruct (reports a'); discriminate.
  - rewrite P, !reports_app, reports_fail. destruct k; [lia|]. destruct (reports a'); discriminate.
Qed.
Print Assumptions C61_reported_unless_pending.
(** If every connector completes, the result is reported after at most as many completions as there are tries. *)
Theorem C61_reported_eventually : forall uris domain env destroys ops, existsb has_start ops = true ->
  length uris * rounds ops <= completions ops -> reports (p_log (run uris domain env destroys ops)) <> [].
Proof.
  intros uris domain env destroys ops S C X. pose proof (inv_run uris domain env destroys ops) as H. unfold Inv in H. rewrite S in H.
  destruct H as [_ [v l0 P _ _ T _ _ U L|v a' b' l0 P _ _ _ _ _ _|a' k b' P _ _ _ Pk _ _ _ _]].
  - assert (Z : forall k, length (concat (repeat uris k)) = length uris * k).
    { induction k; cbn; [lia|]. rewrite app_length. lia. }
    specialize (Z (rounds ops)). rewrite <- T, app_length in Z. lia.
  - exact (C61_reported_unless_pending _ _ _ _ _ S P X).
  - exact (C61_reported_unless_pending _ _ _ _ _ S P X).
Qed.
Print Assumptions C61_reported_eventually.
(** Two rounds over five URIs; the first connector throws, the others fail later, all tried twice; then failure. *)
Definition env1 (i : nat) : outcome := match i with 0 => Throws | _ => Starts end.
Definition ops1 : list op := [OShutdown; OStart 2; OFail; OFail; OFail; OFail; OFail; OFail; OFail; OSuccess].
Example C61_run_example :
  let s := run uris1 true env1 true ops1 in
  length (tries (p_log s)) = 10 /\ reports (p_log s) = [EFailure] /\ p_ub s = false /\ (forall i, env1 i <> FailsNow).
Proof. vm_compute. repeat split. intros [|i]; discriminate. Qed.
Example C61_success_example :
  let s := run uris1 false env1 true [OStart 2; OFail; OSuccess; OFail] in
  map (fun e => match e with ETry _ => 0 | ESuccess _ => 1 | EFailure => 2 | EShutdown => 3 end) (p_log s) = [0; 0; 0; 0; 1].
Proof. vm_compute. reflexivity. Qed.
Example C61_pending_example : length uris1 * rounds ops1 <= 10 /\ completions ops1 = 8.
Proof. vm_compute. repeat constructor. Qed.

(** A connector that fails inside of AsyncConnect, because the socket options cannot be set, makes TryNextUri go on
    after the failure was reported: it is reported several times, *)
Theorem C61_reported_once_refuted : exists uris env ops,
  reports (p_log (run uris true env false ops)) = [EFailure; EFailure; EFailure].
Proof. exists (firstn 2 uris1), (fun _ => FailsNow), [OStart 1]. vm_compute. reflexivity. Qed.
Print Assumptions C61_reported_once_refuted.
(** or the object destroyed by the listener is used. *)
Theorem C61_use_after_free_refuted : exists uris env ops,
  reports (p_log (run uris true env true ops)) = [EFailure] /\ p_ub (run uris true env true ops) = true.
Proof. exists (firstn 2 uris1), (fun _ => FailsNow), [OStart 1]. vm_compute. split; reflexivity. Qed.
Print Assumptions C61_use_after_free_refuted.
(** Shutdown does not end the attempts: the connector it closes fails, and the next URI is tried and may succeed. *)
Theorem C61_shutdown_refuted : exists uris env ops a u v,
  ops = [OStart 1; OShutdown; OFail; OSuccess] /\
  p_log (run uris true env true ops) = a ++ [EShutdown; ETry u; ESuccess v].
Proof. exists (firstn 2 uris1), (fun _ => Starts), [OStart 1; OShutdown; OFail; OSuccess].
  eexists [ETry _], _, _. split; [reflexivity|]. vm_compute. reflexivity. Qed.
Print Assumptions C61_shutdown_refuted.
