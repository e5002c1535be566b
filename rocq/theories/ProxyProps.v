(** C65, C66: participants which can reach one another only through the registry. *)
From Coq Require Import List Arith Bool Lia.
From Verif Require Import Base ProxyModel ProxyProofs ProxyNet ProxySys ProxySteps ProxyEnd.
Import ListNotations.

(** [calls sim n es]: user messages the participant handed over for [n]; [got sim n es]: user messages it received from
    [n], in the order of its events (ProxyNet.v). *)

(** ** C65: the whole network *)

(** An example: participants 5 and 6 join registry 9, 5 connects to 6 and sends 100, 101, 6 answers 200, then 5 leaves. *)
Definition demo : list yop :=
  [YJoin 5; YJoin 6; YUp 0; YUp 1; YDown 0; YDown 1; YConnect 0 6; YSend 0 6 100; YSend 0 6 101; YUp 0; YUp 0; YDown 1; YSend 1 5 200;
   YUp 0; YDown 1; YDown 1; YClose 0; YUp 1; YUp 1; YEof 0; YDown 1].
Definition before_close : list yop := firstn 16 demo.

Lemma si_run sim h ops : SI sim h (yrun sim h ops (sys0 h)).
Proof. apply run_SI, sys0_SI. Qed.

(** What [j] receives from [i] is what [i] handed over for [j]: same order, nothing lost, repeated, made up; and once nothing is under way any
    more it is everything. *)
Theorem C65_delivered_in_order_once : forall sim h ops i j, let y := yrun sim h ops (sys0 h) in
  i < y_cnt y -> j < y_cnt y -> i <> j -> y_closed y j = false ->
  exists rest, calls sim (y_name y j) (y_hist y i) = got sim (y_name y i) (y_hist y j) ++ rest /\
    (y_up y i = [] -> y_down y j = [] -> rest = []).
Proof.
  intros sim h ops i j y Li Lj D Cj. pose proof (si_run sim h ops) as S. fold y in S.
  pose proof (s_flow _ _ _ S i j Li Lj D Cj) as F. apply (f_equal users) in F. rewrite !users_app in F.
  assert (UE : users (ending y i j) = []) by (unfold ending; destruct (_ && _); reflexivity).
  unfold recv_by in F. rewrite UE, app_nil_r, users_recd in F. unfold sent in F. rewrite (s_calls _ _ _ S) in F by exact Li.
  exists (users (flow y i j)). split; [exact F|]. intros A B. unfold flow. now rewrite A, B.
Qed.
Print Assumptions C65_delivered_in_order_once.

Example C65_delivered_example : let y := yrun 3 9 before_close (sys0 9) in
  y_cnt y = 2 /\ y_closed y 1 = false /\ calls 3 6 (y_hist y 0) = [100; 101] /\ got 3 5 (y_hist y 1) = [100; 101] /\
  calls 3 5 (y_hist y 1) = [200] /\ got 3 6 (y_hist y 0) = [].
Proof. vm_compute. auto 10. Qed.

(** Every message is given to the application as one of the participant it came from. *)
Theorem C65_attributed_to_the_sender : forall sim h ops j p key x, let y := yrun sim h ops (sys0 h) in
  j < y_cnt y -> In (EUser p key x) (y_hist y j) ->
  exists i, i < y_cnt y /\ i <> j /\ key = (sim, y_name y i) /\ (y_closed y j = false -> In x (calls sim (y_name y j) (y_hist y i))).
Proof.
  intros sim h ops j p key x y Lj I. pose proof (si_run sim h ops) as S. fold y in S.
  destruct (s_user _ _ _ S j p key x Lj I) as (i & Li & N & ->). exists i. spl; auto. intros Cj.
  destruct (C65_delivered_in_order_once sim h ops i j Li Lj N Cj) as (rest & E & _). fold y in E. rewrite E. apply in_or_app. left.
  apply in_flat_map. exists (EUser p (sim, y_name y i) x). split; [exact I|]. cbn. rewrite keqb_refl. now left.
Qed.
Print Assumptions C65_attributed_to_the_sender.

Example C65_attributed_example : let y := yrun 3 9 before_close (sys0 9) in In (EUser 1 (3, 5) 101) (y_hist y 1).
Proof. vm_compute. auto 10. Qed.

Lemma gone_none sim a es p : In (EGone p (sim, a)) es -> In None (recd sim a es).
Proof. intros I. apply in_flat_map. exists (EGone p (sim, a)). split; [exact I|]. cbn. rewrite keqb_refl. now left. Qed.
Lemma none_gone sim a es : In None (recd sim a es) -> exists p, In (EGone p (sim, a)) es.
Proof.
  intros I. apply in_flat_map in I. destruct I as (e & I & J). destruct e; cbn in J; try contradiction;
    try (destruct (keqb _ _); [destruct J as [J|[]]; discriminate | destruct J]).
  destruct (keqb k (sim, a)) eqn:E; [|destruct J]. apply keqb_eq in E. subst. eauto.
Qed.

(** The end of [i] is reported to [j] only if [i] has left, and after everything [i] had handed over was received. *)
Theorem C65_end_after_everything : forall sim h ops i j p, let y := yrun sim h ops (sys0 h) in
  i < y_cnt y -> j < y_cnt y -> i <> j -> y_closed y j = false -> In (EGone p (sim, y_name y i)) (y_hist y j) ->
  y_eof y i = true /\ got sim (y_name y i) (y_hist y j) = calls sim (y_name y j) (y_hist y i) /\
  exists l, recd sim (y_name y i) (y_hist y j) = l ++ [None] /\ ~ In None l.
Proof.
  intros sim h ops i j p y Li Lj D Cj G. pose proof (si_run sim h ops) as S. fold y in S.
  pose proof (s_flow _ _ _ S i j Li Lj D Cj) as F. apply gone_none in G.
  assert (NN : ~ In None (sent y i j)) by apply (s_some _ _ _ S). unfold ending in F. unfold recv_by in F.
  destruct (y_eof y i && nonempty (sent y i j)) eqn:X.
  - apply andb_true_iff in X. destruct (flow y i j) as [|z l _] eqn:E using rev_ind.
    + rewrite app_nil_r in F. spl; [tauto| |].
      * rewrite <- users_recd, <- F, users_app. cbn. rewrite app_nil_r. now apply (s_calls _ _ _ S).
      * exists (sent y i j). auto.
    + exfalso. rewrite app_assoc in F. apply app_inj_tail in F. destruct F as [F _]. apply NN. rewrite F. apply in_or_app. now left.
  - exfalso. rewrite app_nil_r in F. apply NN. rewrite F. apply in_or_app. now left.
Qed.
Print Assumptions C65_end_after_everything.

Example C65_end_example : let y := yrun 3 9 demo (sys0 9) in
  In (EGone 1 (3, 5)) (y_hist y 1) /\ got 3 5 (y_hist y 1) = [100; 101] /\ y_eof y 0 = true /\ y_closed y 1 = false.
Proof. vm_compute. auto 20. Qed.

(** And it is reported to everybody [i] has sent something to. *)
Theorem C65_end_is_reported : forall sim h ops i j, let y := yrun sim h ops (sys0 h) in
  i < y_cnt y -> j < y_cnt y -> i <> j -> y_closed y j = false -> y_eof y i = true -> y_down y j = [] ->
  sentp (y_name y i) (y_name y j) (y_hist y i) <> [] ->
  exists p, In (EGone p (sim, y_name y i)) (y_hist y j).
Proof.
  intros sim h ops i j y Li Lj D Cj Ei Dj SN. pose proof (si_run sim h ops) as S. fold y in S.
  pose proof (s_flow _ _ _ S i j Li Lj D Cj) as F. unfold ending, recv_by, flow in F. rewrite Ei, Dj in F.
  destruct (s_eof _ _ _ S i Ei) as [_ U]. rewrite U in F. cbn [andb pls flat_map app] in F. rewrite app_nil_r in F.
  apply nonempty_true in SN. unfold sent in F. rewrite SN in F. apply none_gone. rewrite <- F. apply in_or_app. right. now left.
Qed.
Print Assumptions C65_end_is_reported.

Example C65_reported_example : let y := yrun 3 9 demo (sys0 9) in
  y_down y 1 = [] /\ sentp 5 6 (y_hist y 0) = [Some (MAnn 3 5); Some (MUser 100); Some (MUser 101)].
Proof. vm_compute. auto. Qed.

(** Peers are made on both sides: when nothing is under way, [j] has a peer for [i] if [i] has one for [j]. *)
Theorem C65_both_sides_have_a_peer : forall sim h ops i j p, let y := yrun sim h ops (sys0 h) in
  i < y_cnt y -> j < y_cnt y -> i <> j -> y_closed y i = false -> y_closed y j = false -> y_up y i = [] -> y_down y j = [] ->
  find (sim, y_name y j) (n_names (y_leaf y i)) = Some p ->
  exists q, find (sim, y_name y i) (n_names (y_leaf y j)) = Some q /\ In q (n_peers (y_leaf y j)) /\ n_info (y_leaf y j) q = (sim, y_name y i).
Proof.
  intros sim h ops i j p y Li Lj D Ci Cj U W F. pose proof (si_run sim h ops) as S. fold y in S.
  destruct (s_know _ _ _ S i j Li Lj D Cj) as [(q & K)|(t & K)].
  - right. split; [exact Ci|]. now exists p.
  - exists q. destruct (knows_peer _ h (y_name y j) _ _ _ (s_leaf _ _ _ S j Lj) K) as (_ & A & B & _). auto.
  - unfold flow in K. rewrite U, W in K. discriminate.
Qed.
Print Assumptions C65_both_sides_have_a_peer.

Example C65_both_sides_example : let y := yrun 3 9 before_close (sys0 9) in
  y_up y 0 = [] /\ y_down y 1 = [] /\ find (3, 6) (n_names (y_leaf y 0)) = Some 1 /\ find (3, 5) (n_names (y_leaf y 1)) = Some 1.
Proof. vm_compute. auto. Qed.

(** Nobody uses a deleted peer, as long as the registry stays. *)
Theorem C65_nothing_dangles : forall sim h ops, let y := yrun sim h ops (sys0 h) in
  n_health (y_hub y) = Fine /\ forall k, k < y_cnt y -> n_health (y_leaf y k) = Fine.
Proof.
  intros sim h ops y. pose proof (si_run sim h ops) as S. fold y in S. split; [apply (h_fine _ _ _ _ _ _ (s_hub _ _ _ S))|].
  intros k L. apply (l_fine _ _ _ _ (s_leaf _ _ _ S k L)).
Qed.
Print Assumptions C65_nothing_dangles.

Example C65_nothing_dangles_example : let y := yrun 3 9 demo (sys0 9) in y_cnt y = 2 /\ n_health (y_hub y) = Fine /\ n_health (y_leaf y 1) = Fine.
Proof. vm_compute. auto. Qed.

(** ** C66: single nodes *)

(** When the registry itself ends, a participant is told of every peer it reached through it, with its names, and deletes it; provided that
    none of these peers had left before. *)
Theorem C66_registry_lost_partial : forall sim h ops k, let y := yrun sim h ops (sys0 h) in
  k < y_cnt y -> (forall p key, ~ In (EGone p key) (y_hist y k)) ->
  let t := nstep (leaf_cfg sim (y_name y k)) (NClose 0) (y_leaf y k) in
  n_health t = Fine /\
  (forall a p, find (sim, a) (n_names (y_leaf y k)) = Some p -> ~ In p (n_peers t) /\ In (EGone p (sim, a)) (n_log t)) /\
  (forall p key, In (EGone p key) (n_log t) -> key = n_info (y_leaf y k) p /\ (p = 0 \/ In p (n_peers (y_leaf y k)))).
Proof.
  intros sim h ops k y L Q t. pose proof (si_run sim h ops) as S. fold y in S.
  assert (E : EI sim y) by (apply run_EI; [apply sys0_SI | apply sys0_EI]).
  destruct (E k L) as [[_ G] F]. pose proof (s_leaf _ _ _ S k L) as LK.
  destruct (leaf_lost sim h (y_name y k) (y_leaf y k) LK (G (l_fine _ _ _ _ LK)) (F Q)) as (A & B & C). fold t in A, B, C.
  spl; auto. intros a p X. destruct (knows_peer sim h (y_name y k) _ a p LK X) as (_ & I & P & V & _). rewrite <- I. now apply B.
Qed.
Print Assumptions C66_registry_lost_partial.

Example C66_registry_lost_example : let y := yrun 3 9 before_close (sys0 9) in
  let t := nstep (leaf_cfg 3 6) (NClose 0) (y_leaf y 1) in
  n_log t = [EGone 1 (3, 5); EGone 0 (0, 9)] /\ find (3, 5) (n_names (y_leaf y 1)) = Some 1 /\
  forallb (fun e => match e with EGone _ _ => false | _ => true end) (y_hist y 1) = true.
Proof. vm_compute. auto. Qed.

(** If one has left before, the participant uses the deleted peer: the whole claim is false. *)
Theorem C66_registry_lost_refuted : exists sim h ops k, let y := yrun sim h ops (sys0 h) in
  k < y_cnt y /\ n_health (y_leaf y k) = Fine /\ y_closed y k = false /\
  n_health (nstep (leaf_cfg sim (y_name y k)) (NClose 0) (y_leaf y k)) = Dangling.
Proof. exists 3, 9, demo, 1. vm_compute. auto. Qed.
Print Assumptions C66_registry_lost_refuted.

(** This happens after every history, not only in the example: on whichever node, after a peer reached through [q] has been reported to have left,
    the end of the connection to [q] uses the deleted peer. *)
Theorem C66_left_peer_is_used_again : forall c h l src p q,
  let s := fst (nrun c l (node0 c h)) in
  n_health s = Fine -> alive c s q = true -> n_via s q = None -> snd (n_info s q) <> src -> c_cap c = true ->
  find (c_sim c, src) (n_names s) = Some p -> n_via s p = Some q ->
  let t := nstep c (NData q (MProxy 0 src (c_me c) None)) s in
  n_health t = Fine -> In (EGone p (n_info s p)) (n_log t) /\ n_health (nstep c (NClose q) t) = Dangling.
Proof.
  intros c h l src p q s H A V N C F W t HT.
  assert (G : good c s) by (apply nrun_good, node0_good). pose proof (proj2 G H) as I.
  assert (E0 : t = match n_health (shutdown c p (clear s)) with
                   | Fine => if alive c (shutdown c p (clear s)) q then shutdown c p (clear s) else fail Dangling (shutdown c p (clear s))
                   | _ => shutdown c p (clear s)
                   end).
  { assert (R : recv c (MProxy 0 src (c_me c) None) q (clear s) = shutdown c p (clear s)).
    { cbn [recv]. change (n_health (clear s)) with (n_health s). rewrite H. change (alive c (clear s) q) with (alive c s q). rewrite A, C. cbn [negb Nat.eqb].
      change (n_info (clear s)) with (n_info s). change (n_names (clear s)) with (n_names s).
      apply Nat.eqb_neq in N. rewrite N, Nat.eqb_refl, F. reflexivity. }
    unfold t, nstep. change (n_health (clear s)) with (n_health s). rewrite H.
    change (alive c (clear s) q) with (alive c s q). unfold real. change (n_via (clear s)) with (n_via s). rewrite A, V. cbn [andb].
    rewrite R. reflexivity. }
  assert (GT : good c t) by now apply nstep_good.
  clearbody t. clear C N F.
  assert (E : t = shutdown c p (clear s) /\ alive c t q = true).
  { destruct (n_health (shutdown c p (clear s))) eqn:X; [|congruence..].
    destruct (alive c (shutdown c p (clear s)) q) eqn:Y; subst t; [auto | discriminate]. }
  clear E0. destruct E as [E AQ]. assert (HT' := HT). rewrite E in HT'.
  destruct (shutdown_inv c p (clear s)) as [_ SI]; [now apply clear_inv | exact H|]. destruct (SI HT') as [IT DT]. clear SI.
  unfold shutdown in HT'. destruct (shutdown_gone c _ p (clear s) HT') as (_ & gl & GL & GG & _).
  split.
  { rewrite E. unfold shutdown. rewrite GL. apply in_or_app. right. exact GG. }
  destruct I as (B & R & HV & Z). destruct (b_via _ B p q W) as [Lqp Lp].
  assert (AP : alive c s p = true) by (apply (shutdown_alive c _ p (clear s) HT')).
  destruct (R p q AP W) as [M|[]].
  assert (MT : In (q, p) (n_map t)).
  { rewrite E. unfold shutdown. apply shutdown_keep; auto. intros a b J. apply (b_map _ B) in J. now apply (b_via _ B) in J. }
  destruct DT as (d1 & d2 & d3 & d4 & d5 & d6 & d7 & d8 & _). rewrite <- E in *.
  assert (NP : alive c t p = false).
  { unfold alive. destruct (mem p (n_peers t)) eqn:X; [apply mem_In in X; contradiction|]. cbn. destruct p; [lia|]. apply andb_false_r. }
  assert (GN := nstep_good c (NClose q) t GT). revert GN. unfold nstep. change (n_health (clear t)) with (n_health t). rewrite HT.
  change (alive c (clear t) q) with (alive c t q). unfold real. change (n_via (clear t)) with (n_via t). rewrite AQ.
  assert (V' : n_via t q = None) by (rewrite d2; exact V). rewrite V'. cbn [andb]. intros [NF _].
  destruct (n_health (shutdown c q (clear t))) eqn:X; [exfalso | reflexivity | congruence].
  unfold shutdown in X. assert (K := shutdown_kids c _ q (clear t) X p MT). change (alive c (clear t) p) with (alive c t p) in K. congruence.
Qed.
Print Assumptions C66_left_peer_is_used_again.

Example C66_left_example : let s := fst (nrun (leaf_cfg 3 6) [NData 0 (MProxy 0 5 6 (Some (MAnn 3 5)))] (node0 (leaf_cfg 3 6) 9)) in
  n_health s = Fine /\ find (3, 5) (n_names s) = Some 1 /\ n_via s 1 = Some 0 /\
  n_health (nstep (leaf_cfg 3 6) (NData 0 (MProxy 0 5 6 None)) s) = Fine.
Proof. vm_compute. auto. Qed.

(** For every node and every history, also with messages no correct peer would send: the recursions end. *)
Theorem C66_recursion_ends : forall c h l, n_health (fst (nrun c l (node0 c h))) <> NoFuel.
Proof. intros c h l. apply (nrun_good c l (node0 c h) (node0_good c h)). Qed.
Print Assumptions C66_recursion_ends.

Example C66_recursion_example :
  snd (nrun (leaf_cfg 3 6) [NData 0 (MProxy 0 5 6 (Some (MProxy 0 7 6 (Some (MProxy 0 8 6 (Some (MUser 1)))))))] (node0 (leaf_cfg 3 6) 9)) = [EUser 3 (0, 0) 1].
Proof. vm_compute. reflexivity. Qed.

(** The peer an existing proxy peer hands its messages to exists. *)
Theorem C66_proxy_over_existing_peer : forall c h l p q, let s := fst (nrun c l (node0 c h)) in
  n_health s = Fine -> In p (n_peers s) -> n_via s p = Some q -> q < p /\ (In q (n_peers s) \/ (c_any c = false /\ q = 0)).
Proof.
  intros c h l p q s H I V. assert (G : good c s) by (apply nrun_good, node0_good). destruct (proj2 G H) as (B & R & HV & Z).
  split; [now apply (b_via _ B)|]. assert (A := HV p q (alive_peer c s p I) V). unfold alive in A. apply orb_true_iff in A.
  destruct A as [A|A]; [left; now apply mem_In|]. right. apply andb_true_iff in A. now rewrite negb_true_iff, Nat.eqb_eq in A.
Qed.
Print Assumptions C66_proxy_over_existing_peer.

Example C66_proxy_example : let s := fst (nrun (leaf_cfg 3 6) [NConnect 7; NData 1 (MProxy 0 5 6 (Some (MAnn 3 5)))] (node0 (leaf_cfg 3 6) 9)) in
  n_health s = Fine /\ n_peers s = [1; 2] /\ n_via s 2 = Some 1.
Proof. vm_compute. auto. Qed.

(** After the end of a connection its peer and all proxy peers over it are gone, and for every deleted peer the shutdown callbacks were called. *)
Theorem C66_close_ends_all_over_it : forall c h l q, let s := fst (nrun c l (node0 c h)) in
  n_health s = Fine -> alive c s q = true -> n_via s q = None ->
  let t := nstep c (NClose q) s in n_health t = Fine ->
  ~ In q (n_peers t) /\ (forall p, In p (n_peers t) -> n_via t p <> Some q) /\ In (EGone q (n_info s q)) (n_log t) /\
  forall p, In p (n_peers s) -> In p (n_peers t) \/ In (EGone p (n_info s p)) (n_log t).
Proof.
  intros c h l q s H A V t HT. assert (G : good c s) by (apply nrun_good, node0_good). pose proof (proj2 G H) as I.
  assert (E : t = shutdown c q (clear s)).
  { unfold t, nstep. change (n_health (clear s)) with (n_health s). rewrite H. change (alive c (clear s) q) with (alive c s q). unfold real.
    change (n_via (clear s)) with (n_via s). now rewrite A, V. }
  clearbody t. subst t. destruct (shutdown_inv c q (clear s)) as [_ S]; [now apply clear_inv | exact H|]. destruct (S HT) as [IT DT]. clear S.
  destruct DT as (d1 & d2 & d3 & d4 & d5 & d6 & d7 & d8 & d9 & d10 & d11).
  unfold shutdown in HT. destruct (shutdown_gone c _ q (clear s) HT) as (_ & gl & GL & GG & GP). spl; auto.
  - intros p P W. destruct (d10 p q) as [X|[]]; [now apply alive_peer | exact W|]. now apply (d7 p).
  - unfold shutdown. rewrite GL. exact GG.
  - intros p P. destruct (GP p P) as [X|X]; [now left|]. right. unfold shutdown. rewrite GL. exact X.
Qed.
Print Assumptions C66_close_ends_all_over_it.

Example C66_close_example : let s := fst (nrun (leaf_cfg 3 6) [NConnect 7; NData 1 (MProxy 0 5 6 (Some (MAnn 3 5)))] (node0 (leaf_cfg 3 6) 9)) in
  let t := nstep (leaf_cfg 3 6) (NClose 1) s in n_health t = Fine /\ n_log t = [EGone 2 (3, 5); EGone 1 (3, 7)] /\ n_peers t = [].
Proof. vm_compute. auto. Qed.

(** A peer which announces itself a second time under another name leaves its first name behind when it ends; a message for
    the first name is then sent to the deleted peer. *)
Theorem C66_names_of_deleted_peers_refuted : exists l, let s := fst (nrun (hub_cfg 9) l (node0 (hub_cfg 9) 9)) in
  n_health s = Fine /\ find (3, 5) (n_names s) = Some 0 /\ ~ In 0 (n_peers s) /\
  n_health (nstep (hub_cfg 9) (NData 1 (MProxy 0 6 5 (Some (MUser 1)))) s) = Dangling.
Proof.
  exists [NAccept; NAccept; NData 0 (MAnn 3 5); NData 1 (MAnn 3 6); NData 0 (MAnn 3 7); NClose 0].
  vm_compute. spl; auto. intros [X|[]]; discriminate.
Qed.
Print Assumptions C66_names_of_deleted_peers_refuted.

(** The end of a participant which never connected is reported, with empty names. *)
Theorem C66_only_known_peers_end_refuted : exists l, let s := fst (nrun (leaf_cfg 3 6) l (node0 (leaf_cfg 3 6) 9)) in
  n_health s = Fine /\ n_peers s = [] /\ snd (nrun (leaf_cfg 3 6) l (node0 (leaf_cfg 3 6) 9)) = [EGone 1 (0, 0)].
Proof. exists [NData 0 (MProxy 0 5 6 None)]. vm_compute. auto. Qed.
Print Assumptions C66_only_known_peers_end_refuted.

(** A message is taken to come from whomever it names as its source: any peer can speak for any other. *)
Theorem C66_source_is_checked_refuted : exists l, let r := nrun (leaf_cfg 3 6) l (node0 (leaf_cfg 3 6) 9) in
  n_health (fst r) = Fine /\ n_via (fst r) 1 = None /\ n_info (fst r) 1 = (3, 7) /\ find (3, 5) (n_names (fst r)) = Some 2 /\ n_via (fst r) 2 = Some 0 /\
  exists rest, snd r = rest ++ [EUser 2 (3, 5) 42].
Proof.
  exists [NConnect 7; NData 0 (MProxy 0 5 6 (Some (MAnn 3 5))); NData 1 (MProxy 0 5 6 (Some (MUser 42)))]. vm_compute. spl; auto.
  eexists [_; _; _]. reflexivity.
Qed.
Print Assumptions C66_source_is_checked_refuted.

(** The registry remembers whom a participant has sent to after it has left, so that the end of the next one of that name is reported also to
    those it has never spoken to. *)
Theorem C66_destinations_end_with_the_participant_refuted : exists l, let s := fst (nrun (hub_cfg 9) l (node0 (hub_cfg 9) 9)) in
  n_health s = Fine /\ n_info s 2 = (3, 5) /\
  (forall x, ~ In (NData 2 (MProxy 0 5 6 x)) l) /\
  n_log (nstep (hub_cfg 9) (NClose 2) s) = [ESend 1 (MProxy 0 5 6 None); EGone 2 (3, 5)].
Proof.
  exists [NAccept; NAccept; NData 0 (MAnn 3 5); NData 1 (MAnn 3 6); NData 0 (MProxy 0 5 6 (Some (MAnn 3 5))); NClose 0; NAccept; NData 2 (MAnn 3 5)].
  vm_compute. spl; auto. intros x X. repeat destruct X as [X|X]; try discriminate. exact X.
Qed.
Print Assumptions C66_destinations_end_with_the_participant_refuted.
