(** The network of ProxyModel.v: a participant loses the connection to the registry. *)
From Coq Require Import List Arith Bool Lia.
From Verif Require Import Base ProxyModel ProxyProofs ProxyNet ProxySys ProxySteps.
Import ListNotations.

Definition quiet (es : list ev) : Prop := forall p k, ~ In (EGone p k) es.

(** All registered proxy peers exist. *)
Definition full (s : node) : Prop := NoDup (n_map s) /\ forall q p, In (q, p) (n_map s) -> In p (n_peers s).

Lemma same_full s t : same s t -> full s -> full t.
Proof. intros (a1 & a2 & a3 & a4 & a5 & a6 & a7) [X Y]. unfold full. now rewrite a2, a6. Qed.
Lemma full_ext s t : n_peers t = n_peers s -> n_map t = n_map s -> full s -> full t.
Proof. intros A B. unfold full. now rewrite A, B. Qed.
Lemma send_full c p m s : full s -> full (send c p m s).
Proof. apply same_full, send_same. Qed.
Lemma associate_full k p s : full s -> full (associate k p s).
Proof. unfold associate. destruct (find _ _); auto. Qed.
Lemma nodup_snoc {A} (l : list A) x : NoDup l -> ~ In x l -> NoDup (l ++ [x]).
Proof.
  intros N I. induction N as [|y l J N IH]; cbn; [constructor; [tauto | constructor]|].
  constructor; [|apply IH; cbn in I; tauto]. intros K. apply in_app_or in K. destruct K as [K|[K|[]]]; [auto|]. apply I. now left.
Qed.
Lemma add_peer_full c via k s : inv c s -> full s -> full (add_peer via k s).
Proof.
  intros (B & _) [X Y]. destruct via as [q|]; unfold full; cbn; split; auto.
  - apply nodup_snoc; [exact X|]. intros I. apply (b_map _ B) in I. apply (b_via _ B) in I. lia.
  - intros a b I. apply in_or_app. apply in_app_or in I. destruct I as [I|[I|[]]]; [left; eauto | right; injection I; cbn; auto].
  - intros a b I. apply in_or_app. left. eauto.
Qed.

Lemma announce_full c p a b s : full s -> full (announce c p a b s).
Proof. intros F. unfold announce. destruct (_ && _); apply send_full; [|apply associate_full]; exact F. Qed.
Lemma relay_full c from v a b pl s : full s -> full (relay c from v a b pl s).
Proof.
  intros F. unfold relay. destruct (find _ _); [|exact F]. destruct (existsb _ _); [now apply send_full|].
  apply (full_ext (send c n (MProxy v a b pl) s)); auto. now apply send_full.
Qed.

Lemma recv_full c m : forall from s, inv c s -> full s -> n_health (recv c m from s) = Fine -> quiet (n_log (recv c m from s)) ->
  full (recv c m from s).
Proof.
  revert m. fix IH 1. intros m from s I F. destruct m as [sn nm|ok|x|v src dst pl].
  1-3: cbn [recv]; destruct (n_health s); auto; destruct (negb _); auto. { intros _ _. now apply announce_full. }
  cbn [recv]. destruct (n_health s) eqn:H; auto. destruct (negb (alive _ _ _)) eqn:A; auto. destruct (negb (v =? 0)); auto.
  destruct (negb (c_cap c)); auto. destruct (_ =? src); [intros _ _; now apply relay_full|]. destruct (dst =? _); auto.
  set (ps := match find (c_sim c, src) (n_names s) with Some p => (p, s) | None => (n_next s, add_peer (Some from) (0, 0) s) end).
  assert (P : inv c (snd ps) /\ full (snd ps)).
  { unfold ps. destruct (find _ _); cbn; [auto|]. split; [|now apply (add_peer_full c)]. apply add_peer_inv; auto.
    intros q [= <-]. now apply negb_false_iff. }
  destruct ps as [p s1]. cbn in P. destruct P as [I1 F1]. destruct pl as [m|].
  - apply (IH m); auto.
  - intros H1 Q. exfalso. unfold shutdown in *. destruct (shutdown_gone c _ p s1 H1) as (_ & l & E & G & _).
    apply (Q p (n_info s1 p)). rewrite E. apply in_or_app. now right.
Qed.

Lemma nstep_full c o s : good c s -> full s -> n_health (nstep c o s) = Fine -> quiet (n_log (nstep c o s)) -> full (nstep c o s).
Proof.
  intros [G1 G2] F. unfold nstep. change (n_health (clear s)) with (n_health s).
  destruct (n_health s) eqn:H; [|auto..]. assert (I : inv c (clear s)) by (apply clear_inv, G2; reflexivity).
  assert (F' : full (clear s)) by exact F.
  destruct o as [| |n|n cap|p m|p|p x].
  - destruct (negb _); intros _ _; [now apply send_full | exact F'].
  - intros _ _. now apply (add_peer_full c).
  - intros _ _. unfold handle_connected. apply associate_full, send_full.
    apply (full_ext (add_peer None (0, n) (clear s))); auto. now apply (add_peer_full c).
  - destruct (_ && _); [|auto]. intros _ _. unfold handle_connected. apply associate_full, send_full.
    apply (full_ext (add_peer (Some 0) (0, n) (clear s))); auto. now apply (add_peer_full c).
  - destruct (_ && _); [|auto]. destruct (n_health (recv c m p (clear s))) eqn:R; [|congruence..].
    destruct (alive _ _ _); [|discriminate]. intros _ Q. now apply recv_full.
  - destruct (_ && _); [|auto]. intros H1 Q. exfalso. unfold shutdown in *. destruct (shutdown_gone c _ p (clear s) H1) as (_ & l & E & G & _).
    apply (Q p (n_info (clear s) p)). rewrite E. apply in_or_app. now right.
  - destruct (alive _ _ _); [|auto]. intros _ _. now apply send_full.
Qed.

Section End_.
Variables sim h : nat.
Notation SI := (SI sim h).

Definition EI (y : sys) : Prop := forall k, k < y_cnt y ->
  good (leaf_cfg sim (y_name y k)) (y_leaf y k) /\ (quiet (y_hist y k) -> full (y_leaf y k)).

Lemma quiet_app a b : quiet (a ++ b) <-> quiet a /\ quiet b.
Proof.
  unfold quiet. split.
  - intros Q. split; intros p k I; apply (Q p k), in_or_app; auto.
  - intros [A B] p k I. apply in_app_or in I. destruct I; [eapply A | eapply B]; eauto.
Qed.

Lemma leaf_do_EI k o y : EI y -> k < y_cnt y -> n_health (nstep (leaf_cfg sim (y_name y k)) o (y_leaf y k)) = Fine -> EI (leaf_do sim k o y).
Proof.
  intros E L H q. unfold leaf_do. cbn [y_cnt y_name y_leaf y_hist]. intros Lq. destruct (Nat.eq_dec q k) as [->|N].
  - rewrite !upd_same. destruct (E k L) as [G F]. split; [now apply nstep_good|]. rewrite quiet_app. intros [Q1 Q2]. apply nstep_full; auto.
  - rewrite !upd_other by auto. now apply E.
Qed.

Lemma node0_full c : full (node0 c h).
Proof. unfold node0. destruct (c_any c); split; cbn; [constructor|tauto|constructor|tauto]. Qed.

Lemma step_EI o y : SI y -> EI y -> EI (ystep sim h o y).
Proof.
  intros S E.
  assert (HF : forall k o', (forall q, q < y_cnt (ystep sim h o y) -> n_health (y_leaf (ystep sim h o y) q) = Fine) -> ystep sim h o y = leaf_do sim k o' y ->
     k < y_cnt y -> EI (ystep sim h o y)).
  { intros k o' HA HE L. rewrite HE. apply leaf_do_EI; auto. specialize (HA k). rewrite HE in HA. cbn in HA. rewrite upd_same in HA. now apply HA. }
  assert (SF : forall q, q < y_cnt (ystep sim h o y) -> n_health (y_leaf (ystep sim h o y) q) = Fine).
  { intros q Lq. assert (S' : SI (ystep sim h o y)) by (apply (run_SI sim h [o]), S). now apply (l_fine _ _ _ _ (s_leaf _ _ _ S' q Lq)). }
  destruct o as [n|k n|k n x|k|k|k|k]; cbn [ystep] in *.
  - destruct (fresh h y n); [|exact E]. apply leaf_do_EI.
    + intros q. cbn [y_cnt y_name y_leaf y_hist hub_do]. intros Lq. destruct (Nat.eq_dec q (y_cnt y)) as [->|N].
      * rewrite !upd_same. split; [apply node0_good|]. intros _. apply node0_full.
      * rewrite !upd_other by auto. apply E. lia.
    + cbn. lia.
    + specialize (SF (y_cnt y)). unfold leaf_do in SF. cbn [y_cnt y_name y_leaf y_hist hub_do] in SF. rewrite !upd_same in SF.
      cbn [y_cnt y_name y_leaf y_hist hub_do]. rewrite !upd_same. apply SF. lia.
  - destruct ((k <? y_cnt y) && negb (y_closed y k) && negb (n =? y_name y k) && known y n) eqn:G; [|exact E]. destruct (find _ _); [exact E|].
    apply (HF k (NProxy n true)); auto. rewrite !andb_true_iff, Nat.ltb_lt in G. tauto.
  - destruct ((k <? y_cnt y) && negb (y_closed y k)) eqn:G; [|exact E]. destruct (find _ _) as [p|]; [|exact E].
    apply (HF k (NSend p x)); auto. rewrite !andb_true_iff, Nat.ltb_lt in G. tauto.
  - destruct ((k <? y_cnt y) && negb (y_eof y k)); [|exact E]. destruct (y_up y k); exact E.
  - destruct ((k <? y_cnt y) && negb (y_closed y k)) eqn:G; [|exact E]. destruct (y_down y k) as [|m r] eqn:D; [exact E|].
    rewrite !andb_true_iff, Nat.ltb_lt in G. destruct G as [G _]. apply leaf_do_EI.
    + exact E.
    + exact G.
    + specialize (SF k). unfold leaf_do in SF. cbn [y_cnt y_name y_leaf y_hist] in SF |- *. rewrite upd_same in SF. now apply SF.
  - destruct (k <? y_cnt y); exact E.
  - destruct ((k <? y_cnt y) && y_closed y k && negb (y_eof y k)); [|exact E]. destruct (y_up y k); exact E.
Qed.

Lemma run_EI l y : SI y -> EI y -> EI (yrun sim h l y).
Proof.
  revert y. induction l as [|o l IH]; intros y S E; [exact E|]. cbn [yrun fold_left]. apply IH; [apply (run_SI sim h [o]), S | now apply step_EI].
Qed.

Lemma sys0_EI : EI (sys0 h).
Proof. intros k L. cbn in L. lia. Qed.

(** Shutting down the proxy peers one after the other. *)
Lemma kids_down n f ks : forall u, NoDup ks -> (forall p, In p ks -> In p (n_peers u)) -> n_map u = [] -> n_dests u = [] -> n_health u = Fine ->
  let t := fold_left (fun t q => match n_health t with Fine => shutdown_fuel (S f) (leaf_cfg sim n) q t | _ => t end) ks u in
  n_health t = Fine /\ n_map t = [] /\ n_dests t = [] /\ n_info t = n_info u /\
  n_log t = n_log u ++ map (fun p => EGone p (n_info u p)) ks /\ forall p, In p (n_peers t) <-> In p (n_peers u) /\ ~ In p ks.
Proof.
  induction ks as [|k ks IH]; intros u ND P M D H; cbn [fold_left map].
  - rewrite app_nil_r. spl; auto. intros p. cbn. tauto.
  - inversion ND as [|? ? NI ND']; subst. rewrite H.
    assert (E : shutdown_fuel (S f) (leaf_cfg sim n) k u =
      set_peers (filter (fun q => negb (q =? k)) (n_peers u)) (set_names (erase (n_info u k) (n_names u)) (out [EGone k (n_info u k)] (set_map [] u)))).
    { cbn [shutdown_fuel]. rewrite M. cbn [filter map fold_left]. change (n_health (set_map [] u)) with (n_health u). rewrite H.
      assert (A : alive (leaf_cfg sim n) (set_map [] u) k = true) by (apply alive_peer; apply P; now left). rewrite A. cbn [negb].
      assert (N1 : notify (leaf_cfg sim n) k (set_map [] u) = set_map [] u).
      { unfold notify. change (n_dests (set_map [] u)) with (n_dests u). rewrite D. reflexivity. }
      rewrite N1. change (n_health (set_map [] u)) with (n_health u). rewrite H. reflexivity. }
    rewrite E. set (v := set_peers _ _). destruct (IH v) as (R1 & R2 & R3 & R4 & R5 & R6); auto.
    + intros p I. unfold v. cbn. apply filter_In. split; [apply P; now right|]. apply negb_true_iff, Nat.eqb_neq. congruence.
    + spl; auto.
      * rewrite R5. unfold v. cbn. now rewrite <- app_assoc.
      * intros p. rewrite R6. unfold v. cbn. rewrite filter_In, negb_true_iff, Nat.eqb_neq. intuition congruence.
Qed.

Lemma leaf_lost n s : LI sim h n s -> inv (leaf_cfg sim n) s -> full s ->
  let t := nstep (leaf_cfg sim n) (NClose 0) s in
  n_health t = Fine /\ (forall p, In p (n_peers s) -> n_via s p = Some 0 -> ~ In p (n_peers t) /\ In (EGone p (n_info s p)) (n_log t)) /\
  forall p k, In (EGone p k) (n_log t) -> k = n_info s p /\ (p = 0 \/ In p (n_peers s)).
Proof.
  intros L (B & R & _) [F1 F2]. unfold nstep. change (n_health (clear s)) with (n_health s). rewrite (l_fine _ _ _ _ L).
  unfold real. change (n_via (clear s)) with (n_via s). rewrite (l_via0 _ _ _ _ L), alive0. cbn [andb].
  unfold shutdown. change (n_map (clear s)) with (n_map s). cbn [shutdown_fuel]. change (n_map (clear s)) with (n_map s).
  assert (E1 : filter (fun e : nat * nat => fst e =? 0) (n_map s) = n_map s).
  { pose proof (l_map _ _ _ _ L) as M. induction (n_map s) as [|[q p] l IH]; [reflexivity|]. cbn. rewrite (M q p) by now left. cbn. f_equal.
    apply IH; [now inversion F1| |]; intros q' p' I; [apply (F2 q') | apply (M q' p')]; now right. }
  assert (E2 : filter (fun e : nat * nat => negb (fst e =? 0)) (n_map s) = []).
  { pose proof (l_map _ _ _ _ L) as M. clear E1 F1 F2 B R. induction (n_map s) as [|[q p] l IH]; [reflexivity|]. cbn. rewrite (M q p) by now left. cbn.
    apply IH. intros q' p' I. apply (M q' p'). now right. }
  rewrite E1, E2. set (ks := map snd (n_map s)). set (u := set_map [] (clear s)).
  assert (NK : NoDup ks).
  { unfold ks. pose proof (l_map _ _ _ _ L) as M. clear E1 E2 F2. induction (n_map s) as [|[q p] l IH]; cbn; [constructor|].
    inversion F1; subst. constructor.
    - intros I. apply in_map_iff in I. destruct I as ([q' p'] & X & I). cbn in X. subst p'. assert (q' = q); [|subst; contradiction].
      rewrite (M q p), (M q' p); auto; [now right | now left].
    - apply IH; auto. intros q' p' I. apply (M q' p'). now right. }
  assert (PK : forall p, In p ks -> In p (n_peers u)).
  { intros p I. apply in_map_iff in I. destruct I as ([q x] & <- & I). cbn. now apply (F2 q). }
  assert (KS : exists f, length (n_map s) = f /\ (ks <> [] -> 0 < f)).
  { eexists. split; [reflexivity|]. unfold ks. destruct (n_map s); cbn; [congruence | lia]. }
  destruct KS as (f & -> & Pf).
  set (s2 := fold_left _ ks u).
  assert (S2 : n_health s2 = Fine /\ n_map s2 = [] /\ n_dests s2 = [] /\ n_info s2 = n_info u /\
    n_log s2 = n_log u ++ map (fun p => EGone p (n_info u p)) ks /\ forall p, In p (n_peers s2) <-> In p (n_peers u) /\ ~ In p ks).
  { unfold s2. destruct f as [|f].
    - destruct ks as [|k ks]; [|exfalso; assert (0 < 0) by (apply Pf; discriminate); lia]. cbn [fold_left map]. rewrite app_nil_r. spl; auto; [apply L | apply L|].
      cbn. tauto.
    - apply kids_down; auto; apply L. }
  destruct S2 as (A1 & A2 & A3 & A4 & A5 & A6). clearbody s2. rewrite A1, alive0. cbn [negb].
  assert (N1 : notify (leaf_cfg sim n) 0 s2 = s2) by (unfold notify; rewrite A3; reflexivity). rewrite N1, A1. cbn [n_health set_peers set_names out n_peers n_log n_info].
  spl; auto.
  - intros p P V. assert (K : In p ks).
    { destruct (R p 0) as [X|[]]; auto; [now apply alive_peer|]. apply in_map_iff. exists (0, p). auto. }
    split.
    + rewrite filter_In, A6. tauto.
    + apply in_or_app. left. rewrite A5. apply in_or_app. right. apply in_map_iff. exists p. auto.
  - intros p k I. rewrite A5, A4 in I. apply in_app_or in I. destruct I as [I|[I|[]]].
    + apply in_app_or in I. destruct I as [[]|I]. apply in_map_iff in I. destruct I as (x & [= <- <-] & K). split; [reflexivity|]. right. now apply PK in K.
    + injection I as <- <-. auto.
Qed.
End End_.
