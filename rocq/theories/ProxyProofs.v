(** Proofs about one node of ProxyModel.v, for all histories. *)
From Coq Require Import List Arith Bool Lia.
From Verif Require Import Base ProxyModel.
Import ListNotations.

Ltac spl := repeat match goal with |- _ /\ _ => split end.

Lemma mem_In p l : mem p l = true <-> In p l.
Proof.
  unfold mem. rewrite existsb_exists. split.
  - intros (x & I & E). apply Nat.eqb_eq in E. now subst.
  - intros I. exists p. now rewrite Nat.eqb_refl.
Qed.
Lemma keqb_eq a b : keqb a b = true <-> a = b.
Proof.
  unfold keqb. destruct a as [a1 a2], b as [b1 b2]. cbn. rewrite andb_true_iff, !Nat.eqb_eq. split.
  - intros [-> ->]. reflexivity.
  - intros [= -> ->]. auto.
Qed.
Lemma keqb_refl a : keqb a a = true.
Proof. now apply keqb_eq. Qed.
Lemma keqb_neq a b : a <> b -> keqb a b = false.
Proof. intros N. destruct (keqb a b) eqn:E; [|reflexivity]. apply keqb_eq in E. contradiction. Qed.

(** What [send] leaves alone. *)
Definition same (s t : node) : Prop :=
  n_next t = n_next s /\ n_peers t = n_peers s /\ n_info t = n_info s /\ n_via t = n_via s /\ n_names t = n_names s /\
  n_map t = n_map s /\ n_dests t = n_dests s.

Lemma same_refl s : same s s.
Proof. unfold same. auto 10. Qed.
Lemma same_trans a b c : same a b -> same b c -> same a c.
Proof. unfold same. intuition congruence. Qed.
Lemma same_out e s : same s (out e s).
Proof. unfold same, out. cbn. auto 10. Qed.
Lemma same_fail h s : same s (fail h s).
Proof. unfold same, fail. cbn. auto 10. Qed.
Lemma same_alive c s t p : same s t -> alive c t p = alive c s p.
Proof. intros (_ & E & _). unfold alive. now rewrite E. Qed.

Lemma send_fuel_same f c : forall p m s, same s (send_fuel f c p m s).
Proof.
  induction f as [|f IH]; intros p m s; cbn; [apply same_fail|].
  destruct (negb _); [apply same_fail|]. destruct (n_via s p); [apply IH | apply same_out].
Qed.
Lemma send_same c p m s : same s (send c p m s).
Proof. apply send_fuel_same. Qed.

Lemma send_fuel_ok f c : forall p m s, (forall x q, n_via s x = Some q -> q < x) -> p < f ->
  n_health s <> NoFuel -> n_health (send_fuel f c p m s) <> NoFuel.
Proof.
  induction f as [|f IH]; intros p m s V L H; [lia|]. cbn.
  destruct (negb _); [discriminate|]. destruct (n_via s p) eqn:E; [|exact H].
  apply IH; auto. specialize (V _ _ E). lia.
Qed.
Lemma send_ok c p m s : (forall x q, n_via s x = Some q -> q < x) ->
  n_health s <> NoFuel -> n_health (send c p m s) <> NoFuel.
Proof. intros. apply send_fuel_ok; auto. Qed.

(** The fold of [notify]. *)
Lemma notify_gen c k l : forall s t, same s t -> (forall x q, n_via s x = Some q -> q < x) -> n_health t <> NoFuel ->
  let r := fold_left (fun t (e : key * nat) =>
               if keqb k (fst e)
               then match find (fst k, snd e) (n_names t) with
                    | None => t
                    | Some q => send c q (MProxy 0 (snd k) (snd e) None) t
                    end
               else t) l t in
  same s r /\ n_health r <> NoFuel.
Proof.
  induction l as [|e l IH]; intros s t S V H; cbn; [auto|].
  destruct (keqb k (fst e)); [|now apply IH].
  destruct (find _ _) as [q|]; [|now apply IH].
  apply IH; auto.
  - eapply same_trans; [exact S | apply send_same].
  - apply send_ok; auto. destruct S as (_ & _ & _ & -> & _). exact V.
Qed.
Lemma notify_spec c p s : (forall x q, n_via s x = Some q -> q < x) -> n_health s <> NoFuel ->
  same s (notify c p s) /\ n_health (notify c p s) <> NoFuel.
Proof. intros V H. unfold notify. apply notify_gen; auto. apply same_refl. Qed.

(** Invariant of all nodes. *)
Record base (s : node) : Prop := {
  b_via : forall p q, n_via s p = Some q -> q < p /\ p < n_next s;
  b_peers : forall p, In p (n_peers s) -> p < n_next s;
  b_map : forall q p, In (q, p) (n_map s) -> n_via s p = Some q }.

(** Every existing proxy peer is registered with its peer, the ones in [P] excepted. *)
Definition reg (c : cfg) (P : list nat) (s : node) : Prop :=
  forall p q, alive c s p = true -> n_via s p = Some q -> In (q, p) (n_map s) \/ In p P.
(** The peer of an existing proxy peer exists. *)
Definition hasvia (c : cfg) (s : node) : Prop :=
  forall p q, alive c s p = true -> n_via s p = Some q -> alive c s q = true.
Definition inv (c : cfg) (s : node) : Prop :=
  base s /\ reg c [] s /\ hasvia c s /\ (c_any c = false -> n_via s 0 = None /\ 0 < n_next s).

Lemma same_base s t : same s t -> base s -> base t.
Proof. intros (A & B & C & D & E & F & G) [X Y Z]. constructor; rewrite ?A, ?B, ?D, ?F; auto. Qed.
Lemma same_reg c P s t : same s t -> reg c P s -> reg c P t.
Proof. intros S R p q. rewrite (same_alive c _ _ p S). destruct S as (A & B & C & D & E & F & G). rewrite D, F. apply R. Qed.
Lemma same_hasvia c s t : same s t -> hasvia c s -> hasvia c t.
Proof. intros S R p q. rewrite !(same_alive c _ _ _ S). destruct S as (A & B & C & D & E & F & G). rewrite D. apply R. Qed.
Lemma same_inv c s t : same s t -> inv c s -> inv c t.
Proof.
  intros S (A & B & C & D). pose proof S as (a1 & a2 & a3 & a4 & a5 & a6 & a7). unfold inv. spl; eauto using same_base, same_reg, same_hasvia.
  rewrite a1, a4. exact D.
Qed.

Lemma filter_length_le {A} (f : A -> bool) l : length (filter f l) <= length l.
Proof. induction l as [|x l IH]; cbn; [lia|]. destruct (f x); cbn; lia. Qed.
Lemma filter_split {A} (f : A -> bool) l : length (filter f l) + length (filter (fun x => negb (f x)) l) = length l.
Proof. induction l as [|x l IH]; cbn; [lia|]. destruct (f x); cbn; lia. Qed.

(** The state after shutting down [p] successfully. *)
Definition down_to (c : cfg) (p : nat) (P : list nat) (s t : node) : Prop :=
  n_next t = n_next s /\ n_via t = n_via s /\ n_info t = n_info s /\
  (forall x, In x (n_peers t) -> In x (n_peers s)) /\
  (forall e, In e (n_map t) -> In e (n_map s)) /\ length (n_map t) <= length (n_map s) /\
  (forall x, ~ In (p, x) (n_map t)) /\ ~ In p (n_peers t) /\
  base t /\ reg c P t /\ hasvia c t.

Lemma alive_sub c s t x : (forall x, In x (n_peers t) -> In x (n_peers s)) -> alive c t x = true -> alive c s x = true.
Proof.
  unfold alive. intros H. rewrite !orb_true_iff, !mem_In. intros [A|A]; auto.
Qed.

Lemma shutdown_spec c f : forall p s P,
  base s -> reg c (p :: P) s -> hasvia c s ->
  (c_any c = false -> n_via s 0 = None) ->
  (forall x a, In x P -> n_via s x = Some a -> a < p) ->
  length (n_map s) < f -> n_health s = Fine ->
  let t := shutdown_fuel f c p s in
  n_health t <> NoFuel /\ (n_health t = Fine -> down_to c p P s t).
Proof.
  induction f as [|f IH]; intros p s P B R HV Z HP L H; [lia|]. cbn [shutdown_fuel].
  set (kids := map snd (filter (fun e => fst e =? p) (n_map s))).
  set (s1 := set_map (filter (fun e => negb (fst e =? p)) (n_map s)) s).
  assert (HK : forall ks t, (forall k, In k ks -> n_via s k = Some p) ->
    (n_health t = Fine -> n_next t = n_next s /\ n_via t = n_via s /\ n_info t = n_info s /\
       (forall x, In x (n_peers t) -> In x (n_peers s)) /\ (forall e, In e (n_map t) -> In e (n_map s1)) /\
       (ks <> [] -> length (n_map t) < f) /\ length (n_map t) <= length (n_map s1) /\
       base t /\ reg c (ks ++ p :: P) t /\ hasvia c t) ->
    n_health t <> NoFuel ->
    let r := fold_left (fun t q => match n_health t with Fine => shutdown_fuel f c q t | _ => t end) ks t in
    n_health r <> NoFuel /\
    (n_health r = Fine -> n_next r = n_next s /\ n_via r = n_via s /\ n_info r = n_info s /\
       (forall x, In x (n_peers r) -> In x (n_peers s)) /\ (forall e, In e (n_map r) -> In e (n_map s1)) /\
       length (n_map r) <= length (n_map s1) /\ base r /\ reg c (p :: P) r /\ hasvia c r)).
  { induction ks as [|k ks IK]; intros t HKs Ht Hn; cbn.
    - split; [exact Hn|]. intros E. specialize (Ht E). tauto.
    - apply IK.
      + intros x I. apply HKs. now right.
      + destruct (n_health t) eqn:Et; [|intros E; congruence..].
        destruct (Ht eq_refl) as (a1 & a2 & a3 & a4 & a5 & a6 & a7 & a8 & a9 & a10).
        intros E.
        assert (Hk : n_via s k = Some p) by (apply HKs; now left).
        pose proof (b_via _ B _ _ Hk) as [Hlt _].
        destruct (IH k t (ks ++ p :: P)) as [_ D]; auto.
        * rewrite a2. exact Z.
        * intros x a I V. rewrite a2 in V. apply in_app_or in I. destruct I as [I|[<-|I]].
          -- rewrite (HKs x) in V by now right. injection V as <-. exact Hlt.
          -- apply (b_via _ B) in V. lia.
          -- specialize (HP _ _ I V). lia.
        * apply a6. discriminate.
        * destruct (D E) as (d1 & d2 & d3 & d4 & d5 & d6 & d7 & d8 & d9 & d10 & d11).
          spl; auto; try congruence. intros _. assert (length (n_map t) < f) by (apply a6; discriminate). lia. lia.
      + destruct (n_health t) eqn:Et; [|congruence..].
        destruct (Ht eq_refl) as (a1 & a2 & a3 & a4 & a5 & a6 & a7 & a8 & a9 & a10).
        assert (Hk : n_via s k = Some p) by (apply HKs; now left).
        pose proof (b_via _ B _ _ Hk) as [Hlt _].
        destruct (IH k t (ks ++ p :: P)) as [D _]; auto.
        * rewrite a2. exact Z.
        * intros x a I V. rewrite a2 in V. apply in_app_or in I. destruct I as [I|[<-|I]].
          -- rewrite (HKs x) in V by now right. injection V as <-. exact Hlt.
          -- apply (b_via _ B) in V. lia.
          -- specialize (HP _ _ I V). lia.
        * apply a6. discriminate. }
  assert (HKs : forall k, In k kids -> n_via s k = Some p).
  { intros k I. unfold kids in I. apply in_map_iff in I. destruct I as ([q k'] & <- & I). apply filter_In in I.
    destruct I as [I E]. cbn in E. apply Nat.eqb_eq in E. subst q. cbn. now apply (b_map _ B). }
  assert (M1 : forall e, In e (n_map s1) <-> In e (n_map s) /\ fst e <> p).
  { intros e. unfold s1. cbn. rewrite filter_In, negb_true_iff, Nat.eqb_neq. tauto. }
  assert (B1 : base s1).
  { constructor; unfold s1; cbn; try apply B. intros q x I. apply filter_In in I. apply (b_map _ B), I. }
  assert (R1 : reg c (kids ++ p :: P) s1).
  { intros x q A V. change (alive c s x = true) in A. change (n_via s x = Some q) in V.
    destruct (R x q A V) as [I|I].
    - destruct (Nat.eq_dec q p) as [->|N].
      + right. apply in_or_app. left. unfold kids. apply in_map_iff. exists (p, x). split; [reflexivity|].
        apply filter_In. cbn. rewrite Nat.eqb_refl. auto.
      + left. apply M1. auto.
    - right. apply in_or_app. now right. }
  destruct (HK kids s1) as [HN HF]; clear HK; auto.
  { intros _. spl; auto.
    intros N. unfold s1. cbn. assert (S := filter_split (fun e => fst e =? p) (n_map s)).
      assert (0 < length (filter (fun e => fst e =? p) (n_map s))).
      { unfold kids in N. destruct (filter (fun e => fst e =? p) (n_map s)); [now contradiction N | cbn; lia]. }
      lia. }
  { unfold s1. cbn. rewrite H. discriminate. }
  set (s2 := fold_left _ kids s1) in *.
  destruct (n_health s2) eqn:E2; [|split; [congruence|intros; congruence]..].
  destruct (HF eq_refl) as (a1 & a2 & a3 & a4 & a5 & a6 & a7 & a8 & a9). clear HF.
  destruct (alive c s2 p) eqn:Al; cbn [negb]; [|split; [discriminate | intros; discriminate]].
  destruct (notify_spec c p s2) as [N1 N2].
  { intros x q V. rewrite a2 in V. apply (b_via _ B _ _ V). }
  { congruence. }
  set (s3 := notify c p s2) in *.
  destruct (n_health s3) eqn:E3; [|split; [congruence|intros; congruence]..].
  split; [cbn; congruence|]. intros _.
  pose proof N1 as (m1 & m2 & m3 & m4 & m5 & m6 & m7).
  assert (NK : forall x, ~ In (p, x) (n_map s3)).
  { intros x I. rewrite m6 in I. apply a5, M1 in I. destruct I as [_ I]. now apply I. }
  assert (Sub : forall x, In x (filter (fun q => negb (q =? p)) (n_peers s3)) -> In x (n_peers s)).
  { intros x I. apply filter_In in I. rewrite m2 in I. now apply a4. }
  unfold down_to. cbn. rewrite m1, m3, m4. spl; auto.
  - intros e I. rewrite m6 in I. now apply M1, a5.
  - rewrite m6. etransitivity; [exact a6|]. unfold s1. cbn. apply filter_length_le.
  - intros I. apply filter_In in I. now rewrite Nat.eqb_refl in I.
  - constructor; cbn; rewrite ?m1, ?m4, ?m6.
    + rewrite a1, a2. apply B.
    + intros x I. rewrite a1. now apply (b_peers _ B), Sub.
    + intros q x I. now apply (b_map _ a7).
  - intros x q A V. cbn in V |- *. unfold alive in A. cbn in A.
    assert (A2 : alive c s2 x = true).
    { unfold alive. apply orb_true_iff in A. apply orb_true_iff. destruct A as [A|A]; [left|now right].
      apply mem_In in A. apply filter_In in A. apply mem_In. now rewrite <- m2. }
    rewrite m4 in V. destruct (a8 x q A2 V) as [I|[<-|I]].
    + left. now rewrite m6.
    + exfalso. apply orb_true_iff in A. destruct A as [A|A].
      * apply mem_In, filter_In in A. now rewrite Nat.eqb_refl in A.
      * apply andb_true_iff in A. destruct A as [A0 A]. apply Nat.eqb_eq in A. rewrite A, a2, Z in V; [discriminate|].
        now apply negb_true_iff in A0.
    + now right.
  - intros x q A V. cbn in V. rewrite m4 in V.
    assert (A2 : alive c s2 x = true).
    { unfold alive in A |- *. cbn in A. apply orb_true_iff in A. apply orb_true_iff. destruct A as [A|A]; [left|now right].
      apply mem_In in A. apply filter_In in A. apply mem_In. now rewrite <- m2. }
    pose proof (a9 x q A2 V) as Aq.
    destruct (Nat.eq_dec q p) as [->|Nq].
    + exfalso. destruct (a8 x p A2 V) as [I|[<-|I]].
      * apply (NK x). now rewrite m6.
      * rewrite a2 in V. apply (b_via _ B) in V. lia.
      * rewrite a2 in V. specialize (HP _ _ I V). lia.
    + unfold alive in Aq |- *. cbn. apply orb_true_iff in Aq. apply orb_true_iff. destruct Aq as [Aq|Aq]; [left|now right].
      apply mem_In, filter_In. rewrite m2. apply mem_In in Aq. split; [exact Aq|]. now apply negb_true_iff, Nat.eqb_neq.
Qed.

Lemma reg_more c P P' s : (forall x, In x P -> In x P') -> reg c P s -> reg c P' s.
Proof. intros H R p q A V. destruct (R p q A V); auto. Qed.

Lemma shutdown_inv c p s : inv c s -> n_health s = Fine ->
  let t := shutdown c p s in
  n_health t <> NoFuel /\ (n_health t = Fine -> inv c t /\ down_to c p [] s t).
Proof.
  intros (B & R & V & Z) H. unfold shutdown.
  destruct (shutdown_spec c (S (length (n_map s))) p s []) as [N F]; auto.
  - eapply reg_more; [|exact R]. intros x [].
  - intros E. now apply Z.
  - intros x a [].
  - split; [exact N|]. intros E. specialize (F E). split; [|exact F].
    destruct F as (d1 & d2 & d3 & d4 & d5 & d6 & d7 & d8 & d9 & d10 & d11). unfold inv. spl; auto.
    rewrite d1, d2. exact Z.
Qed.

Lemma add_peer_inv c via k s : inv c s -> (forall q, via = Some q -> alive c s q = true) -> inv c (add_peer via k s).
Proof.
  intros (B & R & V & Z) HV.
  assert (AL : forall x, alive c (add_peer via k s) x = alive c s x || (x =? n_next s)).
  { intros x. unfold alive, add_peer. cbn. unfold mem. rewrite existsb_app. cbn. rewrite orb_false_r.
    rewrite <- !orb_assoc. f_equal. apply orb_comm. }
  assert (AN : forall x, alive c s x = true -> x < n_next s).
  { intros x A. unfold alive in A. apply orb_true_iff in A. destruct A as [A|A]; [apply mem_In in A; now apply (b_peers _ B)|].
    apply andb_true_iff in A. destruct A as [A E]. apply Nat.eqb_eq in E. subst. apply Z. now apply negb_true_iff. }
  unfold inv. spl.
  - constructor; cbn.
    + intros p q E. destruct (p =? n_next s) eqn:X.
      * apply Nat.eqb_eq in X. subst p. specialize (HV _ E). split; [now apply AN | lia].
      * apply (b_via _ B) in E. lia.
    + intros p I. apply in_app_or in I. destruct I as [I|[<-|[]]]; [apply (b_peers _ B) in I; lia | lia].
    + intros q p I. assert (J : In (q, p) (n_map s) \/ (via = Some q /\ p = n_next s)).
      { destruct via as [v|]; [|auto]. apply in_app_or in I. destruct I as [I|[[= -> ->]|[]]]; auto. }
      destruct J as [J|[-> ->]].
      * pose proof (b_map _ B _ _ J) as W. pose proof (b_via _ B _ _ W) as [_ L].
        destruct (p =? n_next s) eqn:X; [apply Nat.eqb_eq in X; lia | exact W].
      * now rewrite Nat.eqb_refl.
  - intros p q A E. left. rewrite AL in A. cbn in E. destruct (p =? n_next s) eqn:X.
    + cbn. rewrite E. apply in_or_app. right. apply Nat.eqb_eq in X. subst p. now left.
    + rewrite orb_false_r in A. cbn. destruct (R p q A E) as [I|[]]. destruct via; [apply in_or_app; now left | exact I].
  - intros p q A E. rewrite AL in A |- *. cbn in E. destruct (p =? n_next s) eqn:X.
    + now rewrite (HV _ E).
    + rewrite orb_false_r in A. now rewrite (V p q A E).
  - intros E. destruct (Z E) as [Z1 Z2]. cbn. destruct (n_next s) eqn:X; [lia|]. split; [exact Z1|lia].
Qed.

(** Changing the names of peers does not touch the invariant. *)
Lemma inv_ext c s t : n_next t = n_next s -> n_peers t = n_peers s -> n_via t = n_via s -> n_map t = n_map s -> inv c s -> inv c t.
Proof.
  intros E1 E2 E3 E4 ([X Y Z] & R & V & Q). unfold inv, reg, hasvia, alive. rewrite ?E1, ?E2, ?E3, ?E4. spl; auto.
  constructor; rewrite ?E1, ?E2, ?E3, ?E4; auto.
Qed.
Lemma set_info_inv c p k s : inv c s -> inv c (set_info p k s).
Proof. now apply inv_ext. Qed.
Lemma set_names_inv c l s : inv c s -> inv c (set_names l s).
Proof. now apply inv_ext. Qed.
Lemma set_dests_inv c l s : inv c s -> inv c (set_dests l s).
Proof. now apply inv_ext. Qed.
Lemma out_inv c l s : inv c s -> inv c (out l s).
Proof. now apply inv_ext. Qed.
Lemma clear_inv c s : inv c s -> inv c (clear s).
Proof. now apply inv_ext. Qed.
#[export] Hint Resolve set_info_inv set_names_inv set_dests_inv out_inv clear_inv : pinv.

Definition good (c : cfg) (s : node) : Prop := n_health s <> NoFuel /\ (n_health s = Fine -> inv c s).

Lemma send_good c p m s : inv c s -> n_health s <> NoFuel -> good c (send c p m s) /\ inv c (send c p m s).
Proof.
  intros I H. assert (J : inv c (send c p m s)) by (eapply same_inv; [apply send_same | exact I]). split; [split|exact J]; auto.
  apply send_ok; auto. destruct I as (B & _). intros x q V. now apply (b_via _ B) in V.
Qed.

Lemma associate_inv c k p s : inv c s -> inv c (associate k p s).
Proof. intros I. unfold associate. destruct (find _ _); auto with pinv. Qed.
#[export] Hint Resolve associate_inv : pinv.
Lemma associate_health k p s : n_health (associate k p s) = n_health s.
Proof. unfold associate. destruct (find _ _); reflexivity. Qed.

Lemma announce_good c p a b s : inv c s -> n_health s = Fine -> good c (announce c p a b s).
Proof.
  intros I H. unfold announce. destruct (_ && _).
  - apply send_good; [auto with pinv | cbn; congruence].
  - apply send_good; [auto with pinv | rewrite associate_health; cbn; congruence].
Qed.

Lemma relay_good c from v a b pl s : inv c s -> n_health s = Fine -> good c (relay c from v a b pl s).
Proof.
  intros I H. unfold relay. destruct (find _ _) as [q|].
  - destruct (send_good c q (MProxy v a b pl) s I) as [G J]; [congruence|].
    destruct (existsb _ _); [exact G|]. destruct G as [G1 G2]. split; [exact G1|]. intros E. now apply set_dests_inv, G2.
  - split; [cbn; congruence | intros _; auto with pinv].
Qed.

Fixpoint recv_good c m {struct m} : forall from s, inv c s -> n_health s = Fine -> good c (recv c m from s).
Proof.
  intros from s I H. destruct m as [a b|ok|x|v a b pl]; cbn [recv]; rewrite H;
    (destruct (alive c s from) eqn:A; cbn [negb]; [|split; [discriminate | intros; discriminate]]).
  - now apply announce_good.
  - split; [cbn; congruence | intros _; auto with pinv].
  - split; [cbn; congruence | intros _; auto with pinv].
  - destruct (negb _); [split; [congruence | auto]|]. destruct (negb _); [split; [congruence | auto]|].
    destruct (_ =? a); [now apply relay_good|]. destruct (b =? c_me c); [|split; [congruence | auto]].
    destruct (find _ _) as [p|].
    + destruct pl as [m'|]; [now apply recv_good|].
      destruct (shutdown_inv c p s I H) as [N F]. split; [exact N | intros E; now apply F].
    + assert (I' : inv c (add_peer (Some from) (0, 0) s)).
      { apply add_peer_inv; auto. intros q [= <-]. exact A. }
      destruct pl as [m'|]; [now apply recv_good|].
      destruct (shutdown_inv c (n_next s) (add_peer (Some from) (0, 0) s) I' H) as [N F]. split; [exact N | intros E; now apply F].
Qed.

Lemma nstep_good c o s : good c s -> good c (nstep c o s).
Proof.
  intros [G1 G2]. unfold nstep. change (n_health (clear s)) with (n_health s).
  destruct (n_health s) eqn:H; [|split; cbn; [congruence|rewrite H; discriminate]|congruence].
  assert (I : inv c (clear s)) by (apply clear_inv, G2; reflexivity).
  assert (H' : n_health (clear s) = Fine) by exact H.
  destruct o as [| |n|n cap|p m|p|p x].
  - destruct (negb _); [apply send_good; auto; congruence | split; [congruence|auto]].
  - split; [cbn; congruence|]. intros _. apply add_peer_inv; auto. discriminate.
  - unfold handle_connected. split.
    + rewrite associate_health. apply send_good; [apply set_info_inv, add_peer_inv; auto; discriminate | cbn; congruence].
    + intros _. apply associate_inv, send_good; [apply set_info_inv, add_peer_inv; auto; discriminate | cbn; congruence].
  - destruct (negb (c_any c)) eqn:A; [|split; [cbn; congruence|auto]]. destruct (true && _ && _); [|split; [cbn; congruence|auto]].
    assert (I' : inv c (add_peer (Some 0) (0, n) (clear s))).
    { apply add_peer_inv; auto. intros q [= <-]. unfold alive. rewrite A. cbn. apply orb_true_r. }
    unfold handle_connected. split.
    + rewrite associate_health. apply send_good; [now apply set_info_inv | cbn; congruence].
    + intros _. apply associate_inv, send_good; [now apply set_info_inv | cbn; congruence].
  - destruct (_ && _); [|split; [congruence|auto]].
    destruct (recv_good c m p (clear s) I H') as [N F].
    destruct (n_health (recv c m p (clear s))) eqn:E; [|split; [congruence|intros X; congruence]|congruence].
    destruct (alive _ _ _); [split; [congruence | auto] | split; [discriminate | intros; discriminate]].
  - destruct (_ && _); [|split; [congruence|auto]]. destruct (shutdown_inv c p (clear s) I H') as [N F].
    split; [exact N | intros E; now apply F].
  - destruct (alive _ _ _); [|split; [congruence|auto]]. apply send_good; [auto with pinv | cbn; congruence].
Qed.

Lemma node0_good c h : good c (node0 c h).
Proof.
  unfold node0. destruct (c_any c) eqn:A; (split; [discriminate|]); intros _; unfold inv; spl.
  all: try (constructor; cbn; [discriminate | tauto | tauto]).
  all: try (intros p q _ E; discriminate).
  - intros E; congruence.
  - intros _. cbn. split; [reflexivity | lia].
Qed.

Lemma nrun_good c l : forall s, good c s -> good c (fst (nrun c l s)).
Proof.
  induction l as [|o l IH]; intros s G; cbn; [exact G|].
  specialize (IH (nstep c o s) (nstep_good c o s G)). destruct (nrun c l (nstep c o s)). exact IH.
Qed.

(** What shutting down a peer tells. *)
Lemma shutdown_gone c f : forall p s, let t := shutdown_fuel f c p s in n_health t = Fine ->
  n_info t = n_info s /\
  exists l, n_log t = n_log s ++ l /\ In (EGone p (n_info s p)) l /\
    forall x, In x (n_peers s) -> In x (n_peers t) \/ In (EGone x (n_info s x)) l.
Proof.
  induction f as [|f IH]; intros p s; cbn [shutdown_fuel]; [discriminate|].
  set (kids := map snd (filter (fun e => fst e =? p) (n_map s))).
  set (s1 := set_map (filter (fun e => negb (fst e =? p)) (n_map s)) s).
  assert (HK : forall ks t, let r := fold_left (fun t q => match n_health t with Fine => shutdown_fuel f c q t | _ => t end) ks t in
    n_health r = Fine ->
    n_info r = n_info t /\ exists l, n_log r = n_log t ++ l /\
      forall x, In x (n_peers t) -> In x (n_peers r) \/ In (EGone x (n_info t x)) l).
  { induction ks as [|k ks IK]; intros t; cbn.
    - intros _. split; [reflexivity|]. exists []. rewrite app_nil_r. auto.
    - intros H. destruct (n_health t) eqn:Ht.
      + destruct (IK _ H) as (I1 & l1 & I2 & I3).
        assert (Hm : n_health (shutdown_fuel f c k t) = Fine).
        { destruct (n_health (shutdown_fuel f c k t)) eqn:E; [reflexivity|..];
            exfalso; revert H; generalize (shutdown_fuel f c k t) E; clear; intros u E;
            induction ks as [|k' ks IK]; cbn; try rewrite E; auto; congruence. }
        destruct (IH k t Hm) as (J1 & l2 & J2 & J3 & J4).
        split; [congruence|]. exists (l2 ++ l1). rewrite I2, J2, app_assoc. split; [reflexivity|].
        intros x I. destruct (J4 x I) as [J|J]; [|right; apply in_or_app; now left].
        destruct (I3 x J) as [K|K]; [now left|]. right. apply in_or_app. right. now rewrite <- J1.
      + exfalso. revert H. rename t into u. clear -Ht. induction ks as [|k' ks IK]; cbn; try rewrite Ht; auto; congruence.
      + exfalso. revert H. rename t into u. clear -Ht. induction ks as [|k' ks IK]; cbn; try rewrite Ht; auto; congruence. }
  specialize (HK kids s1). cbv zeta in HK. set (s2 := fold_left _ kids s1) in *.
  destruct (n_health s2) eqn:E2; [|intros; congruence..].
  destruct (HK eq_refl) as (I1 & l1 & I2 & I3).
  destruct (alive c s2 p); cbn [negb]; [|discriminate].
  assert (NL : exists l, n_log (notify c p s2) = n_log s2 ++ l).
  { unfold notify. generalize (n_info s2 p). intros k. generalize (n_dests s2). intros d. clearbody s2. clear.
    revert s2. induction d as [|e d IH]; intros s; cbn [fold_left]; [exists []; now rewrite app_nil_r|].
    destruct (keqb _ _); [|apply IH]. destruct (find _ _) as [q|]; [|apply IH].
    destruct (IH (send c q (MProxy 0 (snd k) (snd e) None) s)) as (l & ->).
    assert (S : forall f p m s, exists l, n_log (send_fuel f c p m s) = n_log s ++ l).
    { induction f as [|f IF]; intros p m u; cbn; [exists []; now rewrite app_nil_r|].
      destruct (negb _); [exists []; now rewrite app_nil_r|]. destruct (n_via u p); [apply IF|]. cbn. eauto. }
    destruct (S (Datatypes.S q) q (MProxy 0 (snd k) (snd e) None) s) as (l' & E). change (send_fuel (Datatypes.S q) c q (MProxy 0 (snd k) (snd e) None) s) with (send c q (MProxy 0 (snd k) (snd e) None) s) in E. rewrite E, <- app_assoc. eauto. }
  assert (NS : same s2 (notify c p s2)).
  { unfold notify. generalize (n_info s2 p). intros k. generalize (n_dests s2). intros d. clearbody s2. clear.
    revert s2. induction d as [|e d IH]; intros s; cbn [fold_left]; [apply same_refl|].
    destruct (keqb _ _); [|apply IH]. destruct (find _ _) as [q|]; [|apply IH].
    eapply same_trans; [apply send_same|apply IH]. }
  destruct (n_health (notify c p s2)) eqn:E3; [|intros; congruence..].
  intros _. destruct NL as (l2 & NL). pose proof NS as (m1 & m2 & m3 & m4 & m5 & m6 & m7). cbn.
  split; [rewrite m3, I1; reflexivity|]. exists (l1 ++ l2 ++ [EGone p (n_info (notify c p s2) p)]).
  rewrite NL, I2. change (n_log s1) with (n_log s). rewrite <- !app_assoc. split; [reflexivity|].
  assert (IP : n_info (notify c p s2) = n_info s) by (rewrite m3, I1; reflexivity). rewrite IP.
  split; [apply in_or_app; right; apply in_or_app; right; now left|].
  intros x I. destruct (I3 x I) as [J|J]; [|right; apply in_or_app; now left].
  destruct (Nat.eq_dec x p) as [->|N].
  - right. apply in_or_app; right; apply in_or_app; right; now left.
  - left. apply filter_In. rewrite m2. split; [exact J|]. now apply negb_true_iff, Nat.eqb_neq.
Qed.

(** Shutting down only takes peers and registrations away. *)
Lemma notify_same c p s : same s (notify c p s).
Proof.
  unfold notify. generalize (n_info s p). intros k. generalize (n_dests s). intros d. clear p.
  revert s. induction d as [|e d IH]; intros s; cbn [fold_left]; [apply same_refl|].
  destruct (keqb _ _); [|apply IH]. destruct (find _ _) as [q|]; [|apply IH].
  eapply same_trans; [apply send_same|apply IH].
Qed.

Lemma fold_inv {A B} (f : A -> B -> A) (P : A -> Prop) l : (forall a b, In b l -> P a -> P (f a b)) -> forall a, P a -> P (fold_left f l a).
Proof.
  intros H. induction l as [|b l IH]; intros a Pa; [exact Pa|]. cbn. apply IH; [intros; apply H; auto; now right | apply H; auto; now left].
Qed.

Lemma shutdown_sub c f : forall p s, let t := shutdown_fuel f c p s in
  (forall x, In x (n_peers t) -> In x (n_peers s)) /\ (forall e, In e (n_map t) -> In e (n_map s)).
Proof.
  induction f as [|f IH]; intros p s; cbn [shutdown_fuel]; [cbn; auto|].
  set (kids := map snd _). set (s1 := set_map _ s). set (s2 := fold_left _ kids s1).
  assert (A : (forall x, In x (n_peers s2) -> In x (n_peers s)) /\ (forall e, In e (n_map s2) -> In e (n_map s))).
  { unfold s2. apply (fold_inv _ (fun u => (forall x, In x (n_peers u) -> In x (n_peers s)) /\ (forall e, In e (n_map u) -> In e (n_map s)))).
    - intros a b _ [X Y]. destruct (n_health a); [|auto..]. destruct (IH b a) as [X' Y']. auto.
    - split; [auto|]. intros e I. apply filter_In in I. tauto. }
  destruct A as [A1 A2]. clearbody s2. destruct (n_health s2); [|auto..]. destruct (negb _); [cbn; auto|].
  destruct (notify_same c p s2) as (m1 & m2 & m3 & m4 & m5 & m6 & m7).
  destruct (n_health (notify c p s2)).
  - cbn. split; [intros x I; apply filter_In in I; rewrite m2 in I; apply A1; tauto | rewrite m6; auto].
  - rewrite m2, m6. auto.
  - rewrite m2, m6. auto.
Qed.

Lemma shutdown_alive c f p s : n_health (shutdown_fuel f c p s) = Fine -> alive c s p = true.
Proof.
  destruct f as [|f]; cbn [shutdown_fuel]; [discriminate|].
  set (kids := map snd _). set (s1 := set_map _ s). set (s2 := fold_left _ kids s1).
  assert (A : forall x, In x (n_peers s2) -> In x (n_peers s)).
  { unfold s2. apply (fold_inv _ (fun u => forall x, In x (n_peers u) -> In x (n_peers s))); [|auto].
    intros a b _ X. destruct (n_health a); auto. destruct (shutdown_sub c f b a) as [X' _]. auto. }
  clearbody s2. destruct (n_health s2) eqn:H2; [|congruence..]. destruct (alive c s2 p) eqn:E; cbn [negb]; [|discriminate].
  intros _. eapply alive_sub; eauto.
Qed.

Lemma fold_fine c f ks : forall t,
  n_health (fold_left (fun t q => match n_health t with Fine => shutdown_fuel f c q t | _ => t end) ks t) = Fine ->
  forall x, In x ks -> alive c t x = true.
Proof.
  assert (S : forall ks t, n_health (fold_left (fun t q => match n_health t with Fine => shutdown_fuel f c q t | _ => t end) ks t) = Fine -> n_health t = Fine).
  { induction ks0 as [|k ks0 IH]; intros t; cbn; [auto|]. intros H. apply IH in H. destruct (n_health t) eqn:Ht; [reflexivity|congruence..]. }
  induction ks as [|k ks IH]; intros t; cbn; [tauto|]. intros H x I. pose proof (S _ _ H) as H1.
  destruct (n_health t) eqn:Ht; [|congruence..]. destruct I as [->|I]; [eapply shutdown_alive; eauto|].
  specialize (IH _ H x I). eapply alive_sub; [|exact IH]. apply shutdown_sub.
Qed.

Lemma shutdown_kids c f p s : n_health (shutdown_fuel f c p s) = Fine -> forall x, In (p, x) (n_map s) -> alive c s x = true.
Proof.
  destruct f as [|f]; cbn [shutdown_fuel]; [discriminate|]. intros H x I.
  set (s1 := set_map (filter (fun e => negb (fst e =? p)) (n_map s)) s) in *.
  assert (J : In x (map snd (filter (fun e : nat * nat => fst e =? p) (n_map s)))).
  { apply in_map_iff. exists (p, x). split; [reflexivity|]. apply filter_In. cbn. rewrite Nat.eqb_refl. auto. }
  set (kids := map snd _) in *. 
  change (alive c s x) with (alive c s1 x). eapply fold_fine; [|exact J].
  set (s2 := fold_left _ kids s1) in *. destruct (n_health s2) eqn:H2; [exact H2 | congruence..].
Qed.

(** Registrations with other peers are kept, also the ones of peers which have been deleted. *)
Lemma shutdown_keep c f : forall p s, (forall q x, In (q, x) (n_map s) -> q < x) ->
  forall q x, q < p -> In (q, x) (n_map s) -> In (q, x) (n_map (shutdown_fuel f c p s)).
Proof.
  induction f as [|f IH]; intros p s W q x L I; cbn [shutdown_fuel]; [exact I|].
  set (s1 := set_map (filter (fun e => negb (fst e =? p)) (n_map s)) s). 
  set (kids := map snd _). set (s2 := fold_left _ kids s1).
  assert (A : (forall a b, In (a, b) (n_map s2) -> a < b) /\ In (q, x) (n_map s2)).
  { unfold s2. apply (fold_inv _ (fun u => (forall a b, In (a, b) (n_map u) -> a < b) /\ In (q, x) (n_map u))).
    - intros u k K [X Y]. destruct (n_health u); [|auto..]. split.
      + intros a b J. apply X. now apply (shutdown_sub c f k u) in J.
      + apply IH; auto. unfold kids in K. apply in_map_iff in K. destruct K as ([a b] & <- & K). apply filter_In in K.
        destruct K as [K E]. cbn in E. apply Nat.eqb_eq in E. subst a. apply W in K. cbn. lia.
    - split; [intros a b J; apply filter_In in J; apply W; tauto|]. apply filter_In. cbn. split; [exact I|].
      apply negb_true_iff, Nat.eqb_neq. lia. }
  destruct A as [_ A]. clearbody s2. destruct (n_health s2); [|auto..]. destruct (negb _); [exact A|].
  destruct (notify_same c p s2) as (m1 & m2 & m3 & m4 & m5 & m6 & m7).
  destruct (n_health (notify c p s2)); cbn; rewrite m6; exact A.
Qed.
