(** The network of ProxyModel.v: all participants talk through the registry. *)
From Coq Require Import List Arith Bool Lia.
From Verif Require Import Base ProxyModel ProxyProofs.
Import ListNotations.

(** The user messages handed over for [n] / received from [n] of simulation [sim], in the events of a participant. *)
Definition calls (sim n : nat) (es : list ev) : list nat :=
  flat_map (fun e => match e with ECall _ k x => if keqb k (sim, n) then [x] else [] | _ => [] end) es.
Definition got (sim n : nat) (es : list ev) : list nat :=
  flat_map (fun e => match e with EUser _ k x => if keqb k (sim, n) then [x] else [] | _ => [] end) es.

(** Payloads of the proxy messages from [a] to [b]. *)
Definition pls (a b : nat) (l : list msg) : list (option msg) :=
  flat_map (fun m => match m with MProxy _ a' b' pl => if (a' =? a) && (b' =? b) then [pl] else [] | _ => [] end) l.
Definition sentp (a b : nat) (es : list ev) : list (option msg) := pls a b (sent_to 0 es).
(** What was received from [a], as payloads. *)
Definition recd (sim a : nat) (es : list ev) : list (option msg) :=
  flat_map (fun e => match e with
                     | EAnn _ s n => if keqb (s, n) (sim, a) then [Some (MAnn s n)] else []
                     | EReply _ k ok => if keqb k (sim, a) then [Some (MReply ok)] else []
                     | EUser _ k x => if keqb k (sim, a) then [Some (MUser x)] else []
                     | EGone _ k => if keqb k (sim, a) then [None] else []
                     | _ => []
                     end) es.
Definition users (l : list (option msg)) : list nat :=
  flat_map (fun x => match x with Some (MUser x) => [x] | _ => [] end) l.

Lemma pls_app a b x y : pls a b (x ++ y) = pls a b x ++ pls a b y.
Proof. apply flat_map_app. Qed.
Lemma sent_to_app k x y : sent_to k (x ++ y) = sent_to k x ++ sent_to k y.
Proof. apply flat_map_app. Qed.
Lemma sentp_app a b x y : sentp a b (x ++ y) = sentp a b x ++ sentp a b y.
Proof. unfold sentp. now rewrite sent_to_app, pls_app. Qed.
Lemma recd_app s a x y : recd s a (x ++ y) = recd s a x ++ recd s a y.
Proof. apply flat_map_app. Qed.
Lemma users_app x y : users (x ++ y) = users x ++ users y.
Proof. apply flat_map_app. Qed.
Lemma calls_app s a x y : calls s a (x ++ y) = calls s a x ++ calls s a y.
Proof. apply flat_map_app. Qed.
Lemma got_app s a x y : got s a (x ++ y) = got s a x ++ got s a y.
Proof. apply flat_map_app. Qed.
Lemma users_recd s a l : users (recd s a l) = got s a l.
Proof.
  induction l as [|e l IH]; [reflexivity|].
  change (e :: l) with ([e] ++ l). rewrite recd_app, users_app, got_app, IH. f_equal.
  destruct e; cbn; try destruct (keqb _ _); reflexivity.
Qed.

Lemma find_app k l k' p : find k (l ++ [(k', p)]) =
  match find k l with Some q => Some q | None => if keqb k k' then Some p else None end.
Proof. induction l as [|[k0 q] l IH]; cbn; [reflexivity|]. destruct (keqb k k0); auto. Qed.
Lemma find_erase k k' l : find k (erase k' l) = if keqb k' k then None else find k l.
Proof.
  unfold erase. induction l as [|[k0 q] l IH]; cbn; [now destruct (keqb k' k)|].
  destruct (keqb k' k0) eqn:E; cbn.
  - rewrite IH. destruct (keqb k' k) eqn:E'; [reflexivity|]. destruct (keqb k k0) eqn:E''; [|reflexivity].
    apply keqb_eq in E, E''. subst. now rewrite keqb_refl in E'.
  - destruct (keqb k k0) eqn:E''; [|exact IH]. apply keqb_eq in E''. subst. now rewrite E.
Qed.

#[global] Arguments erase : simpl never.

Lemma associate_out k p e s : associate k p (out e s) = out e (associate k p s).
Proof. unfold associate. change (n_names (out e s)) with (n_names s). destruct (find k (n_names s)); reflexivity. Qed.
Lemma associate_log k p s : n_log (associate k p s) = n_log s.
Proof. unfold associate. destruct (find k (n_names s)); reflexivity. Qed.

Definition knows (sim : nat) (s : node) (a : nat) : Prop := exists p, find (sim, a) (n_names s) = Some p.
Lemma knows_dec sim s a : {knows sim s a} + {~ knows sim s a}.
Proof. unfold knows. destruct (find _ _) eqn:E; [left; eauto | right; intros (p & H); discriminate]. Qed.

Definition plain (sim a : nat) (m : msg) : Prop := m = MAnn sim a \/ (exists ok, m = MReply ok) \/ (exists x, m = MUser x).

(** A participant [n] of this network, which is connected to the registry [h] only. *)
Record LI (sim h n : nat) (s : node) : Prop := {
  l_fine : n_health s = Fine;
  l_via0 : n_via s 0 = None;
  l_info0 : n_info s 0 = (0, h);
  l_next : 0 < n_next s;
  l_peers : forall p, In p (n_peers s) -> 0 < p /\ p < n_next s;
  l_names : forall k p, find k (n_names s) = Some p ->
              exists a, k = (sim, a) /\ a <> n /\ n_info s p = (sim, a) /\ In p (n_peers s) /\ n_via s p = Some 0;
  l_map : forall q p, In (q, p) (n_map s) -> q = 0;
  l_dests : n_dests s = [] }.

Section Leaf.
Variables sim h n : nat.
Notation lc := (leaf_cfg sim n).
Notation LI := (LI sim h n).
Notation knows := (knows sim).

Lemma alive0 s : alive lc s 0 = true.
Proof. unfold alive. cbn. apply orb_true_r. Qed.
Lemma alive_peer c s p : In p (n_peers s) -> alive c s p = true.
Proof. intros I. unfold alive. apply mem_In in I. now rewrite I. Qed.

(** A message to a peer reached through the registry. *)
Lemma send_proxied s p a m : n_via s 0 = None -> n_info s p = (sim, a) -> In p (n_peers s) -> n_via s p = Some 0 ->
  0 < p -> send lc p m s = out [ESend 0 (MProxy 0 n a (Some m))] s.
Proof.
  intros V0 I P V L. unfold send. cbn [send_fuel]. rewrite (alive_peer lc s p P), V, I. cbn [negb].
  destruct p as [|p]; [lia|]. cbn [send_fuel]. rewrite alive0, V0. reflexivity.
Qed.

Lemma knows_peer s a p : LI s -> find (sim, a) (n_names s) = Some p ->
  a <> n /\ n_info s p = (sim, a) /\ In p (n_peers s) /\ n_via s p = Some 0 /\ 0 < p.
Proof.
  intros L F. destruct (l_names _ _ _ _ L _ _ F) as (a' & [= <-] & N & I & P & V). spl; auto. now apply (l_peers _ _ _ _ L).
Qed.

Lemma out_LI e s : LI s -> LI (out e s).
Proof. intros L. destruct L. constructor; auto. Qed.
Lemma clear_LI s : LI s -> LI (clear s).
Proof. intros L. destruct L. constructor; auto. Qed.

(** Messages not concerning the peers. *)
Lemma leaf_hub_reply s ok : LI s ->
  let t := nstep lc (NData 0 (MReply ok)) s in
  LI t /\ n_names t = n_names s /\ n_log t = [EReply 0 (0, h) ok].
Proof.
  intros L. assert (L' := clear_LI s L). unfold nstep. rewrite (l_fine _ _ _ _ L').
  unfold real. rewrite (l_via0 _ _ _ _ L'), alive0. cbn [andb recv].
  rewrite (l_fine _ _ _ _ L'), alive0. cbn [negb]. cbn [n_health out]. rewrite (l_fine _ _ _ _ L').
  rewrite (same_alive lc (clear s)) by apply same_out. rewrite alive0. spl; [now apply out_LI | reflexivity |].
  rewrite (l_info0 _ _ _ _ L'). reflexivity.
Qed.

Lemma leaf_send s a p x : LI s -> find (sim, a) (n_names s) = Some p ->
  let t := nstep lc (NSend p x) s in
  LI t /\ n_names t = n_names s /\ n_log t = [ECall p (sim, a) x; ESend 0 (MProxy 0 n a (Some (MUser x)))].
Proof.
  intros L F. assert (L' := clear_LI s L). unfold nstep. rewrite (l_fine _ _ _ _ L').
  destruct (knows_peer _ a p L' F) as (N & I & P & V & Z).
  rewrite (alive_peer lc (clear s) p P). rewrite (send_proxied _ p a); auto.
  - spl; [now apply out_LI, out_LI | reflexivity |]. cbn. change (n_info s p) with (n_info (clear s) p). now rewrite I.
  - apply (l_via0 _ _ _ _ L').
Qed.

(** A new proxy peer. *)
Lemma add_LI s k : LI s -> LI (add_peer (Some 0) k s).
Proof.
  intros L. pose proof (l_next _ _ _ _ L) as Nx. constructor; cbn; try lia; try apply (l_fine _ _ _ _ L); try apply (l_dests _ _ _ _ L).
  - destruct (n_next s) eqn:E; [lia|]. apply (l_via0 _ _ _ _ L).
  - destruct (n_next s) eqn:E; [lia|]. apply (l_info0 _ _ _ _ L).
  - intros p I. apply in_app_or in I. destruct I as [I|[<-|[]]]; [apply (l_peers _ _ _ _ L) in I; lia | lia].
  - intros k0 p F. destruct (l_names _ _ _ _ L _ _ F) as (a & -> & N & I & P & V). exists a.
    destruct (l_peers _ _ _ _ L _ P) as [_ X]. destruct (p =? n_next s) eqn:E; [apply Nat.eqb_eq in E; lia|].
    spl; auto. apply in_or_app. now left.
  - intros q p I. apply in_app_or in I. destruct I as [I|[[= <- _]|[]]]; [now apply (l_map _ _ _ _ L) in I | reflexivity].
Qed.

(** Giving names to a peer which has none and entering it. *)
Lemma name_LI s p a : LI s -> ~ knows s a -> a <> n -> In p (n_peers s) -> n_via s p = Some 0 ->
  (forall k, find k (n_names s) <> Some p) ->
  LI (associate (sim, a) p (set_info p (sim, a) s)) /\
  (forall b, knows (associate (sim, a) p (set_info p (sim, a) s)) b <-> knows s b \/ b = a) /\
  find (sim, a) (n_names (associate (sim, a) p (set_info p (sim, a) s))) = Some p.
Proof.
  intros L K N P V NF.
  assert (F : find (sim, a) (n_names s) = None).
  { destruct (find _ _) eqn:E; [|reflexivity]. exfalso. apply K. eexists. exact E. }
  unfold associate. cbn [n_names set_info]. rewrite F.
  assert (E : find (sim, a) (n_names s ++ [((sim, a), p)]) = Some p).
  { now rewrite find_app, F, keqb_refl. }
  destruct (l_peers _ _ _ _ L _ P) as [Zp _].
  spl.
  - destruct L. constructor; cbn; auto.
    + destruct p; [lia|]. auto.
    + intros k q Fk. rewrite find_app in Fk. destruct (find k (n_names s)) as [q'|] eqn:Fq.
      * injection Fk as ->. destruct (l_names0 _ _ Fq) as (a' & -> & N' & I' & P' & V').
        exists a'. assert (q <> p) by (intros ->; exact (NF _ Fq)). apply Nat.eqb_neq in H. rewrite H. auto.
      * destruct (keqb k (sim, a)) eqn:Ek; [|discriminate]. injection Fk as <-. apply keqb_eq in Ek. subst k.
        exists a. rewrite Nat.eqb_refl. auto.
  - intros b. unfold ProxyNet.knows. cbn. split.
    + intros (q & Q). rewrite find_app in Q. destruct (find (sim, b) (n_names s)) as [q'|] eqn:Fq; [left; eauto|].
      right. destruct (keqb (sim, b) (sim, a)) eqn:Ek; [|discriminate]. apply keqb_eq in Ek. now injection Ek.
    + intros [(q & Q)| ->]; [|eauto]. exists q. now rewrite find_app, Q.
  - exact E.
Qed.

Lemma fresh_unnamed s : LI s -> forall k, find k (n_names s) <> Some (n_next s).
Proof.
  intros L k F. destruct (l_names _ _ _ _ L _ _ F) as (a & _ & _ & _ & P & _). apply (l_peers _ _ _ _ L) in P. lia.
Qed.

Lemma leaf_connect s a : LI s -> ~ knows s a -> a <> n ->
  let t := nstep lc (NProxy a true) s in
  LI t /\ (forall b, knows t b <-> knows s b \/ b = a) /\ n_log t = [ESend 0 (MProxy 0 n a (Some (MAnn sim n)))].
Proof.
  intros L K N. assert (L' := clear_LI s L). unfold nstep. rewrite (l_fine _ _ _ _ L').
  cbn [leaf_cfg c_any c_cap negb andb]. unfold handle_connected. cbn [leaf_cfg c_sim c_me].
  set (s1 := add_peer (Some 0) (0, a) (clear s)). set (p := n_next (clear s)).
  assert (I1 : n_info s1 p = (0, a)) by (unfold s1, p; cbn; now rewrite Nat.eqb_refl). rewrite I1. cbn [snd].
  assert (L1 : LI s1) by now apply add_LI.
  assert (P1 : In p (n_peers s1)) by (unfold s1, p; cbn; apply in_or_app; right; now left).
  assert (V1 : n_via s1 p = Some 0) by (unfold s1, p; cbn; now rewrite Nat.eqb_refl).
  assert (Zp : 0 < p) by apply L'.
  assert (S : send lc p (MAnn sim n) (set_info p (sim, a) s1) =
              out [ESend 0 (MProxy 0 n a (Some (MAnn sim n)))] (set_info p (sim, a) s1)).
  { apply send_proxied; auto.
    - apply (l_via0 _ _ _ _ L1).
    - cbn. now rewrite Nat.eqb_refl. }
  change (mkCfg n sim false true) with lc. rewrite S.
  assert (F1 : forall k, find k (n_names s1) <> Some p) by exact (fresh_unnamed (clear s) L').
  destruct (name_LI s1 p a L1 K N P1 V1 F1) as (A & B & C).
  assert (C1 : associate (sim, a) p (out [ESend 0 (MProxy 0 n a (Some (MAnn sim n)))] (set_info p (sim, a) s1)) =
               out [ESend 0 (MProxy 0 n a (Some (MAnn sim n)))] (associate (sim, a) p (set_info p (sim, a) s1))).
  { apply associate_out. }
  rewrite C1. spl.
  - now apply out_LI.
  - exact B.
  - cbn. now rewrite associate_log.
Qed.

(** The event telling that [m] was received from [a]. *)
Definition event_of (p a : nat) (m : msg) : list ev :=
  match m with
  | MAnn s x => [EAnn p s x; ESend 0 (MProxy 0 n a (Some (MReply true)))]
  | MReply ok => [EReply p (sim, a) ok]
  | MUser x => [EUser p (sim, a) x]
  | MProxy _ _ _ _ => []
  end.

Lemma recv_plain s p a m : LI s -> find (sim, a) (n_names s) = Some p -> plain sim a m ->
  let t := recv lc m p s in
  LI t /\ (forall b, knows t b <-> knows s b) /\ n_log t = n_log s ++ event_of p a m.
Proof.
  intros L F Pm. destruct (knows_peer s a p L F) as (N & I & P & V & Z).
  assert (A : alive lc s p = true) by now apply alive_peer.
  destruct Pm as [-> |[(ok & ->)|(x & ->)]]; cbn [recv]; rewrite (l_fine _ _ _ _ L), A; cbn [negb].
  - unfold announce. cbn [leaf_cfg c_any c_sim negb andb]. rewrite Nat.eqb_refl. cbn [negb].
    change (mkCfg n sim false true) with lc.
    unfold associate. cbn [out set_info n_names]. rewrite F.
    rewrite (send_proxied _ p a); cbn; auto; [| apply L | now rewrite Nat.eqb_refl].
    spl.
    + apply out_LI. destruct L. constructor; cbn; auto.
      * destruct p; [lia|]. auto.
      * intros k q Fk. destruct (l_names0 _ _ Fk) as (a' & -> & N' & I' & P' & V'). exists a'. spl; auto.
        destruct (q =? p) eqn:E; [|auto]. apply Nat.eqb_eq in E. subst. congruence.
    + tauto.
    + now rewrite <- app_assoc.
  - spl; [now apply out_LI | tauto | cbn; now rewrite I].
  - spl; [now apply out_LI | tauto | cbn; now rewrite I].
Qed.

Lemma recv_first s p a : LI s -> ~ knows s a -> a <> n -> In p (n_peers s) -> n_via s p = Some 0 ->
  (forall k, find k (n_names s) <> Some p) ->
  let t := recv lc (MAnn sim a) p s in
  LI t /\ (forall b, knows t b <-> knows s b \/ b = a) /\ n_log t = n_log s ++ event_of p a (MAnn sim a).
Proof.
  intros L K N P V NF. assert (A : alive lc s p = true) by now apply alive_peer.
  cbn [recv]; rewrite (l_fine _ _ _ _ L), A; cbn [negb].
  unfold announce. cbn [leaf_cfg c_any c_sim negb andb]. rewrite Nat.eqb_refl. cbn [negb].
  change (mkCfg n sim false true) with lc.
  destruct (name_LI s p a L K N P V NF) as (B & C & D).
  assert (E : associate (sim, a) p (out [EAnn p sim a] (set_info p (sim, a) s)) =
              out [EAnn p sim a] (associate (sim, a) p (set_info p (sim, a) s))).
  { apply associate_out. }
  rewrite E. destruct (l_peers _ _ _ _ L _ P) as [Zp _].
  set (s1 := associate (sim, a) p (set_info p (sim, a) s)) in *.
  destruct (knows_peer s1 a p B D) as (N1 & I1 & P1 & V1 & Z1).
  rewrite (send_proxied _ p a); auto; [| apply B].
  spl.
  - now apply out_LI, out_LI.
  - exact C.
  - cbn. rewrite <- app_assoc. f_equal. unfold s1. now rewrite associate_log.
Qed.

(** A proxy message from [a]. *)
Lemma leaf_recv s a m : LI s -> a <> n -> a <> h -> plain sim a m -> knows s a \/ m = MAnn sim a ->
  let t := nstep lc (NData 0 (MProxy 0 a n (Some m))) s in
  LI t /\ (forall b, knows t b <-> knows s b \/ b = a) /\ exists p, n_log t = event_of p a m.
Proof.
  intros L N Nh Pm K. assert (L' := clear_LI s L). unfold nstep. rewrite (l_fine _ _ _ _ L').
  unfold real. rewrite (l_via0 _ _ _ _ L'), alive0. cbn [andb]. 
  assert (R : recv lc (MProxy 0 a n (Some m)) 0 (clear s) =
              let (p, s1) := match find (sim, a) (n_names (clear s)) with
                             | Some p => (p, clear s)
                             | None => (n_next (clear s), add_peer (Some 0) (0, 0) (clear s))
                             end in recv lc m p s1).
  { cbn [recv]. rewrite (l_fine _ _ _ _ L'), alive0. cbn [negb leaf_cfg c_cap c_me c_sim Nat.eqb]. rewrite (l_info0 _ _ _ _ L'). cbn [snd].
    apply Nat.neq_sym, Nat.eqb_neq in Nh. rewrite Nh, Nat.eqb_refl. reflexivity. }
  rewrite R. destruct (find (sim, a) (n_names (clear s))) as [p|] eqn:F.
  - destruct (recv_plain (clear s) p a m L' F Pm) as (A & B & C).
    rewrite (l_fine _ _ _ _ A), alive0. spl; [exact A | | exists p; now rewrite C].
    intros b. rewrite B. split; [auto|]. intros [X| ->]; [exact X|]. exists p. exact F.
  - assert (NK : ~ knows s a) by (intros (p & X); change (n_names (clear s)) with (n_names s) in F; congruence).
    destruct K as [K| ->]; [contradiction|].
    destruct (recv_first (add_peer (Some 0) (0, 0) (clear s)) (n_next (clear s)) a) as (A & B & C); auto.
    + now apply add_LI.
    + cbn. apply in_or_app. right. now left.
    + cbn. now rewrite Nat.eqb_refl.
    + exact (fresh_unnamed (clear s) L').
    + rewrite (l_fine _ _ _ _ A), alive0. spl; [exact A | exact B |]. exists (n_next (clear s)). now rewrite C.
Qed.

Lemma leaf_end s a : LI s -> a <> n -> a <> h -> knows s a ->
  let t := nstep lc (NData 0 (MProxy 0 a n None)) s in
  LI t /\ (forall b, knows t b <-> knows s b /\ b <> a) /\ exists p, n_log t = [EGone p (sim, a)].
Proof.
  intros L N Nh (p & F). assert (L' := clear_LI s L). unfold nstep. rewrite (l_fine _ _ _ _ L').
  unfold real. rewrite (l_via0 _ _ _ _ L'), alive0. cbn [andb].
  assert (R : recv lc (MProxy 0 a n None) 0 (clear s) = shutdown lc p (clear s)).
  { cbn [recv]. rewrite (l_fine _ _ _ _ L'), alive0. cbn [negb leaf_cfg c_cap c_me c_sim Nat.eqb]. rewrite (l_info0 _ _ _ _ L'). cbn [snd].
    apply Nat.neq_sym, Nat.eqb_neq in Nh. rewrite Nh, Nat.eqb_refl. change (n_names (clear s)) with (n_names s). rewrite F. reflexivity. }
  rewrite R. clear R. set (u := clear s) in *.
  destruct (knows_peer u a p L' F) as (_ & I & P & V & Z).
  assert (E : shutdown lc p u =
     set_peers (filter (fun q => negb (q =? p)) (n_peers u))
       (set_names (erase (sim, a) (n_names u)) (out [EGone p (sim, a)] (set_map (filter (fun e => negb (fst e =? p)) (n_map u)) u)))).
  { unfold shutdown. cbn [shutdown_fuel].
    assert (X : filter (fun e : nat * nat => fst e =? p) (n_map u) = []).
    { assert (M := l_map _ _ _ _ L'). revert M. generalize (n_map u). intros l M. induction l as [|[q x] l IH]; [reflexivity|].
      cbn. rewrite (M q x) by now left. destruct p; [lia|]. cbn. apply IH. intros q' x' J. apply (M q' x'). now right. }
    rewrite X. cbn [map fold_left].
    set (u1 := set_map _ u). change (n_health u1) with (n_health u). rewrite (l_fine _ _ _ _ L').
    assert (A1 : alive lc u1 p = true) by now apply alive_peer. rewrite A1. cbn [negb].
    assert (N1 : notify lc p u1 = u1).
    { unfold notify. change (n_dests u1) with (n_dests u). rewrite (l_dests _ _ _ _ L'). reflexivity. }
    rewrite N1. change (n_health u1) with (n_health u). rewrite (l_fine _ _ _ _ L'). cbn [n_info out]. change (n_info u1 p) with (n_info u p). rewrite I. reflexivity. }
  rewrite E. cbn [n_health set_peers set_names out set_map]. rewrite (l_fine _ _ _ _ L'), alive0.
  spl; [| | exists p; reflexivity].
  - destruct L'. constructor; cbn; auto.
    + intros x J. apply filter_In in J. now apply l_peers0.
    + intros k q Fk. rewrite find_erase in Fk. destruct (keqb (sim, a) k) eqn:Ek; [discriminate|].
      destruct (l_names0 _ _ Fk) as (a' & -> & N' & I' & P' & V'). exists a'. spl; auto.
      apply filter_In. split; [exact P'|]. apply negb_true_iff, Nat.eqb_neq. intros ->.
      rewrite I in I'. injection I' as <-. now rewrite keqb_refl in Ek.
    + intros q x J. apply filter_In in J. now apply (l_map0 q x).
  - intros b. unfold ProxyNet.knows. cbn. split.
    + intros (q & Q). rewrite find_erase in Q. destruct (keqb (sim, a) (sim, b)) eqn:Ek; [discriminate|].
      split; [now exists q|]. intros ->. now rewrite keqb_refl in Ek.
    + intros ((q & Q) & Nb). exists q. rewrite find_erase, keqb_neq; [exact Q|]. congruence.
Qed.

Lemma leaf_hello : n <> h ->
  let t := nstep lc NHello (node0 lc h) in
  LI t /\ (forall b, ~ knows t b) /\ n_log t = [ESend 0 (MAnn sim n)].
Proof.
  intros N. cbn. spl; [|intros b (p & F); discriminate | reflexivity].
  constructor; cbn; auto; try lia; try (intros; contradiction). discriminate.
Qed.
End Leaf.
