(** What a LIN controller is configured with follows from the history of its functions. *)
From Coq Require Import NArith List Arith Bool Lia.
From Verif Require Import Base LinModel LinProofs LinNet LinSleep.
Import ListNotations.
Open Scope N_scope.

(** ** The configuration after a history
    [g_mode] is Inactive as long as the controller is not initialised.  [g_peers]: what the other nodes announced last, latest first;
    [g_known]: the ids that slaves announced to transmit. *)
Record cfg := mkG { g_mode : cmode; g_dyn : bool; g_tab : N -> response; g_peers : list (N * (cmode * bool)); g_known : list N }.
Definition cfg0 : cfg := mkG Inactive false (fun _ => response0) [] [].
Definition peer (a : N) (l : list (N * (cmode * bool))) : cmode * bool :=
  match find (fun x => fst x =? a) l with Some (_, x) => x | None => (Inactive, false) end.
Definition tx_ids (rs : list response) : list N := map (fun r => f_id (r_frame r)) (filter (fun r => rmode_eqb (r_mode r) RTx) rs).
Definition hear (l : list (N * (cmode * bool))) (k : list N) (g : cfg) : cfg := mkG (g_mode g) (g_dyn g) (g_tab g) l k.
(** a slave may answer the id *)
Definition answerable (id : N) (g : cfg) : bool :=
  existsb (fun x => x =? id) (g_known g) || existsb (fun x => snd (peer (fst x) (g_peers g))) (g_peers g).
Definition at_id (id : N) (r : response) (t : N -> response) : N -> response := fun i => if i =? id then r else t i.
Definition with_tab (t : N -> response) (g : cfg) : cfg := mkG (g_mode g) (g_dyn g) t (g_peers g) (g_known g).
Definition is_init (g : cfg) : bool := negb (cmode_eqb (g_mode g) Inactive).
Definition cfg_op (a : N) (g : cfg) (o : lop) : cfg :=
  match o with
  | LInit m rs => if is_init g || cmode_eqb m Inactive then g else
      mkG m (g_dyn g) (fold_left (fun t r => at_id (f_id (r_frame r)) r t) rs (g_tab g)) (g_peers g) (g_known g)
  | LInitDynamic m => if is_init g || cmode_eqb m Inactive then g else mkG m true (g_tab g) (g_peers g) (g_known g)
  | LDynamicResponse f => with_tab (at_id (f_id f) (mkR f RTx) (g_tab g)) g
  | LSendFrame f MasterResponse =>
      if cmode_eqb (g_mode g) Master && negb (g_dyn g) then with_tab (at_id (f_id f) (mkR f RTx) (g_tab g)) g else g
  | LSendFrame f SlaveResponse =>
      if cmode_eqb (g_mode g) Master && negb (g_dyn g) && answerable (f_id f) g && rmode_eqb (r_mode (g_tab g (f_id f))) RUnused
      then with_tab (at_id (f_id f) (mkR f RRx) (g_tab g)) g else g
  | LReceive from _ (MConfig m d rs) => if from =? a then g else
      hear ((from, (m, d)) :: g_peers g) (if cmode_eqb m Slave then g_known g ++ tx_ids rs else g_known g) g
  | LReceive from _ (MResponses rs) => if from =? a then g else
      hear (g_peers g) (if cmode_eqb (fst (peer from (g_peers g))) Slave then g_known g ++ tx_ids rs else g_known g) g
  | LUpdateTx f =>
      let r := g_tab g (f_id f) in
      if is_init g && negb (g_dyn g) && rmode_eqb (r_mode r) RTx
      then with_tab (at_id (f_id f) (mkR (mkF (f_id (r_frame r)) (f_csm (r_frame r)) (f_len (r_frame r)) (f_data f)) RTx) (g_tab g)) g else g
  | LSetResponse r =>
      if is_init g && negb (g_dyn g) && (f_id (r_frame r) <? 64) && negb (rmode_eqb (r_mode r) RUnused) &&
         rmode_eqb (r_mode (g_tab g (f_id (r_frame r)))) RUnused
      then with_tab (at_id (f_id (r_frame r)) r (g_tab g)) g else g
  | _ => g
  end.
Definition configured (a : N) (l : list lop) : cfg := fold_left (cfg_op a) l cfg0.

(** ** Nodes *)
Lemma find_put' a x l : find_node a (put_node x l) = if a =? nd_addr x then Some x else find_node a l.
Proof.
  induction l as [|n l IH]; cbn [put_node find_node].
  - destruct (nd_addr x <? a) eqn:A; destruct (nd_addr x =? a) eqn:B; destruct (a =? nd_addr x) eqn:C; try reflexivity; lia.
  - destruct (nd_addr n <? nd_addr x) eqn:A.
    + cbn [find_node]. rewrite IH. destruct (nd_addr n <? a) eqn:B; destruct (nd_addr n =? a) eqn:C; destruct (a =? nd_addr x) eqn:D; try reflexivity; lia.
    + destruct (nd_addr n =? nd_addr x) eqn:B; cbn [find_node].
      * destruct (nd_addr x <? a) eqn:C; destruct (nd_addr x =? a) eqn:D; destruct (nd_addr n <? a) eqn:E; destruct (nd_addr n =? a) eqn:F; destruct (a =? nd_addr x) eqn:G; try reflexivity; lia.
      * destruct (nd_addr x <? a) eqn:C; destruct (nd_addr x =? a) eqn:D; destruct (nd_addr n <? a) eqn:E; destruct (nd_addr n =? a) eqn:F; destruct (a =? nd_addr x) eqn:G; try reflexivity; lia.
Qed.
Lemma get_set' a x c : get_node a (set_node x c) = if a =? nd_addr x then x else get_node a c.
Proof. unfold get_node. cbn [set_node set_nodes c_nodes]. rewrite find_put'. destruct (a =? nd_addr x); reflexivity. Qed.
Lemma this_set x c : nd_addr x = c_self c -> this_node (set_node x c) = x.
Proof. intros H. unfold this_node. change (c_self (set_node x c)) with (c_self c). rewrite get_set', H, N.eqb_refl. reflexivity. Qed.

Lemma len64 (t : list response) (u : N -> response) : (forall id, id < 64 -> nth_error t (N.to_nat id) = Some (u id)) -> (64 <= length t)%nat.
Proof. intros H. specialize (H 63 ltac:(lia)). assert (nth_error t (N.to_nat 63) <> None) by congruence. apply nth_error_Some in H0. lia. Qed.
Definition tab_ok (t : list response) (u : N -> response) : Prop := forall id, id < 64 -> nth_error t (N.to_nat id) = Some (u id).
Lemma tab_set t u id r : tab_ok t u -> tab_ok (set_nth (N.to_nat id) r t) (at_id id r u).
Proof.
  intros H i Hi. rewrite set_nth_get. unfold at_id. pose proof (len64 t u H).
  destruct (i =? id) eqn:E.
  - replace (N.to_nat i =? N.to_nat id)%nat with true by lia. replace (N.to_nat id <? length t)%nat with true by lia. reflexivity.
  - replace (N.to_nat i =? N.to_nat id)%nat with false by lia. cbn. auto.
Qed.
Lemma tab_big t u id r : tab_ok t u -> 64 <= id -> tab_ok t (at_id id r u).
Proof. intros H K i Hi. unfold at_id. replace (i =? id) with false by lia. auto. Qed.
Lemma tab_update rs : forall t u, tab_ok t u -> tab_ok (update_responses rs t) (fold_left (fun t r => at_id (f_id (r_frame r)) r t) rs u).
Proof.
  induction rs as [|r rs IH]; intros t u H; cbn [update_responses fold_left]; auto. apply IH. destruct (_ <=? _) eqn:E; [|now apply tab_set].
  pose proof (len64 t u H). apply tab_big; auto. lia.
Qed.

Record Rep (a : N) (c : ctrl) (g : cfg) : Prop := {
  p_self : c_self c = a; p_mode : c_mode c = g_mode g; p_init : unk c = negb (is_init g); p_dyn : c_dynamic c = g_dyn g;
  p_ndyn : nd_dyn (this_node c) = g_dyn g; p_nmode : nd_mode (this_node c) = g_mode g; p_tab : tab_ok (nd_resp (this_node c)) (g_tab g) }.
Lemma rep0 a : Rep a (ctrl0 a) cfg0.
Proof.
  constructor; try reflexivity. intros id Hid. unfold this_node, get_node. cbn [c_nodes ctrl0 find_node].
  change (nd_resp (node0 (c_self (ctrl0 a)))) with (repeat response0 64). cbn [g_tab cfg0]. rewrite nth_error_repeat; [reflexivity|lia].
Qed.
Lemma p_at a c g id : Rep a c g -> id < 64 -> resp_at id (this_node c) = Some (g_tab g id).
Proof. intros H K. unfold resp_at. replace (id <? 64) with true by lia. now apply (p_tab _ _ _ H). Qed.

(** ** Actions that do not change the state *)
Definition same (a : act) : Prop := forall c, fst (fst (a c)) = c.
Lemma same_seq a b : same a -> same b -> same (a ;; b).
Proof.
  intros A B c. unfold seq. specialize (A c). destruct (a c) as [[c1 o1] r]. cbn in A. subst. destruct r; auto.
  specialize (B c). destruct (b c) as [[c2 o2] r]. exact B.
Qed.
Lemma same_get f : (forall c, same (f c)) -> same (get f). Proof. intros H c. apply H. Qed.
Lemma same_catch a : same a -> same (catch a).
Proof. intros H c. unfold catch. specialize (H c). destruct (a c) as [[c1 o] r]. cbn in H. subst. destruct r; reflexivity. Qed.
Lemma same_skip : same skip. Proof. easy. Qed.
Lemma same_emit o : same (emit o). Proof. easy. Qed.
Lemma same_throw : same throw. Proof. easy. Qed.
Lemma same_ub : same ub. Proof. easy. Qed.
Ltac s1 := lazymatch goal with
  | |- same skip => exact same_skip | |- same (emit _) => apply same_emit | |- same throw => exact same_throw | |- same ub => exact same_ub
  | |- same (seq _ _) => apply same_seq | |- same (get _) => apply same_get; intros ?; cbv beta | |- same (catch _) => apply same_catch
  | |- same (if ?b then _ else _) => destruct b
  | |- same (match ?b with _ => _ end) => destruct b
  end.
Lemma same_process id : same (process_header id). Proof. unfold process_header. repeat s1. Qed.
Lemma same_receive_header al id : same (receive_header al id). Proof. unfold receive_header. repeat s1. apply same_process. Qed.
Lemma same_send_header id : same (send_header id). Proof. unfold send_header, send_error_transmission. repeat s1. apply same_receive_header. Qed.
Lemma same_sfh id : same (send_frame_header id). Proof. unfold send_frame_header. repeat s1. apply same_send_header. Qed.
Lemma same_request f t : same (send_request f t). Proof. unfold send_request. repeat s1; apply same_sfh. Qed.
Lemma same_slave m : same (send_if_slave m). Proof. unfold send_if_slave. repeat s1. Qed.
Lemma seq_same a b c : same b -> fst (fst ((a ;; b) c)) = fst (fst (a c)).
Proof.
  intros H. unfold seq. destruct (a c) as [[c1 o1] r]. destruct r; auto. specialize (H c1). destruct (b c1) as [[c2 o2] r2]. exact H.
Qed.
Lemma same_seq_l a b c : same a -> fst (fst ((a ;; b) c)) = c \/ fst (fst ((a ;; b) c)) = fst (fst (b c)).
Proof.
  intros H. unfold seq. specialize (H c). destruct (a c) as [[c1 o1] r]. cbn in H. subst. destruct r; auto. destruct (b c) as [[c2 o2] r2]. auto.
Qed.

Lemma rep_set a c g x t : Rep a c g -> nd_addr x = a -> nd_dyn x = g_dyn g -> nd_mode x = g_mode g -> tab_ok (nd_resp x) t -> Rep a (set_node x c) (with_tab t g).
Proof.
  intros [] A B M C. assert (E : this_node (set_node x c) = x) by (apply this_set; congruence).
  constructor; cbn; auto; rewrite E; auto.
Qed.
Lemma rep_frame_response a c g r : Rep a c g -> Rep a (fst (fst (update_frame_response r c))) (with_tab (at_id (f_id (r_frame r)) r (g_tab g)) g).
Proof.
  intros H. unfold update_frame_response. rewrite seq_same by apply same_slave. cbn [fst modify]. apply rep_set; auto.
  - cbn. unfold this_node. rewrite get_node_addr. apply H.
  - apply H.
  - apply H.
  - apply (tab_update [r]). apply H.
Qed.
Lemma rep_tab a c g t : Rep a c g -> (forall id, id < 64 -> t id = g_tab g id) -> Rep a c (with_tab t g).
Proof. intros [] H. constructor; auto. cbn. intros id Hid. rewrite H; auto. Qed.
Lemma rep_status a c g s : Rep a c g -> is_init g = true -> s <> StUnknown -> Rep a (set_status s c) g.
Proof. intros [] I S0. constructor; auto. unfold unk. cbn. rewrite I. destruct s; auto. congruence. Qed.
Lemma rep_other a c g from x : Rep a c g -> nd_addr x = from -> (from = a -> x = mkNode (nd_addr (this_node c)) (nd_mode (this_node c)) (nd_status x) (nd_dyn (this_node c)) (nd_resp (this_node c))) -> Rep a (set_node x c) g.
Proof.
  intros [] A B. assert (E : nd_dyn (this_node (set_node x c)) = nd_dyn (this_node c) /\ nd_resp (this_node (set_node x c)) = nd_resp (this_node c) /\ nd_mode (this_node (set_node x c)) = nd_mode (this_node c)).
  { unfold this_node at 1 3 5. change (c_self (set_node x c)) with (c_self c). rewrite get_set'. destruct (c_self c =? nd_addr x) eqn:Q; [|auto].
    apply N.eqb_eq in Q. rewrite B by congruence. cbn. auto. }
  destruct E as (E1 & E2 & E3). constructor; auto; rewrite ?E1, ?E2, ?E3; auto.
Qed.
Lemma slave_ids_this rs : forall c, this_node (add_slave_ids rs c) = this_node c /\ c_self (add_slave_ids rs c) = c_self c /\ c_mode (add_slave_ids rs c) = c_mode c /\
  c_dynamic (add_slave_ids rs c) = c_dynamic c /\ c_status (add_slave_ids rs c) = c_status c.
Proof.
  unfold add_slave_ids. induction rs as [|r rs IH]; intros c; cbn [fold_left]; auto. destruct (IH (if rmode_eqb (r_mode r) RTx && negb (has_responding_slave (f_id (r_frame r)) c)
    then mkC (c_self c) (c_mode c) (c_status c) (c_dynamic c) (c_nodes c) (c_slave_ids c ++ [f_id (r_frame r)]) (c_detailed c) else c)) as (A & B & C & D & E).
  rewrite A, B, C, D, E. destruct (_ && _); auto.
Qed.
Lemma rep_slave_ids a c g rs : Rep a c g -> Rep a (add_slave_ids rs c) g.
Proof. destruct (slave_ids_this rs c) as (A & B & C & D & E). intros []. constructor; unfold unk in *; rewrite ?A, ?B, ?C, ?D, ?E; auto. Qed.
Lemma rep_handle a c g from rs : Rep a c g -> from <> a -> Rep a (fst (fst (handle_responses from rs c))) g.
Proof.
  intros H K. unfold handle_responses, get. set (n := node_responses rs (get_node from c)).
  assert (N1 : nd_addr n = from) by (cbn; apply get_node_addr).
  assert (X : Rep a (set_node n c) g) by (eapply rep_other; eauto; congruence).
  unfold seq, modify, emit. cbn [fst]. destruct (cmode_eqb (nd_mode n) Slave); cbn [fst skip modify]; auto. now apply rep_slave_ids.
Qed.

Lemma rep_hear a c g l k : Rep a c g -> Rep a c (hear l k g). Proof. intros []. constructor; auto. Qed.

(** ** What is known of the other nodes *)
Record Env (a : N) (c : ctrl) (g : cfg) : Prop := {
  e_self : c_self c = a; e_srt : srt (c_nodes c); e_own : peer a (g_peers g) = (Inactive, false);
  e_peers : forall b, b <> a -> (nd_mode (get_node b c), nd_dyn (get_node b c)) = peer b (g_peers g);
  e_known : forall id, has_responding_slave id c = existsb (fun x => x =? id) (g_known g) }.
Lemma env0 a : Env a (ctrl0 a) cfg0.
Proof. constructor; try reflexivity. constructor. Qed.
Definition keeps (a : N) (x : act) : Prop := forall c, c_self c = a -> srt (c_nodes c) -> let c' := fst (fst (x c)) in
  c_self c' = a /\ srt (c_nodes c') /\ (forall b, b <> a -> get_node b c' = get_node b c) /\ c_slave_ids c' = c_slave_ids c.
Lemma keeps_same a x : same x -> keeps a x. Proof. intros S0 c A B. cbn zeta. rewrite S0. auto. Qed.
Lemma keeps_seq a x y : keeps a x -> keeps a y -> keeps a (x ;; y).
Proof.
  intros X Y c A B. specialize (X c A B). unfold seq. destruct (x c) as [[c1 o1] r]. cbn [fst] in X. destruct X as (A1 & B1 & C1 & D1).
  destruct r; cbn [fst]; auto. specialize (Y c1 A1 B1). destruct (y c1) as [[c2 o2] r2]. cbn [fst] in *. destruct Y as (A2 & B2 & C2 & D2).
  repeat split; auto; [|congruence]. intros b Hb. rewrite C2, C1; auto.
Qed.
Lemma keeps_get a f : (forall c, keeps a (f c)) -> keeps a (get f). Proof. intros H c. apply H. Qed.
Lemma keeps_modify a f : (forall c, c_self c = a -> srt (c_nodes c) -> c_self (f c) = a /\ srt (c_nodes (f c)) /\ (forall b, b <> a -> get_node b (f c) = get_node b c) /\ c_slave_ids (f c) = c_slave_ids c) -> keeps a (modify f).
Proof. intros H c. apply H. Qed.
Lemma own_set a c x : c_self c = a -> srt (c_nodes c) -> nd_addr x = a ->
  c_self (set_node x c) = a /\ srt (c_nodes (set_node x c)) /\ (forall b, b <> a -> get_node b (set_node x c) = get_node b c) /\ c_slave_ids (set_node x c) = c_slave_ids c.
Proof.
  intros A B C. split; [exact A|]. split; [now apply put_node_srt|]. split; [|reflexivity]. intros b Hb. rewrite get_set'. replace (b =? nd_addr x) with false by lia. reflexivity.
Qed.
Lemma keeps_update a r : keeps a (update_frame_response r).
Proof.
  unfold update_frame_response. apply keeps_seq; [|apply keeps_same, same_slave]. apply keeps_modify. intros c A B. apply own_set; auto. cbn. unfold this_node. rewrite get_node_addr. exact A.
Qed.
Lemma keeps_status a s : keeps a (set_controller_status s).
Proof. unfold set_controller_status. apply keeps_seq; [|apply keeps_same, same_emit]. apply keeps_modify. intros c A B. repeat split; auto. Qed.
Lemma keeps_if a (b : bool) x y : keeps a x -> keeps a y -> keeps a (if b then x else y). Proof. destruct b; auto. Qed.
Lemma keeps_uninit a x : keeps a x -> keeps a (if_uninit x).
Proof. intros H. unfold if_uninit. apply keeps_get. intros c. apply keeps_if; auto. apply keeps_same, same_throw. Qed.
Lemma keeps_master a x : keeps a x -> keeps a (if_master x).
Proof. intros H. unfold if_master. apply keeps_get. intros c. apply keeps_if; auto. apply keeps_same, same_throw. Qed.
Lemma keeps_not_dynamic a x : keeps a x -> keeps a (if_not_dynamic x).
Proof. intros H. unfold if_not_dynamic. apply keeps_get. intros c. apply keeps_if; auto. apply keeps_same, same_throw. Qed.
Lemma env_keeps a c g x : keeps a x -> Env a c g -> Env a (fst (fst (x c))) g.
Proof.
  intros K []. destruct (K c e_self0 e_srt0) as (A & B & C & D). constructor; auto.
  - intros b Hb. rewrite C; auto.
  - intros id. unfold has_responding_slave in *. rewrite D. auto.
Qed.
Lemma env_same_known a c g g' : Env a c g -> g_peers g' = g_peers g -> g_known g' = g_known g -> Env a c g'.
Proof. intros [] A B. constructor; auto; rewrite ?A, ?B; auto. Qed.
Lemma tab_peers g t : g_peers (with_tab t g) = g_peers g /\ g_known (with_tab t g) = g_known g. Proof. auto. Qed.
Lemma slave_ids_known rs : forall c id, has_responding_slave id (add_slave_ids rs c) = has_responding_slave id c || existsb (fun x => x =? id) (tx_ids rs).
Proof.
  unfold add_slave_ids. induction rs as [|r rs IH]; intros c id; cbn [fold_left]. { cbn. now rewrite orb_false_r. }
  rewrite IH. unfold tx_ids. cbn [filter map]. destruct (rmode_eqb (r_mode r) RTx) eqn:M; cbn [andb]; [|reflexivity].
  cbn [map existsb]. rewrite orb_assoc. f_equal. destruct (has_responding_slave (f_id (r_frame r)) c) eqn:K; cbn [negb].
  - destruct (f_id (r_frame r) =? id) eqn:Q; [|now rewrite orb_false_r]. apply N.eqb_eq in Q. subst. now rewrite K.
  - unfold has_responding_slave. cbn [c_slave_ids]. rewrite existsb_app. cbn. now rewrite orb_false_r.
Qed.
Lemma env_handle a c g from rs : Env a c g -> from <> a ->
  Env a (fst (fst (handle_responses from rs c))) (hear (g_peers g) (if cmode_eqb (fst (peer from (g_peers g))) Slave then g_known g ++ tx_ids rs else g_known g) g).
Proof.
  intros [S0 T W P K] NE. unfold handle_responses, get. set (n := node_responses rs (get_node from c)).
  assert (N1 : nd_addr n = from) by (cbn; apply get_node_addr).
  assert (N2 : nd_mode n = fst (peer from (g_peers g))) by (rewrite <- P by exact NE; reflexivity).
  assert (X : forall b, b <> a -> (nd_mode (get_node b (set_node n c)), nd_dyn (get_node b (set_node n c))) = peer b (g_peers g)).
  { intros b Hb. rewrite get_set'. destruct (b =? nd_addr n) eqn:Q; auto. apply N.eqb_eq in Q. rewrite <- P by exact Hb. rewrite Q, N1. reflexivity. }
  unfold seq, modify, emit. rewrite N2. destruct (cmode_eqb (fst (peer from (g_peers g))) Slave); cbn [fst skip modify].
  - destruct (slave_ids_this rs (set_node n c)) as (_ & E2 & _). constructor.
    + rewrite E2. exact S0.
    + rewrite add_slave_ids_nodes. now apply put_node_srt.
    + exact W.
    + intros b Hb. unfold get_node. rewrite add_slave_ids_nodes. apply X, Hb.
    + intros id. rewrite slave_ids_known. cbn [g_known hear]. rewrite existsb_app. f_equal. apply K.
  - constructor; auto. now apply put_node_srt.
Qed.
Lemma env_dynamic a c g : Env a c g -> nd_dyn (this_node c) = false -> has_dynamic_node c = existsb (fun x => snd (peer (fst x) (g_peers g))) (g_peers g).
Proof.
  intros [S0 T W0 P _] D. unfold has_dynamic_node. apply eq_true_iff_eq. rewrite !existsb_exists. split.
  - intros (n & A & B). pose proof (find_in n _ T A) as F. assert (G : get_node (nd_addr n) c = n) by (unfold get_node; now rewrite F).
    assert (NE : nd_addr n <> a). { intros X. unfold this_node in D. rewrite S0, <- X, G in D. congruence. }
    pose proof (P _ NE) as Q. rewrite G in Q. unfold peer in Q. destruct (find _ _) as [[b y]|] eqn:W; [|congruence].
    pose proof (find_some _ _ W) as [W1 W2]. exists (b, y). split; auto. cbn in *. apply N.eqb_eq in W2. subst b. unfold peer. rewrite W, <- Q. exact B.
  - intros ([b y] & A & B). cbn in B. assert (NE : b = a \/ b <> a) by lia.
    destruct NE as [->|NE].
    + rewrite W0 in B. discriminate.
    + rewrite <- P in B by exact NE. cbn in B. unfold get_node in B. destruct (find_node b (c_nodes c)) as [n|] eqn:F; [|discriminate]. apply find_node_in in F as [F _]. eauto.
Qed.
Lemma unk_init a c g : Rep a c g -> cstatus_eqb (c_status c) StUnknown = negb (is_init g). Proof. intros H. apply (p_init _ _ _ H). Qed.
Lemma rep_exec a c g o : Env a c g -> Rep a c g -> snd (cexec o c) <> LUB -> Rep a (fst (fst (cexec o c))) (cfg_op a g o).
Proof.
  intros EN H NU. pose proof (unk_init a c g H) as U.
  assert (IN : forall x, Rep a (fst (fst (x c))) (cfg_op a g o) -> is_init g = true -> Rep a (fst (fst (if_uninit x c))) (cfg_op a g o)).
  { intros x Hx I. unfold if_uninit, get. rewrite U, I. exact Hx. }
  assert (IS : forall s c, s <> StUnknown -> Rep a c g -> Rep a (fst (fst (if_uninit (set_controller_status s) c))) g).
  { clear. intros s c S0 H. pose proof (unk_init a c g H) as U. unfold if_uninit, get. rewrite U. destruct (is_init g) eqn:I; cbn; auto. apply rep_status; auto. }
  destruct o as [m rs|m|f t|id|f|f|r| | | | |from sim m|on]; cbn [cexec] in *.
  - unfold init_ctrl, get in *. cbn [cfg_op]. rewrite orb_comm. destruct (cmode_eqb m Inactive) eqn:M; [exact H|]. cbn [orb]. rewrite U in *. destruct (is_init g) eqn:I; cbn [negb] in *; [exact H|].
    rewrite seq_same by apply same_slave. cbn [fst modify]. set (x := node_responses rs _).
    assert (X : nd_addr x = c_self c) by (cbn; apply get_node_addr).
    assert (T : this_node (mkC (c_self (set_node x c)) m StOperational (c_dynamic (set_node x c)) (c_nodes (set_node x c)) (c_slave_ids (set_node x c)) (c_detailed (set_node x c))) = x).
    { apply (this_set x c X). }
    constructor; try rewrite T; try (cbn; apply H).
    + reflexivity.
    + unfold unk. cbn. unfold is_init. cbn. rewrite M. reflexivity.
    + reflexivity.
    + cbn [g_tab]. apply tab_update. apply H.
  - unfold init_dynamic, get in *. cbn [cfg_op]. rewrite orb_comm. destruct (cmode_eqb m Inactive) eqn:M; [exact H|]. cbn [orb]. rewrite U in *. destruct (is_init g) eqn:I; cbn [negb] in *; [exact H|].
    rewrite seq_same by apply same_slave. cbn [fst modify]. set (x := mkNode _ _ _ _ _).
    assert (X : nd_addr x = c_self c) by (cbn; apply get_node_addr).
    assert (T : this_node (mkC (c_self (set_node x c)) m StOperational true (c_nodes (set_node x c)) (c_slave_ids (set_node x c)) (c_detailed (set_node x c))) = x).
    { apply (this_set x c X). }
    constructor; try rewrite T; try (cbn; apply H); try reflexivity.
    unfold unk. cbn. unfold is_init. cbn. rewrite M. reflexivity.
  - cbn [cfg_op]. clear NU IN IS. unfold send_frame, if_uninit, get. cbv beta. rewrite U.
    destruct (is_init g) eqn:I; cbn [negb].
    2: { assert (M : g_mode g = Inactive) by (unfold is_init in I; destruct (g_mode g); auto; discriminate). rewrite M. destruct t; exact H. }
    unfold if_master, get. cbv beta. rewrite (p_mode _ _ _ H). destruct (cmode_eqb (g_mode g) Master) eqn:M; [|destruct t; exact H].
    unfold if_not_dynamic, get. cbv beta. rewrite (p_dyn _ _ _ H). destruct (g_dyn g) eqn:Y; [destruct t; rewrite ?andb_false_r; exact H|]. cbn [negb andb].
    destruct t; unfold send_frame_internal.
    + rewrite seq_same by apply same_request. apply (rep_frame_response a c g (mkR f RTx) H).
    + unfold get. rewrite (e_known _ _ _ EN), (env_dynamic _ _ _ EN) by (rewrite (p_ndyn _ _ _ H); exact Y).
      rewrite <- negb_orb. fold (answerable (f_id f) g). destruct (answerable (f_id f) g); cbn [negb andb]; [|exact H].
      unfold resp_at. destruct (f_id f <? 64) eqn:L.
      * rewrite (p_tab _ _ _ H) by lia. destruct (r_mode (g_tab g (f_id f))); cbn [rmode_eqb]; [|rewrite same_request; exact H|exact H].
        rewrite seq_same by apply same_request. apply (rep_frame_response a c g (mkR f RRx) H).
      * cbn. destruct (rmode_eqb _ _); [|exact H]. apply rep_tab; auto. intros i Hi. unfold at_id. replace (i =? f_id f) with false by lia. reflexivity.
    + unfold get. destruct (_ && _); [exact H|]. rewrite seq_same by apply same_request. exact H.
  - rewrite (same_sfh id c). exact H.
  - cbn [cfg_op]. unfold send_dynamic_response, get in *.
    assert (E : (if negb (c_dynamic c) then if c_dynamic c then throw else skip else skip) = skip) by (destruct (c_dynamic c); reflexivity).
    rewrite E in *. pose proof (rep_frame_response a c g (mkR f RTx) H) as X. unfold seq at 1 in NU. unfold seq at 1. cbn [skip fst snd] in *.
    pose proof (seq_same (update_frame_response (mkR f RTx)) (process_header (f_id f)) c (same_process _)) as Y.
    destruct ((update_frame_response (mkR f RTx) ;; process_header (f_id f)) c) as [[c2 o2] r2]. cbn [fst] in *. rewrite Y. exact X.
  - cbn [cfg_op] in *. clear IN IS. unfold update_tx_buffer, if_uninit, get in *. cbv beta in *. rewrite U in *.
    destruct (is_init g); cbn [negb andb] in *; [|exact H]. unfold if_not_dynamic, get in *. cbv beta in *. rewrite (p_dyn _ _ _ H) in *.
    destruct (g_dyn g) eqn:D; cbn [negb andb] in *; [exact H|]. cbv beta in *.
    unfold resp_at in *. destruct (f_id f <? 64) eqn:L; [|elim NU; reflexivity].
    rewrite (p_tab _ _ _ H) in * by lia. destruct (rmode_eqb (r_mode (g_tab g (f_id f))) RTx) eqn:M; cbn [negb] in *; [|exact H].
    rewrite seq_same by (destruct (c_detailed c); [apply same_emit|exact same_skip]). cbn [fst modify]. apply rep_set; auto.
    + cbn. unfold this_node. rewrite get_node_addr. apply H.
    + apply H.
    + apply H.
    + cbn [nd_resp]. unfold set_data. assert (X : r_mode (g_tab g (f_id f)) = RTx) by (destruct (r_mode (g_tab g (f_id f))); auto; discriminate). rewrite X.
      apply tab_set. apply H.
  - cbn [cfg_op] in *. clear IN IS. unfold set_frame_response, if_uninit, get in *. cbv beta in *. rewrite U in *.
    destruct (is_init g); cbn [negb andb] in *; [|exact H]. unfold if_not_dynamic, get in *. cbv beta in *. rewrite (p_dyn _ _ _ H) in *.
    destruct (g_dyn g) eqn:D; cbn [negb andb] in *; [exact H|]. cbv beta in *.
    destruct (64 <=? f_id (r_frame r)) eqn:L. { replace (f_id (r_frame r) <? 64) with false by lia. exact H. }
    assert (L' : (f_id (r_frame r) <? 64) = true) by lia. rewrite L' in *. cbn [andb]. destruct (rmode_eqb (r_mode r) RUnused); [exact H|]. cbn [negb andb].
    unfold resp_at in *. rewrite L' in *. rewrite (p_tab _ _ _ H) in * by lia.
    destruct (rmode_eqb (r_mode (g_tab g (f_id (r_frame r)))) RUnused) eqn:M; cbn [negb] in *; [|exact H]. now apply rep_frame_response.
  - clear NU IN. unfold go_to_sleep, if_uninit at 1, get at 1. cbv beta. rewrite U. cbn [cfg_op] in *. destruct (is_init g) eqn:I; cbn [negb] in *; [|exact H].
    unfold if_master, get at 1. destruct (cmode_eqb (c_mode c) Master); [|exact H]. unfold get. destruct (c_detailed c).
    + unfold seq, emit. cbn [fst set_controller_status]. unfold set_controller_status, seq, modify, emit. cbn [fst]. apply rep_status; auto. discriminate.
    + unfold seq at 1, emit at 1. unfold seq at 1, emit at 1. pose proof (IS StSleep c ltac:(discriminate) H) as X. unfold go_to_sleep_internal.
      destruct (if_uninit (set_controller_status StSleep) c) as [[c1 o1] r1]. exact X.
  - apply IS; auto. discriminate.
  - clear NU IN. unfold wakeup, if_uninit at 1, get at 1. cbv beta. cbn [cfg_op] in *. rewrite U. destruct (is_init g) eqn:I; cbn [negb]; [|exact H]. unfold get. pose proof (IS StOperational c ltac:(discriminate) H) as X.
    unfold wakeup_internal. destruct (c_detailed c).
    + unfold seq, emit. destruct (if_uninit (set_controller_status StOperational) c) as [[c1 o1] r1]. exact X.
    + unfold seq at 1, emit at 1. unfold seq at 1, emit at 1. destruct (if_uninit (set_controller_status StOperational) c) as [[c1 o1] r1]. exact X.
  - apply IS; auto. discriminate.
  - cbn [cfg_op]. assert (CF : forall x, fst (fst (catch x c)) = fst (fst (x c))) by (intros x; unfold catch; destruct (x c) as [[? ?] []]; reflexivity).
    rewrite CF. unfold receive, get at 1. destruct m.
    + rewrite <- (p_self _ _ _ H). destruct (from =? c_self c) eqn:F; [rewrite (p_self _ _ _ H); exact H|]. rewrite (p_self _ _ _ H). apply rep_hear. assert (FN : from <> a) by (rewrite (p_self _ _ _ H) in F; lia).
      set (x := mkNode _ _ _ _ _). assert (A : nd_addr x = from) by (cbn; apply get_node_addr).
      assert (X : Rep a (set_node x c) g) by (eapply rep_other; eauto; congruence). unfold seq, modify.
      pose proof (rep_handle a _ g from rs X FN) as Y. destruct (handle_responses from rs (set_node x c)) as [[c2 o2] r2]. exact Y.
    + rewrite <- (p_self _ _ _ H). destruct (from =? c_self c) eqn:F; [rewrite (p_self _ _ _ H); exact H|]. rewrite (p_self _ _ _ H). apply rep_hear. apply rep_handle; auto. rewrite (p_self _ _ _ H) in F. lia.
    + cbn [fst modify]. apply (rep_other a c g from); [exact H|cbn; apply get_node_addr|]. intros ->. cbn. unfold this_node. rewrite (p_self _ _ _ H). reflexivity.
    + rewrite same_receive_header. exact H.
    + unfold receive_transmission, get. destruct (negb (if c_detailed c then sim else true)); [exact H|]. destruct (cmode_eqb (c_mode c) Inactive) eqn:CM; [exact H|].
      assert (I : is_init g = true). { unfold is_init. rewrite <- (p_mode _ _ _ H), CM. reflexivity. }
      assert (TR : forall b k, Rep a (fst (fst (((match b with NotOk => skip | _ => LinModel.emit (OFrameStatus f b) end) ;;
        (if k : bool then match c_mode c with Slave => LinModel.emit OGoToSleep | Master => (fun c0 => (if cstatus_eqb (c_status c0) StSleepPending then modify (set_status StSleep) else skip) c0) | Inactive => skip end else skip)) c))) g).
      { intros b k. destruct (same_seq_l (match b with NotOk => skip | _ => LinModel.emit (OFrameStatus f b) end) (if k : bool then match c_mode c with Slave => LinModel.emit OGoToSleep | Master => (fun c0 => (if cstatus_eqb (c_status c0) StSleepPending then modify (set_status StSleep) else skip) c0) | Inactive => skip end else skip) c) as [-> | ->]; auto.
        - destruct b; easy.
        - destruct k; [|exact H]. destruct (c_mode c); try exact H. destruct (cstatus_eqb (c_status c) StSleepPending); [|exact H]. apply rep_status; auto. discriminate. }
      destruct (c_status c); try exact H.
      all: destruct (negb _ && _); [exact H|]; destruct (64 <=? _); [exact H|]; destruct (calc_status _ _ _ _) as [s|]; [|exact H]; apply TR.
    + exact H.
    + destruct (if c_detailed c then sim else true); exact H.
  - destruct H. constructor; auto.
Qed.
Ltac k1 := lazymatch goal with
  | |- keeps _ (seq _ _) => apply keeps_seq | |- keeps _ (get _) => apply keeps_get; intros ?; cbv beta
  | |- keeps _ (if_uninit _) => apply keeps_uninit | |- keeps _ (if_master _) => apply keeps_master | |- keeps _ (if_not_dynamic _) => apply keeps_not_dynamic
  | |- keeps _ (update_frame_response _) => apply keeps_update | |- keeps _ (set_controller_status _) => apply keeps_status
  | |- keeps _ (if ?b then _ else _) => destruct b
  | |- keeps _ (match ?b with _ => _ end) => destruct b
  | |- keeps _ _ => apply keeps_same; first [apply same_skip | apply same_throw | apply same_ub | apply same_emit | apply same_request | apply same_sfh | apply same_process | apply same_receive_header | apply same_slave]
  end.
Lemma env_exec a c g o : Env a c g -> Env a (fst (fst (cexec o c))) (cfg_op a g o).
Proof.
  intros E.
  assert (KE : forall x g', keeps a x -> g_peers g' = g_peers g -> g_known g' = g_known g -> Env a (fst (fst (x c))) g').
  { intros x g' K A B. apply env_same_known with (g := g); auto. now apply env_keeps. }
  assert (OWN : forall f, (forall c, c_self c = a -> nd_addr (f c) = a) -> keeps a (modify (fun c => set_node (f c) c))).
  { intros f Hf. apply keeps_modify. intros c0 A B. apply own_set; auto. }
  destruct o as [m rs|m|f t|id|f|f|r| | | | |from sim m|on]; cbn [cexec].
  - unfold init_ctrl, get. cbn [cfg_op]. rewrite orb_comm. destruct (cmode_eqb m Inactive); cbn [orb]; [exact E|].
    destruct (negb (cstatus_eqb _ _)).
    { apply env_same_known with (g := g); [exact E| |]; destruct (is_init g); reflexivity. }
    apply env_same_known with (g := g); [|destruct (is_init g); reflexivity|destruct (is_init g); reflexivity].
    rewrite seq_same by apply same_slave. cbn [fst modify]. set (x := node_responses rs _).
    destruct (own_set a c x (e_self _ _ _ E) (e_srt _ _ _ E)) as (A & B & C & D). { cbn. unfold this_node. rewrite get_node_addr. apply E. }
    destruct E. constructor; auto. intros b Hb. rewrite <- e_peers0 by exact Hb. rewrite <- (C b Hb). reflexivity.
  - unfold init_dynamic, get. cbn [cfg_op]. rewrite orb_comm. destruct (cmode_eqb m Inactive); cbn [orb]; [exact E|].
    destruct (negb (cstatus_eqb _ _)).
    { apply env_same_known with (g := g); [exact E| |]; destruct (is_init g); reflexivity. }
    apply env_same_known with (g := g); [|destruct (is_init g); reflexivity|destruct (is_init g); reflexivity].
    rewrite seq_same by apply same_slave. cbn [fst modify]. set (x := mkNode _ _ _ _ _).
    destruct (own_set a c x (e_self _ _ _ E) (e_srt _ _ _ E)) as (A & B & C & D). { cbn. unfold this_node. rewrite get_node_addr. apply E. }
    destruct E. constructor; auto. intros b Hb. rewrite <- e_peers0 by exact Hb. rewrite <- (C b Hb). reflexivity.
  - apply KE; [|cbn [cfg_op]; destruct t; repeat (match goal with |- context [if ?b then _ else _] => destruct b end); reflexivity..].
    unfold send_frame, send_frame_internal. repeat k1.
  - apply KE; try reflexivity. k1.
  - apply KE; try reflexivity. unfold send_dynamic_response. repeat k1.
  - apply env_same_known with (g := g); [|cbn [cfg_op]; match goal with |- context [if ?b then _ else _] => destruct b end; reflexivity..].
    unfold update_tx_buffer, if_uninit, if_not_dynamic, get. cbv beta. destruct (cstatus_eqb (c_status c) StUnknown); [exact E|]. destruct (c_dynamic c); [exact E|].
    destruct (resp_at _ _) as [r|]; [|exact E]. destruct (negb _); [exact E|]. rewrite seq_same by (destruct (c_detailed c); [apply same_emit|exact same_skip]).
    set (x := mkNode _ _ _ _ _). apply (env_keeps a c g (modify (fun c0 => set_node (if c_self c0 =? a then x else x) c0))) in E.
    + cbn [modify fst] in *. destruct (c_self c =? a); exact E.
    + apply OWN. intros c0 _. assert (A : nd_addr x = a) by (cbn; unfold this_node; rewrite get_node_addr; apply E). destruct (c_self c0 =? a); exact A.
  - apply KE; [|cbn [cfg_op]; match goal with |- context [if ?b then _ else _] => destruct b end; reflexivity..]. unfold set_frame_response. repeat k1.
  - apply KE; try reflexivity. unfold go_to_sleep, go_to_sleep_internal. repeat k1.
  - apply KE; try reflexivity. unfold go_to_sleep_internal. repeat k1.
  - apply KE; try reflexivity. unfold wakeup, wakeup_internal. repeat k1.
  - apply KE; try reflexivity. unfold wakeup_internal. repeat k1.
  - assert (CF : forall x, fst (fst (catch x c)) = fst (fst (x c))) by (intros x; unfold catch; destruct (x c) as [[? ?] []]; reflexivity).
    rewrite CF. unfold receive, get at 1. pose proof (e_self _ _ _ E) as S0. destruct m; cbn [cfg_op].
    + rewrite S0. destruct (from =? a) eqn:F; [exact E|]. assert (FN : from <> a) by lia. unfold seq, modify. set (x := mkNode _ _ _ _ _).
      assert (X : Env a (set_node x c) (hear ((from, (m, dyn)) :: g_peers g) (g_known g) g)).
      { assert (A : nd_addr x = from) by (cbn; apply get_node_addr). destruct E. constructor; auto.
        - now apply put_node_srt.
        - cbn. unfold peer in *. cbn [find fst]. rewrite F. exact e_own0.
        - intros b Hb. rewrite get_set', A. cbn [g_peers hear]. unfold peer. cbn [find fst]. rewrite (N.eqb_sym from b). destruct (b =? from); [reflexivity|]. apply e_peers0, Hb. }
      pose proof (env_handle a _ _ from rs X FN) as Y. destruct (handle_responses from rs (set_node x c)) as [[c2 o2] r2]. cbn [fst] in *.
      unfold hear in Y. cbn [g_peers g_known g_mode g_dyn g_tab] in Y. unfold peer in Y. cbn [find fst] in Y. rewrite N.eqb_refl in Y. exact Y.
    + rewrite S0. destruct (from =? a) eqn:F; [exact E|]. apply env_handle; [exact E|lia].
    + cbn [fst modify]. set (x := mkNode _ _ _ _ _). assert (A : nd_addr x = from) by (cbn; apply get_node_addr). destruct E. constructor; auto.
      * now apply put_node_srt.
      * intros b Hb. rewrite get_set', A. destruct (b =? from) eqn:Q; [|auto]. apply N.eqb_eq in Q. subst b. rewrite <- e_peers0 by exact Hb. reflexivity.
    + apply KE; try reflexivity. k1.
    + apply KE; try reflexivity. unfold receive_transmission. k1. k1; [k1|]. k1; [k1|].
      destruct (c_status c0); try solve [k1].
      all: k1; [k1|]; k1; [k1|]; destruct (calc_status _ _ _ _) as [s|]; [|k1]; k1; [destruct s; k1|]; k1; [|k1];
        destruct (c_mode c0); try solve [k1]; k1; k1; [|k1]; apply keeps_modify; intros c3 A B; repeat split; auto.
    + exact E.
    + destruct (if c_detailed c then sim else true); exact E.
  - destruct E. constructor; auto.
Qed.
Lemma crun_snoc l : forall c o, crun (l ++ [o]) c =
  match crun l c with Some (c1, os) => match cexec o c1 with (_, _, LUB) => None | (c2, o2, _) => Some (c2, os ++ [o2]) end | None => None end.
Proof.
  induction l as [|x l IH]; intros c o; cbn [app crun].
  - destruct (cexec o c) as [[c1 o1] r]. destruct r; reflexivity.
  - destruct (cexec x c) as [[c1 o1] r]. destruct r; try reflexivity; rewrite IH; destruct (crun l c1) as [[c2 os]|]; try reflexivity;
      destruct (cexec o c2) as [[c3 o3] r3]; destruct r3; reflexivity.
Qed.
Theorem rep_run a l : forall c os, crun l (ctrl0 a) = Some (c, os) -> Env a c (configured a l) /\ Rep a c (configured a l).
Proof.
  induction l as [|o l IH] using rev_ind; intros c os E.
  - injection E as <- <-. split; [apply env0|apply rep0].
  - rewrite crun_snoc in E. destruct (crun l (ctrl0 a)) as [[c1 os1]|]; [|discriminate].
    destruct (IH c1 os1 eq_refl) as [IE IR]. unfold configured. rewrite fold_left_app. cbn [fold_left]. fold (configured a l).
    pose proof (rep_exec a c1 (configured a l) o IE IR) as X. pose proof (env_exec a c1 (configured a l) o IE) as Y.
    destruct (cexec o c1) as [[c2 o2] r]. cbn [fst snd] in X, Y.
    destruct r; try discriminate; injection E as <- <-; split; auto; apply X; discriminate.
Qed.
