From Coq Require Import List Arith Bool Lia ZifyBool.
From Verif Require Import RequestReplyModel RequestReplySpec.
Import ListNotations.

Lemma run_snoc : forall evs e, run (evs ++ [e]) = let (o, x) := step (snd (run evs)) e in (fst (run evs) ++ o, x).
Proof. intros. unfold run. rewrite fold_left_app. reflexivity. Qed.
Lemma connected_snoc : forall evs e, connected (evs ++ [e]) =
  match e with EConnect p => if existsb (Nat.eqb p) (connected evs) then connected evs else connected evs ++ [p]
             | EDisconnect p => filter (fun x => negb (Nat.eqb x p)) (connected evs) | _ => connected evs end.
Proof. intros. unfold connected. rewrite fold_left_app. reflexivity. Qed.

Definition without (p : nat) (l : list nat) : list nat := filter (fun x => negb (Nat.eqb x p)) l.
Lemma existsb_In : forall p l, existsb (Nat.eqb p) l = true <-> In p l.
Proof.
  intros. rewrite existsb_exists. split; [intros (x & I & E); apply Nat.eqb_eq in E; subst; exact I|intros I; exists p; rewrite Nat.eqb_refl; auto].
Qed.
Lemma without_In : forall p l x, In x (without p l) <-> In x l /\ x <> p.
Proof. intros. unfold without. rewrite filter_In. split; intros [A B]; split; auto; [intros ->; rewrite Nat.eqb_refl in B; discriminate|apply Bool.negb_true_iff, Nat.eqb_neq; auto]. Qed.
Lemma without_id : forall p l, ~ In p l -> without p l = l.
Proof. induction l as [|a l IH]; intros N; cbn; [reflexivity|]. destruct (Nat.eqb_spec a p) as [->|]; [exfalso; apply N; left; auto|]. cbn. f_equal. apply IH. intros I. apply N. right. auto. Qed.
Lemma without_NoDup : forall p l, NoDup l -> NoDup (without p l).
Proof. intros. apply NoDup_filter. assumption. Qed.

(** the map of prepared returns while one call is out *)
Definition prepared (u : uuid) (l : list name) : list (name * list (uuid * ftype)) := map (fun p => (p, [(u, ft_replies)])) l.
Lemma lookup_prepared : forall u l p, lookup p (prepared u l) = if existsb (Nat.eqb p) l then Some [(u, ft_replies)] else None.
Proof.
  intros u l p. unfold lookup. induction l as [|a l IH]; [reflexivity|]. cbn [prepared map find fst existsb].
  rewrite (Nat.eqb_sym a p). destruct (p =? a) eqn:E; [reflexivity|]. exact IH.
Qed.
Lemma erase_prepared : forall u l p, erase p (prepared u l) = prepared u (without p l).
Proof.
  intros u l p. induction l as [|a l IH]; [reflexivity|]. unfold erase, prepared, without in *. cbn [map filter fst].
  destruct (a =? p); cbn [negb map]; rewrite <- IH; reflexivity.
Qed.
Lemma prepare_prepared : forall u l p, ~ In p l -> prepare u ft_replies (prepared u l) p = prepared u (l ++ [p]).
Proof.
  intros u l p N. unfold prepare. rewrite lookup_prepared. destruct (existsb (Nat.eqb p) l) eqn:E; [apply existsb_In in E; tauto|].
  unfold prepared. rewrite map_app. reflexivity.
Qed.
Lemma fold_prepare : forall u r l, NoDup (l ++ r) -> fold_left (prepare u ft_replies) r (prepared u l) = prepared u (l ++ r).
Proof.
  intros u r. induction r as [|p r IH]; intros l N; cbn [fold_left]; [rewrite app_nil_r; reflexivity|].
  rewrite prepare_prepared.
  - rewrite IH; rewrite <- app_assoc; [reflexivity|exact N].
  - apply NoDup_remove_2 in N. intros I. apply N. apply in_or_app. auto.
Qed.
Definition owed (u : uuid) (l : list name) : list (name * uuid) := map (fun p => (p, u)) l.
Lemma owed_mem : forall u l p v, existsb (fun x => Nat.eqb (fst x) p && Nat.eqb (snd x) v) (owed u l) = existsb (Nat.eqb p) l && Nat.eqb u v.
Proof.
  intros. induction l as [|a l IH]; [reflexivity|]. cbn [owed map existsb fst snd]. unfold owed in IH. rewrite IH, (Nat.eqb_sym a p).
  destruct (p =? a), (existsb (Nat.eqb p) l), (u =? v); reflexivity.
Qed.
Lemma owed_remove : forall u l p, filter (fun x => negb (Nat.eqb (fst x) p && Nat.eqb (snd x) u)) (owed u l) = owed u (without p l).
Proof.
  intros. induction l as [|a l IH]; [reflexivity|]. cbn [owed map filter fst snd]. unfold owed, without in *. rewrite IH, Nat.eqb_refl, andb_true_r.
  cbn [filter]. destruct (a =? p); reflexivity.
Qed.
Lemma owed_drop : forall u l p, filter (fun x => negb (Nat.eqb (fst x) p)) (owed u l) = owed u (without p l).
Proof.
  intros. induction l as [|a l IH]; [reflexivity|]. cbn [owed map filter fst snd]. unfold owed, without in *. rewrite IH.
  cbn [filter]. destruct (a =? p); reflexivity.
Qed.

(** the states of the whole *)
Definition idle (b : barrier) : Prop := b_active b = false /\ b_expected b = [].
Definition waiting (b : barrier) (c : nat) (u : uuid) : Prop := b_active b = true /\ b_expected b <> [] /\ b_completion b = Some c /\ b_uuid b = Some u.
Record sinv (w : world) (evs : list ev) : Prop := {
  v_recv : s_receivers (w_service w) = connected evs;
  v_nodup : NoDup (connected evs);
  v_requests : w_requests w = requests evs;
  v_state : (idle (w_barrier w) /\ s_returns (w_service w) = [] /\ w_owed w = []) \/
            (exists c u, waiting (w_barrier w) c u /\ u < w_next w /\
               s_returns (w_service w) = prepared u (b_expected (w_barrier w)) /\ w_owed w = owed u (b_expected (w_barrier w)) /\
               incl (b_expected (w_barrier w)) (connected evs)) }.

(** what a step does *)
Definition settle_out (c : nat) (e : list name) : list out := match e with [] => [Completed c] | _ => [] end.
Inductive did (w : world) : ev -> list out -> world -> Prop :=
| did_connect : forall p w', w_barrier w' = w_barrier w -> w_queue w' = w_queue w -> w_next w' = w_next w -> w_requests w' = w_requests w -> did w (EConnect p) [] w'
| did_none : forall e w', e <> ERequest -> e <> EDeferred -> w_barrier w' = w_barrier w -> w_queue w' = w_queue w -> w_next w' = w_next w -> w_requests w' = w_requests w ->
    (forall p, e = EDisconnect p -> ~ In p (b_expected (w_barrier w))) ->
    did w e [] w'
| did_call : forall p u ft w' o, w_barrier w' = w_barrier w -> w_queue w' = w_queue w -> w_next w' = w_next w -> w_requests w' = w_requests w ->
    (o = [Threw] \/ exists st, o = [SentReturn p u ft st]) -> did w (ECall p u ft) o w'
| did_request : forall w', w_barrier w' = w_barrier w -> w_queue w' = w_queue w ++ [w_requests w] -> w_next w' = w_next w -> w_requests w' = S (w_requests w) -> did w ERequest [] w'
| did_nothing : w_queue w = [] -> did w EDeferred [] w
| did_dropped : forall c q c0 u0 w', w_queue w = c :: q -> waiting (w_barrier w) c0 u0 -> w_barrier w' = w_barrier w -> w_queue w' = q -> w_next w <= w_next w' ->
    w_requests w' = w_requests w -> did w EDeferred [Dropped c] w'
| did_alone : forall c q w', w_queue w = c :: q -> idle (w_barrier w) -> s_receivers (w_service w) = [] -> idle (w_barrier w') -> w_queue w' = q -> w_next w <= w_next w' ->
    w_requests w' = w_requests w -> did w EDeferred [Started c []; Completed c] w'
| did_started : forall c q w', w_queue w = c :: q -> idle (w_barrier w) -> waiting (w_barrier w') c (w_next w) ->
    b_expected (w_barrier w') = s_receivers (w_service w) -> w_queue w' = q -> w_next w' = S (w_next w) -> w_requests w' = w_requests w ->
    did w EDeferred [Started c (s_receivers (w_service w)); SentCall (w_next w) ft_replies (s_receivers (w_service w))] w'
| did_settled : forall e p c u st w', waiting (w_barrier w) c u -> In p (b_expected (w_barrier w)) ->
    (e = EDisconnect p /\ st = RecipientDisconnected \/ e = EReturn p u st) ->
    b_expected (w_barrier w') = without p (b_expected (w_barrier w)) ->
    (without p (b_expected (w_barrier w)) = [] /\ idle (w_barrier w') \/ waiting (w_barrier w') c u) ->
    w_queue w' = w_queue w -> w_next w' = w_next w -> w_requests w' = w_requests w ->
    did w e (Forwarded p u st :: settle_out c (without p (b_expected (w_barrier w)))) w'.

Lemma receive_return_waiting : forall p u c b, waiting b c u ->
  receive_return p u b = (settle_out c (without p (b_expected b)),
    mkB (match without p (b_expected b) with [] => false | _ => true end) (without p (b_expected b)) (Some c) (Some u)).
Proof.
  intros p u c b (A & B & C & D). unfold receive_return. rewrite A, C, D, Nat.eqb_refl. cbn [andb]. unfold without. cbv zeta.
  match goal with |- context [filter ?f ?l] => destruct (filter f l) end; reflexivity.
Qed.

Lemma step_did : forall w evs e, sinv w evs -> did w e (fst (step w e)) (snd (step w e)) /\ sinv (snd (step w e)) (evs ++ [e]).
Proof.
  intros w evs e [VR VN VQ VS].
  assert (RQ : forall e', requests (evs ++ [e']) = requests evs + match e' with ERequest => 1 | _ => 0 end).
  { intros e'. unfold requests. rewrite filter_app, app_length. destruct e'; cbn; lia. }
  destruct e as [p|p| | |p u st|p u ft]; cbn [step].
  - (* connect *)
    cbn [fst snd]. split; [apply did_connect; reflexivity|].
    split; cbn [w_service w_barrier w_owed w_requests w_next s_receivers s_returns]; rewrite ?connected_snoc, ?RQ.
    + rewrite VR. reflexivity.
    + destruct (existsb (Nat.eqb p) (connected evs)) eqn:E; [exact VN|].
      apply Bool.not_true_iff_false in E. rewrite existsb_In in E. clear - VN E. induction (connected evs) as [|a l IH]; cbn; [repeat constructor; auto|].
      inversion VN; subst. constructor; [rewrite in_app_iff; cbn; intros [?|[?|[]]]; [auto|subst; apply E; left; auto]|].
      apply IH; auto. intros I. apply E. right. auto.
    + lia.
    + destruct VS as [VS|(c & u & A & B & C & D & F)]; [left; exact VS|right]. exists c, u. repeat split; auto; try apply A.
      intros x I. destruct (existsb _ _); [auto|]. apply in_or_app. auto.
  - (* disconnect *)
    rewrite VR. destruct (existsb (Nat.eqb p) (connected evs)) eqn:E.
    + unfold removal. destruct VS as [(A & B & C)|(c & u & A & B & C & D & F)].
      * rewrite B. cbn [lookup find option_map]. cbn [fst snd]. split.
        -- apply did_none; try reflexivity; try discriminate. intros q Q. destruct A as [_ ->]. auto.
        -- split; cbn [w_service w_barrier w_owed w_requests w_next s_receivers s_returns]; rewrite ?connected_snoc, ?RQ.
           ++ rewrite VR. reflexivity.
           ++ apply (without_NoDup p), VN.
           ++ lia.
           ++ left. rewrite C. auto.
      * rewrite C, lookup_prepared. destruct (existsb (Nat.eqb p) (b_expected (w_barrier w))) eqn:E2.
        -- cbn [forward_all]. unfold forward. cbn [procedures existsb]. change (ft_replies =? ft_replies) with true. cbn [orb].
           rewrite (receive_return_waiting p u c _ A). cbv zeta iota beta. cbn [fst snd app].
           rewrite app_nil_r. apply existsb_In in E2. split.
           ++ assert (X : forall w', w_barrier w' = mkB (match without p (b_expected (w_barrier w)) with [] => false | _ => true end) (without p (b_expected (w_barrier w))) (Some c) (Some u) ->
                 (without p (b_expected (w_barrier w)) = [] /\ idle (w_barrier w') \/ waiting (w_barrier w') c u)).
              { intros w' ->. destruct (without p (b_expected (w_barrier w))) eqn:W; [left|right]; repeat split; discriminate. }
              eapply did_settled; [exact A|exact E2|left; auto|reflexivity|apply X; reflexivity|reflexivity|reflexivity|reflexivity].
           ++ split; cbn [w_service w_barrier w_owed w_requests w_next s_receivers s_returns b_expected]; rewrite ?connected_snoc, ?RQ.
              ** rewrite VR. reflexivity.
              ** apply (without_NoDup p), VN.
              ** lia.
              ** rewrite D, owed_drop, erase_prepared. destruct (without p (b_expected (w_barrier w))) as [|q l] eqn:W.
                 --- left. repeat split; reflexivity.
                 --- right. exists c, u. repeat split; auto; try discriminate.
                     intros x I. rewrite <- W in I. apply without_In in I. apply (without_In p). split; [apply F; tauto|tauto].
        -- cbn [fst snd]. assert (NI : ~ In p (b_expected (w_barrier w))) by (rewrite <- existsb_In; congruence). split.
           ++ apply did_none; try reflexivity; try discriminate. intros q Q. injection Q as <-. exact NI.
           ++ split; cbn [w_service w_barrier w_owed w_requests w_next s_receivers s_returns b_expected]; rewrite ?connected_snoc, ?RQ.
              ** rewrite VR. reflexivity.
              ** apply (without_NoDup p), VN.
              ** lia.
              ** right. exists c, u. rewrite D, owed_drop, (without_id p _ NI). repeat split; try apply A; auto.
                 intros x I. apply (without_In p). split; [auto|]. intros ->. tauto.
    + cbn [fst snd]. assert (NC : ~ In p (connected evs)) by (rewrite <- existsb_In; congruence). split.
      * apply did_none; try reflexivity; try discriminate. intros q Q. injection Q as <-.
        destruct VS as [((_ & ->) & _)|(c & u & A & B & C & D & F)]; auto.
      * split; rewrite ?connected_snoc, ?RQ; auto; fold (without p (connected evs)); rewrite ?(without_id p _ NC); auto; lia.
  - (* request *)
    cbn [fst snd]. split; [apply did_request; reflexivity|].
    split; cbn [w_service w_barrier w_owed w_requests w_next s_receivers s_returns]; rewrite ?connected_snoc, ?RQ; auto; lia.
  - (* deferred *)
    destruct (w_queue w) as [|c q] eqn:EQ.
    + cbn [fst snd]. split; [apply did_nothing, EQ|]. split; rewrite ?connected_snoc, ?RQ; auto; lia.
    + unfold deferred. destruct VS as [(A & B & C)|(c0 & u & A & B & C & D & F)].
      * destruct (A) as [A1 A2]. rewrite A1. destruct (s_receivers (w_service w)) as [|r rs] eqn:ER.
        -- cbn [fst snd flat_map]. split.
           ++ eapply did_alone; [exact EQ|exact A|exact ER|split; reflexivity|reflexivity|cbn; lia|reflexivity].
           ++ split; cbn [w_service w_barrier w_owed w_requests w_next s_receivers s_returns]; rewrite ?connected_snoc, ?RQ; auto; try lia; try congruence.
              left. rewrite C. repeat split; auto.
        -- unfold call. cbn [Nat.eqb ft_replies ft_invalid]. rewrite ER. cbn [fst snd flat_map app]. rewrite B.
           change (@nil (name * list (uuid * ftype))) with (prepared (w_next w) []).
           rewrite fold_prepare by (cbn [app]; rewrite VR; exact VN). cbn [app]. split.
           ++ rewrite <- ER. eapply did_started; [exact EQ|exact A|rewrite ER; repeat split; discriminate|reflexivity|reflexivity|reflexivity|reflexivity].
           ++ split; cbn [w_service w_barrier w_owed w_requests w_next s_receivers s_returns b_expected]; rewrite ?connected_snoc, ?RQ; auto; try lia.
              right. exists c, (w_next w). rewrite C, app_nil_r. repeat split; try discriminate; try lia.
              rewrite <- VR. apply incl_refl.
      * pose proof A as (A1 & _). rewrite A1. cbn [fst snd flat_map]. split.
        -- eapply did_dropped; [exact EQ|exact A|reflexivity|reflexivity|cbn; lia|reflexivity].
        -- split; cbn [w_service w_barrier w_owed w_requests w_next s_receivers s_returns]; rewrite ?connected_snoc, ?RQ; auto; try lia.
           right. exists c0, u. rewrite D, app_nil_r. repeat split; try apply A; auto.
  - (* return *)
    destruct VS as [(A & B & C)|(c & v & A & B & C & D & F)].
    + rewrite C. cbn [existsb fst snd]. split.
      * apply did_none; try reflexivity; discriminate.
      * split; rewrite ?connected_snoc, ?RQ; auto; lia.
    + rewrite D, owed_mem. destruct (existsb (Nat.eqb p) (b_expected (w_barrier w))) eqn:E; cbn [andb]; [destruct (Nat.eqb_spec v u) as [->|NV]|].
      * unfold receive_call_return, remove_from_lookup. rewrite C, lookup_prepared, E. cbn [erase filter fst]. rewrite Nat.eqb_refl. cbn [negb].
        unfold forward. cbn [procedures existsb]. change (ft_replies =? ft_replies) with true. cbn [orb].
        rewrite (receive_return_waiting p u c _ A). cbv zeta iota beta. cbn [fst snd app].
        apply existsb_In in E. split.
        -- assert (X : forall w', w_barrier w' = mkB (match without p (b_expected (w_barrier w)) with [] => false | _ => true end) (without p (b_expected (w_barrier w))) (Some c) (Some u) ->
                 (without p (b_expected (w_barrier w)) = [] /\ idle (w_barrier w') \/ waiting (w_barrier w') c u)).
           { intros w' ->. destruct (without p (b_expected (w_barrier w))) eqn:W; [left|right]; repeat split; discriminate. }
           eapply did_settled; [exact A|exact E|right; auto|reflexivity|apply X; reflexivity|reflexivity|reflexivity|reflexivity].
        -- split; cbn [w_service w_barrier w_owed w_requests w_next s_receivers s_returns b_expected]; rewrite ?connected_snoc, ?RQ; auto; try lia.
           rewrite owed_remove, erase_prepared. destruct (without p (b_expected (w_barrier w))) as [|q l] eqn:W.
           ++ left. repeat split; reflexivity.
           ++ right. exists c, u. repeat split; auto; try discriminate.
              intros x I. rewrite <- W in I. apply without_In in I. apply F; tauto.
      * cbn [fst snd]. split; [apply did_none; try reflexivity; discriminate|]. split; rewrite ?connected_snoc, ?RQ; auto; try lia.
        right. exists c, v. repeat split; try apply A; auto.
      * cbn [fst snd]. split; [apply did_none; try reflexivity; discriminate|]. split; rewrite ?connected_snoc, ?RQ; auto; try lia.
        right. exists c, v. repeat split; try apply A; auto.
  - (* call *)
    destruct (receive_call p u ft (w_service w)) as [o s'] eqn:E. cbn [fst snd].
    assert (X : (o = [Threw] \/ exists st, o = [SentReturn p u ft st]) /\ s_receivers s' = s_receivers (w_service w) /\ s_returns s' = s_returns (w_service w)).
    { revert E. unfold receive_call. destruct (lookup u (s_initiators (w_service w))) eqn:L; [intros E; injection E as <- <-; auto|].
      assert (L' : lookup u (s_initiators (w_service w) ++ [(u, p)]) = Some p).
      { revert L. unfold lookup. clear. induction (s_initiators (w_service w)) as [|[k q] l IH]; cbn; [rewrite Nat.eqb_refl; reflexivity|].
        destruct (k =? u); [discriminate|exact IH]. }
      unfold submit. cbn [s_initiators s_receivers s_returns]. rewrite L'. change (ft_replies =? ft_invalid) with false. cbn [procedures existsb]. rewrite orb_false_r.
      destruct (Nat.eqb_spec ft ft_replies) as [->|NF].
      - destruct (existsb (Nat.eqb p) (s_receivers (w_service w))); intros E; injection E as <- <-; cbn; eauto.
      - destruct (ft =? ft_invalid); [|destruct (existsb (Nat.eqb p) (s_receivers (w_service w)))]; intros E; injection E as <- <-; cbn; eauto. }
    destruct X as (X & Y & Z). split; [apply did_call; auto|].
    split; cbn [w_service w_barrier w_owed w_requests w_next]; rewrite ?connected_snoc, ?RQ, ?Y, ?Z; auto; lia.
Qed.

Lemma sinv_run : forall evs, sinv (snd (run evs)) evs.
Proof.
  induction evs as [|e evs IH] using rev_ind.
  - split; cbn; try (constructor; fail); auto. left. repeat split.
  - rewrite run_snoc. destruct (step (snd (run evs)) e) as [o x] eqn:E. cbn [snd]. destruct (step_did _ _ e IH) as [_ H]. rewrite E in H. exact H.
Qed.
Lemma run_did : forall evs e, did (snd (run evs)) e (fst (step (snd (run evs)) e)) (snd (run (evs ++ [e]))) /\
  fst (run (evs ++ [e])) = fst (run evs) ++ fst (step (snd (run evs)) e).
Proof.
  intros. rewrite run_snoc. destruct (step_did _ _ e (sinv_run evs)) as [D _]. destruct (step _ _) as [o x]. cbn [fst snd] in *. auto.
Qed.

(** C28: accounting *)
Lemma completed_app : forall c a b, completed c (a ++ b) = completed c a + completed c b.
Proof. intros. unfold completed. rewrite filter_app, app_length. reflexivity. Qed.
Lemma dropped_app : forall c a b, dropped c (a ++ b) = dropped c a + dropped c b.
Proof. intros. unfold dropped. rewrite filter_app, app_length. reflexivity. Qed.
Definition occ (c : nat) (l : list nat) : nat := List.length (filter (fun x => Nat.eqb x c) l).
Definition pending (c : nat) (b : barrier) : nat := if b_active b && match b_completion b with Some d => Nat.eqb d c | None => false end then 1 else 0.
Lemma pending_idle : forall c b, idle b -> pending c b = 0.
Proof. intros c b [A _]. unfold pending. rewrite A. reflexivity. Qed.
Lemma pending_waiting : forall c b d u, waiting b d u -> pending c b = if Nat.eqb d c then 1 else 0.
Proof. intros c b d u (A & _ & B & _). unfold pending. rewrite A, B. reflexivity. Qed.

Ltac red1 := unfold completed, dropped, occ in *; rewrite ?Nat.add_0_r; cbn [filter List.length app] in *.
Lemma accounting : forall evs c,
  occ c (w_queue (snd (run evs))) + completed c (fst (run evs)) + dropped c (fst (run evs)) + pending c (w_barrier (snd (run evs))) =
  if c <? requests evs then 1 else 0.
Proof.
  intros evs c. induction evs as [|e evs IH] using rev_ind; [reflexivity|].
  assert (VQ := v_requests _ _ (sinv_run evs)).
  assert (RQ : requests (evs ++ [e]) = requests evs + match e with ERequest => 1 | _ => 0 end).
  { unfold requests. rewrite filter_app, app_length. destruct e; cbn; lia. }
  destruct (run_did evs e) as [D O]. rewrite O, completed_app, dropped_app, RQ.
  set (o := fst (step (snd (run evs)) e)) in *. clearbody o. set (x' := snd (run (evs ++ [e]))) in *. clearbody x'. clear O RQ.
  set (x := snd (run evs)) in *. set (o0 := fst (run evs)) in *. clearbody x o0.
  destruct D as [p w' B Q N R|e w' NR ND B Q N R SE|p u ft w' o B Q N R OO|w' B Q N R|QE|c1 q c0 u0 w' QE W B Q N R|c1 q w' QE W RE W' Q N R|c1 q w' QE W W' BE Q N R|e p c1 u st w' W I EE BE W' Q N R].
  - rewrite B, Q. red1. lia.
  - rewrite B, Q. destruct e; try congruence; red1; lia.
  - rewrite B, Q. destruct OO as [->|[st ->]]; red1; lia.
  - rewrite B, Q. unfold occ in *. rewrite filter_app, app_length. red1. rewrite VQ. destruct (Nat.eqb_spec (requests evs) c) as [EC|NC]; cbn [List.length];
      destruct (Nat.ltb_spec c (requests evs)), (Nat.ltb_spec c (requests evs + 1)); lia.
  - red1. lia.
  - rewrite B, Q. rewrite QE in IH. red1. destruct (c1 =? c); cbn [List.length] in *; lia.
  - rewrite Q. rewrite QE in IH. rewrite (pending_idle _ _ W) in IH. rewrite (pending_idle _ _ W'). red1. destruct (c1 =? c); cbn [List.length] in *; lia.
  - rewrite Q. rewrite QE in IH. rewrite (pending_idle _ _ W) in IH. rewrite (pending_waiting _ _ _ _ W'). red1. destruct (c1 =? c); cbn [List.length] in *; lia.
  - rewrite Q. rewrite (pending_waiting _ _ _ _ W) in IH.
    assert (RR : match e with ERequest => 1 | _ => 0 end = 0) by (destruct EE as [[-> _]| ->]; reflexivity). rewrite RR.
    destruct W' as [[W0 W']|W'].
    + rewrite W0, (pending_idle _ _ W'). cbn [settle_out]. red1. destruct (c1 =? c); cbn [List.length]; lia.
    + rewrite (pending_waiting _ _ _ _ W').
      assert (without p (b_expected (w_barrier x)) <> []) by (rewrite <- BE; apply W').
      destruct (without p (b_expected (w_barrier x))); [congruence|]. cbn [settle_out]. red1. lia.
Qed.

Theorem at_most_once : forall evs c, completed c (fst (run evs)) + dropped c (fst (run evs)) <= 1.
Proof. intros evs c. assert (A := accounting evs c). destruct (c <? requests evs); lia. Qed.
Theorem exactly_once : forall evs c, c < requests evs -> w_queue (snd (run evs)) = [] -> w_owed (snd (run evs)) = [] ->
  completed c (fst (run evs)) + dropped c (fst (run evs)) = 1.
Proof.
  intros evs c L Q O. assert (A := accounting evs c). rewrite Q in A. destruct (v_state _ _ (sinv_run evs)) as [(I & _)|(c0 & u & (W1 & W2 & _) & _ & _ & D & _)].
  - rewrite (pending_idle _ _ I) in A. cbn [occ filter List.length] in A. destruct (Nat.ltb_spec c (requests evs)); cbn in A; lia.
  - rewrite O in D. destruct (b_expected (w_barrier (snd (run evs)))); [congruence|discriminate].
Qed.

(** C28: completion only after all are settled *)
Definition good (evs : list ev) (c : nat) (w : list name) : Prop :=
  exists e1 e2 u, evs = e1 ++ EDeferred :: e2 /\
    fst (run (e1 ++ [EDeferred])) = fst (run e1) ++ [Started c (connected e1); SentCall u ft_replies (connected e1)] /\
    forall p, In p (connected e1) -> In p w \/ exists e, In e e2 /\ settles p u e.
Definition good0 (evs : list ev) (c : nat) : Prop :=
  exists e1 e2, evs = e1 ++ EDeferred :: e2 /\ connected e1 = [] /\ fst (run (e1 ++ [EDeferred])) = fst (run e1) ++ [Started c []; Completed c].
Lemma good_more : forall evs e c w, good evs c w -> good (evs ++ [e]) c w.
Proof.
  intros evs e c w (e1 & e2 & u & A & B & C). exists e1, (e2 ++ [e]), u. split; [rewrite A, <- app_assoc; reflexivity|]. split; [exact B|].
  intros p I. destruct (C p I) as [?|(e0 & J & K)]; [auto|right]. exists e0. split; [apply in_or_app; auto|exact K].
Qed.
Lemma good0_more : forall evs e c, good0 evs c -> good0 (evs ++ [e]) c.
Proof. intros evs e c (e1 & e2 & A & B). exists e1, (e2 ++ [e]). split; [rewrite A, <- app_assoc; reflexivity|exact B]. Qed.

Lemma safety : forall evs,
  (forall c u, waiting (w_barrier (snd (run evs))) c u ->
     exists e1 e2, evs = e1 ++ EDeferred :: e2 /\
       fst (run (e1 ++ [EDeferred])) = fst (run e1) ++ [Started c (connected e1); SentCall u ft_replies (connected e1)] /\
       forall p, In p (connected e1) -> In p (b_expected (w_barrier (snd (run evs)))) \/ exists e, In e e2 /\ settles p u e) /\
  (forall c, In (Completed c) (fst (run evs)) -> good0 evs c \/ good evs c []).
Proof.
  induction evs as [|e evs [IW IC]] using rev_ind.
  - split; [intros c u (A & _); discriminate A|intros c []].
  - destruct (run_did evs e) as [D O]. rewrite O.
    assert (VR := v_recv _ _ (sinv_run evs)).
    assert (OLD : forall c, In (Completed c) (fst (run evs)) -> good0 (evs ++ [e]) c \/ good (evs ++ [e]) c []).
    { intros c I. destruct (IC c I); [left; apply good0_more|right; apply good_more]; assumption. }
    assert (EXT : forall c u, waiting (w_barrier (snd (run evs))) c u ->
      exists e1 e2, evs ++ [e] = e1 ++ EDeferred :: e2 /\
       fst (run (e1 ++ [EDeferred])) = fst (run e1) ++ [Started c (connected e1); SentCall u ft_replies (connected e1)] /\
       forall p, In p (connected e1) -> In p (b_expected (w_barrier (snd (run evs)))) /\ ~ settles p u e \/ exists e, In e e2 /\ settles p u e).
    { intros c u W. destruct (IW c u W) as (e1 & e2 & A & B & C). exists e1, (e2 ++ [e]). split; [rewrite A, <- app_assoc; reflexivity|]. split; [exact B|].
      intros p I. assert (DEC : settles p u e \/ ~ settles p u e).
      { unfold settles. destruct e as [q|q| | |q v st|q v f]; try (right; intros [X|[s X]]; discriminate X).
        - destruct (Nat.eq_dec p q); [left; left; congruence|right; intros [X|[s X]]; congruence].
        - destruct (Nat.eq_dec p q); [destruct (Nat.eq_dec u v); [left; right; exists st; congruence|]|]; right; intros [X|[s X]]; congruence. }
      destruct DEC as [S|S]; [right; exists e; split; [apply in_or_app; right; left; reflexivity|exact S]|].
      destruct (C p I) as [?|(e0 & J & K)]; [left; auto|right]. exists e0. split; [apply in_or_app; auto|exact K]. }
    assert (SAME : forall c u w', w_barrier w' = w_barrier (snd (run evs)) -> waiting (w_barrier w') c u ->
      exists e1 e2, evs ++ [e] = e1 ++ EDeferred :: e2 /\
       fst (run (e1 ++ [EDeferred])) = fst (run e1) ++ [Started c (connected e1); SentCall u ft_replies (connected e1)] /\
       forall p, In p (connected e1) -> In p (b_expected (w_barrier w')) \/ exists e, In e e2 /\ settles p u e).
    { intros c u w' B W. rewrite B in W. destruct (EXT c u W) as (e1 & e2 & X & Y & Z). exists e1, e2. split; [exact X|]. split; [exact Y|].
      intros p I. rewrite B. destruct (Z p I) as [[? _]|?]; auto. }
    assert (STEPOUT : fst (run (evs ++ [e])) = fst (run evs) ++ fst (step (snd (run evs)) e)) by exact O.
    set (o := fst (step (snd (run evs)) e)) in *. clearbody o. set (x' := snd (run (evs ++ [e]))) in *. clearbody x'. clear O.
    destruct D as [p w' B Q N R|e w' NR ND B Q N R SE|p u0 ft w' o B Q N R OO|w' B Q N R|QE|c1 q c0 u0 w' QE W B Q N R|c1 q w' QE W RE W' Q N R|c1 q w' QE W W' BE Q N R|e p c1 u0 st w' W I EE BE W' Q N R].
    + split; [intros c u; apply SAME, B|rewrite app_nil_r; exact OLD].
    + split; [intros c u; apply SAME, B|rewrite app_nil_r; exact OLD].
    + split; [intros c u; apply SAME, B|]. intros c J. apply in_app_or in J. destruct J as [J|J]; [auto|].
      destruct OO as [->|[st ->]]; destruct J as [J|[]]; discriminate.
    + split; [intros c u; apply SAME, B|rewrite app_nil_r; exact OLD].
    + split; [intros c u; apply SAME; reflexivity|rewrite app_nil_r; exact OLD].
    + split; [intros c u; apply SAME, B|]. intros c J. apply in_app_or in J. destruct J as [J|[J|[]]]; [auto|discriminate].
    + split; [intros c u (A & _); destruct W' as [W' _]; congruence|].
      intros c J. apply in_app_or in J. destruct J as [J|[J|[J|[]]]]; [auto|discriminate|]. injection J as <-.
      left. exists evs, []. split; [reflexivity|]. split; [congruence|exact STEPOUT].
    + split.
      * intros c u (A1 & A2 & A3 & A4). destruct W' as (B1 & B2 & B3 & B4). assert (c = c1) by congruence. assert (u = w_next (snd (run evs))) by congruence. subst c u.
        exists evs, []. split; [reflexivity|]. rewrite VR in *. split; [exact STEPOUT|]. intros p I. left. rewrite BE. exact I.
      * intros c J. apply in_app_or in J. destruct J as [J|[J|[J|[]]]]; [auto|discriminate|discriminate].
    + destruct (EXT c1 u0 W) as (e1 & e2 & X & Y & Z).
      assert (S : settles p u0 e) by (destruct EE as [[-> _]| ->]; [left; reflexivity|right; exists st; reflexivity]).
      assert (NOT : forall q, In q (connected e1) -> (In q (b_expected (w_barrier w')) \/ exists e0, In e0 e2 /\ settles q u0 e0)).
      { intros q J. destruct (Z q J) as [[K NS]|K]; [left|right; exact K]. rewrite BE. apply without_In. split; [exact K|]. intros ->. tauto. }
      split.
      * intros c u W2. destruct W' as [[_ [W' _]]|W']; [destruct W2 as (A & _); congruence|].
        destruct W2 as (A1 & A2 & A3 & A4). destruct W' as (B1 & B2 & B3 & B4). assert (c = c1) by congruence. assert (u = u0) by congruence. subst c u.
        exists e1, e2. auto.
      * intros c J. apply in_app_or in J. destruct J as [J|[J|J]]; [auto|discriminate|].
        destruct (without p (b_expected (w_barrier (snd (run evs))))) eqn:WE; [|destruct J]. destruct J as [J|[]]. injection J as <-.
        right. exists e1, e2, u0. split; [exact X|]. split; [exact Y|]. intros q K. destruct (NOT q K) as [L|L]; [rewrite BE in L; destruct L|right; exact L].
Qed.

Theorem only_after : forall evs c, In (Completed c) (fst (run evs)) ->
  exists e1 e2 o, evs = e1 ++ EDeferred :: e2 /\ fst (run (e1 ++ [EDeferred])) = fst (run e1) ++ Started c (connected e1) :: o /\
    forall p, In p (connected e1) -> exists u e, In (SentCall u ft_replies (connected e1)) o /\ In e e2 /\ settles p u e.
Proof.
  intros evs c I. destruct (safety evs) as [_ S]. destruct (S c I) as [(e1 & e2 & A & B & C)|(e1 & e2 & u & A & B & C)].
  - exists e1, e2, [Completed c]. rewrite B. split; [exact A|]. split; [exact C|]. intros p [].
  - exists e1, e2, [SentCall u ft_replies (connected e1)]. split; [exact A|]. split; [exact B|]. intros p J.
    destruct (C p J) as [[]|(e & K & L)]. exists u, e. split; [left; reflexivity|auto].
Qed.

(** a request is dropped only while another one waits *)
Theorem dropped_only : forall evs c a b, fst (run evs) = a ++ Dropped c :: b ->
  exists d R, In (Started d R) a /\ ~ In (Completed d) a.
Proof.
  assert (W : forall evs d u, waiting (w_barrier (snd (run evs))) d u -> exists R, In (Started d R) (fst (run evs)) /\ ~ In (Completed d) (fst (run evs))).
  { intros evs d u W. destruct (safety evs) as [S _]. destruct (S d u W) as (e1 & e2 & A & B & _). exists (connected e1). split.
    - assert (M : forall l l', In (Started d (connected e1)) (fst (run l)) -> In (Started d (connected e1)) (fst (run (l ++ l')))).
      { intros l l'. induction l' as [|e l' IH] using rev_ind; [rewrite app_nil_r; auto|]. intros I. rewrite app_assoc, run_snoc.
        destruct (step _ _). cbn [fst]. apply in_or_app. auto. }
      rewrite A. change (e1 ++ EDeferred :: e2) with (e1 ++ [EDeferred] ++ e2). rewrite app_assoc. apply M. rewrite B. apply in_or_app. right. left. reflexivity.
    - intros I. assert (AC := accounting evs d). rewrite (pending_waiting _ _ _ _ W), Nat.eqb_refl in AC.
      assert (completed d (fst (run evs)) > 0).
      { unfold completed. revert I. clear. induction (fst (run evs)) as [|x l IH]; [intros []|]. intros [->|I]; cbn; [rewrite Nat.eqb_refl; cbn; lia|].
        specialize (IH I). destruct (match x with Completed d0 => d0 =? d | _ => false end); cbn; lia. }
      destruct (d <? requests evs); lia. }
  induction evs as [|e evs IH] using rev_ind; intros c a b H; [destruct a; discriminate|].
  destruct (run_did evs e) as [D O]. rewrite O in H. clear O.
  assert (PRE : (exists b', fst (run evs) = a ++ Dropped c :: b') \/ (exists l, a = fst (run evs) ++ l /\ fst (step (snd (run evs)) e) = l ++ Dropped c :: b)).
  { revert H. generalize (fst (run evs)) as o0. generalize (fst (step (snd (run evs)) e)) as o1. clear. induction a as [|y a IH]; intros o1 o0 H.
    - destruct o0 as [|z o0]; [right; exists []; auto|left]. injection H as -> H. exists o0. reflexivity.
    - destruct o0 as [|z o0]; [right; exists (y :: a); auto|]. injection H as -> H. destruct (IH _ _ H) as [[b' E]|(l & E & F)].
      + left. exists b'. cbn. rewrite E. reflexivity.
      + right. exists l. cbn. rewrite E. auto. }
  destruct PRE as [[b' E]|(l & -> & F)]; [eapply IH; eauto|]. rewrite F in D.
  assert (I : In (Dropped c) (l ++ Dropped c :: b)) by (apply in_or_app; right; left; reflexivity).
  remember (l ++ Dropped c :: b) as o eqn:EO.
  destruct D as [p w' B Q N R|e w' NR ND B Q N R SE|p u0 ft w' o B Q N R OO|w' B Q N R|QE|c1 q c0 u0 w' QE WW B Q N R|c1 q w' QE WW RE W' Q N R|c1 q w' QE WW W' BE Q N R|e p c1 u0 st w' WW II EE BE W' Q N R].
  1,2,4,5: destruct I.
  - destruct OO as [->|[st ->]]; destruct I as [I|[]]; discriminate.
  - assert (l = []) by (destruct l as [|? [|? ?]]; [reflexivity|discriminate|discriminate]). subst l. rewrite app_nil_r. destruct (W _ _ _ WW) as [R0 ?]. eauto.
  - destruct I as [I|[I|[]]]; discriminate.
  - destruct I as [I|[I|[]]]; discriminate.
  - destruct I as [I|I]; [discriminate|]. destruct (without _ _); [destruct I as [I|[]]; discriminate|destruct I].
Qed.

(** C29: exactly one return per addressed participant *)
Lemma returns_app : forall p u a b, returns p u (a ++ b) = returns p u a + returns p u b.
Proof. intros. unfold returns. rewrite filter_app, app_length. reflexivity. Qed.
Definition addressed (p : name) (u : uuid) (o : list out) : Prop := exists ft R, In (SentCall u ft R) o /\ In p R.
Definition owes (p : name) (u : uuid) (w : world) : Prop := In (p, u) (w_owed w).
Lemma owed_In : forall u l p v, In (p, v) (owed u l) <-> u = v /\ In p l.
Proof. intros. unfold owed. rewrite in_map_iff. split; [intros (x & E & I); injection E as <- <-; auto|intros [<- I]; eauto]. Qed.
Lemma owed_snd : forall u l x, In x (owed u l) -> snd x = u.
Proof. intros u l x I. unfold owed in I. apply in_map_iff in I. destruct I as (y & <- & _). reflexivity. Qed.

Lemma returned_once : forall evs,
  (forall u ft R, In (SentCall u ft R) (fst (run evs)) -> u < w_next (snd (run evs))) /\
  (forall p u, returns p u (fst (run evs)) <= 1) /\
  (forall p u, addressed p u (fst (run evs)) -> owes p u (snd (run evs)) /\ returns p u (fst (run evs)) = 0 \/ ~ owes p u (snd (run evs)) /\ returns p u (fst (run evs)) = 1) /\
  (forall p u, ~ addressed p u (fst (run evs)) -> returns p u (fst (run evs)) = 0) /\
  (forall p u, owes p u (snd (run evs)) -> addressed p u (fst (run evs))).
Proof.
  induction evs as [|e evs (IF & IO & IA & IN & IW)] using rev_ind.
  - repeat split; cbn; try tauto; try lia. intros p u (ft & R & [] & _).
  - destruct (run_did evs e) as [D O].
    assert (S0 := v_state _ _ (sinv_run evs)). assert (S1 := v_state _ _ (sinv_run (evs ++ [e]))). rewrite O.
    set (o := fst (step (snd (run evs)) e)) in *. clearbody o. set (x' := snd (run (evs ++ [e]))) in *. clearbody x'. clear O.
    set (x := snd (run evs)) in *. set (o0 := fst (run evs)) in *. clearbody x o0.
    assert (OW0 : forall p u, owes p u x <-> exists c, waiting (w_barrier x) c u /\ In p (b_expected (w_barrier x))).
    { intros p u. unfold owes. destruct S0 as [(I & _ & E)|(c & v & W & L & _ & E & _)]; rewrite E.
      - split; [intros []|intros (c & (A & _) & _); destruct I; congruence].
      - rewrite owed_In. split; [intros [<- J]; eauto|]. intros (c' & W' & J). split; [|exact J]. destruct W as (_ & _ & _ & U1), W' as (_ & _ & _ & U2). congruence. }
    assert (OW1 : forall p u, owes p u x' <-> exists c, waiting (w_barrier x') c u /\ In p (b_expected (w_barrier x'))).
    { intros p u. unfold owes. destruct S1 as [(I & _ & E)|(c & v & W & L & _ & E & _)]; rewrite E.
      - split; [intros []|intros (c & (A & _) & _); destruct I; congruence].
      - rewrite owed_In. split; [intros [<- J]; eauto|]. intros (c' & W' & J). split; [|exact J]. destruct W as (_ & _ & _ & U1), W' as (_ & _ & _ & U2). congruence. }
    assert (QUIET : forall o1, w_barrier x' = w_barrier x -> w_next x <= w_next x' -> (forall u ft R, ~ In (SentCall u ft R) o1) -> (forall p u, returns p u o1 = 0) ->
      (forall u ft R, In (SentCall u ft R) (o0 ++ o1) -> u < w_next x') /\
      (forall p u, returns p u (o0 ++ o1) <= 1) /\
      (forall p u, addressed p u (o0 ++ o1) -> owes p u x' /\ returns p u (o0 ++ o1) = 0 \/ ~ owes p u x' /\ returns p u (o0 ++ o1) = 1) /\
      (forall p u, ~ addressed p u (o0 ++ o1) -> returns p u (o0 ++ o1) = 0) /\
      (forall p u, owes p u x' -> addressed p u (o0 ++ o1))).
    { intros o1 B N NS NR.
      assert (AD : forall p u, addressed p u (o0 ++ o1) <-> addressed p u o0).
      { intros p u. split; intros (ft & R & I & J); exists ft, R; split; auto; [apply in_app_or in I; destruct I as [I|I]; [exact I|exfalso; eapply NS; eauto]|apply in_or_app; auto]. }
      assert (EO : forall p u, owes p u x' <-> owes p u x) by (intros p u; rewrite OW0, OW1, B; tauto).
      split; [|split; [|split; [|split]]].
      - intros u ft R I. apply in_app_or in I. destruct I as [I|I]; [|exfalso; eapply NS; eauto]. specialize (IF _ _ _ I). lia.
      - intros p u. rewrite returns_app, NR. specialize (IO p u). lia.
      - intros p u A. rewrite EO, returns_app, NR, Nat.add_0_r. apply IA, AD, A.
      - intros p u A. rewrite returns_app, NR, Nat.add_0_r. apply IN. rewrite <- AD. exact A.
      - intros p u A. apply AD, IW, EO, A. }
    destruct D as [p w' B Q N R|e w' NR ND B Q N R SE|p u0 ft w' o B Q N R OO|w' B Q N R|QE|c1 q c0 u0 w' QE W B Q N R|c1 q w' QE W RE W' Q N R|c1 q w' QE W W' BE Q N R|e p0 c1 u0 st w' W I EE BE W' Q N R].
    + apply QUIET; auto; lia.
    + apply QUIET; auto; lia.
    + apply QUIET; auto; try lia; destruct OO as [->|[st ->]]; cbn; intros; try reflexivity; intuition discriminate.
    + apply QUIET; auto; lia.
    + apply QUIET; auto; lia.
    + apply QUIET; auto; cbn; intros; try reflexivity. intuition discriminate.
    + (* alone *)
      assert (NA : forall p u, addressed p u (o0 ++ [Started c1 []; Completed c1]) <-> addressed p u o0).
      { intros p u. split; intros (ft & R0 & I & J); exists ft, R0; split; auto; [apply in_app_or in I; destruct I as [I|[I|[I|[]]]]; try discriminate; exact I|apply in_or_app; auto]. }
      assert (E0 : forall p u, ~ owes p u x) by (intros p u; rewrite OW0; intros (c & (A & _) & _); destruct W; congruence).
      assert (E1 : forall p u, ~ owes p u w') by (intros p u; rewrite OW1; intros (c & (A & _) & _); destruct W'; congruence).
      split; [|split; [|split; [|split]]].
      * intros u ft R0 I. apply in_app_or in I. destruct I as [I|[I|[I|[]]]]; try discriminate. specialize (IF _ _ _ I). lia.
      * intros p u. rewrite returns_app. cbn. specialize (IO p u). lia.
      * intros p u A. apply NA in A. rewrite returns_app. cbn [returns filter List.length]. right. split; [apply E1|]. destruct (IA p u A) as [[? _]|[_ ?]]; [exfalso; eapply E0; eauto|]. cbn. lia.
      * intros p u A. rewrite NA in A. rewrite returns_app, (IN p u A). reflexivity.
      * intros p u A. destruct (E1 p u A).
    + (* started *)
      set (RC := s_receivers (w_service x)) in *. set (u0 := w_next x) in *.
      assert (E0 : forall p u, ~ owes p u x) by (intros p u; rewrite OW0; intros (c & (A & _) & _); destruct W; congruence).
      assert (E1 : forall p u, owes p u w' <-> u = u0 /\ In p RC).
      { intros p u. rewrite OW1, BE. split; [intros (c & (_ & _ & _ & A) & J); split; [destruct W' as (_ & _ & _ & A'); congruence|exact J]|].
        intros [-> J]. exists c1. auto. }
      assert (FR : forall p, ~ addressed p u0 o0) by (intros p (ft & R0 & I & _); specialize (IF _ _ _ I); unfold u0 in IF; lia).
      assert (NA : forall p u, addressed p u (o0 ++ [Started c1 RC; SentCall u0 ft_replies RC]) <-> addressed p u o0 \/ (u = u0 /\ In p RC)).
      { intros p u. split.
        - intros (ft & R0 & I & J). apply in_app_or in I. destruct I as [I|[I|[I|[]]]]; try discriminate; [left; exists ft, R0; auto|right]. injection I as -> <- <-. auto.
        - intros [(ft & R0 & I & J)|[-> J]]; [exists ft, R0; split; [apply in_or_app; auto|exact J]|exists ft_replies, RC; split; [apply in_or_app; right; right; left; reflexivity|exact J]]. }
      assert (RT : forall p u, returns p u (o0 ++ [Started c1 RC; SentCall u0 ft_replies RC]) = returns p u o0) by (intros p u; rewrite returns_app; cbn; lia).
      split; [|split; [|split; [|split]]].
      * intros u ft R0 I. apply in_app_or in I. destruct I as [I|[I|[I|[]]]]; try discriminate; [specialize (IF _ _ _ I); unfold u0 in *; lia|]. injection I as <- _ _. lia.
      * intros p u. rewrite RT. apply IO.
      * intros p u A. rewrite RT, E1. apply NA in A. destruct A as [A|[-> J]].
        -- right. destruct (IA p u A) as [[? _]|[_ ?]]; [exfalso; eapply E0; eauto|]. split; [|assumption]. intros [-> _]. eapply FR; eauto.
        -- left. split; [auto|]. apply IN, FR.
      * intros p u A. rewrite NA in A. rewrite RT. apply IN. tauto.
      * intros p u A. apply NA. apply E1 in A. tauto.
    + (* settled *)
      assert (E0 : forall p u, owes p u x <-> u = u0 /\ In p (b_expected (w_barrier x))).
      { intros p u. rewrite OW0. split; [intros (c & (_ & _ & _ & A) & J); split; [destruct W as (_ & _ & _ & A'); congruence|exact J]|]. intros [-> J]. eauto. }
      assert (E1 : forall p u, owes p u w' <-> owes p u x /\ ~ (p = p0 /\ u = u0)).
      { intros p u. rewrite E0, OW1, BE. split.
        - intros (c & WW & J). apply without_In in J. destruct W' as [[_ [W' _]]|W']; [destruct WW; congruence|].
          assert (u = u0) by (destruct WW as (_ & _ & _ & A), W' as (_ & _ & _ & A'); congruence). tauto.
        - intros [[-> J] NP]. destruct W' as [[W0 _]|W']; [|exists c1; split; [exact W'|]; apply without_In; split; [exact J|intros ->; tauto]].
          exfalso. assert (JJ : In p (without p0 (b_expected (w_barrier x)))) by (apply without_In; split; [exact J|intros ->; tauto]). rewrite W0 in JJ. destruct JJ. }
      set (new := settle_out c1 (without p0 (b_expected (w_barrier x)))) in *.
      assert (NEW : forall y, In y new -> y = Completed c1) by (unfold new, settle_out; destruct (without _ _); cbn; intuition).
      assert (NR : forall p u, returns p u new = 0) by (intros p u; unfold new, settle_out; destruct (without _ _); reflexivity).
      assert (RT : forall p u, returns p u (o0 ++ Forwarded p0 u0 st :: new) = returns p u o0 + if Nat.eqb p0 p && Nat.eqb u0 u then 1 else 0).
      { intros p u. rewrite returns_app. specialize (NR p u). unfold returns in *. cbn [filter]. destruct (Nat.eqb p0 p && Nat.eqb u0 u); cbn [List.length]; lia. }
      assert (NA : forall p u, addressed p u (o0 ++ Forwarded p0 u0 st :: new) <-> addressed p u o0).
      { intros p u. split; intros (ft & R0 & II & J); exists ft, R0; split; auto; [apply in_app_or in II; destruct II as [II|[II|II]]; [exact II|discriminate|apply NEW in II; discriminate]|apply in_or_app; auto]. }
      assert (OWN : owes p0 u0 x) by (apply E0; auto).
      assert (AD0 : addressed p0 u0 o0) by (apply IW, OWN).
      split; [|split; [|split; [|split]]].
      * intros u ft R0 II. apply in_app_or in II. destruct II as [II|[II|II]]; [specialize (IF _ _ _ II); lia|discriminate|apply NEW in II; discriminate].
      * intros p u. rewrite RT. destruct (Nat.eqb_spec p0 p) as [<-|NP]; [destruct (Nat.eqb_spec u0 u) as [<-|NU]|]; cbn [andb]; try (specialize (IO p u); lia); try (specialize (IO p0 u); lia).
        destruct (IA p0 u0 AD0) as [[_ ?]|[? _]]; [lia|tauto].
      * intros p u A. apply NA in A. rewrite RT, E1. destruct (Nat.eqb_spec p0 p) as [<-|NP]; [destruct (Nat.eqb_spec u0 u) as [<-|NU]|]; cbn [andb]; rewrite ?Nat.add_0_r.
        -- right. split; [tauto|]. destruct (IA p0 u0 AD0) as [[_ ?]|[? _]]; [lia|tauto].
        -- destruct (IA p0 u A) as [[? ?]|[? ?]]; [left; split; [split; [assumption|intros [_ ?]; congruence]|assumption]|right; tauto].
        -- destruct (IA p u A) as [[? ?]|[? ?]]; [left; split; [split; [assumption|intros [? _]; congruence]|assumption]|right; tauto].
      * intros p u A. rewrite NA in A. rewrite RT, (IN p u A).
        destruct (Nat.eqb_spec p0 p) as [<-|NP]; [destruct (Nat.eqb_spec u0 u) as [<-|NU]|]; cbn [andb]; try lia. tauto.
      * intros p u A. apply NA, IW. apply E1 in A. tauto.
Qed.

(** The service by itself: at least one return *)
Lemma srun_snoc : forall evs e, srun (evs ++ [e]) = let (o, x) := sstep (snd (srun evs)) e in (fst (srun evs) ++ o, x).
Proof. intros. unfold srun. rewrite fold_left_app. reflexivity. Qed.
Definition in_map (p : name) (u : uuid) (ft : ftype) (m : list (name * list (uuid * ftype))) : Prop :=
  exists l, lookup p m = Some l /\ In (u, ft) l.
Lemma lookup_app : forall {A} k (a b : list (nat * A)), lookup k (a ++ b) = match lookup k a with Some x => Some x | None => lookup k b end.
Proof. intros A k a b. unfold lookup. induction a as [|[j x] a IH]; cbn; [reflexivity|]. destruct (j =? k); cbn; [reflexivity|exact IH]. Qed.
Lemma lookup_map_same : forall (m : list (name * list (uuid * ftype))) p (f : list (uuid * ftype)) l, lookup p m = Some l ->
  lookup p (map (fun x => if Nat.eqb (fst x) p then (p, f) else x) m) = Some f.
Proof.
  intros m p f l. unfold lookup. induction m as [|[j x] m IH]; cbn; [discriminate|]. destruct (Nat.eqb_spec j p) as [->|N]; cbn.
  - rewrite Nat.eqb_refl. reflexivity.
  - destruct (Nat.eqb_spec j p); [congruence|]. exact IH.
Qed.
Lemma lookup_map_other : forall (m : list (name * list (uuid * ftype))) p q (f : list (uuid * ftype)), q <> p ->
  lookup q (map (fun x => if Nat.eqb (fst x) p then (p, f) else x) m) = lookup q m.
Proof.
  intros m p q f N. unfold lookup. induction m as [|[j x] m IH]; cbn; [reflexivity|]. destruct (Nat.eqb_spec j p) as [->|NJ]; cbn.
  - destruct (Nat.eqb_spec p q); [congruence|]. exact IH.
  - destruct (j =? q); [reflexivity|exact IH].
Qed.
Lemma prepare_keeps : forall u ft m p q v f, in_map q v f m -> in_map q v f (prepare u ft m p).
Proof.
  intros u ft m p q v f (l & L & I). unfold prepare. destruct (lookup p m) as [k|] eqn:E.
  - destruct (Nat.eq_dec q p) as [->|N].
    + assert (k = l) by congruence. subst k. eexists. split; [eapply lookup_map_same; exact L|]. destruct (lookup u l); [exact I|apply in_or_app; auto].
    + exists l. rewrite lookup_map_other by exact N. auto.
  - exists l. rewrite lookup_app, L. auto.
Qed.
Lemma lookup_some_in : forall {A} k (l : list (nat * A)) x, lookup k l = Some x -> In (k, x) l.
Proof.
  intros A k l x. unfold lookup. induction l as [|[j y] l IH]; cbn; [discriminate|]. destruct (Nat.eqb_spec j k) as [->|]; cbn.
  - intros E. injection E as ->. auto.
  - auto.
Qed.
Lemma prepare_adds : forall u ft m p, exists f, in_map p u f (prepare u ft m p).
Proof.
  intros u ft m p. unfold prepare. destruct (lookup p m) as [k|] eqn:E.
  - destruct (lookup u k) as [f|] eqn:U.
    + exists f, k. split; [eapply lookup_map_same; exact E|]. apply lookup_some_in, U.
    + exists ft, (k ++ [(u, ft)]). split; [eapply lookup_map_same; exact E|]. apply in_or_app. right. left. reflexivity.
  - exists ft, [(u, ft)]. rewrite lookup_app, E. unfold lookup. cbn. rewrite Nat.eqb_refl. cbn. auto.
Qed.
Lemma fold_prepare_keeps : forall u ft r m q v f, in_map q v f m -> in_map q v f (fold_left (prepare u ft) r m).
Proof. intros u ft r. induction r as [|p r IH]; intros; cbn; [assumption|]. apply IH, prepare_keeps, H. Qed.
Lemma fold_prepare_adds : forall u ft r m p, In p r -> exists f, in_map p u f (fold_left (prepare u ft) r m).
Proof.
  intros u ft r. induction r as [|q r IH]; intros m p I; [destruct I|]. cbn. destruct I as [->|I]; [|apply IH, I].
  destruct (prepare_adds u ft m p) as [f H]. exists f. apply fold_prepare_keeps, H.
Qed.

Definition fts_ok (m : list (name * list (uuid * ftype))) : Prop := forall p l, In (p, l) m -> forall u ft, In (u, ft) l -> ft = ft_replies.
Lemma lookup_in : forall {A} k (m : list (nat * A)) x, lookup k m = Some x -> In (k, x) m.
Proof. intros. apply lookup_some_in. assumption. Qed.
Lemma fold_prepare_ok : forall u r m, fts_ok m -> fts_ok (fold_left (prepare u ft_replies) r m).
Proof.
  intros u r. induction r as [|p r IH]; intros m H; [exact H|]. cbn. apply IH. unfold prepare. destruct (lookup p m) as [k|] eqn:E.
  - intros q l I. apply in_map_iff in I. destruct I as ((j & x) & E' & I). cbn [fst] in E'. destruct (Nat.eqb_spec j p) as [->|N].
    + injection E' as <- <-. intros v f J. destruct (lookup u k); [eapply H; [apply lookup_in, E|exact J]|].
      apply in_app_or in J. destruct J as [J|[J|[]]]; [eapply H; [apply lookup_in, E|exact J]|congruence].
    + injection E' as <- <-. apply (H _ _ I).
  - intros q l I. apply in_app_or in I. destruct I as [I|[I|[]]]; [apply (H _ _ I)|]. injection I as <- <-. intros v f [J|[]]. congruence.
Qed.
Lemma erase_ok : forall p m, fts_ok m -> fts_ok (erase p m).
Proof. intros p m H q l I. unfold erase in I. apply filter_In in I. apply (H q l), I. Qed.
Lemma lookup_erase_other : forall {A} p q (m : list (nat * A)), q <> p -> lookup q (erase p m) = lookup q m.
Proof.
  intros A p q m N. unfold lookup, erase. induction m as [|[j x] m IH]; cbn; [reflexivity|]. destruct (Nat.eqb_spec j p) as [->|NJ]; cbn.
  - destruct (Nat.eqb_spec p q); [congruence|]. exact IH.
  - destruct (j =? q); [reflexivity|exact IH].
Qed.

Lemma forward_all_returns : forall p l b u ft, (forall v f, In (v, f) l -> f = ft_replies) -> In (u, ft) l ->
  returns p u (fst (fst (forward_all p l b))) > 0.
Proof.
  intros p l. induction l as [|[v f] l IH]; intros b u ft OK I; [destruct I|]. cbn [forward_all]. unfold forward.
  assert (f = ft_replies) by (apply (OK v f); left; reflexivity). subst f. cbn [procedures existsb]. change (ft_replies =? ft_replies) with true. cbn [orb].
  destruct (receive_return p v b) as [o b']. destruct (forward_all p l b') as [[o' b''] ok] eqn:E. cbn [fst].
  change ((Forwarded p v RecipientDisconnected :: o) ++ o') with ([Forwarded p v RecipientDisconnected] ++ o ++ o'). rewrite !returns_app.
  destruct I as [I|I].
  - injection I as <- _. cbn. rewrite !Nat.eqb_refl. cbn. lia.
  - assert (H := IH b' u ft ltac:(intros; eapply OK; right; eauto) I). rewrite E in H. cbn [fst] in H. lia.
Qed.
Lemma forward_all_ok : forall p l b, (forall v f, In (v, f) l -> f = ft_replies) -> snd (forward_all p l b) = true.
Proof.
  intros p l. induction l as [|[v f] l IH]; intros b OK; [reflexivity|]. cbn [forward_all]. unfold forward.
  assert (f = ft_replies) by (apply (OK v f); left; reflexivity). subst f. cbn [procedures existsb]. change (ft_replies =? ft_replies) with true. cbn [orb].
  destruct (receive_return p v b) as [o b']. destruct (forward_all p l b') as [[o' b''] ok] eqn:E. cbn [snd].
  change ok with (snd (o', b'', ok)). rewrite <- E. apply IH. intros. eapply OK. right. eauto.
Qed.

(** every call the service sent: prepared, or returned *)
Definition calls_ok (evs : list sev) : Prop := forall ft u, In (SCall ft u) evs -> ft = ft_replies.
Definition returns_ok (evs : list sev) : Prop := forall p u ft st, In (SReturn p u ft st) evs -> ft = ft_replies.
Lemma service_inv : forall evs, calls_ok evs -> returns_ok evs -> fts_ok (s_returns (fst (snd (srun evs)))) /\
  forall p u, addressed p u (fst (srun evs)) -> (exists ft, in_map p u ft (s_returns (fst (snd (srun evs))))) \/ returns p u (fst (srun evs)) > 0.
Proof.
  induction evs as [|e evs IH] using rev_ind; intros C R.
  - split; [intros p l []|]. intros p u (ft & T & [] & _).
  - destruct IH as [OK IH]; [intros ft u I; apply (C ft u), in_or_app; auto|intros p u ft st I; apply (R p u ft st), in_or_app; auto|].
    rewrite srun_snoc. destruct (snd (srun evs)) as [s b]. cbn [fst snd] in OK, IH. set (o0 := fst (srun evs)) in *. clearbody o0.
    destruct e as [ft u|p u ft st|p|p]; cbn [sstep].
    + assert (ft = ft_replies) by (apply (C ft u), in_or_app; right; left; reflexivity). subst ft.
      unfold call. cbn [Nat.eqb ft_replies ft_invalid]. cbn [fst snd s_returns]. split; [apply fold_prepare_ok, OK|].
      intros p v (f & T & I & J). rewrite returns_app. apply in_app_or in I. destruct I as [I|[I|[]]].
      * destruct (IH p v) as [[f' H]|H]; [exists f, T; auto|left; exists f'; apply fold_prepare_keeps, H|right; lia].
      * injection I as <- <- <-. left. apply fold_prepare_adds, J.
    + assert (ft = ft_replies) by (apply (R p u ft st), in_or_app; right; left; reflexivity). subst ft.
      unfold receive_call_return, forward. cbn [procedures existsb]. change (ft_replies =? ft_replies) with true. cbn [orb].
      destruct (receive_return p u b) as [o b'] eqn:E. cbn [fst snd]. 
      assert (NS : forall v f T, ~ In (SentCall v f T) o).
      { intros v f T I. revert E. unfold receive_return. destruct (b_active b && _); [destruct (filter _ _)|]; intros E; injection E as <- <-.
        - destruct (b_completion b); cbn in I; intuition discriminate.
        - destruct I.
        - destruct I. }
      split.
      * unfold remove_from_lookup. destruct (lookup p (s_returns s)) as [l|]; [|exact OK]. destruct (erase u l); [apply erase_ok, OK|exact OK].
      * intros q v (f & T & I & J). change (Forwarded p u st :: o) with ([Forwarded p u st] ++ o). rewrite !returns_app.
        apply in_app_or in I. destruct I as [I|[I|I]]; [|discriminate|exfalso; eapply NS; eauto].
        destruct (IH q v) as [[f' (l & L & H)]|H]; [exists f, T; auto| |right; lia].
        unfold remove_from_lookup. destruct (lookup p (s_returns s)) as [k|] eqn:EP; [|left; exists f', l; auto].
        destruct (erase u k) as [|y ys] eqn:EE; [|left; exists f', l; auto]. cbn [s_returns].
        destruct (Nat.eq_dec q p) as [->|N]; [|left; exists f', l; rewrite lookup_erase_other by exact N; auto].
        right. assert (k = l) by congruence. subst k. assert (v = u).
        { destruct (Nat.eq_dec v u); [assumption|exfalso]. assert (X : In (v, f') (erase u l)) by (apply filter_In; split; [exact H|cbn; apply Bool.negb_true_iff, Nat.eqb_neq; assumption]).
          rewrite EE in X. destruct X. }
        subst v. cbn. rewrite !Nat.eqb_refl. cbn. lia.
    + unfold removal. destruct (lookup p (s_returns s)) as [l|] eqn:EL.
      * assert (OKL : forall v f, In (v, f) l -> f = ft_replies) by (intros v f; apply (OK p l), lookup_in, EL).
        assert (FA := forward_all_returns p l b). assert (FO := forward_all_ok p l b OKL).
        assert (NS : forall v f T, ~ In (SentCall v f T) (fst (fst (forward_all p l b)))).
        { clear - OKL. revert b OKL. induction l as [|[v0 f0] l IHl]; intros b OKL v f T; [cbn; auto|]. cbn [forward_all]. unfold forward.
          assert (f0 = ft_replies) by (apply (OKL v0 f0); left; reflexivity). subst f0. cbn [procedures existsb]. change (ft_replies =? ft_replies) with true. cbn [orb].
          destruct (receive_return p v0 b) as [o b'] eqn:E. specialize (IHl b' ltac:(intros; eapply OKL; right; eauto) v f T). destruct (forward_all p l b') as [[o' b''] ok]. cbn [fst] in *.
          intros [I|I]; [discriminate|]. apply in_app_or in I. destruct I as [I|I]; [|tauto].
          revert E. unfold receive_return. destruct (b_active b && _); [destruct (filter _ _)|]; intros E; injection E as <- <-.
          - destruct (b_completion b); cbn in I; intuition discriminate.
          - destruct I.
          - destruct I. }
        destruct (forward_all p l b) as [[o b'] ok]. cbn [fst snd] in FA, FO, NS. subst ok. cbn [fst snd s_returns]. split; [apply erase_ok, OK|].
        intros q v (f & T & I & J). rewrite returns_app. apply in_app_or in I. destruct I as [I|I]; [|exfalso; eapply NS; eauto].
        destruct (IH q v) as [[f' (k & L & H)]|H]; [exists f, T; auto| |right; lia].
        destruct (Nat.eq_dec q p) as [->|N]; [|left; exists f', k; rewrite lookup_erase_other by exact N; auto].
        right. assert (k = l) by congruence. subst k. specialize (FA v f' OKL H). lia.
      * cbn [fst snd s_returns]. rewrite app_nil_r. auto.
    + cbn [fst snd s_returns]. rewrite app_nil_r. auto.
Qed.

Theorem at_least_once : forall evs1 evs2 p u, calls_ok (evs1 ++ evs2) -> returns_ok (evs1 ++ evs2) -> addressed p u (fst (srun evs1)) ->
  (In (SRemoved p) evs2 \/ exists ft st, In (SReturn p u ft st) evs2) -> returns p u (fst (srun (evs1 ++ evs2))) > 0.
Proof.
  intros evs1 evs2 p u C R A S.
  assert (MONO : forall l l', returns p u (fst (srun l)) <= returns p u (fst (srun (l ++ l')))).
  { intros l l'. induction l' as [|e l' IH] using rev_ind; [rewrite app_nil_r; lia|]. rewrite app_assoc, srun_snoc. destruct (sstep _ _). cbn [fst]. rewrite returns_app. lia. }
  assert (AM : forall l l', addressed p u (fst (srun l)) -> addressed p u (fst (srun (l ++ l')))).
  { intros l l' (f & T & I & J). exists f, T. split; [|exact J]. induction l' as [|e l' IH] using rev_ind; [rewrite app_nil_r; exact I|]. rewrite app_assoc, srun_snoc. destruct (sstep _ _). cbn [fst]. apply in_or_app. auto. }
  destruct S as [S|(ft & st & S)]; apply in_split in S; destruct S as (a & b & ->).
  - replace (evs1 ++ a ++ SRemoved p :: b) with (((evs1 ++ a) ++ [SRemoved p]) ++ b) in * by (rewrite <- !app_assoc; reflexivity).
    eapply Nat.lt_le_trans; [|apply MONO].
    destruct (service_inv (evs1 ++ a)) as [OK H]; [intros f v I; apply (C f v); apply in_or_app; left; apply in_or_app; auto|intros q v f s I; apply (R q v f s); apply in_or_app; left; apply in_or_app; auto|].
    specialize (H p u (AM _ _ A)). rewrite srun_snoc. destruct (snd (srun (evs1 ++ a))) as [s b0] eqn:ES. cbn [sstep]. cbn [fst] in OK, H.
    destruct H as [[f (l & L & I)]|H].
    + unfold removal. rewrite L. assert (FA := forward_all_returns p l b0 u f ltac:(intros v g; apply (OK p l), lookup_in, L) I).
      destruct (forward_all p l b0) as [[o b1] ok]. cbn [fst] in *. rewrite returns_app. lia.
    + destruct (removal p s b0) as [[o s1] b1]. cbn [fst]. rewrite returns_app. lia.
  - replace (evs1 ++ a ++ SReturn p u ft st :: b) with (((evs1 ++ a) ++ [SReturn p u ft st]) ++ b) in * by (rewrite <- !app_assoc; reflexivity).
    eapply Nat.lt_le_trans; [|apply MONO].
    assert (ft = ft_replies) by (apply (R p u ft st); apply in_or_app; left; apply in_or_app; right; left; reflexivity). subst ft.
    rewrite srun_snoc. destruct (snd (srun (evs1 ++ a))) as [s b0]. cbn [sstep]. unfold receive_call_return, forward. cbn [procedures existsb]. change (ft_replies =? ft_replies) with true. cbn [orb].
    destruct (receive_return p u b0) as [o b1]. cbn [fst]. change (Forwarded p u st :: o) with ([Forwarded p u st] ++ o). rewrite !returns_app. cbn. rewrite !Nat.eqb_refl. cbn. lia.
Qed.

(** The called side *)
Lemma answers_app : forall u a b, answers u (a ++ b) = answers u a + answers u b.
Proof. intros. unfold answers. rewrite filter_app, app_length. reflexivity. Qed.
Lemma did_answers : forall w e o w', did w e o w' -> (forall p u ft, e <> ECall p u ft) -> forall v, answers v o = 0.
Proof.
  intros w e o w' D N v. destruct D; try reflexivity; [exfalso; eapply N; reflexivity|]. cbn. unfold settle_out. destruct (without _ _); reflexivity.
Qed.
Lemma receive_call_fresh : forall p u ft s o s', lookup u (s_initiators s) = None -> receive_call p u ft s = (o, s') ->
  s_initiators s' = s_initiators s ++ [(u, p)] /\ forall v, v <> u -> answers v o = 0.
Proof.
  intros p u ft s o s' L E. unfold receive_call in E. rewrite L in E. unfold submit in E. cbn [s_initiators s_receivers] in E.
  repeat match type of E with context [if ?c then _ else _] => destruct c | context [match lookup ?a ?b with _ => _ end] => destruct (lookup a b) end;
    injection E as <- <-; (split; [reflexivity|]); intros v NV; cbn; try reflexivity; destruct (Nat.eqb_spec u v); try congruence; reflexivity.
Qed.
Lemma initiators_run : forall evs, s_initiators (w_service (snd (run evs))) = s_initiators (w_service (snd (run evs))) ->
  (forall u, lookup u (s_initiators (w_service (snd (run evs)))) = None <-> forall p ft, ~ In (ECall p u ft) evs) /\
  (forall u, lookup u (s_initiators (w_service (snd (run evs)))) = None -> answers u (fst (run evs)) = 0).
Proof.
  induction evs as [|e evs IH] using rev_ind; intros _.
  - split; intros; cbn; [split; [intros _ p ft []|reflexivity]|reflexivity].
  - specialize (IH eq_refl). destruct IH as [IH IA].
    destruct (run_did evs e) as [D O]. 
    assert (KEEP : (forall p u ft, e <> ECall p u ft) -> s_initiators (w_service (snd (run (evs ++ [e])))) = s_initiators (w_service (snd (run evs)))).
    { intros NC. rewrite run_snoc. set (x := snd (run evs)). clearbody x. destruct e as [p|p| | |p u st|p u ft]; cbn [step].
      - reflexivity.
      - destruct (existsb _ _); [|reflexivity]. unfold removal. destruct (lookup p _) as [l|]; [|reflexivity]. destruct (forward_all p l _) as [[o b] ok]. destruct ok; reflexivity.
      - reflexivity.
      - destruct (w_queue x); [reflexivity|]. unfold deferred. destruct (b_active _); [reflexivity|]. destruct (s_receivers (w_service x)); reflexivity.
      - destruct (existsb _ _); [|reflexivity]. unfold receive_call_return, forward, remove_from_lookup. cbn [procedures existsb]. change (ft_replies =? ft_replies) with true. cbn [orb].
        destruct (lookup p _) as [l|]; [destruct (erase u l)|]; destruct (receive_return p u _); reflexivity.
      - exfalso. eapply NC. reflexivity. }
    destruct e as [p|p| | |p u st|p u ft];
      try (rewrite KEEP by discriminate; rewrite O;
           assert (NA : forall v, answers v (fst (step (snd (run evs)) ltac:(match type of O with context [step _ ?e] => exact e end))) = 0);
           [apply (did_answers _ _ _ _ D); discriminate|];
           split; [intros u0; rewrite IH; split; [intros H q f I; apply in_app_or in I; destruct I as [I|[I|[]]]; [eapply H; eauto|discriminate I]|intros H q f I; eapply H; apply in_or_app; left; eauto]
                  |intros u0 H; rewrite answers_app, NA, (IA u0 H); reflexivity]; fail).
    clear KEEP. rewrite run_snoc in *. cbn [step] in *. set (x := snd (run evs)) in *. set (o0 := fst (run evs)) in *.
    destruct (lookup u (s_initiators (w_service x))) eqn:L.
    + unfold receive_call. rewrite L. cbn [fst snd w_service]. split.
      * intros u0. rewrite IH. split; [|intros H q f I; eapply H; apply in_or_app; left; eauto].
        intros H q f I. apply in_app_or in I. destruct I as [I|[I|[]]]; [eapply H; eauto|]. injection I as <- <- <-. apply IH in H. congruence.
      * intros u0 H. rewrite answers_app, (IA u0 H). reflexivity.
    + assert (LK : forall u0, lookup u0 (s_initiators (w_service x) ++ [(u, p)]) = None <-> lookup u0 (s_initiators (w_service x)) = None /\ u0 <> u).
      { intros u0. rewrite lookup_app. destruct (lookup u0 (s_initiators (w_service x))) eqn:E0; [split; [discriminate|intros [? _]; discriminate]|].
        unfold lookup. cbn. destruct (Nat.eqb_spec u u0); cbn; split; try discriminate; try tauto; [intros [_ ?]; congruence|intros _; split; congruence]. }
      destruct (receive_call p u ft (w_service x)) as [o s'] eqn:E. destruct (receive_call_fresh _ _ _ _ _ _ L E) as [X1 X2]. cbn [fst snd w_service].
      rewrite X1. split.
      * intros u0. rewrite LK, IH. split.
        -- intros [H N] q f I. apply in_app_or in I. destruct I as [I|[I|[]]]; [eapply H; eauto|]. injection I as _ <- _. congruence.
        -- intros H. split; [intros q f I; eapply H; apply in_or_app; left; eauto|]. intros ->. apply (H p ft). apply in_or_app. right. left. reflexivity.
      * intros u0 H. apply LK in H. destruct H as [H N]. rewrite answers_app, (IA u0 H), (X2 u0 N). reflexivity.
Qed.

Theorem answered : forall evs p u ft, (forall q f, ~ In (ECall q u f) evs) -> In p (connected evs) -> ft <> 0 ->
  fst (run (evs ++ [ECall p u ft])) = fst (run evs) ++ [SentReturn p u ft (if Nat.eqb ft 1 then Success else UnknownFunctionType)].
Proof.
  intros evs p u ft N C F. destruct (initiators_run evs eq_refl) as [I _]. apply I in N. rewrite run_snoc. cbn [step]. unfold receive_call. rewrite N.
  assert (L' : lookup u (s_initiators (w_service (snd (run evs))) ++ [(u, p)]) = Some p) by (rewrite lookup_app, N; unfold lookup; cbn; rewrite Nat.eqb_refl; reflexivity).
  unfold submit. cbn [s_initiators s_receivers]. rewrite L', (v_recv _ _ (sinv_run evs)). apply existsb_In in C. rewrite C.
  change (ft_replies =? ft_invalid) with false. cbn [procedures existsb]. rewrite orb_false_r. unfold ft_replies, ft_invalid.
  destruct (Nat.eqb_spec ft 1) as [->|N1]; [reflexivity|]. destruct (Nat.eqb_spec ft 0); [congruence|reflexivity].
Qed.
Theorem answered_once : forall evs u, answers u (fst (run evs)) <= 1.
Proof.
  induction evs as [|e evs IH] using rev_ind; intros u; [cbn; lia|]. destruct (run_did evs e) as [D O]. rewrite O, answers_app. specialize (IH u).
  destruct (initiators_run evs eq_refl) as [I1 I2].
  destruct e as [p|p| | |p u0 st|p u0 ft]; try (assert (NA : answers u (fst (step (snd (run evs)) ltac:(match type of O with context [step _ ?e] => exact e end))) = 0); [apply (did_answers _ _ _ _ D); discriminate|lia]).
  clear O. cbn [step] in *. unfold receive_call in *. destruct (lookup u0 (s_initiators (w_service (snd (run evs))))) eqn:L; [cbn; lia|].
  assert (B : answers u (fst (step (snd (run evs)) (ECall p u0 ft))) <= if Nat.eqb u0 u then 1 else 0).
  { cbn [step]. unfold receive_call. rewrite L. unfold submit. cbn [s_initiators s_receivers].
    repeat match goal with |- context [if ?c then _ else _] => lazymatch c with u0 =? u => fail | _ => destruct c end | |- context [match lookup ?a ?b with _ => _ end] => destruct (lookup a b) end; cbn;
      destruct (u0 =? u); cbn; lia. }
  cbn [step] in B. unfold receive_call in B. rewrite L in B. destruct (Nat.eqb_spec u0 u) as [->|]; [|lia]. rewrite (I2 u L). lia.
Qed.
