From Coq Require Import String List Arith Bool Lia.
Import ListNotations.
From Verif Require Import Base NetModel NetSpec NetProofs NetOrder.
Open Scope nat_scope.
Open Scope list_scope.

(** Which service receives what, in terms of what arrives at the link and what is sent by the services of the same participant *)

Lemma received_app : forall b k s a t u, received b k s a (t ++ u) = received b k s a t ++ received b k s a u.
Proof. intros. apply flat_map_app. Qed.
Lemma sent_to_app : forall a b k t u, sent_to a b k (t ++ u) = sent_to a b k t ++ sent_to a b k u.
Proof. intros. apply flat_map_app. Qed.
Lemma is_reg_iff : forall b k s e, is_reg b k s e = true <-> e = EReg b k s.
Proof.
  intros b k s e. destruct e; cbn [is_reg]; try (split; discriminate). rewrite andb_true_iff, is_iff, Nat.eqb_eq. split; [intros [[-> ->] ->]; reflexivity|]. intros E. injection E as -> -> ->. auto.
Qed.
Lemma since_none : forall b k s tr, ~ In (EReg b k s) tr -> since b k s tr = [].
Proof.
  intros b k s tr. induction tr as [|e tr IH]; intros H; [reflexivity|]. cbn [since]. destruct (is_reg b k s e) eqn:E; [apply is_reg_iff in E as ->; destruct H; now left|].
  apply IH. intros I. apply H. now right.
Qed.
Lemma since_in : forall b k s tr es, In (EReg b k s) tr -> since b k s (tr ++ es) = since b k s tr ++ es.
Proof.
  intros b k s tr es. induction tr as [|e tr IH]; intros H; [destruct H|]. cbn [app since]. destruct (is_reg b k s e) eqn:E; [reflexivity|]. apply IH. destruct H as [->|H]; [|exact H].
  exfalso. assert (X : is_reg b k s (EReg b k s) = true) by now apply is_reg_iff. congruence.
Qed.
Lemma since_out : forall b k s tr es, ~ In (EReg b k s) tr -> since b k s (tr ++ es) = since b k s es.
Proof.
  intros b k s tr es. induction tr as [|e tr IH]; intros H; [reflexivity|]. cbn [app since]. destruct (is_reg b k s e) eqn:E; [apply is_reg_iff in E as ->; destruct H; now left|].
  apply IH. intros I. apply H. now right.
Qed.

Record rec (n : net) : Prop := {
  rc_svc : forall a s d, nth_error (svcs n a) s = Some d -> d_sid d = s;
  rc_lt : forall b k s, In s (local n b k) -> s < length (svcs n b);
  rc_nd : forall b k, NoDup (local n b k);
  rc_reg : forall b k s, In s (local n b k) <-> In (EReg b k s) (n_trace n);
  rc_remote : forall b k s a, a <> b -> received b k s a (n_trace n) = ins b k a (since b k s (n_trace n));
  rc_self : forall b k s, received b k s b (n_trace n) = filter (hears k s) (sent_to b b k (since b k s (n_trace n)))
}.

Definition mem (s : nat) (l : list nat) : bool := existsb (Nat.eqb s) l.
Lemma mem_iff : forall s l, mem s l = true <-> In s l.
Proof. intros. apply existsb_eqb. Qed.

(** new events that are not registrations *)
Lemma rec_block : forall n n' es, rec n ->
  (forall b k, local n' b k = local n b k) -> (forall b, svcs n' b = svcs n b) -> n_trace n' = n_trace n ++ es ->
  (forall b k s, ~ In (EReg b k s) es) ->
  (forall b k s a, a <> b -> received b k s a es = if mem s (local n b k) then ins b k a es else []) ->
  (forall b k s, received b k s b es = if mem s (local n b k) then filter (hears k s) (sent_to b b k es) else []) ->
  rec n'.
Proof.
  intros n n' es R EL ES ET NR HR HS. destruct R. split.
  - intros a s d. rewrite ES. apply rc_svc0.
  - intros b k s. rewrite EL, ES. apply rc_lt0.
  - intros b k. rewrite EL. apply rc_nd0.
  - intros b k s. rewrite EL, ET, in_app_iff, rc_reg0. split; [now left|]. intros [H|H]; [exact H|]. destruct (NR _ _ _ H).
  - intros b k s a N. rewrite ET, received_app, HR, rc_remote0 by exact N. destruct (mem s (local n b k)) eqn:E.
    + apply mem_iff, rc_reg0 in E. now rewrite since_in, ins_app.
    + assert (~ In (EReg b k s) (n_trace n)) by (rewrite <- rc_reg0, <- mem_iff; congruence). rewrite since_out, app_nil_r by assumption. rewrite !since_none; auto.
  - intros b k s. rewrite ET, received_app, HS, rc_self0. destruct (mem s (local n b k)) eqn:E.
    + apply mem_iff, rc_reg0 in E. now rewrite since_in, sent_to_app, filter_app.
    + assert (~ In (EReg b k s) (n_trace n)) by (rewrite <- rc_reg0, <- mem_iff; congruence). rewrite since_out, app_nil_r by assumption. rewrite !since_none; auto.
Qed.

Definition dull (e : event) : Prop :=
  match e with EThrow _ | ESub _ _ _ | EHist _ _ _ | EMisread _ _ _ _ _ | EIgnored _ _ | EAcked _ _ _ _ | EJoined _ _ | ELeft _ _ => True | _ => False end.
Lemma rec_dull : forall n n' es, rec n -> (forall b k, local n' b k = local n b k) -> (forall b, svcs n' b = svcs n b) -> n_trace n' = n_trace n ++ es -> Forall dull es -> rec n'.
Proof.
  intros n n' es R EL ES ET F.
  assert (X : (forall b k s, ~ In (EReg b k s) es) /\ (forall b k s a, received b k s a es = []) /\ (forall b k a, ins b k a es = []) /\ (forall a b k, sent_to a b k es = [])).
  { clear ET. induction F as [|e es D F (I1 & I2 & I3 & I4)]; [repeat split; auto|]. split; [|split; [|split]].
    - intros b k s [->|I]; [exact D|]. now apply I1 in I.
    - intros. unfold received in *. cbn [flat_map]. rewrite I2. now destruct e.
    - intros. unfold ins in *. cbn [flat_map]. rewrite I3. now destruct e.
    - intros. unfold sent_to in *. cbn [flat_map]. rewrite I4. now destruct e. }
  destruct X as (X1 & X2 & X3 & X4). apply (rec_block n n' es R EL ES ET X1); intros; rewrite X2, ?X3, ?X4; now destruct (mem _ _).
Qed.

Lemma rec_same : forall n n', rec n -> (forall b k, local n' b k = local n b k) -> (forall b, svcs n' b = svcs n b) -> n_trace n' = n_trace n -> rec n'.
Proof. intros n n' R EL ES ET. apply (rec_dull n n' [] R EL ES); [now rewrite app_nil_r|constructor]. Qed.
Lemma rec_emit : forall es n, rec n -> Forall dull es -> rec (emit es n).
Proof. intros es n R F. apply (rec_dull n _ es R); auto. Qed.
Lemma rec_post : forall a b w n, rec n -> rec (post a b w n).
Proof. intros a b w n R. apply (rec_same n _ R); auto. Qed.

Section S.
Variable throws : handlers.
Lemma received_dispatch : forall b k s a b' k' s' a' m, received b k s a (dispatch throws b' k' s' a' m) = if is b b' k k' && (s' =? s) && (a' =? a) then [m] else [].
Proof. intros. unfold dispatch, received. destruct (throws b' s' k' m); cbn [flat_map]; now rewrite app_nil_r. Qed.
Lemma received_local : forall b k s a b' k' a' m (g : nat -> bool) l, NoDup l ->
  received b k s a (flat_map (fun s' => if g s' then [] else dispatch throws b' k' s' a' m) l) = if is b b' k k' && (a' =? a) && mem s l && negb (g s) then [m] else [].
Proof.
  intros b k s a b' k' a' m g l. induction l as [|x l IH]; intros ND.
  - cbn [flat_map mem existsb]. now rewrite andb_false_r.
  - inversion ND as [|? ? NI ND']; subst. cbn [flat_map]. rewrite received_app, IH by exact ND'. unfold mem in *. cbn [existsb].
    assert (E : received b k s a (if g x then [] else dispatch throws b' k' x a' m) = if is b b' k k' && (a' =? a) && (x =? s) && negb (g x) then [m] else []).
    { destruct (g x); [cbn; now rewrite andb_false_r|]. rewrite received_dispatch. cbn [negb]. destruct (is b b' k k'), (x =? s), (a' =? a); reflexivity. }
    rewrite E. destruct (Nat.eqb_spec x s) as [->|N].
    + rewrite Nat.eqb_refl. cbn [orb]. assert (M : existsb (Nat.eqb s) l = false) by (apply not_true; now rewrite existsb_eqb). rewrite M, !andb_true_r, !andb_false_r. cbn [andb]. now rewrite app_nil_r.
    + rewrite (proj2 (Nat.eqb_neq s x)) by auto. cbn [orb]. now rewrite andb_false_r.
Qed.
Lemma dispatch_kinds : forall b k s a m e, In e (dispatch throws b k s a m) -> exists t, e = ERecv b k s a m t.
Proof. intros b k s a m e. unfold dispatch. destruct (throws b s k m); intros [<-|[]]; eauto. Qed.
Definition recvs_only (es : list event) : Prop := forall e, In e es -> exists b k s a m t, e = ERecv b k s a m t.
Lemma recvs_remote : forall b k a m l, recvs_only (distribute_remote throws b k a m l).
Proof. intros b k a m l e I. apply in_flat_map in I as (s & _ & I). apply dispatch_kinds in I as [t ->]. eauto 10. Qed.
Lemma recvs_self : forall descs from a k m l, recvs_only (distribute_to_self throws descs from a k m l).
Proof. intros descs from a k m l e. unfold distribute_to_self. destruct (self_forbidden _); [intros []|]. intros I. apply in_flat_map in I as (s & _ & I). destruct (_ && _); [destruct I|]. apply dispatch_kinds in I as [t ->]. eauto 10. Qed.
Lemma recvs_ins : forall b k a es, recvs_only es -> ins b k a es = [].
Proof. intros b k a es. induction es as [|e es IH]; intros R; [reflexivity|]. unfold ins in *. cbn [flat_map]. rewrite IH by (intros x I; apply R; now right). destruct (R e (or_introl eq_refl)) as (? & ? & ? & ? & ? & ? & ->). reflexivity. Qed.
Lemma recvs_sent : forall a b k es, recvs_only es -> sent_to a b k es = [].
Proof. intros a b k es. induction es as [|e es IH]; intros R; [reflexivity|]. unfold sent_to in *. cbn [flat_map]. rewrite IH by (intros x I; apply R; now right). destruct (R e (or_introl eq_refl)) as (? & ? & ? & ? & ? & ? & ->). reflexivity. Qed.
Lemma recvs_noreg : forall es b k s, recvs_only es -> ~ In (EReg b k s) es.
Proof. intros es b k s R I. destruct (R _ I) as (? & ? & ? & ? & ? & ? & E). discriminate. Qed.

(** a message that is delivered to the services of the same participant *)
Lemma desc_eqb_iff : forall x y, desc_eqb x y = true -> d_sid x = d_sid y.
Proof. intros x y. unfold desc_eqb. rewrite !andb_true_iff, !Nat.eqb_eq. tauto. Qed.
Lemma desc_eqb_refl : forall x, desc_eqb x x = true.
Proof. intros. unfold desc_eqb. now rewrite !Nat.eqb_refl. Qed.
Lemma received_self : forall n a k s0 v d b k' s c, rec n -> nth_error (svcs n a) s0 = Some d ->
  received b k' s c (distribute_to_self throws (nth_error (svcs n a)) d a k (s0, v) (links n a k)) =
  if is b a k' k && (a =? c) && mem s (local n a k) && hears k s (s0, v) then [(s0, v)] else [].
Proof.
  intros n a k s0 v d b k' s c R D. unfold distribute_to_self.
  destruct (self_forbidden (fst k)) eqn:EF.
  { assert (H : hears k s (s0, v) = false) by (unfold hears; destruct (fst k); try discriminate EF; reflexivity). now rewrite H, andb_false_r. }
  rewrite received_local by apply (rc_nd n R a k). fold (local n a k). destruct (is b a k' k && (a =? c)); [|reflexivity]. cbn [andb]. destruct (mem s (local n a k)) eqn:M; [|reflexivity]. cbn [andb].
  apply mem_iff in M. pose proof (rc_lt n R _ _ _ M) as L. destruct (nth_error (svcs n a) s) as [e|] eqn:E; [|apply nth_error_None in E; lia].
  assert (H : hears k s (s0, v) = negb (negb (self_enforced (fst k)) && desc_eqb e d)).
  { unfold hears. destruct (Nat.eqb_spec s0 s) as [->|N].
    - assert (e = d) by congruence. subst e. rewrite desc_eqb_refl. cbn [fst]. rewrite Nat.eqb_refl. destruct (fst k); try discriminate EF; reflexivity.
    - assert (Q : desc_eqb e d = false). { apply not_true. intros Q. apply desc_eqb_iff in Q. rewrite (rc_svc n R _ _ _ E), (rc_svc n R _ _ _ D) in Q. congruence. }
      rewrite Q, andb_false_r. cbn [fst]. rewrite (proj2 (Nat.eqb_neq s0 s)) by auto. destruct (fst k); try discriminate EF; reflexivity. }
  now rewrite H.
Qed.
Lemma rec_self : forall n n' e a k s0 v d, rec n -> nth_error (svcs n a) s0 = Some d ->
  (forall b k, local n' b k = local n b k) -> (forall b, svcs n' b = svcs n b) ->
  n_trace n' = n_trace n ++ e :: distribute_to_self throws (nth_error (svcs n a)) d a k (s0, v) (links n a k) ->
  (e = EPub a k (s0, v) \/ e = EPubTo a k a (s0, v)) -> rec n'.
Proof.
  intros n n' e a k s0 v d R D EL ES ET He. set (es := distribute_to_self _ _ _ _ _ _ _) in *. pose proof (recvs_self (nth_error (svcs n a)) d a k (s0, v) (links n a k)) as RO. fold es in RO.
  apply (rec_block n n' (e :: es) R EL ES ET).
  - intros b k' s [->|I]; [destruct He; discriminate|]. now apply recvs_noreg in I.
  - intros b k' s c N. change (e :: es) with ([e] ++ es). rewrite received_app, ins_app, (recvs_ins b k' c es RO). unfold es. rewrite (received_self n a k s0 v d b k' s c R D).
    assert (X : received b k' s c [e] = [] /\ ins b k' c [e] = []) by (destruct He as [-> | ->]; split; reflexivity). destruct X as [-> ->]. cbn [app].
    destruct (is b a k' k) eqn:I; cbn [andb]; [|now destruct (mem _ _)]. apply is_iff in I as [<- _]. rewrite (proj2 (Nat.eqb_neq b c)) by auto. cbn [andb]. now destruct (mem _ _).
  - intros b k' s. change (e :: es) with ([e] ++ es). rewrite received_app, sent_to_app, (recvs_sent b b k' es RO), app_nil_r. unfold es. rewrite (received_self n a k s0 v d b k' s b R D).
    assert (X : received b k' s b [e] = [] /\ sent_to b b k' [e] = if is b a k' k then [(s0, v)] else []).
    { destruct He as [-> | ->]; (split; [reflexivity|]); unfold sent_to; cbn [flat_map]; rewrite app_nil_r; [reflexivity|]. destruct (is b a k' k) eqn:I; cbn [andb]; [|reflexivity]. apply is_iff in I as [<- _]. now rewrite Nat.eqb_refl. }
    destruct X as [-> ->]. cbn [app]. destruct (is b a k' k) eqn:I; cbn [andb]; [|now destruct (mem _ _)]. apply is_iff in I as [<- <-]. rewrite Nat.eqb_refl. cbn [andb]. destruct (mem _ _); cbn [andb]; [|reflexivity]. cbn [filter]. now destruct (hears _ _ _).
Qed.
(** a message that is sent to another participant *)
Lemma rec_sent_to : forall n n' a k c m, rec n -> a <> c -> (forall b k, local n' b k = local n b k) -> (forall b, svcs n' b = svcs n b) ->
  n_trace n' = n_trace n ++ [EPubTo a k c m] -> rec n'.
Proof.
  intros n n' a k c m R N EL ES ET. apply (rec_block n n' _ R EL ES ET).
  - intros b k' s [E|[]]. discriminate.
  - intros. cbn. now destruct (mem _ _).
  - intros b k' s. unfold sent_to. cbn [received flat_map app]. destruct (is b a k' k) eqn:I; cbn [andb]; [|now destruct (mem _ _)]. apply is_iff in I as [<- _]. rewrite (proj2 (Nat.eqb_neq c b)) by auto. now destruct (mem _ _).
Qed.
(** a message from another participant *)
Lemma rec_in : forall n n' b k a m, rec n -> a <> b -> (forall b k, local n' b k = local n b k) -> (forall b, svcs n' b = svcs n b) ->
  n_trace n' = n_trace n ++ EIn b k a m :: distribute_remote throws b k a m (links n b k) -> rec n'.
Proof.
  intros n n' b k a m R N EL ES ET. set (es := distribute_remote _ _ _ _ _ _) in *. pose proof (recvs_remote b k a m (links n b k)) as RO. fold es in RO.
  assert (RE : forall b' k' s c, received b' k' s c es = if is b' b k' k && (a =? c) && mem s (local n b k) then [m] else []).
  { intros. unfold es, distribute_remote. pose proof (received_local b' k' s c b k a m (fun _ => false) (local n b k) (rc_nd n R b k)) as H. cbn [negb] in H. rewrite andb_true_r in H. exact H. }
  apply (rec_block n n' _ R EL ES ET); change (EIn b k a m :: es) with ([EIn b k a m] ++ es).
  - intros b' k' s [E|I]; [discriminate|]. now apply recvs_noreg in I.
  - intros b' k' s c N'. rewrite received_app, ins_app, (recvs_ins _ _ _ es RO), RE, app_nil_r. unfold ins. cbn [received flat_map app]. rewrite app_nil_r.
    destruct (is b' b k' k) eqn:I; cbn [andb]; [|now destruct (mem _ _)]. apply is_iff in I as [<- <-]. destruct (a =? c); cbn [andb]; [reflexivity|now destruct (mem _ _)].
  - intros b' k' s. rewrite received_app, sent_to_app, (recvs_sent _ _ _ es RO), RE. cbn [received sent_to flat_map app filter].
    destruct (is b' b k' k) eqn:I; cbn [andb]; [|now destruct (mem _ _)]. apply is_iff in I as [<- <-]. rewrite (proj2 (Nat.eqb_neq a b')) by auto. cbn [andb]. now destruct (mem _ _).
Qed.
End S.

(** ** The steps *)
Lemma rec_add_svc : forall n a d, rec n -> d_sid d = length (svcs n a) ->
  rec (set_part a (mkP (p_links (n_part n a)) (p_rcvs (n_part n a)) (p_peers (n_part n a)) (p_senders (n_part n a)) (p_svcs (n_part n a) ++ [d])) n).
Proof.
  intros n a d R D. set (n' := set_part _ _ _). assert (EL : forall b k, local n' b k = local n b k) by (intros; unfold n', local, links; rewrite set_part_part; destruct (Nat.eqb_spec b a) as [->|]; reflexivity).
  assert (ES : forall b, svcs n' b = if b =? a then svcs n a ++ [d] else svcs n b) by (intros; unfold n', svcs; rewrite set_part_part; destruct (b =? a); reflexivity).
  destruct R. split; try assumption.
  - intros b s e. rewrite ES. destruct (Nat.eqb_spec b a) as [->|]; [|apply rc_svc0]. rewrite nth_error_snoc. destruct (Nat.eqb_spec s (length (svcs n a))) as [->|]; [|apply rc_svc0]. intros E. now injection E as <-.
  - intros b k s. rewrite EL, ES. intros I. apply rc_lt0 in I. destruct (Nat.eqb_spec b a) as [->|]; [rewrite app_length; cbn; lia|exact I].
  - intros b k. rewrite EL. apply rc_nd0.
  - intros b k s. rewrite EL. apply rc_reg0.
Qed.
Lemma rec_receiver : forall n b s k, rec n -> s < length (svcs n b) -> rec (register_receiver b s k n).
Proof.
  intros n b s k R L.
  assert (EL : forall x k', local (register_receiver b s k n) x k' = if (x =? b) && key_eqb k' k && new_local n b s k then local n b k ++ [s] else local n x k').
  { intros. unfold local. rewrite rr_links. destruct (Nat.eqb_spec x b) as [->|]; cbn [andb]; [|reflexivity]. destruct (key_eqb k' k) eqn:E; cbn [andb]; [|reflexivity]. apply key_eqb_iff in E as ->.
    rewrite add_local_local. unfold new_local, local. now destruct (existsb _ _). }
  assert (ET := rr_trace b s k n). destruct (new_local n b s k) eqn:NL.
  2:{ apply (rec_dull n _ [] R); [|intros; apply rr_svcs|exact ET|constructor]. intros. now rewrite EL, andb_false_r. }
  assert (NI : ~ In s (local n b k)). { unfold new_local in NL. rewrite <- existsb_eqb. destruct (existsb _ _); [discriminate|congruence]. }
  assert (NT : ~ In (EReg b k s) (n_trace n)) by now rewrite <- (rc_reg n R).
  assert (SI : forall x k' s', since x k' s' (n_trace n ++ [EReg b k s]) = since x k' s' (n_trace n) ++ (if is_reg x k' s' (EReg b k s) then [] else if mem s' (local n x k') then [EReg b k s] else [])).
  { intros x k' s'. destruct (is_reg x k' s' (EReg b k s)) eqn:E.
    - apply is_reg_iff in E. injection E as <- <- <-. rewrite since_out, (since_none _ _ _ (n_trace n)) by exact NT. cbn [since]. now rewrite (proj2 (is_reg_iff b k s _) eq_refl).
    - destruct (mem s' (local n x k')) eqn:M; [apply mem_iff, (rc_reg n R) in M; now rewrite since_in|]. assert (NX : ~ In (EReg x k' s') (n_trace n)) by (rewrite <- (rc_reg n R), <- mem_iff; congruence).
      rewrite since_out, (since_none _ _ _ (n_trace n)) by exact NX. cbn [since]. now rewrite E. }
  destruct R. split.
  - intros x s' d. rewrite rr_svcs. apply rc_svc0.
  - intros x k' s'. rewrite EL, rr_svcs, andb_true_r. destruct (Nat.eqb_spec x b) as [->|]; cbn [andb]; [|apply rc_lt0]. destruct (key_eqb k' k) eqn:E; [|apply rc_lt0]. apply key_eqb_iff in E as ->. rewrite in_app_iff. intros [I|[<-|[]]]; [now apply (rc_lt0 b k)|exact L].
  - intros x k'. rewrite EL, andb_true_r. destruct (Nat.eqb_spec x b) as [->|]; cbn [andb]; [|apply rc_nd0]. destruct (key_eqb k' k) eqn:E; [|apply rc_nd0].
    assert (ND := rc_nd0 b k). clear - ND NI. induction (local n b k) as [|y l IH]; cbn [app]; [constructor; [auto|constructor]|]. inversion ND as [|? ? A B]; subst. constructor; [|apply IH; [|exact B]].
    + rewrite in_app_iff. intros [I|[<-|[]]]; [contradiction|apply NI; now left].
    + intros I. apply NI. now right.
  - intros x k' s'. rewrite EL, ET, in_app_iff, <- rc_reg0, andb_true_r. cbn [In].
    destruct (Nat.eqb_spec x b) as [->|Nx]; cbn [andb].
    + destruct (key_eqb k' k) eqn:E.
      * apply key_eqb_iff in E as ->. rewrite in_app_iff. cbn [In]. split; [intros [I|[<-|[]]]; auto|]. intros [I|[H|[]]]; [auto|injection H as ->; auto].
      * split; [auto|]. intros [I|[H|[]]]; [exact I|]. injection H as <- _. now rewrite key_eqb_refl in E.
    + split; [auto|]. intros [I|[H|[]]]; [exact I|]. injection H as -> _ _. contradiction.
  - intros x k' s' a N. rewrite ET, received_app, SI, ins_app, rc_remote0 by exact N. cbn [received flat_map]. destruct (is_reg _ _ _ _); [reflexivity|]. now destruct (mem _ _).
  - intros x k' s'. rewrite ET, received_app, SI, sent_to_app, filter_app, rc_self0. cbn [received flat_map]. destruct (is_reg _ _ _ _); [reflexivity|]. now destruct (mem _ _).
Qed.

Lemma rec_add_one : forall n a b idx k, rec n -> rec (add_one a b idx k n).
Proof.
  intros n a b idx k R. destruct (existsb (rr_eqb (b, idx)) (remote n a k)) eqn:E.
  - apply existsb_rr in E. rewrite ao_old by exact E. apply (rec_dull n _ [] R); [|intros; apply same_svcs|now rewrite app_nil_r|constructor]. intros x k'. unfold local. rewrite links_set. destruct (Nat.eqb_spec x a) as [->|]; cbn [andb]; [|reflexivity]. destruct (key_eqb k' k) eqn:Ek; [|reflexivity]. now apply key_eqb_iff in Ek as ->.
  - apply not_true in E. rewrite existsb_rr in E. apply (rec_dull n _ [ESub a b k] R); [|intros; apply ao_svcs|now apply ao_trace|repeat constructor]. intros x k'. unfold local. rewrite ao_links by exact E. destruct (Nat.eqb_spec x a) as [->|]; cbn [andb]; [|reflexivity]. destruct (key_eqb k' k) eqn:Ek; [|reflexivity]. now apply key_eqb_iff in Ek as ->.
Qed.

(** nobody is its own peer *)
Definition noself (n : net) : Prop := forall a, ~ In a (peers n a).
Lemma reply_peers : forall a b (subs : list (nat * key)) n x, peers (fold_left (fun n x => try_add a b (fst x) (snd x) n) subs n) x = peers n x.
Proof.
  intros a b subs n x. refine (fold_inv (fun n x => try_add a b (fst x) (snd x) n) (fun n' => peers n' x = peers n x) subs _ n eq_refl).
  intros n' y _ E. exact (eq_trans (try_add_peers a b (fst y) (snd y) n' x) E).
Qed.
Lemma noself_ext : forall n n', (forall a, peers n' a = peers n a) -> noself n -> noself n'.
Proof. intros n n' E H a. rewrite E. apply H. Qed.
Lemma noself_emit : forall es n, noself n -> noself (emit es n).
Proof. intros es n H. exact H. Qed.
Lemma noself_post : forall a b w n, noself n -> noself (post a b w n).
Proof. intros a b w n H. exact H. Qed.
Lemma noself_step : forall hash throws o n, noself n -> noself (step hash throws o n).
Proof.
  intros hash throws o n H. destruct o as [c d|c w ty rs ss|c k0 h|c s t v|c s t d v|c d|c d]; cbn [step].
  - destruct (_ || _) eqn:E; [exact H|]. rewrite !orb_false_iff in E. destruct E as [[[E1 _] _] _]. apply Nat.eqb_neq in E1. intros x. unfold peers, post, set_chan. cbn [n_part]. rewrite !set_part_part.
    destruct (Nat.eqb_spec x d) as [->|]; cbn [p_peers].
    + rewrite (proj2 (Nat.eqb_neq d c)) by auto. rewrite in_app_iff. intros [I|[->|[]]]; [now apply H in I|contradiction].
    + destruct (Nat.eqb_spec x c) as [->|]; cbn [p_peers]; [|apply H]. rewrite in_app_iff. intros [I|[->|[]]]; [now apply H in I|contradiction].
  - apply (register_ind hash noself); [exact H| | |].
    + intros n0 d H0 D. eapply noself_ext; [|exact H0]. intros x. unfold peers. rewrite set_part_part. destruct (Nat.eqb_spec x c) as [->|]; reflexivity.
    + intros n0 s t H0 L. eapply noself_ext; [|exact H0]. intros. apply rr_peers.
    + intros n0 t H0. eapply noself_ext; [|exact H0]. intros x. unfold peers, register_sender. rewrite set_part_part. destruct (Nat.eqb_spec x c) as [->|]; reflexivity.
  - eapply noself_ext; [|exact H]. intros. apply same_peers.
  - destruct (nth_error _ _) as [e|]; [|exact H]. destruct (existsb _ _); [|exact H]. unfold distribute_local, transmit. eapply noself_ext; [|exact H]. intros x. unfold peers at 1, emit at 1. cbn [n_part]. rewrite post_all_part, set_emit. cbn [emit n_part]. apply same_peers.
  - destruct (nth_error _ _) as [e|]; [|exact H]. destruct (existsb _ _); [|exact H]. destruct (c =? d); [exact H|]. unfold transmit_to. eapply noself_ext; [|exact H]. intros x.
    destruct (option_map _ _); unfold peers at 1; rewrite ?post_all_part; cbn [emit n_part]; rewrite set_emit; cbn [emit n_part]; apply same_peers.
  - destruct (has_peer _ _ _); [|exact H]. destruct (n_chan n c d) as [|w ws]; [exact H|]. destruct w; cbn [receive].
    + exact H.
    + apply noself_emit. exact (noself_ext _ _ (reply_peers d c subs (set_chan c d ws n)) H).
    + apply noself_post. exact (noself_ext _ _ (try_add_peers d c idx k (set_chan c d ws n)) H).
    + exact H.
    + destruct (nth_error _ _); [|exact H]. destruct (mtype_beq _ _); exact H.
  - destruct (has_peer _ _ _); [|exact H]. intros x. unfold peers, emit. cbn [n_part]. rewrite set_part_part. destruct (Nat.eqb_spec x d) as [->|]; [|apply H]. cbn [p_peers]. rewrite filter_In. intros [I _]. now apply H in I.
Qed.

Theorem rec_step : forall hash throws o n, noself n -> rec n -> rec (step hash throws o n).
Proof.
  intros hash throws o n W R. destruct o as [c d|c w ty rs ss|c k0 h|c s t v|c s t d v|c d|c d]; cbn [step].
  - destruct (_ || _) eqn:E; [exact R|]. apply (rec_dull n _ [] R); [| |now rewrite app_nil_r|constructor].
    + intros x k. unfold local, links, post, set_chan. cbn [n_part]. rewrite !set_part_part. destruct (Nat.eqb_spec x d) as [->|]; cbn [p_links]; destruct (Nat.eqb_spec d c) as [->|]; cbn [p_links]; try reflexivity; destruct (Nat.eqb_spec x c) as [->|]; reflexivity.
    + intros x. unfold svcs, post, set_chan. cbn [n_part]. rewrite !set_part_part. destruct (Nat.eqb_spec x d) as [->|]; cbn [p_svcs]; destruct (Nat.eqb_spec d c) as [->|]; cbn [p_svcs]; try reflexivity; destruct (Nat.eqb_spec x c) as [->|]; reflexivity.
  - apply (register_ind hash rec); [exact R| | |].
    + intros n0 d R0 D. now apply rec_add_svc.
    + intros n0 s t R0 L. now apply rec_receiver.
    + intros n0 t R0. unfold register_sender. apply (rec_dull n0 _ [] R0); [| |now rewrite app_nil_r|constructor]; intros; unfold local, links, svcs; rewrite set_part_part; destruct (Nat.eqb_spec b c) as [->|]; reflexivity.
  - apply (rec_dull n _ [EHist c k0 h] R); [|intros; apply same_svcs|reflexivity|repeat constructor]. intros x k. unfold local. set (n' := emit _ _). change (links n' x k) with (links (set_part c (set_link k0 (set_history (fst k0) h (links n c k0)) (n_part n c)) n) x k). rewrite links_set.
    destruct (Nat.eqb_spec x c) as [->|]; cbn [andb]; [|reflexivity]. destruct (key_eqb k k0) eqn:Ek; [|reflexivity]. apply key_eqb_iff in Ek as ->. unfold set_history. now destruct (has_history _).
  - destruct (nth_error _ _) as [e|] eqn:D; [|exact R]. destruct (existsb _ _); [|apply (rec_dull n _ [EThrow c] R); auto; repeat constructor].
    set (k := (t, d_net e)). unfold distribute_local, transmit. set (n' := emit _ _).
    assert (EL : forall x k', links n' x k' = if (x =? c) && key_eqb k' k then save (fst k) (s, v) (links n c k) else links n x k').
    { intros. unfold n', links at 1, emit at 1. cbn [n_part]. rewrite post_all_part, set_emit. cbn [emit n_part]. apply links_set. }
    assert (SL : l_local (save (fst k) (s, v) (links n c k)) = local n c k) by apply save_fields.
    apply (rec_self throws n n' (EPub c k (s, v)) c k s v e R D).
    + intros x k'. unfold local at 1. rewrite EL. destruct (Nat.eqb_spec x c) as [->|]; cbn [andb]; [|reflexivity]. destruct (key_eqb k' k) eqn:Ek; [|reflexivity]. apply key_eqb_iff in Ek as ->. exact SL.
    + intros x. unfold n', svcs, emit at 1. cbn [n_part]. rewrite post_all_part, set_emit. cbn [emit n_part]. apply same_svcs.
    + unfold n', emit at 1. cbn [n_trace]. rewrite post_all_trace. cbn [n_trace set_part emit]. rewrite <- app_assoc. cbn [app]. do 2 f_equal. unfold distribute_to_self. destruct (self_forbidden _); [reflexivity|]. change (p_links (n_part n c) k) with (links n c k). rewrite SL. reflexivity.
    + now left.
  - destruct (nth_error _ _) as [e|] eqn:D; [|exact R]. destruct (existsb _ _); [|apply (rec_dull n _ [EThrow c] R); auto; repeat constructor].
    set (k := (t, d_net e)). destruct (Nat.eqb_spec c d) as [<-|N].
    + eapply (rec_self throws n _ (EPubTo c k c (s, v)) c k s v e R D); [reflexivity|reflexivity|reflexivity|now right].
    + unfold transmit_to. set (n1 := set_part _ _ _). assert (R1 : rec n1).
      { apply (rec_sent_to n n1 c k d (s, v) R N); [|intros; unfold n1; rewrite set_emit; apply same_svcs|reflexivity]. intros x k'. unfold local. change (links n1 x k') with (links (set_part c (set_link k (save t (s, v) (links n c k)) (n_part n c)) n) x k'). rewrite links_set.
        destruct (Nat.eqb_spec x c) as [->|]; cbn [andb]; [|reflexivity]. destruct (key_eqb k' k) eqn:Ek; [|reflexivity]. apply key_eqb_iff in Ek as ->. apply save_fields. }
      destruct (option_map _ _); [|apply (rec_dull n1 _ [EThrow c] R1); auto; repeat constructor].
      apply (rec_dull n1 _ [] R1); [| |now rewrite post_all_trace, app_nil_r|constructor]; intros; unfold local, links, svcs; now rewrite post_all_part.
  - unfold has_peer. destruct (existsb _ _) eqn:E; [|exact R]. apply existsb_eqb in E. destruct (n_chan n c d) as [|w ws] eqn:C; [exact R|].
    assert (R1 : rec (set_chan c d ws n)) by (apply (rec_same n _ R); auto). set (n1 := set_chan c d ws n) in *.
    assert (TA : forall i k n, rec n -> rec (try_add d c i k n)) by (intros i k n0 R0; apply (try_add_ind rec); [exact R0|]; intros n2 t R2 _; now apply rec_add_one).
    destruct w; cbn [receive].
    + now apply rec_post.
    + assert (R2 := fold_inv (fun n x => try_add d c (fst x) (snd x) n) rec subs (fun n0 x _ R0 => TA (fst x) (snd x) n0 R0) n1 R1). apply rec_emit; [exact R2|repeat constructor].
    + assert (R2 := TA idx k n1 R1). apply rec_post. exact R2.
    + apply (rec_dull n1 _ [EAcked d c k ok] R1); auto; repeat constructor.
    + destruct (nth_error _ _) as [x|]; [|apply (rec_dull n1 _ [EIgnored d c] R1); auto; repeat constructor].
      destruct (mtype_beq _ _); [|apply (rec_dull n1 _ [EMisread d x c t m] R1); auto; repeat constructor].
      assert (N : c <> d) by (intros ->; now apply W in E). apply (rec_in throws n1 _ d x c m R1); auto.
  - unfold has_peer. destruct (existsb _ _) eqn:E; [|exact R]. apply (rec_dull n _ [ELeft d c] R); [| |reflexivity|repeat constructor]; intros; unfold local, links, svcs, emit; cbn [n_part]; rewrite set_part_part; destruct (Nat.eqb_spec b d) as [->|]; reflexivity.
Qed.

Theorem rec_run : forall hash throws ops, rec (run hash throws ops) /\ noself (run hash throws ops).
Proof.
  intros hash throws ops. induction ops as [|o ops [IH1 IH2]] using rev_ind.
  - split; [|intros a []]. split; cbn; try tauto; [intros a [|s] d; discriminate|constructor].
  - rewrite run_snoc. split; [now apply rec_step|now apply noself_step].
Qed.
