From Coq Require Import String List Arith Bool Lia.
Import ListNotations.
From Verif Require Import Base NetModel NetSpec NetProofs NetOrder NetRecv NetReach.
Open Scope nat_scope.
Open Scope list_scope.

(** The statements of the properties from the invariants *)

(** ** The tracked state, read off the events *)
Section Track.
Variables (a b : nat) (k : key).
Hypothesis Hab : a <> b.
Lemma fold_some : forall tr st l, ts_sub st = Some l -> ts_sub (fold_left (track a b k) tr st) = Some (l ++ sent_to a b k tr).
Proof.
  intros tr. induction tr as [|e tr IH]; intros st l E; [cbn; now rewrite app_nil_r|]. cbn [fold_left]. change (e :: tr) with ([e] ++ tr). rewrite sent_to_app, app_assoc. apply IH.
  destruct e; cbn [track sent_to flat_map]; try (now rewrite app_nil_r); rewrite ?app_nil_r.
  - destruct (is a a0 k k0); [cbn; now rewrite E|now rewrite app_nil_r].
  - destruct (is a a0 k k0); cbn [andb]; [|now rewrite app_nil_r]. destruct (Nat.eqb_spec b0 b) as [->|]; cbn [andb].
    + rewrite (proj2 (Nat.eqb_neq b a)) by auto. cbn. now rewrite E.
    + rewrite app_nil_r. destruct (negb (b0 =? a)); exact E.
  - destruct (_ && _); [cbn; now rewrite E|exact E].
  - destruct (_ && _); [cbn; now rewrite E|exact E].
Qed.
Lemma fold_none : forall tr st, ts_sub st = None -> ~ In (ESub a b k) tr -> ts_sub (fold_left (track a b k) tr st) = None.
Proof.
  intros tr. induction tr as [|e tr IH]; intros st E N; [exact E|]. cbn [fold_left]. apply IH; [|intros I; apply N; now right]. destruct e; cbn [track]; try exact E.
  - destruct (is a a0 k k0); [cbn; now rewrite E|exact E].
  - destruct (_ && _); [|exact E]. cbn. destruct (b0 =? b); rewrite E; reflexivity.
  - destruct (is a a0 k k0) eqn:I; cbn [andb]; [|exact E]. apply is_iff in I as [<- <-]. destruct (Nat.eqb_spec b0 b) as [->|]; [|exact E]. destruct N. now left.
  - destruct (_ && _); exact E.
Qed.
Lemma tracked_sub : forall t0 t1, ~ In (ESub a b k) t0 -> ts_sub (tracked a b k (t0 ++ ESub a b k :: t1)) = Some (hist_of k (tracked a b k t0) ++ sent_to a b k t1).
Proof.
  intros t0 t1 N. rewrite tracked_app. cbn [fold_left]. apply fold_some. cbn [track]. rewrite is_refl, Nat.eqb_refl. cbn [andb ts_sub]. unfold tracked at 1. now rewrite (fold_none t0 tst0 eq_refl N).
Qed.

Definition opt_list {A} (o : option A) : list A := match o with Some x => [x] | None => [] end.
Lemma last_of_snoc : forall l m, last_of (l ++ [m]) = [m].
Proof. intros. unfold last_of. now rewrite rev_app_distr. Qed.
Lemma sent_app : forall t u, sent a k (t ++ u) = sent a k t ++ sent a k u.
Proof. intros. apply flat_map_app. Qed.
Lemma tracked_last : forall tr, has_history (fst k) = true -> history_on a k tr -> opt_list (ts_last (tracked a b k tr)) = last_of (sent a k tr) /\ ts_hist (tracked a b k tr) = true.
Proof.
  intros tr HH. induction tr as [|e tr IH] using rev_ind; intros HO; [split; reflexivity|]. destruct IH as [I1 I2]; [intros h I; apply HO; apply in_or_app; now left|].
  rewrite tracked_app, sent_app. cbn [fold_left]. destruct e; cbn [track sent flat_map]; rewrite ?app_nil_r; auto.
  - destruct (is a a0 k k0); [|rewrite app_nil_r; auto]. cbn [ts_last ts_hist]. unfold save_t. rewrite HH, I2, last_of_snoc. auto.
  - destruct (_ && _); [|rewrite app_nil_r; auto]. cbn [ts_last ts_hist]. unfold save_t. rewrite HH, I2, last_of_snoc. auto.
  - destruct (_ && _); auto.
  - destruct (is a a0 k k0) eqn:I; cbn [andb]; [|auto]. rewrite HH. apply is_iff in I as [<- <-]. cbn [ts_last ts_hist]. split; [exact I1|]. assert (n <> 0) by (apply HO; apply in_or_app; right; now left). now rewrite (proj2 (Nat.eqb_neq n 0)).
Qed.
Lemma hist_on : forall tr, has_history (fst k) = true -> history_on a k tr -> hist_of k (tracked a b k tr) = last_of (sent a k tr).
Proof. intros tr HH HO. destruct (tracked_last tr HH HO) as [E1 E2]. unfold hist_of. rewrite HH, E2, <- E1. now destruct (ts_last _). Qed.
Lemma hist_no : forall tr, has_history (fst k) = false -> hist_of k (tracked a b k tr) = [].
Proof. intros tr HH. unfold hist_of. now rewrite HH. Qed.
Lemma hist_off : forall tr, history_off a k tr -> hist_of k (tracked a b k tr) = [].
Proof.
  intros tr (t0 & t1 & -> & S0 & H1). unfold hist_of. destruct (has_history (fst k)) eqn:HH; [|reflexivity].
  assert (L0 : forall t, sent a k t = [] -> ts_last (tracked a b k t) = None).
  { intros t. induction t as [|e t IH] using rev_ind; intros E; [reflexivity|]. rewrite sent_app in E. apply app_eq_nil in E as [E1 E2]. rewrite tracked_app. cbn [fold_left]. specialize (IH E1).
    destruct e; cbn [track]; auto; cbn [sent flat_map] in E2; rewrite ?app_nil_r in E2.
    - destruct (is a a0 k k0); [discriminate|exact IH].
    - destruct (_ && _); [discriminate|exact IH].
    - destruct (_ && _); exact IH.
    - destruct (_ && _); exact IH. }
  rewrite tracked_app. cbn [fold_left track]. rewrite is_refl, HH. cbn [andb Nat.eqb negb]. specialize (L0 t0 S0). rewrite L0.
  assert (X : forall t st, (forall h, In (EHist a k h) t -> h = 0) -> ts_last st = None /\ ts_hist st = false -> ts_last (fold_left (track a b k) t st) = None).
  { intros t. induction t as [|e t IH]; intros st H [E1 E2]; [exact E1|]. cbn [fold_left]. apply IH; [intros h I; apply H; now right|]. destruct e; cbn [track]; auto.
    - destruct (is a a0 k k0); [|auto]. cbn [ts_last ts_hist]. unfold save_t. now rewrite E2, andb_false_r.
    - destruct (_ && _); [|auto]. cbn [ts_last ts_hist]. unfold save_t. now rewrite E2, andb_false_r.
    - destruct (_ && _); auto.
    - destruct (is a a0 k k0) eqn:I; cbn [andb]; [|auto]. apply is_iff in I as [<- <-]. destruct (has_history _); [|auto]. cbn [ts_last ts_hist]. split; [exact E1|]. rewrite (H n (or_introl eq_refl)). reflexivity. }
  rewrite X; [reflexivity|exact H1|auto].
Qed.
End Track.

(** ** Nothing arrives at a link before it has a receiver *)
Definition loc (n : net) : Prop := forall b x, In x (rcvs n b) -> exists s, In s (local n b x).
Fixpoint before (b : nat) (k : key) (tr : list event) : list event :=
  match tr with
  | [] => []
  | e :: tr => if match e with EReg b' k' _ => is b b' k k' | _ => false end then [] else e :: before b k tr
  end.
Definition late (n : net) : Prop := forall b k a, ins b k a (before b k (n_trace n)) = [].
Lemma before_in : forall b k s t u, In (EReg b k s) t -> before b k (t ++ u) = before b k t.
Proof.
  intros b k s t u. induction t as [|e t IH]; intros I; [destruct I|]. cbn [app before]. destruct e; try (destruct I as [I|I]; [discriminate|]; now rewrite IH).
  destruct (is b b0 k k0) eqn:E; [reflexivity|]. destruct I as [I|I]; [injection I as -> -> ->; rewrite is_refl in E; discriminate|]. now rewrite IH.
Qed.
Lemma before_out : forall b k t u, (forall s, ~ In (EReg b k s) t) -> before b k (t ++ u) = t ++ before b k u.
Proof.
  intros b k t u. induction t as [|e t IH]; intros I; [reflexivity|]. cbn [app before]. rewrite IH by (intros s H; apply (I s); now right). destruct e; try reflexivity.
  destruct (is b b0 k k0) eqn:E; [|reflexivity]. apply is_iff in E as [<- <-]. destruct (I s). now left.
Qed.
Lemma reg_dec : forall b k t, (exists s, In (EReg b k s) t) \/ (forall s, ~ In (EReg b k s) t).
Proof.
  intros b k t. induction t as [|e t IH]; [right; intros s []|]. destruct IH as [[s I]|I]; [left; exists s; now right|].
  destruct e; try (right; intros s' [H|H]; [discriminate|now apply I in H]). destruct (is b b0 k k0) eqn:E.
  - apply is_iff in E as [<- <-]. left. exists s. now left.
  - right. intros s' [H|H]; [injection H as -> -> ->; rewrite is_refl in E; discriminate|now apply I in H].
Qed.
Lemma late_ext : forall n n' es, late n -> n_trace n' = n_trace n ++ es ->
  (forall b k a, (forall s, ~ In (EReg b k s) (n_trace n)) -> ins b k a (before b k es) = []) -> late n'.
Proof.
  intros n n' es L ET H b k a. rewrite ET. destruct (reg_dec b k (n_trace n)) as [[s I]|I]; [rewrite (before_in b k s) by exact I; apply L|].
  rewrite before_out, ins_app by exact I. rewrite H by exact I. rewrite app_nil_r. specialize (L b k a). rewrite <- (app_nil_r (n_trace n)), before_out, app_nil_r in L by exact I. exact L.
Qed.
Definition noin (e : event) : Prop := match e with EIn _ _ _ _ => False | _ => True end.
Lemma noin_ins : forall b k a es, Forall noin es -> ins b k a (before b k es) = [].
Proof.
  intros b k a es F. induction F as [|e es H F IH]; [reflexivity|]. cbn [before]. destruct (match e with EReg _ _ _ => _ | _ => _ end); [reflexivity|]. change (ins b k a ([e] ++ before b k es) = []). rewrite ins_app, IH. destruct e; try reflexivity. destruct H.
Qed.
Lemma late_noin : forall n n' es, late n -> n_trace n' = n_trace n ++ es -> Forall noin es -> late n'.
Proof. intros n n' es L ET F. apply (late_ext n n' es L ET). intros. now apply noin_ins. Qed.
Lemma noin_recvs : forall es, recvs_only es -> Forall noin es.
Proof. intros es R. apply Forall_forall. intros e I. destruct (R e I) as (? & ? & ? & ? & ? & ? & ->). exact Logic.I. Qed.

Definition noin_step (n n' : net) : Prop := exists es, n_trace n' = n_trace n ++ es /\ Forall noin es.
Lemma nis_refl : forall n n', n_trace n' = n_trace n -> noin_step n n'.
Proof. intros n n' E. exists []. split; [now rewrite app_nil_r|constructor]. Qed.
Lemma nis_trans : forall x y z, noin_step x y -> noin_step y z -> noin_step x z.
Proof. intros x y z (e1 & A & B) (e2 & C & D). exists (e1 ++ e2). split; [now rewrite C, A, app_assoc|now apply Forall_app]. Qed.
Lemma nis_emit : forall es n, Forall noin es -> noin_step n (emit es n).
Proof. intros es n F. now exists es. Qed.
Lemma nis_add_one : forall a b idx k n, noin_step n (add_one a b idx k n).
Proof.
  intros a b idx k n. destruct (existsb (rr_eqb (b, idx)) (remote n a k)) eqn:E.
  - apply existsb_rr in E. apply nis_refl. now rewrite ao_old by exact E.
  - apply not_true in E. rewrite existsb_rr in E. exists [ESub a b k]. split; [now apply ao_trace|repeat constructor].
Qed.
Lemma nis_try_add : forall a b idx k n, noin_step n (try_add a b idx k n).
Proof. intros a b idx k n. apply (try_add_ind (noin_step n)); [now apply nis_refl|]. intros n' t H _. eapply nis_trans; [exact H|apply nis_add_one]. Qed.
Lemma nis_reply : forall a b (subs : list (nat * key)) n, noin_step n (fold_left (fun n x => try_add a b (fst x) (snd x) n) subs n).
Proof.
  intros a b subs n. refine (fold_inv (fun n x => try_add a b (fst x) (snd x) n) (noin_step n) subs _ n (nis_refl n n eq_refl)).
  intros n' x _ H. exact (nis_trans _ _ _ H (nis_try_add a b (fst x) (snd x) n')).
Qed.

Lemma loc_keep : forall n n', loc n -> (forall x, rcvs n' x = rcvs n x) -> (forall b k, local n' b k = local n b k) -> loc n'.
Proof. intros n n' L ER EL b x. rewrite ER, EL. apply L. Qed.
Lemma add_one_local : forall a b idx k n x k', local (add_one a b idx k n) x k' = local n x k'.
Proof.
  intros a b idx k n x k'. unfold local. destruct (existsb (rr_eqb (b, idx)) (remote n a k)) eqn:E.
  - apply existsb_rr in E. rewrite ao_old, links_set by exact E. destruct (Nat.eqb_spec x a) as [->|]; cbn [andb]; [|reflexivity]. destruct (key_eqb k' k) eqn:Ek; [|reflexivity]. now apply key_eqb_iff in Ek as ->.
  - apply not_true in E. rewrite existsb_rr in E. rewrite ao_links by exact E. destruct (Nat.eqb_spec x a) as [->|]; cbn [andb]; [|reflexivity]. destruct (key_eqb k' k) eqn:Ek; [|reflexivity]. now apply key_eqb_iff in Ek as ->.
Qed.
Lemma loc_try_add : forall a b idx k n, loc n -> loc (try_add a b idx k n).
Proof. intros a b idx k n L. apply (try_add_ind loc); [exact L|]. intros n' t L' _. apply (loc_keep n' _ L'); intros; [apply ao_rcvs|apply add_one_local]. Qed.
Lemma loc_reply : forall a b (subs : list (nat * key)) n, loc n -> loc (fold_left (fun n x => try_add a b (fst x) (snd x) n) subs n).
Proof. intros a b subs n L. exact (fold_inv (fun n x => try_add a b (fst x) (snd x) n) loc subs (fun n' x _ H => loc_try_add a b (fst x) (snd x) n' H) n L). Qed.
Lemma loc_emit : forall es n, loc n -> loc (emit es n).
Proof. intros es n L. exact L. Qed.
Lemma loc_post : forall a b w n, loc n -> loc (post a b w n).
Proof. intros a b w n L. exact L. Qed.
Lemma loc_post_all : forall a l n, loc n -> loc (post_all a l n).
Proof. intros a l n L. apply (loc_keep n _ L); intros; unfold rcvs, local, links; now rewrite post_all_part. Qed.
Lemma loc_link : forall c k l n, loc n -> l_local l = local n c k -> loc (set_part c (set_link k l (n_part n c)) n).
Proof.
  intros c k l n L E. apply (loc_keep n _ L); intros; [apply same_rcvs|]. unfold local. rewrite links_set. destruct (Nat.eqb_spec b c) as [->|]; cbn [andb]; [|reflexivity]. destruct (key_eqb k0 k) eqn:Ek; [|reflexivity]. apply key_eqb_iff in Ek as ->. exact E.
Qed.
Lemma post_trace : forall a b w n, n_trace (post a b w n) = n_trace n.
Proof. reflexivity. Qed.

Lemma late_step : forall hash throws o n, rec n -> loc n -> late n -> loc (step hash throws o n) /\ late (step hash throws o n).
Proof.
  intros hash throws o n R L T.
  assert (G : forall n', loc n' -> noin_step n n' -> loc n' /\ late n') by (intros n' L' (es & E & F); split; [exact L'|now apply (late_noin n n' es)]).
  destruct o as [c d|c w ty rs ss|c k0 h|c s t v|c s t d v|c d|c d]; cbn [step].
  - destruct (_ || _); [auto|]. apply G; [|now apply nis_refl]. apply (loc_keep n _ L).
    + intros x. unfold rcvs, post, set_chan. cbn [n_part]. rewrite !set_part_part. destruct (Nat.eqb_spec x d) as [->|]; cbn [p_rcvs]; destruct (Nat.eqb_spec d c) as [->|]; cbn [p_rcvs]; try reflexivity; destruct (Nat.eqb_spec x c) as [->|]; reflexivity.
    + intros x k. unfold local, links, post, set_chan. cbn [n_part]. rewrite !set_part_part. destruct (Nat.eqb_spec x d) as [->|]; cbn [p_links]; destruct (Nat.eqb_spec d c) as [->|]; cbn [p_links]; try reflexivity; destruct (Nat.eqb_spec x c) as [->|]; reflexivity.
  - assert (X : loc (register hash c w ty rs ss n) /\ noin_step n (register hash c w ty rs ss n)); [|now apply G].
    apply (register_ind hash (fun n' => loc n' /\ noin_step n n')).
    + split; [exact L|now apply nis_refl].
    + intros n0 e [L0 S0] _. split; [|eapply nis_trans; [exact S0|now apply nis_refl]]. apply (loc_keep n0 _ L0); intros; unfold rcvs, local, links; rewrite set_part_part; [destruct (Nat.eqb_spec x c) as [->|]|destruct (Nat.eqb_spec b c) as [->|]]; reflexivity.
    + intros n0 s t [L0 S0] _. split.
      * assert (EL : forall x k' y, In y (local n0 x k') -> In y (local (register_receiver c s (t, w) n0) x k')).
        { intros x k' y I. unfold local. rewrite rr_links. destruct (Nat.eqb_spec x c) as [->|]; cbn [andb]; [|exact I]. destruct (key_eqb k' (t, w)) eqn:E; [|exact I]. apply key_eqb_iff in E as ->. rewrite add_local_local. destruct (existsb _ _); [exact I|apply in_or_app; now left]. }
        intros x k'. rewrite rr_rcvs. intros I. assert (O : In k' (rcvs n0 x) -> exists y, In y (local (register_receiver c s (t, w) n0) x k')) by (intros H; destruct (L0 x k' H) as [y Hy]; exists y; now apply EL).
        destruct (Nat.eqb_spec x c) as [->|]; cbn [andb] in I; [|auto]. destruct (new_rcv _ _ _); [|auto]. apply in_app_iff in I as [I|[<-|[]]]; [auto|]. exists s. unfold local. rewrite rr_links, Nat.eqb_refl, key_eqb_refl. cbn [andb]. rewrite add_local_local. destruct (existsb _ _) eqn:E; [now apply existsb_eqb in E|apply in_or_app; right; now left].
      * eapply nis_trans; [exact S0|]. eexists. split; [apply rr_trace|]. destruct (new_local _ _ _ _); repeat constructor.
    + intros n0 t [L0 S0]. split; [|eapply nis_trans; [exact S0|now apply nis_refl]]. apply (loc_keep n0 _ L0); intros; unfold rcvs, local, links, register_sender; rewrite set_part_part; [destruct (Nat.eqb_spec x c) as [->|]|destruct (Nat.eqb_spec b c) as [->|]]; reflexivity.
  - apply G; [|exists [EHist c k0 h]; split; [reflexivity|repeat constructor]]. apply loc_emit, loc_link; [exact L|]. unfold set_history. now destruct (has_history _).
  - destruct (nth_error _ _) as [e|]; [|auto]. destruct (existsb _ _); [|apply G; [now apply loc_emit|apply nis_emit; repeat constructor]]. unfold distribute_local, transmit. set (k := (t, d_net e)). apply G.
    + apply loc_emit, loc_post_all. rewrite set_emit. apply loc_emit, loc_link; [exact L|apply save_fields].
    + eapply nis_trans; [|apply nis_emit, noin_recvs, recvs_self]. exists [EPub c k (s, v)]. split; [now rewrite post_all_trace|repeat constructor].
  - destruct (nth_error _ _) as [e|]; [|auto]. destruct (existsb _ _); [|apply G; [now apply loc_emit|apply nis_emit; repeat constructor]]. set (k := (t, d_net e)). destruct (c =? d).
    + apply G; [now apply loc_emit|]. apply nis_emit. constructor; [exact I|]. apply noin_recvs, recvs_self.
    + unfold transmit_to. set (n1 := set_part _ _ _). assert (L1 : loc n1) by (unfold n1; rewrite set_emit; apply loc_emit, loc_link; [exact L|apply save_fields]).
      assert (S1 : noin_step n n1) by (exists [EPubTo c k d (s, v)]; split; [reflexivity|repeat constructor]).
      destruct (option_map _ _); apply G; [now apply loc_post_all|eapply nis_trans; [exact S1|]; apply nis_refl; now rewrite post_all_trace|now apply loc_emit|eapply nis_trans; [exact S1|apply nis_emit; repeat constructor]].
  - destruct (has_peer _ _ _); [|auto]. destruct (n_chan n c d) as [|w ws] eqn:C; [auto|]. set (n1 := set_chan c d ws n). assert (L1 : loc n1) by exact L. assert (S1 : noin_step n n1) by now apply nis_refl.
    destruct w; cbn [receive].
    + apply G; [now apply loc_post|]. eapply nis_trans; [exact S1|]. apply nis_refl, post_trace.
    + apply G; [apply loc_emit; now apply loc_reply|]. eapply nis_trans; [exact S1|]. eapply nis_trans; [exact (nis_reply d c subs n1)|]. apply nis_emit. repeat constructor.
    + apply G; [apply loc_post; now apply loc_try_add|]. eapply nis_trans; [exact S1|]. eapply nis_trans; [exact (nis_try_add d c idx k n1)|]. apply nis_refl, post_trace.
    + apply G; [now apply loc_emit|eapply nis_trans; [exact S1|]; apply nis_emit; repeat constructor].
    + destruct (nth_error _ _) as [x|] eqn:X; [|apply G; [now apply loc_emit|eapply nis_trans; [exact S1|]; apply nis_emit; repeat constructor]].
      destruct (mtype_beq _ _); [|apply G; [now apply loc_emit|eapply nis_trans; [exact S1|]; apply nis_emit; repeat constructor]]. split; [now apply loc_emit|].
      eapply late_ext; [exact T|reflexivity|]. intros b k a NR. pose proof (recvs_remote throws d x c m (p_links (n_part n1 d) x)) as RO. cbn [before]. change (ins b k a ([EIn d x c m] ++ before b k (distribute_remote throws d x c m (p_links (n_part n1 d) x))) = []).
      rewrite ins_app, (noin_ins b k a _ (noin_recvs _ RO)), app_nil_r. unfold ins. cbn [flat_map]. rewrite app_nil_r. destruct (is b d k x) eqn:I; [|reflexivity]. apply is_iff in I as [-> ->].
      exfalso. apply nth_error_In in X. destruct (L d x X) as [s Hs]. apply (rc_reg n R) in Hs. now apply NR in Hs.
  - destruct (has_peer _ _ _); [|auto]. apply G; [|exists [ELeft d c]; split; [reflexivity|repeat constructor]]. apply loc_emit. apply (loc_keep n _ L); intros; unfold rcvs, local, links; rewrite set_part_part; [destruct (Nat.eqb_spec x d) as [->|]|destruct (Nat.eqb_spec b d) as [->|]]; reflexivity.
Qed.
Theorem late_run : forall hash throws ops, loc (run hash throws ops) /\ late (run hash throws ops).
Proof.
  intros hash throws ops. induction ops as [|o ops [IH1 IH2]] using rev_ind; [split; [intros b x []|intros b k a; reflexivity]|]. rewrite run_snoc. apply late_step; [apply rec_run|exact IH1|exact IH2].
Qed.
