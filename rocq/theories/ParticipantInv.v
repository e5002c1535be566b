From Coq Require Import String Ascii NArith ZArith List Bool Lia Permutation Sorted.
From Verif Require Import Base TextModel YamlModel YamlProofs ParticipantModel ParticipantProofs.
Import ListNotations.
Open Scope Z_scope.
Open Scope list_scope.

Definition announces (k : kind) : bool := match k with KLifecycle | KTimeSync => false | _ => true end.
Definition registers (sync : bool) (k : kind) : bool := match k with KTimeSync => sync | _ => true end.
Definition keys (s : st) : list (kind * text) := map (fun x => (fst x, d_name (snd x))) (s_ctrls s).
Definition own_name (k : kind) : string :=
  match k with KLogSender => "LogMsgSender" | KLogReceiver => "LogMsgReceiver" | KLifecycle => "LifecycleService" | KMonitor => "SystemMonitor" | KController => "SystemController"
             | KTimeSync => "TimeSyncService" | KDiscovery => "ServiceDiscovery" | KReqRep => "RequestReplyService" | KMetReceiver => "MetricsReceiver" | KMetSender => "MetricsSender" | _ => "" end.
Record Inv (c : pcfg) (s : st) : Prop := mkInv {
  i_nodup : NoDup (keys s);
  i_ids : map (fun x => d_id (snd x)) (s_ctrls s) = map (fun i => (N.of_nat i mod 2 ^ 64)%N) (seq 0 (length (s_ctrls s)));
  i_next : s_next s = (N.of_nat (length (s_ctrls s)) mod 2 ^ 64)%N;
  i_good : forall k d, In (k, d) (s_ctrls s) -> d_part d = p_name c /\ d_internal d = internal k /\ d_ntype d = nettype k /\ d_name d <> [] /\
             (internal k = true -> d_name d = lit (own_name k));
  i_ann : Permutation (announced (s_log s)) (map snd (filter (fun x => announces (fst x)) (s_ctrls s)));
  i_reg : Permutation (registered (s_log s)) (map snd (filter (fun x => registers (s_sync s) (fst x)) (s_ctrls s)));
  i_order : forall a d b, s_log s = a ++ Announced d :: b -> In (Registered d) a }.

Lemma registered_app : forall a b, registered (a ++ b) = registered a ++ registered b. Proof. intros. apply flat_map_app. Qed.
Lemma announced_app : forall a b, announced (a ++ b) = announced a ++ announced b. Proof. intros. apply flat_map_app. Qed.
Lemma quiet_reg : forall l, Forall quiet l -> registered l = [] /\ announced l = [].
Proof. intros l H. induction H as [|a l A H [IH1 IH2]]; [auto|]. destruct a; try destruct A; split; assumption. Qed.
Lemma mismatch_quiet : forall l, Forall mismatch l -> Forall quiet l.
Proof. intros l. apply Forall_impl. now intros []. Qed.
(** entries that say nothing about services keep the order *)
Definition nota (a : act) : Prop := match a with Announced _ => False | _ => True end.
Lemma quiet_nota : forall l, Forall quiet l -> Forall nota l.
Proof. intros l. apply Forall_impl. now intros []. Qed.
Lemma order_quiet : forall l l' : list act, (forall a d b, l = a ++ Announced d :: b -> In (Registered d) a) -> Forall nota l' ->
  forall a d b, l ++ l' = a ++ Announced d :: b -> In (Registered d) a.
Proof.
  intros l l' H Q. induction l' as [|x l' IH] using rev_ind; [rewrite app_nil_r; exact H|].
  apply Forall_app in Q. destruct Q as [Q Qx]. intros a d b E. rewrite app_assoc in E. destruct b as [|y b _] using rev_ind.
  - apply app_inj_tail in E. destruct E as [_ ->]. inversion Qx as [|? ? K]; destruct K.
  - rewrite app_comm_cons, app_assoc in E. apply app_inj_tail in E. destruct E as [E _]. eapply IH; eauto.
Qed.
Lemma inv_quiet : forall c s l, Inv c s -> Forall quiet l -> Inv c (logs l s).
Proof.
  intros c s l [A B C D E F G] Q. destruct (quiet_reg l Q) as [Q1 Q2]. constructor; try assumption; cbn [logs s_log s_ctrls s_sync].
  - rewrite announced_app, Q2, app_nil_r. exact E.
  - rewrite registered_app, Q1, app_nil_r. exact F.
  - apply order_quiet; [exact G|now apply quiet_nota].
Qed.
Lemma nodup_snoc : forall A (l : list A) x, NoDup l -> ~ In x l -> NoDup (l ++ [x]).
Proof.
  intros A l x H N. apply (Permutation_NoDup (l := x :: l)).
  - apply Permutation_cons_append.
  - now constructor.
Qed.
Lemma order_added : forall l d0, (forall a d b, l = a ++ Announced d :: b -> In (Registered d) a) ->
  forall a d b, l ++ [Registered d0; Announced d0] = a ++ Announced d :: b -> In (Registered d) a.
Proof.
  intros l d0 H a d b E. destruct b as [|y b _] using rev_ind.
  - change (l ++ [Registered d0; Announced d0]) with (l ++ [Registered d0] ++ [Announced d0]) in E. rewrite app_assoc in E. apply app_inj_tail in E.
    destruct E as [<- E]. injection E as <-. apply in_or_app. right. now left.
  - change (l ++ [Registered d0; Announced d0]) with (l ++ [Registered d0] ++ [Announced d0]) in E. rewrite app_assoc in E.
    rewrite app_comm_cons, app_assoc in E. apply app_inj_tail in E. destruct E as [E _]. destruct b as [|z b _] using rev_ind.
    + apply app_inj_tail in E. destruct E as [_ E]. discriminate.
    + rewrite app_comm_cons, app_assoc in E. apply app_inj_tail in E. destruct E as [E _]. eapply H; eauto.
Qed.
Lemma ids_snoc : forall n, map (fun i => (N.of_nat i mod 2 ^ 64)%N) (seq 0 (S n)) = map (fun i => (N.of_nat i mod 2 ^ 64)%N) (seq 0 n) ++ [(N.of_nat n mod 2 ^ 64)%N].
Proof. intros n. rewrite seq_S, map_app. reflexivity. Qed.
Lemma inv_added : forall c k n net supp s, Inv c s -> internal k = false -> n <> [] -> exists_ k n s = false ->
  Inv c (added k (mkDesc (p_name c) net n (nettype k) (s_next s) (internal k) supp) s).
Proof.
  intros c k n net supp s [A B C D E F G] K N X. set (d := mkDesc (p_name c) net n (nettype k) (s_next s) (internal k) supp).
  assert (Ka : announces k = true) by (destruct k; cbn in *; congruence). assert (Kr : forall b, registers b k = true) by (intros b; destruct k; cbn in *; congruence).
  constructor; unfold added, keys; cbn [s_ctrls s_next s_log s_sync].
  - rewrite map_app. apply nodup_snoc; [exact A|]. cbn. intros H. apply in_map_iff in H. destruct H as [[k' d'] [H1 H2]]. cbn in H1. injection H1 as -> H1.
    assert (Y : exists_ k n s = true) by (apply exists_in; exists d'; auto). congruence.
  - rewrite map_app, app_length, Nat.add_comm. cbn [length Nat.add map snd]. rewrite ids_snoc, B. f_equal. f_equal. subst d. cbn. exact C.
  - rewrite app_length, C. cbn [length]. rewrite Nat.add_comm. cbn [Nat.add]. rewrite Nat2N.inj_succ. rewrite N.add_mod_idemp_l by lia. f_equal. lia.
  - intros k' d' H. apply in_app_or in H. destruct H as [H|[H|[]]]; [now apply D|]. injection H as <- <-. subst d. cbn. repeat split; auto. congruence.
  - rewrite announced_app, filter_app, map_app. cbn [filter fst announced flat_map app]. rewrite Ka. cbn [map snd]. now apply Permutation_app_tail.
  - rewrite registered_app, filter_app, map_app. cbn [filter fst registered flat_map app]. rewrite Kr. cbn [map snd]. now apply Permutation_app_tail.
  - now apply order_added.
Qed.
Lemma quiet_extra : forall c o d sinks, Forall quiet (extra c o d sinks).
Proof. intros c [] d sinks; cbn [extra]; try constructor; try exact I; apply quiet_sink_act. Qed.
Lemma named_public : forall o k n, target_of o = TNamed k n -> internal k = false.
Proof. intros o k n H. destruct o as [b n' net| | | | | | | | | | | |]; try discriminate; [destruct b|..]; cbn in H; injection H as E1 E2; subst k; reflexivity. Qed.
Lemma filter_all : forall A (f : A -> bool) l, (forall x, In x l -> f x = true) -> filter f l = l.
Proof. induction l as [|x l IH]; intros H; [reflexivity|]. cbn. rewrite H by now left. f_equal. apply IH. intros y Y. apply H. now right. Qed.

Lemma inv_step : forall c srt o s, Inv c s -> Ready s -> Inv c (fst (step c srt o s)) /\ Ready (fst (step c srt o s)).
Proof.
  intros c srt o s V R. destruct (step_shape c srt o s R) as [l F _|k n l T Ac Tk F|T T' Ac Tk|d a b -> Hs Es Ha]; cbn [fst].
  - split; [apply inv_quiet; [exact V|now apply mismatch_quiet]|exact R].
  - rewrite T in Tk. cbn in Tk. apply orb_false_iff in Tk. destruct Tk as [Tn Te]. split.
    + apply inv_quiet; [|apply quiet_extra]. apply (inv_added c k n _ _ (logs l s)).
      * apply inv_quiet; [exact V|now apply mismatch_quiet].
      * eapply named_public; eauto.
      * intros ->. discriminate.
      * exact Te.
    + eapply ready_more; [exact R|]. cbn. apply incl_appl, incl_refl.
  - split; [|destruct (target_of o); exact R].
    destruct V as [A B C D E F G]. destruct (target_of o); constructor; assumption.
  - split; [|exact R]. destruct V as [A B C D E F G]. constructor; unfold keys; cbn [s_ctrls s_next s_log s_sync]; try assumption.
    + rewrite announced_app. cbn. rewrite app_nil_r. exact E.
    + rewrite registered_app. cbn [registered flat_map app]. rewrite Hs in F. rewrite filter_all by (intros [[] x] _; reflexivity).
      rewrite Es in *. rewrite filter_app in F. cbn [filter fst registers] in F.
      assert (Nb : forall x, In x b -> fst x <> KTimeSync).
      { intros [k x] Hx Kx. cbn in Kx. subst k. unfold keys in A. rewrite Es, map_app in A. cbn in A. apply NoDup_remove_2 in A. apply A. apply in_or_app. right.
        apply in_map_iff. exists (KTimeSync, x). split; [|exact Hx]. cbn. f_equal.
        destruct (D KTimeSync x) as (_ & _ & _ & _ & Q1); [apply in_or_app; right; now right|].
        destruct (D KTimeSync d) as (_ & _ & _ & _ & Q2); [apply in_or_app; right; now left|]. now rewrite Q1, Q2. }
      rewrite (filter_all _ _ a) in F by (intros [[] x] Hx; try reflexivity; now destruct (Ha _ Hx)).
      rewrite (filter_all _ _ b) in F by (intros [[] x] Hx; try reflexivity; now destruct (Nb _ Hx)).
      rewrite map_app in *. cbn [map snd]. eapply Permutation_trans; [apply Permutation_app_tail, F|]. rewrite <- app_assoc. apply Permutation_app_head.
      apply Permutation_sym, Permutation_cons_append.
    + apply order_quiet. exact G. constructor; [|constructor]. exact I.
Qed.

(** ** Joining *)
Definition has_remote_log (c : pcfg) : bool := existsb (fun s => stype_eqb (s_type s) SRemote) (lg_sinks (p_logging c)).
Definition has_remote_metrics (c : pcfg) : bool := existsb (fun s => mtype_eqb (m_type s) MRemote) (me_sinks (ex_metrics (p_exp c))).
Definition collects (c : pcfg) : bool := match me_collect (ex_metrics (p_exp c)) with Some b => b | None => false end.
Definition bad_sinks (c : pcfg) : bool := existsb (fun t => tktype_eqb (tk_type t) TkUndefined) (tr_sinks (p_tracing c)).
Definition bad_sources (c : pcfg) : bool := existsb (fun t => tctype_eqb (tc_type t) TcUndefined) (tr_sources (p_tracing c)).
(** the kinds in the order of their numbers *)
Definition first_part (c : pcfg) : list kind :=
  (if lg_remote (p_logging c) then [KLogReceiver] else []) ++ (if has_remote_log c then [KLogSender] else []) ++
  (if has_remote_metrics c then [KMetSender] else []) ++ (if collects c then [KMetReceiver] else []) ++ [KController].
Definition joined (c : pcfg) : list kind :=
  match first_part c with k :: l => k :: KDiscovery :: l | [] => [KDiscovery] end ++ [KReqRep; KTimeSync; KLifecycle; KMonitor].
Definition own_type (k : kind) : string :=
  match k with KLogSender => "LoggerSender" | KLogReceiver => "LoggerReceiver" | _ => own_name k end.
Definition own_desc (c : pcfg) (k : kind) (i : nat) : desc :=
  mkDesc (p_name c) default (lit (own_name k)) NtUndefined (N.of_nat i) true (ctype (own_type k)).
Fixpoint numbered (c : pcfg) (i : nat) (l : list kind) : list (kind * desc) :=
  match l with [] => [] | k :: l => (k, own_desc c k i) :: numbered c (S i) l end.

Definition join_log (c : pcfg) : list act :=
  match numbered c 0 (joined c) with
  | x0 :: x1 :: l => [Registered (snd x0); Registered (snd x1); Announced (snd x1); Announced (snd x0)] ++
      flat_map (fun x => (if registers false (fst x) then [Registered (snd x)] else []) ++ (if announces (fst x) then [Announced (snd x)] else [])) l
  | _ => []
  end.
Definition start_state (c : pcfg) : st :=
  mkSt (numbered c 0 (joined c)) (N.of_nat (length (joined c))) false false false false false (map tk_name (tr_sinks (p_tracing c))) (join_log c).

Lemma start_ok : forall c, bad_sinks c = false -> bad_sources c = false -> start c = (start_state c, Some tt).
Proof.
  intros c B1 B2. unfold start, start_state, join_log, joined, first_part, join.
  fold (has_remote_log c) (has_remote_metrics c) (collects c) (bad_sources c). unfold create_sinks. fold (bad_sinks c). rewrite B1, B2.
  generalize (map tk_name (tr_sinks (p_tracing c))). intros sinks. clear B1 B2.
  destruct (lg_remote (p_logging c)), (has_remote_log c), (has_remote_metrics c), (collects c); vm_compute; reflexivity.
Qed.
Lemma start_fails : forall c, bad_sinks c = true \/ bad_sources c = true -> snd (start c) = None.
Proof.
  intros c B. unfold start, join.
  fold (has_remote_log c) (has_remote_metrics c) (collects c) (bad_sources c). unfold create_sinks. fold (bad_sinks c).
  generalize (map tk_name (tr_sinks (p_tracing c))). intros sinks. revert B.
  destruct (lg_remote (p_logging c)), (has_remote_log c), (has_remote_metrics c), (collects c), (bad_sinks c), (bad_sources c); intros [B|B]; try discriminate B; vm_compute; reflexivity.
Qed.
Lemma nodup_kinds : forall (l : list (kind * desc)), NoDup (map fst l) -> NoDup (map (fun x => (fst x, d_name (snd x))) l).
Proof.
  intros l H. induction l as [|x l IH]; [constructor|]. cbn in *. inversion H as [|? ? A B]; subst. constructor; [|auto].
  intros X. apply in_map_iff in X. destruct X as [y [E Y]]. apply A. apply in_map_iff. exists y. split; [now inversion E|exact Y].
Qed.
Lemma start_inv : forall c, Inv c (start_state c) /\ Ready (start_state c).
Proof.
  intros c. assert (Q : forall A (a b x : A) l, Permutation (b :: a :: l) (a :: b :: l)) by (intros; constructor).
  split; [constructor|].
  - apply nodup_kinds. unfold start_state, joined, first_part. cbn [s_ctrls].
    destruct (lg_remote (p_logging c)), (has_remote_log c), (has_remote_metrics c), (collects c); cbn; repeat (constructor; [cbn; intuition discriminate|]); constructor.
  - unfold start_state, joined, first_part. cbn [s_ctrls].
    destruct (lg_remote (p_logging c)), (has_remote_log c), (has_remote_metrics c), (collects c); reflexivity.
  - unfold start_state, joined, first_part. cbn [s_ctrls s_next].
    destruct (lg_remote (p_logging c)), (has_remote_log c), (has_remote_metrics c), (collects c); reflexivity.
  - unfold start_state. cbn [s_ctrls]. assert (K : Forall (fun k => internal k = true) (joined c)).
    { unfold joined, first_part. destruct (lg_remote (p_logging c)), (has_remote_log c), (has_remote_metrics c), (collects c); cbn; repeat constructor. }
    generalize 0%nat. induction K as [|k l Kk K IH]; intros i k' d H; [destruct H|]. cbn [numbered] in H. destruct H as [H|H]; [|eapply IH; eauto].
    injection H as <- <-. unfold own_desc. cbn [d_part d_internal d_ntype d_name]. repeat split; auto; destruct k; cbn in Kk |- *; try discriminate; reflexivity.
  - unfold start_state, join_log, joined, first_part. cbn [s_ctrls s_log].
    destruct (lg_remote (p_logging c)), (has_remote_log c), (has_remote_metrics c), (collects c); cbn; apply Q; exact (own_desc c KCan 0).
  - unfold start_state, join_log, joined, first_part. cbn [s_ctrls s_log s_sync].
    destruct (lg_remote (p_logging c)), (has_remote_log c), (has_remote_metrics c), (collects c); cbn; apply Permutation_refl.
  - unfold start_state, join_log, joined, first_part. cbn [s_log].
    assert (Z : forall (l : list act) a d b, l = a ++ Announced d :: b -> (forall p x, In (p, x) ((fix go pre l := match l with [] => [] | x :: l => (pre, x) :: go (pre ++ [x]) l end) [] l) -> match x with Announced d => In (Registered d) p | _ => True end) -> In (Registered d) a).
    { intros l a d b -> H. apply (H a (Announced d)). enough (G : forall pre, In (pre ++ a, Announced d) ((fix go pre l := match l with [] => [] | x :: l => (pre, x) :: go (pre ++ [x]) l end) pre (a ++ Announced d :: b))) by (exact (G [])).
      clear H. induction a as [|y a IH]; intros pre; cbn; [rewrite app_nil_r; now left|]. right. specialize (IH (pre ++ [y])). rewrite <- app_assoc in IH. exact IH. }
    intros a d b E. apply (Z _ _ _ _ E). clear.
    destruct (lg_remote (p_logging c)), (has_remote_log c), (has_remote_metrics c), (collects c); cbn; intros p x H;
      repeat (destruct H as [H|H]; [injection H as <- <-; cbn; tauto|]); destruct H.
  - intros k n H. unfold start_state, joined, first_part. unfold exists_. cbn [s_ctrls].
    destruct (lg_remote (p_logging c)), (has_remote_log c), (has_remote_metrics c), (collects c); cbn in H;
      repeat (destruct H as [H|H]; [injection H as <- <-; vm_compute; reflexivity|]); destruct H.
Qed.
Lemma run_inv : forall c srt ops s, Inv c s -> Ready s -> Inv c (run c srt ops s) /\ Ready (run c srt ops s).
Proof.
  intros c srt ops. induction ops as [|o ops IH]; intros s V R; [auto|]. cbn [run fold_left]. destruct (inv_step c srt o s V R) as [V' R']. now apply IH.
Qed.
