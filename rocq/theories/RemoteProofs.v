(** Proofs about RemoteModel.v. *)
From Coq Require Import List Arith Bool Lia.
From Verif Require Import Base RemoteModel.
From Verif Require ConnectModel.
Import ListNotations.

(** ** Counting messages *)
Definition cnt (f : msg -> bool) (q : list msg) : nat := length (filter f q).
Arguments cnt : simpl never.
Definition is_req m := match m with MReq => true | _ => false end.
Definition is_conn m := match m with MConn => true | _ => false end.
Definition is_fail m := match m with MFail => true | _ => false end.
Definition is_notice m := match m with MNotice => true | _ => false end.
Definition is_ann m := match m with MAnn => true | _ => false end.
Definition is_rep m := match m with MRep => true | _ => false end.
Definition is_data n m := match m with MData k => k =? n | _ => false end.
Definition b2n (b : bool) : nat := if b then 1 else 0.
Fixpoint cl (f : msg -> bool) (l : list link) : nat :=
  match l with [] => 0 | x :: l => cnt f (fst x) + cl f l end.
Fixpoint cr (f : msg -> bool) (l : list link) : nat :=
  match l with [] => 0 | x :: l => cnt f (snd x) + cr f l end.

Lemma cnt_app f a b : cnt f (a ++ b) = cnt f a + cnt f b.
Proof. unfold cnt. now rewrite filter_app, app_length. Qed.
Lemma cnt_cons f m q : cnt f (m :: q) = b2n (f m) + cnt f q.
Proof. unfold cnt. cbn. destruct (f m); reflexivity. Qed.
Lemma cnt_nil f : cnt f [] = 0.
Proof. reflexivity. Qed.
Lemma cl_app f a b : cl f (a ++ b) = cl f a + cl f b.
Proof. induction a as [|x a IH]; cbn; [reflexivity|]. rewrite IH. lia. Qed.
Lemma cr_app f a b : cr f (a ++ b) = cr f a + cr f b.
Proof. induction a as [|x a IH]; cbn; [reflexivity|]. rewrite IH. lia. Qed.
Lemma cl_one f x : cl f [x] = cnt f (fst x).
Proof. cbn. lia. Qed.
Lemma cr_one f x : cr f [x] = cnt f (snd x).
Proof. cbn. lia. Qed.
Lemma cl_put f k x l : k < length l -> cl f (put k x l) + cnt f (fst (nth k l ([], []))) = cl f l + cnt f (fst x).
Proof.
  revert k; induction l as [|y l IH]; intros k H; cbn in H; [lia|].
  destruct k; cbn in *; [lia|]. specialize (IH k ltac:(lia)). lia.
Qed.
Lemma cr_put f k x l : k < length l -> cr f (put k x l) + cnt f (snd (nth k l ([], []))) = cr f l + cnt f (snd x).
Proof.
  revert k; induction l as [|y l IH]; intros k H; cbn in H; [lia|].
  destruct k; cbn in *; [lia|]. specialize (IH k ltac:(lia)). lia.
Qed.
Lemma put_out {A} k (x : A) l : length l <= k -> put k x l = l.
Proof. revert k; induction l as [|y l IH]; intros k H; cbn in *; [reflexivity|]. destruct k; [lia|]. cbn. now rewrite IH by lia. Qed.
Lemma put_put {A} k (x y : A) l : put k x (put k y l) = put k x l.
Proof. revert k; induction l as [|z l IH]; intros [|k]; cbn; try reflexivity. now rewrite IH. Qed.
Lemma put_length {A} k (x : A) l : length (put k x l) = length l.
Proof. revert k; induction l as [|z l IH]; intros [|k]; cbn; try reflexivity. now rewrite IH. Qed.
Lemma nth_put {A} k (x : A) l d : k < length l -> nth k (put k x l) d = x.
Proof. revert k; induction l as [|z l IH]; intros [|k] H; cbn in *; try lia; try reflexivity. apply IH. lia. Qed.
Lemma nth_put_other {A} k i (x : A) l d : i <> k -> nth i (put k x l) d = nth i l d.
Proof. revert k i; induction l as [|z l IH]; intros [|k] [|i] H; cbn in *; try lia; try reflexivity. apply IH. lia. Qed.
Lemma to_o_in k s m q : to_o k s = m :: q -> k < length (s_links s).
Proof.
  unfold to_o. intros H. destruct (le_lt_dec (length (s_links s)) k); [|assumption].
  rewrite nth_overflow in H by assumption. discriminate.
Qed.
Lemma to_t_in k s m q : to_t k s = m :: q -> k < length (s_links s).
Proof.
  unfold to_t. intros H. destruct (le_lt_dec (length (s_links s)) k); [|assumption].
  rewrite nth_overflow in H by assumption. discriminate.
Qed.

(** ** Sending leaves the rest alone *)
Record same (s s' : st) : Prop := mkSame {
  sm_stage : s_stage s' = s_stage s; sm_pend : s_pend s' = s_pend s; sm_timer : s_timer s' = s_timer s;
  sm_join : s_join s' = s_join s; sm_exn : s_exn s' = s_exn s; sm_rt : s_rt s' = s_rt s; sm_tr : s_tr s' = s_tr s;
  sm_ro : s_ro s' = s_ro s; sm_tries : s_tries s' = s_tries s; sm_rcv : s_rcv s' = s_rcv s;
  sm_got : s_got s' = s_got s; sm_gone : s_gone s' = s_gone s; sm_log : s_log s' = s_log s;
  sm_next : s_next s' = s_next s;
  sm_len : length (s_links s') = length (s_links s);
  sm_cl : forall f, cl f (s_links s') = cl f (s_links s);
  sm_to_o : forall k, to_o k s' = to_o k s }.
Lemma same_refl s : same s s.
Proof. constructor; auto. Qed.
Lemma same_trans a b c : same a b -> same b c -> same a c.
Proof. intros [] []. constructor; try congruence; intros; etransitivity; eauto. Qed.
Lemma o_send_same c m s : same s (o_send c m s).
Proof.
  destruct c as [k|]; cbn; [|constructor; reflexivity].
  destruct (s_gone s) eqn:G; [apply same_refl|].
  destruct (le_lt_dec (length (s_links s)) k) as [L|L].
  - unfold set_to_t. rewrite put_out by assumption. constructor; reflexivity.
  - constructor; try reflexivity; cbn.
    + apply put_length.
    + intros f. pose proof (cl_put f k (to_o k s, to_t k s ++ [m]) (s_links s) L) as E. cbn in E.
      fold (to_o k s) in E. lia.
    + intros i. unfold to_o at 1. cbn. destruct (Nat.eq_dec i k) as [->|N].
      * rewrite nth_put by assumption. reflexivity.
      * rewrite nth_put_other by assumption. reflexivity.
Qed.
(** What is sent arrives in one of the queues. *)
Lemma o_send_cnt c m s f : cnt f (s_or (o_send c m s)) + cr f (s_links (o_send c m s))
  <= cnt f (s_or s) + cr f (s_links s) + b2n (f m).
Proof.
  destruct c as [k|]; cbn; [|rewrite cnt_app, cnt_cons, cnt_nil; lia].
  destruct (s_gone s); [lia|]. cbn.
  destruct (le_lt_dec (length (s_links s)) k) as [L|L]; [rewrite put_out by assumption; lia|].
  pose proof (cr_put f k (to_o k s, to_t k s ++ [m]) (s_links s) L) as E. cbn in E.
  rewrite cnt_app, cnt_cons, cnt_nil in E. fold (to_t k s) in E. lia.
Qed.
Lemma o_send_cnt_eq c m s f : match c with None => True | Some k => k < length (s_links s) /\ s_gone s = false end ->
  cnt f (s_or (o_send c m s)) + cr f (s_links (o_send c m s)) = cnt f (s_or s) + cr f (s_links s) + b2n (f m).
Proof.
  destruct c as [k|]; cbn; [|rewrite cnt_app, cnt_cons, cnt_nil; lia].
  intros [L G]. rewrite G. cbn.
  pose proof (cr_put f k (to_o k s, to_t k s ++ [m]) (s_links s) L) as E. cbn in E.
  rewrite cnt_app, cnt_cons, cnt_nil in E. fold (to_t k s) in E. lia.
Qed.
Lemma o_send_or k m s : s_or (o_send (Some k) m s) = s_or s.
Proof. cbn. destruct (s_gone s); reflexivity. Qed.
Lemma o_send_links m s : s_links (o_send None m s) = s_links s.
Proof. reflexivity. Qed.

Lemma run_app c a b : run c (a ++ b) = fold_left (step c) b (run c a).
Proof. unfold run. apply fold_left_app. Qed.
Lemma run_snoc c a o : run c (a ++ [o]) = step c (run c a) o.
Proof. now rewrite run_app. Qed.

(** ** The message taken from a direct connection *)
Lemma take_o k s m q : to_o k s = m :: q ->
  (forall f, cl f (s_links s) = b2n (f m) + cl f (s_links (set_to_o k q s)))
  /\ (forall f, cr f (s_links (set_to_o k q s)) = cr f (s_links s))
  /\ k < length (s_links (set_to_o k q s)).
Proof.
  intros H. pose proof (to_o_in _ _ _ _ H) as L. split; [|split].
  - intros f. cbn. pose proof (cl_put f k (q, to_t k s) (s_links s) L) as E. fold (to_o k s) in E. rewrite H, cnt_cons in E.
    cbn in E. lia.
  - intros f. cbn. pose proof (cr_put f k (q, to_t k s) (s_links s) L) as E. fold (to_t k s) in E. cbn in E. lia.
  - cbn. now rewrite put_length.
Qed.
Lemma take_t k s m q : to_t k s = m :: q ->
  (forall f, cr f (s_links s) = b2n (f m) + cr f (s_links (set_to_t k q s)))
  /\ (forall f, cl f (s_links (set_to_t k q s)) = cl f (s_links s))
  /\ k < length (s_links (set_to_t k q s)).
Proof.
  intros H. pose proof (to_t_in _ _ _ _ H) as L. split; [|split].
  - intros f. cbn. pose proof (cr_put f k (to_o k s, q) (s_links s) L) as E. fold (to_t k s) in E. rewrite H, cnt_cons in E.
    cbn in E. lia.
  - intros f. cbn. pose proof (cl_put f k (to_o k s, q) (s_links s) L) as E. fold (to_o k s) in E. cbn in E. lia.
  - cbn. now rewrite put_length.
Qed.
Lemma give_o k s m : k < length (s_links s) ->
  (forall f, cl f (s_links (set_to_o k (to_o k s ++ [m]) s)) = cl f (s_links s) + b2n (f m))
  /\ (forall f, cr f (s_links (set_to_o k (to_o k s ++ [m]) s)) = cr f (s_links s)).
Proof.
  intros L. split; intros f; cbn.
  - pose proof (cl_put f k (to_o k s ++ [m], to_t k s) (s_links s) L) as E. fold (to_o k s) in E.
    cbn in E. rewrite cnt_app, cnt_cons, cnt_nil in E. lia.
  - pose proof (cr_put f k (to_o k s ++ [m], to_t k s) (s_links s) L) as E. fold (to_t k s) in E. cbn in E. lia.
Qed.

(** Publishing adds data messages only. *)
Lemma publish_same s : same (set_next (S (s_next s)) s) (publish s).
Proof.
  unfold publish. generalize (set_next (S (s_next s)) s). generalize (s_rcv s) as l.
  induction l as [|c l IH]; intros s0; cbn [fold_left]; [apply same_refl|].
  eapply same_trans; [|apply IH]. apply o_send_same.
Qed.
Lemma publish_or s f : (forall n, f (MData n) = false) -> cnt f (s_or (publish s)) = cnt f (s_or s).
Proof.
  intros F. unfold publish. change (s_or s) with (s_or (set_next (S (s_next s)) s)).
  generalize (set_next (S (s_next s)) s). generalize (s_rcv s) as l.
  induction l as [|c l IH]; intros s0; cbn [fold_left]; [reflexivity|]. rewrite IH.
  destruct c as [k|]; [now rewrite o_send_or|]. cbn. rewrite cnt_app, cnt_cons, F, cnt_nil. cbn. lia.
Qed.
Lemma publish_cr s f : (forall n, f (MData n) = false) -> cr f (s_links (publish s)) = cr f (s_links s).
Proof.
  intros F. unfold publish. change (cr f (s_links s)) with (cr f (s_links (set_next (S (s_next s)) s))).
  generalize (set_next (S (s_next s)) s). generalize (s_rcv s) as l.
  induction l as [|c l IH]; intros s0; cbn [fold_left]; [reflexivity|]. rewrite IH.
  destruct c as [k|]; [|reflexivity]. cbn. destruct (s_gone s0); [reflexivity|]. cbn.
  destruct (le_lt_dec (length (s_links s0)) k) as [L|L]; [now rewrite put_out by assumption|].
  pose proof (cr_put f k (to_o k s0, to_t k s0 ++ [MData (s_next s0 - 1)]) (s_links s0) L) as E. cbn in E.
  rewrite cnt_app, cnt_cons, F, cnt_nil in E. fold (to_t k s0) in E. cbn in E. lia.
Qed.

(** ** Every exchange ends *)
Definition honest (c : cfg) : Prop :=
  forall a, c_caps c = Some (a, true) -> c_tproxy c = true /\ c_rproxy c = true.

Record Inv (c : cfg) (s : st) : Prop := mkInv {
  i_gone : s_gone s = false;
  i_init : s_stage s = PDirect -> s_or s = [] /\ s_rt s = [] /\ s_tr s = [] /\ s_ro s = [] /\ s_tries s = 0 /\ s_links s = [] /\ s_rcv s = [];
  i_direct : s_stage s = PDirect <-> s_pend s = true;
  i_valid : s_stage s <> PInvalid;
  i_timer : s_stage s = PRequested -> s_timer s = true;
  i_rreq : c_rreq c = false -> cnt is_req (s_rt s) = 0 /\ cnt is_conn (s_tr s) = 0 /\ cnt is_fail (s_tr s) = 0 /\ s_tries s = 0;
  i_conn : s_stage s = PRequested \/ s_stage s = PConnecting ->
    s_stage s = PConnecting \/ 0 < cnt is_conn (s_tr s) + cnt is_conn (s_ro s) ->
    0 < s_tries s + cnt is_fail (s_tr s) + cnt is_fail (s_ro s) + cl is_notice (s_links s);
  i_wait : s_stage s = PWaiting -> s_exn s = true
    \/ 0 < cnt is_ann (s_or s) + cnt is_ann (s_rt s) + cr is_ann (s_links s)
           + cnt is_rep (s_tr s) + cnt is_rep (s_ro s) + cl is_rep (s_links s);
  i_proxy : c_rproxy c && c_tproxy c = false ->
    cnt is_ann (s_or s) = 0 /\ cnt is_ann (s_rt s) = 0 /\ cnt is_rep (s_tr s) = 0;
  i_exn : s_exn s = true -> c_caps c = None;
  i_join : s_stage s = PWaiting \/ s_stage s = PReplied -> s_exn s = false -> s_join s = Some true;
  i_fail : s_stage s = PFailure -> s_join s = Some false;
  i_none : s_stage s = PDirect \/ s_stage s = PRequested \/ s_stage s = PConnecting -> s_join s = None;
  i_kinds : cr is_req (s_links s) = 0 /\ cl is_conn (s_links s) = 0 /\ cl is_fail (s_links s) = 0
    /\ cnt is_notice (s_tr s) = 0 /\ cnt is_notice (s_ro s) = 0 }.

Lemma init_inv c : Inv c init.
Proof. constructor; cbn; intuition (try discriminate; auto; try lia). Qed.

Ltac norm := repeat (rewrite ?cnt_app, ?cnt_cons, ?cnt_nil, ?cl_app, ?cr_app, ?cl_one, ?cr_one in *; cbn [b2n is_req is_conn is_fail is_notice is_ann is_rep fst snd] in * ).

Ltac fld H E := cbn; intros; pose proof H as HH; rewrite ?E in *; norm; intuition (try discriminate; try congruence; try lia).
Ltac fld2 H H' E := cbn; intros; pose proof H as HH; pose proof H' as HH'; rewrite ?E in *; norm; intuition (try discriminate; try congruence; try lia).
(** Every part of the invariant from the same part before. *)
Ltac parts c s I E :=
  constructor;
  [ fld (i_gone c s I) E | try fld (i_init c s I) E | fld (i_direct c s I) E | fld (i_valid c s I) E | fld (i_timer c s I) E
  | fld (i_rreq c s I) E | fld2 (i_conn c s I) (i_rreq c s I) E | fld2 (i_wait c s I) (i_proxy c s I) E | fld (i_proxy c s I) E | fld (i_exn c s I) E
  | fld (i_join c s I) E | fld (i_fail c s I) E | fld (i_none c s I) E | fld (i_kinds c s I) E ].

Lemma publish_inv c s : Inv c s -> Inv c (publish s).
Proof.
  intros I. pose proof (publish_same s) as S0.
  pose proof (publish_or s is_ann (fun _ => eq_refl)) as A1. pose proof (publish_cr s is_ann (fun _ => eq_refl)) as A2.
  pose proof (publish_cr s is_req (fun _ => eq_refl)) as A3.
  destruct S0 as [E1 E2 E3 E4 E5 E6 E7 E8 E9 E10 E11 E12 E13 E14 E15 E16 E17]. cbn in *.
  destruct I; constructor; rewrite ?E1, ?E2, ?E3, ?E4, ?E5, ?E6, ?E7, ?E8, ?E9, ?E12, ?E16, ?A1, ?A2, ?A3; auto.
  intros H. destruct (i_init0 H) as (Q1 & Q2 & Q3 & Q4 & Q5 & Q6 & Q7). rewrite E10. unfold publish. rewrite Q7. cbn. auto 10.
Qed.

(** What holds of the rest whatever the stage is. *)
Record Rest (c : cfg) (s : st) : Prop := mkRest {
  r_gone : s_gone s = false;
  r_pend : s_pend s = false;
  r_rreq : c_rreq c = false -> cnt is_req (s_rt s) = 0 /\ cnt is_conn (s_tr s) = 0 /\ cnt is_fail (s_tr s) = 0 /\ s_tries s = 0;
  r_proxy : c_rproxy c && c_tproxy c = false ->
    cnt is_ann (s_or s) = 0 /\ cnt is_ann (s_rt s) = 0 /\ cnt is_rep (s_tr s) = 0;
  r_exn : s_exn s = true -> c_caps c = None;
  r_join : s_join s = None;
  r_kinds : cr is_req (s_links s) = 0 /\ cl is_conn (s_links s) = 0 /\ cl is_fail (s_links s) = 0
    /\ cnt is_notice (s_tr s) = 0 /\ cnt is_notice (s_ro s) = 0 }.

Lemma via_proxy_inv c s : honest c -> Rest c s -> Inv c (via_proxy c s).
Proof.
  intros HN R. destruct R. unfold via_proxy, update, handle_connected.
  destruct (c_oproxy c); [destruct (c_caps c) as [[a []]|] eqn:CC|];
    constructor; cbn; intuition (try discriminate; try congruence); norm; try lia;
    try (rewrite r_join0; reflexivity).
  destruct (HN _ CC) as [X Y]. rewrite X, Y in *. discriminate.
Qed.

Lemma inv_rest c s s' : Inv c s -> s_stage s = PRequested \/ s_stage s = PConnecting ->
  s_gone s' = s_gone s -> s_pend s' = s_pend s -> s_join s' = s_join s -> s_exn s' = s_exn s ->
  s_or s' = s_or s -> s_rt s' = s_rt s -> s_tr s' = s_tr s -> s_tries s' = s_tries s ->
  (forall f, cl f (s_links s') <= cl f (s_links s)) -> (forall f, cr f (s_links s') = cr f (s_links s)) ->
  (forall f, cnt f (s_ro s') <= cnt f (s_ro s)) -> Rest c s'.
Proof.
  intros [] H E1 E2 E3 E4 E5 E6 E7 E8 E9 E10 E11.
  assert (P : s_pend s = false).
  { destruct (s_pend s); [|reflexivity]. destruct i_direct0 as [_ D]. rewrite (D eq_refl) in H. intuition discriminate. }
  constructor; rewrite ?E1, ?E2, ?E3, ?E4, ?E5, ?E6, ?E7, ?E8, ?E10; auto; try tauto.
  pose proof (E9 is_conn) as X1. pose proof (E9 is_fail) as X2. pose proof (E11 is_notice) as X3.
  clear - i_kinds0 X1 X2 X3. lia.
Qed.

Lemma o_recv_inv_reg c s m q : honest c -> Inv c s -> s_stage s <> PDirect -> s_ro s = m :: q ->
  Inv c (o_recv c None m (set_ro q s)).
Proof.
  intros HN I D Q. destruct m; cbn [o_recv].
  - parts c s I Q.
  - cbn. destruct (s_stage s) eqn:E; parts c s I Q.
  - cbn. destruct (s_stage s) eqn:E.
    4, 5: apply via_proxy_inv; [exact HN|]; eapply inv_rest; eauto; cbn; intros; rewrite ?Q; norm; lia.
    all: parts c s I Q.
  - pose proof (i_kinds _ _ I) as K. rewrite Q in K. norm. lia.
  - parts c s I Q.
  - unfold o_reply. cbn. destruct (existsb _ _); cbn; destruct (s_stage s) eqn:E; unfold update; cbn;
      parts c s I Q.
    all: match goal with H : s_join _ = Some true |- _ => rewrite H; reflexivity end.
  - parts c s I Q.
Qed.

Lemma o_recv_inv_link c s k m q : honest c -> Inv c s -> to_o k s = m :: q ->
  Inv c (o_recv c (Some k) m (set_to_o k q s)).
Proof.
  intros HN I Q. destruct (take_o _ _ _ _ Q) as (T1 & T2 & T3).
  assert (D : s_stage s <> PDirect).
  { intros D. destruct (i_init _ _ I D) as (_ & _ & _ & _ & _ & X & _). apply to_o_in in Q. rewrite X in Q. cbn in Q. lia. }
  assert (S0 : s_stage (set_to_o k q s) = s_stage s) by reflexivity.
  pose proof (i_kinds _ _ I) as K.
  pose proof (T1 is_conn) as A1. pose proof (T1 is_fail) as A2. pose proof (T1 is_notice) as A3. pose proof (T1 is_rep) as A4.
  pose proof (T2 is_req) as A5. pose proof (T2 is_ann) as A6.
  assert (R : s_stage s = PRequested \/ s_stage s = PConnecting -> Rest c (set_to_o k q s)).
  { intros H. eapply inv_rest; eauto. intros f. rewrite (T1 f). lia. }
  remember (set_to_o k q s) as s' eqn:ES.
  assert (B : s_gone s' = s_gone s /\ s_pend s' = s_pend s /\ s_timer s' = s_timer s /\ s_join s' = s_join s /\ s_exn s' = s_exn s /\
    s_or s' = s_or s /\ s_rt s' = s_rt s /\ s_tr s' = s_tr s /\ s_ro s' = s_ro s /\ s_tries s' = s_tries s /\ s_rcv s' = s_rcv s)
    by (subst; cbn; auto 20).
  destruct B as (B1 & B2 & B3 & B4 & B5 & B6 & B7 & B8 & B9 & B10 & B11). clear ES.
  assert (PP : s_pend s = false).
  { destruct (s_pend s) eqn:P; [|reflexivity]. now apply (i_direct _ _ I) in P. }
  destruct m; cbn [o_recv]; cbn [b2n is_req is_conn is_fail is_notice is_ann is_rep] in *; try (exfalso; clear - K A1 A2; lia).
  - assert (G1 : cl is_conn (s_links s') = cl is_conn (s_links s)) by (clear - A1; lia). assert (G2 : cl is_fail (s_links s') = cl is_fail (s_links s)) by (clear - A2; lia).
    assert (G3 : cl is_notice (s_links s') = cl is_notice (s_links s)) by (clear - A3; lia). assert (G4 : cl is_rep (s_links s') = cl is_rep (s_links s)) by (clear - A4; lia).
    constructor; rewrite ?S0, ?B1, ?B2, ?B3, ?B4, ?B5, ?B6, ?B7, ?B8, ?B9, ?B10, ?B11, ?A5, ?A6, ?G1, ?G2, ?G3, ?G4; try apply I. congruence.
  - (* the peer announces that it has connected *)
    unfold handle_connected.
    set (s1 := say (LAnnounce (Some k)) (match s_stage s' with PRequested | PConnecting => update (set_stage PWaiting s') | _ => s' end)).
    assert (C : s_gone s1 = s_gone s /\ s_pend s1 = s_pend s /\ s_timer s1 = s_timer s /\ s_exn s1 = s_exn s /\
      s_or s1 = s_or s /\ s_rt s1 = s_rt s /\ s_tr s1 = s_tr s /\ s_ro s1 = s_ro s /\ s_tries s1 = s_tries s /\ s_rcv s1 = s_rcv s /\ s_links s1 = s_links s').
    { unfold s1, update. destruct (s_stage s') eqn:E; cbn; auto 20. }
    destruct C as (C1 & C2 & C3 & C5 & C6 & C7 & C8 & C9 & C10 & C11 & C12).
    assert (C4 : (s_stage s = PRequested \/ s_stage s = PConnecting) /\ s_stage s1 = PWaiting /\ s_join s1 = Some true
                 \/ s_stage s <> PRequested /\ s_stage s <> PConnecting /\ s_stage s1 = s_stage s /\ s_join s1 = s_join s).
    { unfold s1, update. rewrite S0. pose proof (i_none _ _ I) as N. destruct (s_stage s) eqn:E; cbn; rewrite ?S0, ?E, ?B4, ?N by auto; auto 10;
        right; repeat split; auto; discriminate. }
    clearbody s1. pose proof (o_send_same (Some k) MAnn s1) as [E1 E2 E3 E4 E5 E6 E7 E8 E9 E10 E11 E12 E13 E14 E15 E16 E17].
    assert (L1 : k < length (s_links s1) /\ s_gone s1 = false) by (rewrite C12, C1; split; [assumption|apply I]).
    pose proof (o_send_cnt_eq (Some k) MAnn s1 is_ann L1) as F1. pose proof (o_send_cnt_eq (Some k) MAnn s1 is_req L1) as F2.
    rewrite o_send_or in F1, F2. cbn [b2n is_ann is_req] in F1, F2. rewrite C12 in F1, F2.
    pose proof (E16 is_conn) as G1. pose proof (E16 is_fail) as G2. pose proof (E16 is_notice) as G3. pose proof (E16 is_rep) as G4. rewrite C12 in G1, G2, G3, G4.
    pose proof (o_send_or k MAnn s1) as OR.
    set (s2 := o_send (Some k) MAnn s1) in *. clearbody s2.
    constructor; rewrite ?E1, ?E2, ?E3, ?E4, ?E5, ?E6, ?E7, ?E8, ?E9, ?E10, ?E12, ?OR, ?C1, ?C2, ?C3, ?C5, ?C6, ?C7, ?C8, ?C9, ?C10, ?C11, ?G1, ?G2, ?G3, ?G4.
    + apply I.
    + intuition congruence.
    + pose proof (i_direct _ _ I). intuition congruence.
    + pose proof (i_valid _ _ I). intuition congruence.
    + pose proof (i_timer _ _ I). intuition congruence.
    + apply I.
    + intuition congruence.
    + intros _. right. clear - F1. lia.
    + apply I.
    + apply I.
    + intros X XE. destruct C4 as [(_ & _ & Z)|(_ & _ & Y & Z)]; [exact Z|]. rewrite Z. apply (i_join _ _ I); [rewrite <- Y; exact X|exact XE].
    + intros X. destruct C4 as [(_ & Y & _)|(_ & _ & Y & Z)]; [congruence|]. rewrite Z. apply (i_fail _ _ I). congruence.
    + intros X. destruct C4 as [(_ & Y & _)|(_ & _ & Y & Z)]; [intuition congruence|]. rewrite Z. apply (i_none _ _ I). rewrite <- Y. exact X.
    + clear - K A1 A2 A5 F2. lia.
  - assert (G1 : cl is_conn (s_links s') = cl is_conn (s_links s)) by (clear - A1; lia). assert (G2 : cl is_fail (s_links s') = cl is_fail (s_links s)) by (clear - A2; lia).
    assert (G3 : cl is_notice (s_links s') = cl is_notice (s_links s)) by (clear - A3; lia). assert (G4 : cl is_rep (s_links s') = cl is_rep (s_links s)) by (clear - A4; lia).
    constructor; rewrite ?S0, ?B1, ?B2, ?B3, ?B4, ?B5, ?B6, ?B7, ?B8, ?B9, ?B10, ?B11, ?A5, ?A6, ?G1, ?G2, ?G3, ?G4; try apply I. congruence.
  - unfold o_reply. set (s1 := if existsb _ _ then _ else _).
    assert (C : s_gone s1 = s_gone s /\ s_pend s1 = s_pend s /\ s_timer s1 = s_timer s /\ s_exn s1 = s_exn s /\ s_join s1 = s_join s /\ s_stage s1 = s_stage s /\
      s_or s1 = s_or s /\ s_rt s1 = s_rt s /\ s_tr s1 = s_tr s /\ s_ro s1 = s_ro s /\ s_tries s1 = s_tries s /\ s_links s1 = s_links s').
    { unfold s1. destruct (existsb _ _); cbn; auto 20. }
    destruct C as (C1 & C2 & C3 & C5 & C4 & CS & C6 & C7 & C8 & C9 & C10 & C12). clearbody s1.
    rewrite CS. unfold update.
    destruct (s_stage s) eqn:E; constructor; cbn; rewrite ?CS, ?C1, ?C2, ?C3, ?C5, ?C4, ?C6, ?C7, ?C8, ?C9, ?C10, ?C12, ?A5, ?A6;
      try congruence; try (rewrite PP; intuition congruence); try apply I; try (intuition congruence).
    all: try (intros; pose proof (i_timer _ _ I); pose proof (i_join _ _ I); pose proof (i_fail _ _ I); pose proof (i_none _ _ I); pose proof (i_kinds _ _ I); intuition congruence).
    all: try (clear - K A1 A2 A5; lia).
    all: try (pose proof (i_conn _ _ I) as X; rewrite E in X; clear - X A3; intuition lia).
    + intros _. apply (i_valid _ _ I). exact E.
    + intros _ HE. rewrite (i_join _ _ I) by auto. reflexivity.
  - assert (G1 : cl is_conn (s_links s') = cl is_conn (s_links s)) by (clear - A1; lia). assert (G2 : cl is_fail (s_links s') = cl is_fail (s_links s)) by (clear - A2; lia).
    assert (G3 : cl is_notice (s_links s') = cl is_notice (s_links s)) by (clear - A3; lia). assert (G4 : cl is_rep (s_links s') = cl is_rep (s_links s)) by (clear - A4; lia).
    constructor; rewrite ?S0, ?B1, ?B2, ?B3, ?B4, ?B5, ?B6, ?B7, ?B8, ?B9, ?B10, ?B11, ?A5, ?A6, ?G1, ?G2, ?G3, ?G4; try apply I. congruence.
Qed.

Lemma t_recv_inv_link c s k m q : Inv c s -> s_stage s <> PDirect -> to_t k s = m :: q ->
  Inv c (t_recv c false (Some k) m (set_to_t k q s)).
Proof.
  intros I D Q. destruct (take_t _ _ _ _ Q) as (T1 & T2 & T3).
  pose proof (i_kinds _ _ I) as K.
  pose proof (T2 is_conn) as A1. pose proof (T2 is_fail) as A2. pose proof (T2 is_notice) as A3. pose proof (T2 is_rep) as A4.
  pose proof (T1 is_req) as A5. pose proof (T1 is_ann) as A6.
  assert (ST : forall s', s_stage s' = s_stage s -> s_gone s' = s_gone s -> s_pend s' = s_pend s -> s_timer s' = s_timer s ->
    s_join s' = s_join s -> s_exn s' = s_exn s -> s_or s' = s_or s -> s_rt s' = s_rt s -> s_tr s' = s_tr s -> s_ro s' = s_ro s ->
    s_tries s' = s_tries s ->
    cl is_conn (s_links s') = cl is_conn (s_links s) -> cl is_fail (s_links s') = cl is_fail (s_links s) ->
    cl is_notice (s_links s') = cl is_notice (s_links s) -> cr is_req (s_links s') = cr is_req (s_links s) ->
    cr is_ann (s_links s') + cl is_rep (s_links s') = cr is_ann (s_links s) + cl is_rep (s_links s) -> Inv c s').
  { intros s' E1 E2 E3 E4 E5 E6 E7 E8 E9 E10 E11 F1 F2 F3 F4 F5.
    constructor; rewrite ?E1, ?E2, ?E3, ?E4, ?E5, ?E6, ?E7, ?E8, ?E9, ?E10, ?E11, ?F1, ?F2, ?F3, ?F4; try apply I; [congruence|].
    intros W. destruct (i_wait _ _ I W) as [X|X]; [left; exact X|right]. clear - X F5. lia. }
  destruct m; cbn [t_recv]; cbn [b2n is_req is_conn is_fail is_notice is_ann is_rep] in *.
  - exfalso. clear - K A5. lia.
  - apply ST; auto; clear - A1 A2 A3 A4 A5 A6; lia.
  - apply ST; auto; clear - A1 A2 A3 A4 A5 A6; lia.
  - apply ST; auto; clear - A1 A2 A3 A4 A5 A6; lia.
  - destruct (give_o k (set_to_t k q s) MRep T3) as [G1 G2].
    pose proof (G1 is_conn) as B1. pose proof (G1 is_fail) as B2. pose proof (G1 is_notice) as B3. pose proof (G1 is_rep) as B4.
    pose proof (G2 is_req) as B5. pose proof (G2 is_ann) as B6.
    cbn [b2n is_req is_conn is_fail is_notice is_ann is_rep] in *.
    apply ST; auto; clear - A1 A2 A3 A4 A5 A6 B1 B2 B3 B4 B5 B6; lia.
  - apply ST; auto; clear - A1 A2 A3 A4 A5 A6; lia.
  - apply ST; auto; cbn [s_links add_got]; clear - A1 A2 A3 A4 A5 A6; lia.
Qed.

Lemma step_inv c s o : honest c -> o <> Gone -> Inv c s -> Inv c (step c s o).
Proof.
  intros HN NG I. destruct o; cbn [step]; try congruence.
  - (* DirectOk *)
    destruct (s_pend s) eqn:P; cbn; [|exact I]. rewrite (i_gone _ _ I). cbn.
    pose proof (proj2 (i_direct _ _ I) P) as D. pose proof (i_init _ _ I D) as (Q1 & Q2 & Q3 & Q4 & Q5 & Q6 & Q7).
    pose proof (i_none _ _ I (or_introl D)) as J. pose proof (i_gone _ _ I) as G.
    unfold direct_ok, handle_connected, update. rewrite Q6. cbn. rewrite G. cbn.
    unfold set_to_t, to_o, to_t. cbn. rewrite Q6. cbn.
    destruct I. constructor; cbn; rewrite ?J, ?Q1, ?Q2, ?Q3, ?Q4, ?Q5 in *; intuition (try discriminate; try congruence); norm; try lia.
  - (* DirectFail *)
    destruct (s_pend s) eqn:P; [|exact I].
    pose proof (proj2 (i_direct _ _ I) P) as D. pose proof (i_init _ _ I D) as (Q1 & Q2 & Q3 & Q4 & Q5 & Q6 & Q7).
    pose proof (i_none _ _ I (or_introl D)) as J. pose proof (i_gone _ _ I) as G.
    unfold direct_fail. destruct (can_request c).
    + destruct I. constructor; cbn; rewrite ?Q1, ?Q2, ?Q3, ?Q4, ?Q5, ?Q6 in *;
        intuition (try discriminate; try congruence); norm; try lia.
    + apply via_proxy_inv; [exact HN|]. destruct I. constructor; cbn; rewrite ?Q1, ?Q2, ?Q3, ?Q4, ?Q5, ?Q6 in *; auto.
  - (* Timer *)
    destruct (s_timer s) eqn:T; [|exact I]. unfold timer.
    destruct (s_stage s) eqn:D.
    4: { apply via_proxy_inv; [exact HN|]. eapply inv_rest; eauto. }
    all: destruct I; constructor; cbn; rewrite ?D in *; auto; intuition (try discriminate; try congruence).
  - (* RtoT *)
    destruct (s_or s) as [|m q] eqn:Q; [exact I|]. cbn. rewrite (i_gone _ _ I), andb_true_r.
    assert (D : s_stage s <> PDirect). { intros D. destruct (i_init _ _ I D) as (X & _). congruence. }
    destruct (forwards c m) eqn:F; destruct m; cbn in F; try discriminate;
      parts c s I Q.
    all: try (rewrite F in *; cbn in *; intuition (try discriminate; try congruence; try lia)).
  - (* RtoO *)
    destruct (s_tr s) as [|m q] eqn:Q; [exact I|]. cbn.
    assert (D : s_stage s <> PDirect). { intros D. destruct (i_init _ _ I D) as (_ & _ & X & _). congruence. }
    destruct (forwards c m) eqn:F; destruct m; cbn in F; try discriminate;
      parts c s I Q.
    all: try (rewrite F in *; cbn in *; intuition (try discriminate; try congruence; try lia)).
  - (* FromR *)
    destruct (s_rt s) as [|m q] eqn:Q; [exact I|]. cbn.
    assert (D : s_stage s <> PDirect). { intros D. destruct (i_init _ _ I D) as (_ & X & _). congruence. }
    destruct m; unfold t_recv, t_request.
    + destruct (c_treq c), now; parts c s I Q.
    + parts c s I Q.
    + parts c s I Q.
    + parts c s I Q.
    + destruct (c_tproxy c) eqn:TP; parts c s I Q.
    + parts c s I Q.
    + destruct (c_tproxy c) eqn:TP; parts c s I Q.
  - (* TOk *)
    destruct (s_tries s) as [|n] eqn:Q; [exact I|].
    assert (D : s_stage s <> PDirect). { intros D. destruct (i_init _ _ I D) as (_ & _ & _ & _ & X & _). congruence. }
    unfold t_ok. parts c s I Q.
  - (* TFail *)
    destruct (s_tries s) as [|n] eqn:Q; [exact I|].
    assert (D : s_stage s <> PDirect). { intros D. destruct (i_init _ _ I D) as (_ & _ & _ & _ & X & _). congruence. }
    unfold t_fail. parts c s I Q.
  - (* ToO *)
    destruct (s_ro s) as [|m q] eqn:Q; [exact I|].
    assert (D : s_stage s <> PDirect). { intros D. destruct (i_init _ _ I D) as (_ & _ & _ & X & _). congruence. }
    apply o_recv_inv_reg with (q := q) (m := m); auto.
  - (* LinkO *)
    destruct (to_o k s) as [|m q] eqn:Q; [exact I|].
    apply o_recv_inv_link with (q := q) (m := m); auto.
  - (* LinkT *)
    destruct (to_t k s) as [|m q] eqn:Q; [exact I|].
    assert (D : s_stage s <> PDirect).
    { intros D. destruct (i_init _ _ I D) as (_ & _ & _ & _ & _ & X & _). apply to_t_in in Q. rewrite X in Q. cbn in Q. lia. }
    now apply t_recv_inv_link with (q := q).
  - (* Publish *) now apply publish_inv.
Qed.

Lemma run_inv c ops : honest c -> ~ In Gone ops -> Inv c (run c ops).
Proof.
  intros HN. induction ops as [|o ops IH] using rev_ind; intros NG.
  - apply init_inv.
  - rewrite run_snoc. apply step_inv; [exact HN| |].
    + intros ->. apply NG, in_app_iff. right. now left.
    + apply IH. intros H. apply NG, in_app_iff. now left.
Qed.
