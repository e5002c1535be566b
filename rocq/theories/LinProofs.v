(** Proofs about single LIN controllers. *)
From Coq Require Import NArith List Arith Bool Lia.
From Verif Require Import Base LinModel.
Import ListNotations.
Open Scope N_scope.

(** ** The response tables *)
Definition tbl_ok (t : list response) : Prop :=
  length t = 64%nat /\ forall i r, nth_error t i = Some r -> r_mode r <> RUnused -> N.to_nat (f_id (r_frame r)) = i.
Definition node_ok (n : node) : Prop := tbl_ok (nd_resp n).
Definition tables_ok (c : ctrl) : Prop := Forall node_ok (c_nodes c).

Lemma set_nth_length {A} (i : nat) (x : A) l : length (set_nth i x l) = length l.
Proof. revert i. induction l as [|y l IH]; intros [|i]; cbn; auto. Qed.
Lemma set_nth_get {A} (i j : nat) (x : A) l : nth_error (set_nth i x l) j = if (j =? i)%nat && (i <? length l)%nat then Some x else nth_error l j.
Proof.
  revert i j. induction l as [|y l IH]; intros [|i] [|j]; try reflexivity.
  - cbn. rewrite andb_false_r. reflexivity.
  - cbn [set_nth nth_error]. rewrite IH. reflexivity.
Qed.
Lemma repeat_get {A} (x : A) n i y : nth_error (repeat x n) i = Some y -> y = x.
Proof. intros H. apply nth_error_In in H. eapply repeat_spec; eauto. Qed.
Lemma tbl0_ok : tbl_ok (repeat response0 64).
Proof. split; [reflexivity|]. intros i r H K. apply repeat_get in H. subst. elim K. reflexivity. Qed.
Lemma node0_ok a : node_ok (node0 a).
Proof. apply tbl0_ok. Qed.
Lemma set_nth_ok t r : tbl_ok t -> tbl_ok (set_nth (N.to_nat (f_id (r_frame r))) r t).
Proof.
  intros (A & B). split; [rewrite set_nth_length; exact A|]. intros i x H K. rewrite set_nth_get in H.
  destruct ((i =? _)%nat && _) eqn:E; [|eauto]. injection H as <-. lia.
Qed.
Lemma update_responses_ok rs t : tbl_ok t -> tbl_ok (update_responses rs t).
Proof. revert t. induction rs as [|r rs IH]; intros t H; [exact H|]. cbn. apply IH. destruct (_ <=? _); [exact H|]. apply set_nth_ok, H. Qed.
Lemma find_node_in a l n : find_node a l = Some n -> In n l /\ nd_addr n = a.
Proof.
  induction l as [|x l IH]; cbn; [discriminate|]. destruct (nd_addr x <? a); [intros H; apply IH in H; tauto|].
  destruct (nd_addr x =? a) eqn:E; [|discriminate]. injection 1 as <-. split; [auto|lia].
Qed.
Lemma get_node_ok a c : tables_ok c -> node_ok (get_node a c).
Proof.
  intros H. unfold get_node. destruct (find_node a (c_nodes c)) as [n|] eqn:E; [|apply node0_ok].
  apply find_node_in in E. eapply Forall_forall; [exact H|]. tauto.
Qed.
Lemma get_node_addr a c : nd_addr (get_node a c) = a.
Proof. unfold get_node. destruct (find_node _ _) as [n|] eqn:E; [|reflexivity]. apply find_node_in in E. tauto. Qed.
Lemma put_node_ok (P : node -> Prop) x l : P x -> Forall P l -> Forall P (put_node x l).
Proof.
  intros Hx. induction 1 as [|n l Hn Hl IH]; cbn; [constructor; auto|].
  destruct (_ <? _); [constructor; auto|]. destruct (_ =? _); repeat constructor; auto.
Qed.
Lemma set_node_tables x c : node_ok x -> tables_ok c -> tables_ok (set_node x c).
Proof. intros A B. apply (put_node_ok node_ok); assumption. Qed.
Lemma node_responses_ok rs n : node_ok n -> node_ok (node_responses rs n).
Proof. apply update_responses_ok. Qed.
Lemma resp_at_some id n : node_ok n -> id < 64 -> exists r, resp_at id n = Some r /\ nth_error (nd_resp n) (N.to_nat id) = Some r.
Proof.
  intros (A & _) H. unfold resp_at. replace (id <? 64) with true by lia.
  destruct (nth_error (nd_resp n) (N.to_nat id)) as [r|] eqn:E; [eauto|]. apply nth_error_None in E. lia.
Qed.
Lemma resp_at_id id n r : node_ok n -> resp_at id n = Some r -> r_mode r <> RUnused -> f_id (r_frame r) = id.
Proof. intros (_ & B). unfold resp_at. destruct (id <? 64); [|discriminate]. intros H K. specialize (B _ _ H K). lia. Qed.
Lemma get_response_some id l acc : Forall node_ok l -> id < 64 ->
  exists num f, get_response id l acc = Some (num, f) /\ (f = snd acc \/ f_id f = id).
Proof.
  intros H ID. revert acc. induction H as [|n l Hn Hl IH]; intros acc; cbn.
  - destruct acc as [k f]. exists k, f. auto.
  - destruct (_ || _); [apply IH|]. destruct (resp_at_some id n Hn ID) as (r & E & _). rewrite E.
    destruct (IH (if rmode_eqb (r_mode r) RTx then (S (fst acc), r_frame r) else acc)) as (k & f & A & B).
    exists k, f. split; [exact A|]. destruct B as [B|B]; [|auto]. destruct (rmode_eqb (r_mode r) RTx) eqn:M; [|auto]. right. subst f. cbn.
    apply (resp_at_id id n); auto. destruct (r_mode r); discriminate.
Qed.

(** ** No invalid access *)
Section Hoare.
  Variable P : ctrl -> Prop.
  Definition okp (a : act) (c : ctrl) : Prop := match a c with (c', _, r) => P c' /\ r <> LUB end.
  Lemma okp_seq a b c : okp a c -> (forall c', P c' -> okp b c') -> okp (a ;; b) c.
  Proof.
    unfold okp, seq. destruct (a c) as [[c1 o1] r]. intros (A & B) H. destruct r; auto. specialize (H c1 A). destruct (b c1) as [[c2 o2] r2]. exact H.
  Qed.
  Lemma okp_skip c : P c -> okp skip c. Proof. intros H; split; [exact H|discriminate]. Qed.
  Lemma okp_emit o c : P c -> okp (emit o) c. Proof. intros H; split; [exact H|discriminate]. Qed.
  Lemma okp_throw c : P c -> okp throw c. Proof. intros H; split; [exact H|discriminate]. Qed.
  Lemma okp_modify f c : P (f c) -> okp (modify f) c. Proof. intros H; split; [exact H|discriminate]. Qed.
  Lemma okp_get f c : okp (f c) c -> okp (get f) c. Proof. exact (fun H => H). Qed.
  Lemma okp_catch a c : okp a c -> okp (catch a) c.
  Proof. unfold okp, catch. destruct (a c) as [[c1 o] r]. intros (A & B). destruct r; split; auto; discriminate. Qed.
End Hoare.
Ltac ok1 := lazymatch goal with
  | |- okp _ skip _ => apply okp_skip; assumption
  | |- okp _ (emit _) _ => apply okp_emit; assumption
  | |- okp _ throw _ => apply okp_throw; assumption
  | |- okp _ (seq _ _) _ => apply okp_seq; [|intros ? ?]
  | |- okp _ (get _) _ => apply okp_get; cbv beta
  | |- okp _ (catch _) _ => apply okp_catch
  end.

Lemma ok_process_header id c : id < 64 -> tables_ok c -> okp tables_ok (process_header id) c.
Proof.
  intros ID H. unfold process_header. ok1. destruct (c_detailed c); [ok1|].
  destruct (resp_at_some id (this_node c) (get_node_ok _ _ H) ID) as (r & -> & _).
  destruct (negb _); [ok1|]. destruct (_ =? _); [ok1|]. ok1; ok1.
Qed.
Lemma ok_receive_header al id c : id < 64 -> tables_ok c -> okp tables_ok (receive_header al id) c.
Proof. intros ID H. unfold receive_header. ok1. destruct (negb al); [ok1|]. destruct (c_dynamic c); [ok1|]. apply ok_process_header; auto. Qed.
Lemma ok_send_header id c : id < 64 -> tables_ok c -> okp tables_ok (send_header id) c.
Proof.
  intros ID H. unfold send_header. ok1. destruct (c_detailed c); [ok1|].
  destruct (get_response_some id (c_nodes c) (O, frame0 id) H ID) as (k & f & -> & F).
  assert (FI : f_id f = id) by (destruct F as [->|F]; [reflexivity|exact F]).
  destruct (_ || _).
  - ok1; [ok1|]. ok1. apply ok_receive_header; auto.
  - unfold send_error_transmission. cbv zeta. ok1; [ok1|]. ok1. rewrite FI.
    destruct (resp_at_some id (this_node c') (get_node_ok _ _ H0) ID) as (r & -> & _). ok1.
Qed.
Lemma ok_send_frame_header id c : id < 64 -> tables_ok c -> okp tables_ok (send_frame_header id) c.
Proof. intros ID H. unfold send_frame_header. ok1. destruct (cstatus_eqb _ _); [ok1|]. destruct (negb _); [ok1|]. apply ok_send_header; auto. Qed.
Lemma ok_send_request f t c : f_id f < 64 -> tables_ok c -> okp tables_ok (send_request f t) c.
Proof. intros ID H. unfold send_request. ok1. destruct (c_detailed c); [ok1|]. destruct (c_status c); try ok1; apply ok_send_frame_header; auto. Qed.
Lemma ok_send_if_slave m c : tables_ok c -> okp tables_ok (send_if_slave m) c.
Proof. intros H. unfold send_if_slave. ok1. destruct (c_detailed c); [ok1|]. destruct (cmode_eqb _ _); ok1. Qed.
Lemma ok_update_frame_response r c : tables_ok c -> okp tables_ok (update_frame_response r) c.
Proof.
  intros H. unfold update_frame_response. ok1; [|apply ok_send_if_slave; assumption].
  apply okp_modify. apply set_node_tables; [|exact H]. apply node_responses_ok. apply get_node_ok, H.
Qed.
Lemma ok_set_status s c : tables_ok c -> okp tables_ok (set_controller_status s) c.
Proof. intros H. unfold set_controller_status. ok1; [|ok1]. apply okp_modify. exact H. Qed.
Lemma ok_if_uninit a c : tables_ok c -> okp tables_ok a c -> okp tables_ok (if_uninit a) c.
Proof. intros H K. unfold if_uninit. ok1. destruct (cstatus_eqb _ _); [ok1|exact K]. Qed.
Lemma ok_if_master a c : tables_ok c -> okp tables_ok a c -> okp tables_ok (if_master a) c.
Proof. intros H K. unfold if_master. ok1. destruct (cmode_eqb _ _); [exact K|ok1]. Qed.
Lemma ok_if_not_dynamic a c : tables_ok c -> okp tables_ok a c -> okp tables_ok (if_not_dynamic a) c.
Proof. intros H K. unfold if_not_dynamic. ok1. destruct (c_dynamic c); [ok1|exact K]. Qed.

(** the ids that the functions do not check themselves *)
Definition id_ok (o : lop) : Prop :=
  match o with
  | LSendFrame f _ | LDynamicResponse f | LUpdateTx f => f_id f < 64
  | LSendHeader id | LReceive _ _ (MHeader id) => id < 64
  | _ => True
  end.
Lemma add_slave_ids_nodes rs c : c_nodes (add_slave_ids rs c) = c_nodes c.
Proof. unfold add_slave_ids. revert c. induction rs as [|r rs IH]; intros c; [reflexivity|]. cbn [fold_left]. rewrite IH. destruct (_ && _); reflexivity. Qed.
Lemma ok_handle_responses from rs c : tables_ok c -> okp tables_ok (handle_responses from rs) c.
Proof.
  intros H. unfold handle_responses. ok1.
  assert (NO : node_ok (node_responses rs (get_node from c))) by (apply node_responses_ok, get_node_ok, H).
  ok1; [apply okp_modify, set_node_tables; assumption|]. ok1; [|ok1].
  destruct (cmode_eqb _ _); [|ok1]. apply okp_modify. unfold tables_ok. rewrite add_slave_ids_nodes. assumption.
Qed.
Lemma calc_status_some f st b c : tables_ok c -> f_id f < 64 -> exists s, calc_status f st b c = Some s.
Proof.
  intros H ID. unfold calc_status. destruct (resp_at_some (f_id f) (this_node c) (get_node_ok _ _ H) ID) as (r & -> & _).
  destruct (nd_dyn _); [eauto|]. destruct (c_detailed c); [|eauto]. destruct b, st; eauto.
Qed.
Lemma ok_exec o c : id_ok o -> tables_ok c -> okp tables_ok (cexec o) c.
Proof.
  intros ID H. destruct o as [m rs|m|f t|id|f|f|r| | | | |from sim m|on]; cbn [cexec id_ok] in *.
  - unfold init_ctrl. ok1. destruct (cmode_eqb _ _); [ok1|]. destruct (negb _); [ok1|].
    ok1; [|apply ok_send_if_slave; assumption]. apply okp_modify.
    change (tables_ok (set_node (node_responses rs (mkNode (nd_addr (this_node c)) m StOperational (nd_dyn (this_node c)) (nd_resp (this_node c)))) c)).
    apply set_node_tables; [|exact H]. apply node_responses_ok. exact (get_node_ok _ _ H).
  - unfold init_dynamic. ok1. destruct (cmode_eqb _ _); [ok1|]. destruct (negb _); [ok1|].
    ok1; [|apply ok_send_if_slave; assumption]. apply okp_modify.
    change (tables_ok (set_node (mkNode (nd_addr (this_node c)) m StOperational true (nd_resp (this_node c))) c)).
    apply set_node_tables; [|exact H]. exact (get_node_ok _ _ H).
  - unfold send_frame. apply ok_if_uninit; [exact H|]. apply ok_if_master; [exact H|]. apply ok_if_not_dynamic; [exact H|].
    assert (S : forall c0, tables_ok c0 -> okp tables_ok (send_request f t) c0) by (intros; apply ok_send_request; auto).
    unfold send_frame_internal. destruct t.
    + ok1; [apply ok_update_frame_response; assumption|auto].
    + ok1. destruct (_ && _); [ok1|]. destruct (resp_at_some (f_id f) (this_node c) (get_node_ok _ _ H) ID) as (r & -> & _).
      destruct (r_mode r); [ok1; [apply ok_update_frame_response; assumption|auto]|auto|ok1].
    + ok1. destruct (_ && _); [ok1|]. ok1; [ok1|auto].
  - apply ok_send_frame_header; auto.
  - unfold send_dynamic_response. ok1. ok1; [destruct (c_dynamic c); cbn [negb]; ok1|]. ok1; [apply ok_update_frame_response; assumption|].
    apply ok_process_header; auto.
  - unfold update_tx_buffer. apply ok_if_uninit; [exact H|]. apply ok_if_not_dynamic; [exact H|]. ok1.
    pose proof (get_node_ok (c_self c) c H) as NO.
    destruct (resp_at_some (f_id f) (this_node c) NO ID) as (r & E & E').
    rewrite E. destruct (negb _) eqn:M; [ok1|]. ok1; [|destruct (c_detailed c); ok1]. apply okp_modify. apply set_node_tables; [|exact H].
    assert (FI : f_id (r_frame r) = f_id f) by (apply (resp_at_id _ (this_node c)); auto; destruct (r_mode r); discriminate).
    rewrite <- FI. change (N.to_nat (f_id (r_frame r))) with (N.to_nat (f_id (r_frame (set_data (f_data f) r)))).
    unfold node_ok. cbn [nd_resp]. apply set_nth_ok. exact NO.
  - unfold set_frame_response. apply ok_if_uninit; [exact H|]. apply ok_if_not_dynamic; [exact H|]. ok1.
    destruct (64 <=? _) eqn:E; [ok1|]. destruct (rmode_eqb _ _); [ok1|].
    destruct (resp_at_some (f_id (r_frame r)) (this_node c) (get_node_ok _ _ H) ltac:(lia)) as (x & -> & _).
    destruct (negb _); [ok1|]. apply ok_update_frame_response; assumption.
  - unfold go_to_sleep. apply ok_if_uninit; [exact H|]. apply ok_if_master; [exact H|]. ok1. destruct (c_detailed c).
    + ok1; [ok1|apply ok_set_status; assumption].
    + ok1; [ok1|]. ok1; [ok1|]. unfold go_to_sleep_internal. apply ok_if_uninit; [assumption|apply ok_set_status; assumption].
  - unfold go_to_sleep_internal. apply ok_if_uninit; [assumption|apply ok_set_status; assumption].
  - unfold wakeup. apply ok_if_uninit; [exact H|]. ok1. destruct (c_detailed c).
    + ok1; [ok1|]. unfold wakeup_internal. apply ok_if_uninit; [assumption|apply ok_set_status; assumption].
    + ok1; [ok1|]. ok1; [ok1|]. unfold wakeup_internal. apply ok_if_uninit; [assumption|apply ok_set_status; assumption].
  - unfold wakeup_internal. apply ok_if_uninit; [assumption|apply ok_set_status; assumption].
  - ok1. unfold receive. ok1. destruct m.
    + destruct (_ =? _); [ok1|]. ok1; [|apply ok_handle_responses; assumption].
      apply okp_modify, set_node_tables; [|exact H]. exact (get_node_ok _ _ H).
    + destruct (_ =? _); [ok1|]. apply ok_handle_responses; assumption.
    + apply okp_modify, set_node_tables; [|exact H]. exact (get_node_ok _ _ H).
    + apply ok_receive_header; auto.
    + unfold receive_transmission. ok1. destruct (negb _); [ok1|]. destruct (cmode_eqb _ _); [ok1|].
      destruct (c_status c); [ok1| |ok1|].
      all: destruct (negb _ && _); [ok1|]; destruct (64 <=? f_id f) eqn:E; [ok1|];
        destruct (calc_status_some f st ((f_id f =? f_id sleep_frame) && list_eqb (f_data f) (f_data sleep_frame)) c H ltac:(lia)) as (s & ->);
        (ok1; [destruct s; ok1|]); (destruct (_ && _); [|ok1]); (destruct (c_mode c); [ok1| |ok1]);
        ok1; (destruct (cstatus_eqb _ _); [|ok1]); apply okp_modify; assumption.
    + ok1.
    + destruct (if c_detailed c then sim else true); ok1.
  - apply okp_modify. exact H.
Qed.
Lemma crun_ok l : forall c, Forall id_ok l -> tables_ok c -> exists c' os, crun l c = Some (c', os) /\ tables_ok c'.
Proof.
  induction l as [|o l IH]; intros c ID H; [cbn; eauto|]. inversion ID as [|? ? A B]; subst.
  pose proof (ok_exec o c A H) as K. unfold okp in K. cbn [crun]. destruct (cexec o c) as [[c1 o1] r]. destruct K as (K1 & K2).
  destruct (IH c1 B K1) as (c2 & os & E & F). rewrite E. destruct r; [| |congruence]; eauto.
Qed.
