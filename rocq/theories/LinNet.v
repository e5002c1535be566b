(** Proofs about networks of LIN controllers without network simulator. *)
From Coq Require Import NArith List Arith Bool Lia Sorting.Sorted Sorting.Permutation.
From Verif Require Import Base LinModel LinProofs.
Import ListNotations.
Open Scope N_scope.

(** ** Sorted node lists *)
Definition srt : list node -> Prop := StronglySorted (fun a b => nd_addr a < nd_addr b).
Lemma put_node_in x l n : In n (put_node x l) -> n = x \/ In n l.
Proof. induction l as [|y l IH]; cbn; [intuition|]. destruct (_ <? _); [cbn; intuition|]. destruct (_ =? _); cbn; intuition. Qed.
Lemma put_node_srt x l : srt l -> srt (put_node x l).
Proof.
  unfold srt. induction 1 as [|y l Hl IH Hy]; cbn; [repeat constructor|].
  destruct (nd_addr y <? nd_addr x) eqn:E.
  - constructor; [exact IH|]. apply Forall_forall. intros n Hn. apply put_node_in in Hn. destruct Hn as [->|Hn]; [lia|]. eapply Forall_forall in Hy; eauto.
  - destruct (nd_addr y =? nd_addr x) eqn:F.
    + constructor; [exact Hl|]. apply Forall_forall. intros n Hn. eapply Forall_forall in Hy; eauto. lia.
    + constructor; [constructor; assumption|]. constructor; [lia|]. apply Forall_forall. intros n Hn. eapply Forall_forall in Hy; eauto. lia.
Qed.
Lemma find_put a x l : srt l -> find_node a (put_node x l) = if a =? nd_addr x then Some x else find_node a l.
Proof.
  unfold srt. induction 1 as [|y l Hl IH Hy]; cbn.
  - destruct (nd_addr x <? a) eqn:E; [replace (a =? nd_addr x) with false by lia; reflexivity|].
    rewrite (N.eqb_sym a). reflexivity.
  - destruct (nd_addr y <? nd_addr x) eqn:E; cbn.
    + rewrite IH. destruct (a =? nd_addr x) eqn:F; [replace (nd_addr y <? a) with true by lia; reflexivity|reflexivity].
    + destruct (nd_addr y =? nd_addr x) eqn:F; cbn.
      * destruct (nd_addr x <? a) eqn:G.
        -- replace (a =? nd_addr x) with false by lia. replace (nd_addr y <? a) with true by lia. reflexivity.
        -- rewrite (N.eqb_sym a). destruct (nd_addr x =? a) eqn:K; [reflexivity|]. replace (nd_addr y <? a) with false by lia.
           replace (nd_addr y =? a) with false by lia. reflexivity.
      * destruct (nd_addr x <? a) eqn:G; [replace (a =? nd_addr x) with false by lia; reflexivity|].
        rewrite (N.eqb_sym a). destruct (nd_addr x =? a) eqn:K; [reflexivity|]. replace (nd_addr y <? a) with false by lia.
        replace (nd_addr y =? a) with false by lia. reflexivity.
Qed.
Lemma get_set a x c : srt (c_nodes c) -> get_node a (set_node x c) = if a =? nd_addr x then x else get_node a c.
Proof. intros H. unfold get_node. cbn [set_node set_nodes c_nodes]. rewrite find_put by exact H. destruct (_ =? _); reflexivity. Qed.
Lemma find_in n l : srt l -> In n l -> find_node (nd_addr n) l = Some n.
Proof.
  unfold srt. induction 1 as [|y l Hl IH Hy]; cbn; [intros []|]. intros [->|H].
  - rewrite N.ltb_irrefl, N.eqb_refl. reflexivity.
  - eapply Forall_forall in Hy; [|exact H]. replace (nd_addr y <? nd_addr n) with true by lia. apply IH, H.
Qed.

(** ** Tables up to the modes *)
Definition modes (t : list response) : list rmode := map r_mode t.
Lemma modes_set_nth i r t : modes (set_nth i r t) = set_nth i (r_mode r) (modes t).
Proof. revert i. induction t as [|x t IH]; intros [|i]; cbn; auto. unfold modes in *. rewrite IH. reflexivity. Qed.
Lemma modes_update rs : forall t1 t2, modes t1 = modes t2 -> modes (update_responses rs t1) = modes (update_responses rs t2).
Proof.
  induction rs as [|r rs IH]; intros t1 t2 H; [exact H|]. cbn. apply IH.
  assert (L : length t1 = length t2) by (rewrite <- (map_length r_mode t1), <- (map_length r_mode t2); unfold modes in H; rewrite H; reflexivity).
  rewrite L. destruct (_ <=? _); [exact H|]. rewrite !modes_set_nth, H. reflexivity.
Qed.
Lemma modes_set_same i r x t : nth_error t i = Some x -> r_mode r = r_mode x -> modes (set_nth i r t) = modes t.
Proof.
  intros H E. rewrite modes_set_nth, E. revert i H. induction t as [|y t IH]; intros [|i]; cbn; try discriminate.
  - injection 1 as ->. reflexivity.
  - intros H. unfold modes in *. rewrite IH by exact H. reflexivity.
Qed.
Definition unused : list rmode := repeat RUnused 64.
(** the node is configured to respond to the id *)
Definition tx_at (id : N) (ms : list rmode) : bool := match nth_error ms (N.to_nat id) with Some RTx => true | _ => false end.

(** ** What a node learns from a message of another *)
Definition applyv (n : node) (m : lmsg) : node :=
  match m with
  | MConfig md d rs => node_responses rs (mkNode (nd_addr n) md StOperational d (nd_resp n))
  | MResponses rs => node_responses rs n
  | MStatus s => mkNode (nd_addr n) (nd_mode n) s (nd_dyn n) (nd_resp n)
  | _ => n
  end.
Definition view (n : node) (ms : list lmsg) : node := fold_left applyv ms n.
Definition quiet (m : lmsg) : bool := match m with MHeader _ | MTransmission _ _ | MWakeup _ => true | _ => false end.
Lemma view_quiet ms n : forallb quiet ms = true -> view n ms = n.
Proof. revert n. induction ms as [|m ms IH]; intros n; [reflexivity|]. cbn. intros H. apply andb_prop in H. destruct H as (A & B). destruct m; try discriminate; apply IH, B. Qed.

(** the view [n] of the controller [c] is right *)
Definition matches (c : ctrl) (n : node) : Prop :=
  match c_mode c with
  | Slave => nd_mode n = Slave /\ nd_status n = c_status c /\ modes (nd_resp n) = modes (nd_resp (this_node c))
  | _ => nd_mode n = Inactive /\ modes (nd_resp n) = unused
  end.
Record own (c : ctrl) : Prop := mkOwn {
  ow_trivial : c_detailed c = false; ow_static : c_dynamic c = false;
  ow_nodyn : Forall (fun n => nd_dyn n = false) (c_nodes c); ow_tables : tables_ok c; ow_srt : srt (c_nodes c);
  ow_state : (c_status c = StUnknown /\ c_mode c = Inactive /\ nd_mode (this_node c) = Inactive /\ modes (nd_resp (this_node c)) = unused)
             \/ ((c_status c = StOperational \/ c_status c = StSleep) /\ c_mode c <> Inactive /\ nd_mode (this_node c) = c_mode c /\ nd_status (this_node c) = StOperational) }.
Lemma own_dyn c a : own c -> nd_dyn (get_node a c) = false.
Proof.
  intros O. unfold get_node. destruct (find_node a (c_nodes c)) as [n|] eqn:E; [|reflexivity]. apply find_node_in in E.
  eapply (proj1 (Forall_forall _ _) (ow_nodyn c O)). tauto.
Qed.
Lemma own_nodyn c : own c -> has_dynamic_node c = false.
Proof.
  intros O. unfold has_dynamic_node. destruct (existsb _ _) eqn:E; [|reflexivity]. apply existsb_exists in E. destruct E as (n & A & B).
  rewrite (proj1 (Forall_forall _ _) (ow_nodyn c O) n A) in B. discriminate.
Qed.
(** a step caused by the own participant *)
Record api_ok (c c' : ctrl) (o : list lout) : Prop := mkApi {
  ap_own : own c'; ap_self : c_self c' = c_self c;
  ap_others : forall a, a <> c_self c -> get_node a c' = get_node a c;
  ap_addrs : incl (map nd_addr (c_nodes c')) (c_self c :: map nd_addr (c_nodes c));
  ap_match : forall n, matches c n -> matches c' (view n (sent o));
  ap_msgs : Forall (fun m => match m with MConfig _ d _ => d = false | _ => True end) (sent o) }.
Lemma sent_app a b : sent (a ++ b) = sent a ++ sent b.
Proof. apply flat_map_app. Qed.
Lemma view_app n a b : view n (a ++ b) = view (view n a) b.
Proof. apply fold_left_app. Qed.
Lemma api_trans c c1 c2 o1 o2 : api_ok c c1 o1 -> api_ok c1 c2 o2 -> api_ok c c2 (o1 ++ o2).
Proof.
  intros [A1 A2 A3 A4 A5 A6] [B1 B2 B3 B4 B5 B6]. constructor; auto.
  - congruence.
  - intros a H. rewrite B3, A3 by congruence. reflexivity.
  - intros a H. apply B4 in H. destruct H as [<-|H]; [rewrite A2; left; reflexivity|]. apply A4, H.
  - intros n H. rewrite sent_app, view_app. auto.
  - rewrite sent_app. apply Forall_app. auto.
Qed.
Lemma api_quiet c o : own c -> forallb quiet (sent o) = true -> api_ok c c o.
Proof.
  intros O Q. constructor; auto.
  - intros a H. right. exact H.
  - intros n H. rewrite view_quiet by exact Q. exact H.
  - apply Forall_forall. intros m H. rewrite forallb_forall in Q. apply Q in H. destruct m; auto; discriminate.
Qed.
Definition goodp (a : act) (c : ctrl) : Prop := match a c with (c', o, r) => r = LUB \/ api_ok c c' o end.
Lemma good_seq a b c : goodp a c -> (forall c1 o1, a c = (c1, o1, LOk) -> api_ok c c1 o1 -> goodp b c1) -> goodp (a ;; b) c.
Proof.
  unfold goodp, seq. destruct (a c) as [[c1 o1] r]. intros A B. destruct r; try exact A.
  destruct A as [A|A]; [discriminate|]. specialize (B c1 o1 eq_refl A). destruct (b c1) as [[c2 o2] r2]. destruct B as [B|B]; [auto|].
  right. eapply api_trans; eauto.
Qed.
(** actions that leave the controller alone and send no configuration *)
Definition quietp (a : act) (c : ctrl) : Prop := match a c with (c', o, r) => c' = c /\ forallb quiet (sent o) = true end.
Lemma quiet_good a c : own c -> quietp a c -> goodp a c.
Proof. unfold quietp, goodp. intros O. destruct (a c) as [[c1 o1] r]. intros (-> & Q). right. apply api_quiet; auto. Qed.
Lemma q_seq a b c : quietp a c -> quietp b c -> quietp (a ;; b) c.
Proof.
  unfold quietp, seq. destruct (a c) as [[c1 o1] r]. intros (-> & A) B. destruct r; auto. destruct (b c) as [[c2 o2] r2]. destruct B as (-> & B).
  split; [reflexivity|]. rewrite sent_app, forallb_app, A, B. reflexivity.
Qed.
Lemma q_skip c : quietp skip c. Proof. split; reflexivity. Qed.
Lemma q_throw c : quietp throw c. Proof. split; reflexivity. Qed.
Lemma q_ub c : quietp ub c. Proof. split; reflexivity. Qed.
Lemma q_emit o c : (match o with OSend m => quiet m | _ => true end) = true -> quietp (emit o) c.
Proof. intros H. split; [reflexivity|]. destruct o; try reflexivity. cbn. rewrite H. reflexivity. Qed.
Lemma q_get f c : quietp (f c) c -> quietp (get f) c. Proof. exact (fun H => H). Qed.
Lemma q_catch a c : quietp a c -> quietp (catch a) c.
Proof. unfold quietp, catch. destruct (a c) as [[c1 o] r]. destruct r; auto. Qed.
Ltac q1 := lazymatch goal with
  | |- quietp skip _ => apply q_skip | |- quietp throw _ => apply q_throw | |- quietp ub _ => apply q_ub
  | |- quietp (emit _) _ => apply q_emit; reflexivity
  | |- quietp (seq _ _) _ => apply q_seq | |- quietp (get _) _ => apply q_get; cbv beta | |- quietp (catch _) _ => apply q_catch
  | |- quietp (if ?b then _ else _) _ => destruct b
  | |- quietp (match ?b with _ => _ end) _ => destruct b
  end.
Lemma q_process_header id c : quietp (process_header id) c.
Proof. unfold process_header. repeat q1. Qed.
Lemma q_receive_header al id c : quietp (receive_header al id) c.
Proof. unfold receive_header. repeat q1. apply q_process_header. Qed.
Lemma q_send_header id c : quietp (send_header id) c.
Proof.
  unfold send_header, send_error_transmission. repeat q1. apply q_receive_header.
Qed.
Lemma q_send_frame_header id c : quietp (send_frame_header id) c.
Proof. unfold send_frame_header. repeat q1. apply q_send_header. Qed.
Lemma q_send_request f t c : c_detailed c = false -> quietp (send_request f t) c.
Proof. intros H. unfold send_request. q1. rewrite H. repeat q1; apply q_send_frame_header. Qed.

Lemma nodyn_set x c : nd_dyn x = false -> Forall (fun n => nd_dyn n = false) (c_nodes c) -> Forall (fun n => nd_dyn n = false) (c_nodes (set_node x c)).
Proof. intros A B. apply (put_node_ok (fun n => nd_dyn n = false)); assumption. Qed.
Lemma addrs_set x c : incl (map nd_addr (c_nodes (set_node x c))) (nd_addr x :: map nd_addr (c_nodes c)).
Proof.
  intros a H. apply in_map_iff in H. destruct H as (n & <- & H). apply put_node_in in H. destruct H as [->|H]; [left; reflexivity|].
  right. apply in_map, H.
Qed.
(** replacing the own node, keeping mode and status *)
Lemma api_own_node c x o : own c -> nd_addr x = c_self c -> nd_dyn x = false -> node_ok x -> c_status c <> StUnknown ->
  nd_mode x = nd_mode (this_node c) -> nd_status x = nd_status (this_node c) ->
  (c_mode c = Slave -> forall n, modes (nd_resp n) = modes (nd_resp (this_node c)) ->
     nd_mode (view n (sent o)) = nd_mode n /\ nd_status (view n (sent o)) = nd_status n /\ modes (nd_resp (view n (sent o))) = modes (nd_resp x)) ->
  (c_mode c <> Slave -> sent o = []) ->
  Forall (fun m => match m with MConfig _ d _ => d = false | _ => True end) (sent o) ->
  api_ok c (set_node x c) o.
Proof.
  intros O XA XD XO SU XM XS MS MM MC. pose proof (ow_srt c O) as SR.
  assert (TN : this_node (set_node x c) = x).
  { unfold this_node. cbn [set_node set_nodes c_self]. fold (set_node x c). change (get_node (c_self c) (set_node x c) = x). rewrite get_set by exact SR. rewrite XA, N.eqb_refl. reflexivity. }
  constructor.
  - destruct O as [O1 O2 O3 O4 O5 O6]. constructor; auto.
    + apply nodyn_set; auto.
    + apply set_node_tables; auto.
    + apply put_node_srt; auto.
    + rewrite TN. cbn [set_node set_nodes c_mode c_status]. destruct O6 as [(A & _)|(A & B & C & D)]; [congruence|]. right. rewrite XM, XS. auto.
  - reflexivity.
  - intros a H. rewrite get_set by exact SR. rewrite XA. replace (a =? c_self c) with false by lia. reflexivity.
  - rewrite <- XA. apply addrs_set.
  - intros n H. unfold matches in *. rewrite TN. cbn [set_node set_nodes c_mode c_status].
    destruct (c_mode c) eqn:E.
    + rewrite MM by congruence. exact H.
    + rewrite MM by congruence. exact H.
    + destruct H as (A & B & C). destruct (MS eq_refl n C) as (D & F & G). rewrite D, F, G. auto.
  - exact MC.
Qed.
Lemma good_update_frame_response r c : own c -> c_status c <> StUnknown -> goodp (update_frame_response r) c.
Proof.
  intros O SU. unfold goodp, update_frame_response, seq, modify, send_if_slave, get. cbn [c_detailed set_node set_nodes].
  rewrite (ow_trivial c O). change (c_mode (set_node (node_responses [r] (this_node c)) c)) with (c_mode c).
  assert (NO : node_ok (node_responses [r] (this_node c))) by (apply node_responses_ok, get_node_ok, (ow_tables c O)).
  assert (AD : nd_addr (node_responses [r] (this_node c)) = c_self c) by (cbn; apply get_node_addr).
  assert (DY : nd_dyn (node_responses [r] (this_node c)) = false) by (cbn [nd_dyn node_responses]; apply own_dyn, O).
  destruct (cmode_eqb (c_mode c) Slave) eqn:E; cbn; right; apply api_own_node; auto; cbn [sent flat_map app].
  - intros _ n H. cbn [view fold_left applyv node_responses nd_mode nd_status nd_resp]. repeat split. apply modes_update, H.
  - intros H. destruct (c_mode c); cbn in E; congruence.
  - constructor; auto.
  - intros H. rewrite H in E. discriminate.
  - constructor.
Qed.
Lemma good_set_status s c : own c -> c_status c <> StUnknown -> s = StOperational \/ s = StSleep -> goodp (set_controller_status s) c.
Proof.
  intros O SU Hs. unfold goodp, set_controller_status, seq, modify, emit. right. cbn [app].
  destruct O as [O1 O2 O3 O4 O5 O6]. constructor; auto.
  - constructor; auto. right. destruct O6 as [(A & _)|(A & B & C & D)]; [congruence|]. auto.
  - intros a H. right. exact H.
  - intros n H. unfold matches in *. cbn [set_status c_mode c_status]. change (this_node (set_status s c)) with (this_node c).
    cbn [sent flat_map app view fold_left applyv nd_mode nd_status nd_resp]. destruct (c_mode c); auto. tauto.
  - cbn. constructor; auto.
Qed.
Definition static_op (o : lop) : bool :=
  match o with LInitDynamic _ | LDynamicResponse _ | LReceive _ _ _ | LSimulator _ => false | _ => true end.
Lemma good_if_uninit a c : own c -> (c_status c <> StUnknown -> goodp a c) -> goodp (if_uninit a) c.
Proof.
  intros O H. unfold if_uninit, goodp, get. destruct (cstatus_eqb (c_status c) StUnknown) eqn:E.
  - right. apply api_quiet; auto.
  - apply H. intros F. rewrite F in E. discriminate.
Qed.
Lemma good_if_master a c : own c -> goodp a c -> goodp (if_master a) c.
Proof. intros O H. unfold if_master, goodp, get. destruct (cmode_eqb _ _); [exact H|]. right. apply api_quiet; auto. Qed.
Lemma good_if_not_dynamic a c : own c -> goodp a c -> goodp (if_not_dynamic a) c.
Proof. intros O H. unfold if_not_dynamic, goodp, get. destruct (c_dynamic c); [|exact H]. right. apply api_quiet; auto. Qed.
Lemma good_emit o c : own c -> (match o with OSend m => quiet m | _ => true end) = true -> goodp (emit o) c.
Proof. intros O H. apply quiet_good; [exact O|]. apply q_emit, H. Qed.
Lemma good_skip c : own c -> goodp skip c. Proof. intros O. apply quiet_good; [exact O|apply q_skip]. Qed.
Lemma good_throw c : own c -> goodp throw c. Proof. intros O. apply quiet_good; [exact O|apply q_throw]. Qed.
Lemma good_request f t c : own c -> goodp (send_request f t) c.
Proof. intros O. apply quiet_good; [exact O|]. apply q_send_request, (ow_trivial c O). Qed.
Lemma good_get f c : goodp (f c) c -> goodp (get f) c. Proof. exact (fun H => H). Qed.
Lemma sleep_good c : own c -> goodp go_to_sleep_internal c.
Proof. intros O. apply good_if_uninit; [exact O|]. intros SU. apply good_set_status; auto. Qed.
Lemma wake_good c : own c -> goodp wakeup_internal c.
Proof. intros O. apply good_if_uninit; [exact O|]. intros SU. apply good_set_status; auto. Qed.
Lemma api_good o c : static_op o = true -> own c -> goodp (cexec o) c.
Proof.
  intros ST O. destruct o as [m rs|m|f t|id|f|f|r| | | | |from sim m|on]; try discriminate; cbn [cexec].
  - (* Init *)
    unfold goodp, init_ctrl, get. destruct (cmode_eqb m Inactive) eqn:MI; [right; apply api_quiet; auto|].
    destruct (negb (cstatus_eqb (c_status c) StUnknown)) eqn:SU; [right; apply api_quiet; auto|].
    set (x := node_responses rs (mkNode (nd_addr (this_node c)) m StOperational (nd_dyn (this_node c)) (nd_resp (this_node c)))).
    unfold seq, modify, send_if_slave, get. cbn [c_detailed set_node set_nodes c_mode]. rewrite (ow_trivial c O).
    set (c' := mkC _ m StOperational _ _ _ _).
    assert (AD : nd_addr x = c_self c) by (cbn; apply get_node_addr).
    assert (NO : node_ok x) by (apply node_responses_ok; exact (get_node_ok _ _ (ow_tables c O))).
    assert (TN : this_node c' = x).
    { change (get_node (c_self c) (set_node x c) = x). rewrite get_set by exact (ow_srt c O). rewrite AD, N.eqb_refl. reflexivity. }
    destruct O as [O1 O2 O3 O4 O5 O6].
    destruct O6 as [(A & B & C & D)|(A & _)]; [|destruct A as [A|A]; rewrite A in SU; discriminate].
    assert (OW : own c').
    { constructor; auto.
      - change (Forall (fun n => nd_dyn n = false) (c_nodes (set_node x c))). apply nodyn_set; auto. cbn.
        unfold this_node, get_node. destruct (find_node _ _) as [n|] eqn:E; [|reflexivity]. apply find_node_in in E. eapply (proj1 (Forall_forall _ _) O3). tauto.
      - change (tables_ok (set_node x c)). apply set_node_tables; auto.
      - change (srt (c_nodes (set_node x c))). apply put_node_srt; auto.
      - right. rewrite TN. split; [left; reflexivity|]. split; [destruct m; cbn in MI |- *; congruence|]. split; reflexivity. }
    assert (OTH : forall a, a <> c_self c -> get_node a c' = get_node a c).
    { intros a H. change (get_node a (set_node x c) = get_node a c). rewrite get_set, AD by assumption. replace (a =? c_self c) with false by lia. reflexivity. }
    assert (ADR : incl (map nd_addr (c_nodes c')) (c_self c :: map nd_addr (c_nodes c))) by (rewrite <- AD; apply (addrs_set x c)).
    destruct (cmode_eqb m Slave) eqn:MS; cbn; right; constructor; auto.
    + intros n H. unfold matches in H. rewrite B in H. destruct H as (H1 & H2). unfold matches. rewrite TN. cbn [c' c_mode c_status].
      destruct m; try discriminate. cbn [sent flat_map app view fold_left applyv node_responses nd_mode nd_status nd_resp].
      repeat split. apply modes_update. cbn [nd_resp]. congruence.
    + cbn. constructor; auto.
    + intros n H. unfold matches in H. rewrite B in H. unfold matches. cbn [c' c_mode c_status].
      destruct m; try discriminate. exact H.
    + constructor.
  - (* SendFrame *)
    unfold send_frame. apply good_if_uninit; [exact O|]. intros SU. apply good_if_master; [exact O|]. apply good_if_not_dynamic; [exact O|].
    assert (UP : forall r, goodp (update_frame_response r ;; send_request f t) c).
    { intros r. apply good_seq; [apply good_update_frame_response; auto|]. intros c1 o1 _ A. apply good_request, (ap_own _ _ _ A). }
    unfold send_frame_internal. destruct t.
    + apply UP.
    + apply good_get. destruct (_ && _); [apply good_emit; auto|]. destruct (resp_at _ _) as [r|]; [|left; reflexivity].
      destruct (r_mode r); [apply UP|apply good_request, O|apply good_skip, O].
    + apply good_get. destruct (_ && _); [apply good_emit; auto|]. apply good_seq; [apply good_emit; auto|]. intros c1 o1 E A. apply good_request, (ap_own _ _ _ A).
  - apply quiet_good; [exact O|]. apply q_send_frame_header.
  - (* UpdateTxBuffer *)
    unfold update_tx_buffer. apply good_if_uninit; [exact O|]. intros SU. apply good_if_not_dynamic; [exact O|]. apply good_get.
    destruct (resp_at (f_id f) (this_node c)) as [r|] eqn:E; [|left; reflexivity].
    destruct (negb (rmode_eqb (r_mode r) RTx)) eqn:M; [apply good_throw, O|].
    assert (NTH : nth_error (nd_resp (this_node c)) (N.to_nat (f_id f)) = Some r).
    { unfold resp_at in E. destruct (_ <? _); [exact E|discriminate]. }
    assert (NO0 : node_ok (this_node c)) by exact (get_node_ok _ _ (ow_tables c O)).
    assert (FI : f_id (r_frame r) = f_id f) by (apply (resp_at_id _ (this_node c)); auto; destruct (r_mode r); discriminate).
    unfold goodp, seq, modify. rewrite (ow_trivial c O). cbn. right. rewrite <- FI.
    assert (FS : N.to_nat (f_id (r_frame r)) = N.to_nat (f_id (r_frame (set_data (f_data f) r)))) by reflexivity.
    apply api_own_node; auto; cbn [nd_addr nd_dyn nd_mode nd_status sent flat_map].
    + apply get_node_addr.
    + apply own_dyn, O.
    + unfold node_ok. cbn [nd_resp]. rewrite FS. apply set_nth_ok. exact NO0.
    + intros _ n H. cbn. repeat split. rewrite (modes_set_same _ _ r); auto. rewrite FI. exact NTH.
    + constructor.
  - (* SetFrameResponse *)
    unfold set_frame_response. apply good_if_uninit; [exact O|]. intros SU. apply good_if_not_dynamic; [exact O|]. apply good_get.
    destruct (64 <=? _); [apply good_skip, O|]. destruct (rmode_eqb _ _); [apply good_skip, O|].
    destruct (resp_at _ _); [|left; reflexivity]. destruct (negb _); [apply good_skip, O|]. apply good_update_frame_response; auto.
  - unfold go_to_sleep. apply good_if_uninit; [exact O|]. intros SU. apply good_if_master; [exact O|]. apply good_get. rewrite (ow_trivial c O).
    apply good_seq; [apply good_emit; auto|]. intros c1 o1 _ A. apply good_seq; [apply good_emit; auto; apply (ap_own _ _ _ A)|].
    intros c2 o2 _ B. apply sleep_good, (ap_own _ _ _ B).
  - apply sleep_good, O.
  - unfold wakeup. apply good_if_uninit; [exact O|]. intros SU. apply good_get. rewrite (ow_trivial c O).
    apply good_seq; [apply good_emit; auto|]. intros c1 o1 _ A. apply good_seq; [apply good_emit; auto; apply (ap_own _ _ _ A)|].
    intros c2 o2 _ B. apply wake_good, (ap_own _ _ _ B).
  - apply wake_good, O.
Qed.

(** a step caused by a message of another controller *)
Record rcv_ok (from : N) (m : lmsg) (c c' : ctrl) (o : list lout) : Prop := mkRcv {
  rv_own : own c'; rv_self : c_self c' = c_self c; rv_mode : c_mode c' = c_mode c; rv_status : c_status c' = c_status c; rv_this : this_node c' = this_node c;
  rv_from : get_node from c' = applyv (get_node from c) m;
  rv_others : forall a, a <> from -> get_node a c' = get_node a c;
  rv_addrs : incl (map nd_addr (c_nodes c')) (from :: map nd_addr (c_nodes c));
  rv_quiet : forallb quiet (sent o) = true }.
Lemma own_same c c' : own c -> c_self c' = c_self c -> c_mode c' = c_mode c -> c_status c' = c_status c -> c_dynamic c' = c_dynamic c -> c_detailed c' = c_detailed c -> this_node c' = this_node c ->
  Forall (fun n => nd_dyn n = false) (c_nodes c') -> tables_ok c' -> srt (c_nodes c') -> own c'.
Proof. intros [O1 O2 O3 O4 O5 O6] A B C D E F G H K. constructor; auto; try congruence. Qed.
Lemma rcv_set_node from m c x o c' : own c -> from <> c_self c -> nd_addr x = from -> nd_dyn x = false -> node_ok x -> x = applyv (get_node from c) m ->
  c_self c' = c_self c -> c_mode c' = c_mode c -> c_status c' = c_status c -> c_dynamic c' = c_dynamic c -> c_detailed c' = c_detailed c ->
  c_nodes c' = c_nodes (set_node x c) -> forallb quiet (sent o) = true -> rcv_ok from m c c' o.
Proof.
  intros O NS XA XD XO XE C1 C2 C3 C4 C5 C6 Q. pose proof (ow_srt c O) as SR.
  assert (GN : forall a, get_node a c' = if a =? from then x else get_node a c).
  { intros a. transitivity (get_node a (set_node x c)); [unfold get_node; rewrite C6; reflexivity|]. rewrite get_set, XA by exact SR. reflexivity. }
  assert (TN : this_node c' = this_node c).
  { unfold this_node. rewrite C1, GN. replace (c_self c =? from) with false by lia. reflexivity. }
  constructor; auto.
  - apply (own_same c); auto; rewrite ?C6.
    + apply nodyn_set; [exact XD|exact (ow_nodyn c O)].
    + unfold tables_ok. rewrite C6. apply set_node_tables; [exact XO|exact (ow_tables c O)].
    + apply put_node_srt, SR.
  - rewrite GN, N.eqb_refl. exact XE.
  - intros a H. rewrite GN. replace (a =? from) with false by lia. reflexivity.
  - rewrite C6, <- XA. apply addrs_set.
Qed.
Lemma rcv_quiet_state from m c o : own c -> applyv (get_node from c) m = get_node from c -> forallb quiet (sent o) = true -> rcv_ok from m c c o.
Proof. intros O A Q. constructor; auto. intros a H. right; exact H. Qed.
Lemma add_slave_ids_same rs c : let c' := add_slave_ids rs c in
  c_self c' = c_self c /\ c_mode c' = c_mode c /\ c_status c' = c_status c /\ c_dynamic c' = c_dynamic c /\ c_detailed c' = c_detailed c.
Proof. unfold add_slave_ids. revert c. induction rs as [|r rs IH]; intros c; [cbn; auto|]. cbn [fold_left]. cbv zeta in *. destruct (_ && _); [refine (let H := IH (mkC _ _ _ _ _ _ _) in H)|apply IH]. Qed.
Lemma receive_transmission_same al f st c : own c -> match receive_transmission al f st c with (c', o, r) => c' = c /\ sent o = [] end.
Proof.
  intros O. unfold receive_transmission, get. destruct (negb al); [cbn; auto|]. destruct (cmode_eqb (c_mode c) Inactive); [cbn; auto|].
  assert (SP : cstatus_eqb (c_status c) StSleepPending = false).
  { destruct (ow_state c O) as [(A & _)|([A|A] & _)]; rewrite A; reflexivity. }
  destruct (c_status c) eqn:CS; try (cbn; auto; fail); try discriminate.
  destruct (negb _ && _); [cbn; auto|]. destruct (64 <=? f_id f); [cbn; auto|]. destruct (calc_status _ _ _ _) as [s|]; [|cbn; auto].
  unfold seq, skip, emit. destruct s; (destruct (_ && _); [|cbn; auto]); destruct (c_mode c); cbn; rewrite ?CS; cbn; auto.
Qed.
Lemma receive_good from m c : own c -> from <> c_self c -> (match m with MConfig _ d _ => d = false | _ => True end) ->
  match receive from false m c with (c', o, r) => r = LUB \/ rcv_ok from m c c' o end.
Proof.
  intros O NS MO. unfold receive, get. rewrite (ow_trivial c O). pose proof (get_node_ok from c (ow_tables c O)) as GN.
  pose proof (get_node_addr from c) as GA. pose proof (own_dyn c from O) as GD.
  assert (HR : forall n0 c0, c0 = set_node n0 c \/ (c0 = c /\ n0 = get_node from c) -> nd_addr n0 = from -> nd_dyn n0 = false -> node_ok n0 ->
     forall rs, node_responses rs n0 = applyv (get_node from c) m ->
     match handle_responses from rs c0 with (c', o, r) => r = LUB \/ rcv_ok from m c c' o end).
  { intros n0 c0 HC NA ND NO rs EQ. pose proof (ow_srt c O) as SR.
    assert (G0 : get_node from c0 = n0).
    { destruct HC as [->|(-> & ->)]; [|reflexivity]. rewrite get_set, NA, N.eqb_refl by exact SR. reflexivity. }
    assert (PUT : c_nodes (set_node (node_responses rs n0) c0) = c_nodes (set_node (node_responses rs n0) c)).
    { destruct HC as [->|(-> & _)]; [|reflexivity]. cbn [set_node set_nodes c_nodes]. cbn [node_responses nd_addr].
      generalize (c_nodes c). intros l. induction l as [|y l IH]; cbn.
      - rewrite N.ltb_irrefl, N.eqb_refl. reflexivity.
      - destruct (nd_addr y <? nd_addr n0) eqn:E; cbn.
        + rewrite E, IH. reflexivity.
        + destruct (nd_addr y =? nd_addr n0); cbn; rewrite N.ltb_irrefl, N.eqb_refl; reflexivity. }
    unfold handle_responses, get. rewrite G0. unfold seq, modify, skip, emit.
    assert (SAME : c_self c0 = c_self c /\ c_mode c0 = c_mode c /\ c_status c0 = c_status c /\ c_dynamic c0 = c_dynamic c /\ c_detailed c0 = c_detailed c).
    { destruct HC as [->|(-> & _)]; cbn; auto. }
    destruct SAME as (S1 & S2 & S3 & S4 & S5).
    destruct (cmode_eqb _ _); right.
    - destruct (add_slave_ids_same rs (set_node (node_responses rs n0) c0)) as (A1 & A2 & A3 & A4 & A5).
      cbn [set_node set_nodes c_self c_mode c_status c_dynamic c_detailed] in A1, A2, A3, A4, A5.
      apply (rcv_set_node from m c (node_responses rs n0)); auto; try congruence.
      + apply node_responses_ok, NO.
      + rewrite add_slave_ids_nodes. exact PUT.
    - apply (rcv_set_node from m c (node_responses rs n0)); auto; try congruence. apply node_responses_ok, NO. }
  assert (NS' : (from =? c_self c) = false) by lia.
  destruct m as [md d rs|rs|s|id|f st|f t|tx].
  - rewrite NS'. unfold seq, modify. subst d.
    set (n0 := mkNode (nd_addr (get_node from c)) md StOperational false (nd_resp (get_node from c))).
    specialize (HR n0 (set_node n0 c) (or_introl eq_refl) GA eq_refl GN rs eq_refl).
    destruct (handle_responses from rs (set_node n0 c)) as [[c2 o2] r2]. exact HR.
  - rewrite NS'. exact (HR (get_node from c) c (or_intror (conj eq_refl eq_refl)) GA GD GN rs eq_refl).
  - unfold modify. right. eapply (rcv_set_node from (MStatus s) c _); try reflexivity; auto.
  - pose proof (q_receive_header true id c) as Q. unfold quietp in Q. destruct (receive_header true id c) as [[c1 o1] r]. destruct Q as (-> & Q).
    right. apply rcv_quiet_state; auto.
  - pose proof (receive_transmission_same true f st c O) as Q. destruct (receive_transmission true f st c) as [[c1 o1] r]. destruct Q as (-> & Q).
    right. apply rcv_quiet_state; auto. rewrite Q. reflexivity.
  - right. apply rcv_quiet_state; auto.
  - right. apply rcv_quiet_state; auto.
Qed.
